(** Facts about token registration, uniqueness, replay and IdentifyUser (C38-C41, C44, C45, C48, C49). *)
From Coq Require Import String Ascii ZArith NArith Lia Bool Arith List ZifyBool ZifyN ZifyNat.
From stdpp Require Import gmap strings.
From RecordUpdate Require Import RecordSet.
From Verif Require Import GoStr Utf8 Codec GoErr GoTime Role Name Email Random SpecValue RoleFacts EmailFacts RandomFacts.
From Verif Require Import Types Env Password ApiKey PublicKey Mfa User Json Persist Fs Database System UserFacts DbFacts Inv LoadFacts.
From Verif Require Import SpecDb SpecAuth SpecKey SpecMfa AccountFacts StepFacts ApiKeyFacts PublicKeyFacts TotpFacts MfaFacts WebAuthnFacts.
Import ListNotations.
Import RecordSetNotations.
Open Scope string_scope.
#[local] Opaque int64 new_id trim_space new_email new_role.

(** ** One-time passwords (C41) *)
Lemma previous_period now P T : in_period (now - P * 1000000000) P (T - 1) <-> in_period now P T.
Proof. unfold in_period, second_ns, epoch_ns. nia. Qed.
Definition base_token (nd : Nd) (r : Request) : MfaToken :=
  let m := rq_mfa r in
  {| t_id := random_string 40 (nd_id nd); t_type := rm_type m; t_algorithm := ""; t_comment := rm_comment m; t_secret := "";
     t_period := 0; t_digits := 0; t_expired := false; t_expired_at := 0; t_created := nd_clock nd;
     t_disabled := rm_disabled m; t_disabled_at := if rm_disabled m then nd_clock nd else 0%Z;
     t_device := None; t_params := ∅; t_flags := ∅; t_counter := 0; t_cache := None |}.
Definition totp_of (nd : Nd) (r : Request) (a : string) (d : Z) : MfaToken :=
  base_token nd r <| t_secret := rm_secret (rq_mfa r) |> <| t_algorithm := a |> <| t_period := rm_period (rq_mfa r) |> <| t_digits := d |>.
Lemma totp_iff E nd r t : hmac_size E -> rm_type (rq_mfa r) = "totp" ->
  snd (new_mfa_token E nd r) = ROk t <-> exists a d, registers_totp E (nd_clock nd) r a d /\ t = totp_of nd r a d.
Proof.
  intros Hh Ty. unfold new_mfa_token. cbv zeta. fold (base_token nd r). rewrite Ty, String.eqb_refl.
  set (b := lower E (rm_algorithm (rq_mfa r))). set (a0 := if String.eqb b "" then "sha1" else b).
  set (d0 := if (rm_digits (rq_mfa r) =? 0)%Z then 6%Z else rm_digits (rq_mfa r)).
  assert (CA : forall a, chosen_algorithm E r a <-> known_algorithm a0 /\ a = a0).
  { intros a. unfold chosen_algorithm. fold b. unfold a0. destruct (String.eqb_spec b "") as [Eb|N].
    - split; [|intros [_ ->]; auto]. intros [[_ ->]|[<- K]]; [split; [now left|reflexivity]|]. rewrite Eb in K. destruct K as [K|[K|K]]; discriminate.
    - split; [|intros [K ->]; auto]. intros [[K _]|[<- K]]; [contradiction|auto]. }
  assert (CD : forall d, chosen_digits r d <-> d = d0).
  { intros d. unfold chosen_digits, d0. destruct (rm_digits (rq_mfa r) =? 0)%Z eqn:Z0; split; lia. }
  match goal with |- context [negb ?x] => assert (KA : x = true <-> known_algorithm a0) end.
  { unfold a0. rewrite orb_true_iff, known_eqb, String.eqb_eq. destruct (String.eqb_spec b "") as [Eb|N].
    - split; [intros _; now left|auto].
    - split; [intros [K|K]; [exact K|contradiction]|auto]. }
  destruct (_ || _) eqn:KB; cbn [negb].
  2:{ split; [discriminate|]. intros (a & d & R & _). destruct (proj1 (CA a) (rt_algorithm _ _ _ _ _ R)) as [K _]. apply KA in K. discriminate. }
  pose proof (proj1 KA eq_refl) as K. clear KA KB.
  destruct ((rm_period (rq_mfa r) <? 30)%Z || (rm_period (rq_mfa r) >? 300)%Z) eqn:P.
  { cbn [snd]. split; [discriminate|]. intros (a & d & R & _). pose proof (rt_period _ _ _ _ _ R) as [? ?]. lia. }
  destruct ((d0 <? 4)%Z || (d0 >? 8)%Z) eqn:D.
  { cbn [snd]. split; [discriminate|]. intros (a & d & R & _). pose proof (rt_digits_range _ _ _ _ _ R) as [? ?].
    pose proof (proj1 (CD d) (rt_digits _ _ _ _ _ R)). lia. }
  fold (totp_of nd r a0 d0).
  pose (P0 := rm_period (rq_mfa r)). pose (T := (unix (nd_clock nd) / P0)%Z).
  assert (HT : in_period (nd_clock nd) P0 T) by (apply in_period_iff; unfold P0 in *; [lia|reflexivity]).
  pose proof HT as HT'. apply previous_period in HT'.
  pose proof (validate_code_iff E (totp_of nd r a0 d0) (rm_passcode (rq_mfa r)) (nd_clock nd - P0 * 1000000000) (T - 1) Hh ltac:(change (1 <= P0)%Z; unfold P0; lia) HT') as V.
  cbv zeta in V. fold P0. change (t_digits (totp_of nd r a0 d0)) with d0 in V.
  match goal with |- context [validate_code E ?t _ _] => change t with (totp_of nd r a0 d0) end.
  destruct (validate_code E (totp_of nd r a0 d0) (rm_passcode (rq_mfa r)) (nd_clock nd - P0 * 1000000000)) as [e|]; cbn [snd].
  - split; [discriminate|]. intros (a & d & R & ->). exfalso. enough (Some e = None) by discriminate. apply V.
    destruct R as [R1 R2 R3 R4 R5 (T1 & T2 & I1 & L & C)]. apply CA in R2 as [_ ->]. apply CD in R3 as ->.
    assert (T1 = T) as -> by (eapply in_period_det; [|exact I1|exact HT]; unfold P0; lia).
    pose proof (code_of_length _ _ _ _ _ _ C) as [Z _]. destruct R4. split; [unfold within; lia|]. split; [lia|]. exists T2. split; [lia|]. exact C.
  - split.
    + intros [=<-]. exists a0, d0. split; [|reflexivity]. destruct (proj1 V eq_refl) as ([V1 V2] & V3 & T' & L & C). constructor.
      * exact Ty.
      * now apply CA.
      * now apply CD.
      * unfold within. lia.
      * unfold within. lia.
      * exists T, T'. split; [exact HT|]. split; [lia|exact C].
    + intros (a & d & R & ->). destruct R as [R1 R2 R3 R4 R5 R6]. apply CA in R2 as [_ ->]. apply CD in R3 as ->. reflexivity.
Qed.
Lemma totp_of_entry nd r a d : totp_entry nd r a d (totp_of nd r a d) <-> rm_type (rq_mfa r) = "totp".
Proof. split; [intros []; assumption|]. intros H. constructor; cbn; auto. Qed.
Lemma totp_of_token nd r a d : token_entry nd r (totp_of nd r a d).
Proof. constructor; reflexivity. Qed.

(** ** Token parameters (C38) *)
Lemma bad_transport_None l : bad_transport l = None <-> Forall (fun s => In s ["usb"; "nfc"; "ble"; "internal"]) l.
Proof.
  induction l as [|t l IH]; cbn [bad_transport]; [split; constructor|].
  destruct existsb eqn:X.
  - rewrite IH. apply existsb_exists in X as (y & Hy & Ey). apply String.eqb_eq in Ey as <-. split; [now constructor|]. now inversion 1.
  - assert (N : ~ In t ["usb"; "nfc"; "ble"; "internal"]). { intros H. apply not_true_iff_false in X. apply X. apply existsb_exists. exists t. split; [exact H|apply String.eqb_refl]. }
    split; [destruct String.eqb; discriminate|]. inversion 1; contradiction.
Qed.
Lemma u2f_register_ok p q t : t_params p = ∅ -> t_type p = "u2f" -> t_secret p <> "" -> u2f_register p q = ROk t ->
  u2f_token t /\ t_id t = t_id p /\ t_type t = t_type p /\ t_comment t = t_comment p /\ t_secret t = t_secret p /\ t_created t = t_created p /\
  t_disabled t = t_disabled p /\ t_expired t = t_expired p /\ param t "u2f_id" (wr_id q).
Proof.
  intros Hp Ht Hs. unfold u2f_register.
  destruct (String.eqb_spec (wr_id q) "") as [|Nid]; [discriminate|]. destruct (String.eqb (wr_type q) ""); [discriminate|].
  destruct (String.eqb_spec (wr_type q) "public-key") as [Ty|]; cbn [negb]; [|discriminate].
  destruct (bad_transport (wr_transports q)) eqn:Tr; [discriminate|]. apply bad_transport_None in Tr.
  destruct (wr_att q) as [ao|]; [|discriminate]. destruct (ao_auth ao) as [ad|]; [|discriminate].
  destruct (String.eqb_spec (ad_rpid ad) "") as [|Nrp]; [discriminate|]. destruct (ad_flags ad) as [fl|]; [|discriminate].
  destruct (ad_cred ad) as [cd|]; [|discriminate]. destruct (cd_pubkey cd) as [pk|]; [|discriminate].
  destruct (pk !! "key_type") as [v|]; [|discriminate]. destruct (jv_is v 2) as [[]|]; try discriminate.
  destruct (pk !! "algorithm") as [v1|]; [|discriminate]. destruct (jv_is v1 (-7)) as [[]|]; try discriminate.
  match goal with |- context [match ?x with Some _ => _ | None => RPanic end] => assert (Hc : forall c, x = Some (Some c) -> c = "" \/ c = "p256") end.
  { intros c. destruct (pk !! "curve_type") as [v2|]; [|intros [=<-]; auto]. destruct (jv_is v2 1) as [[]|]; try discriminate. intros [=<-]; auto. }
  match goal with |- context [match ?x with Some _ => _ | None => RPanic end] => destruct x as [[curve|]|]; try discriminate end.
  specialize (Hc curve eq_refl). destruct (coord_of pk "curve_x") as [x|]; [|discriminate]. destruct (coord_of pk "curve_y") as [y|]; [|discriminate].
  intros [=<-]. split.
  - assert (G : forall k v, <["rp_id_hash" := ad_rpid ad]> (<["u2f_id" := wr_id q]> (<["u2f_type" := wr_type q]>
                  (<["u2f_transports" := join "," (wr_transports q)]> (<["key_type" := "ec2"]> (<["key_algo" := "es256"]>
                  (<["curve_type" := curve]> (<["curve_xcoord" := x]> (<["curve_ycoord" := y]> (∅ : gmap string string))))))))) !! k = Some v ->
                  param (p <| t_flags := fl |> <| t_counter := ad_counter ad |> <| t_params := <["rp_id_hash" := ad_rpid ad]> (<["u2f_id" := wr_id q]> (<["u2f_type" := wr_type q]>
                  (<["u2f_transports" := join "," (wr_transports q)]> (<["key_type" := "ec2"]> (<["key_algo" := "es256"]>
                  (<["curve_type" := curve]> (<["curve_xcoord" := x]> (<["curve_ycoord" := y]> (t_params p))))))))) |>) k v) by (unfold param; cbn [t_params set]; rewrite Hp; auto).
    constructor.
    + exact Ht.
    + exact Hs.
    + exists (wr_id q). split; [|exact Nid]. apply G. now rewrite lookup_insert_ne, lookup_insert by discriminate.
    + apply G. rewrite !lookup_insert_ne by discriminate. now rewrite lookup_insert, Ty.
    + apply G. rewrite !lookup_insert_ne by discriminate. now rewrite lookup_insert.
    + apply G. rewrite !lookup_insert_ne by discriminate. now rewrite lookup_insert.
    + destruct Hc as [-> | ->]; [left|right]; apply G; rewrite !lookup_insert_ne by discriminate; now rewrite lookup_insert.
    + exists (ad_rpid ad). split; [|exact Nrp]. apply G. now rewrite lookup_insert.
    + exists x. apply G. rewrite !lookup_insert_ne by discriminate. now rewrite lookup_insert.
    + exists y. apply G. rewrite !lookup_insert_ne by discriminate. now rewrite lookup_insert.
    + exists (wr_transports q). split; [|exact Tr]. apply G. rewrite !lookup_insert_ne by discriminate. now rewrite lookup_insert.
  - repeat split. unfold param. cbn [t_params set]. now rewrite lookup_insert_ne, lookup_insert by discriminate.
Qed.
Lemma new_token_ok E nd r t : snd (new_mfa_token E nd r) = ROk t -> (totp_token t \/ u2f_token t) /\ token_entry nd r t.
Proof.
  unfold new_mfa_token. cbv zeta. fold (base_token nd r). destruct (String.eqb_spec (rm_type (rq_mfa r)) "totp") as [Ty|].
  - destruct (_ || String.eqb _ "") eqn:K; cbn [negb]; [|discriminate].
    destruct ((rm_period (rq_mfa r) <? 30)%Z || (rm_period (rq_mfa r) >? 300)%Z) eqn:P; [discriminate|].
    match goal with |- context [if ?x then (_, RErr (EWith ErrMfaTokenInvalidDigits _)) else _] => destruct x eqn:D end; [discriminate|].
    destruct validate_code; [discriminate|]. cbn [snd]. intros [=<-]. split.
    + left. constructor; cbn; try (unfold within; lia); [exact Ty|]. apply known_eqb. destruct (String.eqb_spec (lower E (rm_algorithm (rq_mfa r))) "") as [Eq|]; [reflexivity|].
      apply orb_true_iff in K as [K|K]; [exact K|discriminate].
    + constructor; reflexivity.
  - destruct (String.eqb_spec (rm_type (rq_mfa r)) "u2f") as [Ty|].
    + destruct (String.eqb (rw_register _) ""); [discriminate|]. destruct (String.eqb_spec (rw_challenge (rq_webauthn r)) "") as [|Nc]; [discriminate|].
      destruct b64_decode as [d|]; [|discriminate]. destruct (e_register E d) as [q|]; [|discriminate]. cbn [snd]. intros U.
      apply u2f_register_ok in U as (U & H1 & H2 & H3 & H4 & H5 & H6 & H7 & _); [|reflexivity|exact Ty|exact Nc].
      split; [now right|]. constructor; assumption.
    + destruct String.eqb; discriminate.
Qed.

(** ** Adding a token (C38, C39, C41) *)
Lemma dup_token_None t l : dup_token t l = None <-> Forall (fun p => t_secret p <> t_secret t /\ t_comment p <> t_comment t) l.
Proof.
  induction l as [|k l IH]; cbn [dup_token]; [split; constructor|].
  destruct (String.eqb_spec (t_secret k) (t_secret t)) as [|N1]; [split; [discriminate|inversion 1; subst; tauto]|].
  destruct (String.eqb_spec (t_comment k) (t_comment t)) as [|N2]; [split; [discriminate|inversion 1; subst; tauto]|].
  rewrite IH. split; [auto|]. now inversion 1.
Qed.
Lemma add_mfa_iff E nd db fs r : reachable E fs db -> let o := exec E nd OpAddMfaToken db fs r in
  o_res o = OOk <->
  (exists i u t, identity_of E db r i u /\ snd (new_mfa_token E nd r) = ROk t /\ distinct_from u (t_secret t) (t_comment t)) /\
  can_write nd fs (db_path db) (db_content (o_db o)).
Proof.
  intros HR o. unfold o. rewrite upd_iff by (auto || discriminate || (unfold account_ops; cbn; auto 10)).
  match goal with |- ?A /\ _ <-> ?B /\ _ => assert (X : A <-> B); [|now rewrite X] end. split.
  - intros (i & u & u' & V & Up). inversion Up as [| | |q u1 A|]; subst. apply add_mfa_token_inv in A as (t & N & D & _).
    exists i, u, t. split; [exact V|]. split; [now rewrite N|]. now apply dup_token_None.
  - intros (i & u & t & V & N & D). exists i, u. eexists. split; [exact V|]. apply dup_token_None in D.
    destruct (new_mfa_token E nd r) as [r' res] eqn:X. cbn [snd] in N. subst res. apply (UpdAddMfa _ _ _ _ _ r'). unfold add_mfa_token. rewrite X, D. reflexivity.
Qed.
Lemma add_mfa_result E nd db fs r i u : reachable E fs db -> let o := exec E nd OpAddMfaToken db fs r in
  o_res o = OOk -> identity_of E db r i u ->
  exists u' t, account (o_db o) i u' /\ snd (new_mfa_token E nd r) = ROk t /\ u_mfa u' = (u_mfa u ++ [t])%list /\
    others_same u u' /\ u_apikeys u' = u_apikeys u /\ u_pubkeys u' = u_pubkeys u /\ revised nd u u'.
Proof.
  intros HR o H V. destruct (upd_account E nd OpAddMfaToken db fs r i u HR) as (u' & Hu' & Up); try discriminate; auto; try (unfold account_ops; cbn; auto 10; fail).
  inversion Up as [| | |q u1 A|]; subst. apply add_mfa_token_inv in A as (t & N & _ & ->). eexists _, t. split; [exact Hu'|]. split; [now rewrite N|].
  split; [reflexivity|]. repeat split.
Qed.
Lemma totp_add_iff E nd db fs r : reachable E fs db -> hmac_size E -> rm_type (rq_mfa r) = "totp" -> let o := exec E nd OpAddMfaToken db fs r in
  o_res o = OOk <->
  (exists i u a d, identity_of E db r i u /\ registers_totp E (nd_clock nd) r a d /\ distinct_from u (rm_secret (rq_mfa r)) (rm_comment (rq_mfa r))) /\
  can_write nd fs (db_path db) (db_content (o_db o)).
Proof.
  intros HR Hh Ty o. unfold o. rewrite add_mfa_iff by assumption.
  match goal with |- ?A /\ _ <-> ?B /\ _ => assert (X : A <-> B); [|now rewrite X] end. split.
  - intros (i & u & t & V & N & D). apply totp_iff in N as (a & d & R & ->); [|assumption|assumption]. exists i, u, a, d. auto.
  - intros (i & u & a & d & V & R & D). exists i, u, (totp_of nd r a d). split; [exact V|]. split; [|exact D]. apply totp_iff; eauto.
Qed.
(** A token of a later state was there at the start or was made by NewMfaToken. *)
Lemma in_map_uncache t l l' : map uncache l' = map uncache l -> In t l' -> exists p, In p l /\ same_token p t.
Proof.
  intros H Ht. apply (in_map uncache) in Ht. rewrite H in Ht. apply in_map_iff in Ht as (p & Hp & Hi). exists p. split; [exact Hi|exact Hp].
Qed.
Lemma later_tokens E fs db fs' db' i u' t : later E fs db fs' db' -> account db' i u' -> In t (u_mfa u') ->
  (exists u p, account db i u /\ In p (u_mfa u) /\ same_token p t) \/ exists nd r q, snd (new_mfa_token E nd r) = ROk q /\ same_token q t.
Proof.
  intros L. revert i u' t. refine (later_ind_db E (fun d d' => forall i u' t, account d' i u' -> In t (u_mfa u') ->
    (exists u p, account d i u /\ In p (u_mfa u) /\ same_token p t) \/ exists nd r q, snd (new_mfa_token E nd r) = ROk q /\ same_token q t) _ _ _ _ _ _ L).
  - intros d i u' t Hu Ht. left. exists u', t. repeat split; auto.
  - intros nd op d0 d fs0 r IH i u' t Hu' Ht. destruct (exec_ustep E nd op d fs0 r i u' Hu') as [(u & Hu & St)|(_ & _ & NA)].
    + assert (G : forall p, In p (u_mfa u) -> same_token p t -> (exists u0 p0, account d0 i u0 /\ In p0 (u_mfa u0) /\ same_token p0 t) \/
        (exists nd0 r0 q0, snd (new_mfa_token E nd0 r0) = ROk q0 /\ same_token q0 t)).
      { intros p Hp Sp. destruct (IH i u p Hu Hp) as [(u0 & p0 & ? & ? & ?)|(nd0 & r0 & q0 & ? & ?)]; unfold same_token in *.
        - left. exists u0, p0. repeat split; auto. congruence.
        - right. exists nd0, r0, q0. split; [auto|congruence]. }
      destruct (ustep_mfa _ _ _ _ _ _ _ _ St) as [Eq|[(_ & r' & t' & N & _ & Eq)|(_ & Eq)]].
      * destruct (in_map_uncache _ _ _ Eq Ht) as (p & Hp & Sp). eauto.
      * rewrite Eq in Ht. apply in_app_iff in Ht as [Ht|[->|[]]]; [apply (G t Ht eq_refl)|]. right. exists nd, r, t. split; [now rewrite N|reflexivity].
      * rewrite Eq in Ht. apply List.filter_In in Ht as [Ht _]. apply (G t Ht eq_refl).
    + destruct (na_keys _ _ _ _ NA) as (_ & _ & K). rewrite K in Ht. destruct Ht.
Qed.
Lemma same_totp p t : same_token p t -> totp_token p -> totp_token t.
Proof.
  unfold same_token. intros H [T1 T2 T3 T4].
  assert (t_type t = t_type p) as Q1 by exact (eq_sym (f_equal t_type H)). assert (t_algorithm t = t_algorithm p) as Q2 by exact (eq_sym (f_equal t_algorithm H)).
  assert (t_period t = t_period p) as Q3 by exact (eq_sym (f_equal t_period H)). assert (t_digits t = t_digits p) as Q4 by exact (eq_sym (f_equal t_digits H)).
  constructor; congruence.
Qed.
Lemma same_params p t : same_token p t -> t_params t = t_params p. Proof. intros H. exact (eq_sym (f_equal t_params H)). Qed.
Lemma same_type p t : same_token p t -> t_type t = t_type p. Proof. intros H. exact (eq_sym (f_equal t_type H)). Qed.
Lemma same_secret p t : same_token p t -> t_secret t = t_secret p. Proof. intros H. exact (eq_sym (f_equal t_secret H)). Qed.
Lemma same_comment p t : same_token p t -> t_comment t = t_comment p. Proof. intros H. exact (eq_sym (f_equal t_comment H)). Qed.
Lemma same_disabled p t : same_token p t -> t_disabled t = t_disabled p. Proof. intros H. exact (eq_sym (f_equal t_disabled H)). Qed.
Lemma same_counter p t : same_token p t -> t_counter t = t_counter p. Proof. intros H. exact (eq_sym (f_equal t_counter H)). Qed.
Lemma same_u2f p t : same_token p t -> u2f_token p -> u2f_token t.
Proof.
  intros H [U1 U2 U3 U4 U5 U6 U7 U8 U9 U10 U11]. unfold param in *. pose proof (same_params _ _ H). pose proof (same_type _ _ H). pose proof (same_secret _ _ H).
  constructor; unfold param; try congruence; rewrite (same_params _ _ H); assumption.
Qed.
Lemma later_wf E fs db fs' db' i u' t : later E fs db fs' db' -> account db' i u' -> In t (u_mfa u') ->
  (exists u p, account db i u /\ In p (u_mfa u) /\ same_token p t) \/ totp_token t \/ u2f_token t.
Proof.
  intros L Hu Ht. destruct (later_tokens E fs db fs' db' i u' t L Hu Ht) as [H|(nd & r & q & N & Sq)]; [now left|right].
  apply new_token_ok in N as [[T|U] _]; [left; eapply same_totp; eauto|right; eapply same_u2f; eauto].
Qed.

(** ** Uniqueness (C39) *)
Lemma same_sym p q : same_token p q -> same_token q p. Proof. unfold same_token. congruence. Qed.
Lemma same_trans p q s : same_token p q -> same_token q s -> same_token p s. Proof. unfold same_token. congruence. Qed.
Lemma uncached_lookup l l' a t : map uncache l' = map uncache l -> l' !! a = Some t -> exists p, l !! a = Some p /\ same_token p t.
Proof.
  intros H Ht. apply (f_equal (fun x => x !! a)) in H. change (map uncache) with (fmap uncache : list MfaToken -> list MfaToken) in H.
  rewrite !list_lookup_fmap, Ht in H. destruct (l !! a) as [p|]; [|discriminate]. exists p. split; [reflexivity|].
  exact (f_equal (fun o => default (uncache p) o) (eq_sym H)).
Qed.
Lemma ustep_clash E nd db r i u op v k l : ustep E nd db r i u op v -> holds_clash v k l -> holds_clash u k l.
Proof.
  intros St [C (a & b & p & q & L & Ha & Hb & Sp & Sq)]. split; [exact C|]. destruct (ustep_mfa _ _ _ _ _ _ _ _ St) as [Eq|[(_ & r' & t & _ & D & Eq)|(_ & Eq)]].
  - destruct (uncached_lookup _ _ _ _ Eq Ha) as (p' & Hp' & S1). destruct (uncached_lookup _ _ _ _ Eq Hb) as (q' & Hq' & S2).
    exists a, b, p', q'. repeat split; auto; eapply same_trans; eauto.
  - rewrite Eq in Ha, Hb. apply lookup_app_Some in Hb as [Hb|[Hb1 Hb2]].
    + rewrite lookup_app_l in Ha by (apply lookup_lt_Some in Hb; lia). exists a, b, p, q. repeat split; auto.
    + exfalso. assert (Z : (b - List.length (u_mfa u) = 0)%nat). { apply lookup_lt_Some in Hb2. cbn in Hb2. lia. }
      rewrite Z in Hb2. injection Hb2 as <-. rewrite lookup_app_l in Ha by lia. apply elem_of_list_lookup_2, elem_of_list_In in Ha.
      apply dup_token_None in D. rewrite List.Forall_forall in D. destruct (D p Ha) as [D1 D2].
      rewrite <- (same_secret _ _ Sp), <- (same_secret _ _ Sq) in D1. rewrite <- (same_comment _ _ Sp), <- (same_comment _ _ Sq) in D2.
      destruct C; contradiction.
  - rewrite Eq in Ha, Hb. destruct (filter_lookup _ _ _ _ _ _ L Ha Hb) as (a' & b' & L' & Ha' & Hb'). exists a', b', p, q. repeat split; auto.
Qed.
Lemma no_clash_new E nd r u k l : new_account E nd r u -> ~ holds_clash u k l.
Proof. intros NA [_ (a & b & p & q & _ & Ha & _)]. destruct (na_keys _ _ _ _ NA) as (_ & _ & K). rewrite K in Ha. destruct a; discriminate. Qed.
Lemma later_clash E fs db fs' db' i u' k l : later E fs db fs' db' -> account db' i u' -> holds_clash u' k l ->
  exists u, account db i u /\ holds_clash u k l.
Proof.
  intros L. revert i u' k l. refine (later_ind_db E (fun d d' => forall i u' k l, account d' i u' -> holds_clash u' k l -> exists u, account d i u /\ holds_clash u k l) _ _ _ _ _ _ L).
  - eauto.
  - intros nd op d0 d fs0 r IH i u' k l Hu' Hp. destruct (exec_ustep E nd op d fs0 r i u' Hu') as [(u & Hu & St)|(_ & _ & NA)].
    + eapply IH; eauto. eapply ustep_clash; eauto.
    + now apply (no_clash_new _ _ _ _ _ _ NA) in Hp.
Qed.
Definition mem_no_clash (m : Mem) : Prop := match m with Up d | Stuck d => forall i u k l, account d i u -> ~ holds_clash u k l | Down => True end.
Lemma no_clash_steps E w w' : steps E (loads_no_clash E) w w' -> mem_no_clash (w_mem w) -> mem_no_clash (w_mem w').
Proof.
  intros S M. induction S as [w|w1 ev w2 w3 S IH Hev St]; [exact M|]. specialize (IH M).
  destruct St as [nd fp fs m fs' res O N|nd op r fs db|fs m|fs m fs']; cbn [w_mem w_fs] in *; try exact I; try exact IH.
  - unfold after_load. destruct res; try exact IH; try exact I; try congruence. intros i u k l. apply (Hev fs' db i u k l O).
  - assert (Q : forall i u k l, account (o_db (exec E nd op db fs r)) i u -> ~ holds_clash u k l).
    { intros i u k l Hu Hp. destruct (exec_ustep E nd op db fs r i u Hu) as [(u0 & Hu0 & Us)|(_ & _ & NA)].
      - apply (IH i u0 k l Hu0). eapply ustep_clash; eauto.
      - now apply (no_clash_new _ _ _ _ _ _ NA) in Hp. }
    unfold after_call. destruct o_res; cbn; auto.
Qed.
Lemma add_clash_refused E nd db fs r i u t : reachable E fs db -> identity_of E db r i u -> snd (new_mfa_token E nd r) = ROk t ->
  ~ distinct_from u (t_secret t) (t_comment t) -> let o := exec E nd OpAddMfaToken db fs r in
  o_db o = db /\ o_fs o = fs /\ exists e, o_res o = OErr e.
Proof.
  intros HR V N D o. unfold o. cbn [exec]. unfold db_add_mfa_token. apply (validate_iff _ fs) in V; [|assumption]. rewrite V. unfold add_mfa_token.
  destruct (new_mfa_token E nd r) as [r' res]. cbn [snd] in N. subst res. destruct (dup_token t (u_mfa u)) eqn:X.
  - cbn. eauto.
  - exfalso. apply D. now apply dup_token_None.
Qed.
