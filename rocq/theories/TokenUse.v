(** Facts about replayed and malformed messages and IdentifyUser (C44, C45, C48, C49). *)
From Coq Require Import String Ascii ZArith NArith Lia Bool Arith List ZifyBool ZifyN ZifyNat.
From stdpp Require Import gmap strings.
From RecordUpdate Require Import RecordSet.
From Verif Require Import GoStr Utf8 Codec GoErr GoTime Role Name Email Random SpecValue RoleFacts EmailFacts RandomFacts.
From Verif Require Import Types Env Password ApiKey PublicKey Mfa User Json Persist Fs Database System UserFacts DbFacts Inv LoadFacts.
From Verif Require Import SpecDb SpecAuth SpecKey SpecMfa AccountFacts StepFacts PasswordFacts ApiKeyFacts PublicKeyFacts TotpFacts MfaFacts WebAuthnFacts TokenFacts.
Import ListNotations.
Import RecordSetNotations.
Open Scope string_scope.
#[local] Opaque int64 new_id trim_space new_email new_role.

(** ** Replay (C44) *)
Lemma same_p256 p t key : same_token p t -> p256_key p key -> p256_key t key.
Proof. intros H. unfold p256_key, param. now rewrite (same_params _ _ H). Qed.
Lemma same_proves E r q p t : same_token p t -> proves E r q p -> proves E r q t.
Proof.
  intros H [P1 P2 P3 P4 P5 P6 P7 (client & cd & auth & sig & key & D1 & D2 & D3 & D4 & D5 & D6 & D7 & D8 & D9 & D10)].
  pose proof (same_params _ _ H) as Pa. unfold param in *. constructor; unfold param; try rewrite Pa; auto.
  - now rewrite (same_disabled _ _ H).
  - now rewrite (same_type _ _ H).
  - exists client, cd, auth, sig, key. repeat (split; [assumption|]). split; [eapply same_p256; eauto|]. auto.
Qed.
Lemma same_candidate id p t : same_token p t -> candidate id p -> candidate id t.
Proof. intros H. unfold candidate, param. now rewrite (same_params _ _ H), (same_disabled _ _ H), (same_type _ _ H). Qed.
Lemma same_first u u' id p : Forall2 same_token (u_mfa u) (u_mfa u') -> first_candidate u id p -> exists t, first_candidate u' id t /\ same_token p t.
Proof.
  intros F (l1 & l2 & Hl & Hc & Hn). rewrite Hl in F. apply Forall2_app_inv_l in F as (m1 & m2 & F1 & F2 & Hm).
  inversion F2 as [|? t ? m3 St F3]; subst. exists t. split; [|exact St]. exists m1, m3. split; [exact Hm|]. split; [eapply same_candidate; eauto|].
  clear - F1 Hn. induction F1 as [|x y l l' S F IH]; [constructor|]. inversion Hn; subst. constructor; [|auto]. intros C. apply H1. eapply same_candidate; [|exact C]. now apply same_sym.
Qed.
(** A message that one state accepts is accepted in every state whose account has the same tokens. *)
Lemma replay E nd nd' db fs db' fs' r : reachable E fs db -> reachable E fs' db' -> ru_password (rq_user r) = "" -> rw_request (rq_webauthn r) <> "" ->
  (forall i u, resolves_login E db (ru_username (rq_user r)) i u -> exists u', resolves_login E db' (ru_username (rq_user r)) i u' /\ Forall2 same_token (u_mfa u) (u_mfa u')) ->
  o_res (exec E nd OpAuthenticate db fs r) = OOk -> o_res (exec E nd' OpAuthenticate db' fs' r) = OOk.
Proof.
  intros HR HR' Hp Hw S. rewrite !authenticate_webauthn by assumption. intros (i & u & q & p & Hu & Ha & Hf & Hv).
  destruct (S i u Hu) as (u' & Hu' & F). destruct (same_first _ _ _ _ F Hf) as (t & Ht & St).
  exists i, u', q, t. repeat (split; [assumption|]). eapply same_proves; eauto.
Qed.
Lemma same_uncached_tokens u u' : same_uncached u u' -> Forall2 same_token (u_mfa u) (u_mfa u').
Proof. intros (l & -> & H). change (Forall2 same_token (u_mfa u) l). eapply Forall2_impl; [exact H|]. cbn. intros x y [Hx _]. exact Hx. Qed.
Lemma Forall2_same_refl l : Forall2 same_token l l.
Proof. induction l; constructor; auto. reflexivity. Qed.
Lemma authenticate_tokens E nd db fs r i u : account db i u -> exists u', account (o_db (exec E nd OpAuthenticate db fs r)) i u' /\
  same_identity u u' /\ Forall2 same_token (u_mfa u) (u_mfa u') /\ u_passwords u' = u_passwords u /\ u_revision u' = u_revision u.
Proof.
  intros Hu. destruct (exec_account E nd OpAuthenticate db fs r i u Hu) as (v & Hv & St). exists v. split; [exact Hv|].
  inversion St as [|u' res G V|op u' V U| |]; subst.
  - split; [repeat split|]. split; [apply Forall2_same_refl|auto].
  - pose proof (verify_webauthn_uncache E u r) as W. rewrite V in W. cbn [fst] in W. split; [|split].
    + destruct W as (l & -> & _). repeat split.
    + now apply same_uncached_tokens.
    + apply same_uncached_frame in W as (_ & W1 & _ & _ & W2 & _). auto.
  - inversion U.
Qed.
Lemma same_identity_login E db db' s i u u' : same_identity u u' -> account db' i u' -> resolves_login E db s i u -> resolves_login E db' s i u'.
Proof.
  intros (_ & Hn & He & _) Ha [(I & L & _ & A)|(I & L & _ & A)]; [left|right]; (split; [exact I|]); (split; [exact L|]); (split; [exact Ha|]).
  - unfold has_address in *. now rewrite He.
  - unfold has_username in *. now rewrite Hn.
Qed.
Lemma authenticate_returned E nd db fs r : o_res (exec E nd OpAuthenticate db fs r) <> OHang /\ o_res (exec E nd OpAuthenticate db fs r) <> OCrash.
Proof. destruct (authenticate_code E nd db fs r) as [[H _]|[[e H] _]]; rewrite H; split; discriminate. Qed.
Lemma resolves_account E db s i u : resolves_login E db s i u -> account db i u.
Proof. intros [(_ & _ & H & _)|(_ & _ & H & _)]; exact H. Qed.

(** ** Malformed registrations (C45) *)
Lemma jv_is_None v z : jv_is v z = None <-> ~ is_number v.
Proof.
  unfold jv_is, is_number. destruct v as [z'|s|].
  - split; [destruct z'; discriminate|]. intros H. exfalso. apply H. eauto.
  - split; [|reflexivity]. intros _ [x Hx]. discriminate.
  - split; [|reflexivity]. intros _ [x Hx]. discriminate.
Qed.
Lemma jv_is_true v z : jv_is v z = Some true <-> v = VNum (Some z).
Proof.
  unfold jv_is. destruct v as [[x|]|s|]; split; try discriminate.
  - intros [= H]. apply Z.eqb_eq in H. now subst.
  - intros [=->]. now rewrite Z.eqb_refl.
Qed.
Lemma coord_of_None pk k : coord_of pk k = None <-> exists v, pk !! k = Some v /\ ~ is_text v.
Proof.
  unfold coord_of, is_text. destruct (pk !! k) as [v|]; [|split; [discriminate|intros (v & ? & _); discriminate]].
  destruct v as [z|s|].
  - split; [|reflexivity]. intros _. eexists. split; [reflexivity|]. intros [x Hx]. discriminate.
  - split; [discriminate|]. intros (v & [=<-] & N). exfalso. apply N. eauto.
  - split; [|reflexivity]. intros _. eexists. split; [reflexivity|]. intros [x Hx]. discriminate.
Qed.
Ltac no_panic := split; [discriminate|]; intros [[v0 [Hv0 Nv0]]|[[I0 [v0 [Hv0 Nv0]]]|[(I0 & I1 & [v0 [Hv0 Nv0]])|(I0 & I1 & I2 & k0 & v0 & Hk0 & Hv0 & Nv0)]]]; unfold int_field in *; try congruence.
Lemma u2f_panic_iff p q : u2f_register p q = RPanic <->
  wr_id q <> "" /\ wr_type q = "public-key" /\ Forall (fun s => In s ["usb"; "nfc"; "ble"; "internal"]) (wr_transports q) /\
  exists h flags counter pk, h <> "" /\
    wr_att q = Some {| ao_auth := Some {| ad_rpid := h; ad_flags := Some flags; ad_counter := counter; ad_cred := Some {| cd_pubkey := Some pk |} |} |} /\ panicking pk.
Proof.
  unfold u2f_register.
  destruct (String.eqb_spec (wr_id q) "") as [|Nid]; [split; [discriminate|tauto]|].
  destruct (String.eqb_spec (wr_type q) "") as [Te|]; [split; [discriminate|intros (_ & T & _); congruence]|].
  destruct (String.eqb_spec (wr_type q) "public-key") as [Ty|]; cbn [negb]; [|split; [discriminate|intros (_ & T & _); congruence]].
  destruct (bad_transport (wr_transports q)) eqn:Tr; [split; [discriminate|intros (_ & _ & T & _); apply bad_transport_None in T; congruence]|].
  apply bad_transport_None in Tr.
  destruct (wr_att q) as [[[[h [flags|] counter [[[pk|]]|]]|]]|] eqn:Att; cbn [ao_auth ad_rpid ad_flags ad_cred cd_pubkey];
    try (split; [try destruct (String.eqb _ ""); discriminate|intros (_ & _ & _ & h' & f' & c' & pk' & _ & X & _); discriminate]).
  destruct (String.eqb_spec h "") as [->|Nh]; [split; [discriminate|intros (_ & _ & _ & h' & f' & c' & pk' & N & X & _); congruence]|].
  match goal with |- ?G = RPanic <-> _ => assert (K : G = RPanic <-> panicking pk) end.
  2:{ rewrite K. clear K. split.
      - intros P. repeat (split; [assumption|]). exists h, flags, counter, pk. auto.
      - intros (_ & _ & _ & h' & f' & c' & pk' & _ & [= <- <- <- <-] & P). exact P. }
  unfold panicking, ill_number.
  destruct (pk !! "key_type") as [v|] eqn:H1; [|no_panic].
  destruct (jv_is v 2) as [b|] eqn:J1.
  2:{ split; [|reflexivity]. intros _. left. exists v. split; [reflexivity|]. now apply jv_is_None in J1. }
  assert (N1 : is_number v). { destruct v; try discriminate. eexists; reflexivity. }
  destruct b.
  2:{ no_panic. all: assert (v = VNum (Some 2%Z)) as Hv by congruence; apply jv_is_true in Hv; congruence. }
  apply jv_is_true in J1. subst v.
  destruct (pk !! "algorithm") as [v|] eqn:H2; [|no_panic].
  destruct (jv_is v (-7)) as [b|] eqn:J2.
  2:{ split; [|reflexivity]. intros _. right. left. split; [exact H1|]. exists v. split; [reflexivity|]. now apply jv_is_None in J2. }
  assert (N2 : is_number v). { destruct v; try discriminate. eexists; reflexivity. }
  destruct b.
  2:{ no_panic. all: assert (v = VNum (Some (-7)%Z)) as Hv by congruence; apply jv_is_true in Hv; congruence. }
  apply jv_is_true in J2. subst v.
  assert (Q : (pk !! "curve_type" = None \/ int_field pk "curve_type" 1) ->
    (match coord_of pk "curve_x", coord_of pk "curve_y" with Some _, Some _ => true | _, _ => false end = false <->
     exists k v, In k ["curve_x"; "curve_y"] /\ pk !! k = Some v /\ ~ is_text v)).
  { intros _. split.
    - destruct (coord_of pk "curve_x") eqn:C1.
      + destruct (coord_of pk "curve_y") eqn:C2; [discriminate|]. apply coord_of_None in C2 as (v & Hv & Nv). intros _. exists "curve_y", v. cbn. auto.
      + apply coord_of_None in C1 as (v & Hv & Nv). intros _. exists "curve_x", v. cbn. auto.
    - intros (k & v & [<-|[<-|[]]] & Hv & Nv).
      + assert (coord_of pk "curve_x" = None) as -> by (apply coord_of_None; eauto). reflexivity.
      + assert (coord_of pk "curve_y" = None) as -> by (apply coord_of_None; eauto). destruct coord_of; reflexivity. }
  destruct (pk !! "curve_type") as [v|] eqn:H3.
  - destruct (jv_is v 1) as [b|] eqn:J3.
    2:{ split; [|reflexivity]. intros _. right. right. left. split; [exact H1|]. split; [exact H2|]. exists v. split; [reflexivity|]. now apply jv_is_None in J3. }
    assert (N3 : is_number v). { destruct v; try discriminate. eexists; reflexivity. }
    destruct b.
    2:{ no_panic. all: destruct I2 as [I2|I2]; [congruence|]; assert (v = VNum (Some 1%Z)) as Hv by congruence; apply jv_is_true in Hv; congruence. }
    apply jv_is_true in J3. subst v. assert (Hc : int_field pk "curve_type" 1) by exact H3. specialize (Q (or_intror Hc)). split.
    + intros P. right. right. right. split; [exact H1|]. split; [exact H2|]. split; [right; exact Hc|]. apply Q. destruct coord_of; [destruct coord_of|]; congruence.
    + intros P. assert (X : exists k v, In k ["curve_x"; "curve_y"] /\ pk !! k = Some v /\ ~ is_text v).
      { unfold int_field in *. destruct P as [[v [Hv Nv]]|[[_ [v [Hv Nv]]]|[(_ & _ & [v [Hv Nv]])|(_ & _ & _ & X)]]]; [exfalso; congruence..|exact X]. }
      apply Q in X. destruct coord_of; [destruct coord_of|]; congruence.
  - specialize (Q (or_introl eq_refl)). split.
    + intros P. right. right. right. split; [exact H1|]. split; [exact H2|]. split; [left; reflexivity|]. apply Q. destruct coord_of; [destruct coord_of|]; congruence.
    + intros P. assert (X : exists k v, In k ["curve_x"; "curve_y"] /\ pk !! k = Some v /\ ~ is_text v).
      { unfold int_field in *. destruct P as [[v [Hv Nv]]|[[_ [v [Hv Nv]]]|[(_ & _ & [v [Hv Nv]])|(_ & _ & _ & X)]]]; [exfalso; congruence..|exact X]. }
      apply Q in X. destruct coord_of; [destruct coord_of|]; congruence.
Qed.
Lemma new_token_panic_iff E nd r : snd (new_mfa_token E nd r) = RPanic <-> exists pk, carries_key E r pk /\ panicking pk.
Proof.
  unfold new_mfa_token, carries_key. cbv zeta. destruct (String.eqb_spec (rm_type (rq_mfa r)) "totp") as [T|N].
  - split; [|intros (pk & (H & _) & _); congruence]. destruct negb; [discriminate|]. destruct (_ || _); [discriminate|]. destruct (_ || _); [discriminate|]. destruct validate_code; discriminate.
  - destruct (String.eqb_spec (rm_type (rq_mfa r)) "u2f") as [T|N2].
    2:{ split; [destruct String.eqb; discriminate|]. intros (pk & (H & _) & _). congruence. }
    destruct (String.eqb_spec (rw_register (rq_webauthn r)) "") as [|N3].
    { split; [discriminate|]. intros (pk & (_ & _ & d & q & f & c & h & X & _) & _). congruence. }
    destruct (String.eqb_spec (rw_challenge (rq_webauthn r)) "") as [|N4].
    { split; [discriminate|]. intros (pk & (_ & X & _) & _). congruence. }
    destruct (b64_decode (rw_register (rq_webauthn r))) as [d|].
    2:{ split; [discriminate|]. intros (pk & (_ & _ & d & q & f & c & h & _ & X & _) & _). congruence. }
    destruct (e_register E d) as [q|] eqn:Eq.
    2:{ split; [discriminate|]. intros (pk & (_ & _ & d' & q & f & c & h & _ & X & Y & _) & _). congruence. }
    cbn [snd]. rewrite u2f_panic_iff. split.
    + intros (H1 & H2 & H3 & h & f & c & pk & Hh & Ha & P). exists pk. split; [|exact P]. repeat (split; [assumption|]). exists d, q, f, c, h. repeat (split; [assumption || reflexivity|]). exact Ha.
    + intros (pk & (_ & _ & d' & q' & f & c & h & _ & [=<-] & Eq' & H1 & H2 & H3 & Hh & Ha) & P). assert (q' = q) as -> by congruence.
      repeat (split; [assumption|]). exists h, f, c, pk. auto.
Qed.
Lemma add_mfa_panic_iff E nd db fs r : reachable E fs db -> let o := exec E nd OpAddMfaToken db fs r in
  o_res o = OPanic <-> exists i u pk, identity_of E db r i u /\ carries_key E r pk /\ panicking pk.
Proof.
  intros HR o. unfold o. cbn [exec]. unfold db_add_mfa_token. destruct (validate_identity E db r) as [[i u]|e] eqn:V.
  - unfold add_mfa_token. pose proof (new_token_panic_iff E nd r) as P. destruct (new_mfa_token E nd r) as [r' res]. cbn [snd] in P.
    assert (X : (exists i u pk, identity_of E db r i u /\ carries_key E r pk /\ panicking pk) <-> res = RPanic).
    { rewrite P. split; [intros (_ & _ & pk & _ & H); eauto|]. intros (pk & H). exists i, u, pk. split; [now apply (validate_iff _ fs)|exact H]. }
    rewrite X. destruct res as [t|e|]; cbn; [|split; discriminate|tauto].
    destruct (dup_token t (u_mfa u)); [split; discriminate|]. cbn. unfold finish. destruct commit as [[db2 fs2] []]; split; discriminate.
  - split; [discriminate|]. intros (i & u & pk & V' & _). apply (validate_iff _ fs) in V'; [|assumption]. congruence.
Qed.
Lemma well_typed_no_panic pk : well_typed pk -> ~ panicking pk.
Proof.
  intros [W1 W2] [[v [Hv Nv]]|[[_ [v [Hv Nv]]]|[(_ & _ & [v [Hv Nv]])|(_ & _ & _ & k & v & Hk & Hv & Nv)]]].
  - apply Nv. apply (W1 "key_type"); cbn; auto.
  - apply Nv. apply (W1 "algorithm"); cbn; auto.
  - apply Nv. apply (W1 "curve_type"); cbn; auto.
  - apply Nv. apply (W2 k); auto.
Qed.
Lemma panic_frame E nd db fs r : let o := exec E nd OpAddMfaToken db fs r in o_res o = OPanic -> o_db o = db /\ o_fs o = fs.
Proof.
  intros o. unfold o. cbn [exec]. unfold db_add_mfa_token. destruct validate_identity as [[i u]|e]; [|discriminate].
  destruct add_mfa_token as [r' [t|e|]]; cbn; auto. unfold finish. destruct commit as [[db2 fs2] []]; discriminate.
Qed.

(** ** IdentifyUser (C48, C49) *)
Lemma role_shown ro : shows_role ro (role_string ro).
Proof. unfold shows_role, role_string. destruct (String.eqb_spec (ro_org ro) ""); auto. Qed.
Lemma roles_shown l : Forall2 shows_role l (roles_claim l).
Proof. induction l; constructor; auto using role_shown. Qed.
Lemma append_nil_r s : s ++ "" = s.
Proof. apply los_inj. rewrite los_app. apply app_nil_r. Qed.
Lemma name_shown u : shows_name u (name_claim u).
Proof.
  unfold shows_name, name_claim. destruct (u_name u) as [n|]; [right|left; auto]. exists n. split; [reflexivity|]. unfold full_name.
  destruct (String.eqb_spec (nm_first n) "") as [H|H]; [left; now rewrite append_nil_r|right; auto].
Qed.
Lemma get_flags_spec u r : exists f, get_flags u r = r <| rq_flags := f |> /\ rf_enabled f = rf_enabled (rq_flags r) /\
  raised (rf_configured (rq_flags r)) (rf_configured f) (exists t, In t (u_mfa u) /\ t_disabled t = false) /\
  raised (rf_app (rq_flags r)) (rf_app f) (enabled_token u "totp") /\ raised (rf_universal (rq_flags r)) (rf_universal f) (enabled_token u "u2f").
Proof.
  unfold get_flags, enabled_token, raised. revert r. induction (u_mfa u) as [|t l IH]; intros r; cbn [fold_left].
  - exists (rq_flags r). split; [now destruct r|]. split; [reflexivity|]. repeat split; try (intros H; now left); intros [H|(x & [] & _)]; exact H.
  - match goal with |- context [fold_left _ l ?x] => destruct (IH x) as (f & -> & H0 & H1 & H2 & H3) end. exists f. destruct (t_disabled t) eqn:D.
    + split; [reflexivity|]. split; [exact H0|]. split; [|split].
      * rewrite H1. split; (intros [H|(x & Hx & Hd)]; [now left|right; exists x]); [split; [now right|auto]|]. destruct Hx as [->|Hx]; [congruence|auto].
      * rewrite H2. split; (intros [H|(x & Hx & Hd & Hy)]; [now left|right; exists x]); [split; [now right|auto]|]. destruct Hx as [->|Hx]; [congruence|auto].
      * rewrite H3. split; (intros [H|(x & Hx & Hd & Hy)]; [now left|right; exists x]); [split; [now right|auto]|]. destruct Hx as [->|Hx]; [congruence|auto].
    + assert (B : exists x, In x (t :: l) /\ t_disabled x = false) by (exists t; split; [now left|exact D]).
      assert (R : forall ty, (exists x, In x (t :: l) /\ t_disabled x = false /\ t_type x = ty) <-> t_type t = ty \/ exists x, In x l /\ t_disabled x = false /\ t_type x = ty).
      { intros ty. split.
        - intros (x & [->|Hx] & Hd & Hy); [now left|right; eauto].
        - intros [H|(x & Hx & Hd & Hy)]; [exists t|exists x]; cbn; auto. }
      rewrite !R. destruct (String.eqb_spec (t_type t) "totp") as [T|T].
      * cbn in H0, H1, H2, H3. rewrite T. split; [reflexivity|]. split; [exact H0|]. split; [tauto|]. split; [tauto|].
        rewrite H3. split; [tauto|]. intros [?|[?|?]]; try tauto. discriminate.
      * destruct (String.eqb_spec (t_type t) "u2f") as [T2|T2]; cbn in H0, H1, H2, H3; (split; [reflexivity|]); (split; [exact H0|]); (split; [tauto|]); split; tauto.
Qed.
Lemma identify_unknown E nd db fs r : reachable E fs db -> (forall i u, ~ resolves_login E db (ru_username (rq_user r)) i u) ->
  exec E nd OpIdentify db fs r = {| o_db := db; o_fs := fs;
    o_req := r <| rq_user; ru_username := "nobody" |> <| rq_user; ru_email := "nobody@localhost" |> <| rq_user; ru_challenges := ["password"] |>; o_res := OOk |}.
Proof.
  intros HR N. cbn [exec]. unfold db_identify. destruct get_user as [[i u]|] eqn:G; [|reflexivity].
  exfalso. apply (N i u). now apply (get_user_resolves _ fs).
Qed.
Lemma identify_known E nd db fs r i u : reachable E fs db -> resolves_login E db (ru_username (rq_user r)) i u ->
  exists mail name roles flags, exec E nd OpIdentify db fs r = {| o_db := db; o_fs := fs;
    o_req := r <| rq_flags := flags |> <| rq_user; ru_username := u_username u |> <| rq_user; ru_email := mail |> <| rq_user; ru_full_name := name |>
      <| rq_user; ru_roles := roles |> <| rq_user; ru_challenges := challenges u |> <| rq_code := 200%Z |>; o_res := OOk |} /\
    first_address u mail /\ shows_name u name /\ Forall2 shows_role (u_roles u) roles /\
    rf_enabled flags = rf_enabled (rq_flags r) /\
    (rf_enabled (rq_flags r) = false -> flags = rq_flags r) /\
    (rf_enabled (rq_flags r) = true ->
      raised (rf_configured (rq_flags r)) (rf_configured flags) (exists t, In t (u_mfa u) /\ t_disabled t = false) /\
      raised (rf_app (rq_flags r)) (rf_app flags) (enabled_token u "totp") /\ raised (rf_universal (rq_flags r)) (rf_universal flags) (enabled_token u "u2f")).
Proof.
  intros HR V. apply (get_user_resolves _ fs) in V; [|assumption]. cbn [exec]. unfold db_identify. rewrite V. cbv zeta.
  destruct (rf_enabled (rq_flags r)) eqn:En.
  - destruct (get_flags_spec u r) as (f & -> & F0 & F). exists (mail_claim u), (name_claim u), (roles_claim (u_roles u)), f.
    split; [reflexivity|]. split; [apply mail_claim_first|]. split; [apply name_shown|]. split; [apply roles_shown|]. split; [congruence|]. split; [discriminate|auto].
  - exists (mail_claim u), (name_claim u), (roles_claim (u_roles u)), (rq_flags r).
    split; [now destruct r|]. split; [apply mail_claim_first|]. split; [apply name_shown|]. split; [apply roles_shown|]. split; [exact En|]. split; [reflexivity|discriminate].
Qed.
Lemma challenges_iff u : In "mfa" (challenges u) <-> u_mfa u <> [].
Proof. unfold challenges. destruct (u_mfa u); cbn; split; intuition (congruence || discriminate). Qed.
Lemma challenges_spec u : (u_mfa u = [] /\ challenges u = ["password"]) \/ (u_mfa u <> [] /\ challenges u = ["password"; "mfa"]).
Proof. unfold challenges. destruct (u_mfa u); [left|right]; split; auto. Qed.
