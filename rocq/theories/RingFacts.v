(** Proofs about registered second factors (C122). *)
From Coq Require Import String Ascii ZArith NArith Lia Bool Arith List.
From stdpp Require Import gmap strings.
From RecordUpdate Require Import RecordSet.
From Verif Require Import GoStr Utf8 GoErr GoTime Role Name Email Random SpecValue RandomFacts.
From Verif Require Import Types Env Password ApiKey PublicKey Mfa User Json Persist Fs Database System UserFacts DbFacts Inv LoadFacts.
From Verif Require Import SpecDb SpecKey SpecCrypto SpecAuth SpecMfa SpecRegister SpecPersist SpecDefect SpecOutage SpecLedger SpecRing CryptoFacts AccountFacts StepFacts.
From Verif Require Import PublicKeyFacts TokenFacts MfaFacts RegisterFacts PersistFacts StoredFacts ReloadFacts OpenFacts LiveFacts LedgerFacts TookFacts TokenUse TotpFacts WebAuthnFacts RefuseFacts ShelfFacts.
Import ListNotations.
Import RecordSetNotations.
Open Scope string_scope.
#[local] Opaque int64 new_id trim_space new_email new_role.

(** ** Registrations and tokens *)
Definition made (E : Env) (f : Factor) (t : MfaToken) : Prop :=
  exists nd t0, snd (new_mfa_token E nd (fa_req f)) = ROk t0 /\ fa_id f = random_string 40 (nd_id nd) /\ uncache t = uncache t0.
Record wears (E : Env) (e : Ring) (u : User) : Prop := {
  we_name : u_username u = ri_name e;
  we_mail : exists m, u_emails u = [m] /\ em_address m = ri_mail e;
  we_factors : Forall2 (made E) (ri_factors e) (u_mfa u) }.
Lemma wears_insert E l us i u v (f : Ring -> Ring) r :
  Forall2 (wears E) l us -> us !! i = Some u -> same_ci E (u_username u) (ru_username (rq_user r)) ->
  (forall j w, us !! j = Some w -> same_ci E (u_username w) (u_username u) -> j = i) ->
  (forall e, wears E e u -> wears E (f e) v) ->
  Forall2 (wears E) (on_ring E r f l) (<[i := v]> us).
Proof.
  intros F Hi Sc U G. apply Forall2_lookup. intros j. unfold on_ring. rewrite list_lookup_fmap. destruct (decide (j = i)) as [->|Nj].
  - rewrite list_lookup_insert by (eapply lookup_lt_Some; exact Hi). destruct (Forall2_lookup_r _ _ _ _ _ F Hi) as (e & He & M). rewrite He. cbn. constructor.
    unfold same_ci in Sc. rewrite <- (we_name _ _ _ M), Sc, String.eqb_refl. auto.
  - rewrite list_lookup_insert_ne by congruence. destruct (us !! j) as [w|] eqn:Hj.
    + destruct (Forall2_lookup_r _ _ _ _ _ F Hj) as (e & He & M). rewrite He. cbn. constructor.
      destruct (String.eqb_spec (lower E (ri_name e)) (lower E (ru_username (rq_user r)))) as [X|X]; [|exact M].
      exfalso. apply Nj. apply (U j w Hj). unfold same_ci in *. rewrite (we_name _ _ _ M). congruence.
    + assert (Hl : l !! j = None) by (apply lookup_ge_None; apply lookup_ge_None in Hj; rewrite (Forall2_length _ _ _ F); exact Hj). rewrite Hl. constructor.
Qed.
Lemma wears_update E l us i u v : Forall2 (wears E) l us -> us !! i = Some u -> (forall e, wears E e u -> wears E e v) -> Forall2 (wears E) l (<[i := v]> us).
Proof.
  intros F. revert i. induction F as [|e w l us M F IH]; intros i Hi G; [discriminate|]. destruct i as [|i]; cbn.
  - injection Hi as ->. constructor; auto.
  - constructor; auto.
Qed.
Lemma made_uncached E l t t' : map uncache t' = map uncache t -> Forall2 (made E) l t -> Forall2 (made E) l t'.
Proof.
  intros H F. revert t' H. induction F as [|x a l t X F IH]; intros [|b t']; try discriminate; [constructor|]. cbn [map]. intros H0. pose proof (f_equal (@tl _) H0) as H'.
  pose proof (f_equal (fun l => match l with [] => uncache a | x :: _ => x end) H0) as H. cbn [tl] in H, H'. cbv beta iota in H. clear H0.
  constructor; [|auto]. destruct X as (nd & t0 & A & B & C). exists nd, t0. split; [exact A|]. split; [exact B|congruence].
Qed.
Lemma wears_same E e u v : wears E e u -> u_username v = u_username u -> u_emails v = u_emails u -> map uncache (u_mfa v) = map uncache (u_mfa u) -> wears E e v.
Proof. intros [A B C] H1 H2 H3. constructor; rewrite ?H1, ?H2; try assumption. exact (made_uncached _ _ _ _ H3 C). Qed.
Lemma made_id E f t : made E f t -> t_id t = fa_id f.
Proof. intros (nd & t0 & A & -> & C). apply new_token_ok in A as [_ [A _ _ _ _ _]]. apply (f_equal t_id) in C. cbn in C. congruence. Qed.
Lemma made_drop E id l ts : Forall2 (made E) l ts ->
  Forall2 (made E) (List.filter (fun f => negb (String.eqb (fa_id f) id)) l) (List.filter (fun k => negb (String.eqb (t_id k) id)) ts).
Proof. intros F. induction F as [|x k l ks H F IH]; [constructor|]. cbn. rewrite (made_id _ _ _ H). destruct (String.eqb (fa_id x) id); cbn; auto. Qed.
(** ** Calls *)
Lemma enrol_other E nd op r o l : own op = false \/ took o = false \/ ~ In op [OpAddUser; OpAddMfaToken; OpDeleteMfaToken] -> enrol E nd op r o l = l.
Proof. intros H. unfold enrol. destruct (took o); [|reflexivity]. destruct op; try reflexivity; exfalso; destruct H as [H|[H|H]]; try discriminate; apply H; cbn; tauto. Qed.
Lemma call_wears E nd op db fs r l : reachable E fs db -> let o := exec E nd op db fs r in
  o_res o <> OCrash -> Forall2 (wears E) l (db_users db) -> Forall2 (wears E) (enrol E nd op r o l) (db_users (o_db o)).
Proof.
  intros HR o Nc F. destruct (took_shape E nd op db fs r Nc) as [(Ow & T & db1 & res & Eff & C)|(Q & Rc)]; [fold o in T, C|fold o in Q, Rc].
  2:{ rewrite enrol_other by tauto. destruct Rc as [Rc|Rc]; [|now rewrite Rc]. destruct Rc as [|i u u' res G _ V]; [exact F|]. pose proof (Inv.get_user_at _ _ _ _ _ G) as Hi.
      pose proof (verify_webauthn_uncache E u r) as X. rewrite V in X. cbn in X. apply same_uncached_frame in X as (Fr & _ & _ & _ & _ & _ & Ts).
      apply frame_mails in Fr as (A & B). rewrite set_user_users. apply (wears_update E l _ i u u' F Hi). intros e M. eapply wears_same; eauto. }
  pose proof (commit_to_inv _ _ _ _ _ _ _ C) as [Hd _]. clear C. rewrite Hd, commit_users.
  assert (UN : forall i u, db_users db !! i = Some u -> forall j w, db_users db !! j = Some w -> same_ci E (u_username w) (u_username u) -> j = i).
  { intros i u Hi j w Hj S. exact (username_unique E fs db j i w u HR Hj Hi S). }
  destruct Eff as [|fp|u0 addrs u CP NU Hu RU NA|op i u u' V Up|i u s hk u' V Dr Pw Fp A|i u u' r' V D].
  - discriminate Ow.
  - discriminate Ow.
  - unfold enrol. rewrite T. change (db_users (with_account E db u addrs)) with (db_users db ++ [u])%list. apply Forall2_app; [exact F|]. constructor; [|constructor].
    destruct (effect_add_user E nd db r _ (EffUser E nd db r u0 addrs u CP NU Hu RU NA)) as (v & Nv & Hv & _).
    change (db_users (with_account E db u addrs)) with (db_users db ++ [u])%list in Hv. apply app_inv_head in Hv. injection Hv as <-.
    destruct Nv as [_ N1 (m & _ & N2 & N3 & _) _ _ _ _ (N7 & N8 & N9) _ _].
    constructor; cbn [ri_name ri_mail ri_factors]; [exact N1|eauto|rewrite N9; constructor].
  - pose proof (Inv.validate_at _ _ _ _ _ V) as Hi. pose proof V as V'. apply (validate_iff _ fs) in V' as ((_ & _ & Sn) & _); [|assumption].
    rewrite set_user_users. destruct (upd_frame _ _ _ _ _ _ _ Up) as [Fr Ka]. apply frame_mails in Fr as (Fa & Fb).
    inversion Up as [? H|? H|? P H|q ? H|? H]; subst.
    1, 2, 3: rewrite enrol_other by (right; right; cbn; intuition discriminate); apply (wears_update E l _ i u u' F Hi); intros e M; eapply wears_same; eauto; f_equal.
    + apply add_public_key_inv in H as (? & ? & ? & ->). reflexivity.
    + apply delete_public_key_inv in H as (? & ->). reflexivity.
    + apply change_password_inv in H as [_ H]. apply add_password_inv in H as (p & Hp & ->). reflexivity.
    + unfold enrol. rewrite T. apply (wears_insert E l _ i u u' _ r F Hi Sn (UN i u Hi)). intros e [A B G]. apply add_mfa_token_inv in H as (t & Ht & _ & ->).
      constructor; cbn [with_factors ri_name ri_mail ri_factors]; try assumption. apply Forall2_app; [exact G|]. constructor; [|constructor].
      exists nd, t. split; [cbn [fa_req]; now rewrite Ht|]. split; reflexivity.
    + unfold enrol. rewrite T. apply (wears_insert E l _ i u u' _ r F Hi Sn (UN i u Hi)). intros e [A B G]. apply delete_mfa_token_inv in H as (_ & ->).
      constructor; cbn [with_factors ri_name ri_mail ri_factors]; try assumption. exact (made_drop _ _ _ _ G).
  - pose proof (Inv.validate_at _ _ _ _ _ V) as Hi. rewrite enrol_other by (right; right; cbn; intuition discriminate).
    change (db_users (set_user db i u' <| ref_apikey ::= <[take 24 s := i]> |>)) with (<[i := u']> (db_users db)). apply (wears_update E l _ i u u' F Hi). intros e M.
    apply add_api_key_inv in A as (k & Hk & ->). eapply wears_same; eauto.
  - pose proof (Inv.validate_at _ _ _ _ _ V) as Hi. rewrite enrol_other by (right; right; cbn; intuition discriminate).
    change (db_users (set_user db i u' <| ref_apikey ::= delete (rk_prefix (rq_key r')) |>)) with (<[i := u']> (db_users db)). apply (wears_update E l _ i u u' F Hi). intros e M.
    apply delete_api_key_inv in D as (_ & -> & _). eapply wears_same; eauto.
Qed.
Lemma enrolled_reachable E fs db l : enrolled E fs db l -> reachable E fs db.
Proof. exact (traced_reachable E _ _ fs db l). Qed.
Lemma enrolled_wears E fs db l : register_typed E -> enrolled E fs db l -> Forall2 (wears E) l (db_users db).
Proof.
  intros RT R. induction R as [nd fp fs fs' db A O|nd op r fs db l R IH o Nh Nc|fs fs' db l R IH|nd fp fs0 fs fs' db db' l R IH D P U O].
  - unfold new_database in O. destruct nd_stat_err; [discriminate|]. assert (X : (if String.eqb fp "" then None else fs !! fp) = None).
    { destruct (String.eqb_spec fp ""); [reflexivity|]. destruct A; [contradiction|assumption]. }
    rewrite X in O. destruct nd_mkdir_err; [discriminate|]. cbv zeta in O. destruct write_db as [fs2 []]; try discriminate. injection O as <- <-. constructor.
  - exact (call_wears E nd op db fs r l (enrolled_reachable _ _ _ _ R) Nc IH).
  - exact IH.
  - destruct (restart_users E nd db fp fs fs' db' _ _ RT (enrolled_reachable _ _ _ _ R) D P U O) as (us & F & ->). clear - IH F.
    revert us F. induction IH as [|e u l us0 M IH1 IH2]; intros us F; inversion F as [|? v ? us' (H1 & H2 & _ & _ & _ & H6) F']; subst; constructor; [|auto].
    apply (wears_same E e u); [exact M|exact H1|exact H2|]. change (map uncache (u_mfa v) = map uncache (u_mfa u)). rewrite H6, map_map. apply map_ext. reflexivity.
Qed.
(** ** What a registered token is *)
Lemma made_fields E f t nd t0 : snd (new_mfa_token E nd (fa_req f)) = ROk t0 -> uncache t = uncache t0 ->
  t_disabled t = rm_disabled (rq_mfa (fa_req f)) /\ t_type t = rm_type (rq_mfa (fa_req f)) /\ t_params t = t_params t0.
Proof.
  intros A C. apply new_token_ok in A as [_ [_ A2 _ _ A5 _]]. apply (f_equal t_disabled) in C as C1. apply (f_equal t_type) in C as C2. apply (f_equal t_params) in C as C3.
  cbn in C1, C2, C3. repeat split; congruence.
Qed.
Lemma made_candidate E f t id : made E f t -> candidate id t <-> exists s x y, enrols E f id s x y.
Proof.
  intros (nd & t0 & A & _ & C). destruct (made_fields _ _ _ _ _ A C) as (H1 & H2 & H3). unfold candidate, enrols, param. rewrite H1, H2, H3. split.
  - intros (D & Ty & P). apply (u2f_iff E nd _ _ Ty) in A as (q & a & c & x & y & R & Ht). exists (at_site a), x, y. split; [exact D|]. exists q, a, c. split; [exact R|]. split; [|reflexivity].
    apply (u2f_of_entry nd (fa_req f) q a c x y t0 Ty (ru_public _ _ _ _ _ _ _ R)) in Ht. pose proof (proj1 (ue_params _ _ _ _ _ _ _ _ Ht _ _) P) as K. cbn in K. intuition congruence.
  - intros (s & x & y & D & q & a & c & R & <- & _). pose proof (ru_type _ _ _ _ _ _ _ R) as Ty. split; [exact D|]. split; [exact Ty|].
    apply (u2f_iff E nd _ _ Ty) in A as (q' & a' & c' & x' & y' & R' & Ht). apply (u2f_of_entry nd (fa_req f) q' a' c' x' y' t0 Ty (ru_public _ _ _ _ _ _ _ R')) in Ht.
    apply (ue_params _ _ _ _ _ _ _ _ Ht). left. f_equal. destruct (ru_message _ _ _ _ _ _ _ R) as (d & D1 & D2), (ru_message _ _ _ _ _ _ _ R') as (d' & D1' & D2'). congruence.
Qed.
Lemma made_proves E f t r q : made E f t -> proves E r q t <-> exists s x y, enrols E f (wq_id q) s x y /\ answers E r q s x y.
Proof.
  intros M. split.
  - intros [V1 V2 V3 V4 V5 V6 V7 (client & cd & auth & sig & key & W1 & W2 & W3 & W4 & W5 & W6 & W7 & W8 & (rp & fl & c0 & c1 & c2 & c3 & rest & h & Z1 & Z2 & Z3 & Z4 & Z5) & W10)].
    assert (Cn : candidate (wq_id q) t) by (split; [exact V1|split; [exact V2|exact V4]]). destruct M as (nd & t0 & A & _ & C). destruct (made_fields _ _ _ _ _ A C) as (H1 & H2 & H3).
    rewrite H1 in V1. rewrite H2 in V2. unfold param in *. rewrite H3 in V4, Z4. unfold p256_key, param in W5. rewrite H3 in W5.
    apply (u2f_iff E nd _ _ V2) in A as (q0 & a & c & x & y & R & Ht). apply (u2f_of_entry nd (fa_req f) q0 a c x y t0 V2 (ru_public _ _ _ _ _ _ _ R)) in Ht.
    pose proof (ue_params _ _ _ _ _ _ _ _ Ht) as P. unfold param in P.
    exists (at_site a), x, y. split.
    + split; [exact V1|]. exists q0, a, c. split; [exact R|]. split; [|reflexivity]. apply P in V4. cbn in V4. intuition congruence.
    + split; [exact V5|]. split; [exact V6|]. split; [exact V7|]. exists client, cd, auth, sig, key. split; [exact W1|]. split; [exact W2|]. split; [exact W3|]. split; [exact W4|].
      split.
      { destruct W5 as (_ & x' & y' & bx & by_ & nx & ny & K1 & K2 & K). apply P in K1, K2. assert (x' = x) as -> by (cbn in K1; intuition congruence). assert (y' = y) as -> by (cbn in K2; intuition congruence).
        exists bx, by_, nx, ny. exact K. }
      split; [exact W6|]. split; [exact W7|]. split; [exact W8|]. split; [|exact W10]. exists rp, fl, c0, c1, c2, c3, rest. split; [exact Z1|]. split; [exact Z2|]. split; [exact Z3|].
      apply P in Z4. assert (h = at_site a) as <- by (cbn in Z4; intuition congruence). exact Z5.
  - intros (s & x & y & En & (V5 & V6 & V7 & client & cd & auth & sig & key & W1 & W2 & W3 & W4 & W5 & W6 & W7 & W8 & (rp & fl & c0 & c1 & c2 & c3 & rest & Z1 & Z2 & Z3 & Z5) & W10)).
    pose proof (proj2 (made_candidate E f t (wq_id q) M) (ex_intro _ s (ex_intro _ x (ex_intro _ y En)))) as (Cd & Ct & Ci).
    destruct En as (Dis & q0 & a & c & R & Hid & Hs). pose proof (ru_type _ _ _ _ _ _ _ R) as Ty.
    destruct M as (nd & t0 & A & _ & C). destruct (made_fields _ _ _ _ _ A C) as (H1 & H2 & H3).
    assert (Ht : u2f_entry nd (fa_req f) q0 a c x y t0).
    { apply (u2f_of_entry nd (fa_req f) q0 a c x y t0 Ty (ru_public _ _ _ _ _ _ _ R)).
      assert (X : snd (new_mfa_token E nd (fa_req f)) = ROk (u2f_of nd (fa_req f) q0 a c x y)) by (apply (u2f_iff E nd _ _ Ty); eauto 8). congruence. }
    pose proof (ue_params _ _ _ _ _ _ _ _ Ht) as P. unfold param in P. rewrite <- H3 in P.
    constructor; try assumption; [apply P; cbn; tauto|]. exists client, cd, auth, sig, key. split; [exact W1|]. split; [exact W2|]. split; [exact W3|]. split; [exact W4|]. split.
    { destruct W5 as (bx & by_ & nx & ny & K). split; [apply P; cbn; tauto|]. exists x, y, bx, by_, nx, ny. split; [apply P; cbn; tauto|]. split; [apply P; cbn; tauto|]. exact K. }
    split; [exact W6|]. split; [exact W7|]. split; [exact W8|]. split; [|exact W10]. exists rp, fl, c0, c1, c2, c3, rest, s. split; [exact Z1|]. split; [exact Z2|]. split; [exact Z3|].
    split; [|exact Z5]. apply P. subst s. cbn. tauto.
Qed.
(** ** Logins *)
Lemma ring_at E l us e : Forall2 (wears E) l us -> In e l -> exists i u, us !! i = Some u /\ wears E e u.
Proof. intros F H. apply elem_of_list_In, elem_of_list_lookup in H as [i Hi]. destruct (Forall2_lookup_l _ _ _ _ _ F Hi) as (u & Hu & M). eauto. Qed.
Lemma at_ring E l us i u : Forall2 (wears E) l us -> us !! i = Some u -> exists e, In e l /\ wears E e u.
Proof. intros F Hu. destruct (Forall2_lookup_r _ _ _ _ _ F Hu) as (e & He & M). exists e. split; [eapply elem_of_list_In, elem_of_list_lookup_2; exact He|exact M]. Qed.
Lemma wears_called E db e i u s : account db i u -> wears E e u -> ring_called E e s <-> resolves_login E db s i u.
Proof.
  intros Hu [A (m & B1 & B2) _]. unfold ring_called, resolves_login, resolves_address, resolves_username, has_username, has_address. rewrite A, B1.
  assert (X : (exists x, In x [m] /\ same_ci E (em_address x) s) <-> same_ci E (ri_mail e) s).
  { rewrite <- B2. split; [intros (x & [<-|[]] & H); exact H|intros H; exists m; split; [now left|exact H]]. }
  rewrite X. tauto.
Qed.
Lemma wears_named E db e i u r : account db i u -> wears E e u -> ring_named E e r -> identity_of E db r i u.
Proof.
  intros Hu [A (m & B1 & B2) _] (L1 & S1 & L2 & S2). split; [split; [exact L1|]; split; [exact Hu|]; unfold has_username; now rewrite A|].
  exists i, u. split; [|reflexivity]. split; [exact L2|]. split; [exact Hu|]. exists m. rewrite B1, B2. split; [now left|exact S2].
Qed.
Lemma wears_first E e u r q : wears E e u -> (exists p, first_candidate u (wq_id q) p /\ proves E r q p) <-> exists s x y, first_enrols E e (wq_id q) s x y /\ answers E r q s x y.
Proof.
  intros [_ _ F]. split.
  - intros (p & (l1 & l2 & Hl & Hc & Hn) & Hp). rewrite Hl in F. apply Forall2_app_inv_r in F as (m1 & m2 & F1 & F2 & Hm).
    inversion F2 as [|f ? m3 ? M F3]; subst. apply (made_proves E f p r q M) in Hp as (s & x & y & En & An). exists s, x, y. split; [|exact An].
    exists m1, f, m3. split; [exact Hm|]. split; [exact En|]. clear - F1 Hn. induction F1 as [|g t l l' G F IH]; [constructor|]. inversion Hn; subst. constructor; [|auto].
    intros s x y H. apply H1. apply (made_candidate E g t _ G). eauto.
  - intros (s & x & y & (l1 & f & l2 & Hl & En & Hn) & An). rewrite Hl in F. apply Forall2_app_inv_l in F as (m1 & m2 & F1 & F2 & Hm).
    inversion F2 as [|? p ? m3 M F3]; subst. exists p. split.
    + exists m1, m3. split; [exact Hm|]. split; [apply (made_candidate E f p _ M); eauto|]. clear - F1 Hn. induction F1 as [|g t l l' G F IH]; [constructor|]. inversion Hn; subst.
      constructor; [|auto]. intros H. apply (made_candidate E g t _ G) in H as (s & x & y & H). exact (H1 _ _ _ H).
    + apply (made_proves E f p r q M). eauto.
Qed.
Lemma ring_login E fs db l nd r : register_typed E -> enrolled E fs db l -> ru_password (rq_user r) = "" -> rw_request (rq_webauthn r) <> "" ->
  o_res (exec E nd OpAuthenticate db fs r) = OOk <->
  exists e q site x y, In e l /\ ring_called E e (ru_username (rq_user r)) /\ assertion E r q /\ first_enrols E e (wq_id q) site x y /\ answers E r q site x y.
Proof.
  intros RT R Hp Hw. pose proof (enrolled_reachable _ _ _ _ R) as HR. pose proof (enrolled_wears _ _ _ _ RT R) as F. rewrite (authenticate_webauthn E nd db fs r HR Hp Hw). split.
  - intros (i & u & q & p & Hl & Ha & Hf & Hv). assert (Hu : account db i u) by (destruct Hl as [(_ & _ & H & _)|(_ & _ & H & _)]; exact H).
    destruct (at_ring _ _ _ _ _ F Hu) as (e & He & M). destruct (proj1 (wears_first E e u r q M) (ex_intro _ p (conj Hf Hv))) as (s & x & y & A & B).
    exists e, q, s, x, y. split; [exact He|]. split; [apply (wears_called E db e i u _ Hu M); exact Hl|]. auto.
  - intros (e & q & s & x & y & He & Hc & Ha & A & B). destruct (ring_at _ _ _ _ F He) as (i & u & Hu & M).
    destruct (proj2 (wears_first E e u r q M)) as (p & Hf & Hv); [eauto 6|]. exists i, u, q, p. split; [apply (wears_called E db e i u _ Hu M); exact Hc|]. auto.
Qed.
(** ** Passcodes *)
Lemma made_code E f t now code : hmac_size E -> made E f t -> rm_type (rq_mfa (fa_req f)) = "totp" -> validate_code E t code now = None <-> passcode_of E (fa_req f) now code.
Proof.
  intros Hh (nd & t0 & A & _ & C) Ty. apply (totp_iff E nd _ _ Hh Ty) in A as (a & d & R & ->).
  apply (f_equal t_algorithm) in C as C1. apply (f_equal t_secret) in C as C2. apply (f_equal t_digits) in C as C3. apply (f_equal t_period) in C as C4. cbn in C1, C2, C3, C4.
  destruct R as [_ R1 R2 R3 R4 _]. assert (HP : (1 <= t_period t)%Z) by (rewrite C4; unfold within in R4; lia).
  assert (exists T, in_period now (t_period t) T /\ forall T', in_period now (t_period t) T' -> T' = T) as (T & HT & UT).
  { exists (unix now / t_period t)%Z. assert (H : in_period now (t_period t) (unix now / t_period t)) by now apply in_period_iff. split; [exact H|]. intros T' H'. exact (in_period_det now (t_period t) T' _ HP H' H). } rewrite (validate_code_iff E t code now T Hh HP HT). cbv zeta. unfold token_code. rewrite C1, C2, C3. split.
  - intros (_ & _ & T' & B & K). exists a, d, T, T'. rewrite <- C4. auto 6.
  - intros (a' & d' & T1 & T' & K1 & K2 & K3 & K4 & K5). rewrite <- C4 in K3. apply UT in K3 as ->.
    assert (d' = d) as -> by (unfold chosen_digits in *; lia).
    assert (a' = a) as ->.
    { destruct K1 as [[X ->]|[X K]], R1 as [[Y ->]|[Y K']]; try congruence; exfalso; rewrite ?X, ?Y in *; subst; destruct K as [K|[K|K]] || destruct K' as [K'|[K'|K']]; congruence. }
    pose proof K5 as (_ & _ & _ & _ & _ & _ & Ln & _). rewrite length_los in Ln. unfold within in R3. assert (zlen (trim_space code) = d) by (unfold zlen; lia).
    split; [unfold within; lia|]. split; [assumption|]. eauto.
Qed.
Lemma usable_picked E l ts ts' : Forall2 (made E) l ts -> picked (fun t => t_disabled t = false) ts ts' -> Forall2 (made E) (usable l) ts'.
Proof.
  intros F P. revert l F. unfold usable. induction P as [|t ts ts' H P IH|t ts ts' H P IH]; intros l F; inversion F as [|f ? l' ? M F']; subst; [constructor| |]; cbn;
    pose proof M as (nd & t0 & A & _ & C); destruct (made_fields _ _ _ _ _ A C) as (H1 & _).
  - rewrite H in H1. rewrite <- H1. cbn. constructor; auto.
  - destruct (rm_disabled (rq_mfa (fa_req f))); [|contradiction]. cbn. auto.
Qed.
Lemma ring_codes E fs db l nd r e : register_typed E -> hmac_size E -> enrolled E fs db l -> In e l -> ring_named E e r ->
  exists ts, exec E nd OpGetMfaTokens db fs r = {| o_db := db; o_fs := fs; o_req := r <| rq_payload := PMfaTokens {| b_items := ts; b_size := Z.of_nat (List.length ts) |} |>; o_res := OOk |} /\
    Forall2 (fun f t => t_id t = fa_id f /\ t_type t = rm_type (rq_mfa (fa_req f)) /\ t_comment t = rm_comment (rq_mfa (fa_req f)) /\
               (t_type t = "totp" -> forall now code, validate_code E t code now = None <-> passcode_of E (fa_req f) now code)) (usable (ri_factors e)) ts.
Proof.
  intros RT Hh R He N. destruct (ring_at _ _ _ _ (enrolled_wears _ _ _ _ RT R) He) as (i & u & Hu & M).
  destruct (get_mfa_tokens_spec E nd db fs r i u (enrolled_reachable _ _ _ _ R) (wears_named _ _ _ _ _ _ Hu M N)) as (ts & X & K). exists ts. split; [exact X|].
  eapply Forall2_impl; [exact (usable_picked _ _ _ _ (we_factors _ _ _ M) K)|]. intros f t Mt. split; [exact (made_id _ _ _ Mt)|].
  pose proof Mt as (nd' & t0 & A & _ & C). destruct (made_fields _ _ _ _ _ A C) as (_ & H2 & _). split; [exact H2|]. split.
  - apply new_token_ok in A as [_ [_ _ A3 _ _ _]]. apply (f_equal t_comment) in C. cbn in C. congruence.
  - intros Ty now code. apply made_code; [exact Hh|exact Mt|congruence].
Qed.
(** ** Registrations *)
Lemma made_marks E nd r t : snd (new_mfa_token E nd r) = ROk t -> t_secret t = factor_secret r /\ t_comment t = rm_comment (rq_mfa r).
Proof. exact (token_marks E nd r t). Qed.
Lemma ring_registers E fs db l nd r e : register_typed E -> hmac_size E -> enrolled E fs db l -> In e l -> ring_named E e r -> let o := exec E nd OpAddMfaToken db fs r in
  o_res o = OOk <-> can_enrol E (nd_clock nd) r /\ Forall (unlike r) (ri_factors e) /\ can_write nd fs (db_path db) (db_content (o_db o)).
Proof.
  intros RT Hh R He N o. unfold o. pose proof (enrolled_reachable _ _ _ _ R) as HR. pose proof (enrolled_wears _ _ _ _ RT R) as F. rewrite (add_mfa_iff E nd db fs r HR). cbv zeta.
  destruct (ring_at _ _ _ _ F He) as (i & u & Hu & M). pose proof (wears_named E db e i u r Hu M N) as Hi.
  assert (CE : can_enrol E (nd_clock nd) r <-> exists t, snd (new_mfa_token E nd r) = ROk t).
  { split.
    - intros [(a & d & K)|(q & a & c & x & y & K)]; [pose proof (rt_type _ _ _ _ _ K) as Ty; eexists; apply (totp_iff E nd r _ Hh Ty); eauto|].
      pose proof (ru_type _ _ _ _ _ _ _ K) as Ty. eexists. apply (u2f_iff E nd r _ Ty). eauto 8.
    - intros (t & K). pose proof (new_token_ok _ _ _ _ K) as [T [_ T2 _ _ _ _]]. destruct T as [[Ty _ _ _]|[Ty _ _ _ _ _ _ _ _ _ _]]; rewrite Ty in T2.
      + left. apply (totp_iff E nd r _ Hh (eq_sym T2)) in K as (a & d & K & _). eauto.
      + right. apply (u2f_iff E nd r _ (eq_sym T2)) in K as (q & a & c & x & y & K & _). eauto 8. }
  assert (DA : forall e u t, wears E e u -> snd (new_mfa_token E nd r) = ROk t -> distinct_from u (t_secret t) (t_comment t) <-> Forall (unlike r) (ri_factors e)).
  { intros e0 u0 t [_ _ G] K. apply made_marks in K as [-> ->]. unfold distinct_from. clear - G. induction G as [|f k l ks M G IH]; [split; constructor|].
    assert (X : (t_secret k <> factor_secret r /\ t_comment k <> rm_comment (rq_mfa r)) <-> unlike r f).
    { destruct M as (nd' & t0 & A & _ & C). apply made_marks in A as [A1 A2]. apply (f_equal t_secret) in C as C1. apply (f_equal t_comment) in C as C2. cbn in C1, C2. unfold unlike. rewrite C1, C2, A1, A2. reflexivity. }
    rewrite !Forall_cons, X, IH. reflexivity. }
  match goal with |- ?A /\ _ <-> ?B /\ ?C /\ _ => assert (X : A <-> B /\ C); [|rewrite X; tauto] end. split.
  - intros (j & v & t & Hj & K & D). destruct (identity_fun E fs db r j v i u HR Hj Hi) as [-> ->]. split; [apply CE; eauto|]. apply (DA e u t M K). exact D.
  - intros (C & D). apply CE in C as (t & K). exists i, u, t. split; [exact Hi|]. split; [exact K|]. apply (DA e u t M K). exact D.
Qed.
