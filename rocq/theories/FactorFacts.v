(** Proofs about the second factors returned (C127). *)
From Coq Require Import String Ascii ZArith NArith Lia Bool Arith List.
From stdpp Require Import gmap strings.
From RecordUpdate Require Import RecordSet.
From Verif Require Import GoStr Utf8 GoErr GoTime Role Name Email Random SpecValue RandomFacts.
From Verif Require Import Types Env Password ApiKey PublicKey Mfa User Json Persist Fs Database System UserFacts DbFacts Inv LoadFacts.
From Verif Require Import SpecDb SpecKey SpecCrypto SpecAuth SpecMfa SpecRegister SpecPersist SpecDefect SpecOutage SpecLedger SpecFactor CryptoFacts AccountFacts StepFacts.
From Verif Require Import PublicKeyFacts TokenFacts MfaFacts RegisterFacts PersistFacts StoredFacts ReloadFacts OpenFacts LiveFacts LedgerFacts TookFacts TokenUse TotpFacts WebAuthnFacts RefuseFacts ShelfFacts.
Import ListNotations.
Import RecordSetNotations.
Open Scope string_scope.
#[local] Opaque int64 new_id trim_space new_email new_role.

(** ** Registrations and tokens *)
Definition drawn (E : Env) (x : Enrolment) (t : MfaToken) : Prop :=
  exists t0, snd (new_mfa_token E (en_nd x) (en_req x)) = ROk t0 /\ uncache t = uncache t0.
Record carries (E : Env) (e : Case) (u : User) : Prop := {
  cr_name : u_username u = ca_name e;
  cr_mail : exists m, u_emails u = [m] /\ em_address m = ca_mail e;
  cr_factors : Forall2 (drawn E) (ca_enrolments e) (u_mfa u) }.
Lemma carries_insert E l us i u v (f : Case -> Case) r :
  Forall2 (carries E) l us -> us !! i = Some u -> same_ci E (u_username u) (ru_username (rq_user r)) ->
  (forall j w, us !! j = Some w -> same_ci E (u_username w) (u_username u) -> j = i) ->
  (forall e, carries E e u -> carries E (f e) v) ->
  Forall2 (carries E) (on_case E r f l) (<[i := v]> us).
Proof.
  intros F Hi Sc U G. apply Forall2_lookup. intros j. unfold on_case. rewrite list_lookup_fmap. destruct (decide (j = i)) as [->|Nj].
  - rewrite list_lookup_insert by (eapply lookup_lt_Some; exact Hi). destruct (Forall2_lookup_r _ _ _ _ _ F Hi) as (e & He & M). rewrite He. cbn. constructor.
    unfold same_ci in Sc. rewrite <- (cr_name _ _ _ M), Sc, String.eqb_refl. auto.
  - rewrite list_lookup_insert_ne by congruence. destruct (us !! j) as [w|] eqn:Hj.
    + destruct (Forall2_lookup_r _ _ _ _ _ F Hj) as (e & He & M). rewrite He. cbn. constructor.
      destruct (String.eqb_spec (lower E (ca_name e)) (lower E (ru_username (rq_user r)))) as [X|X]; [|exact M].
      exfalso. apply Nj. apply (U j w Hj). unfold same_ci in *. rewrite (cr_name _ _ _ M). congruence.
    + assert (Hl : l !! j = None) by (apply lookup_ge_None; apply lookup_ge_None in Hj; rewrite (Forall2_length _ _ _ F); exact Hj). rewrite Hl. constructor.
Qed.
Lemma carries_update E l us i u v : Forall2 (carries E) l us -> us !! i = Some u -> (forall e, carries E e u -> carries E e v) -> Forall2 (carries E) l (<[i := v]> us).
Proof.
  intros F. revert i. induction F as [|e w l us M F IH]; intros i Hi G; [discriminate|]. destruct i as [|i]; cbn.
  - injection Hi as ->. constructor; auto.
  - constructor; auto.
Qed.
Lemma drawn_uncached E l t t' : map uncache t' = map uncache t -> Forall2 (drawn E) l t -> Forall2 (drawn E) l t'.
Proof.
  intros H F. revert t' H. induction F as [|x a l t X F IH]; intros [|b t']; try discriminate; [constructor|]. cbn [map]. intros H0. pose proof (f_equal (@tl _) H0) as H'.
  pose proof (f_equal (fun l => match l with [] => uncache a | x :: _ => x end) H0) as H. cbn [tl] in H, H'. cbv beta iota in H. clear H0.
  constructor; [|auto]. destruct X as (t0 & A & C). exists t0. split; [exact A|congruence].
Qed.
Lemma carries_same E e u v : carries E e u -> u_username v = u_username u -> u_emails v = u_emails u -> map uncache (u_mfa v) = map uncache (u_mfa u) -> carries E e v.
Proof. intros [A B C] H1 H2 H3. constructor; rewrite ?H1, ?H2; try assumption. exact (drawn_uncached _ _ _ _ H3 C). Qed.
Lemma drawn_id E f t : drawn E f t -> t_id t = en_id f.
Proof. intros (t0 & A & C). unfold en_id. apply new_token_ok in A as [_ [A _ _ _ _ _]]. apply (f_equal t_id) in C. cbn in C. congruence. Qed.
Lemma drawn_drop E id l ts : Forall2 (drawn E) l ts ->
  Forall2 (drawn E) (List.filter (fun f => negb (String.eqb (en_id f) id)) l) (List.filter (fun k => negb (String.eqb (t_id k) id)) ts).
Proof. intros F. induction F as [|x k l ks H F IH]; [constructor|]. cbn. rewrite (drawn_id _ _ _ H). destruct (String.eqb (en_id x) id); cbn; auto. Qed.
(** ** Calls *)
Lemma equip_other E nd op r o l : own op = false \/ took o = false \/ ~ In op [OpAddUser; OpAddMfaToken; OpDeleteMfaToken] -> equip E nd op r o l = l.
Proof. intros H. unfold equip. destruct (took o); [|reflexivity]. destruct op; try reflexivity; exfalso; destruct H as [H|[H|H]]; try discriminate; apply H; cbn; tauto. Qed.
Lemma call_carries E nd op db fs r l : reachable E fs db -> let o := exec E nd op db fs r in
  o_res o <> OCrash -> Forall2 (carries E) l (db_users db) -> Forall2 (carries E) (equip E nd op r o l) (db_users (o_db o)).
Proof.
  intros HR o Nc F. destruct (took_shape E nd op db fs r Nc) as [(Ow & T & db1 & res & Eff & C)|(Q & Rc)]; [fold o in T, C|fold o in Q, Rc].
  2:{ rewrite equip_other by tauto. destruct Rc as [Rc|Rc]; [|now rewrite Rc]. destruct Rc as [|i u u' res G _ V]; [exact F|]. pose proof (Inv.get_user_at _ _ _ _ _ G) as Hi.
      pose proof (verify_webauthn_uncache E u r) as X. rewrite V in X. cbn in X. apply same_uncached_frame in X as (Fr & _ & _ & _ & _ & _ & Ts).
      apply frame_mails in Fr as (A & B). rewrite set_user_users. apply (carries_update E l _ i u u' F Hi). intros e M. eapply carries_same; eauto. }
  pose proof (commit_to_inv _ _ _ _ _ _ _ C) as [Hd _]. clear C. rewrite Hd, commit_users.
  assert (UN : forall i u, db_users db !! i = Some u -> forall j w, db_users db !! j = Some w -> same_ci E (u_username w) (u_username u) -> j = i).
  { intros i u Hi j w Hj S. exact (username_unique E fs db j i w u HR Hj Hi S). }
  destruct Eff as [|fp|u0 addrs u CP NU Hu RU NA|op i u u' V Up|i u s hk u' V Dr Pw Fp A|i u u' r' V D].
  - discriminate Ow.
  - discriminate Ow.
  - unfold equip. rewrite T. change (db_users (with_account E db u addrs)) with (db_users db ++ [u])%list. apply Forall2_app; [exact F|]. constructor; [|constructor].
    destruct (effect_add_user E nd db r _ (EffUser E nd db r u0 addrs u CP NU Hu RU NA)) as (v & Nv & Hv & _).
    change (db_users (with_account E db u addrs)) with (db_users db ++ [u])%list in Hv. apply app_inv_head in Hv. injection Hv as <-.
    destruct Nv as [_ N1 (m & _ & N2 & N3 & _) _ _ _ _ (N7 & N8 & N9) _ _].
    constructor; cbn [ca_name ca_mail ca_enrolments]; [exact N1|eauto|rewrite N9; constructor].
  - pose proof (Inv.validate_at _ _ _ _ _ V) as Hi. pose proof V as V'. apply (validate_iff _ fs) in V' as ((_ & _ & Sn) & _); [|assumption].
    rewrite set_user_users. destruct (upd_frame _ _ _ _ _ _ _ Up) as [Fr Ka]. apply frame_mails in Fr as (Fa & Fb).
    inversion Up as [? H|? H|? P H|q ? H|? H]; subst.
    1, 2, 3: rewrite equip_other by (right; right; cbn; intuition discriminate); apply (carries_update E l _ i u u' F Hi); intros e M; eapply carries_same; eauto; f_equal.
    + apply add_public_key_inv in H as (? & ? & ? & ->). reflexivity.
    + apply delete_public_key_inv in H as (? & ->). reflexivity.
    + apply change_password_inv in H as [_ H]. apply add_password_inv in H as (p & Hp & ->). reflexivity.
    + unfold equip. rewrite T. apply (carries_insert E l _ i u u' _ r F Hi Sn (UN i u Hi)). intros e [A B G]. apply add_mfa_token_inv in H as (t & Ht & _ & ->).
      constructor; cbn [with_enrolments ca_name ca_mail ca_enrolments]; try assumption. apply Forall2_app; [exact G|]. constructor; [|constructor].
      exists t. split; [cbn [en_nd en_req]; now rewrite Ht|reflexivity].
    + unfold equip. rewrite T. apply (carries_insert E l _ i u u' _ r F Hi Sn (UN i u Hi)). intros e [A B G]. apply delete_mfa_token_inv in H as (_ & ->).
      constructor; cbn [with_enrolments ca_name ca_mail ca_enrolments]; try assumption. exact (drawn_drop _ _ _ _ G).
  - pose proof (Inv.validate_at _ _ _ _ _ V) as Hi. rewrite equip_other by (right; right; cbn; intuition discriminate).
    change (db_users (set_user db i u' <| ref_apikey ::= <[take 24 s := i]> |>)) with (<[i := u']> (db_users db)). apply (carries_update E l _ i u u' F Hi). intros e M.
    apply add_api_key_inv in A as (k & Hk & ->). eapply carries_same; eauto.
  - pose proof (Inv.validate_at _ _ _ _ _ V) as Hi. rewrite equip_other by (right; right; cbn; intuition discriminate).
    change (db_users (set_user db i u' <| ref_apikey ::= delete (rk_prefix (rq_key r')) |>)) with (<[i := u']> (db_users db)). apply (carries_update E l _ i u u' F Hi). intros e M.
    apply delete_api_key_inv in D as (_ & -> & _). eapply carries_same; eauto.
Qed.
Lemma equipped_reachable E fs db l : equipped E fs db l -> reachable E fs db.
Proof. exact (traced_reachable E _ _ fs db l). Qed.
Lemma equipped_carries E fs db l : register_typed E -> equipped E fs db l -> Forall2 (carries E) l (db_users db).
Proof.
  intros RT R. induction R as [nd fp fs fs' db A O|nd op r fs db l R IH o Nh Nc|fs fs' db l R IH|nd fp fs0 fs fs' db db' l R IH D P U O].
  - unfold new_database in O. destruct nd_stat_err; [discriminate|]. assert (X : (if String.eqb fp "" then None else fs !! fp) = None).
    { destruct (String.eqb_spec fp ""); [reflexivity|]. destruct A; [contradiction|assumption]. }
    rewrite X in O. destruct nd_mkdir_err; [discriminate|]. cbv zeta in O. destruct write_db as [fs2 []]; try discriminate. injection O as <- <-. constructor.
  - exact (call_carries E nd op db fs r l (equipped_reachable _ _ _ _ R) Nc IH).
  - exact IH.
  - destruct (restart_users E nd db fp fs fs' db' _ _ RT (equipped_reachable _ _ _ _ R) D P U O) as (us & F & ->). clear - IH F.
    revert us F. induction IH as [|e u l us0 M IH1 IH2]; intros us F; inversion F as [|? v ? us' (H1 & H2 & _ & _ & _ & H6) F']; subst; constructor; [|auto].
    apply (carries_same E e u); [exact M|exact H1|exact H2|]. change (map uncache (u_mfa v) = map uncache (u_mfa u)). rewrite H6, map_map. apply map_ext. reflexivity.
Qed.
(** ** What is returned *)
Lemma case_at E l us e : Forall2 (carries E) l us -> In e l -> exists i u, us !! i = Some u /\ carries E e u.
Proof. intros F H. apply elem_of_list_In, elem_of_list_lookup in H as [i Hi]. destruct (Forall2_lookup_l _ _ _ _ _ F Hi) as (u & Hu & M). eauto. Qed.
Lemma carries_named E db e i u r : account db i u -> carries E e u -> case_named E e r -> identity_of E db r i u.
Proof.
  intros Hu [A (m & B1 & B2) _] (L1 & S1 & L2 & S2). split; [split; [exact L1|]; split; [exact Hu|]; unfold has_username; now rewrite A|].
  exists i, u. split; [|reflexivity]. split; [exact L2|]. split; [exact Hu|]. exists m. rewrite B1, B2. split; [now left|exact S2].
Qed.
Lemma active_picked E l ts ts' : Forall2 (drawn E) l ts -> picked (fun t => t_disabled t = false) ts ts' -> Forall2 (drawn E) (active l) ts' /\ incl ts' ts.
Proof.
  intros F P. revert l F. unfold active. induction P as [|t ts ts' H P IH|t ts ts' H P IH]; intros l F; inversion F as [|f ? l' ? M F']; subst; [split; [constructor|easy]| |]; cbn;
    pose proof M as (t0 & A & C); apply new_token_ok in A as [_ [_ _ _ _ A5 _]]; apply (f_equal t_disabled) in C; cbn in C; rewrite A5 in C; destruct (IH _ F') as [I1 I2].
  - rewrite H in C. rewrite <- C. cbn. split; [constructor; auto|]. intros y [<-|Hy]; [now left|right; auto].
  - destruct (rm_disabled (rq_mfa (en_req f))); [|contradiction]. cbn. split; [exact I1|]. intros y Hy. right. auto.
Qed.
Lemma made_fresh E nd r t : snd (new_mfa_token E nd r) = ROk t -> hmac_size E -> t_cache t = None /\
  ((exists a d, registers_totp E (nd_clock nd) r a d /\ totp_complete nd r a d t) \/
   (exists q a curve cx cy, registers_u2f E r q a curve cx cy /\ u2f_entry nd r q a curve cx cy t)).
Proof.
  intros A Hh. pose proof (new_token_ok _ _ _ _ A) as [K [_ Ty _ _ _ _]].
  assert (X : rm_type (rq_mfa r) = "totp" \/ rm_type (rq_mfa r) = "u2f").
  { rewrite <- Ty. destruct K as [K|K]; destruct K; auto. }
  destruct X as [X|X].
  - apply totp_iff in A as (a & d & R & ->); [|exact Hh|exact X]. split; [reflexivity|]. left. exists a, d. split; [exact R|]. now apply totp_of_complete.
  - apply u2f_iff in A as (q & a & c & x & y & R & ->); [|exact X]. pose proof (ru_public _ _ _ _ _ _ _ R) as Tq. split; [reflexivity|]. right. exists q, a, c, x, y. split; [exact R|]. now apply u2f_of_entry.
Qed.
Lemma drawn_tells E x t : hmac_size E -> cache_ok t -> drawn E x t -> tells E x t.
Proof.
  intros Hh Co (t0 & A & C). destruct (made_fresh _ _ _ _ A Hh) as [N K]. split.
  - change (token_of E x (uncache t)). rewrite C. assert (uncache t0 = t0) as -> by (destruct t0; cbn in N; subst; reflexivity). exact K.
  - intros key H. apply p256_iff. exact (Co key H).
Qed.
Lemma case_returned E fs db l nd r e : register_typed E -> hmac_size E -> equipped E fs db l -> In e l -> case_named E e r ->
  exists ts, exec E nd OpGetMfaTokens db fs r = {| o_db := db; o_fs := fs; o_req := r <| rq_payload := PMfaTokens {| b_items := ts; b_size := Z.of_nat (List.length ts) |} |>; o_res := OOk |} /\
    Forall2 (tells E) (active (ca_enrolments e)) ts.
Proof.
  intros RT Hh R He N. destruct (case_at _ _ _ _ (equipped_carries _ _ _ _ RT R) He) as (i & u & Hu & M).
  destruct (get_mfa_tokens_spec E nd db fs r i u (equipped_reachable _ _ _ _ R) (carries_named _ _ _ _ _ _ Hu M N)) as (ts & X & K). exists ts. split; [exact X|].
  destruct (active_picked _ _ _ _ (cr_factors _ _ _ M) K) as [F I].
  pose proof (reachable_caches _ _ _ (equipped_reachable _ _ _ _ R) i u Hu) as Co. rewrite List.Forall_forall in Co.
  assert (G : forall t, In t ts -> cache_ok t) by auto. clear - Hh F G. induction F as [|x t l ts H F IH]; [constructor|].
  constructor; [apply drawn_tells; [exact Hh|apply G; now left|exact H]|]. apply IH. intros y Hy. apply G. now right.
Qed.
