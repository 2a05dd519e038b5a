(** Proofs about issued API keys (C126). *)
From Coq Require Import String Ascii ZArith NArith Lia Bool Arith List.
From stdpp Require Import gmap strings.
From RecordUpdate Require Import RecordSet.
From Verif Require Import GoStr Utf8 GoErr GoTime Role Name Email Random SpecValue RandomFacts.
From Verif Require Import Types Env Password ApiKey PublicKey Mfa User Json Persist Fs Database System UserFacts DbFacts Inv LoadFacts.
From Verif Require Import SpecDb SpecKey SpecCrypto SpecAuth SpecMfa SpecPersist SpecDefect SpecOutage SpecLedger SpecGrant CryptoFacts AccountFacts StepFacts.
From Verif Require Import PublicKeyFacts PersistFacts StoredFacts ReloadFacts OpenFacts LiveFacts ApiKeyFacts LedgerFacts TookFacts ShelfFacts.
Import ListNotations.
Import RecordSetNotations.
Open Scope string_scope.
#[local] Opaque int64 new_id trim_space new_email new_role.

Record bags (E : Env) (e : Purse) (u : User) : Prop := {
  bg_name : u_username u = pu_name e;
  bg_mail : exists m, u_emails u = [m] /\ em_address m = pu_mail e;
  bg_grants : Forall2 (stands_for E) (pu_grants e) (u_apikeys u) }.
Lemma bags_insert E l us i u v (f : Purse -> Purse) r :
  Forall2 (bags E) l us -> us !! i = Some u -> same_ci E (u_username u) (ru_username (rq_user r)) ->
  (forall j w, us !! j = Some w -> same_ci E (u_username w) (u_username u) -> j = i) ->
  (forall e, bags E e u -> bags E (f e) v) ->
  Forall2 (bags E) (on_purse E r f l) (<[i := v]> us).
Proof.
  intros F Hi Sc U G. apply Forall2_lookup. intros j. unfold on_purse. rewrite list_lookup_fmap. destruct (decide (j = i)) as [->|Nj].
  - rewrite list_lookup_insert by (eapply lookup_lt_Some; exact Hi). destruct (Forall2_lookup_r _ _ _ _ _ F Hi) as (e & He & M). rewrite He. cbn. constructor.
    unfold same_ci in Sc. rewrite <- (bg_name _ _ _ M), Sc, String.eqb_refl. auto.
  - rewrite list_lookup_insert_ne by congruence. destruct (us !! j) as [w|] eqn:Hj.
    + destruct (Forall2_lookup_r _ _ _ _ _ F Hj) as (e & He & M). rewrite He. cbn. constructor.
      destruct (String.eqb_spec (lower E (pu_name e)) (lower E (ru_username (rq_user r)))) as [X|X]; [|exact M].
      exfalso. apply Nj. apply (U j w Hj). unfold same_ci in *. rewrite (bg_name _ _ _ M). congruence.
    + assert (Hl : l !! j = None) by (apply lookup_ge_None; apply lookup_ge_None in Hj; rewrite (Forall2_length _ _ _ F); exact Hj). rewrite Hl. constructor.
Qed.
Lemma bags_update E l us i u v : Forall2 (bags E) l us -> us !! i = Some u -> (forall e, bags E e u -> bags E e v) -> Forall2 (bags E) l (<[i := v]> us).
Proof.
  intros F. revert i. induction F as [|e w l us M F IH]; intros i Hi G; [discriminate|]. destruct i as [|i]; cbn.
  - injection Hi as ->. constructor; auto.
  - constructor; auto.
Qed.
Lemma bags_same E e u v : bags E e u -> u_username v = u_username u -> u_emails v = u_emails u -> u_apikeys v = u_apikeys u -> bags E e v.
Proof. intros [A B C] H1 H2 H3. constructor; rewrite ?H1, ?H2, ?H3; assumption. Qed.
Lemma grants_drop E id l ks : Forall2 (stands_for E) l ks ->
  Forall2 (stands_for E) (List.filter (fun x => negb (String.eqb (gr_id x) id)) l) (List.filter (fun k => negb (String.eqb (ak_id k) id)) ks).
Proof. intros F. induction F as [|x k l ks H F IH]; [constructor|]. cbn. rewrite (sf_id _ _ _ H). destruct (String.eqb (gr_id x) id); cbn; auto. Qed.
(** ** Calls *)
Lemma issue_other E nd op r o l : own op = false \/ took o = false \/ ~ In op [OpAddUser; OpAddAPIKey; OpDeleteAPIKey] -> issue E nd op r o l = l.
Proof. intros H. unfold issue. destruct (took o); [|reflexivity]. destruct op; try reflexivity; exfalso; destruct H as [H|[H|H]]; try discriminate; apply H; cbn; tauto. Qed.
Lemma call_bags E nd op db fs r l : reachable E fs db -> let o := exec E nd op db fs r in
  o_res o <> OCrash -> Forall2 (bags E) l (db_users db) -> Forall2 (bags E) (issue E nd op r o l) (db_users (o_db o)).
Proof.
  intros HR o Nc F. destruct (took_shape E nd op db fs r Nc) as [(Ow & T & db1 & res & Eff & C)|(Q & Rc)]; [fold o in T, C|fold o in Q, Rc].
  2:{ rewrite issue_other by tauto. destruct Rc as [Rc|Rc]; [|now rewrite Rc]. destruct Rc as [|i u u' res G _ V]; [exact F|]. pose proof (Inv.get_user_at _ _ _ _ _ G) as Hi.
      pose proof (verify_webauthn_uncache E u r) as X. rewrite V in X. cbn in X. apply same_uncached_frame in X as (Fr & X1 & X2 & X3 & X4 & X5 & Ts).
      apply frame_mails in Fr as (A & B). rewrite set_user_users. apply (bags_update E l _ i u u' F Hi). intros e M. eapply bags_same; eauto. }
  pose proof (commit_to_inv _ _ _ _ _ _ _ C) as [Hd _]. clear C. rewrite Hd, commit_users.
  assert (UN : forall i u, db_users db !! i = Some u -> forall j w, db_users db !! j = Some w -> same_ci E (u_username w) (u_username u) -> j = i).
  { intros i u Hi j w Hj S. exact (username_unique E fs db j i w u HR Hj Hi S). }
  destruct Eff as [|fp|u0 addrs u CP NU Hu RU NA|op i u u' V Up|i u s hk u' V Dr Pw Fp A|i u u' r' V D].
  - discriminate Ow.
  - discriminate Ow.
  - unfold issue. rewrite T. change (db_users (with_account E db u addrs)) with (db_users db ++ [u])%list. apply Forall2_app; [exact F|]. constructor; [|constructor].
    destruct (effect_add_user E nd db r _ (EffUser E nd db r u0 addrs u CP NU Hu RU NA)) as (v & Nv & Hv & _).
    change (db_users (with_account E db u addrs)) with (db_users db ++ [u])%list in Hv. apply app_inv_head in Hv. injection Hv as <-.
    destruct Nv as [_ N1 (m & _ & N2 & N3 & _) _ _ _ _ (N7 & N8 & N9) _ _].
    constructor; cbn [pu_name pu_mail pu_grants]; [exact N1|eauto|rewrite N8; constructor].
  - pose proof (Inv.validate_at _ _ _ _ _ V) as Hi. pose proof V as V'. apply (validate_iff _ fs) in V' as ((_ & _ & Sn) & _); [|assumption].
    rewrite set_user_users. destruct (upd_frame _ _ _ _ _ _ _ Up) as [Fr Ka]. apply frame_mails in Fr as (Fa & Fb).
    assert (Hc : issue E nd op r o l = l) by (apply issue_other; right; right; destruct Up; cbn; intuition discriminate).
    rewrite Hc. apply (bags_update E l _ i u u' F Hi). intros e M. eapply bags_same; eauto.
  - assert (Pay : handed_out o = s).
    { unfold handed_out, o. rewrite (issued_payload E nd db fs r i u s hk u' V Dr Pw Fp A). reflexivity. }
    pose proof (Inv.validate_at _ _ _ _ _ V) as Hi. pose proof V as V'. apply (validate_iff _ fs) in V' as ((_ & _ & Sn) & _); [|assumption].
    unfold issue. rewrite T, Pay. change (db_users (set_user db i u' <| ref_apikey ::= <[take 24 s := i]> |>)) with (<[i := u']> (db_users db)).
    apply (bags_insert E l _ i u u' _ r F Hi Sn (UN i u Hi)). intros e [A1 B1 C1]. apply add_api_key_inv in A as (k & Hk & ->).
    destruct (issued_key_intro E nd r s hk k Dr Pw Hk) as [_ Kl Kp Kh Ki Ku Kc (Kf1 & Kf2 & Kf3)].
    apply new_api_key_inv in Hk as (_ & _ & _ & Hk).
    constructor; cbn [with_grants pu_name pu_mail pu_grants]; [exact A1|exact B1|]. apply Forall2_app; [exact C1|]. constructor; [|constructor].
    constructor; cbn [gr_secret gr_nd gr_req]; try assumption; [split; [exact Kf1|rewrite Hk; reflexivity]|]. split; [exact Kf3|]. split; [exact Kf2|]. rewrite Hk. reflexivity.
  - pose proof (Inv.validate_at _ _ _ _ _ V) as Hi. pose proof V as V'. apply (validate_iff _ fs) in V' as ((_ & _ & Sn) & _); [|assumption].
    unfold issue. rewrite T. change (db_users (set_user db i u' <| ref_apikey ::= delete (rk_prefix (rq_key r')) |>)) with (<[i := u']> (db_users db)).
    apply (bags_insert E l _ i u u' _ r F Hi Sn (UN i u Hi)). intros e [A1 B1 C1]. apply delete_api_key_inv in D as (_ & -> & _).
    constructor; cbn [with_grants pu_name pu_mail pu_grants]; [exact A1|exact B1|]. exact (grants_drop _ _ _ _ C1).
Qed.
Lemma granted_reachable E fs db l : granted E fs db l -> reachable E fs db.
Proof. exact (traced_reachable E _ _ fs db l). Qed.
Lemma granted_bags E fs db l : register_typed E -> granted E fs db l -> Forall2 (bags E) l (db_users db).
Proof.
  intros RT R. induction R as [nd fp fs fs' db A O|nd op r fs db l R IH o Nh Nc|fs fs' db l R IH|nd fp fs0 fs fs' db db' l R IH D P U O].
  - unfold new_database in O. destruct nd_stat_err; [discriminate|]. assert (X : (if String.eqb fp "" then None else fs !! fp) = None).
    { destruct (String.eqb_spec fp ""); [reflexivity|]. destruct A; [contradiction|assumption]. }
    rewrite X in O. destruct nd_mkdir_err; [discriminate|]. cbv zeta in O. destruct write_db as [fs2 []]; try discriminate. injection O as <- <-. constructor.
  - exact (call_bags E nd op db fs r l (granted_reachable _ _ _ _ R) Nc IH).
  - exact IH.
  - destruct (restart_users E nd db fp fs fs' db' _ _ RT (granted_reachable _ _ _ _ R) D P U O) as (us & F & ->). clear - IH F.
    revert us F. induction IH as [|e u l us0 M IH1 IH2]; intros us F; inversion F as [|? v ? us' (H1 & H2 & _ & H4 & _ & _) F']; subst; constructor; [|auto].
    apply (bags_same E e u); [exact M|exact H1|exact H2|exact H4].
Qed.
(** ** What is returned and accepted *)
Lemma purse_at E l us e : Forall2 (bags E) l us -> In e l -> exists i u, us !! i = Some u /\ bags E e u.
Proof. intros F H. apply elem_of_list_In, elem_of_list_lookup in H as [i Hi]. destruct (Forall2_lookup_l _ _ _ _ _ F Hi) as (u & Hu & M). eauto. Qed.
Lemma bags_named E db e i u r : account db i u -> bags E e u -> purse_named E e r -> identity_of E db r i u.
Proof.
  intros Hu [A (m & B1 & B2) _] (L1 & S1 & L2 & S2). split; [split; [exact L1|]; split; [exact Hu|]; unfold has_username; now rewrite A|].
  exists i, u. split; [|reflexivity]. split; [exact L2|]. split; [exact Hu|]. exists m. rewrite B1, B2. split; [now left|exact S2].
Qed.
Lemma in_force_picked E l ks ks' : Forall2 (stands_for E) l ks -> picked (fun k => ak_usage k = "api" /\ ak_disabled k = false) ks ks' -> Forall2 (stands_for E) (in_force l) ks'.
Proof.
  intros F P. revert l F. unfold in_force. induction P as [|t ts ts' H P IH|t ts ts' H P IH]; intros l F; inversion F as [|f ? l' ? M F']; subst; [constructor| |]; cbn;
    pose proof (proj1 (sf_off _ _ _ M)) as H2; pose proof (proj1 (sf_usage _ _ _ M)) as H1; rewrite <- H2.
  - rewrite (proj2 H). cbn. constructor; auto.
  - destruct (ak_disabled t) eqn:H4; [cbn; auto|]. exfalso. auto.
Qed.
Lemma none_picked E s l ks ks' : s <> "api" -> Forall2 (stands_for E) l ks -> picked (fun k => ak_usage k = s /\ ak_disabled k = false) ks ks' -> ks' = [].
Proof.
  intros N F P. revert l F. induction P as [|t ts ts' H P IH|t ts ts' H P IH]; intros l F; inversion F as [|f ? l' ? M F']; subst; [reflexivity| |eauto].
  exfalso. destruct H as [H _]. apply N. rewrite <- H. exact (proj1 (sf_usage _ _ _ M)).
Qed.
Lemma purse_returned E fs db l nd r e : register_typed E -> granted E fs db l -> In e l -> purse_named E e r ->
  exists ks, exec E nd OpGetAPIKeys db fs r = {| o_db := db; o_fs := fs; o_req := r <| rq_payload := PAPIKeys {| b_items := ks; b_size := Z.of_nat (List.length ks) |} |>; o_res := OOk |} /\
    (rk_usage (rq_key r) = "api" -> Forall2 (stands_for E) (in_force (pu_grants e)) ks) /\ (rk_usage (rq_key r) <> "api" -> ks = []).
Proof.
  intros RT R He N. destruct (purse_at _ _ _ _ (granted_bags _ _ _ _ RT R) He) as (i & u & Hu & M).
  destruct (get_api_keys_spec E nd db fs r i u (granted_reachable _ _ _ _ R) (bags_named _ _ _ _ _ _ Hu M N)) as (ks & X & K). exists ks. split; [exact X|]. split.
  - intros U. rewrite U in K. exact (in_force_picked _ _ _ _ (bg_grants _ _ _ M) K).
  - intros U. exact (none_picked _ _ _ _ _ U (bg_grants _ _ _ M) K).
Qed.
