(** Proofs about stored public keys (C124). *)
From Coq Require Import String Ascii ZArith NArith Lia Bool Arith List.
From stdpp Require Import gmap strings.
From RecordUpdate Require Import RecordSet.
From Verif Require Import GoStr Utf8 GoErr GoTime Role Name Email Random SpecValue RandomFacts.
From Verif Require Import Types Env Password ApiKey PublicKey Mfa User Json Persist Fs Database System UserFacts DbFacts Inv LoadFacts.
From Verif Require Import SpecDb SpecKey SpecCrypto SpecAuth SpecMfa SpecPersist SpecDefect SpecOutage SpecLedger SpecShelf SpecPublic SpecKeyring CryptoFacts AccountFacts StepFacts.
From Verif Require Import PublicKeyFacts PersistFacts StoredFacts ReloadFacts OpenFacts LiveFacts LedgerFacts TookFacts RefuseFacts ShelfFacts PublicEntry.
Import ListNotations.
Import RecordSetNotations.
Open Scope string_scope.
#[local] Opaque int64 new_id trim_space new_email new_role.

Record keeps (E : Env) (e : Keyring) (u : User) : Prop := {
  ke_name : u_username u = ky_name e;
  ke_mail : exists m, u_emails u = [m] /\ em_address m = ky_mail e;
  ke_texts : Forall2 (entry E) (ky_texts e) (u_pubkeys u) }.
Lemma keeps_insert E l us i u v (f : Keyring -> Keyring) r :
  Forall2 (keeps E) l us -> us !! i = Some u -> same_ci E (u_username u) (ru_username (rq_user r)) ->
  (forall j w, us !! j = Some w -> same_ci E (u_username w) (u_username u) -> j = i) ->
  (forall e, keeps E e u -> keeps E (f e) v) ->
  Forall2 (keeps E) (on_keyring E r f l) (<[i := v]> us).
Proof.
  intros F Hi Sc U G. apply Forall2_lookup. intros j. unfold on_keyring. rewrite list_lookup_fmap. destruct (decide (j = i)) as [->|Nj].
  - rewrite list_lookup_insert by (eapply lookup_lt_Some; exact Hi). destruct (Forall2_lookup_r _ _ _ _ _ F Hi) as (e & He & M). rewrite He. cbn. constructor.
    unfold same_ci in Sc. rewrite <- (ke_name _ _ _ M), Sc, String.eqb_refl. auto.
  - rewrite list_lookup_insert_ne by congruence. destruct (us !! j) as [w|] eqn:Hj.
    + destruct (Forall2_lookup_r _ _ _ _ _ F Hj) as (e & He & M). rewrite He. cbn. constructor.
      destruct (String.eqb_spec (lower E (ky_name e)) (lower E (ru_username (rq_user r)))) as [X|X]; [|exact M].
      exfalso. apply Nj. apply (U j w Hj). unfold same_ci in *. rewrite (ke_name _ _ _ M). congruence.
    + assert (Hl : l !! j = None) by (apply lookup_ge_None; apply lookup_ge_None in Hj; rewrite (Forall2_length _ _ _ F); exact Hj). rewrite Hl. constructor.
Qed.
Lemma keeps_update E l us i u v : Forall2 (keeps E) l us -> us !! i = Some u -> (forall e, keeps E e u -> keeps E e v) -> Forall2 (keeps E) l (<[i := v]> us).
Proof.
  intros F. revert i. induction F as [|e w l us M F IH]; intros i Hi G; [discriminate|]. destruct i as [|i]; cbn.
  - injection Hi as ->. constructor; auto.
  - constructor; auto.
Qed.
Lemma keeps_same E e u v : keeps E e u -> u_username v = u_username u -> u_emails v = u_emails u -> u_pubkeys v = u_pubkeys u -> keeps E e v.
Proof. intros [A B C] H1 H2 H3. constructor; rewrite ?H1, ?H2, ?H3; assumption. Qed.
Lemma entry_is E x k : entry E x k -> pk_id k = tx_id E x /\ pk_usage k = rk_usage (rq_key (tx_req x)) /\ pk_disabled k = rk_disabled (rq_key (tx_req x)).
Proof. intros H. apply new_key_iff, new_pub in H. exact H. Qed.
Lemma texts_drop E id l ks : Forall2 (entry E) l ks ->
  Forall2 (entry E) (List.filter (fun x => negb (String.eqb (tx_id E x) id)) l) (List.filter (fun k => negb (String.eqb (pk_id k) id)) ks).
Proof. intros F. induction F as [|x k l ks H F IH]; [constructor|]. cbn. rewrite (proj1 (entry_is _ _ _ H)). destruct (String.eqb (tx_id E x) id); cbn; auto. Qed.
(** ** Calls *)
Lemma hand_in_other E nd op r o l : own op = false \/ took o = false \/ ~ In op [OpAddUser; OpAddPublicKey; OpDeletePublicKey] -> hand_in E nd op r o l = l.
Proof. intros H. unfold hand_in. destruct (took o); [|reflexivity]. destruct op; try reflexivity; exfalso; destruct H as [H|[H|H]]; try discriminate; apply H; cbn; tauto. Qed.
Lemma call_keeps E nd op db fs r l : reachable E fs db -> let o := exec E nd op db fs r in
  o_res o <> OCrash -> Forall2 (keeps E) l (db_users db) -> Forall2 (keeps E) (hand_in E nd op r o l) (db_users (o_db o)).
Proof.
  intros HR o Nc F. destruct (took_shape E nd op db fs r Nc) as [(Ow & T & db1 & res & Eff & C)|(Q & Rc)]; [fold o in T, C|fold o in Q, Rc].
  2:{ rewrite hand_in_other by tauto. destruct Rc as [Rc|Rc]; [|now rewrite Rc]. destruct Rc as [|i u u' res G _ V]; [exact F|]. pose proof (Inv.get_user_at _ _ _ _ _ G) as Hi.
      pose proof (verify_webauthn_uncache E u r) as X. rewrite V in X. cbn in X. apply same_uncached_frame in X as (Fr & X1 & X2 & X3 & X4 & X5 & Ts).
      apply frame_mails in Fr as (A & B). rewrite set_user_users. apply (keeps_update E l _ i u u' F Hi). intros e M. eapply keeps_same; eauto. }
  pose proof (commit_to_inv _ _ _ _ _ _ _ C) as [Hd _]. clear C. rewrite Hd, commit_users.
  assert (UN : forall i u, db_users db !! i = Some u -> forall j w, db_users db !! j = Some w -> same_ci E (u_username w) (u_username u) -> j = i).
  { intros i u Hi j w Hj S. exact (username_unique E fs db j i w u HR Hj Hi S). }
  destruct Eff as [|fp|u0 addrs u CP NU Hu RU NA|op i u u' V Up|i u s hk u' V Dr Pw Fp A|i u u' r' V D].
  - discriminate Ow.
  - discriminate Ow.
  - unfold hand_in. rewrite T. change (db_users (with_account E db u addrs)) with (db_users db ++ [u])%list. apply Forall2_app; [exact F|]. constructor; [|constructor].
    destruct (effect_add_user E nd db r _ (EffUser E nd db r u0 addrs u CP NU Hu RU NA)) as (v & Nv & Hv & _).
    change (db_users (with_account E db u addrs)) with (db_users db ++ [u])%list in Hv. apply app_inv_head in Hv. injection Hv as <-.
    destruct Nv as [_ N1 (m & _ & N2 & N3 & _) _ _ _ _ (N7 & N8 & N9) _ _].
    constructor; cbn [ky_name ky_mail ky_texts]; [exact N1|eauto|rewrite N7; constructor].
  - pose proof (Inv.validate_at _ _ _ _ _ V) as Hi. pose proof V as V'. apply (validate_iff _ fs) in V' as ((_ & _ & Sn) & _); [|assumption].
    rewrite set_user_users. destruct (upd_frame _ _ _ _ _ _ _ Up) as [Fr Ka]. apply frame_mails in Fr as (Fa & Fb).
    inversion Up as [? H|? H|? P H|q ? H|? H]; subst.
    3, 4, 5: rewrite hand_in_other by (right; right; cbn; intuition discriminate); apply (keeps_update E l _ i u u' F Hi); intros e M; eapply keeps_same; eauto.
    + unfold hand_in. rewrite T. apply (keeps_insert E l _ i u u' _ r F Hi Sn (UN i u Hi)). intros e [A B G]. apply add_public_key_inv in H as (k & Hk & _ & ->).
      constructor; cbn [with_texts ky_name ky_mail ky_texts]; try assumption. apply Forall2_app; [exact G|]. constructor; [|constructor].
      apply new_key_iff. exact Hk.
    + unfold hand_in. rewrite T. apply (keeps_insert E l _ i u u' _ r F Hi Sn (UN i u Hi)). intros e [A B G]. apply delete_public_key_inv in H as (_ & ->).
      constructor; cbn [with_texts ky_name ky_mail ky_texts]; try assumption. exact (texts_drop _ _ _ _ G).
    + apply change_password_inv in H as [_ H]. apply add_password_inv in H as (p & Hp & ->). reflexivity.
    + apply add_mfa_token_inv in H as (t & Ht & _ & ->). reflexivity.
    + apply delete_mfa_token_inv in H as (_ & ->). reflexivity.
  - pose proof (Inv.validate_at _ _ _ _ _ V) as Hi. rewrite hand_in_other by (right; right; cbn; intuition discriminate).
    change (db_users (set_user db i u' <| ref_apikey ::= <[take 24 s := i]> |>)) with (<[i := u']> (db_users db)). apply (keeps_update E l _ i u u' F Hi). intros e M.
    apply add_api_key_inv in A as (k & Hk & ->). eapply keeps_same; eauto.
  - pose proof (Inv.validate_at _ _ _ _ _ V) as Hi. rewrite hand_in_other by (right; right; cbn; intuition discriminate).
    change (db_users (set_user db i u' <| ref_apikey ::= delete (rk_prefix (rq_key r')) |>)) with (<[i := u']> (db_users db)). apply (keeps_update E l _ i u u' F Hi). intros e M.
    apply delete_api_key_inv in D as (_ & -> & _). eapply keeps_same; eauto.
Qed.
Lemma handed_reachable E fs db l : handed_in E fs db l -> reachable E fs db.
Proof. exact (traced_reachable E _ _ fs db l). Qed.
Lemma handed_keeps E fs db l : register_typed E -> handed_in E fs db l -> Forall2 (keeps E) l (db_users db).
Proof.
  intros RT R. induction R as [nd fp fs fs' db A O|nd op r fs db l R IH o Nh Nc|fs fs' db l R IH|nd fp fs0 fs fs' db db' l R IH D P U O].
  - unfold new_database in O. destruct nd_stat_err; [discriminate|]. assert (X : (if String.eqb fp "" then None else fs !! fp) = None).
    { destruct (String.eqb_spec fp ""); [reflexivity|]. destruct A; [contradiction|assumption]. }
    rewrite X in O. destruct nd_mkdir_err; [discriminate|]. cbv zeta in O. destruct write_db as [fs2 []]; try discriminate. injection O as <- <-. constructor.
  - exact (call_keeps E nd op db fs r l (handed_reachable _ _ _ _ R) Nc IH).
  - exact IH.
  - destruct (restart_users E nd db fp fs fs' db' _ _ RT (handed_reachable _ _ _ _ R) D P U O) as (us & F & ->). clear - IH F.
    revert us F. induction IH as [|e u l us0 M IH1 IH2]; intros us F; inversion F as [|? v ? us' (H1 & H2 & _ & _ & H5 & _) F']; subst; constructor; [|auto].
    apply (keeps_same E e u); [exact M|exact H1|exact H2|exact H5].
Qed.
(** ** What is returned and accepted *)
Lemma keyring_at E l us e : Forall2 (keeps E) l us -> In e l -> exists i u, us !! i = Some u /\ keeps E e u.
Proof. intros F H. apply elem_of_list_In, elem_of_list_lookup in H as [i Hi]. destruct (Forall2_lookup_l _ _ _ _ _ F Hi) as (u & Hu & M). eauto. Qed.
Lemma keeps_named E db e i u r : account db i u -> keeps E e u -> keyring_named E e r -> identity_of E db r i u.
Proof.
  intros Hu [A (m & B1 & B2) _] (L1 & S1 & L2 & S2). split; [split; [exact L1|]; split; [exact Hu|]; unfold has_username; now rewrite A|].
  exists i, u. split; [|reflexivity]. split; [exact L2|]. split; [exact Hu|]. exists m. rewrite B1, B2. split; [now left|exact S2].
Qed.
Lemma for_use_picked E usage l ks ks' : Forall2 (entry E) l ks -> picked (fun k => pk_usage k = usage /\ pk_disabled k = false) ks ks' -> Forall2 (entry E) (for_use usage l) ks'.
Proof.
  intros F P. revert l F. unfold for_use. induction P as [|t ts ts' H P IH|t ts ts' H P IH]; intros l F; inversion F as [|f ? l' ? M F']; subst; [constructor| |]; cbn;
    destruct (entry_is _ _ _ M) as (_ & H1 & H2).
  - destruct H as [H3 H4]. rewrite <- H1, <- H2, H3, H4, String.eqb_refl. cbn. constructor; auto.
  - rewrite <- H1, <- H2. destruct (String.eqb_spec (pk_usage t) usage) as [H3|H3]; [|cbn; auto]. destruct (pk_disabled t) eqn:H4; [cbn; auto|]. exfalso. auto.
Qed.
Lemma keyring_returned E fs db l nd r e : register_typed E -> handed_in E fs db l -> In e l -> keyring_named E e r ->
  exists ks, exec E nd OpGetPublicKeys db fs r = {| o_db := db; o_fs := fs; o_req := r <| rq_payload := PPublicKeys {| b_items := ks; b_size := Z.of_nat (List.length ks) |} |>; o_res := OOk |} /\
    Forall2 (entry E) (for_use (rk_usage (rq_key r)) (ky_texts e)) ks.
Proof.
  intros RT R He N. destruct (keyring_at _ _ _ _ (handed_keeps _ _ _ _ RT R) He) as (i & u & Hu & M).
  destruct (get_public_keys_spec E nd db fs r i u (handed_reachable _ _ _ _ R) (keeps_named _ _ _ _ _ _ Hu M N)) as (ks & X & K). exists ks. split; [exact X|].
  exact (for_use_picked _ _ _ _ _ (ke_texts _ _ _ M) K).
Qed.
Lemma keeps_fp E e u k : keeps E e u -> ~ holds_fp u (pk_type k) (pk_fp k) <-> Forall (other_key E k) (ky_texts e).
Proof.
  intros [_ _ F]. unfold holds_fp, other_key. induction F as [|x k0 l ks H F IH]; [split; [constructor|intros _ (? & [] & _)]|]. rewrite Forall_cons, <- IH. clear IH. split.
  - intros N. split.
    + intros k' K T P. assert (k' = k0) as -> by (unfold entry in *; apply new_key_iff in K, H; congruence). apply N. exists k0. split; [now left|auto].
    + intros (y & Hy & A). apply N. exists y. split; [now right|exact A].
  - intros [N1 N2] (y & [<-|Hy] & A & B); [exact (N1 _ H A B)|]. apply N2. eauto.
Qed.
Lemma keyring_accepts E fs db l nd r e : register_typed E -> handed_in E fs db l -> In e l -> keyring_named E e r -> let o := exec E nd OpAddPublicKey db fs r in
  o_res o = OOk <-> (exists k, says E nd r k /\ Forall (other_key E k) (ky_texts e)) /\ can_write nd fs (db_path db) (db_content (o_db o)).
Proof.
  intros RT R He N o. unfold o. pose proof (handed_reachable _ _ _ _ R) as HR. destruct (keyring_at _ _ _ _ (handed_keeps _ _ _ _ RT R) He) as (i & u & Hu & M).
  pose proof (keeps_named _ _ _ _ _ _ Hu M N) as Hi. rewrite (add_public_key_iff E nd db fs r HR). split; intros [X W]; (split; [|exact W]).
  - destruct X as (j & v & k & Hj & K & D). destruct (identity_fun E fs db r j v i u HR Hj Hi) as [-> ->]. exists k. split; [now apply new_key_iff|]. now apply (keeps_fp E e u k M).
  - destruct X as (k & K & D). exists i, u, k. split; [exact Hi|]. split; [now apply new_key_iff|]. now apply (keeps_fp E e u k M).
Qed.
