(** Proofs about copies of a database (C131). *)
From Coq Require Import String Ascii ZArith NArith Lia Bool Arith List.
From stdpp Require Import gmap strings.
From RecordUpdate Require Import RecordSet.
From Verif Require Import GoStr Utf8 GoErr GoTime Role Name Email Random SpecValue RandomFacts.
From Verif Require Import Types Env Password ApiKey PublicKey Mfa User Json Persist Fs Database System UserFacts DbFacts Inv LoadFacts.
From Verif Require Import SpecDb SpecKey SpecCrypto SpecAuth SpecMfa SpecPersist SpecDefect SpecOutage SpecLedger SpecReplay SpecDurable SpecBackup CryptoFacts AccountFacts StepFacts.
From Verif Require Import PublicKeyFacts PersistFacts StoredFacts ReloadFacts OpenFacts LiveFacts ApiKeyFacts MfaFacts TwinFacts ConcFacts ReopenFacts LedgerFacts TookFacts ReplayFacts DurableFacts.
Import ListNotations.
Import RecordSetNotations.
Open Scope string_scope.
#[local] Opaque int64 new_id trim_space new_email new_role.

Ltac tail F := match goal with |- o_db (Database.finish ?nd ?d' ?fs' ?r1 ?w1) = rebind ?fp (o_db (Database.finish ?nd ?d ?fs ?r1 ?w2)) /\ _ => change d' with (rebind fp d); exact (F d r1 w1 w2) end.
Section rebound.
Context (E : Env) (nd : Nd) (fp : string).
Lemma bound_addresses db l : new_addresses E (rebind fp db) l = new_addresses E db l.
Proof. induction l as [|e l IH]; [reflexivity|]. cbn [new_addresses]. rewrite IH. reflexivity. Qed.
Lemma bound_pick db n : forall i old, pick_id (rebind fp db) nd i n old = pick_id db nd i n old.
Proof. induction n as [|n IH]; intros i old; [reflexivity|]. cbn [pick_id]. rewrite IH. reflexivity. Qed.
Lemma bound_identity db r : validate_identity E (rebind fp db) r = validate_identity E db r.
Proof. reflexivity. Qed.
Lemma bound_user db s : get_user E (rebind fp db) s = get_user E db s.
Proof. reflexivity. Qed.
Lemma bound_effect db r op db1 : effect E nd db r op db1 -> effect E nd (rebind fp db) r op (rebind fp db1).
Proof.
  intros [| |u0 addrs u P N U Hu Ha|op' i u u' V H|i u s hk u' V R H K A|i u u' r' V H].
  - constructor.
  - constructor.
  - change (rebind fp (with_account E db u addrs)) with (with_account E (rebind fp db) u addrs). apply (EffUser E nd (rebind fp db) r u0); auto; now rewrite ?bound_pick, ?bound_addresses.
  - exact (EffUpd E nd (rebind fp db) r op' i u u' V H).
  - exact (EffAddKey E nd (rebind fp db) r i u s hk u' V R H K A).
  - exact (EffDelKey E nd (rebind fp db) r i u u' r' V H).
Qed.
Lemma bound_exec op db fs fs' r : let o := exec E nd op db fs r in let o' := exec E nd op (rebind fp db) fs' r in
  o_db o' = rebind fp (o_db o) /\ o_req o' = o_req o /\ (commits op = false -> o_res o' = o_res o).
Proof.
  assert (F : forall d r1 w1 w2, o_db (Database.finish nd (rebind fp d) fs' r1 w1) = rebind fp (o_db (Database.finish nd d fs r1 w2)) /\ o_req (Database.finish nd (rebind fp d) fs' r1 w1) = o_req (Database.finish nd d fs r1 w2) /\
    (true = false -> o_res (Database.finish nd (rebind fp d) fs' r1 w1) = o_res (Database.finish nd d fs r1 w2))).
  { intros d r1 w1 w2. unfold Database.finish, commit, commit_to.
    destruct (write_db nd (db_path (rebind fp d)) _ _) as [? []], (write_db nd (db_path d) _ _) as [? []]; (split; [reflexivity|split; [reflexivity|discriminate]]). }
  cbv zeta. destruct op; cbn [exec commits].
  - unfold db_add_user. cbv zeta. change (db_policy (rebind fp db)) with (db_policy db). destruct check_policy; [auto|]. destruct new_user_with_roles as [u|]; [|auto].
    rewrite bound_pick. change (ref_username (rebind fp db)) with (ref_username db). destruct (ref_username db !! _); [auto|]. rewrite bound_addresses. destruct new_addresses; [|auto].
    tail F.
  - unfold db_get_users. rewrite bound_identity. destruct validate_identity as [[]|]; auto.
  - unfold db_get_user. rewrite bound_identity. destruct validate_identity as [[]|]; auto.
  - unfold db_delete_user. rewrite bound_identity. destruct validate_identity as [[]|]; auto.
  - unfold db_authenticate. rewrite bound_user. destruct get_user as [[i u]|]; [|auto]. destruct negb; [destruct verify_password; auto|]. destruct negb; [|auto]. destruct verify_webauthn as [u' []]; auto.
  - unfold db_save. apply F.
  - unfold db_copy, commit_to.
    change (marshal (db_content (rebind fp db <| db_content ::= bump nd |>))) with (marshal (db_content (db <| db_content ::= bump nd |>))).
    destruct (write_db nd fp0 _ fs') as [? []], (write_db nd fp0 _ fs) as [? []]; (split; [reflexivity|split; [reflexivity|discriminate]]).
  - unfold db_add_public_key. rewrite bound_identity. destruct validate_identity as [[i u]|]; [|auto]. destruct add_public_key as [u'|]; [tail F|auto].
  - unfold db_get_public_keys. rewrite bound_identity. destruct validate_identity as [[]|]; auto.
  - unfold db_delete_public_key. rewrite bound_identity. destruct validate_identity as [[i u]|]; [|auto]. destruct delete_public_key as [u'|]; [tail F|auto].
  - unfold db_add_api_key. rewrite bound_identity. destruct validate_identity as [[i u]|]; [|auto].
    destruct random_range as [s|]; [|auto]. destruct new_password as [hk|]; [|auto]. change (ref_apikey (rebind fp db)) with (ref_apikey db). destruct (ref_apikey db !! _); [auto|]. cbv zeta.
    destruct add_api_key as [u'|]; [tail F|auto].
  - unfold db_delete_api_key. rewrite bound_identity. destruct validate_identity as [[i u]|]; [|auto]. destruct delete_api_key as [[u'|] r']; [tail F|auto].
  - unfold db_get_api_keys. rewrite bound_identity. destruct validate_identity as [[]|]; auto.
  - unfold db_change_password. rewrite bound_identity. destruct validate_identity as [[i u]|]; [|auto]. change (db_policy (rebind fp db)) with (db_policy db).
    destruct negb; [auto|]. destruct change_password as [u'|]; [tail F|auto].
  - unfold db_identify. rewrite bound_user. destruct get_user as [[]|]; auto.
  - unfold db_lookup_api_key. cbv zeta. destruct String.eqb; [auto|]. destruct Z.ltb; [auto|].
    change (at_ref (rebind fp db) (ref_apikey (rebind fp db) !! take 24 (rk_payload (rq_key r)))) with (at_ref db (ref_apikey db !! take 24 (rk_payload (rq_key r)))).
    destruct at_ref as [[]|]; [|auto]. destruct lookup_api_key; auto.
  - unfold db_add_mfa_token. rewrite bound_identity. destruct validate_identity as [[i u]|]; [|auto]. destruct add_mfa_token as [r' [u'|e|]]; [tail F|auto|auto].
  - unfold db_get_mfa_tokens. rewrite bound_identity. destruct validate_identity as [[]|]; auto.
  - unfold db_delete_mfa_token. rewrite bound_identity. destruct validate_identity as [[i u]|]; [|auto]. destruct delete_mfa_token as [u'|]; [tail F|auto].
  - auto.
Qed.
End rebound.
Lemma rebind_back fp db : rebind (db_path db) (rebind fp db) = db.
Proof. destruct db. reflexivity. Qed.
Lemma bound_took E nd fp op db fs fs' r : own op = true -> let o := exec E nd op db fs r in let o' := exec E nd op (rebind fp db) fs' r in
  o_res o <> OCrash -> o_res o' <> OCrash -> took o' = took o.
Proof.
  intros Ow o o' N N'. assert (X : took o' = true <-> took o = true); [|destruct (took o), (took o'); intuition congruence].
  unfold o, o'. rewrite !took_iff by assumption. split; intros (db1 & H).
  - exists (rebind (db_path db) db1). rewrite <- (rebind_back fp db) at 1. now apply bound_effect.
  - exists (rebind fp db1). now apply bound_effect.
Qed.
Lemma whole_returns E nd op db fs r : whole nd -> o_res (exec E nd op db fs r) <> OCrash.
Proof.
  intros W. destruct (exec_shape E nd op db fs r) as [_ _ N _|db1 res Eff C Oc]; [exact N|]. apply commit_to_inv in C as [_ Wd].
  destruct (write_whole _ _ _ _ _ _ W Wd) as [[-> _]|[_ (e & ->)]]; cbn in Oc; [rewrite Oc; discriminate|]. destruct Oc as (e' & ->). discriminate.
Qed.
Lemma whole_ok nd : whole (on_disk_that IoOk nd). Proof. now left. Qed.
Lemma bound_replay E fp l : forall db, replay E l (rebind fp db) = rebind fp (replay E l db).
Proof. induction l as [|[[nd op] r] l IH]; intros db; [reflexivity|]. cbn [replay]. rewrite <- IH. f_equal. exact (proj1 (bound_exec E (on_disk_that IoOk nd) fp op db ∅ ∅ r)). Qed.
Lemma bound_heard E fp l : forall db, heard E l (rebind fp db) = heard E l db.
Proof.
  induction l as [|[[nd op] r] l IH]; intros db; [reflexivity|]. cbn [heard]. cbv zeta. destruct (bound_exec E (on_disk_that IoOk nd) fp op db ∅ ∅ r) as (A & B & C). rewrite A, B, IH. f_equal. f_equal.
  destruct (own op) eqn:Ow.
  - pose proof (bound_took E (on_disk_that IoOk nd) fp op db ∅ ∅ r Ow (whole_returns _ _ _ _ _ _ (whole_ok nd)) (whole_returns _ _ _ _ _ _ (whole_ok nd))) as T. now rewrite T.
  - destruct op; try discriminate Ow; try reflexivity; unfold took; now rewrite (C eq_refl).
Qed.
Lemma twin_heard E l : forall db db', twin db db' -> heard E l db = heard E l db'.
Proof.
  induction l as [|[[nd op] r] l IH]; intros db db' T; [reflexivity|]. cbn [heard]. cbv zeta. destruct (exec_twin E (on_disk_that IoOk nd) op db db' ∅ r T) as (A & B & _ & T').
  rewrite B, (IH _ _ T'). f_equal. f_equal. unfold took. now rewrite A.
Qed.
Lemma twin_replay E l : forall db db', twin db db' -> twin (replay E l db) (replay E l db').
Proof.
  induction l as [|[[nd op] r] l IH]; intros db db' T; [exact T|]. cbn [replay]. apply IH. exact (proj2 (proj2 (proj2 (exec_twin E (on_disk_that IoOk nd) op db db' ∅ r T)))).
Qed.
Lemma rebound_open E nd fs0 fs db fp s : register_typed E -> reachable_by E (fresh_draws E) fs0 db -> marshal (db_content db) = Some s -> fs !! fp = Some (File s) -> plain_path fp -> readable nd ->
  exists db', new_database E nd fp fs = (fs, Loaded db') /\ db_content db' = clean_content (db_content db) /\ db_path db' = fp /\
    (all_utf8 (content_texts (db_content db)) -> twin (rebind fp db) db').
Proof.
  intros RT HR M F (Ne & T)%plain_prefix (H1 & H2).
  assert (U : ids_unique db).
  { pose proof HR as (fs1 & S). apply (ids_steps E (fresh_draws E) _ _ (fun w ev H => proj1 H)) in S; [exact S|exact I|exact I]. }
  destruct (reload E nd (fresh_draws E) fs0 fs fp db s RT HR U M F Ne T H1 H2) as (db' & O & C & Hp). exists db'. repeat (split; [assumption|]).
  intros V. rewrite (keep_content _ V) in C. destruct (inv_open _ _ _ _ _ _ O) as (I' & U' & K'). split; [|split].
  - apply (near_refs E); auto.
    + rewrite C. symmetry. apply drop_twice.
    + pose proof (inv_reachable_by _ _ _ _ HR) as HI. destruct HI. split; assumption.
    + intros x i Hx. apply (index_exact E fs0 db x i) in Hx; [|eapply reachable_mono; [|exact HR]; intros w ev Hw; exact (proj2 Hw)]. destruct Hx as (u & k & ? & ? & ?). exists u, k. auto.
  - apply (reachable_caches E fs0 db). eapply reachable_mono; [|exact HR]. intros; exact I.
  - exact (open_caches _ _ _ _ _ _ O).
Qed.
