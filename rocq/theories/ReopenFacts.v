(** The database reopened from its file: same accounts, same answers. *)
From Coq Require Import String Ascii ZArith NArith Lia Bool Arith List.
From Coq Require Import ZifyBool ZifyNat ZifyN.
From stdpp Require Import gmap strings.
From RecordUpdate Require Import RecordSet.
From Verif Require Import GoStr Utf8 Codec GoErr Role Name Email Random SpecValue RoleFacts EmailFacts RandomFacts.
From Verif Require Import Types Env Password ApiKey PublicKey Mfa User Json GoTime Persist Fs Database System UserFacts DbFacts Inv LoadFacts.
From Verif Require Import SpecDb AccountFacts StepFacts SpecAuth ApiKeyFacts MfaFacts SpecPersist JsonFacts PersistFacts StoredFacts ReloadFacts TwinFacts.
Import ListNotations.
Import RecordSetNotations.
Open Scope string_scope.
#[local] Opaque int64 new_id trim_space new_email new_role.

Lemma steps_mono E (P Q : World -> Event -> Prop) w w' : (forall w ev, P w ev -> Q w ev) -> steps E P w w' -> steps E Q w w'.
Proof. intros H S. induction S as [|w1 ev w2 w3 S IH Hev St]; [constructor|]. eapply StCons; eauto. Qed.
Lemma reachable_mono E (P Q : World -> Event -> Prop) fs db : (forall w ev, P w ev -> Q w ev) -> reachable_by E P fs db -> reachable_by E Q fs db.
Proof. intros H (fs0 & S). exists fs0. eapply steps_mono; eauto. Qed.
Lemma steps_trans E P w1 w2 w3 : steps E P w1 w2 -> steps E P w2 w3 -> steps E P w1 w3.
Proof. intros S1 S2. induction S2 as [|w2 ev w3 w4 S2 IH Hev St]; [exact S1|]. exact (StCons _ _ _ _ _ _ (IH S1) Hev St). Qed.

(** ** The indexes are determined by the accounts *)
Lemma near_refs E db db' : drop_caches (db_content db) = drop_caches (db_content db') -> db_path db = db_path db' ->
  Inv E db -> Inv E db' -> ids_unique db -> ids_unique db' -> keys_exact db -> keys_exact db' -> near db db'.
Proof.
  intros HC HP HI HI' HU HU' HK HK'. assert (U : map no_cache (db_users db) = map no_cache (db_users db')) by exact (f_equal c_users HC).
  assert (L : forall d d', map no_cache (db_users d) = map no_cache (db_users d') -> forall i u, db_users d !! i = Some u -> exists v, db_users d' !! i = Some v /\ same u v).
  { clear. intros d d' U i u Hu. pose proof (f_equal (fun l => l !! i) U) as X. cbn beta in X.
    change (map no_cache (db_users d)) with (no_cache <$> db_users d) in X. change (map no_cache (db_users d')) with (no_cache <$> db_users d') in X.
    rewrite !list_lookup_fmap, Hu in X. destruct (db_users d' !! i) as [v|]; [|discriminate]. exists v. split; [reflexivity|]. exact (f_equal (from_option id u) X). }
  assert (F : forall u v, same u v -> u_username v = u_username u /\ u_id v = u_id u /\ u_emails v = u_emails u /\ u_apikeys v = u_apikeys u).
  { clear. intros u v (_ & ->)%same_inv. repeat split; reflexivity. }
  assert (Q : forall (m m' : gmap string nat), (forall s i, m !! s = Some i <-> m' !! s = Some i) -> m = m').
  { clear. intros m m' H. apply map_eq. intros s. destruct (m !! s) as [i|] eqn:X; [symmetry; now apply H|]. destruct (m' !! s) as [j|] eqn:Y; [|reflexivity]. apply H in Y. congruence. }
  assert (A : forall d d', map no_cache (db_users d) = map no_cache (db_users d') -> Inv E d -> Inv E d' -> ids_unique d -> ids_unique d' -> keys_exact d -> keys_exact d' ->
    (forall s i, ref_username d !! s = Some i -> ref_username d' !! s = Some i) /\ (forall s i, ref_email d !! s = Some i -> ref_email d' !! s = Some i) /\
    (forall s i, ref_id d !! s = Some i -> ref_id d' !! s = Some i) /\ (forall s i, ref_apikey d !! s = Some i -> ref_apikey d' !! s = Some i)).
  { clear - L F. intros d d' U I1 I2 U1 U2 K1 K2. repeat split; intros s i.
    - intros (u & Hu & <-)%(inv_name _ _ I1). destruct (L _ _ U _ _ Hu) as (v & Hv & S). apply (inv_name _ _ I2). exists v. split; [exact Hv|]. now destruct (F _ _ S) as (-> & _).
    - intros (u & Hu & H)%(inv_email _ _ I1). destruct (L _ _ U _ _ Hu) as (v & Hv & S). apply (inv_email _ _ I2). exists v. split; [exact Hv|].
      unfold addrs_of in *. now destruct (F _ _ S) as (_ & _ & -> & _).
    - intros (u & Hu & <-)%(inv_id_dom _ _ I1). destruct (L _ _ U _ _ Hu) as (v & Hv & S). destruct (F _ _ S) as (_ & Hid & _).
      destruct (inv_id_cod _ _ I2 _ _ Hv) as [j Hj]. rewrite Hid in Hj. rewrite Hj. destruct (inv_id_dom _ _ I2 _ _ Hj) as (w & Hw & Ew). f_equal. eapply U2; eauto. congruence.
    - intros (u & k & Hu & Hk & <-)%K1. destruct (L _ _ U _ _ Hu) as (v & Hv & S). destruct (F _ _ S) as (_ & _ & _ & Hks). eapply inv_key; eauto. now rewrite Hks. }
  destruct (A db db' U HI HI' HU HU' HK HK') as (A1 & A2 & A3 & A4). destruct (A db' db (eq_sym U) HI' HI HU' HU HK' HK) as (B1 & B2 & B3 & B4).
  split; auto; apply Q; intros; split; auto.
Qed.

(** ** Saved states *)
Definition saved (fs : FS) (db : Database) : Prop := exists s, marshal (db_content db) = Some s /\ fs !! db_path db = Some (File s) /\ db_path db <> "".
Lemma write_saved E nd op db fs r : writes op -> written_path op db = db_path db -> o_res (exec E nd op db fs r) = OOk ->
  saved (o_fs (exec E nd op db fs r)) (o_db (exec E nd op db fs r)) /\ db_path (o_db (exec E nd op db fs r)) = db_path db.
Proof.
  intros W T O. destruct (exec_shape E nd op db fs r) as [_ _ _ N|db1 res Eff C Oc].
  - exfalso. apply commits_writes in W. exact (N W O).
  - assert (Hp : db_path db1 = db_path db) by (destruct Eff; reflexivity). apply (outcome_ok _ _ Oc) in O. subst res.
    apply commit_to_inv in C as [Hd Wd]. rewrite target_written, T in Wd. apply write_db_ok in Wd as (_ & Ne & _ & d & Hm & Hf).
    rewrite Hd, Hf. split; [|exact Hp]. exists d. split; [exact Hm|]. change (db_path (db1 <| db_content ::= bump nd |>)) with (db_path db1). rewrite Hp. split; [apply lookup_insert|exact Ne].
Qed.
Lemma read_saved E nd op db fs r : In op read_ops -> saved fs db -> saved (o_fs (exec E nd op db fs r)) (o_db (exec E nd op db fs r)) /\ db_path (o_db (exec E nd op db fs r)) = db_path db.
Proof.
  intros Hop (s & M & F & Ne). destruct (read_op E nd op db fs r Hop) as (Hf & Hp & _ & _ & _ & _ & H1 & H2 & H3 & H4 & _). split; [|exact Hp]. exists s. rewrite Hf, Hp. split; [|auto].
  rewrite <- marshal_drop in *. rewrite <- M. f_equal. pose proof (exec_version E nd op db fs r) as Hv.
  unfold drop_caches. fold no_cache in *. unfold db_policy, db_revision, db_modified, db_users in *. destruct (db_content (o_db (exec E nd op db fs r))), (db_content db). cbn in *. subst. 
  exact (f_equal (Build_Content _ _ _ _) H4).
Qed.
Lemma read_fresh E w ev : read_calls w ev -> fresh_draws E w ev.
Proof. destruct ev as [|nd op r| |]; cbn; try contradiction. intros H. unfold fresh_draws, uuid_fresh, key_ids_fresh. destruct op; cbn in H; try (exfalso; intuition discriminate); destruct (w_mem w); auto. Qed.
Lemma reads_saved E fs db fs' db' : saved fs db -> steps E read_calls {| w_fs := fs; w_mem := Up db |} {| w_fs := fs'; w_mem := Up db' |} -> saved fs' db' /\ db_path db' = db_path db.
Proof.
  intros V S. assert (G : forall w w', steps E read_calls w w' -> forall fs db, w = {| w_fs := fs; w_mem := Up db |} -> saved fs db ->
    match w_mem w' with Up d | Stuck d => saved (w_fs w') d /\ db_path d = db_path db | Down => True end).
  { clear. intros w w' S. induction S as [w|w1 ev w2 w3 S IH Hev St]; intros fs0 db0 -> V; [exact (conj V eq_refl)|]. specialize (IH _ _ eq_refl V).
    destruct St as [nd fp fs m fs' res O N|nd op r fs db|fs m|fs m fs']; cbn in Hev; try contradiction. cbn [w_mem w_fs] in *. destruct IH as [IH1 IH2].
    destruct (read_saved E nd op db fs r Hev IH1) as [H1 H2]. unfold after_call. destruct o_res; cbn; auto; split; auto; congruence. }
  exact (G _ _ S _ _ eq_refl V).
Qed.
Lemma drop_twice c : drop_caches (drop_caches c) = drop_caches c.
Proof. destruct c as [v p n m l]. apply (f_equal (Build_Content v p n m)). change (map no_cache (map no_cache l) = map no_cache l). rewrite map_map. apply map_ext. intros u. apply (f_equal (with_mfa u)). change (map nc (map nc (u_mfa u)) = map nc (u_mfa u)). rewrite map_map. reflexivity. Qed.
Lemma plain_prefix fp : plain_path fp -> fp <> "" /\ has_prefix fp "~" = false.
Proof. destruct fp as [|c s]; cbn; [tauto|]. intros H. split; [discriminate|]. unfold has_prefix. cbn -[Ascii.ascii_dec]. match goal with |- (if ?d then _ else _) = _ => destruct d end; [congruence|reflexivity]. Qed.
Lemma reopen E (P : World -> Event -> Prop) nd fs db : (forall w ev, P w ev -> fresh_draws E w ev) -> register_typed E -> reachable_by E P fs db -> saved fs db -> plain_path (db_path db) -> readable nd ->
  exists db', new_database E nd (db_path db) fs = (fs, Loaded db') /\ db_content db' = clean_content (db_content db) /\ db_path db' = db_path db /\
    (all_utf8 (content_texts (db_content db)) -> twin db db').
Proof.
  intros HP RT HR (s & M & F & Ne) (_ & T)%plain_prefix (H1 & H2).
  assert (U : ids_unique db).
  { destruct HR as (fs0 & S). apply (ids_steps E P _ _ (fun w ev H => proj1 (HP w ev H))) in S; [exact S|exact I|exact I]. }
  destruct (reload E nd P fs fs (db_path db) db s RT HR U M F Ne T H1 H2) as (db' & O & C & Hp). exists db'. repeat (split; [assumption|]).
  intros V. rewrite (keep_content _ V) in C. destruct (inv_open _ _ _ _ _ _ O) as (I' & U' & K'). split; [|split].
  - apply (near_refs E); auto.
    + rewrite C. symmetry. apply drop_twice.
    + exact (inv_reachable_by _ _ _ _ HR).
    + intros x i Hx. apply (index_exact E fs db x i) in Hx; [|eapply reachable_mono; [|exact HR]; intros w ev Hw; exact (proj2 (HP w ev Hw))]. destruct Hx as (u & k & ? & ? & ?). exists u, k. auto.
  - apply (reachable_caches E fs db). eapply reachable_mono; [|exact HR]. intros; exact I.
  - exact (open_caches _ _ _ _ _ _ O).
Qed.
Lemma acknowledged_survives E nd op r fs db fs1 db1 nd2 :
  register_typed E -> reachable_by E (fresh_draws E) fs db -> fresh_draws E {| w_fs := fs; w_mem := Up db |} (EvCall nd op r) ->
  writes op -> written_path op db = db_path db -> o_res (exec E nd op db fs r) = OOk ->
  steps E read_calls {| w_fs := o_fs (exec E nd op db fs r); w_mem := Up (o_db (exec E nd op db fs r)) |} {| w_fs := fs1; w_mem := Up db1 |} ->
  plain_path (db_path db) -> readable nd2 ->
  exists db2, new_database E nd2 (db_path db) fs1 = (fs1, Loaded db2) /\ db_content db2 = clean_content (db_content db1) /\
    (all_utf8 (content_texts (db_content db1)) -> db_content db2 = drop_caches (db_content db1) /\ forall l fs', answers E l db2 fs' = answers E l db1 fs').
Proof.
  intros RT HR Fr W T O S Pl Rd. destruct (write_saved E nd op db fs r W T O) as [V Hp].
  destruct (reads_saved E _ _ _ _ V S) as [V1 Hp1]. rewrite Hp in Hp1.
  assert (HR1 : reachable_by E (fresh_draws E) fs1 db1).
  { destruct HR as (fs0 & S0). exists fs0. eapply steps_trans; [|eapply steps_mono; [apply read_fresh|exact S]].
    eapply exec_steps; [exact S0|exact Fr|now apply ok_returned]. }
  destruct (reopen E (fresh_draws E) nd2 fs1 db1 (fun _ _ H => H) RT HR1 V1 ltac:(now rewrite Hp1) Rd) as (db2 & H1 & H2 & H3 & H4).
  rewrite Hp1 in H1. exists db2. split; [exact H1|]. split; [exact H2|]. intros U. split; [rewrite H2; now apply keep_content|].
  intros l fs'. symmetry. apply answers_twin. now apply H4.
Qed.
