(** Proofs about what survives a process that is killed (C130). *)
From Coq Require Import String Ascii ZArith NArith Lia Bool Arith List.
From stdpp Require Import gmap strings.
From RecordUpdate Require Import RecordSet.
From Verif Require Import GoStr Utf8 GoErr GoTime Role Name Email Random SpecValue RandomFacts.
From Verif Require Import Types Env Password ApiKey PublicKey Mfa User Json Persist Fs Database System UserFacts DbFacts Inv LoadFacts.
From Verif Require Import SpecDb SpecKey SpecCrypto SpecAuth SpecMfa SpecPersist SpecDefect SpecOutage SpecLedger SpecReplay SpecDurable CryptoFacts AccountFacts StepFacts.
From Verif Require Import PublicKeyFacts PersistFacts StoredFacts ReloadFacts OpenFacts LiveFacts ApiKeyFacts MfaFacts TwinFacts ConcFacts ReopenFacts LedgerFacts TookFacts ReplayFacts.
Import ListNotations.
Import RecordSetNotations.
Open Scope string_scope.
#[local] Opaque int64 new_id trim_space new_email new_role.

Lemma mfa_texts_uncache l : flat_map mfa_texts (map (set t_cache (fun _ => None)) l) = flat_map mfa_texts l.
Proof. induction l as [|t l IH]; [reflexivity|]. cbn [map flat_map]. rewrite IH. reflexivity. Qed.
Lemma texts_drop c : content_texts (drop_caches c) = content_texts c.
Proof.
  destruct c as [v p n m us]. unfold content_texts. apply (f_equal (cons v)). change (flat_map user_texts (map no_cache us) = flat_map user_texts us).
  induction us as [|u us IH]; [reflexivity|]. cbn [map flat_map]. rewrite IH. f_equal. unfold user_texts. 
  change (u_mfa (no_cache u)) with (map (set t_cache (fun _ => None)) (u_mfa u)). rewrite mfa_texts_uncache. reflexivity.
Qed.
Lemma exec_keeps_path E nd op db fs r : db_path (o_db (exec E nd op db fs r)) = db_path db.
Proof.
  destruct (exec_shape E nd op db fs r) as [_ R _ _|db1 res Eff C _]; [symmetry; exact (tw_path _ _ (recached_near _ _ _ _ _ R))|].
  apply commit_to_inv in C as [-> _]. change (db_path db1 = db_path db). destruct Eff; reflexivity.
Qed.
Lemma write_whole nd path data fs fs' res : whole nd -> write_db nd path data fs = (fs', res) -> (res = COk /\ nd_write nd = IoOk) \/ (fs' = fs /\ exists e, res = CErr e).
Proof.
  unfold write_db, write_file. intros [-> | ->]; destruct data as [d|].
  - destruct String.eqb; [intros [= <- <-]; eauto|]. destruct (fs !! path) as [[]|]; intros [= <- <-]; eauto.
  - intros [= <- <-]; eauto.
  - destruct String.eqb; [intros [= <- <-]; eauto|]. destruct (fs !! path) as [[]|]; intros [= <- <-]; eauto.
  - intros [= <- <-]; eauto.
Qed.
Lemma lands_noted op db o : lands op db o = true -> noted op o = true.
Proof. unfold lands. destruct o_res; try discriminate. destruct op; auto. Qed.
(** A call that is not stored leaves the file. *)
Lemma not_landed E nd op db fs r : whole nd -> let o := exec E nd op db fs r in o_res o <> OCrash -> lands op db o = false -> o_fs o !! db_path db = fs !! db_path db.
Proof.
  intros W o Nc St. destruct (exec_shape E nd op db fs r) as [H _ _ _|db1 res Eff C Oc]; [unfold o; now rewrite H|].
  pose proof C as C'. apply commit_to_inv in C as [_ Wd]. destruct (write_whole _ _ _ _ _ _ W Wd) as [[-> _]|[H _]]; [|unfold o; now rewrite H].
  cbn in Oc. unfold lands in St. fold o in Oc. rewrite Oc in St. apply write_db_ok in Wd as (_ & _ & _ & d & _ & Hf). fold o in Hf. rewrite Hf.
  destruct (own op) eqn:Ow.
  - exfalso. pose proof (effect_took E nd op db fs r db1 Eff Ow Nc) as T. fold o in T. rewrite <- (noted_own op o Ow) in T. destruct op; try discriminate Ow; congruence.
  - destruct op; try discriminate Ow; try (exfalso; inversion Eff; subst; match goal with H : _ |- _ => solve [inversion H] end).
    all: try (exfalso; discriminate St). apply String.eqb_neq in St. cbn [target]. apply lookup_insert_ne. exact St.
Qed.
Lemma lands_saved E nd op db fs r : let o := exec E nd op db fs r in lands op db o = true -> saved (o_fs o) (o_db o).
Proof.
  intros o St. assert (O : o_res o = OOk) by (unfold lands in St; destruct (o_res o); congruence). unfold lands in St. rewrite O in St.
  apply write_saved; [| |exact O].
  - intros H. destruct op; cbn in St; try discriminate St; cbn in H; intuition discriminate.
  - destruct op; try reflexivity. cbn. now apply String.eqb_eq in St.
Qed.
Definition filed (E : Env) (db0 : Database) (fs : FS) (db : Database) (s : list (Nd * Op * Request)) : Prop :=
  exists fs1 db1, logged E db0 fs1 db1 s /\ db_path db1 = db_path db /\ saved fs db1.
Definition kept_inv (E : Env) (db0 : Database) (fs : FS) (db : Database) (l s : list (Nd * Op * Request)) : Prop :=
  logged E db0 fs db l /\ filed E db0 fs db s /\ (exists rest, l = (s ++ rest)%list) /\ plain_path (db_path db).
Lemma onward_inv E db0 fs0 d0 l0 s0 fs db l s : register_typed E -> kept_inv E db0 fs0 d0 l0 s0 -> onward E db0 fs0 d0 l0 s0 fs db l s -> kept_inv E db0 fs db l s.
Proof.
  intros RT K R. induction R as [|nd op r fs db l s R IH Fr W o Nh Nc l'|fs fs' db l s R IH Hf|nd fs fs' db db' l s R IH U Rd O].
  - exact K.
  - destruct IH as (L & (fs1 & db1 & L1 & Hp1 & V1) & (rest & Hl) & P).
    assert (L' : logged E db0 (o_fs o) (o_db o) l') by (exact (LgCall E db0 nd op r fs db l L Fr Nh Nc)).
    assert (Hp : db_path (o_db o) = db_path db) by apply exec_keeps_path.
    split; [exact L'|]. split; [|split; [|now rewrite Hp]].
    + destruct (lands op db o) eqn:St.
      * exists (o_fs o), (o_db o). split; [exact L'|]. split; [reflexivity|]. exact (lands_saved E nd op db fs r St).
      * exists fs1, db1. split; [exact L1|]. split; [congruence|]. destruct V1 as (t & M & F & Ne). exists t. split; [exact M|]. split; [|exact Ne].
        rewrite Hp1 in *. rewrite <- F. exact (not_landed E nd op db fs r W Nc St).
    + destruct (lands op db o); [exists []; now rewrite app_nil_r|]. unfold l'. destruct (noted op o); [|eauto]. exists (rest ++ [(nd, op, r)])%list. rewrite Hl. now rewrite <- app_assoc.
  - destruct IH as (L & (fs1 & db1 & L1 & Hp1 & (t & M & F & Ne)) & X & P). split; [now apply LgEdit with fs|]. split; [|auto].
    exists fs1, db1. split; [exact L1|]. split; [exact Hp1|]. exists t. rewrite Hp1 in *. rewrite Hf. auto.
  - destruct IH as (L & (fs1 & db1 & L1 & Hp1 & (t & M & F & Ne)) & X & P).
    assert (U1 : all_utf8 (content_texts (db_content db1))).
    { destruct (logged_twin E db0 fs1 db1 s RT L1) as (N & _). rewrite <- texts_drop, (tw_content _ _ N), texts_drop. exact U. }
    assert (L1' : logged E db0 fs db1 s) by (now apply LgEdit with fs1).
    assert (V : saved fs db1) by (exists t; auto).
    destruct (reopen E (fresh_draws E) nd fs db1 (fun _ _ H => H) RT (logged_reachable _ _ _ _ _ RT L1') V ltac:(now rewrite Hp1) Rd) as (db2 & O2 & _ & Hp2 & _).
    rewrite Hp1, O in O2. injection O2 as -> <-.
    assert (L2 : logged E db0 fs db' s).
    { apply (LgRestart E db0 nd fs fs db1 db' s L1'); rewrite ?Hp1; auto. exists t. rewrite Hp1 in F. auto. }
    split; [exact L2|]. split; [exists fs, db1; split; [exact L1'|]; split; [congruence|exact V]|]. split; [exists []; now rewrite app_nil_r|]. rewrite Hp2, Hp1. exact P.
Qed.
Lemma durable_inv E db0 fs db l s : register_typed E -> durable E db0 fs db l s -> kept_inv E db0 fs db l s.
Proof.
  intros RT (nd & fp & fs0 & fs' & P & A & O & R). eapply onward_inv; [exact RT| |exact R]. clear R.
  assert (L : logged E db0 fs' db0 []) by (eapply LgNew; eauto).
  assert (X : (if String.eqb fp "" then None else fs0 !! fp) = None).
  { destruct (String.eqb_spec fp ""); [reflexivity|]. destruct A; [contradiction|assumption]. }
  assert (V : saved fs' db0 /\ db_path db0 = fp).
  { unfold new_database in O. destruct nd_stat_err; [discriminate|].
    rewrite X in O. destruct nd_mkdir_err; [discriminate|]. cbv zeta in O. destruct write_db as [fs2 []] eqn:Wd; try discriminate. injection O as <- <-.
    apply write_db_ok in Wd as (_ & Ne & _ & d & M & ->). split; [|reflexivity]. exists d. split; [exact M|]. split; [apply lookup_insert|exact Ne]. }
  destruct V as [V Hp]. split; [exact L|]. split; [exists fs', db0; auto|]. split; [exists []; reflexivity|]. now rewrite Hp.
Qed.
Lemma onward_grows E db0 fs0 d0 l0 s0 fs db l s : (exists rest, l0 = (s0 ++ rest)%list) -> onward E db0 fs0 d0 l0 s0 fs db l s ->
  (exists rest, l = (s ++ rest)%list) /\ exists more, s = (s0 ++ more)%list.
Proof.
  intros K R. induction R as [|nd op r fs db l s R IH Fr W o Nh Nc l'|fs fs' db l s R IH Hf|nd fs fs' db db' l s R IH U Rd O].
  - split; [exact K|]. exists []. now rewrite app_nil_r.
  - destruct IH as [(rest & Hl) (more & Hs)]. assert (X : exists rest', l' = (s ++ rest')%list).
    { unfold l'. destruct (noted op o); [|eauto]. exists (rest ++ [(nd, op, r)])%list. rewrite Hl. now rewrite <- app_assoc. }
    destruct (lands op db o); [|eauto]. split; [exists []; now rewrite app_nil_r|]. destruct X as (rest' & ->). exists (more ++ rest')%list. rewrite Hs. now rewrite <- app_assoc.
  - exact IH.
  - destruct IH as [_ IH]. split; [exists []; now rewrite app_nil_r|exact IH].
Qed.
Lemma onward_trans E db0 fs0 d0 l0 s0 fs1 d1 l1 s1 fs2 d2 l2 s2 : onward E db0 fs0 d0 l0 s0 fs1 d1 l1 s1 -> onward E db0 fs1 d1 l1 s1 fs2 d2 l2 s2 -> onward E db0 fs0 d0 l0 s0 fs2 d2 l2 s2.
Proof. intros A B. induction B; eauto using onward. Qed.
Lemma durable_onward E db0 fs db l s fs' db' l' s' : durable E db0 fs db l s -> onward E db0 fs db l s fs' db' l' s' -> durable E db0 fs' db' l' s'.
Proof. intros (nd & fp & fs0 & fs1 & P & A & O & R) R'. exists nd, fp, fs0, fs1. eauto using onward_trans. Qed.
Lemma recovered E db0 fs db l s nd : register_typed E -> durable E db0 fs db l s -> readable nd -> all_utf8 (content_texts (db_content (replay E s db0))) ->
  exists db', new_database E nd (db_path db) fs = (fs, Loaded db') /\ twin db' (replay E s db0).
Proof.
  intros RT R Rd U. destruct (durable_inv E db0 fs db l s RT R) as (L & (fs1 & db1 & L1 & Hp1 & V) & X & P).
  pose proof (logged_twin E db0 fs1 db1 s RT L1) as T.
  assert (U1 : all_utf8 (content_texts (db_content db1))) by (rewrite <- texts_drop, (tw_content _ _ (proj1 T)), texts_drop; exact U).
  assert (L1' : logged E db0 fs db1 s) by (now apply LgEdit with fs1).
  destruct (reopen E (fresh_draws E) nd fs db1 (fun _ _ H => H) RT (logged_reachable _ _ _ _ _ RT L1') V ltac:(now rewrite Hp1) Rd) as (db2 & O2 & _ & Hp2 & T2).
  rewrite Hp1 in O2. exists db2. split; [exact O2|]. apply twin_trans with db1; [apply twin_sym; auto|exact T].
Qed.
