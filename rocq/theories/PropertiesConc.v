(** Theorems about goroutines sharing a database (C60-C62, C77). *)
From Coq Require Import String Ascii ZArith NArith Lia Bool Arith List ZifyBool ZifyN ZifyNat.
From stdpp Require Import gmap strings.
From RecordUpdate Require Import RecordSet.
From Verif Require Import GoStr Codec GoErr GoTime Random Types Env Mfa Fs Database System SpecDb SpecAuth SpecKey SpecMfa SpecPersist Examples.
From Verif Require Import LoadFacts AccountFacts StepFacts ApiKeyFacts MfaFacts TokenUse TwinFacts Conc SpecConc ConcFacts PropertiesMfa PropertiesApiKey.
Import ListNotations.
Import RecordSetNotations.
Open Scope string_scope.

(** *** A schedule for the examples: two readers overlap while a writer waits *)
Ltac threads := intros j t H; cbn [k_threads init] in H; repeat (apply lookup_insert_Some in H as [[<- <-]|[? H]]; [first [congruence|cbn; split; congruence || tauto]|]); rewrite lookup_empty in H; discriminate.
Lemma step_to E k k1 k2 : cstep E k k1 -> k1 = k2 -> cstep E k k2.
Proof. now intros H <-. Qed.
Section Schedule.
  Variables (E : Env) (fs : FS) (db : Database) (a b w : Call).
  Hypothesis Ha : lock_mode (l_op a) = Shared.
  Hypothesis Hb : lock_mode (l_op b) = Shared.
  Hypothesis Hw : lock_mode (l_op w) = Exclusive.
  Definition both_reading : Conf := {| k_db := db; k_fs := fs;
    k_threads := <[1%nat := Reading b [db]]> (<[0%nat := Reading a [db]]> (<[2%nat := Waiting w]> (<[1%nat := Waiting b]> (<[0%nat := Waiting a]> ∅)))); k_log := [] |}.
  Lemma both_read : csteps E (init fs db) both_reading.
  Proof.
    eapply CCons; [eapply CCons; [eapply CCons; [eapply CCons; [eapply CCons; [apply CNil|]|]|]|]|].
    - apply (CInvoke _ _ 0%nat a). reflexivity.
    - apply (CInvoke _ _ 1%nat b). reflexivity.
    - apply (CInvoke _ _ 2%nat w). reflexivity.
    - eapply (CRLock _ _ 0%nat a); [reflexivity|exact Ha|]. threads.
    - eapply step_to; [eapply (CRLock _ _ 1%nat b); [reflexivity|exact Hb|]; threads|reflexivity].
  Qed.
  Definition wrote : Out := call_exec E w db fs.
  Definition served (t : gmap nat Thread) : Conf := {| k_db := o_db wrote; k_fs := o_fs wrote; k_threads := t;
    k_log := [{| g_id := 1; g_call := b; g_res := o_res (call_exec E b db fs); g_req := o_req (call_exec E b db fs) |};
              {| g_id := 0; g_call := a; g_res := o_res (call_exec E a db fs); g_req := o_req (call_exec E a db fs) |};
              {| g_id := 2; g_call := w; g_res := o_res wrote; g_req := o_req wrote |}] |}.
  Lemma all_served : o_res wrote <> OHang -> o_res wrote <> OCrash -> exists t, csteps E both_reading (served t) /\
    t !! 0%nat = Some (Returned a (o_res (call_exec E a db fs)) (o_req (call_exec E a db fs))) /\
    t !! 1%nat = Some (Returned b (o_res (call_exec E b db fs)) (o_req (call_exec E b db fs))) /\
    t !! 2%nat = Some (Returned w (o_res wrote) (o_req wrote)) /\ all_returned (served t).
  Proof.
    intros Nh Nc. eexists. split.
    - eapply CCons; [eapply CCons; [eapply CCons; [eapply CCons; [eapply CCons; [eapply CCons; [eapply CCons; [apply CNil|]|]|]|]|]|]|].
      + eapply (CRead _ _ 1%nat b [db] db); [reflexivity|apply blend_self; now left].
      + eapply (CRead _ _ 0%nat a [db] db); [reflexivity|apply blend_self; now left].
      + eapply (CUnlock _ _ 1%nat). reflexivity.
      + eapply (CUnlock _ _ 0%nat). reflexivity.
      + eapply (CLock _ _ 2%nat w); [reflexivity|exact Hw|]. unfold both_reading. threads.
      + eapply (CWrote _ _ 2%nat w db fs); [reflexivity|exact Nh|exact Nc].
      + eapply step_to; [eapply (CUnlock _ _ 2%nat); reflexivity|]. unfold served. reflexivity.
    - split; [reflexivity|]. split; [reflexivity|]. split; [reflexivity|].
      intros i t H. cbn [k_threads served both_reading] in H. repeat (apply lookup_insert_Some in H as [[<- <-]|[? H]]; [first [congruence|eauto]|]). rewrite lookup_empty in H. discriminate.
  Qed.
  (** A call that never comes back holds the lock and another waits. *)
  Definition hanging : Conf := {| k_db := db; k_fs := fs; k_threads := <[0%nat := Writing w db fs]> (<[1%nat := Waiting a]> (<[0%nat := Waiting w]> ∅)); k_log := [] |}.
  Lemma hangs : csteps E (init fs db) hanging.
  Proof.
    eapply CCons; [eapply CCons; [eapply CCons; [apply CNil|]|]|].
    - apply (CInvoke _ _ 0%nat w). reflexivity.
    - apply (CInvoke _ _ 1%nat a). reflexivity.
    - eapply step_to; [eapply (CLock _ _ 0%nat w); [reflexivity|exact Hw|]; threads|reflexivity].
  Qed.
End Schedule.
Definition login_call (k : nat) : Call := {| l_nd := draws k; l_op := OpAuthenticate; l_req := login_req |}.
Definition carol_call : Call := {| l_nd := draws 70; l_op := OpAddUser; l_req := signup "carol" "carol@example.com" "secret-pw-3" |}.
Notation racing := (both_reading (o_fs u2f_out) (o_db u2f_out) (login_call 60) (login_call 61) carol_call).
Lemma racing_run : csteps toy (init (o_fs u2f_out) (o_db u2f_out)) racing.
Proof. now apply both_read. Qed.
Lemma carol_ok : o_res (wrote toy (o_fs u2f_out) (o_db u2f_out) carol_call) = OOk.
Proof. vm_compute. reflexivity. Qed.

(** C60.  The calls that have got their results, in the order in which they got them ([k_log]),
    have the results of a serial execution; each such call occurs once; a returned call is among
    them with the result it returned; the order respects real time; the memory and file at rest are
    those of the serial execution (but for cached keys). *)
Theorem C60_serial E fs db k : reachable E fs db -> csteps E (init fs db) k ->
  serial E (k_log k) db fs /\ List.NoDup (map g_id (k_log k)) /\
  (forall i c res req, k_threads k !! i = Some (Returned c res req) -> In {| g_id := i; g_call := c; g_res := res; g_req := req |} (k_log k)) /\
  (forall e, In e (k_log k) -> exists t, k_threads k !! g_id e = Some t /\ call_of t = g_call e).
Proof.
  intros R S. pose proof (run_cinv _ _ _ _ (reachable_caches _ _ _ R) S) as CI. split; [apply CI|]. split; [apply CI|]. split.
  - intros i c res req H. apply (ci_done _ _ _ _ CI). now right.
  - intros e He. destruct (ci_entry _ _ _ _ CI e He) as [H|H]; eexists; split; try exact H; reflexivity.
Qed.
Theorem C60_real_time E fs db k1 k2 i j c res req : reachable E fs db -> csteps E (init fs db) k1 -> csteps E k1 k2 ->
  k_threads k1 !! i = Some (Returned c res req) -> k_threads k1 !! j = None ->
  exists a b, k_log k2 = (a ++ {| g_id := i; g_call := c; g_res := res; g_req := req |} :: b)%list /\ forall e, In e a -> g_id e <> j /\ g_id e <> i.
Proof. intros R. apply order. exact (reachable_caches _ _ _ R). Qed.
Theorem C60_final_state E fs db k : reachable E fs db -> csteps E (init fs db) k -> nobody_writes k ->
  same_data (final E (k_log k) db fs).1 (k_db k) /\ (final E (k_log k) db fs).2 = k_fs k.
Proof.
  intros R S N. destruct (ci_rest _ _ _ _ (run_cinv _ _ _ _ (reachable_caches _ _ _ R) S) N) as [[T _] F]. split; [now apply near_same|exact F].
Qed.
Theorem C60_returned_stays E k k' i c res req : csteps E k k' -> k_threads k !! i = Some (Returned c res req) -> k_threads k' !! i = Some (Returned c res req).
Proof. intros S H. destruct (csteps_thread _ _ _ _ _ S H) as (t & Ht & _ & _ & R). now rewrite (R _ _ _ eq_refl) in Ht. Qed.
Print Assumptions C60_serial. Print Assumptions C60_real_time. Print Assumptions C60_final_state. Print Assumptions C60_returned_stays.
(** Two overlapping logins and a registration, all served. *)
Example C60_ex : exists t, let k := served toy (o_fs u2f_out) (o_db u2f_out) (login_call 60) (login_call 61) carol_call t in
  reachable toy (o_fs u2f_out) (o_db u2f_out) /\ csteps toy (init (o_fs u2f_out) (o_db u2f_out)) k /\ all_returned k /\ map g_res (k_log k) = [OOk; OOk; OOk] /\
  List.length (db_users (k_db k)) = 3%nat.
Proof.
  destruct (all_served toy (o_fs u2f_out) (o_db u2f_out) (login_call 60) (login_call 61) carol_call) as (t & S & _ & _ & _ & A); [reflexivity|rewrite carol_ok; discriminate|rewrite carol_ok; discriminate|].
  exists t. cbv zeta. split; [exact u2f_reachable|]. split; [eapply csteps_trans; [exact racing_run|exact S]|]. split; [exact A|].
  split; vm_compute; reflexivity.
Qed.

(** C61.  While a call holds the read lock nothing changes but cached keys, no call is writing, and
    whatever the call puts together from what it saw is the database as it is now. *)
Theorem C61_unchanged E fs db k1 k2 i t1 t2 : reachable E fs db -> csteps E (init fs db) k1 -> csteps E k1 k2 ->
  k_threads k1 !! i = Some t1 -> holds Shared t1 -> k_threads k2 !! i = Some t2 -> holds Shared t2 ->
  same_data (k_db k1) (k_db k2) /\ k_fs k2 = k_fs k1 /\ nobody_writes k2.
Proof. intros R S1 S2 H1 O1 H2 O2. destruct (reader_kept _ _ _ _ _ _ _ _ (reachable_caches _ _ _ R) S1 S2 H1 O1 H2 O2) as (N & F & W). split; [now apply near_same|auto]. Qed.
Theorem C61_whole E fs db k i c l d : reachable E fs db -> csteps E (init fs db) k -> k_threads k !! i = Some (Reading c l) -> blend l d -> same_data d (k_db k).
Proof. intros R S H B. apply near_same. exact (reader_sees _ _ _ _ _ _ _ _ (reachable_caches _ _ _ R) S H B). Qed.
Theorem C61_writer_alone E fs db k i c d f j t : reachable E fs db -> csteps E (init fs db) k -> k_threads k !! i = Some (Writing c d f) -> k_threads k !! j = Some t -> j <> i ->
  ~ holds Shared t /\ ~ holds Exclusive t.
Proof.
  intros R S Hi Hj Ne. pose proof (run_cinv _ _ _ _ (reachable_caches _ _ _ R) S) as CI.
  destruct (ci_excl _ _ _ _ CI i _ j t Hi Hj); auto. cbn. eapply (ci_wmode _ _ _ _ CI); eauto.
Qed.
Print Assumptions C61_unchanged. Print Assumptions C61_whole. Print Assumptions C61_writer_alone.
Example C61_ex : csteps toy (init (o_fs u2f_out) (o_db u2f_out)) racing /\ k_threads racing !! 0%nat = Some (Reading (login_call 60) [o_db u2f_out]) /\
  k_threads racing !! 1%nat = Some (Reading (login_call 61) [o_db u2f_out]) /\ k_threads racing !! 2%nat = Some (Waiting carol_call).
Proof. split; [exact racing_run|]. split; [reflexivity|]. split; reflexivity. Qed.

(** C62.  Under the read lock memory is written, but only by AuthenticateUser and only a token's
    cached key; calls racing for it write the same key. *)
Theorem C62_caches_only E fs db k k' : reachable E fs db -> csteps E (init fs db) k -> cstep E k k' -> nobody_writes k ->
  same_data (k_db k) (k_db k') /\ k_fs k' = k_fs k /\
  (k_db k' = k_db k \/ exists i c l n j key, k_threads k !! i = Some (Reading c l) /\ l_op c = OpAuthenticate /\ k_db k' = set_cache (k_db k) n j key).
Proof.
  intros R S St N. destruct (cstep_kept _ _ _ St N) as [F D]. split; [now apply near_same|]. split; [exact F|].
  destruct St as [| | |i c d f d' f' Hi|i c d f Hi|i c l Hi|i n j key Fi|i c l d Hi|]; cbn; auto; try (now destruct (N _ _ _ _ Hi)).
  destruct Fi as (c & l & d & t & Hi & Op & _). right. exists i, c, l, n, j, key. auto.
Qed.
Theorem C62_same_key E fs db k i i' n j key key' : reachable E fs db -> csteps E (init fs db) k -> fills E k i n j key -> fills E k i' n j key' -> key = key'.
Proof. intros R. apply fills_agree. exact (reachable_caches _ _ _ R). Qed.
Lemma login_fills i : (i < 2)%nat -> exists key, fills toy racing i 0 1 key.
Proof.
  intros Hi. destruct i as [|[|i]]; [| |lia]; eexists; eexists _, _, (o_db u2f_out), _; (split; [reflexivity|]; split; [reflexivity|]; split; [apply blend_self; now left|]; split; [vm_compute; reflexivity|]; split; [vm_compute; reflexivity|]; intros t0 Ht; vm_compute in Ht; injection Ht as <-; reflexivity).
Qed.
(** Two calls may be about to write the same field at the same time. *)
Theorem C62_no_write_refuted : exists E fs db k i i' n j key key', reachable E fs db /\ csteps E (init fs db) k /\ i <> i' /\ fills E k i n j key /\ fills E k i' n j key'.
Proof.
  destruct (login_fills 0 ltac:(lia)) as [key F]. destruct (login_fills 1 ltac:(lia)) as [key' F'].
  exists toy, (o_fs u2f_out), (o_db u2f_out), racing, 0%nat, 1%nat, 0%nat, 1%nat, key, key'. split; [exact u2f_reachable|]. split; [exact racing_run|]. split; [lia|]. auto.
Qed.
Print Assumptions C62_caches_only. Print Assumptions C62_same_key. Print Assumptions C62_no_write_refuted.
Example C62_ex : exists k, cstep toy racing k /\ nobody_writes racing /\ k_db k <> k_db racing.
Proof.
  destruct (login_fills 0 ltac:(lia)) as [key F]. eexists. split; [eapply CFill; exact F|]. split.
  - intros i c d f H. cbn [k_threads both_reading] in H. repeat (apply lookup_insert_Some in H as [[<- H]|[_ H]]; [discriminate|]). rewrite lookup_empty in H. discriminate.
  - cbn [k_db both_reading]. clear F. intros H. apply (f_equal (fun d => option_map t_cache (token_at d 0 1))) in H. rewrite set_cache_token in H. rewrite decide_True in H by auto.
    destruct (token_at (o_db u2f_out) 0 1) as [t|] eqn:T; [|vm_compute in T; discriminate]. cbn in H. apply some_inj in H. revert H. vm_compute in T. apply some_inj in T. rewrite <- T. discriminate.
Qed.

(** C77.  No deadlock: as long as every call comes back on its own, every call in flight can return;
    no call but AddAPIKey fails to, short of the process dying; and a call that does not come back
    keeps the lock, so that no waiting call ever starts. *)
Theorem C77_progress E fs db k : reachable E fs db -> csteps E (init fs db) k -> (forall i t, k_threads k !! i = Some t -> comes_back E (call_of t)) ->
  exists k', csteps E k k' /\ all_returned k' /\ forall i t, k_threads k !! i = Some t -> exists res req, k_threads k' !! i = Some (Returned (call_of t) res req).
Proof. intros R. apply progress. exact (reachable_caches _ _ _ R). Qed.
Theorem C77_comes_back E c : l_op c <> OpAddAPIKey -> (forall db fs, o_res (call_exec E c db fs) <> OCrash) -> comes_back E c.
Proof. intros N Nc db fs. split; [now apply only_add_key_hangs|apply Nc]. Qed.
Theorem C77_stuck E fs db k k' i c d f : reachable E fs db -> csteps E (init fs db) k -> csteps E k k' -> k_threads k !! i = Some (Writing c d f) -> o_res (call_exec E c d f) = OHang ->
  k_threads k' !! i = Some (Writing c d f) /\ (forall j c', k_threads k !! j = Some (Waiting c') -> k_threads k' !! j = Some (Waiting c')) /\ k_log k' = k_log k.
Proof. intros R. apply stuck. exact (reachable_caches _ _ _ R). Qed.
Theorem C77_always_refuted : exists E fs db k, reachable E fs db /\ csteps E (init fs db) k /\ forall k', csteps E k k' -> ~ all_returned k'.
Proof.
  destruct C28_always_returns_refuted as (E & nd & fs & db & r & R & Hg). set (w := {| l_nd := nd; l_op := OpAddAPIKey; l_req := r |}).
  exists E, fs, db, (hanging fs db (login_call 60) w). split; [exact R|]. split; [apply hangs; reflexivity|].
  intros k' S A. destruct (C77_stuck E fs db _ _ 0%nat w db fs R (hangs E fs db (login_call 60) w eq_refl) S eq_refl Hg) as (H & _).
  destruct (A _ _ H) as (? & ? & ? & ?). discriminate.
Qed.
Print Assumptions C77_progress. Print Assumptions C77_comes_back. Print Assumptions C77_stuck. Print Assumptions C77_always_refuted.
Example C77_ex : csteps toy (init (o_fs u2f_out) (o_db u2f_out)) racing /\ comes_back toy (login_call 60).
Proof. split; [exact racing_run|]. apply C77_comes_back; [discriminate|]. intros db fs. apply (authenticate_returned toy (draws 60) db fs login_req). Qed.
