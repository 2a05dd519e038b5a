(** Theorems about what survives a process that is killed (C130). *)
From Coq Require Import String Ascii ZArith NArith Lia Bool Arith List.
From stdpp Require Import gmap strings.
From RecordUpdate Require Import RecordSet.
From Verif Require Import GoStr Codec GoErr Random Types Env Persist Fs Database System SpecDb SpecAuth SpecMfa SpecPersist SpecDefect SpecOutage SpecLedger SpecReplay SpecDurable Examples.
From Verif Require Import Inv LoadFacts TwinFacts AccountFacts ReopenFacts ReplayFacts DurableFacts PropertiesPassword PropertiesApiKey PropertiesPersist PropertiesLedger PropertiesReplay.
Import ListNotations.
Import RecordSetNotations.
Open Scope string_scope.

(** C130: as long as no write stops half way and nobody else writes the file, the file is at any time the
    one that the calls in it make of the database, and these are the first of the calls noted. *)
Theorem C130_file E db0 fs db l s : register_typed E -> durable E db0 fs db l s ->
  (exists t, marshal (db_content (replay E s db0)) = Some t /\ fs !! db_path db = Some (File t)) /\ exists rest, l = (s ++ rest)%list.
Proof.
  intros RT R. destruct (durable_inv E db0 fs db l s RT R) as (_ & (fs1 & db1 & L1 & Hp1 & (t & M & F & _)) & X & _). split; [|exact X].
  exists t. rewrite <- (C129_file E db0 fs1 db1 s RT L1). rewrite <- Hp1. auto.
Qed.
Print Assumptions C130_file.
(** Whenever the process is killed, the file opens and answers as these calls make it answer. *)
Theorem C130_recovered E db0 fs db l s nd : register_typed E -> durable E db0 fs db l s -> readable nd -> all_utf8 (content_texts (db_content (replay E s db0))) ->
  exists db', new_database E nd (db_path db) fs = (fs, Loaded db') /\ drop_caches (db_content db') = drop_caches (db_content (replay E s db0)) /\
    forall calls fs', answers E calls db' fs' = answers E calls (replay E s db0) fs'.
Proof.
  intros RT R Rd U. destruct (recovered E db0 fs db l s nd RT R Rd U) as (db' & O & T). exists db'. split; [exact O|]. split; [exact (tw_content _ _ (proj1 T))|].
  intros calls fs'. now apply answers_twin.
Qed.
Print Assumptions C130_recovered.
(** While it lives it answers as all calls noted make it answer. *)
Theorem C130_live E db0 fs db l s : register_typed E -> durable E db0 fs db l s -> forall calls fs', answers E calls db fs' = answers E calls (replay E l db0) fs'.
Proof. intros RT R. apply (C129_answers E db0 fs db l RT). exact (proj1 (durable_inv E db0 fs db l s RT R)). Qed.
Print Assumptions C130_live.
(** An accepted change is in the file, with all that went before, and no later event takes it out again. *)
Theorem C130_acknowledged E db0 fs db l s nd op r : durable E db0 fs db l s -> fresh_draws E {| w_fs := fs; w_mem := Up db |} (EvCall nd op r) -> whole nd ->
  changes op -> let o := exec E nd op db fs r in o_res o = OOk ->
  durable E db0 (o_fs o) (o_db o) (l ++ [(nd, op, r)])%list (l ++ [(nd, op, r)])%list.
Proof.
  intros R Fr W Ch o O. assert (N : noted op o = true /\ lands op db o = true).
  { unfold lands. rewrite O. unfold changes in Ch. cbn in Ch. repeat destruct Ch as [<-|Ch]; try contradiction; cbn [noted]; unfold took; rewrite O; auto. }
  destruct N as [N1 N2]. eapply durable_onward; [exact R|].
  pose proof (OnCall E db0 fs db l s nd op r fs db l s (OnNil _ _ _ _ _ _) Fr W ltac:(fold o; rewrite O; discriminate) ltac:(fold o; rewrite O; discriminate)) as X.
  cbv zeta in X. fold o in X. rewrite N1, N2 in X. exact X.
Qed.
Print Assumptions C130_acknowledged.
Theorem C130_never_lost E db0 fs db l s fs' db' l' s' : register_typed E -> durable E db0 fs db l s -> onward E db0 fs db l s fs' db' l' s' ->
  durable E db0 fs' db' l' s' /\ (exists more, s' = (s ++ more)%list) /\ exists more, l' = (s ++ more)%list.
Proof.
  intros RT R R'. split; [eapply durable_onward; eauto|]. destruct (onward_grows _ _ _ _ _ _ _ _ _ _ (proj2 (C130_file E db0 fs db l s RT R)) R') as [(rest & ->) (more & ->)].
  split; [eauto|]. exists (more ++ rest)%list. now rewrite app_assoc.
Qed.
Print Assumptions C130_never_lost.

(** Jane is added while the disk fails, Bob when it works, and a key while it fails again; then the process is
    killed: both accounts are back, the key is not. *)
Fixpoint logs_of (w : FS * Database) (l : list (Nd * Op * Request)) (x : list (Nd * Op * Request) * list (Nd * Op * Request)) : list (Nd * Op * Request) * list (Nd * Op * Request) :=
  match l with
  | [] => x
  | (nd, op, r) :: l =>
      let o := exec toy nd op w.2 w.1 r in
      let l' := if noted op o then (x.1 ++ [(nd, op, r)])%list else x.1 in
      logs_of (run1 toy w (nd, op, r)) l (l', if lands op w.2 o then l' else x.2)
  end.
Definition all_whole (l : list (Nd * Op * Request)) : bool := forallb (fun c => match nd_write c.1.1 with IoOk | IoOpenErr => true | _ => false end) l.
Lemma run_onward db0 w0 l0 s0 l : forall w x, onward toy db0 w0.1 w0.2 l0 s0 w.1 w.2 x.1 x.2 -> all_fresh w l = true -> all_whole l = true ->
  onward toy db0 w0.1 w0.2 l0 s0 (run toy w l).1 (run toy w l).2 (logs_of w l x).1 (logs_of w l x).2.
Proof.
  induction l as [|[[nd op] r] l IH]; intros w x R A B; [exact R|]. cbn [all_fresh] in A. apply andb_prop in A as [A1 A2]. cbn [all_whole forallb fst snd] in B. apply andb_prop in B as [B1 B2].
  change (run toy w ((nd, op, r) :: l)) with (run toy (run1 toy w (nd, op, r)) l). cbn [logs_of].
  assert (N : o_res (exec toy nd op w.2 w.1 r) <> OHang /\ o_res (exec toy nd op w.2 w.1 r) <> OCrash /\ all_fresh (run1 toy w (nd, op, r)) l = true)
    by (destruct (o_res (exec toy nd op w.2 w.1 r)); try discriminate A2; repeat split; try discriminate; exact A2).
  assert (W : whole nd) by (unfold whole; destruct (nd_write nd); try discriminate B1; auto).
  destruct N as (N1 & N2 & A3). apply IH; [|exact A3|exact B2].
  exact (OnCall toy db0 w0.1 w0.2 l0 s0 nd op r w.1 w.2 x.1 x.2 R (fresh_by_ok toy w.1 w.2 nd op r A1) W N1 N2).
Qed.
Definition shaky : list (Nd * Op * Request) :=
  [(with_io (draws 1) IoOpenErr, OpAddUser, jane_req); (draws 40, OpAddUser, bob_req); (with_io (draws 9) IoOpenErr, OpAddAPIKey, jane_key)].
Definition shaky_end : FS * Database := run toy start shaky.
Definition back_fs : FS := fst (new_database toy (draws 200) "db.json" shaky_end.1).
Definition back_db : Database := match snd (new_database toy (draws 200) "db.json" shaky_end.1) with Loaded db => db | _ => empty_db "" content_z end.
Lemma back_open : new_database toy (draws 200) "db.json" shaky_end.1 = (back_fs, Loaded back_db).
Proof. vm_compute. reflexivity. Qed.
Lemma shaky_logs : logs_of start shaky ([], []) = (shaky, firstn 2 shaky).
Proof. vm_compute. reflexivity. Qed.
Lemma shaky_durable : durable toy start.2 shaky_end.1 shaky_end.2 shaky (firstn 2 shaky).
Proof.
  exists (draws 0), "db.json", ∅, start.1. split; [discriminate|]. split; [right; reflexivity|]. split; [exact start_open|].
  assert (A : all_fresh start shaky = true) by (vm_compute; reflexivity).
  pose proof (run_onward start.2 start [] [] shaky start ([], []) (OnNil _ _ _ _ _ _) A eq_refl) as R. rewrite shaky_logs in R. exact R.
Qed.
Lemma shaky_path : db_path shaky_end.2 = "db.json".
Proof. vm_compute. reflexivity. Qed.
Lemma back_durable : durable toy start.2 back_fs back_db (firstn 2 shaky) (firstn 2 shaky).
Proof.
  eapply durable_onward; [exact shaky_durable|]. apply (OnKill toy start.2 _ _ _ _ (draws 200) shaky_end.1 back_fs shaky_end.2 back_db shaky (firstn 2 shaky) (OnNil _ _ _ _ _ _)).
  - unfold all_utf8. apply List.Forall_forall. apply forallb_forall. vm_compute. reflexivity.
  - split; reflexivity.
  - rewrite shaky_path. exact back_open.
Qed.
Example C130_ex : register_typed toy /\ durable toy start.2 shaky_end.1 shaky_end.2 shaky (firstn 2 shaky) /\ durable toy start.2 back_fs back_db (firstn 2 shaky) (firstn 2 shaky) /\
  map (fun u => (u_username u, List.length (u_apikeys u))) (db_users shaky_end.2) = [("Jane", 1%nat); ("bob", 0%nat)] /\
  map (fun u => (u_username u, List.length (u_apikeys u))) (db_users back_db) = [("Jane", 0%nat); ("bob", 0%nat)].
Proof. split; [exact toy_typed|]. split; [exact shaky_durable|]. split; [exact back_durable|]. split; vm_compute; reflexivity. Qed.
(** A write that stops half way destroys what was acknowledged before: the file cannot be opened any more. *)
Lemma shaky_short : exists e, new_database toy (draws 200) "db.json" (o_fs (exec toy (with_io (draws 60) (IoShort 5)) OpSave shaky_end.2 shaky_end.1 new_request)) =
  (o_fs (exec toy (with_io (draws 60) (IoShort 5)) OpSave shaky_end.2 shaky_end.1 new_request), LErr e).
Proof. eexists. vm_compute. reflexivity. Qed.
Theorem C130_short_write_refuted : exists E db0 fs db l s nd r nd2 e e2, register_typed E /\ durable E db0 fs db l s /\ readable nd2 /\ s <> [] /\
  o_res (exec E nd OpSave db fs r) = OErr e /\ new_database E nd2 (db_path db) (o_fs (exec E nd OpSave db fs r)) = (o_fs (exec E nd OpSave db fs r), LErr e2).
Proof.
  destruct shaky_short as (e2 & H). assert (X : exists e, o_res (exec toy (with_io (draws 60) (IoShort 5)) OpSave shaky_end.2 shaky_end.1 new_request) = OErr e) by (eexists; vm_compute; reflexivity).
  destruct X as (e & X). exists toy, start.2, shaky_end.1, shaky_end.2, shaky, (firstn 2 shaky), (with_io (draws 60) (IoShort 5)), new_request, (draws 200), e, e2.
  split; [exact toy_typed|]. split; [exact shaky_durable|]. split; [split; reflexivity|]. split; [discriminate|]. split; [exact X|]. rewrite shaky_path. exact H.
Qed.
Print Assumptions C130_short_write_refuted.
