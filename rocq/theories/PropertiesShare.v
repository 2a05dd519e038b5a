(** Theorems about several databases open on the same files (C108). *)
From Coq Require Import String Ascii ZArith NArith Lia Bool Arith List.
From stdpp Require Import gmap strings.
From RecordUpdate Require Import RecordSet.
From Verif Require Import GoStr GoErr Types Env Persist Fs Database System Share SpecDb SpecPersist SpecShare Examples LoadFacts ShareFacts PropertiesPersist.
Import ListNotations.
Import RecordSetNotations.
Open Scope string_scope.

(** C108 *)
(** Each handle is in a state it could also be in on its own, so all other theorems hold of it. *)
Theorem C108_as_if_alone E fs l s n db : ssteps E (site fs) l s -> handle s n = Up db -> reachable E (s_fs s) db.
Proof. exact (ssteps_reachable E fs l s n db). Qed.
Print Assumptions C108_as_if_alone.
(** An open database never looks at the files again: in two histories in which a handle makes the
    same calls it ends with the same memory, whatever the others do and whatever the files hold. *)
Theorem C108_blind E s1 l1 s1' s2 l2 s2' n d1 d2 :
  ssteps E s1 l1 s1' -> ssteps E s2 l2 s2' -> handle s1 n = handle s2 n -> own n l1 = own n l2 -> Forall is_call (own n l1) ->
  handle s1' n = Up d1 -> handle s2' n = Up d2 -> d1 = d2.
Proof. exact (ssteps_blind E s1 l1 s1' s2 l2 s2' n d1 d2). Qed.
Print Assumptions C108_blind.
Theorem C108_answers E nd op db fs fs' r :
  o_req (exec E nd op db fs r) = o_req (exec E nd op db fs' r) /\ (In op read_ops -> o_res (exec E nd op db fs r) = o_res (exec E nd op db fs' r)).
Proof. split; [apply exec_memory|apply read_memory]. Qed.
Print Assumptions C108_answers.
(** The last writer wins: as long as nobody writes the file again, opening it gives what the last
    successful writer had in memory, and nothing of what others wrote to it before. *)
Theorem C108_last_writer E fs l0 s n nd op r db s1 l2 s2 nd2 : register_typed E -> ssteps E (site fs) l0 s -> handle s n = Up db ->
  let o := exec E nd op db (s_fs s) r in
  writes op -> written_path op db = db_path db -> o_res o = OOk -> sstep E s n (EvCall nd op r) s1 ->
  (forall i j u v, account (o_db o) i u -> account (o_db o) j v -> u_id u = u_id v -> i = j) -> plain_path (db_path db) -> readable nd2 ->
  ssteps E s1 l2 s2 -> same_file (db_path db) s1 s2 ->
  handle s1 n = Up (o_db o) /\
  exists db2, new_database E nd2 (db_path db) (s_fs s2) = (s_fs s2, Loaded db2) /\ db_content db2 = clean_content (db_content (o_db o)).
Proof. exact (last_writer E fs l0 s n nd op r db s1 l2 s2 nd2). Qed.
Print Assumptions C108_last_writer.
(** So nothing acknowledged is lost as long as the others only read. *)
Theorem C108_single_writer E fs l0 s n nd op r db s1 l2 s2 nd2 : register_typed E -> ssteps E (site fs) l0 s -> handle s n = Up db ->
  let o := exec E nd op db (s_fs s) r in
  writes op -> written_path op db = db_path db -> o_res o = OOk -> sstep E s n (EvCall nd op r) s1 ->
  (forall i j u v, account (o_db o) i u -> account (o_db o) j v -> u_id u = u_id v -> i = j) -> plain_path (db_path db) -> readable nd2 ->
  ssteps E s1 l2 s2 -> Forall (fun e => quiet (db_path db) (snd e)) l2 ->
  s_fs s2 = s_fs s1 /\
  exists db2, new_database E nd2 (db_path db) (s_fs s2) = (s_fs s2, Loaded db2) /\ db_content db2 = clean_content (db_content (o_db o)).
Proof. exact (single_writer E fs l0 s n nd op r db s1 l2 s2 nd2). Qed.
Print Assumptions C108_single_writer.

(** Two handles on one file: both add an account, both are told it is done, and the first is gone.
    The revision numbers are the same. *)
Notation first_out := (exec toy (draws 1) OpAddUser start.2 start.1 jane_req).
Notation second_out := (exec toy (draws 40) OpAddUser start.2 (o_fs first_out) bob_req).
Definition both_calls : list (nat * Event) :=
  [(1%nat, EvOpen (draws 0) "db.json"); (2%nat, EvOpen (draws 0) "db.json"); (1%nat, EvCall (draws 1) OpAddUser jane_req); (2%nat, EvCall (draws 40) OpAddUser bob_req)].
Notation site1 := {| s_fs := start.1; s_mem := <[1%nat := Up start.2]> ∅ |}.
Notation site2 := {| s_fs := start.1; s_mem := <[2%nat := Up start.2]> (<[1%nat := Up start.2]> ∅) |}.
Notation site3 := {| s_fs := o_fs first_out; s_mem := <[1%nat := Up (o_db first_out)]> (<[2%nat := Up start.2]> (<[1%nat := Up start.2]> ∅)) |}.
Notation site4 := {| s_fs := o_fs second_out; s_mem := <[2%nat := Up (o_db second_out)]> (<[1%nat := Up (o_db first_out)]> (<[2%nat := Up start.2]> (<[1%nat := Up start.2]> ∅))) |}.
Lemma start_again : new_database toy (draws 0) "db.json" start.1 = (start.1, Loaded start.2).
Proof. vm_compute. reflexivity. Qed.
Lemma second_ok : o_res second_out = OOk. Proof. vm_compute. reflexivity. Qed.
Lemma first_ok : o_res first_out = OOk. Proof. vm_compute. reflexivity. Qed.
Lemma open1 : sstep toy (site ∅) 1 (EvOpen (draws 0) "db.json") site1.
Proof.
  apply (SStep toy (site ∅) 1 (EvOpen (draws 0) "db.json") {| w_fs := start.1; w_mem := Up start.2 |}).
  apply (StOpen toy (draws 0) "db.json" ∅ Down start.1 (Loaded start.2)); [exact start_open|discriminate].
Qed.
Lemma open2 : sstep toy site1 2 (EvOpen (draws 0) "db.json") site2.
Proof.
  exact (SStep toy site1 2 (EvOpen (draws 0) "db.json") {| w_fs := start.1; w_mem := Up start.2 |}
    (StOpen toy (draws 0) "db.json" start.1 Down start.1 (Loaded start.2) start_again ltac:(discriminate))).
Qed.
Lemma call_step E s n nd op r db : handle s n = Up db -> o_res (exec E nd op db (s_fs s) r) = OOk ->
  sstep E s n (EvCall nd op r) {| s_fs := o_fs (exec E nd op db (s_fs s) r); s_mem := <[n := Up (o_db (exec E nd op db (s_fs s) r))]> (s_mem s) |}.
Proof.
  intros H O. apply (SStep E s n (EvCall nd op r) {| w_fs := o_fs (exec E nd op db (s_fs s) r); w_mem := Up (o_db (exec E nd op db (s_fs s) r)) |}).
  rewrite H. replace (Up (o_db (exec E nd op db (s_fs s) r))) with (after_call (exec E nd op db (s_fs s) r)) by (unfold after_call; now rewrite O). constructor.
Qed.
Lemma call3 : sstep toy site2 1 (EvCall (draws 1) OpAddUser jane_req) site3.
Proof. exact (call_step toy site2 1 (draws 1) OpAddUser jane_req start.2 eq_refl first_ok). Qed.
Lemma call4 : sstep toy site3 2 (EvCall (draws 40) OpAddUser bob_req) site4.
Proof. exact (call_step toy site3 2 (draws 40) OpAddUser bob_req start.2 eq_refl second_ok). Qed.
Lemma both_history : ssteps toy (site ∅) both_calls site4.
Proof. eapply SsCons; [exact open1|]. eapply SsCons; [exact open2|]. eapply SsCons; [exact call3|]. eapply SsCons; [exact call4|]. constructor. Qed.
Theorem C108_acknowledged_refuted : exists E fs l s db1 db2 nd1 nd2 nd3 r1 r2 db,
  ssteps E (site fs) l s /\ handle s 1 = Up db1 /\ handle s 2 = Up db2 /\ db_path db1 = db_path db2 /\ plain_path (db_path db1) /\ readable nd3 /\
  let o1 := exec E nd1 OpAddUser db1 (s_fs s) r1 in let o2 := exec E nd2 OpAddUser db2 (o_fs o1) r2 in
  o_res o1 = OOk /\ o_res o2 = OOk /\ new_database E nd3 (db_path db1) (o_fs o2) = (o_fs o2, Loaded db) /\
  get_user E db (ru_username (rq_user r1)) = None /\ get_user E db (ru_username (rq_user r2)) <> None /\ db_revision (o_db o1) = db_revision (o_db o2).
Proof.
  exists toy, ∅, [(1%nat, EvOpen (draws 0) "db.json"); (2%nat, EvOpen (draws 0) "db.json")], site2, start.2, start.2, (draws 1), (draws 40), (draws 70), jane_req, bob_req.
  exists (match snd (new_database toy (draws 70) "db.json" (o_fs second_out)) with Loaded d => d | _ => start.2 end).
  split; [eapply SsCons; [exact open1|]; eapply SsCons; [exact open2|]; constructor|]. split; [reflexivity|]. split; [reflexivity|]. split; [reflexivity|]. split; [vm_compute; discriminate|].
  split; [split; reflexivity|]. cbv zeta. split; [exact first_ok|]. split; [exact second_ok|]. split; [vm_compute; reflexivity|]. split; [vm_compute; reflexivity|].
  split; [vm_compute; discriminate|]. vm_compute. reflexivity.
Qed.
Print Assumptions C108_acknowledged_refuted.
Example C108_ex : ssteps toy (site ∅) both_calls site4 /\ own 2 both_calls = [EvOpen (draws 0) "db.json"; EvCall (draws 40) OpAddUser bob_req] /\
  handle site4 1 = Up (o_db first_out) /\ handle site3 2 = Up start.2 /\ o_res second_out = OOk /\ plain_path (db_path start.2) /\
  written_path OpAddUser start.2 = db_path start.2 /\ map u_username (db_users (o_db first_out)) = ["Jane"] /\
  ssteps toy site4 [(1%nat, EvCrash)] {| s_fs := s_fs site4; s_mem := <[1%nat := Down]> (s_mem site4) |}.
Proof.
  split; [exact both_history|]. split; [reflexivity|]. split; [reflexivity|]. split; [reflexivity|]. split; [exact second_ok|]. split; [vm_compute; discriminate|].
  split; [reflexivity|]. split; [vm_compute; reflexivity|]. eapply SsCons; [|constructor].
  apply (SStep toy site4 1 EvCrash {| w_fs := s_fs site4; w_mem := Down |}). constructor.
Qed.
