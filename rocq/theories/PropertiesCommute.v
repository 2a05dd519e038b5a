(** Theorems about the order of calls about different accounts (C103). *)
From Coq Require Import String Ascii ZArith NArith Lia Bool Arith List.
From stdpp Require Import gmap strings.
From RecordUpdate Require Import RecordSet.
From Verif Require Import GoStr GoErr Random Types Env User Persist Fs Database System SpecDb SpecAuth SpecIsolation Examples.
From Verif Require Import AccountFacts StepFacts IsolationFacts CommuteFacts PropertiesPassword PropertiesIsolation.
Import ListNotations.
Import RecordSetNotations.
Open Scope string_scope.

(** C103 *)
(** [a]; then [b] against [b]; then [a], with the same clocks and draws.  Whether the writes to the
    file succeed or fail makes no difference to memory. *)
Theorem C103_accounts E nd1 nd2 op1 op2 db fs r1 r2 i j u v : reachable E fs db -> In op1 account_ops -> In op2 account_ops ->
  identity_of E db r1 i u -> identity_of E db r2 j v -> i <> j ->
  let a := exec E nd1 op1 db fs r1 in let ab := exec E nd2 op2 (o_db a) (o_fs a) r2 in
  let b := exec E nd2 op2 db fs r2 in let ba := exec E nd1 op1 (o_db b) (o_fs b) r1 in
  came_back a -> came_back ab -> came_back b -> came_back ba ->
  db_users (o_db ab) = db_users (o_db ba) /\ ref_username (o_db ab) = ref_username (o_db ba) /\ ref_email (o_db ab) = ref_email (o_db ba) /\
  ref_id (o_db ab) = ref_id (o_db ba) /\ ref_apikey (o_db ab) = ref_apikey (o_db ba) /\ db_policy (o_db ab) = db_policy (o_db ba) /\ db_path (o_db ab) = db_path (o_db ba).
Proof. exact (calls_commute E nd1 nd2 op1 op2 db fs r1 r2 i j u v). Qed.
Print Assumptions C103_accounts.
(** If the file can be written each time, each caller gets the same answer in both orders. *)
Theorem C103_answers E nd1 nd2 op1 op2 db fs r1 r2 i j u v : reachable E fs db -> In op1 account_ops -> In op2 account_ops ->
  identity_of E db r1 i u -> identity_of E db r2 j v -> i <> j ->
  let a := exec E nd1 op1 db fs r1 in let ab := exec E nd2 op2 (o_db a) (o_fs a) r2 in
  let b := exec E nd2 op2 db fs r2 in let ba := exec E nd1 op1 (o_db b) (o_fs b) r1 in
  came_back a -> came_back ab -> came_back b -> came_back ba ->
  can_write nd1 fs (db_path db) (db_content (o_db a)) -> can_write nd2 (o_fs a) (db_path db) (db_content (o_db ab)) ->
  can_write nd2 fs (db_path db) (db_content (o_db b)) -> can_write nd1 (o_fs b) (db_path db) (db_content (o_db ba)) ->
  same_answer b ab /\ same_answer a ba /\ db_revision (o_db ab) = db_revision (o_db ba).
Proof. exact (calls_commute_answers E nd1 nd2 op1 op2 db fs r1 r2 i j u v). Qed.
Print Assumptions C103_answers.
(** A reading call about another account is answered the same before and after. *)
Theorem C103_reads E nd1 nd2 op1 op2 db fs r1 r2 i j u v : reachable E fs db -> In op1 account_ops -> In op2 own_reads ->
  identity_of E db r1 i u -> about E db op2 r2 j v -> i <> j ->
  let a := exec E nd1 op1 db fs r1 in came_back a -> same_answer (exec E nd2 op2 db fs r2) (exec E nd2 op2 (o_db a) (o_fs a) r2).
Proof. exact (read_after E nd1 nd2 op1 op2 db fs r1 r2 i j u v). Qed.
Print Assumptions C103_reads.
(** "Calls about the same account commute" is false: two changes of one password. *)
Definition first_change : Request := change "Jane" "jane@example.com" "secret-pw-1" "secret-pw-3".
Definition second_change : Request := change "Jane" "jane@example.com" "secret-pw-1" "secret-pw-4".
Theorem C103_same_account_refuted : exists E nd1 nd2 db fs r1 r2 i u, reachable E fs db /\ identity_of E db r1 i u /\ identity_of E db r2 i u /\
  let a := exec E nd1 OpChangePassword db fs r1 in let ab := exec E nd2 OpChangePassword (o_db a) (o_fs a) r2 in
  let b := exec E nd2 OpChangePassword db fs r2 in let ba := exec E nd1 OpChangePassword (o_db b) (o_fs b) r1 in
  came_back a /\ came_back ab /\ came_back b /\ came_back ba /\ db_users (o_db ab) <> db_users (o_db ba) /\ o_res ab <> o_res b.
Proof.
  exists toy, (draws 7), (draws 8), two.2, two.1, first_change, second_change, 0%nat, (match db_users two.2 with u :: _ => u | [] => new_user (draws 0) "" end).
  split; [exact two_reachable|]. split; [apply (validate_iff _ _ _ _ _ _ two_reachable); vm_compute; reflexivity|].
  split; [apply (validate_iff _ _ _ _ _ _ two_reachable); vm_compute; reflexivity|]. cbv zeta.
  split; [split; vm_compute; discriminate|]. split; [split; vm_compute; discriminate|]. split; [split; vm_compute; discriminate|].
  split; [split; vm_compute; discriminate|]. split; vm_compute; discriminate.
Qed.
Print Assumptions C103_same_account_refuted.
Definition bob_key : Request := who "bob" "bob@example.com" <| rq_key; rk_usage := "api" |> <| rq_key; rk_comment := "bob's" |>.
Notation jane_first := (exec toy (draws 9) OpAddAPIKey two.2 two.1 jane_key).
Notation bob_first := (exec toy (draws 90) OpAddAPIKey two.2 two.1 bob_key).
Example C103_ex : exists u v, identity_of toy two.2 jane_key 0 u /\ identity_of toy two.2 bob_key 1 v /\
  let ab := exec toy (draws 90) OpAddAPIKey (o_db jane_first) (o_fs jane_first) bob_key in
  let ba := exec toy (draws 9) OpAddAPIKey (o_db bob_first) (o_fs bob_first) jane_key in
  o_res jane_first = OOk /\ o_res bob_first = OOk /\ o_res ab = OOk /\ o_res ba = OOk /\ db_users (o_db ab) <> db_users two.2 /\
  about toy two.2 OpAuthenticate (login "bob" "secret-pw-2") 1 v.
Proof.
  exists (match db_users two.2 with u :: _ => u | [] => new_user (draws 0) "" end), (match db_users two.2 with [_; v] => v | _ => new_user (draws 0) "" end).
  split; [apply (validate_iff _ _ _ _ _ _ two_reachable); vm_compute; reflexivity|].
  split; [apply (validate_iff _ _ _ _ _ _ two_reachable); vm_compute; reflexivity|]. cbv zeta.
  split; [vm_compute; reflexivity|]. split; [vm_compute; reflexivity|]. split; [vm_compute; reflexivity|]. split; [vm_compute; reflexivity|].
  split; [vm_compute; discriminate|]. apply (get_user_resolves _ _ _ _ _ _ two_reachable). vm_compute. reflexivity.
Qed.
