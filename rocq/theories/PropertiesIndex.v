(** Theorems about the lookup indexes as a whole (C109). *)
From Coq Require Import String Ascii ZArith NArith Lia Bool Arith List.
From stdpp Require Import gmap strings.
From RecordUpdate Require Import RecordSet.
From Verif Require Import GoStr GoErr Types Env Persist Fs Database System SpecDb SpecPersist SpecIndex Examples IndexFacts AccountFacts PropertiesApiKey PropertiesPersist.
Import ListNotations.
Import RecordSetNotations.
Open Scope string_scope.

(** C109 *)
(** An open database is its accounts, its settings and its path: the indexes are at all times those
    a rebuild from the accounts would give. *)
Theorem C109_opened E nd fp fs fs' db : new_database E nd fp fs = (fs', Loaded db) -> db = rebuilt E (db_content db) (db_path db).
Proof. exact (open_rebuilt E nd fp fs fs' db). Qed.
Print Assumptions C109_opened.
Theorem C109_rebuilt E fs db : reachable_by E (fresh_draws E) fs db -> db = rebuilt E (db_content db) (db_path db).
Proof. exact (fresh_rebuilt E fs db). Qed.
Print Assumptions C109_rebuilt.
Theorem C109_determined E fs1 db1 fs2 db2 : reachable_by E (fresh_draws E) fs1 db1 -> reachable_by E (fresh_draws E) fs2 db2 ->
  db_content db1 = db_content db2 -> db_path db1 = db_path db2 -> db1 = db2.
Proof. intros H1 H2 C P. rewrite (fresh_rebuilt E fs1 db1 H1), (fresh_rebuilt E fs2 db2 H2). now rewrite C, P. Qed.
Print Assumptions C109_determined.
(** A restart after an acknowledged change restores the whole state, but for the key caches. *)
Theorem C109_restart E nd op r fs db fs1 db1 nd2 :
  register_typed E -> reachable_by E (fresh_draws E) fs db -> fresh_draws E {| w_fs := fs; w_mem := Up db |} (EvCall nd op r) ->
  writes op -> written_path op db = db_path db -> o_res (exec E nd op db fs r) = OOk ->
  steps E read_calls {| w_fs := o_fs (exec E nd op db fs r); w_mem := Up (o_db (exec E nd op db fs r)) |} {| w_fs := fs1; w_mem := Up db1 |} ->
  plain_path (db_path db) -> readable nd2 -> all_utf8 (content_texts (db_content db1)) ->
  new_database E nd2 (db_path db) fs1 = (fs1, Loaded (db1 <| db_content ::= drop_caches |>)).
Proof. exact (whole_restart E nd op r fs db fs1 db1 nd2). Qed.
Print Assumptions C109_restart.
(** Without fresh draws it is false: the entry of a deleted key can stay behind. *)
Theorem C109_any_draws_refuted : exists E fs db, reachable E fs db /\ db <> rebuilt E (db_content db) (db_path db).
Proof.
  pose (w := run toy start twin_calls). exists toy, w.1, w.2. split; [apply run_reachable; vm_compute; reflexivity|].
  intros H. apply (f_equal (fun d => ref_apikey d !! take 24 (secret jane_out))) in H. vm_compute in H. discriminate.
Qed.
Print Assumptions C109_any_draws_refuted.
Example C109_ex : reachable_by toy (fresh_draws toy) one.1 one.2 /\ fresh_draws toy {| w_fs := one.1; w_mem := Up one.2 |} (EvCall (draws 40) OpAddUser bob_req) /\
  o_res bob_out = OOk /\ all_utf8 (content_texts (db_content (o_db bob_out))) /\
  new_database toy (draws 70) "db.json" (o_fs bob_out) = (o_fs bob_out, Loaded (o_db bob_out)) /\
  map_to_list (ref_username (rebuilt toy (db_content (o_db bob_out)) "db.json")) = [("bob", 1%nat); ("jane", 0%nat)].
Proof.
  split; [exact one_fresh|]. split; [exact bob_draws|]. split; [exact bob_ok|]. split; [apply utf8_by; vm_compute; reflexivity|]. split; vm_compute; reflexivity.
Qed.
