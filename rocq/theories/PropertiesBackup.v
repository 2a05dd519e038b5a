(** Theorems about copies of a database (C131). *)
From Coq Require Import String Ascii ZArith NArith Lia Bool Arith List.
From stdpp Require Import gmap strings.
From RecordUpdate Require Import RecordSet.
From Verif Require Import GoStr Codec GoErr Random Types Env Persist Fs Database System SpecDb SpecAuth SpecMfa SpecPersist SpecDefect SpecOutage SpecLedger SpecReplay SpecBackup Examples.
From Verif Require Import Inv LoadFacts TwinFacts AccountFacts ReopenFacts ReplayFacts DurableFacts BackupFacts PropertiesPassword PropertiesApiKey PropertiesPersist PropertiesLedger PropertiesReplay.
Import ListNotations.
Import RecordSetNotations.
Open Scope string_scope.

(** C131: the file of an accepted Copy opens, at any time while it is left alone, as the database was when it
    was copied, bound to the path of the copy; it answers every sequence of calls like that one. *)
Theorem C131_backup E nd fp r fs db fs2 nd2 : register_typed E -> reachable_by E (fresh_draws E) fs db ->
  let o := exec E nd (OpCopy fp) db fs r in o_res o = OOk -> plain_path fp -> fs2 !! fp = o_fs o !! fp -> readable nd2 ->
  exists db2, new_database E nd2 fp fs2 = (fs2, Loaded db2) /\ db_path db2 = fp /\ db_content db2 = clean_content (db_content (o_db o)) /\
    (all_utf8 (content_texts (db_content (o_db o))) -> db_content db2 = drop_caches (db_content (o_db o)) /\
       (forall calls fs', answers E calls db2 fs' = answers E calls (rebind fp (o_db o)) fs') /\
       forall calls, heard E calls db2 = heard E calls (o_db o) /\ drop_caches (db_content (replay E calls db2)) = drop_caches (db_content (replay E calls (o_db o)))).
Proof.
  intros RT HR o O P F2 Rd.
  assert (HR' : reachable_by E (fresh_draws E) (o_fs o) (o_db o)).
  { destruct HR as (fs0 & S). exists fs0. apply exec_steps; [exact S|split; exact I|]. fold o. split; rewrite O; discriminate. }
  destruct (copy_spec E nd db fs r fp) as (_ & _ & _ & _ & _ & _ & _ & _ & X). destruct (X O) as (s & M & F). fold o in M, F. rewrite <- F2 in F.
  destruct (rebound_open E nd2 (o_fs o) fs2 (o_db o) fp s RT HR' M F P Rd) as (db2 & O2 & C & Hp & T). exists db2. split; [exact O2|]. split; [exact Hp|]. split; [exact C|].
  intros U. specialize (T U). split; [now rewrite C, (ReloadFacts.keep_content _ U)|]. split; [intros calls fs'; symmetry; now apply answers_twin|].
  intros calls. split; [now rewrite <- (twin_heard E calls _ _ T), bound_heard|]. pose proof (twin_replay E calls _ _ T) as [N _]. rewrite bound_replay in N. symmetry. exact (tw_content _ _ N).
Qed.
Print Assumptions C131_backup.
(** What a database does in memory and what it answers does not depend on the path it is bound to. *)
Theorem C131_path E nd op db fs fs' r fp : let o := exec E nd op db fs r in let o' := exec E nd op (rebind fp db) fs' r in
  o_db o' = rebind fp (o_db o) /\ o_req o' = o_req o /\ (~ writes op -> o_res o' = o_res o) /\
  (changes op -> o_res o <> OCrash -> o_res o' <> OCrash -> took o' = took o).
Proof.
  intros o o'. destruct (bound_exec E nd fp op db fs fs' r) as (A & B & C). split; [exact A|]. split; [exact B|]. split.
  - intros W. apply C. destruct (DbFacts.commits op) eqn:X; [|reflexivity]. exfalso. apply W. now apply commits_writes.
  - intros Ch N N'. apply bound_took; [now apply TookFacts.changes_own|exact N|exact N'].
Qed.
Print Assumptions C131_path.
(** What becomes of the original later does not matter, and neither touches the file of the other. *)
Theorem C131_apart E nd op db fs r p : p <> written_path op db -> o_fs (exec E nd op db fs r) !! p = fs !! p.
Proof.
  intros Np. destruct (DbFacts.exec_shape E nd op db fs r) as [H _ _ _|db1 res Eff C _]; [now rewrite H|]. apply DbFacts.commit_to_inv in C as [_ Wd].
  assert (T : DbFacts.target op db = written_path op db) by (destruct op; reflexivity). rewrite T in Wd. revert Wd. generalize (o_fs (exec E nd op db fs r)). intros fs1.
  unfold write_db, write_file. destruct marshal as [d|]; [|now intros [= <- _]]. destruct String.eqb; [now intros [= <- _]|].
  destruct (fs !! written_path op db) as [[]|]; [| |]; destruct (nd_write nd); intros [= <- _]; try reflexivity; apply lookup_insert_ne; congruence.
Qed.
Print Assumptions C131_apart.

(** A copy is made, Jane changes the password in the original, and the copy is opened: it has the old one. *)
Definition copy_out : Out := exec toy (draws 2) (OpCopy "backup.json") story_end.2 story_end.1 new_request.
Definition went_on : FS * Database := run toy (o_fs copy_out, o_db copy_out) [(draws 50, OpChangePassword, change "jane" "jane@example.com" "secret-pw-1" "secret-pw-9")].
Definition copy_db : Database := match snd (new_database toy (draws 200) "backup.json" went_on.1) with Loaded db => db | _ => empty_db "" content_z end.
Lemma story_fresh : reachable_by toy (fresh_draws toy) story_end.1 story_end.2.
Proof. exact (C129_reachable toy start.2 _ _ _ toy_typed story_logged). Qed.
Lemma copy_ok : o_res copy_out = OOk. Proof. vm_compute. reflexivity. Qed.
Lemma copy_left : went_on.1 !! "backup.json" = o_fs copy_out !! "backup.json".
Proof. vm_compute. reflexivity. Qed.
Definition may_log_in (db : Database) (pw : string) : bool := match o_res (exec toy (draws 0) OpAuthenticate db ∅ (login "jane" pw)) with OOk => true | _ => false end.
Example C131_ex : register_typed toy /\ reachable_by toy (fresh_draws toy) story_end.1 story_end.2 /\ o_res copy_out = OOk /\
  plain_path "backup.json" /\ went_on.1 !! "backup.json" = o_fs copy_out !! "backup.json" /\ all_utf8 (content_texts (db_content (o_db copy_out))) /\
  map (may_log_in went_on.2) ["secret-pw-1"; "secret-pw-9"] = [false; true] /\ map (may_log_in copy_db) ["secret-pw-1"; "secret-pw-9"] = [true; false].
Proof.
  split; [exact toy_typed|]. split; [exact story_fresh|]. split; [exact copy_ok|]. split; [discriminate|]. split; [exact copy_left|].
  split; [apply utf8_by; vm_compute; reflexivity|]. split; vm_compute; reflexivity.
Qed.
