(** Theorems about refused database files (C117). *)
From Coq Require Import String Ascii ZArith NArith Lia Bool Arith List.
From stdpp Require Import gmap strings.
From RecordUpdate Require Import RecordSet.
From Verif Require Import GoStr GoTime GoErr Email Types Env Persist Fs Database SpecDb SpecPersist SpecMeaning SpecDefect MeaningFacts DefectFacts Examples PropertiesPersist.
Import ListNotations.
Import RecordSetNotations.
Open Scope string_scope.

(** C117 *)
(** A database opens exactly if every check holds. *)
Theorem C117_opened E nd fp fs c : says E nd fs fp c -> snd (new_database E nd fp fs) <> LUnmod ->
  (exists db, snd (new_database E nd fp fs) = Loaded db) <-> Forall fst (opening_defects E nd fp fs c).
Proof. intros S. apply settles_opened. now apply opening_settled. Qed.
Print Assumptions C117_opened.
(** Otherwise what happens is decided by the first check that does not hold. *)
Theorem C117_refused E nd fp fs c x : says E nd fs fp c -> snd (new_database E nd fp fs) <> LUnmod -> (forall db, x <> Loaded db) ->
  snd (new_database E nd fp fs) = x <-> first_defect (opening_defects E nd fp fs c) x.
Proof. intros S. apply settles_refused. now apply opening_settled. Qed.
Print Assumptions C117_refused.
(** What a file says is one content: the [c] of these theorems exists, and is unique if the file is a database. *)
Theorem C117_says E nd fs fp : (exists c, says E nd fs fp c) /\ (forall b c, reads E nd fs fp b -> database_text b c -> says E nd fs fp c).
Proof.
  assert (H : forall b c, reads E nd fs fp b -> database_text b c -> says E nd fs fp c).
  { intros b c R T b' c' R' T'. apply reads_iff in R, R'. apply unmarshal_iff in T, T'. congruence. }
  split; [|exact H]. destruct (read_file E nd fs fp) as [b|] eqn:R.
  - destruct (unmarshal b) as [c| |] eqn:U; [exists c; apply (H b); [now apply reads_iff|now apply unmarshal_iff]| |];
      exists content_z; intros b' c' R' T'; apply reads_iff in R'; apply unmarshal_iff in T'; congruence.
  - exists content_z. intros b' c' R'. apply reads_iff in R'. congruence.
Qed.
Print Assumptions C117_says.
(** Opening touches no other file, and this one only if it is missing or lacks a limit. *)
Theorem C117_files E nd fp fs : (forall p, p <> fp -> fst (new_database E nd fp fs) !! p = fs !! p) /\
  (fst (new_database E nd fp fs) <> fs -> absent fs fp \/ exists b c, reads E nd fs fp b /\ database_text b c /\ ~ limits_set (rc_policy c)).
Proof. split; [apply opening_files|apply opening_writes]. Qed.
Print Assumptions C117_files.
(** A file that lacks a limit is rewritten before its accounts are checked: a refused file need not be left as it was. *)
Definition lax_clash : string := "{""users"":[" ++ json_user "a" "1" "" ++ "," ++ json_user "A" "2" "" ++ "]}".
Theorem C117_untouched_refuted : exists E nd fp fs e, snd (new_database E nd fp fs) = LErr e /\ nd_write nd = IoOk /\
  e = EWith ErrNewDatabaseDuplicateUser [AStr "A"; AOther] /\ fst (new_database E nd fp fs) !! fp <> fs !! fp.
Proof.
  exists toy, (draws 0), "db.json", (file_of lax_clash), (EWith ErrNewDatabaseDuplicateUser [AStr "A"; AOther]).
  split; [vm_compute; reflexivity|]. split; [reflexivity|]. split; [reflexivity|]. vm_compute. discriminate.
Qed.
Print Assumptions C117_untouched_refuted.
(** Files with one or more defects, and what opening them gives. *)
Example C117_ex :
  opens_to clash_json = LErr (EWith ErrNewDatabaseDuplicateUser [AStr "A"; AOther]) /\
  opens_to (json_db (json_user "a" "1" "" ++ "," ++ json_user "b" "1" "")) = LErr (EWith ErrNewDatabaseDuplicateUserID [AStr "00000000-0000-0000-0000-000000000001"; AOther]) /\
  opens_to (json_db (json_user "a" "1" "" ++ "," ++ json_user "" "12" "")) = LErr (EWith ErrNewDatabaseInvalidUser [AOther; AErr (EWith ErrUserIDInvalidLength [AInt 37])]) /\
  opens_to (json_db (json_user "a" "1" ",""api_keys"":[{""prefix"":""k""},{""prefix"":""k""}]")) = LErr (EWith ErrNewDatabaseDuplicateAPIKey [AStr "k"; AOther]) /\
  opens_to (json_db (json_user "a" "1" ",""email_addresses"":[{""address"":""x@y.z""},{""address"":""X@y.z""}],""api_keys"":[null]")) = LErr (EWith ErrNewDatabaseDuplicateEmail [AStr "x@y.z"; AOther]) /\
  opens_to (json_db (json_user "a" "1" ",""api_keys"":[null]" ++ "," ++ json_user "a" "1" "")) = LPanic /\
  opens_to "[]" = LErr (EWith ErrNewDatabase [AStr "db.json"; AErr ext_err]) /\
  snd (new_database toy (draws 0) "db.json" (<["db.json" := Dir]> ∅)) = LErr (EWith ErrNewDatabase [AStr "db.json"; AStr "path points to a directory"]).
Proof. vm_compute. auto 20. Qed.
(** What the theorems say of the first of them and of a file without defects. *)
Example C117_ex_clash :
  first_defect (opening_defects toy (draws 0) "db.json" (file_of clash_json) (decoded clash_json)) (LErr (EWith ErrNewDatabaseDuplicateUser [AStr "A"; AOther])) /\
  Forall fst (opening_defects toy (draws 0) "db.json" (file_of pair_json) (decoded pair_json)).
Proof.
  assert (S : forall b, unmarshal b = DOk (decoded b) -> says toy (draws 0) (file_of b) "db.json" (decoded b)).
  { intros b U. apply (proj2 (C117_says toy (draws 0) (file_of b) "db.json") b); [|now apply unmarshal_iff].
    apply reads_iff. unfold read_file, file_of. change (expand toy "db.json") with (Some "db.json"). change (nd_read_err (draws 0)) with false. unfold FS. now rewrite lookup_insert. }
  split.
  - apply (C117_refused toy (draws 0) "db.json" (file_of clash_json) (decoded clash_json)); [apply S; vm_compute; reflexivity|vm_compute; discriminate|discriminate|vm_compute; reflexivity].
  - apply (C117_opened toy (draws 0) "db.json" (file_of pair_json) (decoded pair_json)); [apply S; vm_compute; reflexivity|vm_compute; discriminate|]. eexists. vm_compute. reflexivity.
Qed.
