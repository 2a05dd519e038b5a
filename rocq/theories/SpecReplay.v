(** Vocabulary of the theorems about histories replayed (C129): the calls of a history that left a trace,
    and what those calls alone make of the database as it was created. *)
From Coq Require Import String Ascii ZArith NArith Lia Bool Arith List.
From stdpp Require Import gmap strings.
From Verif Require Import GoStr Codec Types Env Persist Fs Database System.
From Verif Require Import SpecDb SpecPersist SpecDefect SpecOutage SpecLedger.
Import ListNotations.
Open Scope string_scope.

(** The calls that are noted: Save and Copy, which count the revision up whatever becomes of the file, and
    those changes that were accepted or refused only because the file could not be written. *)
Definition noted (op : Op) (o : Out) : bool :=
  match op with
  | OpSave | OpCopy _ => true
  | OpAddUser | OpChangePassword | OpAddPublicKey | OpDeletePublicKey | OpAddAPIKey | OpDeleteAPIKey | OpAddMfaToken | OpDeleteMfaToken => took o
  | _ => false
  end.
(** A history that begins with the creation of the database [db0]: calls that return, whether they are
    accepted or not and whether their writes succeed or not, changes of any file by others, and restarts
    from the file of the database while it holds what the database held. *)
Inductive logged (E : Env) (db0 : Database) : FS -> Database -> list (Nd * Op * Request) -> Prop :=
| LgNew nd fp fs fs' : absent fs fp -> new_database E nd fp fs = (fs', Loaded db0) -> logged E db0 fs' db0 []
| LgCall nd op r fs db l : logged E db0 fs db l -> fresh_draws E {| w_fs := fs; w_mem := Up db |} (EvCall nd op r) ->
    let o := exec E nd op db fs r in
    o_res o <> OHang -> o_res o <> OCrash ->
    logged E db0 (o_fs o) (o_db o) (if noted op o then (l ++ [(nd, op, r)])%list else l)
| LgEdit fs fs' db l : logged E db0 fs db l -> logged E db0 fs' db l
| LgRestart nd fs fs' db db' l : logged E db0 fs db l -> on_disk fs (db_path db) db -> plain_path (db_path db) ->
    all_utf8 (content_texts (db_content db)) -> readable nd -> new_database E nd (db_path db) fs = (fs', Loaded db') ->
    logged E db0 fs' db' l.
(** The calls made one after the other, each of them once, on an empty disk on which every write succeeds. *)
Fixpoint replay (E : Env) (l : list (Nd * Op * Request)) (db : Database) : Database :=
  match l with
  | [] => db
  | (nd, op, r) :: l => replay E l (o_db (exec E (on_disk_that IoOk nd) op db ∅ r))
  end.
