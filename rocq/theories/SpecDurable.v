(** Vocabulary of the theorems about what survives a process that is killed (C130): the calls noted, as in
    C129, and those of them that the file holds. *)
From Coq Require Import String Ascii ZArith NArith Lia Bool Arith List.
From stdpp Require Import gmap strings.
From Verif Require Import GoStr Codec Types Env Persist Fs Database System.
From Verif Require Import SpecDb SpecPersist SpecDefect SpecOutage SpecLedger SpecReplay.
Import ListNotations.
Open Scope string_scope.

(** The write takes place or does not; it does not stop half way. *)
Definition whole (nd : Nd) : Prop := nd_write nd = IoOk \/ nd_write nd = IoOpenErr.
(** The call was accepted, and what it wrote is the file of the database. *)
Definition lands (op : Op) (db : Database) (o : Out) : bool :=
  match o_res o with
  | OOk => match op with OpCopy fp => String.eqb fp (db_path db) | _ => noted op o end
  | _ => false
  end.
(** What can happen from a state [fs0], [d0] of the database created as [db0], with the calls noted in memory
    ([l0]) and those in the file ([s0]). Calls return and write as a whole or not at all, others change other
    files, and at any time the process is killed and another one opens the file: then the calls noted are
    those in the file. *)
Inductive onward (E : Env) (db0 : Database) (fs0 : FS) (d0 : Database) (l0 s0 : list (Nd * Op * Request)) :
  FS -> Database -> list (Nd * Op * Request) -> list (Nd * Op * Request) -> Prop :=
| OnNil : onward E db0 fs0 d0 l0 s0 fs0 d0 l0 s0
| OnCall nd op r fs db l s : onward E db0 fs0 d0 l0 s0 fs db l s -> fresh_draws E {| w_fs := fs; w_mem := Up db |} (EvCall nd op r) -> whole nd ->
    let o := exec E nd op db fs r in
    o_res o <> OHang -> o_res o <> OCrash ->
    let l' := if noted op o then (l ++ [(nd, op, r)])%list else l in
    onward E db0 fs0 d0 l0 s0 (o_fs o) (o_db o) l' (if lands op db o then l' else s)
| OnOther fs fs' db l s : onward E db0 fs0 d0 l0 s0 fs db l s -> fs' !! db_path db = fs !! db_path db -> onward E db0 fs0 d0 l0 s0 fs' db l s
| OnKill nd fs fs' db db' l s : onward E db0 fs0 d0 l0 s0 fs db l s -> all_utf8 (content_texts (db_content (replay E s db0))) -> readable nd ->
    new_database E nd (db_path db) fs = (fs', Loaded db') -> onward E db0 fs0 d0 l0 s0 fs' db' s s.
(** A history that begins with the creation of the database [db0]. *)
Definition durable (E : Env) (db0 : Database) (fs : FS) (db : Database) (l s : list (Nd * Op * Request)) : Prop :=
  exists nd fp fs0 fs1, plain_path fp /\ absent fs0 fp /\ new_database E nd fp fs0 = (fs1, Loaded db0) /\ onward E db0 fs1 db0 [] [] fs db l s.
