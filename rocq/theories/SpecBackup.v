(** Vocabulary of the theorems about copies of a database (C131). *)
From Coq Require Import String Ascii ZArith NArith Lia Bool Arith List.
From stdpp Require Import gmap strings.
From RecordUpdate Require Import RecordSet.
From Verif Require Import GoStr Codec Types Env Persist Fs Database System.
From Verif Require Import SpecDb SpecPersist SpecOutage SpecReplay.
Import ListNotations.
Import RecordSetNotations.
Open Scope string_scope.

(** The same database, bound to another path. *)
Definition rebind (fp : string) (db : Database) : Database := db <| db_path := fp |>.
(** What callers hear when the calls are made one after the other on a disk on which writes succeed: the
    answers, and which calls took effect. (Save and Copy say nothing but whether the file was written.) *)
Fixpoint heard (E : Env) (l : list (Nd * Op * Request)) (db : Database) : list (Request * bool) :=
  match l with
  | [] => []
  | (nd, op, r) :: l =>
      let o := exec E (on_disk_that IoOk nd) op db ∅ r in
      (seen (o_req o), match op with OpSave | OpCopy _ => true | _ => took o end) :: heard E l (o_db o)
  end.
