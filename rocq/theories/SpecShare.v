(** Statements about several databases on the same files. *)
From Coq Require Import String Ascii ZArith NArith Lia Bool Arith List.
From stdpp Require Import gmap strings.
From Verif Require Import GoStr Types Env Fs Database System Share SpecDb.
Import ListNotations.

(** What handle [n] does in a history. *)
Fixpoint own (n : nat) (l : list (nat * Event)) : list Event :=
  match l with [] => [] | (m, ev) :: l => if Nat.eqb m n then ev :: own n l else own n l end.
Definition is_call (ev : Event) : Prop := exists nd op r, ev = EvCall nd op r.
(** The file at [p] is the same. *)
Definition same_file (p : string) (s s' : Site) : Prop := s_fs s' !! p = s_fs s !! p.
(** Events that leave the files alone if the file at [p] is a whole database: reading calls, the end
    of a process, opening [p]. *)
Definition quiet (p : string) (ev : Event) : Prop :=
  match ev with EvCall _ op _ => In op read_ops | EvCrash => True | EvOpen _ fp => fp = p | EvEdit _ => False end.
