(** Several databases open on the same files: in different processes, or several results of
    NewDatabase in one process.

    Nothing in /repo locks a file: database.go:114-191 reads it once, database.go:455-466 replaces
    it.  The lock of database.go:106 belongs to one [Database] value.  A handle is one such value;
    handles take turns call by call.  (While one handle writes, another could read a part of the
    text; such a text is never opened, see C53.) *)
From Coq Require Import String Ascii ZArith NArith Lia Bool Arith List.
From stdpp Require Import gmap strings.
From Verif Require Import GoStr GoErr Types Env Fs Database System.
Import ListNotations.

Record Site := { s_fs : FS; s_mem : gmap nat Mem }.
Definition handle (s : Site) (n : nat) : Mem := default Down (s_mem s !! n).
Inductive sstep (E : Env) (s : Site) (n : nat) (ev : Event) : Site -> Prop :=
| SStep w : step E {| w_fs := s_fs s; w_mem := handle s n |} ev w ->
    sstep E s n ev {| s_fs := w_fs w; s_mem := <[n := w_mem w]> (s_mem s) |}.
(** Histories: who did what, oldest first *)
Inductive ssteps (E : Env) : Site -> list (nat * Event) -> Site -> Prop :=
| SsNil s : ssteps E s [] s
| SsCons s1 n ev s2 l s3 : sstep E s1 n ev s2 -> ssteps E s2 l s3 -> ssteps E s1 ((n, ev) :: l) s3.
(** No database is open yet. *)
Definition site (fs : FS) : Site := {| s_fs := fs; s_mem := ∅ |}.
