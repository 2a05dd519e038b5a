(** What the theorems may assume about the external cryptography.  These are hypotheses of the
    theorems that use them, not axioms; [Examples] has an environment that satisfies them all. *)
From Coq Require Import String Ascii ZArith NArith Lia Bool Arith List.
From Verif Require Import GoStr Env.
Import ListNotations.
Open Scope string_scope.

(** The 72 bytes that bcrypt uses of a password: the bytes followed by NUL, repeated. *)
Definition key72 (s : string) : list ascii :=
  let l := (los s ++ [zero])%list in
  map (fun i => nth (i mod List.length l) l zero) (seq 0 72).

(** A hash accepts the password it was made from. *)
Definition bcrypt_complete (E : Env) : Prop := forall salt s c h, e_bcrypt E salt s c = Some h -> e_bcmp E h s = true.
(** A hash accepts no password with another key (the idealisation of collision resistance). *)
Definition bcrypt_sound (E : Env) : Prop :=
  forall salt s c h s', e_bcrypt E salt s c = Some h -> e_bcmp E h s' = true -> key72 s' = key72 s.
(** Passwords with the same key are treated alike. *)
Definition bcrypt_72 (E : Env) : Prop := forall h s s', key72 s = key72 s' -> e_bcmp E h s = e_bcmp E h s'.
(** Hashing never fails for a cost in range (bcrypt only fails on a bad cost or entropy source). *)
Definition bcrypt_total (E : Env) : Prop := forall salt s c, (4 <= c <= 31)%Z -> exists h, e_bcrypt E salt s c = Some h.
