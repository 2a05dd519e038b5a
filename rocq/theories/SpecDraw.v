(** How much of the randomness an identifier keeps, and how many passcodes there are. *)
From Coq Require Import String Ascii ZArith NArith Lia Bool Arith List.
From Verif Require Import GoStr.
Import ListNotations.
Open Scope string_scope.

(** What remains of random byte [i] in a version 4 UUID: four bits of byte 6, six of byte 8, all
    of the others, 122 in total. *)
Definition kept (i : nat) (a : ascii) : N :=
  if Nat.eqb i 6 then N_of_ascii a mod 16 else if Nat.eqb i 8 then N_of_ascii a mod 64 else N_of_ascii a.

(** All strings of [n] decimal digits. *)
Fixpoint digit_strings (n : nat) : list string :=
  match n with
  | O => [""]
  | S n => flat_map (fun d => map (String d) (digit_strings n)) (los "0123456789")
  end.
