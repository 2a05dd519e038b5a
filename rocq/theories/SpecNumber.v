(** The value of a number literal of JSON, and float64, stated on real numbers. *)
From Coq Require Import String Ascii ZArith NArith List Reals.
From Flocq Require Import Core.
Import ListNotations.

Definition decimal_digit (a : ascii) : Prop := (48 <= N_of_ascii a <= 57)%N.
(** The number a row of digits stands for. *)
Definition digits_value (l : list ascii) : Z := fold_left (fun v a => (10 * v + (Z.of_N (N_of_ascii a) - 48))%Z) l 0%Z.
(** An optional sign in front of digits. *)
Inductive signed : list ascii -> Z -> Prop :=
  | SgPlain l : l <> [] -> Forall decimal_digit l -> signed l (digits_value l)
  | SgPlus l : l <> [] -> Forall decimal_digit l -> signed ("+"%char :: l) (digits_value l)
  | SgMinus l : l <> [] -> Forall decimal_digit l -> signed ("-"%char :: l) (- digits_value l).
(** Fraction: text and digits.  Exponent: text and value. *)
Inductive fraction : list ascii -> list ascii -> Prop :=
  | FrNone : fraction [] []
  | FrSome l : l <> [] -> Forall decimal_digit l -> fraction ("."%char :: l) l.
Inductive exponent : list ascii -> Z -> Prop :=
  | ExNone : exponent [] 0
  | ExSome a l z : a = "e"%char \/ a = "E"%char -> signed l z -> exponent (a :: l) z.
(** [literal l v]: the text [l] is a decimal number with value [v]. *)
Inductive unsigned_literal : list ascii -> R -> Prop :=
  | Literal i ft f et e : i <> [] -> Forall decimal_digit i -> fraction ft f -> exponent et e ->
      unsigned_literal (i ++ ft ++ et) (IZR (digits_value (i ++ f)) * powerRZ 10 (e - Z.of_nat (List.length f))).
Inductive literal : list ascii -> R -> Prop :=
  | LitPos l v : unsigned_literal l v -> literal l v
  | LitNeg l v : unsigned_literal l v -> literal ("-"%char :: l) (- v).
(** The float64 nearest to [v], ties to the even one, had float64 no upper bound. *)
Definition nearest64 (v : R) : R := round radix2 (FLT_exp (-1074) 53) ZnearestE v.
(** [v] is too large for float64. *)
Definition overflows (v : R) : Prop := (powerRZ 2 1024 <= Rabs (nearest64 v))%R.
