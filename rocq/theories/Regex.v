(** Regular expressions over bytes: the subset of Go's [regexp] syntax used by
    email.go:26-30 (classes, concatenation, [?], [+], [*], bounded repetition), with its
    matching relation and a decision procedure by Brzozowski derivatives.  The patterns
    are anchored ([^...$] without the [m] flag) and contain only ASCII classes, so
    matching a Go string is matching its bytes. *)
From Coq Require Import String Ascii ZArith NArith Lia Bool Arith List.
From Verif Require Import GoStr.
Import ListNotations.

Inductive re : Type :=
| RNone
| REps
| RSet (f : ascii -> bool)
| RCat (a b : re)
| RAlt (a b : re)
| RStar (a : re).

Inductive matches : re -> list ascii -> Prop :=
| MEps : matches REps []
| MSet f a : f a = true -> matches (RSet f) [a]
| MCat r s u v : matches r u -> matches s v -> matches (RCat r s) (u ++ v)
| MAltL r s u : matches r u -> matches (RAlt r s) u
| MAltR r s u : matches s u -> matches (RAlt r s) u
| MStar0 r : matches (RStar r) []
| MStarS r u v : matches r u -> matches (RStar r) v -> matches (RStar r) (u ++ v).

(** [r?], [r+], [r{0,n}] *)
Definition ROpt (r : re) : re := RAlt REps r.
Definition RPlus (r : re) : re := RCat r (RStar r).
Fixpoint RUpTo (n : nat) (r : re) : re :=
  match n with O => REps | S k => ROpt (RCat r (RUpTo k r)) end.

Fixpoint nullable (r : re) : bool :=
  match r with
  | RNone => false
  | REps => true
  | RSet _ => false
  | RCat a b => nullable a && nullable b
  | RAlt a b => nullable a || nullable b
  | RStar _ => true
  end.
(** Smart constructors keep derivatives small. *)
Definition cat' (a b : re) : re :=
  match a with RNone => RNone | REps => b | _ => match b with RNone => RNone | _ => RCat a b end end.
Definition alt' (a b : re) : re :=
  match a with RNone => b | _ => match b with RNone => a | _ => RAlt a b end end.
Fixpoint deriv (c : ascii) (r : re) : re :=
  match r with
  | RNone => RNone
  | REps => RNone
  | RSet f => if f c then REps else RNone
  | RCat a b => if nullable a then alt' (cat' (deriv c a) b) (deriv c b) else cat' (deriv c a) b
  | RAlt a b => alt' (deriv c a) (deriv c b)
  | RStar a => cat' (deriv c a) (RStar a)
  end.
Fixpoint rmatch (r : re) (l : list ascii) : bool :=
  match l with [] => nullable r | c :: t => rmatch (deriv c r) t end.
