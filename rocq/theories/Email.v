(** email.go *)
From Coq Require Import String Ascii ZArith NArith Lia Bool Arith List.
From Verif Require Import GoStr GoErr Regex.
Import ListNotations.
Open Scope string_scope.

(** [[a-zA-Z0-9.!#$%&'*+/=?^_`{|}~-]] *)
Definition local_char (a : ascii) : bool :=
  is_alnum a || existsb (Ascii.eqb a) (los ".!#$%&'*+/=?^_`{|}~-").
(** [[a-zA-Z0-9-]] *)
Definition label_char (a : ascii) : bool := is_alnum a || Ascii.eqb a "-".
(** [[a-zA-Z0-9](?:[a-zA-Z0-9-]{0,61}[a-zA-Z0-9])?] *)
Definition label_re : re := RCat (RSet is_alnum) (ROpt (RCat (RUpTo 61 (RSet label_char)) (RSet is_alnum))).
(** email.go:26-30 *)
Definition email_re : re :=
  RCat (RPlus (RSet local_char))
       (RCat (RSet (Ascii.eqb "@"))
             (RCat label_re (RStar (RCat (RSet (Ascii.eqb ".")) label_re)))).

(** email.go:34-39; the unexported field [isPrimary] is never assigned in the package
    and never decoded from JSON, so it is always false (see [em_is_primary]). *)
Record EmailAddress := { em_address : string; em_confirmed : bool; em_domain : string }.

(** email.go:55-60 [Primary] *)
Definition em_is_primary (e : EmailAddress) : bool := false.

(** email.go:42-52 [NewEmailAddress] *)
Definition new_email (s : string) : EmailAddress + goerr :=
  if rmatch email_re (los s) then
    inl {| em_address := s; em_confirmed := false; em_domain := nth 1 (split "@" s) "" |}
  else inr (EStd ErrEmailAddressInvalid).
