(** name.go *)
From Coq Require Import String Ascii ZArith NArith Lia Bool Arith List.
From Verif Require Import GoStr GoErr.
Import ListNotations.
Open Scope string_scope.

(** name.go:23-33 *)
Record Name := {
  nm_first : string; nm_last : string; nm_middle : string; nm_preferred : string;
  nm_nickname : bool; nm_confirmed : bool; nm_primary : bool; nm_legal : bool; nm_alias : bool }.

(** [&Name{}] with Last and First set (name.go:64,78-79) *)
Definition mk_name (last first : string) : Name :=
  {| nm_first := first; nm_last := last; nm_middle := ""; nm_preferred := "";
     nm_nickname := false; nm_confirmed := false; nm_primary := false; nm_legal := false; nm_alias := false |}.

(** name.go:51-60 [GetFullName]; [GetNameClaim] (41-43) and [ToString] (46-48) call it *)
Definition full_name (n : Name) : string :=
  nm_last n ++ (if String.eqb (nm_first n) "" then "" else ", " ++ nm_first n).

(** name.go:63-85 [ParseName]: separator ',' with (last, first), then ' ' with (first, last) *)
Definition parse_sep (c : ascii) (swap : bool) (s : string) : option Name :=
  match split c s with
  | [a; b] => Some (if swap then mk_name (trim_space b) (trim_space a)
                    else mk_name (trim_space a) (trim_space b))
  | _ => None
  end.
Definition parse_name (s : string) : Name + goerr :=
  match parse_sep "," false s with
  | Some n => inl n
  | None => match parse_sep " " true s with
            | Some n => inl n
            | None => inr (EWith ErrParseNameFailed [AStr s])
            end
  end.
