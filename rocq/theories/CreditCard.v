(** credit_card.go, credit_card_association.go, credit_card_issuer.go.  The code and
    expiry fields of [CreditCard] are not touched by any function and are kept as one
    opaque value [cc_rest]. *)
From Coq Require Import String Ascii ZArith NArith Lia Bool Arith List.
From Verif Require Import GoStr GoErr.
Import ListNotations.
Open Scope string_scope.

(** credit_card_association.go:63-68 *)
Record Association := { as_name : string; as_aliases : list string; as_code_name : string; as_code_format : string }.
(** credit_card_issuer.go:21-24 *)
Record Issuer := { is_name : string; is_aliases : list string }.
(** credit_card.go:24-31 *)
Record Card (R : Type) := { cc_issuer : option Issuer; cc_assoc : option Association; cc_rest : R }.
Arguments cc_issuer {R}. Arguments cc_assoc {R}. Arguments cc_rest {R}.

(** credit_card_association.go:18-59 *)
Definition associations : list Association := [
  {| as_name := "American Express"; as_aliases := ["amex"; "AMEX"]; as_code_name := "CID"; as_code_format := "NNNN" |};
  {| as_name := "Diners Club"; as_aliases := ["diners"]; as_code_name := "Security Code"; as_code_format := "NNN" |};
  {| as_name := "Discover"; as_aliases := ["discover"]; as_code_name := "CID"; as_code_format := "NNN" |};
  {| as_name := "Mastercard"; as_aliases := ["mastercard"]; as_code_name := "CVC2"; as_code_format := "NNN" |};
  {| as_name := "Visa"; as_aliases := ["visa"]; as_code_name := "CVC2"; as_code_format := "NNN" |} ].
(** credit_card_issuer.go:18 *)
Definition issuers : list Issuer := [].

(** credit_card.go:39-54 [AddIssuer], for an arbitrary table [tbl] (the variable
    [CreditCardIssuers] is exported) and lower casing [low] *)
Definition issuer_match (low : string -> string) (s : string) (i : Issuer) : bool :=
  String.eqb s (is_name i) || String.eqb s (low (is_name i))
  || existsb (fun a => String.eqb s a || String.eqb s (low a)) (is_aliases i).
Definition add_issuer {R} (tbl : list Issuer) (low : string -> string) (cc : Card R) (s : string) : Card R * option goerr :=
  match find (issuer_match low s) tbl with
  | Some i => ({| cc_issuer := Some i; cc_assoc := cc_assoc cc; cc_rest := cc_rest cc |}, None)
  | None => (cc, Some (EWith ErrCreditCardUnsupportedIssuer [AStr s]))
  end.

(** credit_card.go:58-66 [AddAssociation] *)
Definition add_association {R} (cc : Card R) (s : string) : Card R * option goerr :=
  match find (fun a => String.eqb s (as_name a)) associations with
  | Some a => ({| cc_issuer := cc_issuer cc; cc_assoc := Some a; cc_rest := cc_rest cc |}, None)
  | None => (cc, Some (EWith ErrCreditCardUnsupportedAssociation [AStr s]))
  end.
