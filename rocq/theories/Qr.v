(** pkg/qr/qr.go *)
From Coq Require Import String Ascii ZArith NArith Lia Bool Arith List.
From Verif Require Import GoStr Utf8 Codec.
Import ListNotations.
Open Scope string_scope.

(** qr.go:26-37; [qr_text] and [qr_encoded] are the unexported fields. *)
Record Code := {
  qr_type : string; qr_secret : string; qr_algorithm : string; qr_label : string; qr_issuer : string;
  qr_period : Z; qr_digits : Z; qr_counter : Z; qr_text : string; qr_encoded : string }.

Definition set_params (c : Code) (digits period : Z) (algo : string) : Code :=
  {| qr_type := qr_type c; qr_secret := qr_secret c; qr_algorithm := algo; qr_label := qr_label c;
     qr_issuer := qr_issuer c; qr_period := period; qr_digits := digits; qr_counter := qr_counter c;
     qr_text := qr_text c; qr_encoded := qr_encoded c |}.

(** qr.go:44-87 [validate]; [low] is [strings.ToLower].  The result is the updated
    receiver (fields are changed even when a later check fails) and an error text. *)
Definition qr_validate (low : string -> string) (c : Code) : Code * option string :=
  if String.eqb (qr_label c) "" then (c, Some "token label must be set")
  else if String.eqb (qr_secret c) "" then (c, Some "token secret must be set")
  else if (zlen (qr_secret c) <? 6)%Z then (c, Some "token secret must be at least 6 characters long")
  else
    let d := qr_digits c in
    if negb (d =? 0)%Z && ((d <? 4)%Z || (d >? 8)%Z) then (c, Some "digits must be between 4 and 8 numbers long")
    else
      let c := set_params c (if (d =? 0)%Z then 6%Z else d) (qr_period c) (qr_algorithm c) in
      let p := qr_period c in
      if negb (p =? 0)%Z && ((p <? 30)%Z || (p >? 180)%Z) then (c, Some "token period must be between 30 and 180 seconds")
      else
        let c := set_params c (qr_digits c) (if (p =? 0)%Z then 30%Z else p) (qr_algorithm c) in
        let terr :=
          if String.eqb (qr_type c) "totp" then None
          else if String.eqb (qr_type c) "hotp" then
            if (qr_counter c <? 1)%Z then Some "hotp token counter must be set" else None
          else Some "token type must be either totp or hotp" in
        match terr with
        | Some e => (c, Some e)
        | None =>
            let c := set_params c (qr_digits c) (qr_period c) (low (qr_algorithm c)) in
            let a := qr_algorithm c in
            if String.eqb a "sha1" || String.eqb a "sha256" || String.eqb a "sha512" || String.eqb a "" then (c, None)
            else (c, Some "token algo must be SHA1, SHA256, or SHA512")
        end.

(** qr.go:94-115: the text *)
Definition qr_uri (c : Code) : string :=
  "otpauth://" ++ (qr_type c ++ "/" ++ query_escape (qr_label c))
  ++ ("?secret=" ++ b32_encode (qr_secret c))
  ++ (if String.eqb (qr_issuer c) "" then "" else "&issuer=" ++ query_escape (qr_issuer c))
  ++ (if String.eqb (qr_algorithm c) "" then "" else "&algorithm=" ++ qr_algorithm c)
  ++ (if (qr_digits c >? 0)%Z then "&digits=" ++ sprint_d (qr_digits c) else "")
  ++ (if (qr_counter c >? 0)%Z then "&counter=" ++ sprint_d (qr_counter c) else "")
  ++ (if (qr_period c >? 0)%Z then "&period=" ++ sprint_d (qr_period c) else "").

(** qr.go:90-119 [Build] *)
Definition qr_build (low : string -> string) (c : Code) : Code * option string :=
  match qr_validate low c with
  | (c, Some e) => (c, Some e)
  | (c, None) =>
      let t := qr_uri c in
      ({| qr_type := qr_type c; qr_secret := qr_secret c; qr_algorithm := qr_algorithm c; qr_label := qr_label c;
          qr_issuer := qr_issuer c; qr_period := qr_period c; qr_digits := qr_digits c; qr_counter := qr_counter c;
          qr_text := t; qr_encoded := b64_encode t |}, None)
  end.

(** qr.go:121-128 [Get], [GetEncoded] *)
Definition qr_get (c : Code) : string := qr_text c.
Definition qr_get_encoded (c : Code) : string := qr_encoded c.
