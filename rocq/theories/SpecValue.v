(** Vocabulary of the value-type theorems (C63-C74), independent of the model's
    helper functions. *)
From Coq Require Import String Ascii ZArith NArith Lia Bool Arith List.
From Verif Require Import GoStr Codec Qr.
Import ListNotations.
Open Scope string_scope.

(** [s] has no byte [c]. *)
Definition without (c : ascii) (s : string) : Prop := ~ In c (los s).

(** ** Email grammar (C66) *)
Definition ascii_letter_or_digit (a : ascii) : Prop :=
  let n := nat_of_ascii a in (97 <= n <= 122 \/ 65 <= n <= 90 \/ 48 <= n <= 57)%nat.
Definition local_part_char (a : ascii) : Prop :=
  ascii_letter_or_digit a \/ In a (los ".!#$%&'*+/=?^_`{|}~-").
(** 1 to 63 letters, digits or hyphens; no hyphen first or last. *)
Definition domain_label (w : list ascii) : Prop :=
  (1 <= List.length w <= 63)%nat /\
  Forall (fun a => ascii_letter_or_digit a \/ a = "-"%char) w /\
  (forall t, w <> "-"%char :: t) /\ (forall t, w <> t ++ ["-"%char])%list.
Inductive dotted : list (list ascii) -> list ascii -> Prop :=
| dotted1 w : dotted [w] w
| dottedS w ws l : dotted ws l -> dotted (w :: ws) (w ++ "."%char :: l)%list.
(** [email_grammar s domain]: [s] is an address with that domain. *)
Definition email_grammar (s domain : string) : Prop :=
  exists local labels,
    local <> [] /\ Forall local_part_char local /\
    Forall domain_label labels /\ dotted labels (los domain) /\
    los s = (local ++ "@"%char :: los domain)%list.

(** ** QR enrolment URIs (C69): a reader for otpauth URIs.
    [otpauth://TYPE/LABEL?k1=v1&k2=v2...] *)
Record Otp := { o_type : string; o_label : string; o_params : list (string * string) }.
Fixpoint cut_l (c : ascii) (l : list ascii) : option (list ascii * list ascii) :=
  match l with
  | [] => None
  | a :: t => if Ascii.eqb a c then Some ([], t)
              else match cut_l c t with Some (x, y) => Some (a :: x, y) | None => None end
  end.
(** Split at the first [c]. *)
Definition cut (c : ascii) (s : string) : option (string * string) :=
  match cut_l c (los s) with Some (x, y) => Some (sol x, sol y) | None => None end.
Fixpoint read_params (ps : list string) : option (list (string * string)) :=
  match ps with
  | [] => Some []
  | p :: t => match cut "=" p, read_params t with
              | Some kv, Some r => Some (kv :: r)
              | _, _ => None
              end
  end.
Definition read_uri (s : string) : option Otp :=
  match strip_prefix (los "otpauth://") (los s) with
  | None => None
  | Some rest =>
      match cut "/" (sol rest) with
      | None => None
      | Some (ty, r) =>
          match cut "?" r with
          | None => None
          | Some (lb, q) =>
              match read_params (split "&" q) with
              | Some ps => Some {| o_type := ty; o_label := lb; o_params := ps |}
              | None => None
              end
          end
      end
  end.

(** Reading a number. *)
Definition number (s : string) (n : Z) : Prop :=
  s <> "" /\ Forall (fun a => is_digit a = true) (los s) /\ Z.of_N (dec_val_l (los s) 0) = n.
(** The codes that can be enrolled (C70) and what [Build] makes of one. *)
Definition valid_code (low : string -> string) (c : Code) : Prop :=
  qr_label c <> "" /\ (6 <= zlen (qr_secret c))%Z /\
  (qr_digits c = 0 \/ 4 <= qr_digits c <= 8)%Z /\ (qr_period c = 0 \/ 30 <= qr_period c <= 180)%Z /\
  (qr_type c = "totp" \/ qr_type c = "hotp" /\ (1 <= qr_counter c)%Z) /\
  In (low (qr_algorithm c)) [""; "sha1"; "sha256"; "sha512"].
Definition built (low : string -> string) (c c' : Code) : Prop :=
  qr_type c' = qr_type c /\ qr_secret c' = qr_secret c /\ qr_label c' = qr_label c /\ qr_issuer c' = qr_issuer c /\
  qr_counter c' = qr_counter c /\ qr_algorithm c' = low (qr_algorithm c) /\
  qr_digits c' = (if qr_digits c =? 0 then 6 else qr_digits c)%Z /\
  qr_period c' = (if qr_period c =? 0 then 30 else qr_period c)%Z.
Definition lookup_param (k : string) (ps : list (string * string)) : option string :=
  option_map snd (find (fun kv => String.eqb (fst kv) k) ps).
(** What the reader of the URI sees: every field of the code, and no other parameter. *)
Definition uri_says (c : Code) (o : Otp) : Prop :=
  o_type o = qr_type c /\ query_unescape (o_label o) = Some (qr_label c) /\
  NoDup (map fst (o_params o)) /\
  (forall k, In k (map fst (o_params o)) -> In k ["secret"; "issuer"; "algorithm"; "digits"; "counter"; "period"]) /\
  (exists v, lookup_param "secret" (o_params o) = Some v /\ b32_decode v = Some (qr_secret c)) /\
  (if String.eqb (qr_issuer c) "" then lookup_param "issuer" (o_params o) = None
   else exists v, lookup_param "issuer" (o_params o) = Some v /\ query_unescape v = Some (qr_issuer c)) /\
  lookup_param "algorithm" (o_params o) = (if String.eqb (qr_algorithm c) "" then None else Some (qr_algorithm c)) /\
  (exists v, lookup_param "digits" (o_params o) = Some v /\ number v (qr_digits c)) /\
  (if (1 <=? qr_counter c)%Z then exists v, lookup_param "counter" (o_params o) = Some v /\ number v (qr_counter c)
   else lookup_param "counter" (o_params o) = None) /\
  (exists v, lookup_param "period" (o_params o) = Some v /\ number v (qr_period c)).

(** ** Random strings and identifiers (C67, C68) *)
(** The letters and digits. *)
Definition alnum_string (s : string) : Prop := Forall (fun a => is_alnum a = true) (los s).
(** Lower case hexadecimal digits. *)
Definition hex_lower (a : ascii) : Prop := In a (los "0123456789abcdef").
(** Canonical form: five groups of 8-4-4-4-12 lower case hexadecimal digits, version 4,
    variant 8, 9, a or b. *)
Definition canonical_v4 (s : string) : Prop :=
  exists g1 g2 g3 g4 g5 v,
    los s = (g1 ++ "-" :: g2 ++ "-" :: "4" :: g3 ++ "-" :: v :: g4 ++ "-" :: g5)%char%list /\
    List.length g1 = 8%nat /\ List.length g2 = 4%nat /\ List.length g3 = 3%nat /\ List.length g4 = 3%nat /\ List.length g5 = 12%nat /\
    Forall hex_lower (g1 ++ g2 ++ g3 ++ g4 ++ g5)%list /\ In v (los "89ab").

(** ** Credit cards (C74) *)
Definition supported_associations : list string := ["American Express"; "Diners Club"; "Discover"; "Mastercard"; "Visa"].
