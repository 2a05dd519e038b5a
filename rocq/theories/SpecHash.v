(** Vocabulary of the theorems about the standard hash functions (C114). *)
From Coq Require Import String Ascii ZArith NArith Lia Bool Arith List.
From stdpp Require Import gmap strings.
From Verif Require Import GoStr Types Env Hash SpecMfa.
Import ListNotations.
Open Scope string_scope.

(** The environment computes HMAC as the standards say. *)
Definition standard (E : Env) : Prop := forall a k m, known_algorithm a -> e_hmac E a k m = std_hmac a k m.
(** The hashes by name, with their block and digest sizes in bytes (FIPS 180-4, figure 1). *)
Inductive hash_function : string -> (list ascii -> list ascii) -> nat -> nat -> Prop :=
| HSha1 : hash_function "sha1" sha1 64 20
| HSha256 : hash_function "sha256" sha256 64 32
| HSha512 : hash_function "sha512" sha512 128 64.
(** Secrets that are one HMAC key (RFC 2104, section 2): zeros at the end do not count, and a secret
    longer than a block stands for its digest. *)
Inductive same_key (a : string) : string -> string -> Prop :=
| SameRefl s : same_key a s s
| SameZeros h b d s n : hash_function a h b d -> (String.length s + n <= b)%nat -> same_key a s (s ++ sol (repeat Ascii.zero n))
| SameDigest h b d s : hash_function a h b d -> (b < String.length s)%nat -> same_key a s (sol (h (los s)))
| SameSym s t : same_key a s t -> same_key a t s
| SameTrans s t u : same_key a s t -> same_key a t u -> same_key a s u.
(** Tokens that differ in nothing but name, comment, dates and secret. *)
Record same_device (p q : MfaToken) : Prop := {
  sd_type : t_type q = t_type p; sd_algorithm : t_algorithm q = t_algorithm p; sd_period : t_period q = t_period p; sd_digits : t_digits q = t_digits p
}.
