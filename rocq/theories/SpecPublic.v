(** What a public key entry says about the key text it was made from (C123). *)
From Coq Require Import String Ascii ZArith NArith Lia Bool Arith List.
From stdpp Require Import gmap strings.
From Verif Require Import GoStr Codec Random Types Env PublicKey SpecMfa SpecRefuse.
Import ListNotations.
Open Scope string_scope.

(** ** Texts *)
(** The second text is the first without the characters of [cut] at its start. *)
Inductive without_leading (cut : list ascii) : list ascii -> list ascii -> Prop :=
| WlNil : without_leading cut [] []
| WlDrop a l l' : In a cut -> without_leading cut l l' -> without_leading cut (a :: l) l'
| WlKeep a l : ~ In a cut -> without_leading cut (a :: l) (a :: l).
(** The second text is the first without the occurrences of [p], taken from left to right. *)
Inductive without_text (p : list ascii) : list ascii -> list ascii -> Prop :=
| WtNil : without_text p [] []
| WtDrop l l' : without_text p l l' -> without_text p (p ++ l)%list l'
| WtKeep a l l' : (forall t, a :: l <> (p ++ t)%list) -> without_text p l l' -> without_text p (a :: l) (a :: l').
(** [l] is a hexadecimal numeral with lowercase digits; the shortest one. *)
Inductive numeral16 : list ascii -> N -> Prop :=
| N16Nil : numeral16 [] 0
| N16Snoc l n d a : numeral16 l n -> lower_hex !! N.to_nat d = Some a -> numeral16 (l ++ [a])%list (n * 16 + d).
Definition shortest16 (l : list ascii) (n : N) : Prop := numeral16 l n /\ exists a t, l = a :: t /\ (a = "0"%char -> t = []).
Definition blank_char (a : ascii) : Prop := a = " "%char \/ a = "009"%char.
(** The line [s] consists of the word "ssh-rsa", [word] and what follows from the next blank on. *)
Definition ssh_line (s word rest : string) : Prop :=
  exists t, trim_space s = "ssh-rsa" ++ t /\ trim_space t = word ++ rest /\ Forall (fun a => ~ blank_char a) (los word) /\
    (rest = "" \/ exists a u, los rest = a :: u /\ blank_char a).

(** ** Entries *)
Definition entry_of (nd : Nd) (r : Request) (id ty fp md5 comment payload openssh : string) : PublicKey :=
  let off := rk_disabled (rq_key r) in
  {| pk_id := id; pk_usage := rk_usage (rq_key r); pk_type := ty; pk_fp := fp; pk_fp_md5 := md5; pk_comment := comment; pk_payload := payload;
     pk_openssh := openssh; pk_expired := false; pk_expired_at := 0; pk_created := nd_clock nd; pk_disabled := off;
     pk_disabled_at := if off then nd_clock nd else 0%Z |}.
(** A PEM block: the key it holds, under both fingerprints; the text as it came. *)
Definition says_pem (E : Env) (nd : Nd) (r : Request) (k : PublicKey) : Prop :=
  let s := rk_payload (rq_key r) in rsa_payload s /\ rk_usage (rq_key r) = "ssh" /\
  exists b x fp line, e_pem E (trim_space s) = Some ("RSA PUBLIC KEY", b) /\ e_pkix E b = PkixKey x /\
    without_text (los "SHA256:") (los (sk_sha256 x)) (los fp) /\ without_leading (los (sk_type x ++ " ")) (los (sk_authorized x)) (los line) /\
    k = entry_of nd r (random_string 40 (nd_id nd)) (sk_type x) fp (sk_md5 x) (rk_comment (rq_key r)) s line.
(** A line as in authorized_keys: its second word and its comment, if any; the payload is the PEM form. *)
Definition says_ssh (E : Env) (nd : Nd) (r : Request) (k : PublicKey) : Prop :=
  let s := rk_payload (rq_key r) in ssh_payload s /\ In (rk_usage (rq_key r)) ["ssh"; "gpg"] /\
  exists word rest b x pem, ssh_line s word rest /\ b64_decode word = Some b /\ e_ssh E b = Some x /\ sk_type x = "ssh-rsa" /\ sk_pem x = Some pem /\
    k = entry_of nd r (random_string 40 (nd_id nd)) "ssh-rsa" (sk_sha256 x) (sk_md5 x)
          (if String.eqb (trim_space rest) "" then rk_comment (rq_key r) else trim_space rest) pem word.
(** The algorithms of PGP keys, as comments and as types name them. *)
Definition pgp_names : list (N * string * string) :=
  [(1, "RSA", "rsa"); (2, "RSA", "rsa"); (3, "RSA", "rsa"); (17, "DSA", "dsa"); (18, "ECDH", "ecdh"); (19, "ECDSA", "ecdsa")]%N.
(** An armored PGP block with one key: its identifier and fingerprint in hexadecimal, and one of its
    identities in the comment. *)
Definition says_pgp (E : Env) (nd : Nd) (r : Request) (k : PublicKey) : Prop :=
  let s := rk_payload (rq_key r) in pgp_payload s /\ In (rk_usage (rq_key r)) ["ssh"; "gpg"] /\
  (exists t, trim_space s = "-----BEGIN PGP PUBLIC KEY BLOCK-----" ++ t) /\ (exists t, trim_space s = t ++ "-----END PGP PUBLIC KEY BLOCK-----") /\
  exists x key name algo ty id fp, e_pgp E (trim_space s) = Some [x] /\ pg_primary x = Some key /\
    pg_names x !! (nd_pick nd mod List.length (pg_names x))%nat = Some name /\ In (pg_algo key, algo, ty) pgp_names /\
    shortest16 (los id) (pg_id key) /\ hex_of (los (pg_fp key)) (los fp) /\
    let about := name ++ ", algo " ++ algo ++ ", created " ++ pg_created key in
    k = entry_of nd r id ty fp "" (if String.eqb (rk_comment (rq_key r)) "" then about else rk_comment (rq_key r) ++ " (" ++ about ++ ")") (trim_space s) "".
Definition says (E : Env) (nd : Nd) (r : Request) (k : PublicKey) : Prop := says_pem E nd r k \/ says_ssh E nd r k \/ says_pgp E nd r k.
