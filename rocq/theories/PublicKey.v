(** public_key.go *)
From Coq Require Import String Ascii ZArith NArith Lia Bool Arith List.
From stdpp Require Import gmap strings.
From RecordUpdate Require Import RecordSet.
From Verif Require Import GoStr Codec GoErr Random Types Env.
Import ListNotations.
Import RecordSetNotations.
Open Scope string_scope.

(** [bytes.IndexAny(b, " \t")]: the text before and from the first blank; [None] = -1 *)
Fixpoint cut_blank (l : list ascii) : option (list ascii * list ascii) :=
  match l with
  | [] => None
  | a :: t => if Ascii.eqb a " " || Ascii.eqb a "009" then Some ([], l)
              else match cut_blank t with Some (x, y) => Some (a :: x, y) | None => None end
  end.

(** public_key.go:131-192 [parsePublicKeyOpenSSH] *)
Definition parse_openssh (E : Env) (p : PublicKey) : PublicKey + goerr :=
  let payload := los (trim_space (pk_payload p)) in
  let '(w, rest) := match cut_blank payload with Some x => x | None => (payload, []) end in
  let '(b64, comment, openssh) :=
    if (List.length w <? 20)%nat then
      let body := los (trim_space (sol rest)) in
      match cut_blank body with
      | Some ([], _) | None => (body, "", sol body)
      | Some (x, y) => (x, trim_space (sol y), sol x)
      end
    else (w, "", pk_openssh p) in
  match b64_decode_l b64 with
  | None => inr (EWith ErrPublicKeyParse [AErr ext_err])
  | Some blob =>
      match e_ssh E (sol blob) with
      | None => inr (EWith ErrPublicKeyParse [AErr ext_err])
      | Some k =>
          let p := p <| pk_openssh := openssh |> <| pk_type := sk_type k |>
                     <| pk_comment := if String.eqb comment "" then pk_comment p else comment |>
                     <| pk_fp_md5 := sk_md5 k |> <| pk_fp := sk_sha256 k |> in
          if String.eqb (sk_type k) "ssh-rsa" then
            match sk_pem k with
            | Some pem => inl (p <| pk_payload := pem |>)
            | None => inr (EWith ErrPublicKeyParse [AErr ext_err])
            end
          else inr (EWith ErrPublicKeyTypeUnsupported [AStr (sk_type k)])
      end
  end.

(** [strconv.FormatUint(n, 16)] *)
Fixpoint hex_fuel (fuel : nat) (n : N) : list ascii :=
  match fuel with
  | O => []
  | S f => if (n <? 16)%N then [hex_digit n] else (hex_fuel f (n / 16) ++ [hex_digit (n mod 16)])%list
  end.
Definition format_hex (n : N) : string := sol (hex_fuel (S (N.size_nat n)) n).

Definition pgp_begin : string := "-----BEGIN PGP PUBLIC KEY BLOCK-----".
Definition pgp_end : string := "-----END PGP PUBLIC KEY BLOCK-----".
Definition pgp_algo (n : N) : option (string * string) :=
  if (n =? 1)%N || (n =? 2)%N || (n =? 3)%N then Some ("RSA", "rsa")
  else if (n =? 17)%N then Some ("DSA", "dsa")
  else if (n =? 18)%N then Some ("ECDH", "ecdh")
  else if (n =? 19)%N then Some ("ECDSA", "ecdsa")
  else None.
(** public_key.go:194-246 [parsePublicKeyPGP] *)
Definition parse_pgp (E : Env) (nd : Nd) (p : PublicKey) : PublicKey + goerr :=
  let p := p <| pk_payload := trim_space (pk_payload p) |> in
  if negb (has_prefix (pk_payload p) pgp_begin) then
    inr (EWith ErrPublicKeyParse [AErr (EFmt "BEGIN PGP PUBLIC KEY BLOCK not found")])
  else if negb (has_suffix (pk_payload p) pgp_end) then
    inr (EWith ErrPublicKeyParse [AErr (EFmt "END PGP PUBLIC KEY BLOCK not found")])
  else match e_pgp E (pk_payload p) with
       | None => inr (EWith ErrPublicKeyParse [AErr ext_err])
       | Some [ent] =>
           match pg_primary ent, pg_names ent with
           | None, _ => inr (EWith ErrPublicKeyParse [AErr (EFmt "PGP keyring entry has no public key")])
           | _, [] => inr (EWith ErrPublicKeyParse [AErr (EFmt "PGP keyring entry has no identities")])
           | Some k, n :: ns =>
               match pgp_algo (pg_algo k) with
               | None => inr (EWith ErrPublicKeyParse [AErr (EFmt "PGP keyring entry has unsupported public key algo")])
               | Some (algo, ty) =>
                   let user := nth (nd_pick nd mod List.length (n :: ns)) (n :: ns) n in
                   let comment := user ++ ", algo " ++ algo ++ ", created " ++ pg_created k in
                   inl (p <| pk_id := format_hex (pg_id k) |> <| pk_fp := hex_encode (pg_fp k) |> <| pk_type := ty |>
                          <| pk_comment := if String.eqb (pk_comment p) "" then comment
                                           else pk_comment p ++ " (" ++ comment ++ ")" |>)
               end
           end
       | Some _ => inr (EWith ErrPublicKeyParse [AErr (EFmt "PGP keyring does not contain one entry")])
       end.

(** public_key.go:248-275 [parsePublicKeyRSA] *)
Definition parse_rsa (E : Env) (p : PublicKey) : PublicKey + goerr :=
  if negb (String.eqb (pk_usage p) "ssh") then inr (EWith ErrPublicKeyUsagePayloadMismatch [AStr (pk_usage p)])
  else match e_pem E (trim_space (pk_payload p)) with
       | None => inr (EWith ErrPublicKeyBlockType [AStr ""])
       | Some (ty, bs) =>
           if negb (String.eqb ty "RSA PUBLIC KEY") then inr (EWith ErrPublicKeyBlockType [AStr ty])
           else match e_pkix E bs with
                | PkixErr => inr (EWith ErrPublicKeyParse [AErr ext_err])
                | PkixUnsupported => inr (EFmt "failed ssh.NewPublicKey")
                | PkixKey k =>
                    inl (p <| pk_type := sk_type k |> <| pk_fp_md5 := sk_md5 k |>
                           <| pk_fp := replace_all (sk_sha256 k) "SHA256:" "" |>
                           <| pk_openssh := trim_left_cut (sk_authorized k) (sk_type k ++ " ") |>)
                end
       end.

(** public_key.go:113-129 [parse] *)
Definition parse_pk (E : Env) (nd : Nd) (p : PublicKey) : PublicKey + goerr :=
  if negb (String.eqb (pk_usage p) "ssh" || String.eqb (pk_usage p) "gpg") then inr (EWith ErrPublicKeyInvalidUsage [AStr (pk_usage p)])
  else if String.eqb (pk_payload p) "" then inr (EStd ErrPublicKeyEmptyPayload)
  else if contains (pk_payload p) "RSA PUBLIC KEY" then parse_rsa E p
  else if has_prefix (pk_payload p) "ssh-rsa " then parse_openssh E p
  else if contains (pk_payload p) "BEGIN PGP PUBLIC KEY BLOCK" then parse_pgp E nd p
  else inr (EWith ErrPublicKeyUsageUnsupported [AStr (pk_usage p)]).

(** public_key.go:87-103 [NewPublicKey] *)
Definition new_public_key (E : Env) (nd : Nd) (r : Request) : PublicKey + goerr :=
  let k := rq_key r in
  match parse_pk E nd {| pk_id := random_string 40 (nd_id nd); pk_usage := rk_usage k; pk_type := ""; pk_fp := ""; pk_fp_md5 := "";
                         pk_comment := rk_comment k; pk_payload := rk_payload k; pk_openssh := ""; pk_expired := false;
                         pk_expired_at := 0; pk_created := nd_clock nd; pk_disabled := false; pk_disabled_at := 0 |} with
  | inl p => inl (if rk_disabled k then p <| pk_disabled := true |> <| pk_disabled_at := nd_clock nd |> else p)
  | inr e => inr e
  end.

(** public_key.go:106-111 [Disable] *)
Definition pk_disable (nd : Nd) (p : PublicKey) : PublicKey :=
  p <| pk_expired := true |> <| pk_expired_at := nd_clock nd |> <| pk_disabled := true |> <| pk_disabled_at := nd_clock nd |>.
