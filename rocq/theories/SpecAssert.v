(** Vocabulary of the theorems about the errors of WebAuthnRequest (C115): the checks in the order in
    which they are made, each stated by itself. *)
From Coq Require Import String Ascii ZArith NArith Lia Bool Arith List.
From stdpp Require Import gmap strings.
From Verif Require Import GoStr Codec GoErr Types Env SpecMfa.
Import ListNotations.
Open Scope string_scope.

(** Of the checks in order, [e] is the error of the first that fails. *)
Definition first_failure (checks : list (Prop * goerr)) (e : goerr) : Prop :=
  exists l1 c l2, checks = (l1 ++ (c, e) :: l2)%list /\ Forall fst l1 /\ ~ c.
Definition failed (s : string) : goerr := EWith ErrWebAuthnRequest [AStr s].
Definition coordinate_error (ltr : string) (a : arg) : goerr := EWith ErrWebAuthnRegisterPublicKeyCurveCoord [AStr ltr; a].
Definition has_param (p : MfaToken) (k : string) : Prop := exists v, param p k v.
(** The parameter is base64. *)
Definition decodes (p : MfaToken) (k : string) (b : string) : Prop := exists v, param p k v /\ b64_decode v = Some b.
(** The parameters are checked unless the token has a key already. *)
Definition without_key (p : MfaToken) (c : Prop) : Prop := t_cache p = None -> c.
Definition key_checks (p : MfaToken) : list (Prop * goerr) := [
  (without_key p (has_param p "curve_xcoord"), failed "curve_xcoord not found");
  (without_key p (has_param p "curve_ycoord"), failed "curve_ycoord not found");
  (without_key p (has_param p "key_algo"), failed "key_algo not found");
  (without_key p (exists b, decodes p "curve_xcoord" b), coordinate_error "x" (AErr ext_err));
  (without_key p (exists b, decodes p "curve_xcoord" b /\ String.length b = 32%nat), coordinate_error "x" (AStr "not 32 bytes in length"));
  (without_key p (exists b, decodes p "curve_ycoord" b), coordinate_error "y" (AErr ext_err));
  (without_key p (exists b, decodes p "curve_ycoord" b /\ String.length b = 32%nat), coordinate_error "y" (AStr "not 32 bytes in length"));
  (without_key p (param p "key_algo" "es256"),
   EWith ErrWebAuthnRegisterPublicKeyAlgorithmUnsupported [AStr (default "" (t_params p !! "key_algo"))]) ].
(** The key signatures are checked with. *)
Definition verification_key (p : MfaToken) (key : Z * Z) : Prop := t_cache p = Some key \/ t_cache p = None /\ p256_key p key.
(** What the message says. *)
Definition says (E : Env) (payload : string) (q : AuthRequest) : Prop := exists d, b64_decode payload = Some d /\ e_authreq E d = Some q.
Definition client_text (E : Env) (payload : string) (client : string) : Prop := exists q, says E payload q /\ b64_decode (wq_client q) = Some client.
Definition signature (E : Env) (payload : string) (sig : string) : Prop := exists q, says E payload q /\ b64_decode (wq_sig q) = Some sig.
Definition auth_bytes (E : Env) (payload : string) (auth : string) : Prop := exists q, says E payload q /\ b64_decode (wq_auth q) = Some auth.
Definition client_says (E : Env) (payload : string) (cd : ClientData) : Prop := exists client, client_text E payload client /\ e_client E client = Some cd.
(** Authenticator data: 32 bytes, one byte of flags, four of a counter, and a rest. *)
Definition auth_says (E : Env) (payload : string) (rp : list ascii) (flags : ascii) : Prop :=
  exists auth counter rest, auth_bytes E payload auth /\ los auth = (rp ++ [flags] ++ counter ++ rest)%list /\ List.length rp = 32%nat /\ List.length counter = 4%nat.
Definition message_checks (E : Env) (p : MfaToken) (payload : string) : list (Prop * goerr) := [
  ((exists d, b64_decode payload = Some d), EWith ErrWebAuthnParse [AErr ext_err]);
  ((exists q, says E payload q), EWith ErrWebAuthnParse [AErr ext_err]);
  ((exists q, says E payload q /\ param p "u2f_id" (wq_id q)), failed "key id mismatch");
  ((exists q, says E payload q /\ trim_space (wq_client q) <> ""), failed "encoded client data is empty");
  ((exists client, client_text E payload client), failed "failed to decode client data");
  ((exists cd, client_says E payload cd), EWith ErrWebAuthnParse [AStr "failed to unmarshal client data"]);
  ((exists q, says E payload q /\ trim_space (wq_sig q) <> ""), failed "encoded signature is empty");
  ((exists sig, signature E payload sig), failed "failed to decode signature");
  ((exists q, says E payload q /\ trim_space (wq_auth q) <> ""), failed "encoded authenticator data is empty");
  ((exists auth, auth_bytes E payload auth), failed "failed to decode auth data");
  ((exists rp flags, auth_says E payload rp flags), EWith ErrWebAuthnRequest [AErr (EFmt "auth data is less than 37 bytes long")]);
  ((exists cd, client_says E payload cd /\ cl_type cd = "webauthn.get"), failed "client data type is not webauthn.get");
  ((exists cd, client_says E payload cd /\ cl_cross cd = false), failed "client data cross origin true is not supported");
  ((exists rp flags h, auth_says E payload rp flags /\ param p "rp_id_hash" h /\ hex_of rp (los h)), failed "rpIdHash mismatch");
  ((exists rp flags, auth_says E payload rp flags /\ bit flags 0 = true), failed "authData User Present bit is not set");
  (param p "key_algo" "es256", failed "failed signature verification due to unsupported algo");
  ((exists key auth client sig, verification_key p key /\ auth_bytes E payload auth /\ client_text E payload client /\ signature E payload sig /\
      e_ecdsa E key (auth ++ e_sha256 E client) sig = true), EWith ErrWebAuthnRequest [AErr ext_err]) ].
Definition token_checks (p : MfaToken) : list (Prop * goerr) := [
  (t_type p = "u2f", failed "unsupported token type");
  (has_param p "u2f_id", failed "u2f_id not found");
  (has_param p "key_type", failed "key_type not found");
  (param p "key_type" "ec2", failed "unsupported key type") ].
Definition assertion_checks (E : Env) (p : MfaToken) (payload : string) : list (Prop * goerr) :=
  (token_checks p ++ key_checks p ++ message_checks E p payload)%list.
