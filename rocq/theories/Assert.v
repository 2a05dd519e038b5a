(** mfa_token.go:295-428 [WebAuthnRequest] with its errors.  ([webauthn_request] in Mfa.v, which the
    database uses, has one error for all; C115_agrees relates the two.)  The request that is returned
    beside some of the errors is not modelled. *)
From Coq Require Import String Ascii ZArith NArith Lia Bool Arith List.
From stdpp Require Import gmap strings.
From RecordUpdate Require Import RecordSet.
From Verif Require Import GoStr Codec GoErr Types Env Mfa.
Import ListNotations.
Import RecordSetNotations.
Open Scope string_scope.

Definition wa (s : string) : goerr := EWith ErrWebAuthnRequest [AStr s].
(** mfa_token.go:297-303 and 510-514: the first name of the list that is no parameter *)
Fixpoint missing (params : gmap string string) (l : list string) : option goerr :=
  match l with
  | [] => None
  | k :: l => match params !! k with None => Some (wa (k ++ " not found")) | Some _ => missing params l end
  end.
(** mfa_token.go:517-528: one coordinate *)
Definition coordinate (params : gmap string string) (ltr : string) : Z + goerr :=
  match b64_decode (default "" (params !! ("curve_" ++ ltr ++ "coord"))) with
  | None => inr (EWith ErrWebAuthnRegisterPublicKeyCurveCoord [AStr ltr; AErr ext_err])
  | Some b => if (String.length b =? 32)%nat then inl (Z.of_N (be_val (los b)))
              else inr (EWith ErrWebAuthnRegisterPublicKeyCurveCoord [AStr ltr; AStr "not 32 bytes in length"])
  end.
(** mfa_token.go:509-538 [derivePublicKey] *)
Definition derive (params : gmap string string) : (Z * Z) + goerr :=
  match missing params ["curve_xcoord"; "curve_ycoord"; "key_algo"] with
  | Some e => inr e
  | None =>
      match coordinate params "x" with
      | inr e => inr e
      | inl x =>
          match coordinate params "y" with
          | inr e => inr e
          | inl y =>
              let a := default "" (params !! "key_algo") in
              if String.eqb a "es256" then inl (x, y) else inr (EWith ErrWebAuthnRegisterPublicKeyAlgorithmUnsupported [AStr a])
          end
      end
  end.
(** mfa_token.go:335-428, once the message is decoded: the client data, or the error *)
Definition judge (E : Env) (p : MfaToken) (key : Z * Z) (r : AuthRequest) : ClientData + goerr :=
  if negb (String.eqb (default "" (t_params p !! "u2f_id")) (wq_id r)) then inr (wa "key id mismatch")
  else if blank (wq_client r) then inr (wa "encoded client data is empty")
  else match b64_decode (wq_client r) with
  | None => inr (wa "failed to decode client data")
  | Some cbytes =>
  match e_client E cbytes with
  | None => inr (EWith ErrWebAuthnParse [AStr "failed to unmarshal client data"])
  | Some cd =>
  if blank (wq_sig r) then inr (wa "encoded signature is empty")
  else match b64_decode (wq_sig r) with
  | None => inr (wa "failed to decode signature")
  | Some sig =>
  if blank (wq_auth r) then inr (wa "encoded authenticator data is empty")
  else match b64_decode (wq_auth r) with
  | None => inr (wa "failed to decode auth data")
  | Some abytes =>
  match unpack_auth_data abytes with
  | None => inr (EWith ErrWebAuthnRequest [AErr (EFmt "auth data is less than 37 bytes long")])
  | Some ad =>
  if negb (String.eqb (cl_type cd) "webauthn.get") then inr (wa "client data type is not webauthn.get")
  else if cl_cross cd then inr (wa "client data cross origin true is not supported")
  else if negb (String.eqb (up_rpid ad) (default "" (t_params p !! "rp_id_hash"))) then inr (wa "rpIdHash mismatch")
  else if negb (default false (up_flags ad !! "UP")) then inr (wa "authData User Present bit is not set")
  else if negb (String.eqb (default "" (t_params p !! "key_algo")) "es256") then inr (wa "failed signature verification due to unsupported algo")
  else if e_ecdsa E key (abytes ++ e_sha256 E cbytes) sig then inl cd else inr (EWith ErrWebAuthnRequest [AErr ext_err])
  end end end end end.
(** mfa_token.go:295-332 *)
Definition web_authn_request (E : Env) (p : MfaToken) (payload : string) : MfaToken * (ClientData + goerr) :=
  if negb (String.eqb (t_type p) "u2f") then (p, inr (wa "unsupported token type"))
  else match missing (t_params p) ["u2f_id"; "key_type"] with
  | Some e => (p, inr e)
  | None =>
      if negb (String.eqb (default "" (t_params p !! "key_type")) "ec2") then (p, inr (wa "unsupported key type"))
      else match (match t_cache p with Some k => inl k | None => derive (t_params p) end) with
      | inr e => (p, inr e)
      | inl key =>
          let p := p <| t_cache := Some key |> in
          (p, match b64_decode payload with
              | None => inr (EWith ErrWebAuthnParse [AErr ext_err])
              | Some d => match e_authreq E d with
                          | None => inr (EWith ErrWebAuthnParse [AErr ext_err])
                          | Some r => judge E p key r
                          end
              end)
      end
  end.
