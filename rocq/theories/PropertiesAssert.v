(** Theorems about the errors of WebAuthnRequest (C115). *)
From Coq Require Import String Ascii ZArith NArith Lia Bool Arith List.
From stdpp Require Import gmap strings.
From RecordUpdate Require Import RecordSet.
From Verif Require Import GoStr Codec GoErr Types Env Mfa SpecMfa System SpecDb Assert SpecAssert AssertFacts.
From Verif Require Import Real PropertiesMfa.
Import ListNotations.
Import RecordSetNotations.
Open Scope string_scope.

(** C115 *)
(** A message is accepted when every check holds ... *)
Theorem C115_accepted E p s : (exists cd, snd (web_authn_request E p s) = inl cd) <-> Forall fst (assertion_checks E p s).
Proof. exact (verdict_all _ _ (request_verdict E p s)). Qed.
Print Assumptions C115_accepted.
(** ... and otherwise the error is that of the first check that does not. *)
Theorem C115_error E p s e : snd (web_authn_request E p s) = inr e <-> first_failure (assertion_checks E p s) e.
Proof. exact (verdict_err _ _ e (request_verdict E p s)). Qed.
Print Assumptions C115_error.
(** The client data returned is that of the message. *)
Theorem C115_client_data E p s cd : snd (web_authn_request E p s) = inl cd -> client_says E s cd.
Proof. exact (request_says E p s cd). Qed.
Print Assumptions C115_client_data.
(** The token keeps everything; a key that it did not have is filled in as soon as the checks before
    the message hold. *)
Theorem C115_token E p s : let p' := fst (web_authn_request E p s) in
  (p' = p \/ exists key, verification_key p key /\ p' = p <| t_cache := Some key |>) /\
  (Forall fst (token_checks p ++ key_checks p) <-> exists key, verification_key p key /\ Forall fst (token_checks p) /\ p' = p <| t_cache := Some key |>).
Proof. exact (request_token_iff E p s). Qed.
Print Assumptions C115_token.
(** The function the database calls is this one without its error. *)
Theorem C115_agrees E p s : webauthn_request E p s =
  (fst (web_authn_request E p s), match snd (web_authn_request E p s) with inl cd => Some (cl_challenge cd) | inr _ => None end).
Proof. rewrite request_agrees. now destruct (snd (web_authn_request E p s)). Qed.
Print Assumptions C115_agrees.
(** A token that registration made never fails for what it is: what can fail are its coordinates, which
    registration does not look at, and the message. *)
Theorem C115_registered E nd r t s e : snd (new_mfa_token E nd r) = ROk t -> rm_type (rq_mfa r) = "u2f" ->
  snd (web_authn_request E t s) = inr e ->
  e <> failed "unsupported token type" /\ e <> failed "u2f_id not found" /\ e <> failed "key_type not found" /\ e <> failed "unsupported key type" /\
  e <> failed "curve_xcoord not found" /\ e <> failed "curve_ycoord not found" /\ e <> failed "key_algo not found" /\
  (forall a, e <> EWith ErrWebAuthnRegisterPublicKeyAlgorithmUnsupported a) /\ e <> failed "failed signature verification due to unsupported algo".
Proof.
  intros N Ty H. apply C115_error in H. destruct (C38_new_token E nd r t N) as [[T|T] Te].
  { exfalso. pose proof (tt_type _ T). pose proof (tk_type _ _ _ Te). congruence. }
  apply (registered_errors E t s e); [|exact H]. destruct T as [T1 _ (id & T3 & _) _ T5 T6 _ _ (x & X) (y & Y) _].
  unfold has_param. eauto 10.
Qed.
Print Assumptions C115_registered.

(** Messages about one token, each of which fails at another check. *)
Definition ex_params : gmap string string :=
  <["u2f_id" := "cred"]> (<["key_type" := "ec2"]> (<["key_algo" := "es256"]> (<["rp_id_hash" := hex_encode (Examples.zeros 32)]>
  (<["curve_xcoord" := b64_encode (Examples.zeros 32)]> (<["curve_ycoord" := b64_encode (Examples.zeros 32)]> ∅))))).
Definition ex_token : MfaToken := a_token 6 <| t_type := "u2f" |> <| t_params := ex_params |>.
Definition qt : string := String "034" "".
Definition ex_message (id client sig auth : string) : string :=
  b64_encode ("{" ++ qt ++ "id" ++ qt ++ ":" ++ qt ++ id ++ qt ++ "," ++ qt ++ "client_data_encoded" ++ qt ++ ":" ++ qt ++ client ++ qt ++ ","
    ++ qt ++ "signature_encoded" ++ qt ++ ":" ++ qt ++ sig ++ qt ++ "," ++ qt ++ "auth_data_encoded" ++ qt ++ ":" ++ qt ++ auth ++ qt ++ "}").
Definition ex_client (type cross : string) : string := "{" ++ qt ++ "type" ++ qt ++ ":" ++ qt ++ type ++ qt ++ "," ++ qt ++ "challenge" ++ qt ++ ":" ++ qt ++ "chal" ++ qt ++ "," ++ qt ++ "crossOrigin" ++ qt ++ ":" ++ cross ++ "}".
Definition ex_auth (rp : string) (flags : ascii) : string := rp ++ String flags (Examples.zeros 4).
Definition ex_full (client auth : string) : string := ex_message "cred" (b64_encode client) (b64_encode (auth ++ e_sha256 real client)) (b64_encode auth).
Definition good_client : string := ex_client "webauthn.get" "false".
Definition good_auth : string := ex_auth (Examples.zeros 32) "001".
Example C115_ex : let e m := match snd (web_authn_request real ex_token m) with inr e => Some e | inl _ => None end in
  map e [ex_full good_client good_auth; "!"; b64_encode "["; ex_message "other" "" "" ""; ex_message "cred" " " "" ""; ex_message "cred" "!" "" "";
         ex_message "cred" (b64_encode "1") "" ""; ex_message "cred" (b64_encode good_client) "" ""; ex_message "cred" (b64_encode good_client) "!" "";
         ex_message "cred" (b64_encode good_client) (b64_encode "s") ""; ex_message "cred" (b64_encode good_client) (b64_encode "s") "!"; ex_full good_client "short";
         ex_full (ex_client "webauthn.create" "false") good_auth; ex_full (ex_client "webauthn.get" "true") good_auth;
         ex_full good_client (ex_auth (Examples.zeros 31 ++ "x") "001"); ex_full good_client (ex_auth (Examples.zeros 32) "254");
         ex_message "cred" (b64_encode good_client) (b64_encode "s") (b64_encode good_auth)]
  = [None; Some (EWith ErrWebAuthnParse [AErr ext_err]); Some (EWith ErrWebAuthnParse [AErr ext_err]); Some (failed "key id mismatch"); Some (failed "encoded client data is empty");
     Some (failed "failed to decode client data"); Some (EWith ErrWebAuthnParse [AStr "failed to unmarshal client data"]); Some (failed "encoded signature is empty");
     Some (failed "failed to decode signature"); Some (failed "encoded authenticator data is empty"); Some (failed "failed to decode auth data");
     Some (EWith ErrWebAuthnRequest [AErr (EFmt "auth data is less than 37 bytes long")]); Some (failed "client data type is not webauthn.get");
     Some (failed "client data cross origin true is not supported"); Some (failed "rpIdHash mismatch"); Some (failed "authData User Present bit is not set");
     Some (EWith ErrWebAuthnRequest [AErr ext_err])].
Proof. vm_compute. reflexivity. Qed.
Example C115_ex_tokens : let e f := match snd (web_authn_request real (f ex_token) (ex_full good_client good_auth)) with inr e => Some e | inl _ => None end in
  map e [set t_type (fun _ => "totp"); set t_params (delete "u2f_id"); set t_params (delete "key_type"); set t_params (<["key_type" := "rsa"]>);
         set t_params (delete "curve_xcoord"); set t_params (delete "curve_ycoord"); set t_params (delete "key_algo"); set t_params (<["curve_xcoord" := "!"]>);
         set t_params (<["curve_xcoord" := "AAAA"]>); set t_params (<["curve_ycoord" := "!"]>); set t_params (<["curve_ycoord" := "AAAA"]>);
         set t_params (<["key_algo" := "rs1"]>); fun p => set t_params (<["key_algo" := "rs1"]>) (set t_cache (fun _ => Some (0, 0)%Z) p);
         fun p => set t_params (delete "curve_xcoord") (set t_cache (fun _ => Some (0, 0)%Z) p)]
  = [Some (failed "unsupported token type"); Some (failed "u2f_id not found"); Some (failed "key_type not found"); Some (failed "unsupported key type");
     Some (failed "curve_xcoord not found"); Some (failed "curve_ycoord not found"); Some (failed "key_algo not found"); Some (coordinate_error "x" (AErr ext_err));
     Some (coordinate_error "x" (AStr "not 32 bytes in length")); Some (coordinate_error "y" (AErr ext_err)); Some (coordinate_error "y" (AStr "not 32 bytes in length"));
     Some (EWith ErrWebAuthnRegisterPublicKeyAlgorithmUnsupported [AStr "rs1"]); Some (failed "failed signature verification due to unsupported algo"); None].
Proof. vm_compute. reflexivity. Qed.
Example C115_ex_registered : exists t, snd (new_mfa_token Examples.toy (Examples.draws 9) u2f_req) = ROk t /\ rm_type (rq_mfa u2f_req) = "u2f" /\
  snd (web_authn_request Examples.toy t "!") = inr (EWith ErrWebAuthnParse [AErr ext_err]) /\ t_cache (fst (web_authn_request Examples.toy t "!")) = Some (0, 0)%Z.
Proof.
  exists (match snd (new_mfa_token Examples.toy (Examples.draws 9) u2f_req) with ROk t => t | _ => a_token 6 end). split; [vm_compute; reflexivity|]. vm_compute. auto.
Qed.
