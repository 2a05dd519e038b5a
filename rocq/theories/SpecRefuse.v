(** Vocabulary of the theorems about refusals (C116): for every call, what it checks, in order, and the
    error that goes with each check. *)
From Coq Require Import String Ascii ZArith NArith Lia Bool Arith List.
From stdpp Require Import gmap strings.
From Verif Require Import GoStr Codec GoErr Email SpecValue Types Env PublicKey Persist Fs Database System.
From Verif Require Import SpecDb SpecAuth SpecKey SpecMfa SpecWebAuthn SpecAssert.
Import ListNotations.
Open Scope string_scope.

Definition checks := list (Prop * goerr).
(** The same checks, their errors wrapped. *)
Definition wrapped (w : goerr -> goerr) (l : checks) : checks := map (fun c => (fst c, w (snd c))) l.
(** The same checks, made only in case [c]. *)
Definition if_so (c : Prop) (l : checks) : checks := map (fun x => ((c -> fst x : Prop), snd x)) l.
Definition answered (res : Outcome) : Prop := res = OOk \/ exists e, res = OErr e.

(** ** Accounts *)
Definition no_user : goerr := EStd ErrDatabaseUserNotFound.
Definition identity_checks (E : Env) (db : Database) (r : Request) : checks := [
  ((exists i u, resolves_username E db (ru_username (rq_user r)) i u), no_user);
  ((exists i u, resolves_address E db (ru_email (rq_user r)) i u), no_user);
  ((exists i u, identity_of E db r i u), EStd ErrDatabaseInvalidUser) ].
(** The account the request is about has property [P]. *)
Definition about (E : Env) (db : Database) (r : Request) (P : User -> Prop) : Prop := exists i u, identity_of E db r i u /\ P u.
(** The database, with content [c] by then, can be written. *)
Definition write_checks (nd : Nd) (fs : FS) (path : string) (c : Content) : checks :=
  [(can_write nd fs path c, EWith ErrDatabaseCommit [AStr path; AErr ext_err])].
Definition password_checks (E : Env) (nd : Nd) (s : string) : checks := [
  (trim_space s <> "", EStd ErrPasswordEmpty);
  ((exists h, e_bcrypt E (nd_salt nd) (trim_space s) 10 = Some h), EWith ErrPasswordGenerate [AErr ext_err]) ].
Definition add_user_checks (E : Env) (nd : Nd) (db : Database) (fs : FS) (r : Request) (c : Content) : checks :=
  let q := rq_user r in let po := db_policy db in let name := lower E (ru_username q) in
  (wrapped (fun e => EWith ErrAddUser [AStr (ru_username q); AErr e])
    ([(within (up_min (po_user po)) (zlen (ru_username q)) (up_max (po_user po)), EStd ErrUserPolicyCompliance);
      (within (pp_min (po_password po)) (zlen (ru_password q)) (pp_max (po_password po)), EStd ErrPasswordPolicyCompliance)]
     ++ password_checks E nd (ru_password q) ++
     [((exists d, email_grammar (ru_email q) d), EStd ErrEmailAddressInvalid);
      (Forall (fun s => trim_space s <> "") (ru_roles q), EStd ErrRoleEmpty);
      (name_parses (ru_full_name q), EWith ErrParseNameFailed [AStr (trim_space (ru_full_name q))]);
      (ru_username q <> "", EStd ErrUsernameEmpty)]) ++
   [((forall i u, account db i u -> ~ has_username E u (ru_username q)), EWith ErrAddUser [AStr name; AStr "username already in use"]);
    ((forall i u, account db i u -> ~ has_address E u (ru_email q)), EWith ErrAddUser [AStr (lower E (ru_email q)); AStr "email address already in use"])] ++
   wrapped (fun e => EWith ErrAddUser [AStr name; AErr e]) (write_checks nd fs (db_path db) c))%list.
Definition change_password_checks (E : Env) (nd : Nd) (db : Database) (fs : FS) (r : Request) (c : Content) : checks :=
  let q := rq_user r in let po := po_password (db_policy db) in
  wrapped (fun e => EWith ErrChangeUserPassword [AErr e])
    (identity_checks E db r ++
     [(within (pp_min po) (zlen (ru_password q)) (pp_max po), EStd ErrPasswordPolicyCompliance);
      (about E db r (fun u => u_passwords u <> []), EStd ErrUserPasswordNotFound);
      (about E db r (fun u => accepts E u (ru_old_password q)), EStd ErrUserPasswordInvalid)] ++
     password_checks E nd (ru_password q) ++ write_checks nd fs (db_path db) c)%list.
(** ** Logging in *)
Definition authenticate_checks (E : Env) (db : Database) (r : Request) : checks :=
  let q := rq_user r in let m := rw_request (rq_webauthn r) in let login := resolves_login E db (ru_username q) in
  let w := wrapped (fun e => EWith ErrAuthFailed [AErr e]) in
  (w ([((exists i u, login i u), no_user)] ++
      if_so (ru_password q <> "")
       [((exists i u, login i u /\ u_passwords u <> []), EStd ErrUserPasswordNotFound);
        ((exists i u, login i u /\ accepts E u (ru_password q)), EStd ErrUserPasswordInvalid)]) ++
   [(ru_password q <> "" \/ m <> "", EWith ErrAuthFailed [AStr "malformed auth request"])] ++
   w (if_so (ru_password q = "")
       [((exists d, b64_decode m = Some d), EWith ErrWebAuthnParse [AErr ext_err]);
        ((exists a, assertion E r a), EWith ErrWebAuthnParse [AErr ext_err]);
        ((exists i u a p, login i u /\ assertion E r a /\ first_candidate u (wq_id a) p /\ proves E r a p), EStd ErrWebAuthnVerifyRequest)]))%list.
Definition lookup_checks (E : Env) (db : Database) (r : Request) : checks :=
  let s := rk_payload (rq_key r) in
  [(s <> "", EStd ErrLookupAPIKeyPayloadEmpty); ((72 <= String.length s)%nat, EStd ErrLookupAPIKeyMalformedPayload);
   ((exists i u, account db i u /\ key_for E u s), EStd ErrLookupAPIKeyFailed)].
(** ** Public keys *)
Definition contains_text (s p : string) : Prop := exists a b, s = a ++ p ++ b.
Definition rsa_payload (s : string) : Prop := contains_text s "RSA PUBLIC KEY".
Definition ssh_payload (s : string) : Prop := ~ rsa_payload s /\ exists b, s = "ssh-rsa " ++ b.
Definition pgp_payload (s : string) : Prop := ~ rsa_payload s /\ ~ (exists b, s = "ssh-rsa " ++ b) /\ contains_text s "BEGIN PGP PUBLIC KEY BLOCK".
(** The characters before the first space or tab. *)
Fixpoint until_blank (l : list ascii) : list ascii :=
  match l with [] => [] | a :: t => if Ascii.eqb a " " || Ascii.eqb a "009" then [] else a :: until_blank t end.
(** The word after the word "ssh-rsa". *)
Definition ssh_word (s : string) : string := sol (until_blank (los (trim_space (sol (skipn 7 (los (trim_space s))))))).
Definition ssh_blob (E : Env) (s : string) (k : SshKey) : Prop := exists b, b64_decode (ssh_word s) = Some b /\ e_ssh E b = Some k.
Definition ssh_type (E : Env) (s : string) : string :=
  match b64_decode (ssh_word s) with Some b => match e_ssh E b with Some k => sk_type k | None => "" end | None => "" end.
Definition block_type (E : Env) (s : string) : string := match e_pem E (trim_space s) with Some (ty, _) => ty | None => "" end.
Definition unparsed (e : goerr) : goerr := EWith ErrPublicKeyParse [AErr e].
Definition key_payload_checks (E : Env) (usage s : string) : checks :=
  ([(usage = "ssh" \/ usage = "gpg", EWith ErrPublicKeyInvalidUsage [AStr usage]);
    (s <> "", EStd ErrPublicKeyEmptyPayload);
    (rsa_payload s \/ ssh_payload s \/ pgp_payload s, EWith ErrPublicKeyUsageUnsupported [AStr usage])] ++
   if_so (rsa_payload s)
    [(usage = "ssh", EWith ErrPublicKeyUsagePayloadMismatch [AStr usage]);
     ((exists b, e_pem E (trim_space s) = Some ("RSA PUBLIC KEY", b)), EWith ErrPublicKeyBlockType [AStr (block_type E s)]);
     ((exists b, e_pem E (trim_space s) = Some ("RSA PUBLIC KEY", b) /\ e_pkix E b <> PkixErr), unparsed ext_err);
     ((exists b k, e_pem E (trim_space s) = Some ("RSA PUBLIC KEY", b) /\ e_pkix E b = PkixKey k), EFmt "failed ssh.NewPublicKey")] ++
   if_so (ssh_payload s)
    [((exists b, b64_decode (ssh_word s) = Some b), unparsed ext_err);
     ((exists k, ssh_blob E s k), unparsed ext_err);
     ((exists k, ssh_blob E s k /\ sk_type k = "ssh-rsa"), EWith ErrPublicKeyTypeUnsupported [AStr (ssh_type E s)]);
     ((exists k pem, ssh_blob E s k /\ sk_pem k = Some pem), unparsed ext_err)] ++
   if_so (pgp_payload s)
    [((exists b, trim_space s = ("-----BEGIN PGP PUBLIC KEY BLOCK-----" ++ b)%string), unparsed (EFmt "BEGIN PGP PUBLIC KEY BLOCK not found"));
     ((exists b, trim_space s = (b ++ "-----END PGP PUBLIC KEY BLOCK-----")%string), unparsed (EFmt "END PGP PUBLIC KEY BLOCK not found"));
     ((exists l, e_pgp E (trim_space s) = Some l), unparsed ext_err);
     ((exists x, e_pgp E (trim_space s) = Some [x]), unparsed (EFmt "PGP keyring does not contain one entry"));
     ((exists x k, e_pgp E (trim_space s) = Some [x] /\ pg_primary x = Some k), unparsed (EFmt "PGP keyring entry has no public key"));
     ((exists x, e_pgp E (trim_space s) = Some [x] /\ pg_names x <> []), unparsed (EFmt "PGP keyring entry has no identities"));
     ((exists x k, e_pgp E (trim_space s) = Some [x] /\ pg_primary x = Some k /\ In (pg_algo k) [1; 2; 3; 17; 18; 19]%N),
      unparsed (EFmt "PGP keyring entry has unsupported public key algo"))])%list.
(** The type and the fingerprint of the key that a payload carries. *)
Definition algorithm_name (n : N) (ty : string) : Prop :=
  (In n [1; 2; 3]%N /\ ty = "rsa") \/ (n = 17%N /\ ty = "dsa") \/ (n = 18%N /\ ty = "ecdh") \/ (n = 19%N /\ ty = "ecdsa").
Definition key_mark (E : Env) (s ty fp : string) : Prop :=
  (rsa_payload s /\ exists b k, e_pem E (trim_space s) = Some ("RSA PUBLIC KEY", b) /\ e_pkix E b = PkixKey k /\
     ty = sk_type k /\ fp = replace_all (sk_sha256 k) "SHA256:" "") \/
  (ssh_payload s /\ exists k, ssh_blob E s k /\ ty = sk_type k /\ fp = sk_sha256 k) \/
  (pgp_payload s /\ exists x k, e_pgp E (trim_space s) = Some [x] /\ pg_primary x = Some k /\
     algorithm_name (pg_algo k) ty /\ hex_of (los (pg_fp k)) (los fp)).
Definition add_public_key_checks (E : Env) (nd : Nd) (db : Database) (fs : FS) (r : Request) (c : Content) : checks :=
  let usage := rk_usage (rq_key r) in let w := wrapped (fun e => EWith ErrAddPublicKey [AStr usage; AErr e]) in
  (w (identity_checks E db r ++ key_payload_checks E usage (rk_payload (rq_key r))) ++
   [(about E db r (fun u => forall ty fp, key_mark E (rk_payload (rq_key r)) ty fp -> ~ holds_fp u ty fp),
     EWith ErrAddPublicKey [AStr usage; AStr "already exists"])] ++
   w (write_checks nd fs (db_path db) c))%list.
(** ** API keys *)
Definition add_api_key_checks (E : Env) (nd : Nd) (db : Database) (fs : FS) (r : Request) (c : Content) : checks :=
  let usage := rk_usage (rq_key r) in let w := wrapped (fun e => EWith ErrAddAPIKey [AStr usage; AErr e]) in
  (w (identity_checks E db r) ++
   [((exists s h, drawn nd s /\ e_bcrypt E (nd_salt nd) s 10 = Some h), EWith ErrPasswordGenerate [AErr ext_err])] ++
   w ([((exists s h, drawn nd s /\ e_bcrypt E (nd_salt nd) s 10 = Some h /\ h <> ""), EStd ErrAPIKeyPayloadEmpty);
       (usage <> "", EStd ErrAPIKeyUsageEmpty);
       (usage = "api", EWith ErrAPIKeyUsageUnsupported [AStr usage]);
       (rk_comment (rq_key r) <> "", EStd ErrAPIKeyCommentEmpty)] ++
      write_checks nd fs (db_path db) c))%list.
(** ** Second factors *)
Definition totp_digits (r : Request) : Z := if (rm_digits (rq_mfa r) =? 0)%Z then 6%Z else rm_digits (rq_mfa r).
Definition bad_code (s : string) : goerr := EWith ErrMfaTokenInvalidPasscode [AStr s].
Definition totp_checks (E : Env) (nd : Nd) (r : Request) : checks :=
  let m := rq_mfa r in let code := trim_space (rm_passcode m) in
  [((exists a, chosen_algorithm E r a), EWith ErrMfaTokenInvalidAlgorithm [AStr (lower E (rm_algorithm m))]);
   (within 30 (rm_period m) 300, EWith ErrMfaTokenInvalidPeriod [AInt (rm_period m)]);
   (within 4 (totp_digits r) 8, EWith ErrMfaTokenInvalidDigits [AInt (totp_digits r)]);
   (code <> "", bad_code "empty");
   (within 4 (zlen code) 8, bad_code "not 4-8 characters long");
   (zlen code = totp_digits r, bad_code "digits length mismatch");
   ((exists a T T', chosen_algorithm E r a /\ in_period (nd_clock nd) (rm_period m) T /\ (T - 2 <= T' <= T)%Z /\
       code_of E a (rm_secret m) (Z.to_nat (totp_digits r)) T' code), bad_code "failed")].
(** What a registration message says, and the parts of it. *)
Definition reg_of (E : Env) (r : Request) : option RegisterRequest :=
  match b64_decode (rw_register (rq_webauthn r)) with Some d => e_register E d | None => None end.
Definition transports : list string := ["usb"; "nfc"; "ble"; "internal"].
Definition transport_error (l : list string) : goerr :=
  match find (fun t => negb (existsb (String.eqb t) transports)) l with
  | None | Some "" => EStd ErrWebAuthnEmptyRegisterTransport
  | Some t => EWith ErrWebAuthnInvalidRegisterTransport [AStr t]
  end.
Definition of_reg {A} (E : Env) (r : Request) (d : A) (f : RegisterRequest -> A) : A := match reg_of E r with Some q => f q | None => d end.
Definition auth_of (q : RegisterRequest) (a : AuthData) : Prop := exists o, wr_att q = Some o /\ ao_auth o = Some a.
Definition key_of (q : RegisterRequest) (pk : gmap string Jv) : Prop := exists a c, auth_of q a /\ ad_cred a = Some c /\ cd_pubkey c = Some pk.
Definition u2f_checks (E : Env) (r : Request) : checks :=
  let w := rq_webauthn r in let has (P : RegisterRequest -> Prop) := exists q, reg_of E r = Some q /\ P q in
  [(rw_register w <> "", EStd ErrWebAuthnRegisterNotFound);
   (rw_challenge w <> "", EStd ErrWebAuthnChallengeNotFound);
   ((exists d, b64_decode (rw_register w) = Some d), EWith ErrWebAuthnParse [AErr ext_err]);
   (has (fun _ => True), EWith ErrWebAuthnParse [AErr ext_err]);
   (has (fun q => wr_id q <> ""), EStd ErrWebAuthnEmptyRegisterID);
   (has (fun q => wr_type q <> ""), EStd ErrWebAuthnEmptyRegisterKeyType);
   (has (fun q => wr_type q = "public-key"), EWith ErrWebAuthnInvalidRegisterKeyType [AStr (of_reg E r "" wr_type)]);
   (has (fun q => Forall (fun t => In t transports) (wr_transports q)), transport_error (of_reg E r [] wr_transports));
   (has (fun q => wr_att q <> None), EStd ErrWebAuthnRegisterAttestationObjectNotFound);
   (has (fun q => exists a, auth_of q a), EStd ErrWebAuthnRegisterAuthDataNotFound);
   (has (fun q => exists a, auth_of q a /\ ad_rpid a <> ""), EStd ErrWebAuthnRegisterEmptyRelyingPartyID);
   (has (fun q => exists a, auth_of q a /\ ad_flags a <> None), EStd ErrWebAuthnRegisterEmptyFlags);
   (has (fun q => exists a, auth_of q a /\ ad_cred a <> None), EStd ErrWebAuthnRegisterCredentialDataNotFound);
   (has (fun q => exists pk, key_of q pk), EStd ErrWebAuthnRegisterPublicKeyNotFound);
   (has (fun q => exists pk, key_of q pk /\ pk !! "key_type" <> None), EStd ErrWebAuthnRegisterPublicKeyTypeNotFound);
   (has (fun q => exists pk, key_of q pk /\ int_field pk "key_type" 2), EWith ErrWebAuthnRegisterPublicKeyUnsupported [AOther]);
   (has (fun q => exists pk, key_of q pk /\ pk !! "algorithm" <> None), EStd ErrWebAuthnRegisterPublicKeyAlgorithmNotFound);
   (has (fun q => exists pk, key_of q pk /\ int_field pk "algorithm" (-7)), EWith ErrWebAuthnRegisterPublicKeyAlgorithmUnsupported [AOther]);
   (has (fun q => exists pk, key_of q pk /\ (pk !! "curve_type" = None \/ int_field pk "curve_type" 1)),
    EWith ErrWebAuthnRegisterPublicKeyCurveUnsupported [AOther])].
Definition token_secret (r : Request) : string := if String.eqb (rm_type (rq_mfa r)) "totp" then rm_secret (rq_mfa r) else rw_challenge (rq_webauthn r).
(** The first token of [l] that has the secret or the comment has property [P]. *)
Definition first_clash (secret comment : string) (l : list MfaToken) (P : MfaToken -> Prop) : Prop :=
  exists l1 k l2, l = (l1 ++ k :: l2)%list /\ Forall (fun t => t_secret t <> secret /\ t_comment t <> comment) l1 /\ P k.
Definition add_mfa_token_checks (E : Env) (nd : Nd) (db : Database) (fs : FS) (r : Request) (c : Content) : checks :=
  let ty := rm_type (rq_mfa r) in let s := token_secret r in let cm := rm_comment (rq_mfa r) in
  wrapped (fun e => EWith ErrAddMfaToken [AErr e])
   (identity_checks E db r ++
    [(ty <> "", EStd ErrMfaTokenTypeEmpty); (ty = "totp" \/ ty = "u2f", EWith ErrMfaTokenInvalidType [AStr ty])] ++
    if_so (ty = "totp") (totp_checks E nd r) ++ if_so (ty = "u2f") (u2f_checks E r) ++
    [(about E db r (fun u => ~ first_clash s cm (u_mfa u) (fun t => t_secret t = s)), EStd ErrDuplicateMfaTokenSecret);
     (about E db r (fun u => ~ first_clash s cm (u_mfa u) (fun t => t_comment t = cm)), EStd ErrDuplicateMfaTokenComment)] ++
    write_checks nd fs (db_path db) c)%list.

(** ** All calls; [c] is the content the call would write *)
Definition refusals (E : Env) (nd : Nd) (op : Op) (db : Database) (fs : FS) (r : Request) (c : Content) : checks :=
  let usage := rk_usage (rq_key r) in let id := rk_id (rq_key r) in let tid := rm_id (rq_mfa r) in
  let user w := wrapped w (identity_checks E db r) in
  match op with
  | OpAddUser => add_user_checks E nd db fs r c
  | OpGetUsers | OpGetUser => user (fun e => EWith ErrGetUsers [AErr e])
  | OpDeleteUser => (user (fun e => EWith ErrDeleteUser [AStr (rq_query_id r); AErr e]) ++
                     [(False, EWith ErrDeleteUser [AStr (rq_query_id r); AStr "user delete operation is not supported"])])%list
  | OpAuthenticate => authenticate_checks E db r
  | OpSave => write_checks nd fs (db_path db) c
  | OpCopy fp => write_checks nd fs fp c
  | OpAddPublicKey => add_public_key_checks E nd db fs r c
  | OpGetPublicKeys => user (fun e => EWith ErrGetPublicKeys [AStr usage; AErr e])
  | OpDeletePublicKey => (user (fun e => EWith ErrDeletePublicKey [AStr id; AErr e]) ++
      [(about E db r (fun u => exists k, In k (u_pubkeys u) /\ pk_id k = id), EWith ErrDeletePublicKey [AStr id; AStr "not found"])] ++
      wrapped (fun e => EWith ErrDeletePublicKey [AStr usage; AErr e]) (write_checks nd fs (db_path db) c))%list
  | OpAddAPIKey => add_api_key_checks E nd db fs r c
  | OpDeleteAPIKey => (user (fun e => EWith ErrDeleteAPIKey [AStr id; AErr e]) ++
      [(about E db r (fun u => exists k, In k (u_apikeys u) /\ ak_id k = id), EWith ErrDeleteAPIKey [AStr id; AStr "not found"])] ++
      wrapped (fun e => EWith ErrDeleteAPIKey [AStr usage; AErr e]) (write_checks nd fs (db_path db) c))%list
  | OpGetAPIKeys => user (fun e => EWith ErrGetAPIKeys [AStr usage; AErr e])
  | OpChangePassword => change_password_checks E nd db fs r c
  | OpIdentify | OpUserCount => []
  | OpLookupAPIKey => lookup_checks E db r
  | OpAddMfaToken => add_mfa_token_checks E nd db fs r c
  | OpGetMfaTokens => user (fun e => EWith ErrGetMfaTokens [AErr e])
  | OpDeleteMfaToken => (user (fun e => EWith ErrDeleteMfaToken [AStr tid; AErr e]) ++
      [(about E db r (fun u => exists k, In k (u_mfa u) /\ t_id k = tid), EWith ErrDeleteMfaToken [AStr tid; AStr "not found"])] ++
      wrapped (fun e => EWith ErrDeleteMfaToken [AStr tid; AErr e]) (write_checks nd fs (db_path db) c))%list
  end.
