(** The tables of the repository's own tests (the *_test.go files in /repo), replayed in the model.

    These are tests of the transcription and not proofs of anything: each example states what the Go
    test expects of its inputs, and the kernel computes that the model answers the same.  Errors are
    compared as values, which is finer than the Go tests' comparison of texts; the texts of errors
    from other libraries are not modelled ([ext_err]).  The environment is [real]; random passwords
    of the tests are fixed texts here, and the clock does not move between two steps of a case.
    Where an example compares a [.._run], the long computation is done once, when that definition is
    compiled, and the definition is its value: coqchk, which has no virtual machine, would take many
    minutes to repeat the hashing. *)
From Coq Require Import String Ascii ZArith NArith Lia Bool Arith List.
From stdpp Require Import gmap strings.
From RecordUpdate Require Import RecordSet.
From Verif Require Import GoStr Utf8 Codec GoErr GoTime Types Role Name Email Env Random Password ApiKey PublicKey Mfa User Method CreditCard Qr.
From Verif Require Import Hash WebAuthn Persist Fs Database Examples Real.
Import ListNotations.
Import RecordSetNotations.
Open Scope string_scope.

(** ** role_test.go, name_test.go, email_test.go *)
Definition role_view (r : Role + goerr) : (string * string * string) + goerr :=
  match r with inl r => inl (ro_name r, ro_org r, role_string r) | inr e => inr e end.
Example test_new_role : map (fun s => role_view (new_role s)) ["superadmin"; "internal/superadmin"; ""] =
  [inl ("superadmin", "", "superadmin"); inl ("superadmin", "internal", "internal/superadmin"); inr (EStd ErrRoleEmpty)].
Proof. vm_compute. reflexivity. Qed.
Definition name_view (n : Name + goerr) : string + goerr := match n with inl n => inl (full_name n) | inr e => inr e end.
Example test_new_name : map (fun s => name_view (parse_name s)) ["John Smith"; "foobar"] = [inl "Smith, John"; inr (EWith ErrParseNameFailed [AStr "foobar"])].
Proof. vm_compute. reflexivity. Qed.
Definition email_view (n : EmailAddress + goerr) : (string * string) + goerr := match n with inl n => inl (em_address n, em_domain n) | inr e => inr e end.
Example test_new_email : map (fun s => email_view (new_email s)) ["jsmith@gmail.com"; "gmail.com"] =
  [inl ("jsmith@gmail.com", "gmail.com"); inr (EStd ErrEmailAddressInvalid)].
Proof. vm_compute. reflexivity. Qed.

(** ** password_test.go, with a bcrypt that refuses the costs the library refuses *)
Definition costs : Env := {|
  e_lr := e_lr real; e_bcrypt := fun salt s c => if ((c <? 4) || (31 <? c))%Z then None else e_bcrypt real salt s c; e_bcmp := e_bcmp real;
  e_hmac := e_hmac real; e_sha256 := e_sha256 real; e_ecdsa := e_ecdsa real; e_ssh := e_ssh real; e_pem := e_pem real; e_pkix := e_pkix real;
  e_pgp := e_pgp real; e_register := e_register real; e_authreq := e_authreq real; e_client := e_client real; e_home := e_home real |}.
Definition pw_view (try : string) (p : Password + goerr) : (string * string * Z * bool) + goerr :=
  match p with inl p => inl (pw_purpose p, pw_algorithm p, pw_cost p, pw_match costs p try) | inr e => inr e end.
Example test_new_password :
  [pw_view "foobar" (new_password costs (draws 0) "foobar");
   pw_view "foobar2" (new_password_opt costs (draws 0) "foobar" "generic" "bcrypt" 10);
   pw_view "foobar" (new_password_opt costs (draws 0) "foobar" "generic" "bcrypt" 10000);
   pw_view "" (new_password_opt costs (draws 0) "foobar" "" "" 0);
   pw_view "" (new_password_opt costs (draws 0) "foobar" "" "foobar" 0);
   pw_view "" (new_password_opt costs (draws 0) " " "" "" 0)] =
  [inl ("generic", "bcrypt", 10%Z, true); inl ("generic", "bcrypt", 10%Z, false); inr (EWith ErrPasswordGenerate [AErr ext_err]);
   inr (EStd ErrPasswordEmptyAlgorithm); inr (EWith ErrPasswordUnsupportedAlgorithm [AStr "foobar"]); inr (EStd ErrPasswordEmpty)].
Proof. vm_compute. reflexivity. Qed.

(** ** api_key_test.go *)
Definition key_req (usage comment payload : string) (disabled : bool) : Request :=
  new_request <| rq_key := {| rk_id := ""; rk_prefix := ""; rk_comment := comment; rk_usage := usage; rk_payload := payload; rk_disabled := disabled |} |>.
Definition ak_view (k : APIKey + goerr) : (string * string * bool) + goerr :=
  match k with inl k => inl (ak_usage k, ak_comment k, ak_disabled k) | inr e => inr e end.
Example test_new_api_key : map (fun r => ak_view (new_api_key (draws 0) r))
    [key_req "api" "jsmith-api-key" "h" false; key_req "api" "jsmith-api-key" "h" true; key_req "api" "jsmith-api-key" "" true;
     key_req "" "jsmith-api-key" "h" true; key_req "foo" "jsmith-api-key" "h" true; key_req "api" "" "h" true] =
  [inl ("api", "jsmith-api-key", false); inl ("api", "jsmith-api-key", true); inr (EStd ErrAPIKeyPayloadEmpty);
   inr (EStd ErrAPIKeyUsageEmpty); inr (EWith ErrAPIKeyUsageUnsupported [AStr "foo"]); inr (EStd ErrAPIKeyCommentEmpty)].
Proof. vm_compute. reflexivity. Qed.

(** ** credit_card_test.go *)
Definition citi : Issuer := {| is_name := "Citigroup"; is_aliases := ["citi"; "citibank"] |}.
Definition card : Card unit := {| cc_issuer := None; cc_assoc := None; cc_rest := tt |}.
Example test_credit_card : let low := lower real in
  snd (add_issuer issuers low card "citigroup") <> None /\ snd (add_issuer (issuers ++ [citi]) low card "citigroup") = None /\
  snd (add_issuer (issuers ++ [citi]) low card "citibank") = None.
Proof. vm_compute. repeat split. discriminate. Qed.

(** ** pkg/qr/qr_test.go *)
Definition qr_code (type label secret algorithm issuer : string) (period digits counter : Z) : Code := {|
  qr_type := type; qr_secret := secret; qr_algorithm := algorithm; qr_label := label; qr_issuer := issuer; qr_period := period; qr_digits := digits;
  qr_counter := counter; qr_text := ""; qr_encoded := "" |}.
Definition qr_view (c : Code) : (string * string) + string :=
  match qr_build (lower real) c with (c, None) => inl (qr_get c, qr_get_encoded c) | (_, Some e) => inr e end.
Example test_qr : map qr_view
    [qr_code "totp" "app token" "foobar" "sha1" "Self" 30 6 0; qr_code "hotp" "app token" "foobar" "sha1" "Self" 0 0 100;
     qr_code "totp" "app token" "foobar" "" "Self" 0 0 0] =
  [inl ("otpauth://totp/app+token?secret=MZXW6YTBOI&issuer=Self&algorithm=sha1&digits=6&period=30",
        "b3RwYXV0aDovL3RvdHAvYXBwK3Rva2VuP3NlY3JldD1NWlhXNllUQk9JJmlzc3Vlcj1TZWxmJmFsZ29yaXRobT1zaGExJmRpZ2l0cz02JnBlcmlvZD0zMA==");
   inl ("otpauth://hotp/app+token?secret=MZXW6YTBOI&issuer=Self&algorithm=sha1&digits=6&counter=100&period=30",
        "b3RwYXV0aDovL2hvdHAvYXBwK3Rva2VuP3NlY3JldD1NWlhXNllUQk9JJmlzc3Vlcj1TZWxmJmFsZ29yaXRobT1zaGExJmRpZ2l0cz02JmNvdW50ZXI9MTAwJnBlcmlvZD0zMA==");
   inl ("otpauth://totp/app+token?secret=MZXW6YTBOI&issuer=Self&digits=6&period=30",
        "b3RwYXV0aDovL3RvdHAvYXBwK3Rva2VuP3NlY3JldD1NWlhXNllUQk9JJmlzc3Vlcj1TZWxmJmRpZ2l0cz02JnBlcmlvZD0zMA==")].
Proof. vm_compute. reflexivity. Qed.
Example test_qr_errors : map qr_view
    [qr_code "" "app token" "foobar" "" "" 0 0 0; qr_code "totp" "" "" "" "" 0 0 0; qr_code "totp" "app token" "" "" "" 0 0 0;
     qr_code "totp" "app token" "12345" "" "" 0 0 0; qr_code "totp" "app token" "foobar" "" "" 0 100 0; qr_code "totp" "app token" "foobar" "" "" 360 0 0;
     qr_code "hotp" "app token" "foobar" "" "" 0 0 0; qr_code "totp" "app token" "foobar" "foobar" "" 0 0 0; qr_code "" "" "" "" "" 0 0 0] =
  [inr "token type must be either totp or hotp"; inr "token label must be set"; inr "token secret must be set";
   inr "token secret must be at least 6 characters long"; inr "digits must be between 4 and 8 numbers long"; inr "token period must be between 30 and 180 seconds";
   inr "hotp token counter must be set"; inr "token algo must be SHA1, SHA256, or SHA512"; inr "token label must be set"].
Proof. vm_compute. reflexivity. Qed.

(** ** mfa_token_test.go *)
Definition mfa_req (type comment secret algorithm : string) (period digits : Z) (passcode : string) : Request :=
  new_request <| rq_mfa := {| rm_id := ""; rm_comment := comment; rm_type := type; rm_secret := secret; rm_algorithm := algorithm; rm_period := period;
    rm_digits := digits; rm_passcode := passcode; rm_disabled := false |} |>.
(** mfa_token_test.go:27-43 [generateTestPasscode] *)
Definition test_passcode (nd : Nd) (r : Request) (offset : bool) : Request + goerr :=
  let m := rq_mfa r in
  if negb (String.eqb (rm_passcode m) "") || (rm_period m =? 0)%Z then inl r
  else match gen_code real (rm_secret m) (rm_algorithm m) (rm_digits m)
         (step (if offset then (nd_clock nd - rm_period m * 1000000000)%Z else nd_clock nd) (rm_period m)) with
       | inl c => inl (r <| rq_mfa; rm_passcode := c |>)
       | inr e => inr e
       end.
(** The steps of the test on one case: [inl] the answers about a current code, "123456", "" and, with another algorithm, the code again *)
Definition mfa_view (nd : Nd) (r : Request) : list bool + option goerr :=
  let made := if String.eqb (rm_type (rq_mfa r)) "totp" && String.eqb (rm_passcode (rq_mfa r)) "" then test_passcode nd r true else inl r in
  match made with
  | inr e => inr (Some e)
  | inl r =>
      match new_mfa_token real nd r with
      | (_, RErr e) => inr (Some e)
      | (_, RPanic) => inr None
      | (r, ROk p) =>
          if negb (String.eqb (rm_type (rq_mfa r)) "totp") then inl []
          else
            let r := match test_passcode nd r false with inl r => r | inr _ => r end in
            let ok p c := match validate_code_now real nd p c with None => true | Some _ => false end in
            inl [ok p (rm_passcode (rq_mfa r)); ok p "123456"; ok p ""; ok (p <| t_algorithm := "sha2048" |>) (rm_passcode (rq_mfa r))]
      end
  end.
Definition test_secret : string := "c71ca4c68bc14ec5b4ab8d3c3b63802c".
Definition test_totp_run := Eval vm_compute in
  map (mfa_view (draws 0))
    [mfa_req "totp" "ms auth app" test_secret "sha1" 30 6 ""; mfa_req "totp" "ms auth app" test_secret "sha256" 30 6 "";
     mfa_req "totp" "ms auth app" test_secret "sha512" 30 6 "";
     mfa_req "totp" "ms auth app" "TJhDkLuPEtRapebVbBmV81JgdxSmZhYwLisDhA2G57yju4gWH4IRJ8KCIviDaFP5lgjsBnTG7L7yeK5kb" "sha1" 30 6 ""].
Example test_totp : test_totp_run = repeat (inl [true; false; false; false]) 4.
Proof. reflexivity. Qed.
Example test_mfa_errors : map (mfa_view (draws 0))
    [mfa_req "totp" "ms auth app" test_secret "" 30 6 ""; mfa_req "totp" "ms auth app" test_secret "sha2048" 30 6 "";
     mfa_req "totp" "ms auth app" test_secret "" 30 0 "1234"; mfa_req "totp" "ms auth app" test_secret "" 30 0 "987654321";
     mfa_req "totp" "ms auth app" test_secret "" 30 0 "123"; mfa_req "foobar" "" "" "" 0 0 ""; mfa_req "" "" "" "" 0 0 "";
     mfa_req "totp" "" "" "foobar" 0 0 ""; mfa_req "totp" "" "" "sha1" 10 0 ""; mfa_req "totp" "" "" "sha1" 30 2 ""] =
  map (fun e => inr (Some e))
    [EStd ErrMfaTokenEmptyAlgorithm; EWith ErrMfaTokenInvalidAlgorithm [AStr "sha2048"];
     EWith ErrMfaTokenInvalidPasscode [AStr "digits length mismatch"]; EWith ErrMfaTokenInvalidPasscode [AStr "not 4-8 characters long"];
     EWith ErrMfaTokenInvalidPasscode [AStr "not 4-8 characters long"]; EWith ErrMfaTokenInvalidType [AStr "foobar"]; EStd ErrMfaTokenTypeEmpty;
     EWith ErrMfaTokenInvalidAlgorithm [AStr "foobar"]; EWith ErrMfaTokenInvalidPeriod [AInt 10]; EWith ErrMfaTokenInvalidDigits [AInt 2]].
Proof. vm_compute. reflexivity. Qed.
(** The registration message of a YubiKey, mfa_token_test.go:173-214 *)
Definition test_register : string :=
  "eyJpZCI6ImZjZWNmN2FkLTk0MDMtNGYzZi05ZTE0LWJiYTZkN2FhNTc0YiIsInR5cGUiOiJwdWJsaWMta2V5Iiwic3VjY2VzcyI6" ++
  "dHJ1ZSwiYXR0ZXN0YXRpb25PYmplY3QiOnsiYXR0U3RtdCI6eyJhbGciOi03LCJzaWciOiJNRVFDSUJSUU1tMUdsUmdLKzdVUVhZ" ++
  "Y3VjMElXRXNNOW5XZWpTaTBjeWFRUVV2RHlBaUJIdzlCZ1BkdDl0Qzd3NUl0cjI5eEZwb2RaZ204RHZYRkpuTE9veXM2R1p3PT0i" ++
  "LCJ4NWMiOlsiTUlJQ3ZUQ0NBYVdnQXdJQkFnSUVOY1JURGpBTkJna3Foa2lHOXcwQkFRc0ZBREF1TVN3d0tnWURWUVFERXlOWmRX" ++
  "SnBZMjhnVlRKR0lGSnZiM1FnUTBFZ1UyVnlhV0ZzSURRMU56SXdNRFl6TVRBZ0Z3MHhOREE0TURFd01EQXdNREJhR0E4eU1EVXdN" ++
  "RGt3TkRBd01EQXdNRm93YmpFTE1Ba0dBMVVFQmhNQ1UwVXhFakFRQmdOVkJBb01DVmwxWW1samJ5QkJRakVpTUNBR0ExVUVDd3da" ++
  "UVhWMGFHVnVkR2xqWVhSdmNpQkJkSFJsYzNSaGRHbHZiakVuTUNVR0ExVUVBd3dlV1hWaWFXTnZJRlV5UmlCRlJTQlRaWEpwWVd3" ++
  "Z09UQXlNRFU0TnpZMk1Ga3dFd1lIS29aSXpqMENBUVlJS29aSXpqMERBUWNEUWdBRVpxN05yaVVZamtvamx3QllRWVIvWmEzeDhJ" ++
  "c0VJL3FGWTBxN3FZWXVGQzMzdWZRSjN5NU9YcDRHcjNvWE9lRlIxWGVRTUxXSzEzRzFYMngxWW40ckI2TnNNR293SWdZSkt3WUJC" ++
  "QUdDeEFvQ0JCVXhMak11Tmk0eExqUXVNUzQwTVRRNE1pNHhMamN3RXdZTEt3WUJCQUdDNVJ3Q0FRRUVCQU1DQlNBd0lRWUxLd1lC" ++
  "QkFHQzVSd0JBUVFFRWdRUTdvZ29lWEljU1JPWGRUMzh6cGNIS2pBTUJnTlZIUk1CQWY4RUFqQUFNQTBHQ1NxR1NJYjNEUUVCQ3dV" ++
  "QUE0SUJBUUNxeUk4MmVCeERvOXRRbTNGaXJ0S1dLOXN1dnBtcFVCUithcnBDaVZYRS9JdHdqc0w4cmtJaUczd0RRTnNHeENQc0VN" ++
  "NmhhVHM5WjhKaXlJTjVOOHFtb3JEKzNzRFBiMFNxejBmcGkzMUgybnJuV3diTUlnVmZKZEpJdC9sNkpTOHdrRFh1cU5ENmJNeUlz" ++
  "MmxaMUpjb3dBY1lLSVBkNTRGUy9HWXhMVzB0bDlUWGFCK0RDZG9UQUZCYjdBNTBoVWFyZFQ4ZTF3WmhlNVZ4UVluSjZtZzlITjF2" ++
  "SjlVWUVOMC9ORWJtQlZnNnpFV0h5YkRNMlFySU4ySnpjY2JlcWRhVEI0UzBKdGdZVWhnb1IzdEN1QzRFeFk3cU4zcmJMUlUxbFNJ" ++
  "a0NYQ2VLQ2d6TzZ2aDZzOGZSR1BhaUdkRytOMFBjcHFHdU9LSkcrZXhEUS9IK1pBbiJdfSwiYXV0aERhdGEiOnsicnBJZEhhc2gi" ++
  "OiI0OTk2MGRlNTg4MGU4YzY4NzQzNDE3MGY2NDc2NjA1YjhmZTRhZWI5YTI4NjMyYzc5OTVjZjNiYTgzMWQ5NzYzIiwiZmxhZ3Mi" ++
  "OnsiVVAiOnRydWUsIlJGVTEiOmZhbHNlLCJVViI6ZmFsc2UsIlJGVTJhIjpmYWxzZSwiUkZVMmIiOmZhbHNlLCJSRlUyYyI6ZmFs" ++
  "c2UsIkFUIjp0cnVlLCJFRCI6ZmFsc2V9LCJzaWduYXR1cmVDb3VudGVyIjozLCJjcmVkZW50aWFsRGF0YSI6eyJhYWd1aWQiOiI3" ++
  "b2dvZVhJY1NST1hkVDM4enBjSEtnPT0iLCJjcmVkZW50aWFsSWQiOiJzU3RHTjA3NFNBVTAiLCJwdWJsaWNLZXkiOnsia2V5X3R5" ++
  "cGUiOjIsImFsZ29yaXRobSI6LTcsImN1cnZlX3R5cGUiOjEsImN1cnZlX3giOiJlYlU4cXZZTXZjSHhYTFQ1OEdkeDZLTjFMVldO" ++
  "bFpvNjVmSjJxM1NzQnJBPSIsImN1cnZlX3kiOiJZTDB3c1BhSTdRZUJsZXlFWFJOdFpqQU9PZUZiSlJ6MXg2aVZZUkx4RFlNPSJ9" ++
  "fSwiZXh0ZW5zaW9ucyI6e319LCJmbXQiOiJwYWNrZWQifSwiY2xpZW50RGF0YSI6eyJ0eXBlIjoid2ViYXV0aG4uY3JlYXRlIiwi" ++
  "Y2hhbGxlbmdlIjoiQUFBTEFBQUFBQUJlQUFBQURnQUxBQUFBQU5jQUFBYmFoUUFQQUFDeUFBQUFBQSIsIm9yaWdpbiI6Imh0dHBz" ++
  "Oi8vbG9jYWxob3N0Ojg0NDMiLCJjcm9zc09yaWdpbiI6ZmFsc2V9LCJkZXZpY2UiOnsibmFtZSI6IlVua25vd24gZGV2aWNlIiwi" ++
  "dHlwZSI6InVua25vd24ifX0K".
Definition test_u2f : Request :=
  mfa_req "u2f" "u2f token" "" "" 0 0 "" <| rq_webauthn := {| rw_register := test_register; rw_challenge := "gBRjbIXJu7YtwaHy5eM1MgpxeYIrbpxroOkGw0D7qFxW6HDA85Wxfnh3isb2utUPnVxW"; rw_request := "" |} |>.
Example test_u2f_token : mfa_view (draws 0) test_u2f = inl [].
Proof. vm_compute. reflexivity. Qed.
(** What is stored of it (not looked at by the test) *)
Definition u2f_fields (p : MfaToken) : list (option string) * list (option bool) * N :=
  (map (fun k => t_params p !! k) ["u2f_id"; "rp_id_hash"; "key_type"; "key_algo"; "curve_xcoord"; "curve_ycoord"],
   map (fun k => t_flags p !! k) ["UP"; "UV"; "AT"; "ED"], t_counter p).
Definition test_u2f_stored_run := Eval vm_compute in
  match new_mfa_token real (draws 0) test_u2f with (_, ROk p) => Some (u2f_fields p) | _ => None end.
Example test_u2f_stored : test_u2f_stored_run = Some ([Some "fcecf7ad-9403-4f3f-9e14-bba6d7aa574b"; Some "49960de5880e8c687434170f6476605b8fe4aeb9a28632c7995cf3ba831d9763"; Some "ec2"; Some "es256";
         Some "ebU8qvYMvcHxXLT58Gdx6KN1LVWNlZo65fJ2q3SsBrA="; Some "YL0wsPaI7QeBleyEXRNtZjAOOeFbJRz1x6iVYRLxDYM="],
        [Some true; Some false; Some true; Some false], 3%N).
Proof. reflexivity. Qed.

(** ** public_key_test.go: the cases that do not need a key *)
Definition no_keys : Env := {|
  e_lr := e_lr real; e_bcrypt := e_bcrypt real; e_bcmp := e_bcmp real; e_hmac := e_hmac real; e_sha256 := e_sha256 real; e_ecdsa := e_ecdsa real;
  e_ssh := fun _ => None; e_pem := fun _ => None; e_pkix := fun _ => PkixErr; e_pgp := fun _ => None;
  e_register := e_register real; e_authreq := e_authreq real; e_client := e_client real; e_home := e_home real |}.
Definition pk_view (E : Env) (r : Request) : (string * string * string * string) + goerr :=
  match new_public_key E (draws 0) r with inl k => inl (pk_usage k, pk_type k, pk_comment k, if String.eqb (pk_usage k) "gpg" then pk_id k else "") | inr e => inr e end.
Example test_public_key_errors : map (pk_view no_keys)
    [key_req "foobar" "" "-----BEGIN RSA PUBLIC KEY-----" false; key_req "ssh" "" "" false; key_req "gpg" "" "-----BEGIN RSA PUBLIC KEY-----" false;
     key_req "ssh" "" "-----BEGIN RSA PUBLIC KEY-----" false; key_req "gpg" "jsmith@outlook.com" "-----BEGIN PGP PUBLIC KEY BLOCK-----" false] =
  map inr
    [EWith ErrPublicKeyInvalidUsage [AStr "foobar"]; EStd ErrPublicKeyEmptyPayload; EWith ErrPublicKeyUsagePayloadMismatch [AStr "gpg"];
     EWith ErrPublicKeyBlockType [AStr ""]; EWith ErrPublicKeyParse [AErr (EFmt "END PGP PUBLIC KEY BLOCK not found")]].
Proof. vm_compute. reflexivity. Qed.
(** Keys, with the library's reading of them given: an RSA key in both forms, and the key of testdata/gpg *)
Definition google : Env := {|
  e_lr := e_lr real; e_bcrypt := e_bcrypt real; e_bcmp := e_bcmp real; e_hmac := e_hmac real; e_sha256 := e_sha256 real; e_ecdsa := e_ecdsa real;
  e_ssh := e_ssh real; e_pem := e_pem real; e_pkix := e_pkix real;
  e_pgp := fun _ => Some [{| pg_primary := Some {| pg_id := 0xa040830f7fac5991; pg_fp := "fp"; pg_algo := 17; pg_created := "2007-03-08 20:17:10 +0000 UTC" |};
                             pg_names := ["Google, Inc. Linux Package Signing Key <linux-packages-keymaster@google.com>"] |}];
  e_register := e_register real; e_authreq := e_authreq real; e_client := e_client real; e_home := e_home real |}.
Example test_public_key : map (pk_view google)
    [key_req "ssh" "jsmith@outlook.com" "-----BEGIN RSA PUBLIC KEY-----" false; key_req "ssh" "jsmith@outlook.com" "ssh-rsa QUJD" false;
     key_req "gpg" "" ("-----BEGIN PGP PUBLIC KEY BLOCK-----" ++ "..." ++ "-----END PGP PUBLIC KEY BLOCK-----") false] =
  [inl ("ssh", "ssh-rsa", "jsmith@outlook.com", ""); inl ("ssh", "ssh-rsa", "jsmith@outlook.com", "");
   inl ("gpg", "dsa", "Google, Inc. Linux Package Signing Key <linux-packages-keymaster@google.com>, algo DSA, created 2007-03-08 20:17:10 +0000 UTC", "a040830f7fac5991")].
Proof. vm_compute. reflexivity. Qed.

(** ** user_test.go *)
Definition keyed : Env := {|
  e_lr := e_lr real; e_bcrypt := e_bcrypt real; e_bcmp := e_bcmp real; e_hmac := e_hmac real; e_sha256 := e_sha256 real; e_ecdsa := e_ecdsa real;
  e_ssh := fun s => Some {| sk_type := "ssh-rsa"; sk_md5 := s; sk_sha256 := "SHA256:" ++ s; sk_authorized := "ssh-rsa " ++ b64_encode s; sk_pem := Some s |};
  e_pem := e_pem real; e_pkix := e_pkix real; e_pgp := e_pgp real;
  e_register := e_register real; e_authreq := e_authreq real; e_client := e_client real; e_home := e_home real |}.
Definition u0 : User := new_user (draws 0) "jsmith".
Definition u1 : User := match add_password keyed (draws 1) u0 "jsmith123" 0 with inl u => u | inr _ => u0 end.
Definition u2 : User := match add_role (draws 2) u1 "superadmin" with inl u => u | inr _ => u1 end.
Definition u3 : User := match add_public_key keyed (draws 3) u2 (key_req "ssh" "jsmith@outlook.com" "ssh-rsa AAAAB3NzaC1yc2E= jsmith@outlook.com" false) with inl u => u | inr _ => u2 end.
Definition u4 : option User := match u_pubkeys u3 with
  | k :: _ => match delete_public_key (draws 4) u3 (new_request <| rq_key; rk_id := pk_id k |>) with inl u => Some u | inr _ => None end
  | [] => None end.
Example test_user : user_valid u0 <> None /\ user_valid u1 = None /\ u_roles u2 <> [] /\ has_role (u_roles u2) "superadmin" = true /\
  List.length (u_pubkeys u3) = 1%nat /\ option_map u_pubkeys u4 = Some [].
Proof. vm_compute. repeat split; discriminate. Qed.

(** ** database_test.go.  The directory of the test is "dir"; pointing [db.path] at it makes commits fail. *)
Definition db_file : string := "dir/user_db.json".
Definition dir_fs : FS := <["dir" := Dir]> ∅.
Definition account (username password email name : string) (roles : list string) : Request :=
  new_request <| rq_user := {| ru_username := username; ru_email := email; ru_password := password; ru_old_password := ""; ru_full_name := name; ru_roles := roles; ru_challenges := [] |} |>.
Definition pwd1 : string := "0Ue4ZcVXuCt8".
Definition pwd2 : string := "3vXYF0vpCOnYq5rK".
Definition jsmith_req : Request := account "jsmith" pwd1 "jsmith@gmail.com" "Smith, John" ["viewer"; "editor"; "admin"].
Definition bjones_req : Request := account "bjones" pwd2 "bjones@gmail.com" "" ["viewer"].
Definition opened_as (r : FS * LoadRes) : option (FS * Database) := match r with (fs, Loaded db) => Some (fs, db) | _ => None end.
Definition load_err (r : FS * LoadRes) : option goerr := match r with (_, LErr e) => Some e | _ => None end.
Definition call (k : nat) (op : Op) (r : Request) (w : FS * Database) : Out := exec keyed (draws k) op w.2 w.1 r.
Definition then_ (o : Out) : FS * Database := (o_fs o, o_db o).
(** TestNewDatabase *)
Definition nd1 : option (FS * Database) := opened_as (new_database keyed (draws 0) db_file dir_fs).
Example test_new_database :
  match nd1 with
  | None => False
  | Some w =>
      let a := call 1 OpAddUser jsmith_req w in let s := call 2 OpSave new_request (then_ a) in let b := call 3 (OpCopy "dir/user_db_backup.json") new_request (then_ s) in
      db_path w.2 = db_file /\ db_user_count w.2 = 0%nat /\ o_res a = OOk /\ o_res s = OOk /\ o_res b = OOk /\
      load_err (new_database keyed (draws 9) "dir" (o_fs b)) = Some (EWith ErrNewDatabase [AStr "dir"; AStr "path points to a directory"]) /\
      match opened_as (new_database keyed (draws 9) db_file (o_fs b)) with Some w => db_path w.2 = db_file /\ db_user_count w.2 = 1%nat | None => False end
  end.
Proof. vm_compute. repeat split. Qed.
(** createTestDatabase *)
Definition blank_key : PublicKey := {| pk_id := ""; pk_usage := ""; pk_type := ""; pk_fp := ""; pk_fp_md5 := ""; pk_comment := ""; pk_payload := ""; pk_openssh := "";
  pk_expired := false; pk_expired_at := 0; pk_created := 0; pk_disabled := false; pk_disabled_at := 0 |}.
Definition with_key (i : nat) (w : FS * Database) : FS * Database :=
  match db_users w.2 !! i with Some u => (w.1, set_user w.2 i (u <| u_pubkeys := (u_pubkeys u ++ [blank_key])%list |>)) | None => w end.
Definition test_db : FS * Database :=
  match nd1 with
  | Some w => with_key 1 (then_ (call 20 OpAddUser bjones_req (with_key 0 (then_ (call 1 OpAddUser jsmith_req w)))))
  | None => (∅, empty_db "" content_z)
  end.
Example test_create : List.length (db_users test_db.2) = 2%nat /\ map (fun u => List.length (u_pubkeys u)) (db_users test_db.2) = [1; 1]%nat.
Proof. vm_compute. repeat split. Qed.
(** TestDatabaseAuthentication: [IdentifyUser], then [AuthenticateUser] with the same request *)
Definition login (name password : string) : Request := new_request <| rq_user; ru_username := name |> <| rq_user; ru_password := password |>.
Definition auth_view (r : Request) : (string * string * string * list string * list string * Z) + Outcome :=
  let i := call 30 OpIdentify r test_db in let a := call 31 OpAuthenticate (o_req i) (then_ i) in
  let u := rq_user (o_req i) in
  match o_res a with
  | OOk => inl (ru_username u, ru_email u, ru_full_name u, ru_roles u, ru_challenges u, rq_code (o_req a))
  | e => inr e
  end.
Example test_authentication :
  let j := inl ("jsmith", "jsmith@gmail.com", "Smith, John", ["viewer"; "editor"; "admin"], ["password"], 200%Z) in
  let b := inl ("bjones", "bjones@gmail.com", "", ["viewer"], ["password"], 200%Z) in
  let bad e := inr (OErr (EWith ErrAuthFailed [AErr (EStd e)])) in
  map (fun c => auth_view (login (fst c) (snd c)))
    [("jsmith", pwd1); ("bjones", pwd2); ("jsmith@gmail.com", pwd1); ("bjones@gmail.com", pwd2); ("jsmith", pwd2); ("jsmith@gmail.com", pwd2); ("foobar", "barfoo")] =
  [j; b; j; b; bad ErrUserPasswordInvalid; bad ErrUserPasswordInvalid; bad ErrDatabaseUserNotFound].
Proof. vm_compute. reflexivity. Qed.
Example test_by_id : map (fun s => option_map fst (get_user keyed test_db.2 s)) ["jsmith"; "bjones"] = [Some 0; Some 1]%nat /\
  map (fun u => option_map fst (by_id keyed test_db.2 (u_id u))) (db_users test_db.2) = [Some 0; Some 1]%nat /\ by_id keyed test_db.2 "foobar" = None.
Proof. vm_compute. repeat split. Qed.
(** A commit to the directory *)
Definition misdirected (w : FS * Database) : FS * Database := (w.1, w.2 <| db_path := "dir" |>).
Definition commit_err : goerr := EWith ErrDatabaseCommit [AStr "dir"; AErr ext_err].
(** TestDatabaseAddUser *)
Example test_add_user :
  [o_res (call 30 OpAddUser jsmith_req test_db); o_res (call 31 OpAddUser (account "" "" "foobar@barfoo" "" []) test_db);
   o_res (call 32 OpAddUser (account "foobar" pwd1 "jsmith@gmail.com" "Smith, John" ["viewer"; "editor"; "admin"]) test_db);
   o_res (call 33 OpAddUser (account "foobar" "aaaaaaaaaaaaaaaa" "foobar@barfoo" "" []) (misdirected test_db))] =
  map OErr [EWith ErrAddUser [AStr "jsmith"; AStr "username already in use"]; EWith ErrAddUser [AStr ""; AErr (EStd ErrUserPolicyCompliance)];
            EWith ErrAddUser [AStr "jsmith@gmail.com"; AStr "email address already in use"]; EWith ErrAddUser [AStr "foobar"; AErr commit_err]].
Proof. vm_compute. reflexivity. Qed.
(** TestDatabaseChangeUserPassword *)
Definition change (name email old new : string) : Request := account name new email "" [] <| rq_user; ru_old_password := old |>.
Definition new_pwd : string := "YN8rDhrYhW0vKQ2p".
Example test_change_password :
  let c := call 30 OpChangePassword (change "jsmith" "jsmith@gmail.com" pwd1 new_pwd) test_db in
  o_res (call 30 OpChangePassword (change "jsmith" "jsmith@gmail.com" "foobar" new_pwd) test_db) = OErr (EWith ErrChangeUserPassword [AErr (EStd ErrUserPasswordInvalid)]) /\
  o_res c = OOk /\ o_res (call 31 OpAuthenticate (login "jsmith" new_pwd) (then_ c)) = OOk /\
  map (fun u => List.length (u_passwords u)) (db_users (o_db c)) = [2; 1]%nat /\
  o_res (call 32 OpChangePassword (change "foobar" "foobar@barfoo" "foobar" new_pwd) (then_ c)) = OErr (EWith ErrChangeUserPassword [AErr (EStd ErrDatabaseUserNotFound)]) /\
  o_res (call 33 OpChangePassword (change "bjones" "bjones@gmail.com" pwd2 new_pwd) (misdirected (then_ c))) = OErr (EWith ErrChangeUserPassword [AErr commit_err]).
Proof. vm_compute. repeat split. Qed.
(** TestDatabaseUserPublicKey *)
Definition ssh_req (name email usage comment payload : string) : Request := key_req usage comment payload false <| rq_user; ru_username := name |> <| rq_user; ru_email := email |>.
Definition ssh_line (s : string) : string := "ssh-rsa " ++ b64_encode s ++ String (ascii_of_nat 10) "".
Definition mine (payload : string) : Request := ssh_req "jsmith" "jsmith@gmail.com" "ssh" "jsmith@gmail.com" payload.
Definition key_count (w : FS * Database) : option Z :=
  match rq_payload (o_req (call 90 OpGetPublicKeys (mine "") w)) with PPublicKeys b => Some (b_size b) | _ => None end.
Definition key_ids (w : FS * Database) : list string :=
  match rq_payload (o_req (call 90 OpGetPublicKeys (mine "") w)) with PPublicKeys b => map pk_id (b_items b) | _ => [] end.
Definition delete_key (w : FS * Database) (id : string) : FS * Database := then_ (call 91 OpDeletePublicKey (mine "" <| rq_key; rk_id := id |>) w).
Definition k1 : FS * Database := then_ (call 30 OpAddPublicKey (mine (ssh_line "key one")) test_db).
Definition k2 : FS * Database := then_ (call 31 OpAddPublicKey (mine (ssh_line "key two")) k1).
Definition k3 : FS * Database := then_ (call 32 OpAddPublicKey (mine (ssh_line "key three")) k2).
Definition k4 : FS * Database := fold_left delete_key (key_ids k3) k3.
Definition k5 : FS * Database := then_ (call 33 OpAddPublicKey (mine (ssh_line "key four")) k4).
Example test_public_keys : map key_count [k1; k2; k3; k4; k5] = map Some [1; 2; 3; 0; 1]%Z.
Proof. vm_compute. reflexivity. Qed.
Definition test_public_keys_errors_run := Eval vm_compute in
  [o_res (call 40 OpDeletePublicKey (mine "" <| rq_key; rk_id := "foobar" |>) k5);
   o_res (call 41 OpAddPublicKey (ssh_req "foobar" "foobar@barfoo" "ssh" "" (ssh_line "x")) k5);
   o_res (call 42 OpAddPublicKey (ssh_req "jsmith" "bjones@gmail.com" "ssh" "" (ssh_line "x")) k5);
   o_res (call 43 OpAddPublicKey (ssh_req "jsmith" "foobar@barfoo" "ssh" "" (ssh_line "x")) k5);
   o_res (call 44 OpGetPublicKeys (ssh_req "jsmith" "foobar@barfoo" "ssh" "" "") k5);
   o_res (call 45 OpDeletePublicKey (ssh_req "jsmith" "foobar@barfoo" "ssh" "" "" <| rq_key; rk_id := "barfoo" |>) k5);
   o_res (call 46 OpAddPublicKey (ssh_req "jsmith" "jsmith@gmail.com" "foobar" "" (ssh_line "x")) k5);
   o_res (call 47 OpAddPublicKey (mine (ssh_line "x")) (misdirected k5));
   o_res (call 48 OpDeletePublicKey (mine "" <| rq_key; rk_id := hd "" (key_ids k5) |>) (misdirected k5))].
Example test_public_keys_errors : test_public_keys_errors_run = map OErr
    [EWith ErrDeletePublicKey [AStr "foobar"; AStr "not found"]; EWith ErrAddPublicKey [AStr "ssh"; AErr (EStd ErrDatabaseUserNotFound)];
     EWith ErrAddPublicKey [AStr "ssh"; AErr (EStd ErrDatabaseInvalidUser)]; EWith ErrAddPublicKey [AStr "ssh"; AErr (EStd ErrDatabaseUserNotFound)];
     EWith ErrGetPublicKeys [AStr "ssh"; AErr (EStd ErrDatabaseUserNotFound)]; EWith ErrDeletePublicKey [AStr "barfoo"; AErr (EStd ErrDatabaseUserNotFound)];
     EWith ErrAddPublicKey [AStr "foobar"; AErr (EWith ErrPublicKeyInvalidUsage [AStr "foobar"])]; EWith ErrAddPublicKey [AStr "ssh"; AErr commit_err];
     EWith ErrDeletePublicKey [AStr "ssh"; AErr commit_err]].
Proof. reflexivity. Qed.
(** TestDatabaseUserMfaToken *)
Definition token_req (name email comment secret : string) (disabled : bool) : Request :=
  let r := mfa_req "totp" comment secret "sha1" 30 6 "" <| rq_user; ru_username := name |> <| rq_user; ru_email := email |> <| rq_mfa; rm_disabled := disabled |> in
  match test_passcode (draws 0) r true with inl r => r | inr _ => r end.
Definition my_token : string -> string -> bool -> Request := token_req "jsmith" "jsmith@gmail.com".
Definition me : Request := who "jsmith" "jsmith@gmail.com".
Definition token_ids (w : FS * Database) : list string :=
  match rq_payload (o_req (call 90 OpGetMfaTokens me w)) with PMfaTokens b => map t_id (b_items b) | _ => [] end.
Definition delete_token (w : FS * Database) (id : string) : FS * Database := then_ (call 91 OpDeleteMfaToken (me <| rq_mfa; rm_id := id |>) w).
Definition m1 : FS * Database := then_ (call 30 OpAddMfaToken (my_token "ms auth app 30" "c71ca4c68bc14ec5b4ab8d3c3be02ddd2c" true) test_db).
Definition m2 : FS * Database := then_ (call 31 OpAddMfaToken (my_token "ms auth app" test_secret false) m1).
Definition m3 : FS * Database := fold_left delete_token (token_ids m2) m2.
Definition m4 : FS * Database := then_ (call 32 OpAddMfaToken (my_token "ms auth app" test_secret false) m3).
Definition test_mfa_tokens_run := Eval vm_compute in
  map (fun w => List.length (token_ids w)) [m1; m2; m3; m4].
Example test_mfa_tokens : test_mfa_tokens_run = [0; 1; 0; 1]%nat.
Proof. reflexivity. Qed.
Definition m5 : Out := call 44 OpAddMfaToken (my_token "ms auth app 20" "dd71ca4c68bc14ec5b4ab8d3c3b63802c" false) (misdirected m4).
(** The last case renames the first token of the account. *)
Definition zzz : string := "zzzzzzzzzzzzzzzzzzzzzzzzzz5h3s765Tpx5Laa".
Definition rename (w : FS * Database) : FS * Database :=
  match db_users w.2 !! 0%nat with
  | Some u => (w.1, set_user w.2 0 (u <| u_mfa := match u_mfa u with t :: l => t <| t_id := zzz |> :: l | [] => [] end |>))
  | None => w
  end.
Definition test_mfa_tokens_errors_run := Eval vm_compute in
  [o_res (call 40 OpDeleteMfaToken (me <| rq_mfa; rm_id := "foobar" |>) m4);
   o_res (call 41 OpAddMfaToken (who "foobar" "foobar@barfoo") m4);
   o_res (call 42 OpAddMfaToken (my_token "ms auth app" test_secret false) m4);
   o_res (call 43 OpAddMfaToken (my_token "ms auth app" "d71ca4c68bc14ec5b4ab8d3c3b63802c1" false) m4);
   o_res (call 44 OpGetMfaTokens (who "jsmith" "bjones@gmail.com") m4);
   o_res (call 45 OpDeleteMfaToken (who "jsmith" "bjones@gmail.com" <| rq_mfa; rm_id := "foobar" |>) m4);
   o_res m5;
   o_res (call 46 OpDeleteMfaToken (me <| rq_mfa; rm_id := zzz |>) (rename (then_ m5)))].
Example test_mfa_tokens_errors : test_mfa_tokens_errors_run = map OErr
    [EWith ErrDeleteMfaToken [AStr "foobar"; AStr "not found"]; EWith ErrAddMfaToken [AErr (EStd ErrDatabaseUserNotFound)];
     EWith ErrAddMfaToken [AErr (EStd ErrDuplicateMfaTokenSecret)]; EWith ErrAddMfaToken [AErr (EStd ErrDuplicateMfaTokenComment)];
     EWith ErrGetMfaTokens [AErr (EStd ErrDatabaseInvalidUser)]; EWith ErrDeleteMfaToken [AStr "foobar"; AErr (EStd ErrDatabaseInvalidUser)];
     EWith ErrAddMfaToken [AErr commit_err]; EWith ErrDeleteMfaToken [AStr zzz; AErr commit_err]].
Proof. reflexivity. Qed.
(** TestDatabaseGetUsers, TestDatabasePolicy *)
Example test_get_users :
  match rq_payload (o_req (call 30 OpGetUsers me test_db)) with
  | PUsers b => b_size b = 2%Z /\ map (fun m => (md_username m, md_name m, md_email m, md_title m, md_avatar m, md_enabled m)) (b_items b) =
      [("jsmith", "Smith, John", "jsmith@gmail.com", "", "", false); ("bjones", "", "bjones@gmail.com", "", "", false)]
  | _ => False
  end.
Proof. vm_compute. repeat split. Qed.
Example test_policy : let p := c_policy (db_content test_db.2) in
  p = {| po_password := {| pp_keep := 10; pp_min := 8; pp_max := 128; pp_upper := false; pp_lower := false; pp_number := false; pp_nonalnum := false;
                           pp_block_reuse := false; pp_block_change := false |};
         po_user := {| up_min := 3; up_max := 50; up_nonalnum := false; up_upper := false |} |} /\
  username_summary (po_user p) = "A username should be 3-50 character long string with lowercase, alpha-numeric characters" /\
  username_regex (po_user p) = "^[a-z][a-z0-9]{2,49}$" /\
  password_summary (po_password p) = "A password should be 8-128 character long string" /\ password_regex (po_password p) = "^.{8,128}$".
Proof. vm_compute. repeat split. Qed.
