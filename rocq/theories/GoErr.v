(** Error values: pkg/errors.  A [StandardError] is a Go string type, so a
    standard error *is* its text (pkg/errors/errors.go:23-27). *)
From Coq Require Import String Ascii ZArith NArith Lia Bool Arith List.
Import ListNotations.
Open Scope string_scope.

(** pkg/errors/api_key.go *)
Definition ErrAPIKeyPayloadEmpty : string := "api key payload is empty".
Definition ErrAPIKeyUsageEmpty : string := "api key usage type is empty".
Definition ErrAPIKeyCommentEmpty : string := "api key comment is empty".
Definition ErrAPIKeyUsageUnsupported : string := "api key usage type %q is unsupported".
Definition ErrLookupAPIKeyPayloadEmpty : string := "api key payload is empty".
Definition ErrLookupAPIKeyFailed : string := "api key lookup failed".
Definition ErrLookupAPIKeyMalformedPayload : string := "api key payload is malformed".

(** pkg/errors/database.go *)
Definition ErrNewDatabase : string := "failed initializing database at %q: %v".
Definition ErrNewDatabaseInvalidUser : string := "failed initializing database: found invalid user %v, %v".
Definition ErrNewDatabaseDuplicateUser : string := "failed initializing database: found duplicate user %s %v".
Definition ErrNewDatabaseDuplicateUserID : string := "failed initializing database: found duplicate user id %s %v".
Definition ErrNewDatabaseDuplicateEmail : string := "failed initializing database: found duplicate email address %s, %v".
Definition ErrNewDatabaseDuplicateAPIKey : string := "failed initializing database: found duplicate api key %s, %v".
Definition ErrDatabaseCommit : string := "failed database commit to %q: %v".
Definition ErrDatabaseOperation : string := "database operation failed: %v".
Definition ErrDatabaseInvalidUser : string := "username and email point to a different identity in the database".
Definition ErrDatabaseUserNotFound : string := "user not found".
Definition ErrAuthFailed : string := "user authentication failed: %v".
Definition ErrAddPublicKey : string := "failed adding %s public key: %v".
Definition ErrDeletePublicKey : string := "failed deleting %q key: %v".
Definition ErrGetPublicKeys : string := "failed getting %q keys: %v".
Definition ErrAddAPIKey : string := "failed adding %s key: %v".
Definition ErrDeleteAPIKey : string := "failed deleting %q key: %v".
Definition ErrGetAPIKeys : string := "failed getting %q keys: %v".
Definition ErrChangeUserPassword : string := "failed change user password: %v".
Definition ErrUserPasswordNotFound : string := "user password not set".
Definition ErrUserPasswordInvalid : string := "user password is invalid".
Definition ErrUserPolicyCompliance : string := "username policy compliance check failed".
Definition ErrPasswordPolicyCompliance : string := "user password policy compliance check failed".
Definition ErrAddUser : string := "failed adding user %q: %v".
Definition ErrDeleteUser : string := "failed deleting user %q: %v".
Definition ErrGetUsers : string := "failed retrieving users: %v".
Definition ErrGetUser : string := "failed retrieving user %q: %v".
Definition ErrPasswordEmpty : string := "empty password".
Definition ErrPasswordEmptyAlgorithm : string := "empty password hash algorithm".
Definition ErrPasswordGenerate : string := "password generation error: %v".
Definition ErrPasswordUnsupportedAlgorithm : string := "unsupported password hash algorithm: %v".
Definition ErrUserIDInvalidLength : string := "invalid user id length: %d".
Definition ErrUsernameEmpty : string := "username is empty".
Definition ErrEmailAddressInvalid : string := "invalid email address".
Definition ErrRoleEmpty : string := "role name is empty".
Definition ErrParseNameFailed : string := "failed to parse name: %s".
Definition ErrCreditCardUnsupportedIssuer : string := "unsupported credit card issuer: %v".
Definition ErrCreditCardUnsupportedAssociation : string := "unsupported credit card association: %v".

(** pkg/errors/mfa_token.go *)
Definition ErrAddMfaToken : string := "failed adding MFA token: %v".
Definition ErrDeleteMfaToken : string := "failed deleting MFA token %q: %v".
Definition ErrGetMfaTokens : string := "failed getting MFA tokens: %v".
Definition ErrDuplicateMfaTokenSecret : string := "duplicate MFA token secret".
Definition ErrDuplicateMfaTokenComment : string := "duplicate MFA token comment".
Definition ErrMfaTokenEmptyAlgorithm : string := "empty MFA token algorithm".
Definition ErrMfaTokenTypeEmpty : string := "empty MFA token type".
Definition ErrMfaTokenInvalidType : string := "invalid MFA token type: %s".
Definition ErrMfaTokenInvalidAlgorithm : string := "invalid MFA token algorithm: %s".
Definition ErrMfaTokenInvalidPeriod : string := "invalid MFA token period: %d".
Definition ErrMfaTokenInvalidDigits : string := "invalid MFA token digits: %d".
Definition ErrMfaTokenInvalidPasscode : string := "invalid MFA token passcode: %v".
Definition ErrWebAuthnRegisterNotFound : string := "webauthn register not found".
Definition ErrWebAuthnChallengeNotFound : string := "webauthn challenge not found".
Definition ErrWebAuthnParse : string := "failed parsing webauthn request: %v".
Definition ErrWebAuthnEmptyRegisterID : string := "webauthn register id is empty".
Definition ErrWebAuthnEmptyRegisterKeyType : string := "webauthn register key type is empty".
Definition ErrWebAuthnInvalidRegisterKeyType : string := "invalid webauthn register key type: %v".
Definition ErrWebAuthnEmptyRegisterTransport : string := "webauthn register key transport is empty".
Definition ErrWebAuthnInvalidRegisterTransport : string := "invalid webauthn register key transport: %v".
Definition ErrWebAuthnRegisterAttestationObjectNotFound : string := "webauthn register attestation object not found".
Definition ErrWebAuthnRegisterAuthDataNotFound : string := "webauthn register attestation object auth data not found".
Definition ErrWebAuthnRegisterCredentialDataNotFound : string := "webauthn register attestation object auth data credential not found".
Definition ErrWebAuthnRegisterEmptyRelyingPartyID : string := "webauthn register attestation object auth data rpIdHash empty".
Definition ErrWebAuthnRegisterEmptyFlags : string := "webauthn register attestation object auth data flags empty".
Definition ErrWebAuthnRegisterPublicKeyNotFound : string := "webauthn register attestation object auth data credential public key not found".
Definition ErrWebAuthnRegisterPublicKeyUnsupported : string := "webauthn register attestation object auth data credential public key type %v is unsupported".
Definition ErrWebAuthnRegisterPublicKeyTypeNotFound : string := "webauthn register attestation object auth data credential public key type not found".
Definition ErrWebAuthnRegisterPublicKeyAlgorithmUnsupported : string := "webauthn register attestation object auth data credential public key algorithm %v is unsupported".
Definition ErrWebAuthnRegisterPublicKeyAlgorithmNotFound : string := "webauthn register attestation object auth data credential public key algorithm not found".
Definition ErrWebAuthnRegisterPublicKeyCurveUnsupported : string := "webauthn register attestation object auth data credential public key curve_type %v is unsupported".
Definition ErrWebAuthnRegisterPublicKeyTypeAlgorithmUnsupported : string := "webauthn register attestation object auth data credential public key type %q and algorithm %q are unsupported".
Definition ErrWebAuthnRegisterPublicKeyCurveCoord : string := "webauthn register attestation object auth data credential public key curve %v coordinate error: %v".
Definition ErrWebAuthnRequest : string := "webauthn request failed: %v".
Definition ErrWebAuthnVerifyRequest : string := "webauthn authentication request failed: %v".

(** pkg/errors/public_key.go *)
Definition ErrPublicKeyEmptyPayload : string := "public key payload is empty".
Definition ErrPublicKeyInvalidUsage : string := "public key usage %q is invalid".
Definition ErrPublicKeyUsagePayloadMismatch : string := "public key usage %q does not match its payload".
Definition ErrPublicKeyBlockType : string := "public key block type %q is invalid".
Definition ErrPublicKeyParse : string := "public key parse failed: %v".
Definition ErrPublicKeyUsageUnsupported : string := "public key usage %q is unsupported".
Definition ErrPublicKeyTypeUnsupported : string := "public key type %q is unsupported".

(** Errors.  [EStd t] is a bare [StandardError]; [EWith t args] is the
    [enhancedError] made by [t.WithArgs(args...)] (errors.go:57-60); [EFmt t] is an
    error that does not wrap a standard one ([fmt.Errorf] with a fixed text, or an
    error returned by another library). *)
Inductive goerr : Type :=
| EStd (t : string)
| EWith (t : string) (args : list arg)
| EFmt (t : string)
(** Arguments of [WithArgs]: interface values. *)
with arg : Type :=
| AStr (s : string)
| AInt (z : Z)
| AErr (e : goerr)
| ANil
| AOther.

Definition is_err_arg (a : arg) : bool := match a with AErr _ => true | _ => false end.
Definition is_nil_arg (a : arg) : bool := match a with ANil => true | _ => false end.

(** errors.go:30-55 [WithArgs]; [None] is a nil [error].  The test [err == nil] inside
    [case error] is never true: a value matched by an interface type is not nil. *)
Definition with_args (t : string) (args : list arg) : option goerr :=
  if existsb is_nil_arg args && negb (existsb is_err_arg args) then None
  else Some (EWith t args).

(** [errors.Is(e, t)] for a standard error [t]: the standard error itself, or an
    [enhancedError] whose [Unwrap] (errors.go:68-70) gives it.  Arguments are not
    unwrapped. *)
Definition errors_is (e : goerr) (t : string) : bool :=
  match e with
  | EStd t' | EWith t' _ => String.eqb t' t
  | EFmt _ => false
  end.
