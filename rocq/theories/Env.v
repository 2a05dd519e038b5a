(** The environment of the package: external libraries and per-call non-determinism.

    [Env] holds the functions of libraries that are not part of /repo; nothing is assumed
    about them here, theorems that need a property of one state it as a hypothesis.  [Nd] is
    everything one API call may draw from outside: clock, random numbers, I/O outcomes. *)
From Coq Require Import String Ascii ZArith NArith Lia Bool Arith List.
From stdpp Require Import gmap strings.
From Verif Require Import GoStr Utf8 Codec GoErr Random Types.
Import ListNotations.
Open Scope string_scope.

(** A parsed key of golang.org/x/crypto/ssh, as far as public_key.go looks at it: [Type()],
    [FingerprintLegacyMD5], [FingerprintSHA256], [MarshalAuthorizedKey], and the outcome of the
    conversion to a PEM block (public_key.go:170-187; [None] when a step of it fails). *)
Record SshKey := { sk_type : string; sk_md5 : string; sk_sha256 : string; sk_authorized : string; sk_pem : option string }.
(** x509.ParsePKIXPublicKey followed by ssh.NewPublicKey (public_key.go:260-267) *)
Inductive Pkix := PkixErr | PkixUnsupported | PkixKey (k : SshKey).
(** openpgp entities (public_key.go:203-239) *)
Record PgpKey := { pg_id : N; pg_fp : string; pg_algo : N; pg_created : string }.
Record PgpEntity := { pg_primary : option PgpKey; pg_names : list string }.

(** webauthn.go: decoded JSON messages.  [VNum (Some z)] is a number equal to the integer z,
    [VNum None] any other number, [VOther] a JSON value that is neither number nor string. *)
Inductive Jv := VNum (z : option Z) | VStr (s : string) | VOther.
(** CredentialData.PublicKey; [None] is the nil map *)
Record CredentialData := { cd_pubkey : option (gmap string Jv) }.
Record AuthData := { ad_rpid : string; ad_flags : option (gmap string bool); ad_counter : N; ad_cred : option CredentialData }.
Record AttestationObject := { ao_auth : option AuthData }.
Record RegisterRequest := {
  wr_id : string; wr_type : string; wr_transports : list string; wr_att : option AttestationObject }.
(** WebAuthnAuthenticateRequest: the fields that are read before being overwritten *)
Record AuthRequest := { wq_id : string; wq_auth : string; wq_client : string; wq_sig : string }.
Record ClientData := { cl_challenge : string; cl_cross : bool; cl_type : string }.

Record Env := {
  e_lr : N -> N;                                    (* unicode.ToLower above U+007F *)
  e_bcrypt : string -> string -> Z -> option string; (* salt, password, cost: GenerateFromPassword *)
  e_bcmp : string -> string -> bool;                 (* hash, password: CompareHashAndPassword = nil *)
  e_hmac : string -> string -> string -> string;     (* algorithm, key, message *)
  e_sha256 : string -> string;
  e_ecdsa : Z * Z -> string -> string -> bool;       (* P-256 point, message, signature: CheckSignature = nil *)
  e_ssh : string -> option SshKey;                   (* ssh.ParsePublicKey *)
  e_pem : string -> option (string * string);        (* pem.Decode: type and bytes of the first block *)
  e_pkix : string -> Pkix;
  e_pgp : string -> option (list PgpEntity);         (* openpgp.ReadArmoredKeyRing *)
  e_register : string -> option RegisterRequest;     (* json.Unmarshal into WebAuthnRegisterRequest *)
  e_authreq : string -> option AuthRequest;          (* json.Unmarshal into WebAuthnAuthenticateRequest *)
  e_client : string -> option ClientData;            (* json.Unmarshal into ClientData *)
  e_home : string -> option string                   (* expandHomePath of a path starting with '~' *)
}.

(** Outcome of ioutil.WriteFile: success, failure to open, a failure after [k] bytes were
    written, or the process (or machine) dying after [k] bytes. *)
Inductive WriteIo := IoOk | IoOpenErr | IoShort (k : nat) | IoCrash (k : nat).

Record Nd := {
  nd_clock : Z;                       (* time.Now().UTC(), in ns since year 1; one reading per call *)
  nd_uuid : nat -> nat -> ascii;      (* random bytes of the i-th uuid.NewV4 of the call *)
  nd_id : nat -> N;                   (* draws of GetRandomString(40) *)
  nd_secret : nat -> N;               (* draws of GetRandomStringFromRange *)
  nd_len : N;                         (* its length draw *)
  nd_salt : string;                   (* bcrypt salt *)
  nd_pick : nat;                      (* map iteration order of the PGP identities *)
  nd_stat_err : bool; nd_mkdir_err : bool; nd_read_err : bool;
  nd_write : WriteIo
}.

(** Result of a function that may panic. *)
Inductive Res (A : Type) := ROk (a : A) | RErr (e : goerr) | RPanic.
Arguments ROk {A}. Arguments RErr {A}. Arguments RPanic {A}.

Definition lower (E : Env) (s : string) : string := to_lower (e_lr E) s.
(** An error of another library; its text is not modelled. *)
Definition ext_err : goerr := EFmt "external".
(** Go's int64 arithmetic *)
Definition int64 (z : Z) : Z := ((z + 2 ^ 63) mod 2 ^ 64 - 2 ^ 63)%Z.
