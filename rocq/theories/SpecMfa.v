(** Vocabulary of the theorems about second factors (C35-C49). *)
From Coq Require Import String Ascii ZArith NArith Lia Bool Arith List.
From stdpp Require Import gmap strings.
From RecordUpdate Require Import RecordSet.
From Verif Require Import GoStr Codec GoErr Role Name Random Types Env Fs Database System SpecDb SpecAuth SpecKey.
Import ListNotations.
Open Scope string_scope.

(** ** Numbers in bytes and digits *)
Inductive big_endian : list ascii -> N -> Prop :=
| BeNil : big_endian [] 0
| BeSnoc l n a : big_endian l n -> big_endian (l ++ [a])%list (n * 256 + N_of_ascii a).
(** [l] is a decimal numeral, leading zeros allowed. *)
Inductive decimal : list ascii -> N -> Prop :=
| DecNil : decimal [] 0
| DecSnoc l n d a : decimal l n -> (d < 10)%N -> N_of_ascii a = (48 + d)%N -> decimal (l ++ [a])%list (n * 10 + d).

(** ** RFC 4226 and RFC 6238 *)
(** Section 5.3: the four bytes at the offset given by the low nibble of the last byte, without
    the top bit. *)
Definition truncation (h : string) (v : N) : Prop :=
  exists pre b0 b1 b2 b3 post last n, los h = (pre ++ [b0; b1; b2; b3] ++ post)%list /\
    (exists init, los h = (init ++ [last])%list) /\ N.of_nat (List.length pre) = (N_of_ascii last mod 16)%N /\
    big_endian [b0; b1; b2; b3] n /\ v = (n mod 2 ^ 31)%N.
Definition known_algorithm (a : string) : Prop := a = "sha1" \/ a = "sha256" \/ a = "sha512".
(** HMAC results have at least 20 bytes, those of SHA-1. *)
Definition hmac_size (E : Env) : Prop := forall a k m, known_algorithm a -> (20 <= String.length (e_hmac E a k m))%nat.
(** [c] is the code of [digits] digits for the counter [T]. *)
Definition code_of (E : Env) (algorithm secret : string) (digits : nat) (T : Z) (c : string) : Prop :=
  known_algorithm algorithm /\
  exists m v, List.length (los m) = 8%nat /\ big_endian (los m) (Z.to_N (T mod 2 ^ 64)) /\
    truncation (e_hmac E algorithm secret m) v /\
    List.length (los c) = digits /\ decimal (los c) (v mod 10 ^ N.of_nat digits).
(** Times are nanoseconds since year 1; this one is 1970. *)
Definition epoch_ns : Z := 62135596800 * 1000000000.
Definition second_ns : Z := 1000000000.
(** [t] lies in the [T]-th period of [P] seconds after 1970. *)
Definition in_period (t P T : Z) : Prop := (epoch_ns + T * (P * second_ns) <= t < epoch_ns + (T + 1) * (P * second_ns))%Z.
(** [c] is the token's code for step [T]. *)
Definition token_code (E : Env) (p : MfaToken) (T : Z) (c : string) : Prop :=
  code_of E (t_algorithm p) (t_secret p) (Z.to_nat (t_digits p)) T c.

(** ** Tokens *)
Record totp_token (p : MfaToken) : Prop := {
  tt_type : t_type p = "totp"; tt_algorithm : known_algorithm (t_algorithm p);
  tt_period : within 30 (t_period p) 300; tt_digits : within 4 (t_digits p) 8
}.
Definition param (p : MfaToken) (k v : string) : Prop := t_params p !! k = Some v.
Record u2f_token (p : MfaToken) : Prop := {
  ut_type : t_type p = "u2f"; ut_secret : t_secret p <> "";
  ut_id : exists id, param p "u2f_id" id /\ id <> "";
  ut_public : param p "u2f_type" "public-key"; ut_key : param p "key_type" "ec2"; ut_algo : param p "key_algo" "es256";
  ut_curve : param p "curve_type" "" \/ param p "curve_type" "p256";
  ut_rp : exists h, param p "rp_id_hash" h /\ h <> "";
  ut_x : exists x, param p "curve_xcoord" x; ut_y : exists y, param p "curve_ycoord" y;
  ut_transports : exists l, param p "u2f_transports" (join "," l) /\ Forall (fun s => In s ["usb"; "nfc"; "ble"; "internal"]) l
}.
(** The same token, apart from its cached key. *)
Definition same_token (p q : MfaToken) : Prop := set t_cache (fun _ => None) p = set t_cache (fun _ => None) q.
(** Two tokens of one account with the same secret or the same comment, [k] stored before [l]. *)
Definition clash (k l : MfaToken) : Prop := t_secret k = t_secret l \/ t_comment k = t_comment l.
Definition holds_clash (u : User) (k l : MfaToken) : Prop :=
  clash k l /\ exists a b p q, (a < b)%nat /\ u_mfa u !! a = Some p /\ u_mfa u !! b = Some q /\ same_token p k /\ same_token q l.

(** ** WebAuthn *)
(** Bit [i] of byte [a]. *)
Definition bit (a : ascii) (i : N) : bool := N.testbit (N_of_ascii a) i.
Definition lower_hex : list ascii := los "0123456789abcdef".
(** [s] is the lowercase hexadecimal form of [l]. *)
Inductive hex_of : list ascii -> list ascii -> Prop :=
| HexNil : hex_of [] []
| HexCons a l x y s : lower_hex !! (nat_of_ascii a / 16)%nat = Some x -> lower_hex !! (nat_of_ascii a mod 16)%nat = Some y ->
    hex_of l s -> hex_of (a :: l) (x :: y :: s).
(** The verification key that the parameters of a token describe. *)
Definition p256_key (p : MfaToken) (key : Z * Z) : Prop :=
  param p "key_algo" "es256" /\
  exists x y bx by_ nx ny, param p "curve_xcoord" x /\ param p "curve_ycoord" y /\
    b64_decode x = Some bx /\ b64_decode y = Some by_ /\ String.length bx = 32%nat /\ String.length by_ = 32%nat /\
    big_endian (los bx) nx /\ big_endian (los by_) ny /\ key = (Z.of_N nx, Z.of_N ny).
(** The decoded message of a login request. *)
Definition assertion (E : Env) (r : Request) (q : AuthRequest) : Prop :=
  exists d, b64_decode (rw_request (rq_webauthn r)) = Some d /\ e_authreq E d = Some q.
(** [p] is the first enabled u2f token of [u] with credential [id]. *)
Definition candidate (id : string) (p : MfaToken) : Prop := t_disabled p = false /\ t_type p = "u2f" /\ param p "u2f_id" id.
Definition first_candidate (u : User) (id : string) (p : MfaToken) : Prop :=
  exists l1 l2, u_mfa u = (l1 ++ p :: l2)%list /\ candidate id p /\ Forall (fun x => ~ candidate id x) l1.
(** The message [q] proves possession of token [p] for the challenge of [r]. *)
Record proves (E : Env) (r : Request) (q : AuthRequest) (p : MfaToken) : Prop := {
  pv_enabled : t_disabled p = false; pv_type : t_type p = "u2f"; pv_key_type : param p "key_type" "ec2";
  pv_id : param p "u2f_id" (wq_id q);
  pv_client_ne : trim_space (wq_client q) <> ""; pv_sig_ne : trim_space (wq_sig q) <> ""; pv_auth_ne : trim_space (wq_auth q) <> "";
  pv_data : exists client cd auth sig key, b64_decode (wq_client q) = Some client /\ e_client E client = Some cd /\
    b64_decode (wq_auth q) = Some auth /\ b64_decode (wq_sig q) = Some sig /\ p256_key p key /\
    cl_type cd = "webauthn.get" /\ cl_cross cd = false /\ cl_challenge cd = rw_challenge (rq_webauthn r) /\
    (exists rp flags c0 c1 c2 c3 rest h, los auth = (rp ++ [flags] ++ [c0; c1; c2; c3] ++ rest)%list /\ List.length rp = 32%nat /\
       bit flags 0 = true /\ param p "rp_id_hash" h /\ hex_of rp (los h)) /\
    e_ecdsa E key (auth ++ e_sha256 E client) sig = true
}.
(** The request logs in again and again, with the given draws. *)
Fixpoint always_accepted (E : Env) (r : Request) (nds : list Nd) (fs : FS) (db : Database) : Prop :=
  match nds with
  | [] => True
  | nd :: nds => let o := exec E nd OpAuthenticate db fs r in o_res o = OOk /\ always_accepted E r nds (o_fs o) (o_db o)
  end.
(** The names of the flags and their bits. *)
Definition named_flags : list (string * N) :=
  [("UP", 0); ("RFU1", 1); ("UV", 2); ("RFU2a", 3); ("RFU2b", 4); ("RFU2c", 5); ("AT", 6); ("ED", 7)]%N.
(** The public key map makes registration panic. *)
Definition is_number (v : Jv) : Prop := exists z, v = VNum z.
Definition is_text (v : Jv) : Prop := exists s, v = VStr s.
Definition well_typed (pk : gmap string Jv) : Prop :=
  (forall k v, In k ["key_type"; "algorithm"; "curve_type"] -> pk !! k = Some v -> is_number v) /\
  (forall k v, In k ["curve_x"; "curve_y"] -> pk !! k = Some v -> is_text v).
Definition int_field (pk : gmap string Jv) (k : string) (z : Z) : Prop := pk !! k = Some (VNum (Some z)).
Definition ill_number (pk : gmap string Jv) (k : string) : Prop := exists v, pk !! k = Some v /\ ~ is_number v.
Definition panicking (pk : gmap string Jv) : Prop :=
  ill_number pk "key_type" \/
  (int_field pk "key_type" 2 /\ ill_number pk "algorithm") \/
  (int_field pk "key_type" 2 /\ int_field pk "algorithm" (-7) /\ ill_number pk "curve_type") \/
  (int_field pk "key_type" 2 /\ int_field pk "algorithm" (-7) /\ (pk !! "curve_type" = None \/ int_field pk "curve_type" 1) /\
   exists k v, In k ["curve_x"; "curve_y"] /\ pk !! k = Some v /\ ~ is_text v).
(** The request carries a registration that is complete up to its public key [pk]. *)
Definition carries_key (E : Env) (r : Request) (pk : gmap string Jv) : Prop :=
  rm_type (rq_mfa r) = "u2f" /\ rw_challenge (rq_webauthn r) <> "" /\
  exists d q flags counter h, rw_register (rq_webauthn r) <> "" /\ b64_decode (rw_register (rq_webauthn r)) = Some d /\ e_register E d = Some q /\
    wr_id q <> "" /\ wr_type q = "public-key" /\ Forall (fun s => In s ["usb"; "nfc"; "ble"; "internal"]) (wr_transports q) /\ h <> "" /\
    wr_att q = Some {| ao_auth := Some {| ad_rpid := h; ad_flags := Some flags; ad_counter := counter; ad_cred := Some {| cd_pubkey := Some pk |} |} |}.

(** ** Registration of one-time passwords *)
Definition chosen_algorithm (E : Env) (r : Request) (a : string) : Prop :=
  (lower E (rm_algorithm (rq_mfa r)) = "" /\ a = "sha1") \/ (lower E (rm_algorithm (rq_mfa r)) = a /\ known_algorithm a).
Definition chosen_digits (r : Request) (d : Z) : Prop :=
  (rm_digits (rq_mfa r) = 0%Z /\ d = 6%Z) \/ (rm_digits (rq_mfa r) <> 0%Z /\ d = rm_digits (rq_mfa r)).
(** The request is for a totp token with algorithm [a] and [d] digits, and its passcode is the
    code of a step at most two before the current one. *)
Record registers_totp (E : Env) (now : Z) (r : Request) (a : string) (d : Z) : Prop := {
  rt_type : rm_type (rq_mfa r) = "totp"; rt_algorithm : chosen_algorithm E r a; rt_digits : chosen_digits r d;
  rt_digits_range : within 4 d 8; rt_period : within 30 (rm_period (rq_mfa r)) 300;
  rt_code : exists T T', in_period now (rm_period (rq_mfa r)) T /\ (T - 2 <= T' <= T)%Z /\
    code_of E a (rm_secret (rq_mfa r)) (Z.to_nat d) T' (trim_space (rm_passcode (rq_mfa r)))
}.
(** The token made for it. *)
Record totp_entry (nd : Nd) (r : Request) (a : string) (d : Z) (t : MfaToken) : Prop := {
  te_type : t_type t = "totp"; te_algorithm : t_algorithm t = a; te_digits : t_digits t = d; te_period : t_period t = rm_period (rq_mfa r);
  te_secret : t_secret t = rm_secret (rq_mfa r)
}.
Record token_entry (nd : Nd) (r : Request) (t : MfaToken) : Prop := {
  tk_id : t_id t = random_string 40 (nd_id nd); tk_type : t_type t = rm_type (rq_mfa r); tk_comment : t_comment t = rm_comment (rq_mfa r);
  tk_created : t_created t = nd_clock nd; tk_disabled : t_disabled t = rm_disabled (rq_mfa r); tk_expired : t_expired t = false
}.
(** No token of [u] has this secret or this comment. *)
Definition distinct_from (u : User) (secret comment : string) : Prop :=
  Forall (fun p => t_secret p <> secret /\ t_comment p <> comment) (u_mfa u).
(** Loaded files hold no clash. *)
Definition loads_no_clash (E : Env) (w : World) (ev : Event) : Prop :=
  match ev with
  | EvOpen nd fp => forall fs db i u k l, new_database E nd fp (w_fs w) = (fs, Loaded db) -> account db i u -> ~ holds_clash u k l
  | _ => True
  end.

(** ** IdentifyUser *)
Definition shows_role (ro : Role) (s : string) : Prop :=
  (ro_org ro = "" /\ s = ro_name ro) \/ (ro_org ro <> "" /\ s = ro_org ro ++ "/" ++ ro_name ro).
Definition shows_name (u : User) (s : string) : Prop :=
  (u_name u = None /\ s = "") \/
  exists n, u_name u = Some n /\ (nm_first n = "" /\ s = nm_last n \/ nm_first n <> "" /\ s = nm_last n ++ ", " ++ nm_first n).
Definition enabled_token (u : User) (ty : string) : Prop := exists t, In t (u_mfa u) /\ t_disabled t = false /\ t_type t = ty.
(** A flag after IdentifyUser: raised if it was or [P] holds. *)
Definition raised (before after : bool) (P : Prop) : Prop := after = true <-> before = true \/ P.
