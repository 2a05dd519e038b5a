(** What a WebAuthn registration has to contain, and the token made from it. *)
From Coq Require Import String Ascii ZArith NArith Lia Bool Arith List.
From stdpp Require Import gmap strings.
From RecordUpdate Require Import RecordSet.
From Verif Require Import GoStr Codec Random Types Env Mfa SpecMfa.
Import ListNotations.
Open Scope string_scope.

(** What the authenticator attests: the hash of the site, flags, a counter and a public key. *)
Record Attested := { at_site : string; at_flags : gmap string bool; at_counter : N; at_key : gmap string Jv }.
Definition attests (q : RegisterRequest) (a : Attested) : Prop :=
  wr_att q = Some {| ao_auth := Some {| ad_rpid := at_site a; ad_flags := Some (at_flags a); ad_counter := at_counter a;
                                        ad_cred := Some {| cd_pubkey := Some (at_key a) |} |} |}.
(** A coordinate of the key; a missing one counts as the empty text. *)
Definition coordinate (pk : gmap string Jv) (k s : string) : Prop := (pk !! k = None /\ s = "") \/ pk !! k = Some (VStr s).
(** The key is one for ES256 on the curve named [curve]; a missing curve goes by the empty name. *)
Record es256_key (pk : gmap string Jv) (curve x y : string) : Prop := {
  ek_type : int_field pk "key_type" 2; ek_algorithm : int_field pk "algorithm" (-7);
  ek_curve : (pk !! "curve_type" = None /\ curve = "") \/ (int_field pk "curve_type" 1 /\ curve = "p256");
  ek_x : coordinate pk "curve_x" x; ek_y : coordinate pk "curve_y" y
}.
Record registers_u2f (E : Env) (r : Request) (q : RegisterRequest) (a : Attested) (curve x y : string) : Prop := {
  ru_type : rm_type (rq_mfa r) = "u2f"; ru_given : rw_register (rq_webauthn r) <> ""; ru_challenge : rw_challenge (rq_webauthn r) <> "";
  ru_message : exists d, b64_decode (rw_register (rq_webauthn r)) = Some d /\ e_register E d = Some q;
  ru_id : wr_id q <> ""; ru_public : wr_type q = "public-key";
  ru_transports : Forall (fun s => In s ["usb"; "nfc"; "ble"; "internal"]) (wr_transports q);
  ru_attests : attests q a; ru_site : at_site a <> ""; ru_key : es256_key (at_key a) curve x y
}.
(** The token made from it at time [now]: everything about it. *)
Record u2f_entry (nd : Nd) (r : Request) (q : RegisterRequest) (a : Attested) (curve x y : string) (t : MfaToken) : Prop := {
  ue_id : t_id t = random_string 40 (nd_id nd); ue_type : t_type t = "u2f"; ue_secret : t_secret t = rw_challenge (rq_webauthn r);
  ue_comment : t_comment t = rm_comment (rq_mfa r);
  ue_flags : t_flags t = at_flags a; ue_counter : t_counter t = at_counter a;
  ue_params : forall k v, param t k v <-> In (k, v)
    [("u2f_id", wr_id q); ("u2f_type", "public-key"); ("u2f_transports", join "," (wr_transports q)); ("rp_id_hash", at_site a);
     ("key_type", "ec2"); ("key_algo", "es256"); ("curve_type", curve); ("curve_xcoord", x); ("curve_ycoord", y)];
  ue_otp : t_algorithm t = "" /\ t_period t = 0%Z /\ t_digits t = 0%Z; ue_none : t_device t = None /\ t_cache t = None;
  ue_dates : t_created t = nd_clock nd /\ t_expired t = false /\ t_expired_at t = 0%Z /\ t_disabled t = rm_disabled (rq_mfa r) /\
    t_disabled_at t = if rm_disabled (rq_mfa r) then nd_clock nd else 0%Z
}.
(** Everything about the token made from a request for one-time passwords. *)
Record totp_complete (nd : Nd) (r : Request) (a : string) (d : Z) (t : MfaToken) : Prop := {
  tc_id : t_id t = random_string 40 (nd_id nd); tc_comment : t_comment t = rm_comment (rq_mfa r);
  tc_entry : totp_entry nd r a d t;
  tc_key : t_params t = ∅ /\ t_flags t = ∅ /\ t_counter t = 0%N; tc_none : t_device t = None /\ t_cache t = None;
  tc_dates : t_created t = nd_clock nd /\ t_expired t = false /\ t_expired_at t = 0%Z /\ t_disabled t = rm_disabled (rq_mfa r) /\
    t_disabled_at t = if rm_disabled (rq_mfa r) then nd_clock nd else 0%Z
}.
