(** The record types of the package: user.go, password.go, api_key.go, public_key.go,
    mfa_token.go, organization.go, location.go, lockout.go, image.go, database.go and
    pkg/requests/requests.go.

    A Go pointer to a struct is an [option] where nil is possible; a slice of pointers is a
    list of values (nil elements exist only while a file is being loaded, see [Persist]).
    A nil slice or map is the empty one: the code never distinguishes them.  Times are
    nanoseconds since 0001-01-01T00:00:00Z, the zero value of [time.Time]. *)
From Coq Require Import String Ascii ZArith NArith Lia Bool Arith List.
From stdpp Require Import gmap strings.
From RecordUpdate Require Import RecordSet.
From Verif Require Import GoStr GoErr Role Name Email.
Import ListNotations.
Open Scope string_scope.

(** password.go:24-34 *)
Record Password := {
  pw_purpose : string; pw_algorithm : string; pw_hash : string; pw_cost : Z;
  pw_expired : bool; pw_expired_at : Z; pw_created : Z; pw_disabled : bool; pw_disabled_at : Z }.
#[export] Instance eta_Password : Settable _ := settable! Build_Password
  <pw_purpose; pw_algorithm; pw_hash; pw_cost; pw_expired; pw_expired_at; pw_created; pw_disabled; pw_disabled_at>.

(** api_key.go:31-42 *)
Record APIKey := {
  ak_id : string; ak_prefix : string; ak_usage : string; ak_comment : string; ak_payload : string;
  ak_expired : bool; ak_expired_at : Z; ak_created : Z; ak_disabled : bool; ak_disabled_at : Z }.
#[export] Instance eta_APIKey : Settable _ := settable! Build_APIKey
  <ak_id; ak_prefix; ak_usage; ak_comment; ak_payload; ak_expired; ak_expired_at; ak_created; ak_disabled; ak_disabled_at>.

(** public_key.go:46-61 *)
Record PublicKey := {
  pk_id : string; pk_usage : string; pk_type : string; pk_fp : string; pk_fp_md5 : string;
  pk_comment : string; pk_payload : string; pk_openssh : string;
  pk_expired : bool; pk_expired_at : Z; pk_created : Z; pk_disabled : bool; pk_disabled_at : Z }.
#[export] Instance eta_PublicKey : Settable _ := settable! Build_PublicKey
  <pk_id; pk_usage; pk_type; pk_fp; pk_fp_md5; pk_comment; pk_payload; pk_openssh; pk_expired; pk_expired_at; pk_created;
   pk_disabled; pk_disabled_at>.

(** mfa_token.go:67-71 *)
Record MfaDevice := { dv_name : string; dv_vendor : string; dv_type : string }.
#[export] Instance eta_MfaDevice : Settable _ := settable! Build_MfaDevice <dv_name; dv_vendor; dv_type>.

(** mfa_token.go:46-64; [t_cache] is the unexported [pubkey] (the two P-256 coordinates). *)
Record MfaToken := {
  t_id : string; t_type : string; t_algorithm : string; t_comment : string; t_secret : string;
  t_period : Z; t_digits : Z; t_expired : bool; t_expired_at : Z; t_created : Z; t_disabled : bool; t_disabled_at : Z;
  t_device : option MfaDevice; t_params : gmap string string; t_flags : gmap string bool; t_counter : N;
  t_cache : option (Z * Z) }.
#[export] Instance eta_MfaToken : Settable _ := settable! Build_MfaToken
  <t_id; t_type; t_algorithm; t_comment; t_secret; t_period; t_digits; t_expired; t_expired_at; t_created; t_disabled;
   t_disabled_at; t_device; t_params; t_flags; t_counter; t_cache>.

(** organization.go:18-22 *)
Record Organization := { og_id : N; og_name : string; og_aliases : list string }.
#[export] Instance eta_Organization : Settable _ := settable! Build_Organization <og_id; og_name; og_aliases>.
(** location.go:18-28 *)
Record Location := {
  lc_street : string; lc_city : string; lc_state : string; lc_zip : string;
  lc_confirmed : bool; lc_current : bool; lc_domicile : bool; lc_residential : bool; lc_commercial : bool }.
#[export] Instance eta_Location : Settable _ := settable! Build_Location
  <lc_street; lc_city; lc_state; lc_zip; lc_confirmed; lc_current; lc_domicile; lc_residential; lc_commercial>.
(** lockout.go:24-28 *)
Record Lockout := { lk_enabled : bool; lk_start : Z; lk_end : Z }.
#[export] Instance eta_Lockout : Settable _ := settable! Build_Lockout <lk_enabled; lk_start; lk_end>.
(** image.go:22-28.  [Config] is [image.Config{ColorModel, Width, Height}]; its interface
    field ColorModel can only be nil in a loaded database. *)
Record ImageConfig := { ic_width : Z; ic_height : Z }.
#[export] Instance eta_ImageConfig : Settable _ := settable! Build_ImageConfig <ic_width; ic_height>.
Record Image := { im_title : string; im_body : string; im_config : ImageConfig; im_path : string }.
#[export] Instance eta_Image : Settable _ := settable! Build_Image <im_title; im_body; im_config; im_path>.

(** user.go:45-68 *)
Record User := {
  u_id : string; u_enabled : bool; u_human : bool; u_username : string; u_title : string;
  u_name : option Name; u_org : option Organization; u_names : list Name; u_orgs : list Organization;
  u_addrs : list Location; u_email : option EmailAddress; u_emails : list EmailAddress;
  u_passwords : list Password; u_pubkeys : list PublicKey; u_apikeys : list APIKey; u_mfa : list MfaToken;
  u_lockout : option Lockout; u_avatar : option Image; u_created : Z; u_modified : Z; u_revision : Z;
  u_roles : list Role }.
#[export] Instance eta_User : Settable _ := settable! Build_User
  <u_id; u_enabled; u_human; u_username; u_title; u_name; u_org; u_names; u_orgs; u_addrs; u_email; u_emails; u_passwords;
   u_pubkeys; u_apikeys; u_mfa; u_lockout; u_avatar; u_created; u_modified; u_revision; u_roles>.

(** user.go:25-36 *)
Record UserMetadata := {
  md_id : string; md_enabled : bool; md_username : string; md_title : string; md_name : string; md_email : string;
  md_created : Z; md_modified : Z; md_revision : Z; md_avatar : string }.

(** database.go:72-95 *)
Record PasswordPolicy := {
  pp_keep : Z; pp_min : Z; pp_max : Z; pp_upper : bool; pp_lower : bool; pp_number : bool; pp_nonalnum : bool;
  pp_block_reuse : bool; pp_block_change : bool }.
#[export] Instance eta_PasswordPolicy : Settable _ := settable! Build_PasswordPolicy
  <pp_keep; pp_min; pp_max; pp_upper; pp_lower; pp_number; pp_nonalnum; pp_block_reuse; pp_block_change>.
Record UserPolicy := { up_min : Z; up_max : Z; up_nonalnum : bool; up_upper : bool }.
#[export] Instance eta_UserPolicy : Settable _ := settable! Build_UserPolicy <up_min; up_max; up_nonalnum; up_upper>.
Record Policy := { po_password : PasswordPolicy; po_user : UserPolicy }.
#[export] Instance eta_Policy : Settable _ := settable! Build_Policy <po_password; po_user>.

(** The exported, persisted part of [Database] (database.go:98-110). *)
Record Content := {
  c_version : string; c_policy : Policy; c_revision : N; c_modified : Z; c_users : list User }.
#[export] Instance eta_Content : Settable _ := settable! Build_Content <c_version; c_policy; c_revision; c_modified; c_users>.

(** database.go:98-110.  A [*User] held in an index is the position of the account in
    [Users]: accounts are only ever appended, so the position identifies the pointer. *)
Record Database := {
  db_content : Content;
  ref_email : gmap string nat; ref_username : gmap string nat; ref_id : gmap string nat; ref_apikey : gmap string nat;
  db_path : string }.
#[export] Instance eta_Database : Settable _ := settable! Build_Database
  <db_content; ref_email; ref_username; ref_id; ref_apikey; db_path>.
Definition db_users (d : Database) : list User := c_users (db_content d).
Definition db_policy (d : Database) : Policy := c_policy (db_content d).
Definition db_revision (d : Database) : N := c_revision (db_content d).
Definition db_modified (d : Database) : Z := c_modified (db_content d).

(** The four bundle types (user.go:39-42, public_key.go:40-43, api_key.go:25-28,
    mfa_token.go:40-43) have the same code. *)
Record Bundle (A : Type) := { b_items : list A; b_size : Z }.
Arguments b_items {A}. Arguments b_size {A}. Arguments Build_Bundle {A}.
(** NewXBundle, Add, Get, Size (user.go:71-92 etc.) *)
Definition b_new {A} : Bundle A := {| b_items := []; b_size := 0 |}.
Definition b_add {A} (b : Bundle A) (x : A) : Bundle A :=
  {| b_items := (b_items b ++ [x])%list; b_size := (b_size b + 1)%Z |}.

(** pkg/requests/requests.go.  Fields that no function of the package reads or writes
    (ID, Upstream, Sandbox, Query.Name, Logger, User.Disabled, Flags.MfaRequired and the rest
    of Response) are left out. *)
Record ReqUser := {
  ru_username : string; ru_email : string; ru_password : string; ru_old_password : string; ru_full_name : string;
  ru_roles : list string; ru_challenges : list string }.
#[export] Instance eta_ReqUser : Settable _ := settable! Build_ReqUser
  <ru_username; ru_email; ru_password; ru_old_password; ru_full_name; ru_roles; ru_challenges>.
Record ReqKey := {
  rk_id : string; rk_prefix : string; rk_comment : string; rk_usage : string; rk_payload : string; rk_disabled : bool }.
#[export] Instance eta_ReqKey : Settable _ := settable! Build_ReqKey <rk_id; rk_prefix; rk_comment; rk_usage; rk_payload; rk_disabled>.
Record ReqMfa := {
  rm_id : string; rm_comment : string; rm_type : string; rm_secret : string; rm_algorithm : string;
  rm_period : Z; rm_digits : Z; rm_passcode : string; rm_disabled : bool }.
#[export] Instance eta_ReqMfa : Settable _ := settable! Build_ReqMfa
  <rm_id; rm_comment; rm_type; rm_secret; rm_algorithm; rm_period; rm_digits; rm_passcode; rm_disabled>.
Record ReqWebAuthn := { rw_register : string; rw_challenge : string; rw_request : string }.
#[export] Instance eta_ReqWebAuthn : Settable _ := settable! Build_ReqWebAuthn <rw_register; rw_challenge; rw_request>.
Record ReqFlags := { rf_enabled : bool; rf_configured : bool; rf_app : bool; rf_universal : bool }.
#[export] Instance eta_ReqFlags : Settable _ := settable! Build_ReqFlags <rf_enabled; rf_configured; rf_app; rf_universal>.
(** [Response.Payload] (an [interface{}]).  [PUser i] is the live pointer to account [i]
    handed out by GetUser. *)
Inductive Payload :=
| PNone
| PStr (s : string)
| PUser (i : nat)
| PUsers (b : Bundle UserMetadata)
| PPublicKeys (b : Bundle PublicKey)
| PAPIKeys (b : Bundle APIKey)
| PMfaTokens (b : Bundle MfaToken).
Record Request := {
  rq_user : ReqUser; rq_query_id : string; rq_key : ReqKey; rq_mfa : ReqMfa; rq_webauthn : ReqWebAuthn;
  rq_flags : ReqFlags; rq_code : Z; rq_payload : Payload }.
#[export] Instance eta_Request : Settable _ := settable! Build_Request
  <rq_user; rq_query_id; rq_key; rq_mfa; rq_webauthn; rq_flags; rq_code; rq_payload>.
Definition new_request : Request := {|
  rq_user := Build_ReqUser "" "" "" "" "" [] []; rq_query_id := ""; rq_key := Build_ReqKey "" "" "" "" "" false;
  rq_mfa := Build_ReqMfa "" "" "" "" "" 0 0 "" false; rq_webauthn := Build_ReqWebAuthn "" "" "";
  rq_flags := Build_ReqFlags false false false false; rq_code := 0; rq_payload := PNone |}.
