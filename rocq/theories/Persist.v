(** The JSON form of the database: the struct tags of all persisted types, [json.MarshalIndent]
    and [json.Unmarshal] on them (database.go:136-152, 455-466).

    Decoding follows encoding/json: members are matched to fields by name, ignoring case; unknown
    members are ignored; null empties a slice, pointer or map and leaves any other field as it is;
    a second member for the same field overwrites a scalar and is merged into a struct or map.
    Not modelled (result [DUnmod]): a second array for a slice that already has elements, times
    with another zone than Z and those on which versions of Go differ ([time_odd]), and null
    elements of the arrays names, organizations, street_address, public_keys, mfa_tokens, roles.
    Go parses the raw text of a time literal, the model its unquoted text; the two differ only for
    literals with escape sequences. *)
From Coq Require Import String Ascii ZArith NArith Lia Bool Arith List.
From stdpp Require Import gmap strings sorting.
From RecordUpdate Require Import RecordSet.
From Verif Require Import GoStr Utf8 Codec Json GoTime GoErr Role Name Email Types.
Import ListNotations.
Import RecordSetNotations.
Open Scope string_scope.

Inductive dres (A : Type) := DOk (a : A) | DErr | DUnmod.
Arguments DOk {A}. Arguments DErr {A}. Arguments DUnmod {A}.
Definition dbind {A B} (x : dres A) (f : A -> dres B) : dres B :=
  match x with DOk a => f a | DErr => DErr | DUnmod => DUnmod end.
Definition dmap {A B} (f : A -> B) (x : dres A) : dres B := dbind x (fun a => DOk (f a)).

(** ** Codecs *)
(** A codec for the values of one field: its zero value, its encoding ([None] = left out, tag
    omitempty), what null makes of its current value, and the decoding of another JSON value into
    its current value. *)
Record codec (T : Type) := Codec { zero : T; enc : T -> option json; nul : T -> T; dec : T -> json -> dres T }.
Arguments Codec {T}. Arguments zero {T}. Arguments enc {T}. Arguments nul {T}. Arguments dec {T}.
(** a scalar: overwritten, kept by null *)
Definition scalar {T} (z : T) (e : T -> option json) (d : json -> dres T) : codec T := Codec z e (fun x => x) (fun _ => d).

Definition dec_str (j : json) : dres string := match j with JStr s => DOk s | _ => DErr end.
Definition str : codec string := scalar "" (fun s => if String.eqb s "" then None else Some (JStr s)) dec_str.
Definition dec_bool (j : json) : dres bool := match j with JBool b => DOk b | _ => DErr end.
Definition flag : codec bool := scalar false (fun b => if b then Some (JBool true) else None) dec_bool.
(** a bool without omitempty *)
Definition flag_all : codec bool := scalar false (fun b => Some (JBool b)) dec_bool.

Definition digits_val (l : list ascii) : option N :=
  match l with [] => None | _ => if forallb is_digit l then Some (dec_val_l l 0) else None end.
(** [strconv.ParseInt(lit, 10, 64)] *)
Definition parse_int (lit : string) : option Z :=
  match los lit with
  | a :: t => if Ascii.eqb a "-" then option_map (fun n => (- Z.of_N n)%Z) (digits_val t)
              else option_map Z.of_N (digits_val (a :: t))
  | [] => None
  end.
Definition in_int64 (z : Z) : bool := ((- 2 ^ 63 <=? z) && (z <? 2 ^ 63))%Z.
Definition dec_int (j : json) : dres Z :=
  match j with
  | JNum s => match parse_int s with Some z => if in_int64 z then DOk z else DErr | None => DErr end
  | _ => DErr
  end.
Definition int_ : codec Z := scalar 0%Z (fun z => if (z =? 0)%Z then None else Some (JNum (sprint_d z))) dec_int.
(** an int without omitempty *)
Definition int_all : codec Z := scalar 0%Z (fun z => Some (JNum (sprint_d z))) dec_int.
Definition dec_uint (bound : N) (j : json) : dres N :=
  match j with
  | JNum s => match digits_val (los s) with Some n => if (n <? bound)%N then DOk n else DErr | None => DErr end
  | _ => DErr
  end.
Definition uint (bound : N) : codec N :=
  scalar 0%N (fun n => if (n =? 0)%N then None else Some (JNum (sol (dec_l n)))) (dec_uint bound).
(** time.Time; omitempty has no effect on a struct *)
Definition time_ : codec Z :=
  scalar 0%Z (fun t => Some (JStr (sol (time_print t))))
        (fun j => match j with
                  | JStr s => match time_parse (los s) with Some t => DOk t | None => if time_odd (los s) then DUnmod else DErr end
                  | _ => DErr end).

(** [dmapM] over a list, first failure wins *)
Fixpoint dlist {A} (f : json -> dres A) (l : list json) : dres (list A) :=
  match l with
  | [] => DOk []
  | j :: l => dbind (f j) (fun a => dmap (cons a) (dlist f l))
  end.
(** a slice; [n] is the meaning of a null element.  Decoding into a slice with elements reuses
    them; not modelled. *)
Definition into_empty {A} (cur : list A) (x : dres (list A)) : dres (list A) := match cur with [] => x | _ => DUnmod end.
Definition list_at {A} (n : dres A) (e : A -> json) (d : json -> dres A) : codec (list A) :=
  Codec [] (fun l => match l with [] => None | _ => Some (JArr (map e l)) end) (fun _ => [])
        (fun cur j => match j with
                  | JArr l => into_empty cur (dlist (fun j => match j with JNull => n | _ => d j end) l)
                  | _ => DErr end).
(** a slice whose null elements are not modelled *)
Notation list_ := (list_at DUnmod).
(** a slice of pointers, null elements kept *)
Definition opt_list {A} (e : A -> json) (d : json -> dres A) : codec (list (option A)) :=
  Codec [] (fun l => match l with [] => None | _ => Some (JArr (map (fun x => match x with Some x => e x | None => JNull end) l)) end) (fun _ => [])
        (fun cur j => match j with
                  | JArr l => into_empty cur (dlist (fun j => match j with JNull => DOk None | _ => dmap Some (d j) end) l)
                  | _ => DErr end).
(** a pointer to a struct; [d] decodes into a struct *)
Definition ptr {A} (z : A) (e : A -> json) (d : A -> json -> dres A) : codec (option A) :=
  Codec None (fun x => option_map e x) (fun _ => None) (fun cur j => dmap Some (d (match cur with Some x => x | None => z end) j)).
(** an embedded struct value: always written *)
Definition struct_ {A} (z : A) (e : A -> json) (d : A -> json -> dres A) : codec A := Codec z (fun x => Some (e x)) (fun x => x) d.

(** maps: keys sorted bytewise.  Decoding adds to the map; a null value is a zero value. *)
Definition str_le (a b : string) : Prop := String.leb a b = true.
#[export] Instance str_le_dec : RelDecision str_le := fun a b => decide (String.leb a b = true).
Definition key_le {V} (a b : string * V) : Prop := str_le a.1 b.1.
#[export] Instance key_le_dec {V} : RelDecision (@key_le V) := fun a b => str_le_dec a.1 b.1.
Definition sorted_keys {V} (m : gmap string V) : list (string * V) := merge_sort key_le (map_to_list m).
Fixpoint dec_map {V} (z : V) (f : json -> dres V) (ms : list (string * json)) (m : gmap string V) : dres (gmap string V) :=
  match ms with
  | [] => DOk m
  | (k, v) :: ms => dbind (match v with JNull => DOk z | _ => f v end) (fun x => dec_map z f ms (<[k := x]> m))
  end.
Definition map_ {V} (z : V) (e : V -> json) (d : json -> dres V) : codec (gmap string V) :=
  Codec ∅ (fun m => match sorted_keys m with [] => None | l => Some (JObj (map (fun kv => (kv.1, e kv.2)) l)) end) (fun _ => ∅)
        (fun cur j => match j with JObj ms => dec_map z d ms cur | _ => DErr end).

(** ** Structs *)
Record field (R : Type) := Field { f_T : Type; f_name : string; f_get : R -> f_T; f_set : f_T -> R -> R; f_codec : codec f_T }.
Arguments Field {R f_T}. Arguments f_T {R}. Arguments f_name {R}. Arguments f_get {R}. Arguments f_set {R}. Arguments f_codec {R}.

Definition enc_struct {R} (fs : list (field R)) (r : R) : json :=
  JObj (flat_map (fun f => match enc (f_codec f) (f_get f r) with Some j => [(f_name f, j)] | None => [] end) fs).

(** Name matching ([foldFunc]): ASCII letters ignoring case, and the two non-ASCII characters
    that fold to ASCII letters (U+212A to k, U+017F to s). *)
Definition fold_chunk (c : chunk) : list ascii :=
  match c with
  | Rune r bs => if (r =? 8490)%N then ["k"%char] else if (r =? 383)%N then ["s"%char]
                 else match bs with [a] => [lower_ascii a] | _ => bs end
  | Bad b => [b]
  end.
Definition fold_key (s : string) : string := sol (flat_map fold_chunk (chunks (los s))).
Definition find_field {R} (fs : list (field R)) (k : string) : option (field R) :=
  find (fun f => String.eqb (fold_key (f_name f)) (fold_key k)) fs.

Definition dec_val {T} (c : codec T) (cur : T) (v : json) : dres T := match v with JNull => DOk (nul c cur) | _ => dec c cur v end.
Fixpoint dec_members {R} (fs : list (field R)) (ms : list (string * json)) (r : R) : dres R :=
  match ms with
  | [] => DOk r
  | (k, v) :: ms =>
      match find_field fs k with
      | None => dec_members fs ms r
      | Some f => dbind (dec_val (f_codec f) (f_get f r) v) (fun x => dec_members fs ms (f_set f x r))
      end
  end.
(** decoding into the struct [r] *)
Definition dec_struct {R} (fs : list (field R)) (r : R) (j : json) : dres R :=
  match j with JObj ms => dec_members fs ms r | _ => DErr end.

(** ** The struct tags *)
(** [fld name proj codec] *)
Notation fld n p c := (Field n p (fun v r => r <| p := v |>) c).

(** name.go:23-33 *)
#[export] Instance eta_Name : Settable _ := settable! Build_Name
  <nm_first; nm_last; nm_middle; nm_preferred; nm_nickname; nm_confirmed; nm_primary; nm_legal; nm_alias>.
Definition name_z : Name := Build_Name "" "" "" "" false false false false false.
Definition name_f : list (field Name) :=
  [fld "first" nm_first str; fld "last" nm_last str; fld "middle" nm_middle str; fld "preferred" nm_preferred str;
   fld "nickname" nm_nickname flag; fld "confirmed" nm_confirmed flag; fld "primary" nm_primary flag;
   fld "legal" nm_legal flag; fld "alias" nm_alias flag].
(** organization.go:18-22 *)
Definition org_z : Organization := Build_Organization 0 "" [].
Definition org_f : list (field Organization) :=
  [fld "id" og_id (uint (2 ^ 64)); fld "name" og_name str; fld "aliases" og_aliases (list_at (DOk "") JStr dec_str)].
(** location.go:18-28 *)
Definition loc_z : Location := Build_Location "" "" "" "" false false false false false.
Definition loc_f : list (field Location) :=
  [fld "street" lc_street str; fld "city" lc_city str; fld "state" lc_state str; fld "zip_code" lc_zip str;
   fld "confirmed" lc_confirmed flag; fld "current" lc_current flag; fld "domicile" lc_domicile flag;
   fld "residential" lc_residential flag; fld "commercial" lc_commercial flag].
(** email.go:34-39 ([isPrimary] is unexported: neither written nor read) *)
#[export] Instance eta_Email : Settable _ := settable! Build_EmailAddress <em_address; em_confirmed; em_domain>.
Definition email_z : EmailAddress := Build_EmailAddress "" false "".
Definition email_f : list (field EmailAddress) :=
  [fld "address" em_address str; fld "confirmed" em_confirmed flag; fld "domain" em_domain str].
(** password.go:26-36 *)
Definition password_z : Password := Build_Password "" "" "" 0 false 0 0 false 0.
Definition password_f : list (field Password) :=
  [fld "purpose" pw_purpose str; fld "algorithm" pw_algorithm str; fld "hash" pw_hash str; fld "cost" pw_cost int_;
   fld "expired" pw_expired flag; fld "expired_at" pw_expired_at time_; fld "created_at" pw_created time_;
   fld "disabled" pw_disabled flag; fld "disabled_at" pw_disabled_at time_].
(** public_key.go:46-61 *)
Definition pubkey_z : PublicKey := Build_PublicKey "" "" "" "" "" "" "" "" false 0 0 false 0.
Definition pubkey_f : list (field PublicKey) :=
  [fld "id" pk_id str; fld "usage" pk_usage str; fld "type" pk_type str; fld "fingerprint" pk_fp str;
   fld "fingerprint_md5" pk_fp_md5 str; fld "comment" pk_comment str; fld "payload" pk_payload str; fld "openssh" pk_openssh str;
   fld "expired" pk_expired flag; fld "expired_at" pk_expired_at time_; fld "created_at" pk_created time_;
   fld "disabled" pk_disabled flag; fld "disabled_at" pk_disabled_at time_].
(** api_key.go:31-42 *)
Definition apikey_z : APIKey := Build_APIKey "" "" "" "" "" false 0 0 false 0.
Definition apikey_f : list (field APIKey) :=
  [fld "id" ak_id str; fld "prefix" ak_prefix str; fld "usage" ak_usage str; fld "comment" ak_comment str; fld "payload" ak_payload str;
   fld "expired" ak_expired flag; fld "expired_at" ak_expired_at time_; fld "created_at" ak_created time_;
   fld "disabled" ak_disabled flag; fld "disabled_at" ak_disabled_at time_].
(** mfa_token.go:67-71 *)
Definition device_z : MfaDevice := Build_MfaDevice "" "" "".
Definition device_f : list (field MfaDevice) :=
  [fld "name" dv_name str; fld "vendor" dv_vendor str; fld "type" dv_type str].
(** mfa_token.go:47-65 ([pubkey] is unexported) *)
Definition mfa_z : MfaToken := Build_MfaToken "" "" "" "" "" 0 0 false 0 0 false 0 None ∅ ∅ 0 None.
Definition mfa_f : list (field MfaToken) :=
  [fld "id" t_id str; fld "type" t_type str; fld "algorithm" t_algorithm str; fld "comment" t_comment str; fld "secret" t_secret str;
   fld "period" t_period int_; fld "digits" t_digits int_; fld "expired" t_expired flag; fld "expired_at" t_expired_at time_;
   fld "created_at" t_created time_; fld "disabled" t_disabled flag; fld "disabled_at" t_disabled_at time_;
   fld "device" t_device (ptr device_z (enc_struct device_f) (dec_struct device_f));
   fld "parameters" t_params (map_ "" JStr dec_str); fld "flags" t_flags (map_ false JBool dec_bool);
   fld "signature_counter" t_counter (uint (2 ^ 32))].
(** lockout.go:24-28 *)
Definition lockout_z : Lockout := Build_Lockout false 0 0.
Definition lockout_f : list (field Lockout) :=
  [fld "enabled" lk_enabled flag; fld "start_time" lk_start time_; fld "end_time" lk_end time_].
(** image.Config: no tags; ColorModel is an interface, written as null, and anything but null
    fails to decode into it *)
Definition imgcfg_z : ImageConfig := Build_ImageConfig 0 0.
Definition imgcfg_f : list (field ImageConfig) :=
  [Field "ColorModel" (fun _ => tt) (fun _ r => r) (scalar tt (fun _ => Some JNull) (fun _ => DErr));
   fld "Width" ic_width int_all; fld "Height" ic_height int_all].
(** image.go:22-28 *)
Definition image_z : Image := Build_Image "" "" imgcfg_z "".
Definition image_f : list (field Image) :=
  [fld "title" im_title str; fld "body" im_body str;
   fld "config" im_config (struct_ imgcfg_z (enc_struct imgcfg_f) (dec_struct imgcfg_f)); fld "path" im_path str].
(** role.go:23-26 *)
#[export] Instance eta_Role : Settable _ := settable! Build_Role <ro_name; ro_org>.
Definition role_z : Role := Build_Role "" "".
Definition role_f : list (field Role) := [fld "name" ro_name str; fld "organization" ro_org str].

(** A user as decoded: email addresses, passwords and API keys may contain nil pointers; those
    three lists of [ru_user] are empty. *)
Record RawUser := {
  raw_user : User; raw_emails : list (option EmailAddress); raw_passwords : list (option Password); raw_keys : list (option APIKey) }.
#[export] Instance eta_RawUser : Settable _ := settable! Build_RawUser <raw_user; raw_emails; raw_passwords; raw_keys>.
Definition user_z : User :=
  Build_User "" false false "" "" None None [] [] [] None [] [] [] [] [] None None 0 0 0 [].
Definition raw_z : RawUser := Build_RawUser user_z [] [] [].
Notation ufld n p c := (Field n (fun r => p (raw_user r)) (fun v r => r <| raw_user; p := v |>) c).
Notation sub e f z := (e (enc_struct f) (dec_struct f z)) (only parsing).
(** user.go:45-68 *)
Definition user_f : list (field RawUser) :=
  [ufld "id" u_id str; ufld "enabled" u_enabled flag; ufld "human" u_human flag; ufld "username" u_username str; ufld "title" u_title str;
   ufld "name" u_name (ptr name_z (enc_struct name_f) (dec_struct name_f)); ufld "organization" u_org (ptr org_z (enc_struct org_f) (dec_struct org_f));
   ufld "names" u_names (sub list_ name_f name_z); ufld "organizations" u_orgs (sub list_ org_f org_z);
   ufld "street_address" u_addrs (sub list_ loc_f loc_z); ufld "email_address" u_email (ptr email_z (enc_struct email_f) (dec_struct email_f));
   fld "email_addresses" raw_emails (sub opt_list email_f email_z); fld "passwords" raw_passwords (sub opt_list password_f password_z);
   ufld "public_keys" u_pubkeys (sub list_ pubkey_f pubkey_z); fld "api_keys" raw_keys (sub opt_list apikey_f apikey_z);
   ufld "mfa_tokens" u_mfa (sub list_ mfa_f mfa_z); ufld "lockout" u_lockout (ptr lockout_z (enc_struct lockout_f) (dec_struct lockout_f));
   ufld "avatar" u_avatar (ptr image_z (enc_struct image_f) (dec_struct image_f)); ufld "created" u_created time_; ufld "last_modified" u_modified time_;
   ufld "revision" u_revision int_; ufld "roles" u_roles (sub list_ role_f role_z)].

(** database.go:78-96 *)
Definition ppol_z : PasswordPolicy := Build_PasswordPolicy 0 0 0 false false false false false false.
Definition ppol_f : list (field PasswordPolicy) :=
  [fld "keep_versions" pp_keep int_all; fld "min_length" pp_min int_all; fld "max_length" pp_max int_all;
   fld "require_uppercase" pp_upper flag_all; fld "require_lowercase" pp_lower flag_all; fld "require_number" pp_number flag_all;
   fld "require_non_alpha_numeric" pp_nonalnum flag_all; fld "block_reuse" pp_block_reuse flag_all;
   fld "block_password_change" pp_block_change flag_all].
Definition upol_z : UserPolicy := Build_UserPolicy 0 0 false false.
Definition upol_f : list (field UserPolicy) :=
  [fld "min_length" up_min int_all; fld "max_length" up_max int_all; fld "allow_non_alpha_numeric" up_nonalnum flag_all;
   fld "allow_uppercase" up_upper flag_all].
(** database.go:72-75 *)
Definition policy_z : Policy := Build_Policy ppol_z upol_z.
Definition policy_f : list (field Policy) :=
  [fld "password" po_password (struct_ ppol_z (enc_struct ppol_f) (dec_struct ppol_f));
   fld "user" po_user (struct_ upol_z (enc_struct upol_f) (dec_struct upol_f))].
(** database.go:98-110; the unexported fields are not persisted *)
Record RawContent := {
  rc_version : string; rc_policy : Policy; rc_revision : N; rc_modified : Z; rc_users : list (option RawUser) }.
#[export] Instance eta_RawContent : Settable _ := settable! Build_RawContent <rc_version; rc_policy; rc_revision; rc_modified; rc_users>.
Definition content_z : RawContent := Build_RawContent "" policy_z 0 0 [].
Definition content_f : list (field RawContent) :=
  [fld "version" rc_version str;
   fld "policy" rc_policy (struct_ policy_z (enc_struct policy_f) (dec_struct policy_f));
   fld "revision" rc_revision (uint (2 ^ 64)); fld "last_modified" rc_modified time_;
   fld "users" rc_users (opt_list (enc_struct user_f) (dec_struct user_f raw_z))].

(** ** Marshalling *)
Definition to_raw_user (u : User) : RawUser := {|
  raw_user := u <| u_emails := [] |> <| u_passwords := [] |> <| u_apikeys := [] |>;
  raw_emails := map Some (u_emails u); raw_passwords := map Some (u_passwords u); raw_keys := map Some (u_apikeys u) |}.
Definition to_raw (c : Content) : RawContent := {|
  rc_version := c_version c; rc_policy := c_policy c; rc_revision := c_revision c; rc_modified := c_modified c;
  rc_users := map (fun u => Some (to_raw_user u)) (c_users c) |}.

(** All times of a value lie in years 0..9999; otherwise [Time.MarshalJSON] and with it
    [json.MarshalIndent] fail. *)
Definition opt_all {A} (f : A -> bool) (x : option A) : bool := match x with Some x => f x | None => true end.
Definition password_times (p : Password) : bool := time_ok (pw_expired_at p) && time_ok (pw_created p) && time_ok (pw_disabled_at p).
Definition apikey_times (p : APIKey) : bool := time_ok (ak_expired_at p) && time_ok (ak_created p) && time_ok (ak_disabled_at p).
Definition pubkey_times (p : PublicKey) : bool := time_ok (pk_expired_at p) && time_ok (pk_created p) && time_ok (pk_disabled_at p).
Definition mfa_times (p : MfaToken) : bool := time_ok (t_expired_at p) && time_ok (t_created p) && time_ok (t_disabled_at p).
Definition lockout_times (p : Lockout) : bool := time_ok (lk_start p) && time_ok (lk_end p).
Definition raw_user_times (r : RawUser) : bool :=
  let u := raw_user r in
  forallb (opt_all password_times) (raw_passwords r) && forallb pubkey_times (u_pubkeys u) &&
  forallb (opt_all apikey_times) (raw_keys r) && forallb mfa_times (u_mfa u) && opt_all lockout_times (u_lockout u) &&
  time_ok (u_created u) && time_ok (u_modified u).
Definition raw_times (c : RawContent) : bool := time_ok (rc_modified c) && forallb (opt_all raw_user_times) (rc_users c).

(** database.go:458 [json.MarshalIndent(db, "", "  ")]; [None] is an error *)
Definition marshal_raw (c : RawContent) : option string :=
  if raw_times c then Some (sol (print 0 (enc_struct content_f c))) else None.
Definition marshal (c : Content) : option string := marshal_raw (to_raw c).
(** database.go:144 [json.Unmarshal(b, db)] *)
Definition unmarshal (s : string) : dres RawContent :=
  match parse (los s) with
  | None => DErr
  | Some JNull => DOk content_z
  | Some j => dec_struct content_f content_z j
  end.
