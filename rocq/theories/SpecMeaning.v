(** What a database file means, stated on the parsed tree without the codecs of [Persist.v].  A
    field takes its value from all members whose name equals the field's name ignoring case
    ([vals], see [spells]); later members prevail. *)
From Coq Require Import String Ascii ZArith NArith Lia Bool Arith List.
From stdpp Require Import gmap strings.
From Verif Require Import GoStr Json GoTime Role Name Email Types Persist SpecLayout SpecRead SpecWebAuthn.
Import ListNotations.
Open Scope string_scope.

(** ** Names *)
Definition twins (a b : ascii) : Prop :=
  exists n, (65 <= n <= 90)%N /\ ((a = ascii_of_N n /\ b = ascii_of_N (n + 32)) \/ (b = ascii_of_N n /\ a = ascii_of_N (n + 32))).
(** [spells n k]: [k] is [n] with some letters in the other case; the Kelvin sign (U+212A) may
    stand for k and the long s (U+017F) for s. *)
Inductive spells : list ascii -> list ascii -> Prop :=
| SpNone : spells [] []
| SpSame a n k : spells n k -> spells (a :: n) (a :: k)
| SpCase a b n k : twins a b -> spells n k -> spells (a :: n) (b :: k)
| SpKelvin a n k : a = "k"%char \/ a = "K"%char -> spells n k -> spells (a :: n) (bytes [226; 132; 170]%N ++ k)
| SpLong a n k : a = "s"%char \/ a = "S"%char -> spells n k -> spells (a :: n) (bytes [197; 191]%N ++ k).

(** ** Values *)
Definition a_text (v : json) (s : string) : Prop := v = JStr s.
Definition a_flag (v : json) (b : bool) : Prop := v = JBool b.
(** a whole number of 64 bits, without fraction and exponent *)
Definition a_int (v : json) (z : Z) : Prop := exists lit w n l, v = JNum lit /\ digits_of (S w) n l /\
  ((los lit = l /\ z = n) \/ (los lit = "-"%char :: l /\ z = (- n)%Z)) /\ (- 2 ^ 63 <= z < 2 ^ 63)%Z.
Definition a_uint (bits : Z) (v : json) (n : N) : Prop := exists lit w, v = JNum lit /\ digits_of (S w) (Z.of_N n) (los lit) /\ (Z.of_N n < 2 ^ bits)%Z.
Definition a_time (v : json) (t : Z) : Prop := exists s, v = JStr s /\ says_time (los s) t.
Definition a_text_or_null (v : json) (s : string) : Prop := (v = JNull /\ s = "") \/ a_text v s.
Definition or_null {A} (R : json -> A -> Prop) (v : json) (x : option A) : Prop := (v = JNull /\ x = None) \/ exists a, R v a /\ x = Some a.
Definition obj {A} (S : members -> A -> Prop) (v : json) (a : A) : Prop := exists m, v = JObj m /\ S m a.

(** ** Fields: what the values of the members of one name amount to *)
(** Without any, the zero value; null changes nothing; otherwise the last counts, and all must be readable. *)
Inductive last_of {T} (R : json -> T -> Prop) (z : T) : list json -> T -> Prop :=
| LoNone : last_of R z [] z
| LoNull vs x : last_of R z vs x -> last_of R z (vs ++ [JNull]) x
| LoVal vs x v y : last_of R z vs x -> R v y -> last_of R z (vs ++ [v]) y.
(** null empties a list; an array is read into an empty list (into another one: not modelled) *)
Inductive array_of {A} (R : json -> A -> Prop) : list json -> list A -> Prop :=
| AoNone : array_of R [] []
| AoNull vs l : array_of R vs l -> array_of R (vs ++ [JNull]) []
| AoArr vs js l : array_of R vs [] -> Forall2 R js l -> array_of R (vs ++ [JArr js]) l.
(** null changes nothing; objects are read as one *)
Inductive joined : list json -> members -> Prop :=
| JnNone : joined [] []
| JnNull vs m : joined vs m -> joined (vs ++ [JNull]) m
| JnObj vs m n : joined vs m -> joined (vs ++ [JObj n]) (m ++ n)%list.
Definition embedded {A} (S : members -> A -> Prop) (vs : list json) (a : A) : Prop := exists m, joined vs m /\ S m a.
(** a dictionary; a null value is a zero value *)
Definition dict {A} (R : json -> A -> Prop) (z : A) (vs : list json) (m : gmap string A) : Prop :=
  exists y, map_vals (fun v x => (v = JNull /\ x = z) \/ R v x) vs y /\ m = default ∅ y.

Definition text : list json -> string -> Prop := last_of a_text "".
Definition flag : list json -> bool -> Prop := last_of a_flag false.
Definition int : list json -> Z -> Prop := last_of a_int 0%Z.
Definition uint64 : list json -> N -> Prop := last_of (a_uint 64) 0%N.
Definition uint32 : list json -> N -> Prop := last_of (a_uint 32) 0%N.
Definition time : list json -> Z -> Prop := last_of a_time 0%Z.

(** ** Types *)
(** name.go:23-33 *)
Definition s_name (m : members) (x : Name) : Prop :=
  text (vals m "first") (nm_first x) /\ text (vals m "last") (nm_last x) /\ text (vals m "middle") (nm_middle x) /\
  text (vals m "preferred") (nm_preferred x) /\ flag (vals m "nickname") (nm_nickname x) /\ flag (vals m "confirmed") (nm_confirmed x) /\
  flag (vals m "primary") (nm_primary x) /\ flag (vals m "legal") (nm_legal x) /\ flag (vals m "alias") (nm_alias x).
(** organization.go:18-22 *)
Definition s_org (m : members) (x : Organization) : Prop :=
  uint64 (vals m "id") (og_id x) /\ text (vals m "name") (og_name x) /\ array_of a_text_or_null (vals m "aliases") (og_aliases x).
(** location.go:18-28 *)
Definition s_loc (m : members) (x : Location) : Prop :=
  text (vals m "street") (lc_street x) /\ text (vals m "city") (lc_city x) /\ text (vals m "state") (lc_state x) /\
  text (vals m "zip_code") (lc_zip x) /\ flag (vals m "confirmed") (lc_confirmed x) /\ flag (vals m "current") (lc_current x) /\
  flag (vals m "domicile") (lc_domicile x) /\ flag (vals m "residential") (lc_residential x) /\
  flag (vals m "commercial") (lc_commercial x).
(** email.go:34-39 *)
Definition s_email (m : members) (x : EmailAddress) : Prop :=
  text (vals m "address") (em_address x) /\ flag (vals m "confirmed") (em_confirmed x) /\ text (vals m "domain") (em_domain x).
(** password.go:26-36 *)
Definition s_password (m : members) (x : Password) : Prop :=
  text (vals m "purpose") (pw_purpose x) /\ text (vals m "algorithm") (pw_algorithm x) /\ text (vals m "hash") (pw_hash x) /\
  int (vals m "cost") (pw_cost x) /\ flag (vals m "expired") (pw_expired x) /\ time (vals m "expired_at") (pw_expired_at x) /\
  time (vals m "created_at") (pw_created x) /\ flag (vals m "disabled") (pw_disabled x) /\ time (vals m "disabled_at") (pw_disabled_at x).
(** public_key.go:46-61 *)
Definition s_pubkey (m : members) (x : PublicKey) : Prop :=
  text (vals m "id") (pk_id x) /\ text (vals m "usage") (pk_usage x) /\ text (vals m "type") (pk_type x) /\
  text (vals m "fingerprint") (pk_fp x) /\ text (vals m "fingerprint_md5") (pk_fp_md5 x) /\ text (vals m "comment") (pk_comment x) /\
  text (vals m "payload") (pk_payload x) /\ text (vals m "openssh") (pk_openssh x) /\ flag (vals m "expired") (pk_expired x) /\
  time (vals m "expired_at") (pk_expired_at x) /\ time (vals m "created_at") (pk_created x) /\ flag (vals m "disabled") (pk_disabled x) /\
  time (vals m "disabled_at") (pk_disabled_at x).
(** api_key.go:31-42 *)
Definition s_apikey (m : members) (x : APIKey) : Prop :=
  text (vals m "id") (ak_id x) /\ text (vals m "prefix") (ak_prefix x) /\ text (vals m "usage") (ak_usage x) /\
  text (vals m "comment") (ak_comment x) /\ text (vals m "payload") (ak_payload x) /\ flag (vals m "expired") (ak_expired x) /\
  time (vals m "expired_at") (ak_expired_at x) /\ time (vals m "created_at") (ak_created x) /\ flag (vals m "disabled") (ak_disabled x) /\
  time (vals m "disabled_at") (ak_disabled_at x).
(** mfa_token.go:67-71 *)
Definition s_device (m : members) (x : MfaDevice) : Prop :=
  text (vals m "name") (dv_name x) /\ text (vals m "vendor") (dv_vendor x) /\ text (vals m "type") (dv_type x).
(** mfa_token.go:47-65; the unexported pubkey is not in the file *)
Definition s_mfa (m : members) (x : MfaToken) : Prop :=
  text (vals m "id") (t_id x) /\ text (vals m "type") (t_type x) /\ text (vals m "algorithm") (t_algorithm x) /\
  text (vals m "comment") (t_comment x) /\ text (vals m "secret") (t_secret x) /\ int (vals m "period") (t_period x) /\
  int (vals m "digits") (t_digits x) /\ flag (vals m "expired") (t_expired x) /\ time (vals m "expired_at") (t_expired_at x) /\
  time (vals m "created_at") (t_created x) /\ flag (vals m "disabled") (t_disabled x) /\ time (vals m "disabled_at") (t_disabled_at x) /\
  ptr_vals s_device (vals m "device") (t_device x) /\ dict a_text "" (vals m "parameters") (t_params x) /\
  dict a_flag false (vals m "flags") (t_flags x) /\ uint32 (vals m "signature_counter") (t_counter x) /\ t_cache x = None.
(** lockout.go:24-28 *)
Definition s_lockout (m : members) (x : Lockout) : Prop :=
  flag (vals m "enabled") (lk_enabled x) /\ time (vals m "start_time") (lk_start x) /\ time (vals m "end_time") (lk_end x).
(** image.Config; its ColorModel is an interface and can only be null *)
Definition s_imgcfg (m : members) (x : ImageConfig) : Prop :=
  Forall (eq JNull) (vals m "ColorModel") /\ int (vals m "Width") (ic_width x) /\ int (vals m "Height") (ic_height x).
(** image.go:22-28 *)
Definition s_image (m : members) (x : Image) : Prop :=
  text (vals m "title") (im_title x) /\ text (vals m "body") (im_body x) /\ embedded s_imgcfg (vals m "config") (im_config x) /\
  text (vals m "path") (im_path x).
(** role.go:23-26 *)
Definition s_role (m : members) (x : Role) : Prop :=
  text (vals m "name") (ro_name x) /\ text (vals m "organization") (ro_org x).
(** user.go:45-68; the lists that may hold null pointers are kept apart ([raw_emails], [raw_passwords], [raw_keys]) *)
Definition s_user (m : members) (x : RawUser) : Prop :=
  text (vals m "id") (u_id (raw_user x)) /\ flag (vals m "enabled") (u_enabled (raw_user x)) /\
  flag (vals m "human") (u_human (raw_user x)) /\ text (vals m "username") (u_username (raw_user x)) /\
  text (vals m "title") (u_title (raw_user x)) /\ ptr_vals s_name (vals m "name") (u_name (raw_user x)) /\
  ptr_vals s_org (vals m "organization") (u_org (raw_user x)) /\ array_of (obj s_name) (vals m "names") (u_names (raw_user x)) /\
  array_of (obj s_org) (vals m "organizations") (u_orgs (raw_user x)) /\
  array_of (obj s_loc) (vals m "street_address") (u_addrs (raw_user x)) /\
  ptr_vals s_email (vals m "email_address") (u_email (raw_user x)) /\
  array_of (or_null (obj s_email)) (vals m "email_addresses") (raw_emails x) /\
  array_of (or_null (obj s_password)) (vals m "passwords") (raw_passwords x) /\
  array_of (obj s_pubkey) (vals m "public_keys") (u_pubkeys (raw_user x)) /\
  array_of (or_null (obj s_apikey)) (vals m "api_keys") (raw_keys x) /\ array_of (obj s_mfa) (vals m "mfa_tokens") (u_mfa (raw_user x)) /\
  ptr_vals s_lockout (vals m "lockout") (u_lockout (raw_user x)) /\ ptr_vals s_image (vals m "avatar") (u_avatar (raw_user x)) /\
  time (vals m "created") (u_created (raw_user x)) /\ time (vals m "last_modified") (u_modified (raw_user x)) /\
  int (vals m "revision") (u_revision (raw_user x)) /\ array_of (obj s_role) (vals m "roles") (u_roles (raw_user x)) /\
  u_emails (raw_user x) = [] /\ u_passwords (raw_user x) = [] /\ u_apikeys (raw_user x) = [].
(** database.go:78-88 *)
Definition s_ppol (m : members) (x : PasswordPolicy) : Prop :=
  int (vals m "keep_versions") (pp_keep x) /\ int (vals m "min_length") (pp_min x) /\ int (vals m "max_length") (pp_max x) /\
  flag (vals m "require_uppercase") (pp_upper x) /\ flag (vals m "require_lowercase") (pp_lower x) /\
  flag (vals m "require_number") (pp_number x) /\ flag (vals m "require_non_alpha_numeric") (pp_nonalnum x) /\
  flag (vals m "block_reuse") (pp_block_reuse x) /\ flag (vals m "block_password_change") (pp_block_change x).
(** database.go:90-96 *)
Definition s_upol (m : members) (x : UserPolicy) : Prop :=
  int (vals m "min_length") (up_min x) /\ int (vals m "max_length") (up_max x) /\
  flag (vals m "allow_non_alpha_numeric") (up_nonalnum x) /\ flag (vals m "allow_uppercase") (up_upper x).
(** database.go:72-75 *)
Definition s_policy (m : members) (x : Policy) : Prop :=
  embedded s_ppol (vals m "password") (po_password x) /\ embedded s_upol (vals m "user") (po_user x).
(** database.go:98-110 *)
Definition s_content (m : members) (x : RawContent) : Prop :=
  text (vals m "version") (rc_version x) /\ embedded s_policy (vals m "policy") (rc_policy x) /\
  uint64 (vals m "revision") (rc_revision x) /\ time (vals m "last_modified") (rc_modified x) /\
  array_of (or_null (obj s_user)) (vals m "users") (rc_users x).

(** A text is a database file with content [c]: a JSON object, or null, read as an object without members. *)
Definition database_text (s : string) (c : RawContent) : Prop := message_text s_content s c.
