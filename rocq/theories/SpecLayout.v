(** The layout of the database file, written out member by member from the struct tags
    (database.go:72-110, user.go:45-68, name.go:23-33, organization.go:18-22, location.go:18-28,
    email.go:34-39, password.go:26-36, public_key.go:46-61, api_key.go:31-42, mfa_token.go:47-71,
    lockout.go:24-28, image.go:22-28, role.go:23-26) without the codecs of [Persist], and the
    calendar meaning of the times in it. *)
From Coq Require Import String Ascii ZArith NArith Lia Bool Arith List.
From stdpp Require Import gmap strings.
From Verif Require Import GoStr Json GoTime Role Name Email Types Persist.
Import ListNotations.
Open Scope string_scope.

(** A text, a flag, a number that is left out when empty, false, zero; a time that never is. *)
Definition l_text (n s : string) : list (string * json) := match s with "" => [] | _ => [(n, JStr s)] end.
Definition l_flag (n : string) (b : bool) : list (string * json) := if b then [(n, JBool true)] else [].
Definition l_num (n : string) (z : Z) : list (string * json) := if (z =? 0)%Z then [] else [(n, JNum (sprint_d z))].
Definition l_time (n : string) (t : Z) : list (string * json) := [(n, JStr (sol (time_print t)))].
Definition l_opt {A} (n : string) (f : A -> json) (x : option A) : list (string * json) := match x with Some x => [(n, f x)] | None => [] end.
Definition l_many {A} (n : string) (f : A -> json) (l : list A) : list (string * json) := match l with [] => [] | _ => [(n, JArr (map f l))] end.
(** members in bytewise order of their names *)
Definition l_dict {A} (n : string) (f : A -> json) (m : gmap string A) : list (string * json) :=
  match sorted_keys m with [] => [] | l => [(n, JObj (map (fun kv => (fst kv, f (snd kv))) l))] end.

Definition l_name (x : Name) : json := JObj (
  l_text "first" (nm_first x) ++ l_text "last" (nm_last x) ++ l_text "middle" (nm_middle x) ++ l_text "preferred" (nm_preferred x) ++
  l_flag "nickname" (nm_nickname x) ++ l_flag "confirmed" (nm_confirmed x) ++ l_flag "primary" (nm_primary x) ++
  l_flag "legal" (nm_legal x) ++ l_flag "alias" (nm_alias x))%list.
Definition l_org (x : Organization) : json := JObj (
  l_num "id" (Z.of_N (og_id x)) ++ l_text "name" (og_name x) ++ l_many "aliases" JStr (og_aliases x))%list.
Definition l_loc (x : Location) : json := JObj (
  l_text "street" (lc_street x) ++ l_text "city" (lc_city x) ++ l_text "state" (lc_state x) ++ l_text "zip_code" (lc_zip x) ++
  l_flag "confirmed" (lc_confirmed x) ++ l_flag "current" (lc_current x) ++ l_flag "domicile" (lc_domicile x) ++
  l_flag "residential" (lc_residential x) ++ l_flag "commercial" (lc_commercial x))%list.
Definition l_email (x : EmailAddress) : json := JObj (
  l_text "address" (em_address x) ++ l_flag "confirmed" (em_confirmed x) ++ l_text "domain" (em_domain x))%list.
Definition l_password (x : Password) : json := JObj (
  l_text "purpose" (pw_purpose x) ++ l_text "algorithm" (pw_algorithm x) ++ l_text "hash" (pw_hash x) ++ l_num "cost" (pw_cost x) ++
  l_flag "expired" (pw_expired x) ++ l_time "expired_at" (pw_expired_at x) ++ l_time "created_at" (pw_created x) ++
  l_flag "disabled" (pw_disabled x) ++ l_time "disabled_at" (pw_disabled_at x))%list.
Definition l_pubkey (x : PublicKey) : json := JObj (
  l_text "id" (pk_id x) ++ l_text "usage" (pk_usage x) ++ l_text "type" (pk_type x) ++ l_text "fingerprint" (pk_fp x) ++
  l_text "fingerprint_md5" (pk_fp_md5 x) ++ l_text "comment" (pk_comment x) ++ l_text "payload" (pk_payload x) ++ l_text "openssh" (pk_openssh x) ++
  l_flag "expired" (pk_expired x) ++ l_time "expired_at" (pk_expired_at x) ++ l_time "created_at" (pk_created x) ++
  l_flag "disabled" (pk_disabled x) ++ l_time "disabled_at" (pk_disabled_at x))%list.
Definition l_apikey (x : APIKey) : json := JObj (
  l_text "id" (ak_id x) ++ l_text "prefix" (ak_prefix x) ++ l_text "usage" (ak_usage x) ++ l_text "comment" (ak_comment x) ++ l_text "payload" (ak_payload x) ++
  l_flag "expired" (ak_expired x) ++ l_time "expired_at" (ak_expired_at x) ++ l_time "created_at" (ak_created x) ++
  l_flag "disabled" (ak_disabled x) ++ l_time "disabled_at" (ak_disabled_at x))%list.
Definition l_device (x : MfaDevice) : json := JObj (l_text "name" (dv_name x) ++ l_text "vendor" (dv_vendor x) ++ l_text "type" (dv_type x))%list.
Definition l_mfa (x : MfaToken) : json := JObj (
  l_text "id" (t_id x) ++ l_text "type" (t_type x) ++ l_text "algorithm" (t_algorithm x) ++ l_text "comment" (t_comment x) ++ l_text "secret" (t_secret x) ++
  l_num "period" (t_period x) ++ l_num "digits" (t_digits x) ++ l_flag "expired" (t_expired x) ++ l_time "expired_at" (t_expired_at x) ++
  l_time "created_at" (t_created x) ++ l_flag "disabled" (t_disabled x) ++ l_time "disabled_at" (t_disabled_at x) ++
  l_opt "device" l_device (t_device x) ++ l_dict "parameters" JStr (t_params x) ++ l_dict "flags" JBool (t_flags x) ++
  l_num "signature_counter" (Z.of_N (t_counter x)))%list.
Definition l_lockout (x : Lockout) : json := JObj (l_flag "enabled" (lk_enabled x) ++ l_time "start_time" (lk_start x) ++ l_time "end_time" (lk_end x))%list.
Definition l_image (x : Image) : json := JObj (
  l_text "title" (im_title x) ++ l_text "body" (im_body x) ++
  [("config", JObj [("ColorModel", JNull); ("Width", JNum (sprint_d (ic_width (im_config x)))); ("Height", JNum (sprint_d (ic_height (im_config x))))])] ++
  l_text "path" (im_path x))%list.
Definition l_role (x : Role) : json := JObj (l_text "name" (ro_name x) ++ l_text "organization" (ro_org x))%list.
Definition l_user (x : User) : json := JObj (
  l_text "id" (u_id x) ++ l_flag "enabled" (u_enabled x) ++ l_flag "human" (u_human x) ++ l_text "username" (u_username x) ++ l_text "title" (u_title x) ++
  l_opt "name" l_name (u_name x) ++ l_opt "organization" l_org (u_org x) ++ l_many "names" l_name (u_names x) ++ l_many "organizations" l_org (u_orgs x) ++
  l_many "street_address" l_loc (u_addrs x) ++ l_opt "email_address" l_email (u_email x) ++ l_many "email_addresses" l_email (u_emails x) ++
  l_many "passwords" l_password (u_passwords x) ++ l_many "public_keys" l_pubkey (u_pubkeys x) ++ l_many "api_keys" l_apikey (u_apikeys x) ++
  l_many "mfa_tokens" l_mfa (u_mfa x) ++ l_opt "lockout" l_lockout (u_lockout x) ++ l_opt "avatar" l_image (u_avatar x) ++
  l_time "created" (u_created x) ++ l_time "last_modified" (u_modified x) ++ l_num "revision" (u_revision x) ++ l_many "roles" l_role (u_roles x))%list.
Definition l_policy (p : Policy) : json :=
  let q := po_password p in let u := po_user p in
  JObj [("password", JObj [("keep_versions", JNum (sprint_d (pp_keep q))); ("min_length", JNum (sprint_d (pp_min q))); ("max_length", JNum (sprint_d (pp_max q)));
           ("require_uppercase", JBool (pp_upper q)); ("require_lowercase", JBool (pp_lower q)); ("require_number", JBool (pp_number q));
           ("require_non_alpha_numeric", JBool (pp_nonalnum q)); ("block_reuse", JBool (pp_block_reuse q)); ("block_password_change", JBool (pp_block_change q))]);
        ("user", JObj [("min_length", JNum (sprint_d (up_min u))); ("max_length", JNum (sprint_d (up_max u)));
           ("allow_non_alpha_numeric", JBool (up_nonalnum u)); ("allow_uppercase", JBool (up_upper u))])].
Definition layout (c : Content) : json := JObj (
  l_text "version" (c_version c) ++ [("policy", l_policy (c_policy c))] ++ l_num "revision" (Z.of_N (c_revision c)) ++
  l_time "last_modified" (c_modified c) ++ l_many "users" l_user (c_users c))%list.

(** All texts and member names of a JSON value. *)
Fixpoint json_texts (j : json) : list string :=
  match j with
  | JStr s => [s]
  | JArr l => flat_map json_texts l
  | JObj m => flat_map (fun kv => fst kv :: json_texts (snd kv)) m
  | _ => []
  end.

(** The Gregorian calendar, counted year by year and month by month. *)
Open Scope Z_scope.
Definition is_leap (y : Z) : Prop := (4 | y) /\ (~ (100 | y) \/ (400 | y)).
Inductive year_start : Z -> Z -> Prop :=   (* year, days from 0001-01-01 to its first day *)
  | YsOne : year_start 1 0
  | YsNext y n k : year_start y n -> (is_leap y -> k = 366) -> (~ is_leap y -> k = 365) -> year_start (y + 1) (n + k)
  | YsPrev y n k : year_start (y + 1) n -> (is_leap y -> k = 366) -> (~ is_leap y -> k = 365) -> year_start y (n - k).
Definition month_lengths (february : Z) : list Z := [31; february; 31; 30; 31; 30; 31; 31; 30; 31; 30; 31].
Definition sumZ (l : list Z) : Z := fold_right Z.add 0 l.
(** [t] lies on that day at that time of day (UTC); [t] counts nanoseconds from 0001-01-01. *)
Record on_clock (t y mo d h mi s ns : Z) : Prop := {
  oc_feb : exists start feb, year_start y start /\ (is_leap y -> feb = 29) /\ (~ is_leap y -> feb = 28) /\
    1 <= mo <= 12 /\ (exists len, nth_error (month_lengths feb) (Z.to_nat (mo - 1)) = Some len /\ 1 <= d <= len) /\
    t = ((start + sumZ (firstn (Z.to_nat (mo - 1)) (month_lengths feb)) + (d - 1)) * 86400 + h * 3600 + mi * 60 + s) * 1000000000 + ns;
  oc_time : 0 <= h < 24 /\ 0 <= mi < 60 /\ 0 <= s < 60 /\ 0 <= ns < 1000000000 }.
(** [w] decimal digits with value [n] *)
Definition digits_of (w : nat) (n : Z) (l : list ascii) : Prop :=
  List.length l = w /\ Forall (fun a => is_digit a = true) l /\ Z.of_N (dec_val_l l 0) = n.
