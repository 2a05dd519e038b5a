(** Vocabulary of the theorems about the database file (C50-C59): which texts a database
    contains, which values the Go types can hold, and what replacing undecodable bytes does
    to a database. *)
From Coq Require Import String Ascii ZArith NArith Lia Bool Arith List.
From stdpp Require Import gmap strings.
From RecordUpdate Require Import RecordSet.
From Verif Require Import GoStr Utf8 GoTime GoErr Role Name Email Types Env Persist Fs Database System SpecDb SpecAuth.
Import ListNotations.
Open Scope string_scope.

(** ** All texts of a database *)
Definition name_texts (n : Name) : list string := [nm_first n; nm_last n; nm_middle n; nm_preferred n].
Definition org_texts (o : Organization) : list string := og_name o :: og_aliases o.
Definition loc_texts (l : Location) : list string := [lc_street l; lc_city l; lc_state l; lc_zip l].
Definition email_texts (e : EmailAddress) : list string := [em_address e; em_domain e].
Definition password_texts (p : Password) : list string := [pw_purpose p; pw_algorithm p; pw_hash p].
Definition pubkey_texts (k : PublicKey) : list string :=
  [pk_id k; pk_usage k; pk_type k; pk_fp k; pk_fp_md5 k; pk_comment k; pk_payload k; pk_openssh k].
Definition apikey_texts (k : APIKey) : list string := [ak_id k; ak_prefix k; ak_usage k; ak_comment k; ak_payload k].
Definition device_texts (d : MfaDevice) : list string := [dv_name d; dv_vendor d; dv_type d].
Definition opt_texts {A} (f : A -> list string) (x : option A) : list string := match x with Some a => f a | None => [] end.
Definition mfa_texts (t : MfaToken) : list string :=
  ([t_id t; t_type t; t_algorithm t; t_comment t; t_secret t] ++ opt_texts device_texts (t_device t) ++
   map fst (map_to_list (t_params t)) ++ map snd (map_to_list (t_params t)) ++ map fst (map_to_list (t_flags t)))%list.
Definition image_texts (i : Image) : list string := [im_title i; im_body i; im_path i].
Definition role_texts (r : Role) : list string := [ro_name r; ro_org r].
Definition user_texts (u : User) : list string :=
  ([u_id u; u_username u; u_title u] ++ opt_texts name_texts (u_name u) ++ opt_texts org_texts (u_org u) ++
   flat_map name_texts (u_names u) ++ flat_map org_texts (u_orgs u) ++ flat_map loc_texts (u_addrs u) ++
   opt_texts email_texts (u_email u) ++ flat_map email_texts (u_emails u) ++ flat_map password_texts (u_passwords u) ++
   flat_map pubkey_texts (u_pubkeys u) ++ flat_map apikey_texts (u_apikeys u) ++ flat_map mfa_texts (u_mfa u) ++
   opt_texts image_texts (u_avatar u) ++ flat_map role_texts (u_roles u))%list.
Definition content_texts (c : Content) : list string := c_version c :: flat_map user_texts (c_users c).
Definition all_utf8 (l : list string) : Prop := Forall (fun s => valid_utf8 s = true) l.

(** ** What the Go types can hold *)
Definition is_int64 (z : Z) : Prop := (- 2 ^ 63 <= z < 2 ^ 63)%Z.
Definition opt_P {A} (P : A -> Prop) (x : option A) : Prop := match x with Some a => P a | None => True end.
Definition org_typed (o : Organization) : Prop := (og_id o < 2 ^ 64)%N.
Definition password_typed (p : Password) : Prop := is_int64 (pw_cost p).
(** int period and digits, a uint32 counter, map keys that JSON can hold *)
Definition mfa_typed (t : MfaToken) : Prop :=
  is_int64 (t_period t) /\ is_int64 (t_digits t) /\ (t_counter t < 2 ^ 32)%N /\
  (forall k, is_Some (t_params t !! k) -> valid_utf8 k = true) /\ (forall k, is_Some (t_flags t !! k) -> valid_utf8 k = true).
Definition image_typed (i : Image) : Prop := is_int64 (ic_width (im_config i)) /\ is_int64 (ic_height (im_config i)).
Definition user_typed (u : User) : Prop :=
  opt_P org_typed (u_org u) /\ Forall org_typed (u_orgs u) /\ Forall password_typed (u_passwords u) /\ Forall mfa_typed (u_mfa u) /\
  opt_P image_typed (u_avatar u) /\ is_int64 (u_revision u).
Definition policy_typed (p : Policy) : Prop :=
  is_int64 (pp_keep (po_password p)) /\ is_int64 (pp_min (po_password p)) /\ is_int64 (pp_max (po_password p)) /\
  is_int64 (up_min (po_user p)) /\ is_int64 (up_max (po_user p)).
Definition content_typed (c : Content) : Prop :=
  policy_typed (c_policy c) /\ (c_revision c < 2 ^ 64)%N /\ Forall user_typed (c_users c).

(** ** Every undecodable byte of every text replaced by U+FFFD, key caches dropped *)
Definition clean_name (n : Name) : Name :=
  Build_Name (sanitize (nm_first n)) (sanitize (nm_last n)) (sanitize (nm_middle n)) (sanitize (nm_preferred n))
    (nm_nickname n) (nm_confirmed n) (nm_primary n) (nm_legal n) (nm_alias n).
Definition clean_org (o : Organization) : Organization := Build_Organization (og_id o) (sanitize (og_name o)) (map sanitize (og_aliases o)).
Definition clean_loc (l : Location) : Location :=
  Build_Location (sanitize (lc_street l)) (sanitize (lc_city l)) (sanitize (lc_state l)) (sanitize (lc_zip l))
    (lc_confirmed l) (lc_current l) (lc_domicile l) (lc_residential l) (lc_commercial l).
Definition clean_email (e : EmailAddress) : EmailAddress := Build_EmailAddress (sanitize (em_address e)) (em_confirmed e) (sanitize (em_domain e)).
Definition clean_password (p : Password) : Password :=
  Build_Password (sanitize (pw_purpose p)) (sanitize (pw_algorithm p)) (sanitize (pw_hash p)) (pw_cost p)
    (pw_expired p) (pw_expired_at p) (pw_created p) (pw_disabled p) (pw_disabled_at p).
Definition clean_pubkey (k : PublicKey) : PublicKey :=
  Build_PublicKey (sanitize (pk_id k)) (sanitize (pk_usage k)) (sanitize (pk_type k)) (sanitize (pk_fp k)) (sanitize (pk_fp_md5 k))
    (sanitize (pk_comment k)) (sanitize (pk_payload k)) (sanitize (pk_openssh k))
    (pk_expired k) (pk_expired_at k) (pk_created k) (pk_disabled k) (pk_disabled_at k).
Definition clean_apikey (k : APIKey) : APIKey :=
  Build_APIKey (sanitize (ak_id k)) (sanitize (ak_prefix k)) (sanitize (ak_usage k)) (sanitize (ak_comment k)) (sanitize (ak_payload k))
    (ak_expired k) (ak_expired_at k) (ak_created k) (ak_disabled k) (ak_disabled_at k).
Definition clean_device (d : MfaDevice) : MfaDevice := Build_MfaDevice (sanitize (dv_name d)) (sanitize (dv_vendor d)) (sanitize (dv_type d)).
Definition clean_mfa (t : MfaToken) : MfaToken :=
  Build_MfaToken (sanitize (t_id t)) (sanitize (t_type t)) (sanitize (t_algorithm t)) (sanitize (t_comment t)) (sanitize (t_secret t))
    (t_period t) (t_digits t) (t_expired t) (t_expired_at t) (t_created t) (t_disabled t) (t_disabled_at t)
    (option_map clean_device (t_device t)) (sanitize <$> t_params t) (t_flags t) (t_counter t) None.
Definition clean_image (i : Image) : Image := Build_Image (sanitize (im_title i)) (sanitize (im_body i)) (im_config i) (sanitize (im_path i)).
Definition clean_role (r : Role) : Role := Build_Role (sanitize (ro_name r)) (sanitize (ro_org r)).
Definition clean_user (u : User) : User :=
  Build_User (sanitize (u_id u)) (u_enabled u) (u_human u) (sanitize (u_username u)) (sanitize (u_title u))
    (option_map clean_name (u_name u)) (option_map clean_org (u_org u)) (map clean_name (u_names u)) (map clean_org (u_orgs u))
    (map clean_loc (u_addrs u)) (option_map clean_email (u_email u)) (map clean_email (u_emails u)) (map clean_password (u_passwords u))
    (map clean_pubkey (u_pubkeys u)) (map clean_apikey (u_apikeys u)) (map clean_mfa (u_mfa u)) (u_lockout u)
    (option_map clean_image (u_avatar u)) (u_created u) (u_modified u) (u_revision u) (map clean_role (u_roles u)).
Definition clean_content (c : Content) : Content :=
  Build_Content (sanitize (c_version c)) (c_policy c) (c_revision c) (c_modified c) (map clean_user (c_users c)).
(** The content without the key caches. *)
Definition drop_caches (c : Content) : Content := set c_users (map (set u_mfa (map (set t_cache (fun _ => None))))) c.

(** What the Go types and encoding/json guarantee of a decoded registration message: the
    signature counter is a uint32, the names of its flags are valid UTF-8. *)
Definition register_typed (E : Env) : Prop :=
  forall s q a d, e_register E s = Some q -> wr_att q = Some a -> ao_auth a = Some d ->
    (ad_counter d < 2 ^ 32)%N /\ forall m k, ad_flags d = Some m -> is_Some (m !! k) -> valid_utf8 k = true.

(** ** All times of a database *)
Definition password_instants (p : Password) : list Z := [pw_expired_at p; pw_created p; pw_disabled_at p].
Definition pubkey_instants (p : PublicKey) : list Z := [pk_expired_at p; pk_created p; pk_disabled_at p].
Definition apikey_instants (p : APIKey) : list Z := [ak_expired_at p; ak_created p; ak_disabled_at p].
Definition mfa_instants (t : MfaToken) : list Z := [t_expired_at t; t_created t; t_disabled_at t].
Definition user_instants (u : User) : list Z :=
  (flat_map password_instants (u_passwords u) ++ flat_map pubkey_instants (u_pubkeys u) ++ flat_map apikey_instants (u_apikeys u) ++
   flat_map mfa_instants (u_mfa u) ++ match u_lockout u with Some l => [lk_start l; lk_end l] | None => [] end ++ [u_created u; u_modified u])%list.
Definition content_instants (c : Content) : list Z := c_modified c :: flat_map user_instants (c_users c).
(** Years 0 to 9999: year 0 has 366 days, years 1 to 9999 have 3652059; nanoseconds since year 1. *)
Definition in_years (t : Z) : Prop := (- 366 * 86400000000000 <= t < 3652059 * 86400000000000)%Z.

(** ** Policies *)
Definition filled (stored dflt result : Z) : Prop := (stored = 0%Z -> result = dflt) /\ (stored <> 0%Z -> result = stored).
Record policy_filled (p q : Policy) : Prop := {
  pf_min : filled (pp_min (po_password p)) 8 (pp_min (po_password q));
  pf_max : filled (pp_max (po_password p)) 128 (pp_max (po_password q));
  pf_keep : filled (pp_keep (po_password p)) 10 (pp_keep (po_password q));
  pf_umin : filled (up_min (po_user p)) 3 (up_min (po_user q));
  pf_umax : filled (up_max (po_user p)) 50 (up_max (po_user q));
  pf_flags : pp_upper (po_password q) = pp_upper (po_password p) /\ pp_lower (po_password q) = pp_lower (po_password p) /\
    pp_number (po_password q) = pp_number (po_password p) /\ pp_nonalnum (po_password q) = pp_nonalnum (po_password p) /\
    pp_block_reuse (po_password q) = pp_block_reuse (po_password p) /\ pp_block_change (po_password q) = pp_block_change (po_password p) /\
    up_nonalnum (po_user q) = up_nonalnum (po_user p) /\ up_upper (po_user q) = up_upper (po_user p) }.
Definition limits_set (p : Policy) : Prop :=
  pp_min (po_password p) <> 0%Z /\ pp_max (po_password p) <> 0%Z /\ pp_keep (po_password p) <> 0%Z /\ up_min (po_user p) <> 0%Z /\ up_max (po_user p) <> 0%Z.

(** ** Consistent account lists *)
Record consistent (E : Env) (us : list User) : Prop := {
  co_valid : forall i u, us !! i = Some u -> String.length (u_id u) = 36%nat /\ u_username u <> "" /\ u_passwords u <> [];
  co_names : forall i j u v, us !! i = Some u -> us !! j = Some v -> same_ci E (u_username u) (u_username v) -> i = j;
  co_ids : forall i j u v, us !! i = Some u -> us !! j = Some v -> u_id u = u_id v -> i = j;
  co_emails : forall i j u v p q e f, us !! i = Some u -> us !! j = Some v -> u_emails u !! p = Some e -> u_emails v !! q = Some f ->
    same_ci E (em_address e) (em_address f) -> i = j /\ p = q;
  co_keys : forall i j u v p q k l, us !! i = Some u -> us !! j = Some v -> u_apikeys u !! p = Some k -> u_apikeys v !! q = Some l ->
    ak_prefix k = ak_prefix l -> i = j /\ p = q }.
(** The indexes hold exactly the accounts. *)
Record indexed (E : Env) (db : Database) : Prop := {
  ix_names : forall s i, ref_username db !! s = Some i <-> exists u, account db i u /\ lower E (u_username u) = s;
  ix_ids : forall s i, ref_id db !! s = Some i <-> exists u, account db i u /\ u_id u = s;
  ix_emails : forall s i, ref_email db !! s = Some i <-> exists u e, account db i u /\ In e (u_emails u) /\ lower E (em_address e) = s;
  ix_keys : forall s i, ref_apikey db !! s = Some i <-> exists u k, account db i u /\ In k (u_apikeys u) /\ ak_prefix k = s }.
(** Opening gives passwords without an algorithm the default one. *)
Definition with_algorithm (u : User) : User :=
  set u_passwords (map (fun p => if String.eqb (pw_algorithm p) "" then set pw_algorithm (fun _ => "bcrypt") p else p)) u.
(** A decoded array element is the account [u]. *)
Definition decodes (x : option RawUser) (u : User) : Prop :=
  exists r, x = Some r /\ raw_emails r = map Some (u_emails u) /\ raw_passwords r = map Some (u_passwords u) /\ raw_keys r = map Some (u_apikeys u) /\
    u = set u_apikeys (fun _ => u_apikeys u) (set u_passwords (fun _ => u_passwords u) (set u_emails (fun _ => u_emails u) (raw_user r))).
(** A decoded file with a null where an account, address, password or key should be. *)
Definition has_null (c : RawContent) : Prop :=
  In None (rc_users c) \/
  exists r, In (Some r) (rc_users c) /\ (In None (raw_emails r) \/ In None (raw_passwords r) \/ In None (raw_keys r)).

(** ** Histories *)
(** Every drawn account or key ID is unused. *)
Definition fresh_draws (E : Env) (w : World) (ev : Event) : Prop := uuid_fresh w ev /\ key_ids_fresh E w ev.
Definition read_calls (w : World) (ev : Event) : Prop := match ev with EvCall _ op _ => In op read_ops | _ => False end.
(** A path that the home directory expansion leaves alone. *)
Definition plain_path (fp : string) : Prop := match fp with "" => False | String c _ => c <> "~"%char end.
Definition readable (nd : Nd) : Prop := nd_stat_err nd = false /\ nd_read_err nd = false.

(** ** Answers *)
(** What a caller can see of an answer: all of it but the cached keys inside listed tokens,
    which are unexported. *)
Definition hide_payload (p : Payload) : Payload :=
  match p with
  | PMfaTokens b => PMfaTokens {| b_items := map (set t_cache (fun _ => None)) (b_items b); b_size := b_size b |}
  | _ => p
  end.
Definition seen (r : Request) : Request := set rq_payload hide_payload r.
(** The answers to a sequence of calls, up to the first that never returns or kills the process. *)
Fixpoint answers (E : Env) (l : list (Nd * Op * Request)) (db : Database) (fs : FS) : list (Outcome * Request) :=
  match l with
  | [] => []
  | (nd, op, r) :: l =>
      let o := exec E nd op db fs r in
      (o_res o, seen (o_req o)) :: match o_res o with OHang | OCrash => [] | _ => answers E l (o_db o) (o_fs o) end
  end.

(** Two calls with the same draws and clock; only the outcome of the file write may differ. *)
Definition but_write (nd nd' : Nd) : Prop :=
  nd_clock nd' = nd_clock nd /\ nd_uuid nd' = nd_uuid nd /\ nd_id nd' = nd_id nd /\ nd_secret nd' = nd_secret nd /\ nd_len nd' = nd_len nd /\
  nd_salt nd' = nd_salt nd /\ nd_pick nd' = nd_pick nd.
