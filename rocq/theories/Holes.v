(** Nil pointers in the lists of an account.

    [Persist.unmarshal] leaves null elements of the arrays names, organizations, street_address,
    public_keys, mfa_tokens and roles unmodelled.  Go decodes them into nil pointers, and NewDatabase
    (database.go:158-190) looks at none of these lists.  Here such files are decoded and opened, and the
    calls that walk the lists are carried out up to the point where they would write the file: a nil
    element that is reached is dereferenced, and the call panics.  What a call writes to the file of such
    a database is not modelled. *)
From Coq Require Import String Ascii ZArith NArith Lia Bool Arith List.
From stdpp Require Import gmap strings.
From RecordUpdate Require Import RecordSet.
From Verif Require Import GoStr Codec Json GoTime GoErr Role Name Email Random Types Env Password ApiKey PublicKey Mfa User Persist Fs Database.
Import ListNotations.
Import RecordSetNotations.
Open Scope string_scope.

(** ** The lists *)
(** user.go:52-54, 58, 60, 67: the lists of pointers that opening does not look at *)
Record Lists := {
  ls_names : list (option Name); ls_orgs : list (option Organization); ls_addrs : list (option Location);
  ls_pubkeys : list (option PublicKey); ls_mfa : list (option MfaToken); ls_roles : list (option Role) }.
#[export] Instance eta_Lists : Settable _ := settable! Build_Lists <ls_names; ls_orgs; ls_addrs; ls_pubkeys; ls_mfa; ls_roles>.
Definition lists_z : Lists := Build_Lists [] [] [] [] [] [].
(** An account as decoded; the six lists of [h_raw] are empty. *)
Record HUser := { h_raw : RawUser; h_lists : Lists }.
#[export] Instance eta_HUser : Settable _ := settable! Build_HUser <h_raw; h_lists>.
Definition huser_z : HUser := Build_HUser raw_z lists_z.

(** ** Decoding *)
Notation hufld n p c := (Field n (fun h => p (raw_user (h_raw h))) (fun v h => h <| h_raw; raw_user; p := v |>) c).
Notation hrfld n p c := (Field n (fun h => p (h_raw h)) (fun v h => h <| h_raw; p := v |>) c).
Notation hlfld n p c := (Field n (fun h => p (h_lists h)) (fun v h => h <| h_lists; p := v |>) c).
(** user.go:45-68, as [Persist.user_f] *)
Definition huser_f : list (field HUser) :=
  [hufld "id" u_id str; hufld "enabled" u_enabled flag; hufld "human" u_human flag; hufld "username" u_username str; hufld "title" u_title str;
   hufld "name" u_name (ptr name_z (enc_struct name_f) (dec_struct name_f)); hufld "organization" u_org (ptr org_z (enc_struct org_f) (dec_struct org_f));
   hlfld "names" ls_names (sub opt_list name_f name_z); hlfld "organizations" ls_orgs (sub opt_list org_f org_z);
   hlfld "street_address" ls_addrs (sub opt_list loc_f loc_z); hufld "email_address" u_email (ptr email_z (enc_struct email_f) (dec_struct email_f));
   hrfld "email_addresses" raw_emails (sub opt_list email_f email_z); hrfld "passwords" raw_passwords (sub opt_list password_f password_z);
   hlfld "public_keys" ls_pubkeys (sub opt_list pubkey_f pubkey_z); hrfld "api_keys" raw_keys (sub opt_list apikey_f apikey_z);
   hlfld "mfa_tokens" ls_mfa (sub opt_list mfa_f mfa_z); hufld "lockout" u_lockout (ptr lockout_z (enc_struct lockout_f) (dec_struct lockout_f));
   hufld "avatar" u_avatar (ptr image_z (enc_struct image_f) (dec_struct image_f)); hufld "created" u_created time_; hufld "last_modified" u_modified time_;
   hufld "revision" u_revision int_; hlfld "roles" ls_roles (sub opt_list role_f role_z)].
(** database.go:98-110, as [Persist.content_f] *)
Record HContent := {
  hc_version : string; hc_policy : Policy; hc_revision : N; hc_modified : Z; hc_users : list (option HUser) }.
#[export] Instance eta_HContent : Settable _ := settable! Build_HContent <hc_version; hc_policy; hc_revision; hc_modified; hc_users>.
Definition hcontent_z : HContent := Build_HContent "" policy_z 0 0 [].
Definition hcontent_f : list (field HContent) :=
  [fld "version" hc_version str;
   fld "policy" hc_policy (struct_ policy_z (enc_struct policy_f) (dec_struct policy_f));
   fld "revision" hc_revision (uint (2 ^ 64)); fld "last_modified" hc_modified time_;
   fld "users" hc_users (opt_list (enc_struct huser_f) (dec_struct huser_f huser_z))].
(** database.go:144 [json.Unmarshal(b, db)] *)
Definition hunmarshal (s : string) : dres HContent :=
  match parse (los s) with
  | None => DErr
  | Some JNull => DOk hcontent_z
  | Some j => dec_struct hcontent_f hcontent_z j
  end.

(** ** Opening *)
Definition huser_times (h : HUser) : bool :=
  raw_user_times (h_raw h) && forallb (opt_all pubkey_times) (ls_pubkeys (h_lists h)) && forallb (opt_all mfa_times) (ls_mfa (h_lists h)).
Definition hcontent_times (c : HContent) : bool := time_ok (hc_modified c) && forallb (opt_all huser_times) (hc_users c).
(** database.go:458 *)
Definition hmarshal (c : HContent) : option string :=
  if hcontent_times c then Some (sol (print 0 (enc_struct hcontent_f c))) else None.
(** database.go:456-457 *)
Definition hbump (nd : Nd) (c : HContent) : HContent :=
  c <| hc_revision := ((hc_revision c + 1) mod two64N)%N |> <| hc_modified := nd_clock nd |>.
(** The content without the six lists. *)
Definition hbare (c : HContent) : RawContent := {|
  rc_version := hc_version c; rc_policy := hc_policy c; rc_revision := hc_revision c; rc_modified := hc_modified c;
  rc_users := map (option_map h_raw) (hc_users c) |}.
Definition hlists (c : HContent) : list Lists := flat_map (fun h => match h with Some h => [h_lists h] | None => [] end) (hc_users c).
(** A database in memory: [hd_db] with the six lists of every account empty, and those lists, one
    entry per account. *)
Record HDb := { hd_db : Database; hd_lists : list Lists }.
Inductive HLoad := HLoaded (h : HDb) | HLErr (e : goerr) | HLPanic | HLUnmod | HLCrash.
(** database.go:158-190: none of the six lists is looked at *)
Definition hload (E : Env) (fp : string) (c : HContent) : HLoad :=
  match load_users E (empty_db fp (hbare c)) (rc_users (hbare c)) with
  | Loaded db => HLoaded {| hd_db := db; hd_lists := hlists c |}
  | LErr e => HLErr e
  | LPanic => HLPanic
  | LUnmod => HLUnmod
  | LCrash => HLCrash
  end.
(** database.go:144-190 *)
Definition hload_bytes (E : Env) (nd : Nd) (fp : string) (fs : FS) (b : string) : FS * HLoad :=
  match hunmarshal b with
  | DUnmod => (fs, HLUnmod)
  | DErr => (fs, HLErr (EWith ErrNewDatabase [AStr fp; AErr ext_err]))
  | DOk c =>
      if policy_changed (hc_policy c) then
        let c := hbump nd (c <| hc_policy ::= enforce_policy |>) in
        match write_db nd fp (hmarshal c) fs with
        | (fs, COk) => (fs, hload E fp c)
        | (fs, CErr e) => (fs, HLErr (EWith ErrNewDatabase [AStr fp; AErr e]))
        | (fs, CCrash) => (fs, HLCrash)
        end
      else (fs, hload E fp c)
  end.

(** ** Walking a list of pointers *)
(** a loop that returns at the first element with [stop] *)
Fixpoint scan {A} (stop : A -> bool) (l : list (option A)) : Res (option A) :=
  match l with
  | [] => ROk None
  | None :: _ => RPanic
  | Some x :: l => if stop x then ROk (Some x) else scan stop l
  end.
(** a loop that goes over all elements *)
Fixpoint walk {A B} (f : B -> A -> B) (l : list (option A)) (b : B) : Res B :=
  match l with
  | [] => ROk b
  | None :: _ => RPanic
  | Some x :: l => walk f l (f b x)
  end.

(** ** The methods of the account *)
(** user.go:214-229 [HasRole] *)
Definition h_has_role (l : list (option Role)) (s : string) : Res bool :=
  match l with
  | [] => ROk false
  | _ => match new_role s with
         | inr _ => ROk false
         | inl r => match scan (role_eqb r) l with ROk x => ROk (match x with Some _ => true | None => false end) | RErr e => RErr e | RPanic => RPanic end
         end
  end.
(** user.go:242-260 [AddRole], on the list *)
Definition h_add_role (l : list (option Role)) (s : string) : Res (list (option Role)) :=
  match new_role s with
  | inr e => RErr e
  | inl r => match scan (role_eqb r) l with
             | ROk (Some _) => ROk l
             | ROk None => ROk (l ++ [Some r])%list
             | RErr e => RErr e
             | RPanic => RPanic
             end
  end.
(** user.go:357-371 [AddName], on the list *)
Definition h_add_name (l : list (option Name)) (n : Name) : Res (list (option Name)) :=
  match scan (fun x => String.eqb (full_name n) (full_name x)) l with
  | ROk (Some _) => ROk l
  | ROk None => ROk (l ++ [Some n])%list
  | RErr e => RErr e
  | RPanic => RPanic
  end.
(** user.go:337-346 [GetRolesClaim] *)
Definition h_roles_claim (l : list (option Role)) : Res (list string) := walk (fun b r => (b ++ [role_string r])%list) l [].
(** user.go:374-391 [AddPublicKey] *)
Definition h_add_public_key (E : Env) (nd : Nd) (l : list (option PublicKey)) (r : Request) : Res (list (option PublicKey)) :=
  match new_public_key E nd r with
  | inr e => RErr (EWith ErrAddPublicKey [AStr (rk_usage (rq_key r)); AErr e])
  | inl k =>
      match scan (fun x => String.eqb (pk_type x) (pk_type k) && String.eqb (pk_fp x) (pk_fp k)) l with
      | ROk (Some _) => RErr (EWith ErrAddPublicKey [AStr (rk_usage (rq_key r)); AStr "already exists"])
      | ROk None => ROk (l ++ [Some k])%list
      | RErr e => RErr e
      | RPanic => RPanic
      end
  end.
(** user.go:394-410 [DeletePublicKey], 476-492 [DeleteMfaToken]: whether the id was found, and the rest *)
Definition h_without {A} (id : A -> string) (s : string) (l : list (option A)) : Res (bool * list (option A)) :=
  walk (fun b k => if String.eqb (id k) s then (true, b.2) else (b.1, (b.2 ++ [Some k])%list)) l (false, []).
Definition h_delete_public_key (l : list (option PublicKey)) (r : Request) : Res (list (option PublicKey)) :=
  match h_without pk_id (rk_id (rq_key r)) l with
  | ROk (true, l) => ROk l
  | ROk (false, _) => RErr (EWith ErrDeletePublicKey [AStr (rk_id (rq_key r)); AStr "not found"])
  | RErr e => RErr e
  | RPanic => RPanic
  end.
(** user.go:457-473 [AddMfaToken] *)
Definition h_add_mfa_token (E : Env) (nd : Nd) (l : list (option MfaToken)) (r : Request) : Request * Res (list (option MfaToken)) :=
  match new_mfa_token E nd r with
  | (r, RPanic) => (r, RPanic)
  | (r, RErr e) => (r, RErr (EWith ErrAddMfaToken [AErr e]))
  | (r, ROk t) =>
      (r, match scan (fun k => String.eqb (t_secret k) (t_secret t) || String.eqb (t_comment k) (t_comment t)) l with
          | ROk (Some k) => RErr (EWith ErrAddMfaToken [AErr (EStd (if String.eqb (t_secret k) (t_secret t) then ErrDuplicateMfaTokenSecret else ErrDuplicateMfaTokenComment))])
          | ROk None => ROk (l ++ [Some t])%list
          | RErr e => RErr e
          | RPanic => RPanic
          end)
  end.
Definition h_delete_mfa_token (l : list (option MfaToken)) (r : Request) : Res (list (option MfaToken)) :=
  match h_without t_id (rm_id (rq_mfa r)) l with
  | ROk (true, l) => ROk l
  | ROk (false, _) => RErr (EWith ErrDeleteMfaToken [AStr (rm_id (rq_mfa r)); AStr "not found"])
  | RErr e => RErr e
  | RPanic => RPanic
  end.
(** user.go:495-508 [GetFlags] *)
Definition h_get_flags (l : list (option MfaToken)) (r : Request) : Res Request :=
  walk (fun r t =>
    if t_disabled t then r
    else let r := r <| rq_flags; rf_configured := true |> in
         if String.eqb (t_type t) "totp" then r <| rq_flags; rf_app := true |>
         else if String.eqb (t_type t) "u2f" then r <| rq_flags; rf_universal := true |> else r) l r.
(** user.go:284-297: the tests of the loop *)
Definition answers (id : string) (t : MfaToken) : bool :=
  negb (t_disabled t) && String.eqb (t_type t) "u2f" &&
  match t_params t !! "u2f_id" with Some x => String.eqb id x | None => false end.
(** user.go:279-310 [VerifyWebAuthnRequest]; the counter kept in the token is left out *)
Definition h_verify_webauthn (E : Env) (l : list (option MfaToken)) (r : Request) : Res unit :=
  match unpack_request E (rw_request (rq_webauthn r)) with
  | inr e => RErr e
  | inl q =>
      match scan (answers (wq_id q)) l with
      | ROk (Some t) => match (webauthn_request E t (rw_request (rq_webauthn r))).2 with
                        | Some challenge => if String.eqb challenge (rw_challenge (rq_webauthn r)) then ROk tt else RErr (EStd ErrWebAuthnVerifyRequest)
                        | None => RErr (EStd ErrWebAuthnVerifyRequest)
                        end
      | ROk None => RErr (EStd ErrWebAuthnVerifyRequest)
      | RErr e => RErr e
      | RPanic => RPanic
      end
  end.
(** user.go:546-553 [GetChallenges] *)
Definition h_challenges (l : list (option MfaToken)) : list string := "password" :: match l with [] => [] | _ => ["mfa"] end.

(** ** The calls *)
(** What a call that walks a list comes to: it panics, it is refused, or it goes on with this request
    and these lists of the account - to return, or to write the file and then return.  [HAside]: the call
    looks at none of the lists. *)
Inductive HCall := HPanic | HErr (e : goerr) | HGoes (r : Request) (l : Lists) | HAside.
Definition lists_at (h : HDb) (i : nat) : Lists := match hd_lists h !! i with Some l => l | None => lists_z end.
Definition goes {A} (x : Res A) (k : A -> HCall) : HCall := match x with ROk a => k a | RErr e => HErr e | RPanic => HPanic end.
(** database.go:353-382, 484-537, 641-661, 689-739 *)
Definition hcall (E : Env) (nd : Nd) (op : Op) (h : HDb) (r : Request) : HCall :=
  let db := hd_db h in
  let named wrap k := match validate_identity E db r with inr e => HErr (wrap e) | inl (i, _) => k (lists_at h i) end in
  match op with
  | OpAddPublicKey => named (fun e => EWith ErrAddPublicKey [AStr (rk_usage (rq_key r)); AErr e])
      (fun l => goes (h_add_public_key E nd (ls_pubkeys l) r) (fun x => HGoes r (l <| ls_pubkeys := x |>)))
  | OpGetPublicKeys => named (fun e => EWith ErrGetPublicKeys [AStr (rk_usage (rq_key r)); AErr e])
      (fun l => goes (walk (fun b k => if negb (String.eqb (pk_usage k) (rk_usage (rq_key r))) then b else if pk_disabled k then b else b_add b k) (ls_pubkeys l) b_new)
                     (fun b => HGoes (r <| rq_payload := PPublicKeys b |>) l))
  | OpDeletePublicKey => named (fun e => EWith ErrDeletePublicKey [AStr (rk_id (rq_key r)); AErr e])
      (fun l => goes (h_delete_public_key (ls_pubkeys l) r) (fun x => HGoes r (l <| ls_pubkeys := x |>)))
  | OpAddMfaToken => named (fun e => EWith ErrAddMfaToken [AErr e])
      (fun l => let (r, x) := h_add_mfa_token E nd (ls_mfa l) r in goes x (fun x => HGoes r (l <| ls_mfa := x |>)))
  | OpGetMfaTokens => named (fun e => EWith ErrGetMfaTokens [AErr e])
      (fun l => goes (walk (fun b t => if t_disabled t then b else b_add b t) (ls_mfa l) b_new) (fun b => HGoes (r <| rq_payload := PMfaTokens b |>) l))
  | OpDeleteMfaToken => named (fun e => EWith ErrDeleteMfaToken [AStr (rm_id (rq_mfa r)); AErr e])
      (fun l => goes (h_delete_mfa_token (ls_mfa l) r) (fun x => HGoes r (l <| ls_mfa := x |>)))
  | OpIdentify =>
      match get_user E db (ru_username (rq_user r)) with
      | None => HAside
      | Some (i, u) =>
          let l := lists_at h i in
          goes (if rf_enabled (rq_flags r) then h_get_flags (ls_mfa l) r else ROk r) (fun r =>
          goes (h_roles_claim (ls_roles l)) (fun roles =>
          HGoes (r <| rq_user; ru_username := u_username u |> <| rq_user; ru_email := mail_claim u |>
                   <| rq_user; ru_full_name := name_claim u |> <| rq_user; ru_roles := roles |>
                   <| rq_user; ru_challenges := h_challenges (ls_mfa l) |> <| rq_code := 200%Z |>) l))
      end
  | OpAuthenticate =>
      match get_user E db (ru_username (rq_user r)) with
      | None => HAside
      | Some (i, u) =>
          if negb (String.eqb (ru_password (rq_user r)) "") then HAside
          else if negb (String.eqb (rw_request (rq_webauthn r)) "") then
            match h_verify_webauthn E (ls_mfa (lists_at h i)) r with
            | ROk _ => HGoes (r <| rq_code := 200%Z |>) (lists_at h i)
            | RErr e => HErr (EWith ErrAuthFailed [AErr e])
            | RPanic => HPanic
            end
          else HAside
      end
  | _ => HAside
  end.
