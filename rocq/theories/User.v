(** user.go *)
From Coq Require Import String Ascii ZArith NArith Lia Bool Arith List.
From stdpp Require Import gmap strings.
From RecordUpdate Require Import RecordSet.
From Verif Require Import GoStr GoErr Role Name Email Random Types Env Password ApiKey PublicKey Mfa.
Import ListNotations.
Import RecordSetNotations.
Open Scope string_scope.

(** user.go:556-559 [Revise] *)
Definition revise (nd : Nd) (u : User) : User :=
  u <| u_revision := int64 (u_revision u + 1) |> <| u_modified := nd_clock nd |>.

(** user.go:94-102 [NewUser] *)
Definition new_user (nd : Nd) (s : string) : User := {|
  u_id := new_id (nd_uuid nd 0); u_enabled := false; u_human := false; u_username := s; u_title := ""; u_name := None; u_org := None;
  u_names := []; u_orgs := []; u_addrs := []; u_email := None; u_emails := []; u_passwords := []; u_pubkeys := []; u_apikeys := [];
  u_mfa := []; u_lockout := None; u_avatar := None; u_created := nd_clock nd; u_modified := nd_clock nd; u_revision := 0; u_roles := [] |}.

(** user.go:135-146 [Valid] *)
Definition user_valid (u : User) : option goerr :=
  if negb (zlen (u_id u) =? 36)%Z then Some (EWith ErrUserIDInvalidLength [AInt (zlen (u_id u))])
  else if String.eqb (u_username u) "" then Some (EStd ErrUsernameEmpty)
  else match u_passwords u with [] => Some (EStd ErrUserPasswordNotFound) | _ => None end.

(** user.go:160-168: the loop over the old passwords, from index [i] *)
Fixpoint keep_passwords (nd : Nd) (keep i : Z) (l : list Password) : list Password :=
  match l with
  | [] => []
  | p :: l =>
      let p := if pw_disabled p then p else pw_disable nd p in
      if (i >? keep)%Z then [p] else p :: keep_passwords nd keep (i + 1) l
  end.
(** user.go:149-173 [AddPassword] *)
Definition add_password (E : Env) (nd : Nd) (u : User) (s : string) (keep : Z) : User + goerr :=
  match new_password E nd s with
  | inr e => inr e
  | inl p =>
      let keep := if (keep <? 1)%Z then 9%Z else keep in
      inl (revise nd (u <| u_passwords := p :: keep_passwords nd keep 0 (u_passwords u) |>))
  end.

(** user.go:176-195 [AddEmailAddress] *)
Definition add_email (nd : Nd) (u : User) (s : string) : User + goerr :=
  match new_email s with
  | inr e => inr e
  | inl e =>
      match u_emails u with
      | [] => inl (revise nd (u <| u_email := Some e |> <| u_emails := [e] |>))
      | l => if existsb (fun x => String.eqb (em_address e) (em_address x)) l then inl u
             else inl (revise nd (u <| u_emails := (l ++ [e])%list |>))
      end
  end.

(** user.go:242-260 [AddRole] *)
Definition add_role (nd : Nd) (u : User) (s : string) : User + goerr :=
  match new_role s with
  | inr e => inr e
  | inl r => match add_role_list (u_roles u) r with
             | None => inl u
             | Some l => inl (revise nd (u <| u_roles := l |>))
             end
  end.
(** user.go:232-239 [AddRoles] *)
Fixpoint add_roles (nd : Nd) (u : User) (l : list string) : User + goerr :=
  match l with
  | [] => inl u
  | s :: l => match add_role nd u s with inl u => add_roles nd u l | inr e => inr e end
  end.

(** user.go:357-371 [AddName] *)
Definition add_name (nd : Nd) (u : User) (n : Name) : User :=
  match u_names u with
  | [] => u <| u_name := Some n |> <| u_names := [n] |>
  | l => if existsb (fun x => String.eqb (full_name n) (full_name x)) l then u
         else revise nd (u <| u_names := (l ++ [n])%list |>)
  end.

(** user.go:105-132 [NewUserWithRoles] *)
Definition new_user_with_roles (E : Env) (nd : Nd) (username password email fullname : string) (roles : list string) : User + goerr :=
  match add_password E nd (new_user nd username) password 0 with
  | inr e => inr e
  | inl u =>
  match add_email nd u email with
  | inr e => inr e
  | inl u =>
  match add_roles nd u roles with
  | inr e => inr e
  | inl u =>
  let f := trim_space fullname in
  match (if String.eqb f "" then inl u
         else match parse_name f with inr e => inr e | inl n => inl (add_name nd u n) end) with
  | inr e => inr e
  | inl u =>
  match user_valid u with
  | Some e => inr e
  | None => inl (u <| u_revision := 0%Z |>)
  end end end end end.

(** user.go:263-276 [VerifyPassword] *)
Definition verify_password (E : Env) (u : User) (s : string) : option goerr :=
  match u_passwords u with
  | [] => Some (EStd ErrUserPasswordNotFound)
  | l => if existsb (fun p => negb (pw_disabled p || pw_expired p) && pw_match E p s) l then None
         else Some (EStd ErrUserPasswordInvalid)
  end.

(** user.go:284-309: the loop over the tokens; the first enabled u2f token with the requested id
    decides *)
Fixpoint verify_tokens (E : Env) (r : Request) (id : string) (l : list MfaToken) : list MfaToken * option goerr :=
  match l with
  | [] => ([], Some (EStd ErrWebAuthnVerifyRequest))
  | t :: l =>
      if negb (t_disabled t) && String.eqb (t_type t) "u2f" &&
         match t_params t !! "u2f_id" with Some x => String.eqb id x | None => false end
      then let (t, res) := webauthn_request E t (rw_request (rq_webauthn r)) in
           (t :: l, match res with
                    | Some challenge => if String.eqb challenge (rw_challenge (rq_webauthn r)) then None else Some (EStd ErrWebAuthnVerifyRequest)
                    | None => Some (EStd ErrWebAuthnVerifyRequest)
                    end)
      else let (l, res) := verify_tokens E r id l in (t :: l, res)
  end.
(** user.go:279-310 [VerifyWebAuthnRequest] *)
Definition verify_webauthn (E : Env) (u : User) (r : Request) : User * option goerr :=
  match unpack_request E (rw_request (rq_webauthn r)) with
  | inr e => (u, Some e)
  | inl q => let (l, res) := verify_tokens E r (wq_id q) (u_mfa u) in (u <| u_mfa := l |>, res)
  end.

(** user.go:313-323 [GetMailClaim] *)
Definition mail_claim (u : User) : string :=
  match find em_is_primary (u_emails u) with
  | Some e => em_address e
  | None => match u_emails u with e :: _ => em_address e | [] => "" end
  end.
(** user.go:326-334 [GetNameClaim] and 349-354 [GetFullName] *)
Definition name_claim (u : User) : string := match u_name u with Some n => full_name n | None => "" end.

(** user.go:374-391 [AddPublicKey] *)
Definition add_public_key (E : Env) (nd : Nd) (u : User) (r : Request) : User + goerr :=
  match new_public_key E nd r with
  | inr e => inr (EWith ErrAddPublicKey [AStr (rk_usage (rq_key r)); AErr e])
  | inl k =>
      if existsb (fun x => String.eqb (pk_type x) (pk_type k) && String.eqb (pk_fp x) (pk_fp k)) (u_pubkeys u)
      then inr (EWith ErrAddPublicKey [AStr (rk_usage (rq_key r)); AStr "already exists"])
      else inl (revise nd (u <| u_pubkeys := (u_pubkeys u ++ [k])%list |>))
  end.

(** user.go:394-410 [DeletePublicKey] *)
Definition delete_public_key (nd : Nd) (u : User) (r : Request) : User + goerr :=
  let id := rk_id (rq_key r) in
  if existsb (fun k => String.eqb (pk_id k) id) (u_pubkeys u)
  then inl (revise nd (u <| u_pubkeys := List.filter (fun k => negb (String.eqb (pk_id k) id)) (u_pubkeys u) |>))
  else inr (EWith ErrDeletePublicKey [AStr id; AStr "not found"]).

(** user.go:413-421 [AddAPIKey] *)
Definition add_api_key (nd : Nd) (u : User) (r : Request) : User + goerr :=
  match new_api_key nd r with
  | inr e => inr (EWith ErrAddAPIKey [AStr (rk_usage (rq_key r)); AErr e])
  | inl k => inl (revise nd (u <| u_apikeys := (u_apikeys u ++ [k])%list |>))
  end.

(** user.go:427-434: the prefix left in the request is that of the last key with the id *)
Definition last_prefix (id : string) (l : list APIKey) (p0 : string) : string :=
  fold_left (fun p k => if String.eqb (ak_id k) id then ak_prefix k else p) l p0.
(** user.go:424-441 [DeleteAPIKey] *)
Definition delete_api_key (nd : Nd) (u : User) (r : Request) : (User + goerr) * Request :=
  let id := rk_id (rq_key r) in
  let r := r <| rq_key; rk_prefix := last_prefix id (u_apikeys u) (rk_prefix (rq_key r)) |> in
  if existsb (fun k => String.eqb (ak_id k) id) (u_apikeys u)
  then (inl (revise nd (u <| u_apikeys := List.filter (fun k => negb (String.eqb (ak_id k) id)) (u_apikeys u) |>)), r)
  else (inr (EWith ErrDeleteAPIKey [AStr id; AStr "not found"]), r).

(** user.go:444-454 [LookupAPIKey] *)
Definition lookup_api_key (E : Env) (u : User) (r : Request) : option goerr :=
  match find (fun k => String.eqb (ak_prefix k) (rk_prefix (rq_key r))) (u_apikeys u) with
  | Some k => if ak_match E k (rk_payload (rq_key r)) then None else Some (EStd ErrLookupAPIKeyFailed)
  | None => Some (EStd ErrLookupAPIKeyFailed)
  end.

(** user.go:462-469: duplicate check, in order *)
Fixpoint dup_token (t : MfaToken) (l : list MfaToken) : option goerr :=
  match l with
  | [] => None
  | k :: l => if String.eqb (t_secret k) (t_secret t) then Some (EWith ErrAddMfaToken [AErr (EStd ErrDuplicateMfaTokenSecret)])
              else if String.eqb (t_comment k) (t_comment t) then Some (EWith ErrAddMfaToken [AErr (EStd ErrDuplicateMfaTokenComment)])
              else dup_token t l
  end.
(** user.go:457-473 [AddMfaToken] *)
Definition add_mfa_token (E : Env) (nd : Nd) (u : User) (r : Request) : Request * Res User :=
  match new_mfa_token E nd r with
  | (r, RPanic) => (r, RPanic)
  | (r, RErr e) => (r, RErr (EWith ErrAddMfaToken [AErr e]))
  | (r, ROk t) =>
      (r, match dup_token t (u_mfa u) with
          | Some e => RErr e
          | None => ROk (revise nd (u <| u_mfa := (u_mfa u ++ [t])%list |>))
          end)
  end.

(** user.go:476-492 [DeleteMfaToken] *)
Definition delete_mfa_token (nd : Nd) (u : User) (r : Request) : User + goerr :=
  let id := rm_id (rq_mfa r) in
  if existsb (fun k => String.eqb (t_id k) id) (u_mfa u)
  then inl (revise nd (u <| u_mfa := List.filter (fun k => negb (String.eqb (t_id k) id)) (u_mfa u) |>))
  else inr (EWith ErrDeleteMfaToken [AStr id; AStr "not found"]).

(** user.go:495-508 [GetFlags] *)
Definition get_flags (u : User) (r : Request) : Request :=
  fold_left (fun r t =>
    if t_disabled t then r
    else let r := r <| rq_flags; rf_configured := true |> in
         if String.eqb (t_type t) "totp" then r <| rq_flags; rf_app := true |>
         else if String.eqb (t_type t) "u2f" then r <| rq_flags; rf_universal := true |> else r) (u_mfa u) r.

(** user.go:511-519 [ChangePassword] *)
Definition change_password (E : Env) (nd : Nd) (u : User) (r : Request) (keep : Z) : User + goerr :=
  match verify_password E u (ru_old_password (rq_user r)) with
  | Some e => inr (EWith ErrChangeUserPassword [AErr e])
  | None => match add_password E nd u (ru_password (rq_user r)) keep with
            | inr e => inr (EWith ErrChangeUserPassword [AErr e])
            | inl u => inl u
            end
  end.

(** user.go:522-542 [GetMetadata] *)
Definition metadata (u : User) : UserMetadata := {|
  md_id := u_id u; md_enabled := u_enabled u; md_username := u_username u; md_title := u_title u;
  md_name := match u_name u with Some n => full_name n | None => "" end;
  md_email := match u_email u with Some e => em_address e | None => "" end;
  md_created := u_created u; md_modified := u_modified u; md_revision := u_revision u;
  md_avatar := match u_avatar u with Some i => im_path i | None => "" end |}.

(** user.go:546-553 [GetChallenges] *)
Definition challenges (u : User) : list string :=
  "password" :: match u_mfa u with [] => [] | _ => ["mfa"] end.
