(** Vocabulary of the theorems about nil pointers in the lists of an account (C120). *)
From Coq Require Import String Ascii ZArith NArith Lia Bool Arith List.
From stdpp Require Import gmap strings.
From RecordUpdate Require Import RecordSet.
From Verif Require Import GoStr GoErr Role Name Email Types Env PublicKey Mfa User Persist Fs Database Holes.
Import ListNotations.
Import RecordSetNotations.
Open Scope string_scope.

(** The list has a nil pointer and no element before the first one satisfies [stop]. *)
Definition nil_before {A} (stop : A -> Prop) (l : list (option A)) : Prop :=
  exists pre post, l = (map Some pre ++ None :: post)%list /\ List.Forall (fun x => ~ stop x) pre.

(** The request names account [i]: by user name and address, or by the login name. *)
Definition names_account (E : Env) (h : HDb) (r : Request) (i : nat) : Prop := exists u, validate_identity E (hd_db h) r = inl (i, u).
Definition login_account (E : Env) (h : HDb) (r : Request) (i : nat) : Prop := exists u, get_user E (hd_db h) (ru_username (rq_user r)) = Some (i, u).

(** When a call runs into a nil pointer (or, for a new second factor, into the key it cannot handle). *)
Definition struck (E : Env) (nd : Nd) (op : Op) (h : HDb) (r : Request) : Prop :=
  match op with
  | OpGetPublicKeys | OpDeletePublicKey => exists i, names_account E h r i /\ In None (ls_pubkeys (lists_at h i))
  | OpGetMfaTokens | OpDeleteMfaToken => exists i, names_account E h r i /\ In None (ls_mfa (lists_at h i))
  | OpAddPublicKey => exists i k, names_account E h r i /\ new_public_key E nd r = inl k /\
      nil_before (fun x => pk_type x = pk_type k /\ pk_fp x = pk_fp k) (ls_pubkeys (lists_at h i))
  | OpAddMfaToken => exists i, names_account E h r i /\
      ((new_mfa_token E nd r).2 = RPanic \/
       exists t, (new_mfa_token E nd r).2 = ROk t /\
         nil_before (fun x => t_secret x = t_secret t \/ t_comment x = t_comment t) (ls_mfa (lists_at h i)))
  | OpIdentify => exists i, login_account E h r i /\
      (In None (ls_roles (lists_at h i)) \/ rf_enabled (rq_flags r) = true /\ In None (ls_mfa (lists_at h i)))
  | OpAuthenticate => exists i q, login_account E h r i /\ ru_password (rq_user r) = "" /\ rw_request (rq_webauthn r) <> "" /\
      unpack_request E (rw_request (rq_webauthn r)) = inl q /\
      nil_before (fun t => t_disabled t = false /\ t_type t = "u2f" /\ t_params t !! "u2f_id" = Some (wq_id q)) (ls_mfa (lists_at h i))
  | _ => False
  end.

(** ** Databases without nil pointers *)
Definition lists_of (u : User) : Lists := {|
  ls_names := map Some (u_names u); ls_orgs := map Some (u_orgs u); ls_addrs := map Some (u_addrs u);
  ls_pubkeys := map Some (u_pubkeys u); ls_mfa := map Some (u_mfa u); ls_roles := map Some (u_roles u) |}.
Definition bare (u : User) : User :=
  u <| u_names := [] |> <| u_orgs := [] |> <| u_addrs := [] |> <| u_pubkeys := [] |> <| u_mfa := [] |> <| u_roles := [] |>.
Definition bare_db (db : Database) : Database := db <| db_content; c_users ::= map bare |>.
Definition lift_db (db : Database) : HDb := {| hd_db := bare_db db; hd_lists := map lists_of (db_users db) |}.
Definition lift_raw (r : RawUser) : HUser := {| h_raw := r <| raw_user ::= bare |>; h_lists := lists_of (raw_user r) |}.
Definition lift_content (c : RawContent) : HContent := {|
  hc_version := rc_version c; hc_policy := rc_policy c; hc_revision := rc_revision c; hc_modified := rc_modified c;
  hc_users := map (option_map lift_raw) (rc_users c) |}.
Definition lift_load (x : LoadRes) : HLoad :=
  match x with Loaded db => HLoaded (lift_db db) | LErr e => HLErr e | LPanic => HLPanic | LUnmod => HLUnmod | LCrash => HLCrash end.
(** What an executed call says about the same call on the lists. *)
Definition agrees (op : Op) (x : HCall) (o : Out) : Prop :=
  match x with
  | HPanic => o_res o = OPanic
  | HErr e => o_res o = OErr e
  | HGoes r l => o_req o = r /\ o_res o <> OPanic /\
      (match op with OpAddPublicKey | OpDeletePublicKey | OpAddMfaToken | OpDeleteMfaToken => True | _ => o_res o = OOk end) /\
      (op <> OpAuthenticate -> exists i u, db_users (o_db o) !! i = Some u /\ lists_of u = l)
  | HAside => o_res o <> OPanic
  end.
