(** The exported methods of [*User] and of the entries it holds, called directly on the pointers
    that GetUser, GetPublicKeys, GetAPIKeys and GetMfaTokens hand out (database.go:325, 515, 611,
    720): they work on the live account, without the lock, the indexes and the file.

    [AddName] with a nil name is left out. *)
From Coq Require Import String Ascii ZArith NArith Lia Bool Arith List.
From stdpp Require Import gmap strings.
From RecordUpdate Require Import RecordSet.
From Verif Require Import GoStr GoErr Role Name Email Random Types Env Password ApiKey PublicKey Mfa User Json Persist Fs Database.
Import ListNotations.
Import RecordSetNotations.
Open Scope string_scope.

(** user.go:198-203 [HasEmailAddresses] *)
Definition has_emails (u : User) : bool := match u_emails u with [] => false | _ => true end.
(** user.go:206-211 [HasRoles] *)
Definition has_roles (u : User) : bool := match u_roles u with [] => false | _ => true end.

(** user.go:232-239 [AddRoles], with what it leaves behind when it fails *)
Fixpoint add_roles_live (nd : Nd) (u : User) (l : list string) : User * option goerr :=
  match l with
  | [] => (u, None)
  | s :: l => match add_role nd u s with inl u => add_roles_live nd u l | inr e => (u, Some e) end
  end.

(** password.go:45-62 [NewPasswordWithOptions]: the "cost" entry of the parameter map; [v.(int)]
    panics on anything but an int. *)
Inductive CostParam := CostAbsent | CostInt (z : Z) | CostOther.
Definition new_password_with (E : Env) (nd : Nd) (s purpose algo : string) (c : CostParam) : Res Password :=
  match c with
  | CostOther => RPanic
  | CostAbsent => match new_password_opt E nd s purpose algo 0 with inl p => ROk p | inr e => RErr e end
  | CostInt z => match new_password_opt E nd s purpose algo z with inl p => ROk p | inr e => RErr e end
  end.

(** The calls that can change an account.  The [MDisable] calls name the entry by its position. *)
Inductive Method :=
| MAddPassword (s : string) (keep : Z)
| MAddEmail (s : string)
| MAddRole (s : string)
| MAddRoles (l : list string)
| MAddName (n : Name)
| MAddPublicKey (r : Request)
| MDeletePublicKey (r : Request)
| MAddAPIKey (r : Request)
| MDeleteAPIKey (r : Request)
| MAddMfaToken (r : Request)
| MDeleteMfaToken (r : Request)
| MChangePassword (r : Request) (keep : Z)
| MVerifyWebAuthn (r : Request)
| MRevise
| MDisablePassword (k : nat)
| MDisablePublicKey (k : nat)
| MDisableAPIKey (k : nat)
| MDisableMfaToken (k : nat).

Inductive MRes := MOk | MErr (e : goerr) | MPanic.
Definition or_err (e : option goerr) : MRes := match e with None => MOk | Some e => MErr e end.
Definition or_same (u : User) (x : User + goerr) : User * MRes := match x with inl u => (u, MOk) | inr e => (u, MErr e) end.
(** The account after a call, and what the call returns.  Changes to the request (DeleteAPIKey,
    AddMfaToken) are not part of this view; [Database] has them. *)
Definition call_method (E : Env) (nd : Nd) (m : Method) (u : User) : User * MRes :=
  match m with
  | MAddPassword s keep => or_same u (add_password E nd u s keep)
  | MAddEmail s => or_same u (add_email nd u s)
  | MAddRole s => or_same u (add_role nd u s)
  | MAddRoles l => let (u, e) := add_roles_live nd u l in (u, or_err e)
  | MAddName n => (add_name nd u n, MOk)
  | MAddPublicKey r => or_same u (add_public_key E nd u r)
  | MDeletePublicKey r => or_same u (delete_public_key nd u r)
  | MAddAPIKey r => or_same u (add_api_key nd u r)
  | MDeleteAPIKey r => or_same u (fst (delete_api_key nd u r))
  | MAddMfaToken r => match snd (add_mfa_token E nd u r) with ROk u => (u, MOk) | RErr e => (u, MErr e) | RPanic => (u, MPanic) end
  | MDeleteMfaToken r => or_same u (delete_mfa_token nd u r)
  | MChangePassword r keep => or_same u (change_password E nd u r keep)
  | MVerifyWebAuthn r => let (u, e) := verify_webauthn E u r in (u, or_err e)
  | MRevise => (revise nd u, MOk)
  | MDisablePassword k => (u <| u_passwords ::= alter (pw_disable nd) k |>, MOk)
  | MDisablePublicKey k => (u <| u_pubkeys ::= alter (pk_disable nd) k |>, MOk)
  | MDisableAPIKey k => (u <| u_apikeys ::= alter (ak_disable nd) k |>, MOk)
  | MDisableMfaToken k => (u <| u_mfa ::= alter (t_disable nd) k |>, MOk)
  end.
(** The database after the call on the pointer to account [i]. *)
Definition live (E : Env) (nd : Nd) (i : nat) (m : Method) (db : Database) : Database :=
  match db_users db !! i with Some u => set_user db i (fst (call_method E nd m u)) | None => db end.

(** Histories of one open database in which such calls are mixed with calls of the API. *)
Inductive mixed (E : Env) (P : Method -> Prop) : FS -> Database -> Prop :=
| MxOpen nd fp fs0 fs db : new_database E nd fp fs0 = (fs, Loaded db) -> mixed E P fs db
| MxCall nd op r fs db : mixed E P fs db -> o_res (exec E nd op db fs r) <> OHang -> o_res (exec E nd op db fs r) <> OCrash ->
    mixed E P (o_fs (exec E nd op db fs r)) (o_db (exec E nd op db fs r))
| MxMethod nd i m fs db : mixed E P fs db -> P m -> mixed E P fs (live E nd i m db)
| MxEdit fs fs' db : mixed E P fs db -> mixed E P fs' db.
