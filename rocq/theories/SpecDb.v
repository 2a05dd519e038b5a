(** Vocabulary of the theorems about the database (C01-C62, C71, C73, C75), in terms of the
    account list, the request and the file system only. *)
From Coq Require Import String Ascii ZArith NArith Lia Bool Arith List.
From stdpp Require Import gmap strings.
From RecordUpdate Require Import RecordSet.
From Verif Require Import GoStr GoErr Role Name Email Random SpecValue Types Env Json Persist Fs Database System.
Import ListNotations.
Open Scope string_scope.

(** Equal up to letter case, as strings.ToLower sees it. *)
Definition same_ci (E : Env) (a b : string) : Prop := lower E a = lower E b.
(** Equal up to the case of ASCII letters, byte by byte. *)
Definition ascii_fold (a : ascii) : nat := let n := nat_of_ascii a in if (65 <=? n)%nat && (n <=? 90)%nat then (n + 32)%nat else n.
Definition ascii_ci (a b : string) : Prop :=
  Forall (fun x => (nat_of_ascii x < 128)%nat) (los a) /\ Forall (fun x => (nat_of_ascii x < 128)%nat) (los b) /\
  map ascii_fold (los a) = map ascii_fold (los b).

(** Account [i] is [u]. *)
Definition account (db : Database) (i : nat) (u : User) : Prop := db_users db !! i = Some u.
Definition has_username (E : Env) (u : User) (s : string) : Prop := same_ci E (u_username u) s.
Definition has_address (E : Env) (u : User) (s : string) : Prop := exists e, In e (u_emails u) /\ same_ci E (em_address e) s.

(** How the API resolves a username, an address, a login name and an identity pair. *)
Definition resolves_username (E : Env) (db : Database) (s : string) (i : nat) (u : User) : Prop :=
  (2 <= String.length s)%nat /\ account db i u /\ has_username E u s.
Definition resolves_address (E : Env) (db : Database) (s : string) (i : nat) (u : User) : Prop :=
  (6 <= String.length s)%nat /\ account db i u /\ has_address E u s.
Definition resolves_login (E : Env) (db : Database) (s : string) (i : nat) (u : User) : Prop :=
  (In "@"%char (los s) /\ resolves_address E db s i u) \/ (~ In "@"%char (los s) /\ resolves_username E db s i u).
Definition identity_of (E : Env) (db : Database) (r : Request) (i : nat) (u : User) : Prop :=
  resolves_username E db (ru_username (rq_user r)) i u /\
  exists j v, resolves_address E db (ru_email (rq_user r)) j v /\ u_id v = u_id u.

(** Calls that check a username/email pair. *)
Definition identity_ops : list Op :=
  [OpGetUsers; OpGetUser; OpDeleteUser; OpAddPublicKey; OpGetPublicKeys; OpDeletePublicKey; OpAddAPIKey; OpDeleteAPIKey;
   OpGetAPIKeys; OpChangePassword; OpAddMfaToken; OpGetMfaTokens; OpDeleteMfaToken].
(** Calls that may change an existing account. *)
Definition account_ops : list Op :=
  [OpAddPublicKey; OpDeletePublicKey; OpAddAPIKey; OpDeleteAPIKey; OpChangePassword; OpAddMfaToken; OpDeleteMfaToken].
(** Calls that never write. *)
Definition read_ops : list Op :=
  [OpAuthenticate; OpIdentify; OpLookupAPIKey; OpGetUsers; OpGetUser; OpGetPublicKeys; OpGetAPIKeys; OpGetMfaTokens; OpUserCount; OpDeleteUser].
Definition writes (op : Op) : Prop := ~ In op read_ops.

(** The commit of content [c] to [path] can succeed. *)
Definition can_write (nd : Nd) (fs : FS) (path : string) (c : Content) : Prop :=
  nd_write nd = IoOk /\ path <> "" /\ fs !! path <> Some Dir /\ marshal c <> None.
(** The path a call writes to. *)
Definition written_path (op : Op) (db : Database) : string := match op with OpCopy fp => fp | _ => db_path db end.

Definition within (lo n hi : Z) : Prop := (lo <= n <= hi)%Z.
(** A full name that is blank or has one of the two accepted forms. *)
Definition name_parses (s : string) : Prop :=
  trim_space s = "" \/
  (exists a b, without "," a /\ without "," b /\ trim_space s = a ++ String "," b) \/
  (exists a b, without " " a /\ without " " b /\ trim_space s = a ++ String " " b).
(** The requests AddUser accepts. *)
Record acceptable (E : Env) (nd : Nd) (db : Database) (r : Request) : Prop := {
  acc_username : within (up_min (po_user (db_policy db))) (zlen (ru_username (rq_user r))) (up_max (po_user (db_policy db)));
  acc_username_ne : ru_username (rq_user r) <> "";
  acc_password : within (pp_min (po_password (db_policy db))) (zlen (ru_password (rq_user r))) (pp_max (po_password (db_policy db)));
  acc_password_ne : trim_space (ru_password (rq_user r)) <> "";
  acc_hash : exists h, e_bcrypt E (nd_salt nd) (trim_space (ru_password (rq_user r))) 10 = Some h;
  acc_email : exists d, email_grammar (ru_email (rq_user r)) d;
  acc_roles : Forall (fun s => trim_space s <> "") (ru_roles (rq_user r));
  acc_name : name_parses (ru_full_name (rq_user r));
  acc_new_username : forall i u, account db i u -> ~ has_username E u (ru_username (rq_user r));
  acc_new_email : forall i u, account db i u -> ~ has_address E u (ru_email (rq_user r))
}.

(** Everything that identifies an account is the same. *)
Definition same_identity (u u' : User) : Prop :=
  u_id u' = u_id u /\ u_username u' = u_username u /\ u_emails u' = u_emails u /\ u_email u' = u_email u /\
  u_name u' = u_name u /\ u_names u' = u_names u /\ u_roles u' = u_roles u /\ u_created u' = u_created u.
(** The same apart from the cached keys of u2f tokens. *)
Definition no_cache (u : User) : User := set u_mfa (map (set t_cache (fun _ => None))) u.

(** The drawn UUIDs of an AddUser call include one that no account has. *)
Definition uuid_fresh (w : World) (ev : Event) : Prop :=
  match w_mem w, ev with
  | Up db, EvCall nd OpAddUser _ => exists k, (k <= 10)%nat /\ forall i u, account db i u -> u_id u <> new_id (nd_uuid nd k)
  | _, _ => True
  end.

(** The role a text denotes (C05): trimmed, organization before the first slash. *)
Definition role_text (s : string) (ro : Role) : Prop :=
  trim_space s <> "" /\
  ((without "/" (trim_space s) /\ ro_org ro = "" /\ ro_name ro = trim_space s) \/
   (without "/" (ro_org ro) /\ trim_space s = ro_org ro ++ "/" ++ ro_name ro)).
(** The name a text denotes: "Last,First" if it has exactly one comma, otherwise "First Last". *)
Definition name_text (s : string) (n : Name) : Prop :=
  (exists a b, without "," a /\ without "," b /\ s = a ++ String "," b /\ n = mk_name (trim_space a) (trim_space b)) \/
  ((forall a b, without "," a -> without "," b -> s <> a ++ String "," b) /\
   exists a b, without " " a /\ without " " b /\ s = a ++ String " " b /\ n = mk_name (trim_space b) (trim_space a)).
(** The account AddUser makes from a request. *)
Record new_account (E : Env) (nd : Nd) (r : Request) (u : User) : Prop := {
  na_id : String.length (u_id u) = 36%nat;
  na_username : u_username u = ru_username (rq_user r);
  na_email : exists e, u_email u = Some e /\ u_emails u = [e] /\ em_address e = ru_email (rq_user r) /\ em_confirmed e = false;
  na_roles_nodup : NoDup (u_roles u);
  na_roles : forall ro, In ro (u_roles u) <-> exists s, In s (ru_roles (rq_user r)) /\ role_text s ro;
  na_name : (trim_space (ru_full_name (rq_user r)) = "" /\ u_name u = None /\ u_names u = []) \/
            exists n, name_text (trim_space (ru_full_name (rq_user r))) n /\ u_name u = Some n /\ u_names u = [n];
  na_password : exists p, u_passwords u = [p] /\ pw_disabled p = false /\ pw_expired p = false /\ pw_created p = nd_clock nd /\
                e_bcrypt E (nd_salt nd) (trim_space (ru_password (rq_user r))) 10 = Some (pw_hash p);
  na_keys : u_pubkeys u = [] /\ u_apikeys u = [] /\ u_mfa u = [];
  na_times : u_created u = nd_clock nd /\ u_modified u = nd_clock nd /\ u_revision u = 0%Z;
  na_rest : u_title u = "" /\ u_org u = None /\ u_orgs u = [] /\ u_addrs u = [] /\ u_lockout u = None /\ u_avatar u = None /\
            u_enabled u = false /\ u_human u = false
}.

(** The account a call is made for. *)
Definition concerns (E : Env) (db : Database) (op : Op) (r : Request) (i : nat) : Prop :=
  match op with
  | OpAuthenticate => exists u, resolves_login E db (ru_username (rq_user r)) i u
  | _ => exists u, identity_of E db r i u
  end.
(** The metadata record of an account (C73). *)
Record describes (u : User) (m : UserMetadata) : Prop := {
  de_id : md_id m = u_id u; de_enabled : md_enabled m = u_enabled u; de_username : md_username m = u_username u;
  de_title : md_title m = u_title u; de_created : md_created m = u_created u; de_modified : md_modified m = u_modified u;
  de_revision : md_revision m = u_revision u;
  de_name : (u_name u = None /\ md_name m = "") \/
            exists n, u_name u = Some n /\ (nm_first n = "" /\ md_name m = nm_last n \/ nm_first n <> "" /\ md_name m = nm_last n ++ ", " ++ nm_first n);
  de_email : (u_email u = None /\ md_email m = "") \/ exists e, u_email u = Some e /\ md_email m = em_address e;
  de_avatar : (u_avatar u = None /\ md_avatar m = "") \/ exists a, u_avatar u = Some a /\ md_avatar m = im_path a
}.
