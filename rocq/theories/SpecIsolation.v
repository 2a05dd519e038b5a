(** Vocabulary of the theorems on isolation of accounts (C100-C102). *)
From Coq Require Import String Ascii ZArith NArith Lia Bool Arith List.
From stdpp Require Import gmap strings.
From RecordUpdate Require Import RecordSet.
From Verif Require Import GoStr GoErr Email Types Env Fs Database System SpecDb SpecAuth.
Import ListNotations.
Import RecordSetNotations.
Open Scope string_scope.

(** The account, with its data, that a call is about: the one of the login name for
    AuthenticateUser and IdentifyUser, the one of username and address for the others. *)
Definition about (E : Env) (db : Database) (op : Op) (r : Request) (i : nat) (u : User) : Prop :=
  match op with
  | OpAuthenticate | OpIdentify => resolves_login E db (ru_username (rq_user r)) i u
  | _ => identity_of E db r i u
  end.
(** Reading calls that are about one account. *)
Definition own_reads : list Op := [OpAuthenticate; OpIdentify; OpGetPublicKeys; OpGetAPIKeys; OpGetMfaTokens; OpDeleteUser].
(** Two calls give the same answer: the same result and the same contents of the request. *)
Definition same_answer (o o' : Out) : Prop := o_res o' = o_res o /\ o_req o' = o_req o.
(** Two users are the same apart from what an administrator would set: enabled, locked out,
    confirmed address, title, ... *)
Record same_but_status (u v : User) : Prop := {
  ss_id : u_id v = u_id u; ss_username : u_username v = u_username u; ss_emails : map em_address (u_emails v) = map em_address (u_emails u);
  ss_name : u_name v = u_name u; ss_roles : u_roles v = u_roles u;
  ss_passwords : u_passwords v = u_passwords u; ss_apikeys : u_apikeys v = u_apikeys u; ss_mfa : u_mfa v = u_mfa u
}.
(** The call came back: no endless loop, no dead process. *)
Definition came_back (o : Out) : Prop := o_res o <> OHang /\ o_res o <> OCrash.

(** ** Undoing an addition (C105) *)
(** An item with ID [id] was added to account [i] of [db] at the end of one of its lists; no item
    of that list had this ID. *)
Record added {A} (list_of : User -> list A) (id_of : A -> string) (db db' : Database) (i : nat) (u : User) (id : string) : Prop := {
  ad_item : exists u' k, account db' i u' /\ list_of u' = (list_of u ++ [k])%list /\ id_of k = id;
  ad_fresh k : In k (list_of u) -> id_of k <> id
}.
(** [db'] is [db] but for the revision numbers and the times of the last change of account [i] and
    of the database. *)
Record undone (db db' : Database) (i : nat) (u : User) : Prop := {
  un_users : exists rev time, db_users db' = <[i := u <| u_revision := rev |> <| u_modified := time |>]> (db_users db);
  un_indexes : ref_username db' = ref_username db /\ ref_email db' = ref_email db /\ ref_id db' = ref_id db /\ ref_apikey db' = ref_apikey db;
  un_rest : db_policy db' = db_policy db /\ db_path db' = db_path db /\ c_version (db_content db') = c_version (db_content db)
}.
