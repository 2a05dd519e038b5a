(** Vocabulary of the theorems about the ledger of calls that took effect (C118): a list of accounts with the
    password and the API keys in force, kept by an observer who sees the calls and their answers. *)
From Coq Require Import String Ascii ZArith NArith Lia Bool Arith List.
From stdpp Require Import gmap strings.
From Verif Require Import GoStr Random Types Env Persist Fs Database System.
From Verif Require Import SpecDb SpecPersist SpecDefect SpecOutage.
Import ListNotations.
Open Scope string_scope.

(** An account: its name, its address, its password and the identifiers and secrets of its API keys. *)
Record Entry := { en_name : string; en_mail : string; en_secret : string; en_keys : list (string * string) }.
Definition Ledger := list Entry.
Definition with_secret (s : string) (e : Entry) : Entry :=
  {| en_name := en_name e; en_mail := en_mail e; en_secret := s; en_keys := en_keys e |}.
Definition with_keys (f : list (string * string) -> list (string * string)) (e : Entry) : Entry :=
  {| en_name := en_name e; en_mail := en_mail e; en_secret := en_secret e; en_keys := f (en_keys e) |}.
(** The entries with the user name of the request. *)
Definition for_name (E : Env) (r : Request) (f : Entry -> Entry) (l : Ledger) : Ledger :=
  map (fun e => if String.eqb (lower E (en_name e)) (lower E (ru_username (rq_user r))) then f e else e) l.
(** The secret that an answer hands out. *)
Definition handed_out (o : Out) : string := match rq_payload (o_req o) with PStr s => s | _ => "" end.
(** The ledger after a call, from the request and the answer.  Refused calls leave no trace, unless
    they were refused only because the file could not be written. *)
Definition enter (E : Env) (nd : Nd) (op : Op) (r : Request) (o : Out) (l : Ledger) : Ledger :=
  match took o, op with
  | true, OpAddUser =>
      (l ++ [{| en_name := ru_username (rq_user r); en_mail := ru_email (rq_user r);
                en_secret := trim_space (ru_password (rq_user r)); en_keys := [] |}])%list
  | true, OpChangePassword => for_name E r (with_secret (trim_space (ru_password (rq_user r)))) l
  | true, OpAddAPIKey => for_name E r (with_keys (fun ks => (ks ++ [(random_string 40 (nd_id nd), handed_out o)])%list)) l
  | true, OpDeleteAPIKey => for_name E r (with_keys (List.filter (fun k => negb (String.eqb (fst k) (rk_id (rq_key r)))))) l
  | _, _ => l
  end.
(** The file holds the content of the database. *)
Definition on_disk (fs : FS) (fp : string) (db : Database) : Prop :=
  exists s, marshal (db_content db) = Some s /\ fs !! fp = Some (File s).
(** A history that begins with the creation of a database, and what an observer
    who starts with [l0] notes of it: calls that return, whether their writes succeed or not,
    changes of any file by others, and restarts from a file that holds the content of
    this or of an earlier moment, which takes the observer's notes back to that moment. *)
Inductive traced {L : Type} (E : Env) (step : Nd -> Op -> Request -> Out -> L -> L) (l0 : L) : FS -> Database -> L -> Prop :=
| TrNew nd fp fs fs' db : absent fs fp -> new_database E nd fp fs = (fs', Loaded db) -> traced E step l0 fs' db l0
| TrCall nd op r fs db l : traced E step l0 fs db l ->
    let o := exec E nd op db fs r in
    o_res o <> OHang -> o_res o <> OCrash ->
    traced E step l0 (o_fs o) (o_db o) (step nd op r o l)
| TrEdit fs fs' db l : traced E step l0 fs db l -> traced E step l0 fs' db l
| TrRestart nd fp fs0 fs fs' db db' l : traced E step l0 fs0 db l -> on_disk fs fp db -> plain_path fp ->
    all_utf8 (content_texts (db_content db)) -> new_database E nd fp fs = (fs', Loaded db') ->
    traced E step l0 fs' db' l.
Definition recorded (E : Env) : FS -> Database -> Ledger -> Prop := traced E (enter E) [].
(** The entry is the one that a login name stands for. *)
Definition called (E : Env) (e : Entry) (s : string) : Prop :=
  (In "@"%char (los s) /\ (6 <= String.length s)%nat /\ same_ci E (en_mail e) s) \/
  (~ In "@"%char (los s) /\ (2 <= String.length s)%nat /\ same_ci E (en_name e) s).
