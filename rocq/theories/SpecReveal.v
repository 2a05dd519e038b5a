(** What the answers of the API may depend on. *)
From Coq Require Import String Ascii ZArith NArith Lia Bool Arith List.
From stdpp Require Import gmap strings.
From RecordUpdate Require Import RecordSet.
From Verif Require Import GoStr GoErr Role Name Email Random Types Env Password ApiKey PublicKey Mfa User Json Persist Fs Database SpecAuth.
Import ListNotations.
Import RecordSetNotations.
Open Scope string_scope.

(** The database with every stored secret erased: the password hashes, the hashes of the API
    keys and the secrets of the second-factor tokens. *)
Definition blank_password (p : Password) : Password := p <| pw_hash := "" |>.
Definition blank_key (k : APIKey) : APIKey := k <| ak_payload := "" |>.
Definition blank_token (t : MfaToken) : MfaToken := t <| t_secret := "" |>.
Definition blank_user (u : User) : User :=
  u <| u_passwords ::= map blank_password |> <| u_apikeys ::= map blank_key |> <| u_mfa ::= map blank_token |>.
Definition blank (db : Database) : Database := db <| db_content; c_users ::= map blank_user |>.

(** Nothing but the stored secrets tells these databases apart. *)
Definition apart (db db' : Database) : Prop := blank db = blank db'.
(** The same files and directories exist; the files may differ in content. *)
Definition shape (fs fs' : FS) : Prop :=
  forall p, match fs !! p, fs' !! p with
            | None, None | Some Dir, Some Dir | Some (File _), Some (File _) => True
            | _, _ => False
            end.

(** These calls hand out accounts, keys or tokens as they are stored. *)
Definition hands_out (op : Op) : Prop := op = OpGetUser \/ op = OpGetAPIKeys \/ op = OpGetMfaTokens.
(** These calls compare what they are given with what is stored. *)
Definition compares (op : Op) : Prop :=
  op = OpAuthenticate \/ op = OpChangePassword \/ op = OpLookupAPIKey \/ op = OpAddMfaToken.

(** The comparisons with the values in the request come out the same on both sides. *)
Definition agree (E : Env) (r : Request) (db db' : Database) : Prop :=
  forall i u v, db_users db !! i = Some u -> db_users db' !! i = Some v ->
    (accepts E u (ru_password (rq_user r)) <-> accepts E v (ru_password (rq_user r))) /\
    (accepts E u (ru_old_password (rq_user r)) <-> accepts E v (ru_old_password (rq_user r))) /\
    (forall n k k', u_apikeys u !! n = Some k -> u_apikeys v !! n = Some k' ->
       (e_bcmp E (ak_payload k) (rk_payload (rq_key r)) = true <-> e_bcmp E (ak_payload k') (rk_payload (rq_key r)) = true)) /\
    (forall n t t', u_mfa u !! n = Some t -> u_mfa v !! n = Some t' ->
       (t_secret t = rm_secret (rq_mfa r) <-> t_secret t' = rm_secret (rq_mfa r)) /\
       (t_secret t = rw_challenge (rq_webauthn r) <-> t_secret t' = rw_challenge (rq_webauthn r))).

(** What the caller sees of a sequence of calls on an open database. *)
Fixpoint answers (E : Env) (db : Database) (fs : FS) (l : list (Nd * Op * Request)) : list (Request * Outcome) :=
  match l with
  | [] => []
  | (nd, op, r) :: l => let o := exec E nd op db fs r in (o_req o, o_res o) :: answers E (o_db o) (o_fs o) l
  end.
