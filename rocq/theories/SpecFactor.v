(** Vocabulary of the theorems about the second factors returned (C127): for every account the
    registrations not deleted, with their calls, kept by an observer of the calls and their answers. *)
From Coq Require Import String Ascii ZArith NArith Lia Bool Arith List.
From stdpp Require Import gmap strings.
From RecordUpdate Require Import RecordSet.
From Verif Require Import GoStr Codec Random Types Env Persist Fs Database System.
From Verif Require Import SpecDb SpecAuth SpecMfa SpecRegister SpecOutage SpecLedger.
Import ListNotations.
Import RecordSetNotations.
Open Scope string_scope.

(** A registration: the request, and the time and the draws of the call. *)
Record Enrolment := { en_nd : Nd; en_req : Request }.
Definition en_id (x : Enrolment) : string := random_string 40 (nd_id (en_nd x)).
Record Case := { ca_name : string; ca_mail : string; ca_enrolments : list Enrolment }.
Definition with_enrolments (f : list Enrolment -> list Enrolment) (e : Case) : Case :=
  {| ca_name := ca_name e; ca_mail := ca_mail e; ca_enrolments := f (ca_enrolments e) |}.
Definition on_case (E : Env) (r : Request) (f : Case -> Case) (l : list Case) : list Case :=
  map (fun e => if String.eqb (lower E (ca_name e)) (lower E (ru_username (rq_user r))) then f e else e) l.
Definition equip (E : Env) (nd : Nd) (op : Op) (r : Request) (o : Out) (l : list Case) : list Case :=
  match took o, op with
  | true, OpAddUser => (l ++ [{| ca_name := ru_username (rq_user r); ca_mail := ru_email (rq_user r); ca_enrolments := [] |}])%list
  | true, OpAddMfaToken => on_case E r (with_enrolments (fun fs => (fs ++ [{| en_nd := nd; en_req := r |}])%list)) l
  | true, OpDeleteMfaToken => on_case E r (with_enrolments (List.filter (fun x => negb (String.eqb (en_id x) (rm_id (rq_mfa r)))))) l
  | _, _ => l
  end.
Definition equipped (E : Env) : FS -> Database -> list Case -> Prop := traced E (equip E) [].
Definition case_named (E : Env) (e : Case) (r : Request) : Prop :=
  (2 <= String.length (ru_username (rq_user r)))%nat /\ same_ci E (ca_name e) (ru_username (rq_user r)) /\
  (6 <= String.length (ru_email (rq_user r)))%nat /\ same_ci E (ca_mail e) (ru_email (rq_user r)).
(** The token that the registration describes, everything about it: a secret ... or a key. *)
Definition token_of (E : Env) (x : Enrolment) (t : MfaToken) : Prop :=
  (exists a d, registers_totp E (nd_clock (en_nd x)) (en_req x) a d /\ totp_complete (en_nd x) (en_req x) a d t) \/
  (exists q a curve cx cy, registers_u2f E (en_req x) q a curve cx cy /\ u2f_entry (en_nd x) (en_req x) q a curve cx cy t).
(** A stored token is that, but for the key that a login may have computed from its parameters. *)
Definition tells (E : Env) (x : Enrolment) (t : MfaToken) : Prop :=
  token_of E x (t <| t_cache := None |>) /\ (forall key, t_cache t = Some key -> p256_key t key).
(** The registrations not made as disabled. *)
Definition active (l : list Enrolment) : list Enrolment := List.filter (fun x => negb (rm_disabled (rq_mfa (en_req x)))) l.
