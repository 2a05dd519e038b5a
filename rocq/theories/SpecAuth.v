(** Vocabulary of the theorems about credentials (C12-C49). *)
From Coq Require Import String Ascii ZArith NArith Lia Bool Arith List.
From stdpp Require Import gmap strings.
From RecordUpdate Require Import RecordSet.
From Verif Require Import GoStr GoErr Email Random SpecValue Types Env SpecCrypto Fs Database System SpecDb.
Import ListNotations.
Open Scope string_scope.

(** ** Passwords *)
Definition active (p : Password) : Prop := pw_disabled p = false /\ pw_expired p = false.
(** Account [u] currently accepts the password [s]. *)
Definition accepts (E : Env) (u : User) (s : string) : Prop := exists p, In p (u_passwords u) /\ active p /\ e_bcmp E (pw_hash p) s = true.
(** One usable entry, the first. *)
Definition one_active (u : User) : Prop :=
  exists p l, u_passwords u = p :: l /\ active p /\ Forall (fun q => pw_disabled q = true) l.
(** The number of old entries a change keeps is this plus two. *)
Definition kept_versions (p : Policy) : Z := if (pp_keep (po_password p) <? 1)%Z then 9%Z else pp_keep (po_password p).
(** An old entry after a change. *)
Definition retired (now : Z) (p q : Password) : Prop :=
  pw_hash q = pw_hash p /\ pw_created q = pw_created p /\ pw_disabled q = true /\
  (pw_disabled p = true -> q = p) /\ (pw_disabled p = false -> pw_disabled_at q = now /\ pw_expired q = true).
(** A stored limit, or its default when it is zero (C20). *)
Definition limit (stored default actual : Z) : Prop := (stored <> 0%Z /\ actual = stored) \/ (stored = 0%Z /\ actual = default).
(** The usernames that GetUsernamePolicyRegex announces: a letter followed by letters and digits
    (capital letters and "-_." only if the policy allows them) of a length within the limits. *)
Definition announced_start (p : UserPolicy) (a : ascii) : Prop :=
  let n := nat_of_ascii a in (97 <= n <= 122)%nat \/ (up_upper p = true /\ (65 <= n <= 90)%nat).
Definition announced_char (p : UserPolicy) (a : ascii) : Prop :=
  announced_start p a \/ (48 <= nat_of_ascii a <= 57)%nat \/ (up_nonalnum p = true /\ In a (los "-_.")).
Definition announced (p : UserPolicy) (s : string) : Prop :=
  (up_min p <= Z.of_nat (String.length s) <= up_max p)%Z /\
  exists a l, los s = a :: l /\ announced_start p a /\ Forall (announced_char p) l.

(** ** API keys *)
Definition first_address (u : User) (a : string) : Prop := (u_emails u = [] /\ a = "") \/ exists e l, u_emails u = e :: l /\ a = em_address e.
(** The answer names account [u]. *)
Definition reports (o : Out) (u : User) : Prop :=
  ru_username (rq_user (o_req o)) = u_username u /\ first_address u (ru_email (rq_user (o_req o))) /\ rq_code (o_req o) = 200%Z.
(** [p] is the first 24 bytes of [s]. *)
Definition prefix24 (p s : string) : Prop := String.length p = 24%nat /\ exists w, s = p ++ w.
(** [u] holds a key with the prefix of [s] whose hash matches [s]. *)
Definition key_for (E : Env) (u : User) (s : string) : Prop :=
  exists k, In k (u_apikeys u) /\ prefix24 (ak_prefix k) s /\ e_bcmp E (ak_payload k) s = true.
(** The secret an AddAPIKey call draws. *)
Definition drawn (nd : Nd) (s : string) : Prop := random_range 72 96 (nd_len nd) (nd_secret nd) = Some s.
(** [k] is the entry for secret [s] issued on request [r]. *)
Record issued_key (E : Env) (nd : Nd) (r : Request) (s : string) (k : APIKey) : Prop := {
  ik_alnum : alnum_string s; ik_length : (72 <= String.length s <= 95)%nat;
  ik_prefix : prefix24 (ak_prefix k) s;
  ik_hash : e_bcrypt E (nd_salt nd) s 10 = Some (ak_payload k);
  ik_id : ak_id k = random_string 40 (nd_id nd);
  ik_usage : ak_usage k = "api" /\ rk_usage (rq_key r) = "api";
  ik_comment : ak_comment k = rk_comment (rq_key r) /\ ak_comment k <> "";
  ik_flags : ak_disabled k = rk_disabled (rq_key r) /\ ak_expired k = false /\ ak_created k = nd_clock nd
}.
(** Calls that leave key [id] of account [i] alone. *)
Definition spares (E : Env) (i : nat) (id : string) (w : World) (ev : Event) : Prop :=
  match ev with
  | EvCall nd op r => op = OpDeleteAPIKey -> rk_id (rq_key r) = id -> forall db u, w_mem w = Up db -> ~ identity_of E db r i u
  | _ => False
  end.
(** Calls that do not issue a key with prefix [p]. *)
Definition not_reissued (p : string) (w : World) (ev : Event) : Prop :=
  match ev with
  | EvCall nd op r => op = OpAddAPIKey -> forall s, drawn nd s -> ~ prefix24 p s
  | _ => False
  end.
(** Key IDs are unique in every loaded file and every drawn one is unused. *)
Definition key_ids_fresh (E : Env) (w : World) (ev : Event) : Prop :=
  match ev with
  | EvOpen nd fp => forall fs db i u, new_database E nd fp (w_fs w) = (fs, Loaded db) -> account db i u -> NoDup (map ak_id (u_apikeys u))
  | EvCall nd OpAddAPIKey r => forall db i u k, w_mem w = Up db -> account db i u -> In k (u_apikeys u) -> ak_id k <> random_string 40 (nd_id nd)
  | _ => True
  end.
