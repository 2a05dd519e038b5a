(** Vocabulary of the theorems about issued API keys (C126): for every account the keys issued and not
    deleted, kept by an observer of the calls and their answers. *)
From Coq Require Import String Ascii ZArith NArith Lia Bool Arith List.
From stdpp Require Import gmap strings.
From Verif Require Import GoStr Codec Random Types Env Persist Fs Database System.
From Verif Require Import SpecDb SpecAuth SpecOutage SpecLedger.
Import ListNotations.
Open Scope string_scope.

(** A key issued: the request, the time and the draws of the call, and the secret handed out. *)
Record Grant := { gr_nd : Nd; gr_req : Request; gr_secret : string }.
Definition gr_id (x : Grant) : string := random_string 40 (nd_id (gr_nd x)).
Record Purse := { pu_name : string; pu_mail : string; pu_grants : list Grant }.
Definition with_grants (f : list Grant -> list Grant) (e : Purse) : Purse :=
  {| pu_name := pu_name e; pu_mail := pu_mail e; pu_grants := f (pu_grants e) |}.
Definition on_purse (E : Env) (r : Request) (f : Purse -> Purse) (l : list Purse) : list Purse :=
  map (fun e => if String.eqb (lower E (pu_name e)) (lower E (ru_username (rq_user r))) then f e else e) l.
Definition issue (E : Env) (nd : Nd) (op : Op) (r : Request) (o : Out) (l : list Purse) : list Purse :=
  match took o, op with
  | true, OpAddUser => (l ++ [{| pu_name := ru_username (rq_user r); pu_mail := ru_email (rq_user r); pu_grants := [] |}])%list
  | true, OpAddAPIKey => on_purse E r (with_grants (fun ts => (ts ++ [{| gr_nd := nd; gr_req := r; gr_secret := handed_out o |}])%list)) l
  | true, OpDeleteAPIKey => on_purse E r (with_grants (List.filter (fun x => negb (String.eqb (gr_id x) (rk_id (rq_key r)))))) l
  | _, _ => l
  end.
Definition granted (E : Env) : FS -> Database -> list Purse -> Prop := traced E (issue E) [].
Definition purse_named (E : Env) (e : Purse) (r : Request) : Prop :=
  (2 <= String.length (ru_username (rq_user r)))%nat /\ same_ci E (pu_name e) (ru_username (rq_user r)) /\
  (6 <= String.length (ru_email (rq_user r)))%nat /\ same_ci E (pu_mail e) (ru_email (rq_user r)).
(** The entry that stands for a key: of its secret it holds the first 24 characters and the hash. *)
Record stands_for (E : Env) (x : Grant) (k : APIKey) : Prop := {
  sf_secret : (72 <= String.length (gr_secret x) <= 95)%nat;
  sf_prefix : prefix24 (ak_prefix k) (gr_secret x);
  sf_hash : e_bcrypt E (nd_salt (gr_nd x)) (gr_secret x) 10 = Some (ak_payload k);
  sf_id : ak_id k = gr_id x;
  sf_usage : ak_usage k = "api" /\ rk_usage (rq_key (gr_req x)) = "api";
  sf_comment : ak_comment k = rk_comment (rq_key (gr_req x)) /\ ak_comment k <> "";
  sf_off : ak_disabled k = rk_disabled (rq_key (gr_req x)) /\ ak_disabled_at k = (if rk_disabled (rq_key (gr_req x)) then nd_clock (gr_nd x) else 0%Z);
  sf_times : ak_created k = nd_clock (gr_nd x) /\ ak_expired k = false /\ ak_expired_at k = 0%Z }.
(** The keys not issued as disabled. *)
Definition in_force (l : list Grant) : list Grant := List.filter (fun x => negb (rk_disabled (rq_key (gr_req x)))) l.
