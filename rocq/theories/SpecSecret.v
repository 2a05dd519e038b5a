(** Vocabulary of the theorems on what becomes of secrets (C102). *)
From Coq Require Import String Ascii ZArith NArith Lia Bool Arith List.
From stdpp Require Import gmap strings.
From RecordUpdate Require Import RecordSet.
From Verif Require Import GoStr GoErr Random Types Env Fs Database System SpecDb SpecAuth.
Import ListNotations.
Import RecordSetNotations.
Open Scope string_scope.

(** The same request with another password, or another old password. *)
Definition set_password (q : string) (r : Request) : Request := r <| rq_user; ru_password := q |>.
Definition set_old_password (q : string) (r : Request) : Request := r <| rq_user; ru_old_password := q |>.
(** [p] and [q] are passwords of which bcrypt makes the same hash, with this salt. *)
Record hash_alike (E : Env) (nd : Nd) (pol : Policy) (p q : string) : Prop := {
  ha_length : within (pp_min (po_password pol)) (zlen p) (pp_max (po_password pol)) <-> within (pp_min (po_password pol)) (zlen q) (pp_max (po_password pol));
  ha_empty : trim_space p = "" <-> trim_space q = "";
  ha_hash : e_bcrypt E (nd_salt nd) (trim_space p) 10 = e_bcrypt E (nd_salt nd) (trim_space q) 10
}.
(** No stored hash tells [p] from [q]. *)
Definition match_alike (E : Env) (u : User) (p q : string) : Prop :=
  forall x, In x (u_passwords u) -> e_bcmp E (pw_hash x) p = e_bcmp E (pw_hash x) q.
(** The same choices with other draws for the secret. *)
Definition with_secret (nd : Nd) (d : nat -> N) (n : N) : Nd := {|
  nd_clock := nd_clock nd; nd_uuid := nd_uuid nd; nd_id := nd_id nd; nd_secret := d; nd_len := n; nd_salt := nd_salt nd; nd_pick := nd_pick nd;
  nd_stat_err := nd_stat_err nd; nd_mkdir_err := nd_mkdir_err nd; nd_read_err := nd_read_err nd; nd_write := nd_write nd |}.
(** The two calls leave the same memory and the same files and return the same; [f] makes the
    request of the second from that of the first. *)
Definition same_effect (f : Request -> Request) (o o' : Out) : Prop :=
  o_db o' = o_db o /\ o_fs o' = o_fs o /\ o_res o' = o_res o /\ o_req o' = f (o_req o).
