(** Vocabulary of the theorems on the order of times (C104). *)
From Coq Require Import String Ascii ZArith NArith Lia Bool Arith List Sorting.Sorted.
From stdpp Require Import gmap strings.
From Verif Require Import GoStr Types Env Fs Database System SpecDb.
Import ListNotations.
Open Scope string_scope.

(** Something made at [c], between [lo] and [hi], and if it is disabled then since [d], not before
    it was made and not after [hi]. *)
Definition span (lo hi c : Z) (disabled : bool) (d : Z) : Prop := (lo <= c <= hi)%Z /\ (disabled = true -> (c <= d <= hi)%Z).
Definition ascending : list Z -> Prop := StronglySorted Z.le.
Definition descending : list Z -> Prop := StronglySorted Z.ge.
(** The times of an account, all of them not after [now]. *)
Record in_order (now : Z) (u : User) : Prop := {
  io_user : (u_created u <= u_modified u <= now)%Z;
  io_passwords p : In p (u_passwords u) -> span (u_created u) (u_modified u) (pw_created p) (pw_disabled p) (pw_disabled_at p);
  io_pubkeys k : In k (u_pubkeys u) -> span (u_created u) (u_modified u) (pk_created k) (pk_disabled k) (pk_disabled_at k);
  io_apikeys k : In k (u_apikeys u) -> span (u_created u) (u_modified u) (ak_created k) (ak_disabled k) (ak_disabled_at k);
  io_mfa t : In t (u_mfa u) -> span (u_created u) (u_modified u) (t_created t) (t_disabled t) (t_disabled_at t);
  io_newest_first : descending (map pw_created (u_passwords u));
  io_pubkeys_asc : ascending (map pk_created (u_pubkeys u));
  io_apikeys_asc : ascending (map ak_created (u_apikeys u));
  io_mfa_asc : ascending (map t_created (u_mfa u))
}.
Definition last_change (db : Database) : Z := c_modified (db_content db).
Record db_in_order (db : Database) : Prop := {
  do_accounts i u : account db i u -> in_order (last_change db) u;
  do_sorted : ascending (map u_created (db_users db))
}.
(** The clock has not gone back behind the last change of the database. *)
Definition on_time (w : World) (ev : Event) : Prop :=
  match ev with
  | EvCall nd op r => forall db, w_mem w = Up db -> (last_change db <= nd_clock nd)%Z
  | _ => False
  end.
