(** Theorems about deleting what was just added (C105). *)
From Coq Require Import String Ascii ZArith NArith Lia Bool Arith List.
From stdpp Require Import gmap strings.
From RecordUpdate Require Import RecordSet.
From Verif Require Import GoStr GoErr Random Types Env User Persist Fs Database System SpecDb SpecAuth SpecKey SpecIsolation Examples.
From Verif Require Import AccountFacts StepFacts UndoFacts PropertiesPassword PropertiesIsolation.
Import ListNotations.
Import RecordSetNotations.
Open Scope string_scope.

(** C105 *)
(** The deletion is refused only if the file cannot be written, and it leaves the memory as it was
    before the addition even then. *)
Theorem C105_public_key E nd1 nd2 db fs r r2 i u : reachable E fs db -> identity_of E db r i u -> identity_of E db r2 i u ->
  let a := exec E nd1 OpAddPublicKey db fs r in o_res a = OOk -> added u_pubkeys pk_id db (o_db a) i u (rk_id (rq_key r2)) ->
  let d := exec E nd2 OpDeletePublicKey (o_db a) (o_fs a) r2 in
  undone db (o_db d) i u /\ (o_res d = OOk <-> can_write nd2 (o_fs a) (db_path db) (db_content (o_db d))).
Proof. exact (undo_public E nd1 nd2 db fs r r2 i u). Qed.
Print Assumptions C105_public_key.
Theorem C105_api_key E nd1 nd2 db fs r r2 i u : reachable E fs db -> identity_of E db r i u -> identity_of E db r2 i u ->
  let a := exec E nd1 OpAddAPIKey db fs r in o_res a = OOk -> added u_apikeys ak_id db (o_db a) i u (rk_id (rq_key r2)) ->
  let d := exec E nd2 OpDeleteAPIKey (o_db a) (o_fs a) r2 in
  undone db (o_db d) i u /\ (o_res d = OOk <-> can_write nd2 (o_fs a) (db_path db) (db_content (o_db d))).
Proof. exact (undo_key E nd1 nd2 db fs r r2 i u). Qed.
Print Assumptions C105_api_key.
Theorem C105_mfa_token E nd1 nd2 db fs r r2 i u : reachable E fs db -> identity_of E db r i u -> identity_of E db r2 i u ->
  let a := exec E nd1 OpAddMfaToken db fs r in o_res a = OOk -> added u_mfa t_id db (o_db a) i u (rm_id (rq_mfa r2)) ->
  let d := exec E nd2 OpDeleteMfaToken (o_db a) (o_fs a) r2 in
  undone db (o_db d) i u /\ (o_res d = OOk <-> can_write nd2 (o_fs a) (db_path db) (db_content (o_db d))).
Proof. exact (undo_mfa E nd1 nd2 db fs r r2 i u). Qed.
Print Assumptions C105_mfa_token.
(** An ID that was drawn before is not checked: then the deletion takes the older item with it. *)
Notation key1 := (exec toy (draws 9) OpAddAPIKey two.2 two.1 jane_key).
Definition other_secret (nd : Nd) : Nd := {|
  nd_clock := nd_clock nd; nd_uuid := nd_uuid nd; nd_id := nd_id nd; nd_secret := fun i => (nd_secret nd i + 7)%N; nd_len := nd_len nd;
  nd_salt := nd_salt nd; nd_pick := nd_pick nd; nd_stat_err := nd_stat_err nd; nd_mkdir_err := nd_mkdir_err nd;
  nd_read_err := nd_read_err nd; nd_write := nd_write nd |}.
Notation key2 := (exec toy (other_secret (draws 9)) OpAddAPIKey (o_db key1) (o_fs key1) jane_key).
Notation key_id := (random_string 40 (nd_id (draws 9))).
Definition drop_key : Request := jane_key <| rq_key; rk_id := key_id |>.
Theorem C105_any_id_refuted : exists E nd1 nd2 db fs r r2 i u k, reachable E fs db /\ identity_of E db r i u /\ identity_of E db r2 i u /\
  let a := exec E nd1 OpAddAPIKey db fs r in o_res a = OOk /\ In k (u_apikeys u) /\
  (exists u' k', account (o_db a) i u' /\ u_apikeys u' = (u_apikeys u ++ [k'])%list /\ ak_id k' = rk_id (rq_key r2)) /\
  let d := exec E nd2 OpDeleteAPIKey (o_db a) (o_fs a) r2 in o_res d = OOk /\ exists v, account (o_db d) i v /\ u_apikeys v = [].
Proof.
  assert (HR : reachable toy (o_fs key1) (o_db key1)) by (apply exec_reachable; [exact two_reachable|split; vm_compute; discriminate]).
  pose (u := match db_users (o_db key1) with u :: _ => u | [] => new_user (draws 0) "" end).
  pose (k := match u_apikeys u with k :: _ => k | [] => {| ak_id := ""; ak_prefix := ""; ak_usage := ""; ak_comment := ""; ak_payload := ""; ak_expired := false; ak_expired_at := 0; ak_created := 0; ak_disabled := false; ak_disabled_at := 0 |} end).
  exists toy, (other_secret (draws 9)), (draws 60), (o_db key1), (o_fs key1), jane_key, drop_key, 0%nat, u, k.
  split; [exact HR|]. split; [apply (validate_iff _ _ _ _ _ _ HR); vm_compute; reflexivity|]. split; [apply (validate_iff _ _ _ _ _ _ HR); vm_compute; reflexivity|].
  cbv zeta. split; [vm_compute; reflexivity|]. split; [vm_compute; left; reflexivity|]. split.
  - exists (match db_users (o_db key2) with u :: _ => u | [] => new_user (draws 0) "" end).
    exists (match db_users (o_db key2) with u :: _ => match u_apikeys u with [_; k] => k | _ => k end | [] => k end). split; [vm_compute; reflexivity|]. split; vm_compute; reflexivity.
  - split; [vm_compute; reflexivity|].
    exists (match db_users (o_db (exec toy (draws 60) OpDeleteAPIKey (o_db key2) (o_fs key2) drop_key)) with u :: _ => u | [] => new_user (draws 0) "" end). split; vm_compute; reflexivity.
Qed.
Print Assumptions C105_any_id_refuted.
Example C105_ex : exists u, identity_of toy two.2 jane_key 0 u /\ identity_of toy two.2 drop_key 0 u /\ o_res key1 = OOk /\
  added u_apikeys ak_id two.2 (o_db key1) 0 u (rk_id (rq_key drop_key)) /\ db_users (o_db key1) <> db_users two.2.
Proof.
  exists (match db_users two.2 with u :: _ => u | [] => new_user (draws 0) "" end).
  split; [apply (validate_iff _ _ _ _ _ _ two_reachable); vm_compute; reflexivity|]. split; [apply (validate_iff _ _ _ _ _ _ two_reachable); vm_compute; reflexivity|].
  split; [vm_compute; reflexivity|]. split; [|vm_compute; discriminate]. constructor; [|vm_compute; tauto].
  exists (match db_users (o_db key1) with u :: _ => u | [] => new_user (draws 0) "" end).
  exists (match db_users (o_db key1) with u :: _ => match u_apikeys u with k :: _ => k | _ => {| ak_id := ""; ak_prefix := ""; ak_usage := ""; ak_comment := ""; ak_payload := ""; ak_expired := false; ak_expired_at := 0; ak_created := 0; ak_disabled := false; ak_disabled_at := 0 |} end | [] => {| ak_id := ""; ak_prefix := ""; ak_usage := ""; ak_comment := ""; ak_payload := ""; ak_expired := false; ak_expired_at := 0; ak_created := 0; ak_disabled := false; ak_disabled_at := 0 |} end).
  split; [vm_compute; reflexivity|]. split; vm_compute; reflexivity.
Qed.
