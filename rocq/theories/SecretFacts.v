(** Facts on what becomes of secrets (C102). *)
From Coq Require Import String Ascii ZArith NArith Lia Bool Arith List ZifyBool ZifyN ZifyNat.
From stdpp Require Import gmap strings.
From RecordUpdate Require Import RecordSet.
From Verif Require Import GoStr Codec GoErr Role Name Email Random SpecValue.
From Verif Require Import Types Env Password ApiKey PublicKey Mfa User Persist Fs Database System UserFacts DbFacts Inv.
From Verif Require Import SpecDb SpecAuth SpecSecret AccountFacts StepFacts ApiKeyFacts.
Import ListNotations.
Import RecordSetNotations.
Open Scope string_scope.
#[local] Opaque int64 new_id trim_space new_email new_role random_string random_range.

Lemma alike_policy E nd pol p q : hash_alike E nd pol p q -> password_policy_ok pol p = password_policy_ok pol q.
Proof.
  intros [H _ _]. unfold password_policy_ok, within in *.
  destruct (zlen p >? _)%Z eqn:A, (zlen p <? _)%Z eqn:B, (zlen q >? _)%Z eqn:C, (zlen q <? _)%Z eqn:D; cbn; try reflexivity; exfalso; lia.
Qed.
Lemma alike_new E nd pol p q : hash_alike E nd pol p q -> new_password E nd p = new_password E nd q.
Proof.
  intros [_ M H]. unfold new_password, new_password_opt, pw_hash_of. cbv zeta.
  destruct (String.eqb (trim_space p) "") eqn:A, (String.eqb (trim_space q) "") eqn:B.
  1: reflexivity.
  1,2: exfalso; apply String.eqb_eq in A || apply String.eqb_neq in A; apply String.eqb_eq in B || apply String.eqb_neq in B; tauto.
  cbn. rewrite H. reflexivity.
Qed.
Lemma finish_req nd db fs r wrap f : o_db (finish nd db fs (f r) wrap) = o_db (finish nd db fs r wrap) /\ o_fs (finish nd db fs (f r) wrap) = o_fs (finish nd db fs r wrap) /\
  o_res (finish nd db fs (f r) wrap) = o_res (finish nd db fs r wrap) /\ o_req (finish nd db fs (f r) wrap) = f (o_req (finish nd db fs r wrap)).
Proof. unfold finish. destruct commit as [[d f'] res]. destruct res; repeat split. Qed.
Lemma add_user_alike E nd db fs r q : hash_alike E nd (db_policy db) (ru_password (rq_user r)) q ->
  same_effect (set_password q) (exec E nd OpAddUser db fs r) (exec E nd OpAddUser db fs (set_password q r)).
Proof.
  intros H. cbn [exec]. unfold db_add_user. cbv zeta.
  assert (P : check_policy (db_policy db) (ru_username (rq_user r)) q = check_policy (db_policy db) (ru_username (rq_user r)) (ru_password (rq_user r))).
  { unfold check_policy. now rewrite (alike_policy _ _ _ _ _ H). }
  assert (N : forall n e f l, new_user_with_roles E nd n q e f l = new_user_with_roles E nd n (ru_password (rq_user r)) e f l).
  { intros. unfold new_user_with_roles, add_password. now rewrite (alike_new _ _ _ _ _ H). }
  change (ru_username (rq_user (set_password q r))) with (ru_username (rq_user r)). change (ru_password (rq_user (set_password q r))) with q.
  change (ru_email (rq_user (set_password q r))) with (ru_email (rq_user r)). change (ru_full_name (rq_user (set_password q r))) with (ru_full_name (rq_user r)).
  change (ru_roles (rq_user (set_password q r))) with (ru_roles (rq_user r)). rewrite P, N. clear P N.
  destruct check_policy; [repeat split|]. destruct new_user_with_roles as [u|e]; [|repeat split].
  destruct (ref_username db !! _); [repeat split|]. destruct (new_addresses _ _ _); [|repeat split]. apply (finish_req nd _ fs r _ (set_password q)).
Qed.
Lemma alike_verify E u p q : match_alike E u p q -> verify_password E u q = verify_password E u p.
Proof.
  unfold match_alike, verify_password, pw_match. destruct (u_passwords u) as [|x l]; [reflexivity|]. intros H.
  assert (X : existsb (fun p0 => negb (pw_disabled p0 || pw_expired p0) && e_bcmp E (pw_hash p0) q) (x :: l) =
              existsb (fun p0 => negb (pw_disabled p0 || pw_expired p0) && e_bcmp E (pw_hash p0) p) (x :: l)).
  { generalize dependent (x :: l). intros m H. induction m as [|y m IH]; [reflexivity|]. cbn [existsb]. rewrite IH by (intros; apply H; now right).
    rewrite (H y) by now left. reflexivity. }
  now rewrite X.
Qed.
Lemma change_password_alike E nd db fs r i u q old : reachable E fs db -> identity_of E db r i u ->
  hash_alike E nd (db_policy db) (ru_password (rq_user r)) q -> match_alike E u (ru_old_password (rq_user r)) old ->
  same_effect (fun r => set_old_password old (set_password q r)) (exec E nd OpChangePassword db fs r) (exec E nd OpChangePassword db fs (set_old_password old (set_password q r))).
Proof.
  intros HR A H M. apply (validate_iff _ _ _ _ _ _ HR) in A. cbn [exec]. unfold db_change_password.
  change (validate_identity E db (set_old_password old (set_password q r))) with (validate_identity E db r). rewrite A.
  change (ru_password (rq_user (set_old_password old (set_password q r)))) with q. rewrite <- (alike_policy _ _ _ _ _ H).
  destruct (negb _); [repeat split|]. unfold change_password.
  change (ru_password (rq_user (set_old_password old (set_password q r)))) with q.
  change (ru_old_password (rq_user (set_old_password old (set_password q r)))) with old. rewrite (alike_verify _ _ _ _ M).
  destruct verify_password; [repeat split|]. unfold add_password. rewrite <- (alike_new _ _ _ _ _ H).
  destruct new_password as [p|e]; [|repeat split]. apply (finish_req nd _ fs r _ (fun r => set_old_password old (set_password q r))).
Qed.
Lemma login_alike E nd db fs r i u q : reachable E fs db -> resolves_login E db (ru_username (rq_user r)) i u ->
  ru_password (rq_user r) <> "" -> q <> "" -> match_alike E u (ru_password (rq_user r)) q ->
  same_effect (set_password q) (exec E nd OpAuthenticate db fs r) (exec E nd OpAuthenticate db fs (set_password q r)).
Proof.
  intros HR A Np Nq M. apply (get_user_resolves _ _ _ _ _ _ HR) in A. cbn [exec]. unfold db_authenticate. cbv zeta.
  change (ru_username (rq_user (set_password q r))) with (ru_username (rq_user r)). change (ru_password (rq_user (set_password q r))) with q.
  rewrite A. apply String.eqb_neq in Np, Nq. rewrite Np, Nq. cbn [negb]. rewrite (alike_verify _ _ _ _ M).
  destruct verify_password; repeat split.
Qed.
Lemma add_key_alike E nd db fs r d n s s' : drawn nd s -> drawn (with_secret nd d n) s' ->
  take 24 s' = take 24 s -> e_bcrypt E (nd_salt nd) s 10 = e_bcrypt E (nd_salt nd) s' 10 ->
  let o := exec E nd OpAddAPIKey db fs r in let o' := exec E (with_secret nd d n) OpAddAPIKey db fs r in
  o_db o' = o_db o /\ o_fs o' = o_fs o /\ o_res o' = o_res o /\ exists x, o_req o' = o_req o <| rq_payload := x |>.
Proof.
  intros D D' T B. destruct (drawn_spec nd) as (s0 & D0 & A & L). destruct (drawn_spec (with_secret nd d n)) as (s0' & D0' & A' & L').
  unfold drawn in *. assert (s0 = s) as -> by congruence. assert (s0' = s') as -> by congruence. clear D0 D0'.
  assert (P : new_password E (with_secret nd d n) s' = new_password E nd s).
  { unfold new_password, new_password_opt, pw_hash_of. cbv zeta. rewrite (alnum_trim s A), (alnum_trim s' A').
    assert (Ns : String.eqb s "" = false) by (apply String.eqb_neq; intros ->; cbn in L; lia).
    assert (Ns' : String.eqb s' "" = false) by (apply String.eqb_neq; intros ->; cbn in L'; lia).
    rewrite Ns, Ns'. cbn. now rewrite B. }
  cbn [exec]. unfold db_add_api_key. destruct validate_identity as [[i u]|e]; [|repeat split; now exists (rq_payload r); destruct r].
  rewrite D, D', P. destruct (new_password E nd s) as [hk|e]; [|repeat split; now exists (rq_payload r); destruct r]. cbv zeta. rewrite T.
  destruct (ref_apikey db !! take 24 s); [repeat split; now exists (rq_payload r); destruct r|].
  set (r1 := r <| rq_payload := PStr s |> <| rq_key; rk_payload := pw_hash hk |> <| rq_key; rk_prefix := take 24 s |>).
  set (r2 := r <| rq_payload := PStr s' |> <| rq_key; rk_payload := pw_hash hk |> <| rq_key; rk_prefix := take 24 s |>).
  change r2 with ((fun r : Request => r <| rq_payload := PStr s' |>) r1). cbv beta.
  change (add_api_key (with_secret nd d n) u (r1 <| rq_payload := PStr s' |>)) with (add_api_key nd u r1).
  destruct (add_api_key nd u r1) as [v|e]; [|repeat split; now exists (PStr s')].
  match goal with |- context [finish nd ?d fs r1 ?w] => pose proof (finish_req nd d fs r1 w (fun r : Request => r <| rq_payload := PStr s' |>)) as (F1 & F2 & F3 & F4) end.
  split; [exact F1|]. split; [exact F2|]. split; [exact F3|]. exists (PStr s'). exact F4.
Qed.
