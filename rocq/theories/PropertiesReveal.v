(** Theorems about what the answers disclose (C110). *)
From Coq Require Import String Ascii ZArith NArith Lia Bool Arith List.
From stdpp Require Import gmap strings.
From RecordUpdate Require Import RecordSet.
From Verif Require Import GoStr GoErr Types Env Persist Fs Database System SpecDb SpecAuth SpecReveal Examples RevealFacts AccountFacts PropertiesApiKey PropertiesMfa.
Import ListNotations.
Import RecordSetNotations.
Open Scope string_scope.

(** C110 *)
(** One call. *)
Theorem C110_hidden E nd op db db' fs fs' r : apart db db' -> shape fs fs' -> ~ hands_out op -> ~ compares op ->
  let o := exec E nd op db fs r in let o' := exec E nd op db' fs' r in
  o_res o = o_res o' /\ o_req o = o_req o' /\ apart (o_db o) (o_db o') /\ shape (o_fs o) (o_fs o').
Proof.
  intros A S H1 H2 o o'. unfold hands_out in H1. destruct (exec_quiet E nd op db db' fs fs' r A S) as [Q1 Q2 Q3 Q4]; [tauto|tauto|tauto|].
  split; [exact Q1|]. split; [exact Q2|]. split; [now apply faint_iff|exact Q3].
Qed.
Print Assumptions C110_hidden.
(** A call that compares discloses the outcome of the comparison and nothing else. *)
Theorem C110_compared E nd op db db' fs fs' r : apart db db' -> shape fs fs' -> compares op -> agree E r db db' ->
  let o := exec E nd op db fs r in let o' := exec E nd op db' fs' r in
  o_res o = o_res o' /\ o_req o = o_req o' /\ apart (o_db o) (o_db o') /\ shape (o_fs o) (o_fs o').
Proof.
  intros A S H1 G o o'. destruct (exec_quiet E nd op db db' fs fs' r A S) as [Q1 Q2 Q3 Q4]; [intros ->; destruct H1 as [|[|[|]]]; discriminate|intros ->; destruct H1 as [|[|[|]]]; discriminate|auto|].
  split; [exact Q1|]. split; [exact Q2|]. split; [now apply faint_iff|exact Q3].
Qed.
Print Assumptions C110_compared.
(** Any sequence of the former calls is answered as if all secrets had been erased. *)
Theorem C110_erased E db fs l : Forall (fun c => ~ hands_out c.1.2 /\ ~ compares c.1.2) l -> answers E db fs l = answers E (blank db) fs l.
Proof. intros F. exact (answers_quiet E l _ _ _ _ (blank_apart db) (shape_refl fs) F). Qed.
Print Assumptions C110_erased.
(** The remaining calls disclose what is stored: the secret of a one-time-password token in clear, ... *)
Definition tec_req : Request := totp_req <| rq_mfa; rm_secret := "tec" |>.
Notation tec_out := (exec toy (draws 9) OpAddMfaToken two.2 two.1 tec_req).
Lemma tec_ok : o_res tec_out = OOk. Proof. vm_compute. reflexivity. Qed.
Theorem C110_tokens_refuted : exists E nd db db' fs fs' r, reachable E fs db /\ reachable E fs' db' /\ apart db db' /\ shape fs fs' /\
  exists b b', rq_payload (o_req (exec E nd OpGetMfaTokens db fs r)) = PMfaTokens b /\ rq_payload (o_req (exec E nd OpGetMfaTokens db' fs' r)) = PMfaTokens b' /\
    map t_secret (b_items b) = ["sec"] /\ map t_secret (b_items b') = ["tec"].
Proof.
  exists toy, (draws 60), (o_db totp_out), (o_db tec_out), (o_fs totp_out), (o_fs tec_out), jane.
  split; [exact totp_reachable|]. split; [exact (exec_reachable _ _ _ _ _ _ two_reachable (ok_returned _ tec_ok))|].
  split; [vm_compute; reflexivity|]. split; [apply shape_by; vm_compute; reflexivity|].
  eexists. eexists. split; [vm_compute; reflexivity|]. split; [vm_compute; reflexivity|]. split; vm_compute; reflexivity.
Qed.
Print Assumptions C110_tokens_refuted.
(** ... the hash of an API key, ... *)
Definition tail_draws (k : N) : Nd := let nd := draws 9 in {|
  nd_clock := nd_clock nd; nd_uuid := nd_uuid nd; nd_id := nd_id nd; nd_secret := fun i => if (i <? 24)%nat then N.of_nat i else k; nd_len := nd_len nd;
  nd_salt := nd_salt nd; nd_pick := nd_pick nd; nd_stat_err := nd_stat_err nd; nd_mkdir_err := nd_mkdir_err nd;
  nd_read_err := nd_read_err nd; nd_write := nd_write nd |}.
Notation tail_out k := (exec toy (tail_draws k) OpAddAPIKey two.2 two.1 jane_key).
Lemma tail_ok : o_res (tail_out 3) = OOk /\ o_res (tail_out 4) = OOk. Proof. split; vm_compute; reflexivity. Qed.
Theorem C110_keys_refuted : exists E nd db db' fs fs' r, reachable E fs db /\ reachable E fs' db' /\ apart db db' /\ shape fs fs' /\
  exists b b', rq_payload (o_req (exec E nd OpGetAPIKeys db fs r)) = PAPIKeys b /\ rq_payload (o_req (exec E nd OpGetAPIKeys db' fs' r)) = PAPIKeys b' /\
    map ak_prefix (b_items b) = map ak_prefix (b_items b') /\ map ak_payload (b_items b) <> map ak_payload (b_items b').
Proof.
  exists toy, (draws 60), (o_db (tail_out 3)), (o_db (tail_out 4)), (o_fs (tail_out 3)), (o_fs (tail_out 4)), jane_key.
  split; [exact (exec_reachable _ _ _ _ _ _ two_reachable (ok_returned _ (proj1 tail_ok)))|]. split; [exact (exec_reachable _ _ _ _ _ _ two_reachable (ok_returned _ (proj2 tail_ok)))|].
  split; [vm_compute; reflexivity|]. split; [apply shape_by; vm_compute; reflexivity|].
  eexists. eexists. split; [vm_compute; reflexivity|]. split; [vm_compute; reflexivity|]. split; vm_compute; [reflexivity|discriminate].
Qed.
Print Assumptions C110_keys_refuted.
(** ... and, through the account itself, the password hashes. *)
Theorem C110_account_refuted : exists E nd db fs r i u p, reachable E fs db /\ rq_payload (o_req (exec E nd OpGetUser db fs r)) = PUser i /\
  account db i u /\ u_passwords u = [p] /\ e_bcmp E (pw_hash p) "secret-pw-1" = true.
Proof.
  destruct (db_users two.2 !! 0%nat) as [u|] eqn:U; [|vm_compute in U; discriminate].
  assert (exists p, u_passwords <$> (db_users two.2 !! 0%nat) = Some [p] /\ e_bcmp toy (pw_hash p) "secret-pw-1" = true) as (p & P1 & P2) by (eexists; split; [vm_compute; reflexivity|vm_compute; reflexivity]).
  rewrite U in P1. cbn [fmap option_fmap option_map] in P1. assert (u_passwords u = [p]) as P by exact (f_equal (from_option id []) P1).
  exists toy, (draws 60), two.2, two.1, jane, 0%nat, u, p.
  split; [exact two_reachable|]. split; [vm_compute; reflexivity|]. split; [exact U|]. split; [exact P|exact P2].
Qed.
Print Assumptions C110_account_refuted.
(** Two databases that differ in the password of an account answer alike, also a login with a
    password neither accepts. *)
Notation other_pw := (run toy start [(draws 1, OpAddUser, jane_req <| rq_user; ru_password := "secret-pw-9" |>); (draws 40, OpAddUser, bob_req)]).
Example C110_ex : apart two.2 other_pw.2 /\ two.2 <> other_pw.2 /\ shape two.1 other_pw.1 /\
  agree toy (jane <| rq_user; ru_password := "guess" |>) two.2 other_pw.2 /\
  (o_res (exec toy (draws 60) OpAuthenticate two.2 two.1 (jane <| rq_user; ru_password := "secret-pw-9" |>)) <> OOk /\
   o_res (exec toy (draws 60) OpAuthenticate other_pw.2 other_pw.1 (jane <| rq_user; ru_password := "secret-pw-9" |>)) = OOk) /\
  (exists b, rq_payload (o_req (exec toy (draws 60) OpGetUsers two.2 two.1 jane)) = PUsers b /\ map md_username (b_items b) = ["Jane"; "bob"]).
Proof.
  split; [vm_compute; reflexivity|]. split; [intros H; apply (f_equal (fun d => map (fun u => map pw_hash (u_passwords u)) (db_users d))) in H; vm_compute in H; discriminate|].
  split; [apply shape_by; vm_compute; reflexivity|]. split; [apply agree_by; vm_compute; reflexivity|]. split; [split; vm_compute; [discriminate|reflexivity]|].
  eexists. split; [vm_compute; reflexivity|]. vm_compute. reflexivity.
Qed.
