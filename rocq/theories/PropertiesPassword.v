(** Theorems about passwords and the policy (C12-C14, C16-C19, C21). *)
From Coq Require Import String Ascii ZArith NArith Lia Bool Arith List.
From stdpp Require Import gmap strings.
From RecordUpdate Require Import RecordSet.
From Verif Require Import GoStr GoErr Types Env Password Json Persist Fs Database System SpecDb SpecCrypto SpecAuth Examples CryptoFacts LoadFacts AccountFacts StepFacts PasswordFacts.
Import ListNotations.
Import RecordSetNotations.
Open Scope string_scope.

Definition login (name pw : string) : Request := new_request <| rq_user; ru_username := name |> <| rq_user; ru_password := pw |>.
Definition rejected_400 (o : Out) : Prop := (exists e, o_res o = OErr e) /\ rq_code (o_req o) = 400%Z.

(** C12 *)
Theorem C12_password_decision E nd db fs r : reachable E fs db -> ru_password (rq_user r) <> "" ->
  o_res (exec E nd OpAuthenticate db fs r) = OOk <->
  exists i u p, resolves_login E db (ru_username (rq_user r)) i u /\ In p (u_passwords u) /\
    pw_disabled p = false /\ pw_expired p = false /\ e_bcmp E (pw_hash p) (ru_password (rq_user r)) = true.
Proof.
  intros HR Hne. rewrite authenticate_password by assumption. split.
  - intros (i & u & Hu & p & Hp & [D X] & M). exists i, u, p. auto.
  - intros (i & u & p & Hu & Hp & D & X & M). exists i, u. split; [assumption|]. exists p. unfold active. auto.
Qed.
Print Assumptions C12_password_decision.
(** The code is 200 exactly on success and 400 on every error (also without a password). *)
Theorem C12_code E nd db fs r :
  let o := exec E nd OpAuthenticate db fs r in
  (o_res o = OOk /\ rq_code (o_req o) = 200%Z) \/ rejected_400 o.
Proof. exact (authenticate_code E nd db fs r). Qed.
Print Assumptions C12_code.
Example C12_ex : reachable toy two.1 two.2 /\
  o_res (exec toy (draws 9) OpAuthenticate two.2 two.1 (login "jane" "secret-pw-1")) = OOk /\
  o_res (exec toy (draws 9) OpAuthenticate two.2 two.1 (login "jane" "secret-pw-2")) <> OOk /\
  o_res (exec toy (draws 9) OpAuthenticate two.2 two.1 (login "BOB@example.com" "secret-pw-2")) = OOk.
Proof. split; [exact two_reachable|]. repeat split; vm_compute; (reflexivity || discriminate). Qed.

(** C13: [r'] names the new account in any letter case. *)
Definition names_it (E : Env) (r r' : Request) : Prop :=
  same_ci E (ru_username (rq_user r)) (ru_username (rq_user r')) /\ (2 <= String.length (ru_username (rq_user r')))%nat /\
  ~ In "@"%char (los (ru_username (rq_user r'))).
Theorem C13_login E nd nd' db fs r r' : reachable E fs db ->
  let o := exec E nd OpAddUser db fs r in
  o_res o = OOk -> bcrypt_complete E -> names_it E r r' -> ru_password (rq_user r') = ru_password (rq_user r) ->
  trim_space (ru_password (rq_user r)) = ru_password (rq_user r) ->
  let o' := exec E nd' OpAuthenticate (o_db o) (o_fs o) r' in o_res o' = OOk /\ rq_code (o_req o') = 200%Z.
Proof.
  intros HR o H C N Eq T. apply (login_trimmed E nd nd' db fs r r'); auto. now rewrite T.
Qed.
Print Assumptions C13_login.
Theorem C13_padded_rejected E nd nd' db fs r r' : reachable E fs db ->
  let o := exec E nd OpAddUser db fs r in let pw := ru_password (rq_user r) in
  o_res o = OOk -> bcrypt_sound E -> names_it E r r' -> ru_password (rq_user r') = pw ->
  trim_space pw <> pw -> (String.length (trim_space pw) < 72)%nat \/ (forall w, pw <> trim_space pw ++ w) ->
  rejected_400 (exec E nd' OpAuthenticate (o_db o) (o_fs o) r').
Proof.
  intros HR o pw H S N Eq T G. apply (reject_after_add E nd nd' db fs r r'); auto.
  - rewrite Eq. apply trimmed_ne. eapply added_password; eauto.
  - now apply login_of_resolves.
  - rewrite Eq. fold pw. intros K. apply key72_trim in K as [K|[[w K] L]]; [congruence|].
    destruct G as [G|G]; [lia|]. apply (G (sol w)). apply los_inj. now rewrite los_app, los_sol.
Qed.
Print Assumptions C13_padded_rejected.
(** The remaining case: trailing white space behind 72 bytes is ignored. *)
Theorem C13_long_tail E nd nd' db fs r r' w : reachable E fs db ->
  let o := exec E nd OpAddUser db fs r in let pw := ru_password (rq_user r) in
  o_res o = OOk -> bcrypt_complete E -> bcrypt_72 E -> names_it E r r' -> ru_password (rq_user r') = pw ->
  pw = trim_space pw ++ w -> (72 <= String.length (trim_space pw))%nat ->
  let o' := exec E nd' OpAuthenticate (o_db o) (o_fs o) r' in o_res o' = OOk /\ rq_code (o_req o') = 200%Z.
Proof.
  intros HR o pw H C S N Eq T G. apply (login_after_add E nd nd' db fs r r'); auto.
  - rewrite Eq. apply trimmed_ne. eapply added_password; eauto.
  - rewrite Eq. fold pw. apply key72_trim. right. split; [|assumption]. exists (los w). rewrite <- los_app. now f_equal.
Qed.
Print Assumptions C13_long_tail.
(** So "every new user can log in with the password given" is false. *)
Theorem C13_refuted : exists E nd nd' fs db r r', reachable E fs db /\ bcrypt_complete E /\ names_it E r r' /\
  ru_password (rq_user r') = ru_password (rq_user r) /\
  let o := exec E nd OpAddUser db fs r in o_res o = OOk /\ o_res (exec E nd' OpAuthenticate (o_db o) (o_fs o) r') <> OOk.
Proof.
  exists toy, (draws 9), (draws 10), two.1, two.2, (signup "alice" "alice@example.com" " secret-pw"), (login "alice" " secret-pw").
  split; [exact two_reachable|]. split; [exact toy_complete|]. split; [|vm_compute; repeat split; discriminate].
  split; [reflexivity|]. split; [vm_compute; lia|]. vm_compute. intuition discriminate.
Qed.
Print Assumptions C13_refuted.
Example C13_ex : let r := signup "alice" "alice@example.com" "secret-pw-3" in
  reachable toy two.1 two.2 /\ o_res (exec toy (draws 9) OpAddUser two.2 two.1 r) = OOk /\
  names_it toy r (login "ALICE" "secret-pw-3") /\ trim_space "secret-pw-3" = "secret-pw-3".
Proof.
  split; [exact two_reachable|]. split; [vm_compute; reflexivity|]. split; [|reflexivity].
  split; [reflexivity|]. split; [vm_compute; lia|]. vm_compute. intuition discriminate.
Qed.
Example C13_padded_ex : let r := signup "alice" "alice@example.com" "secret-pw-3 " in
  o_res (exec toy (draws 9) OpAddUser two.2 two.1 r) = OOk /\ names_it toy r (login "alice" "secret-pw-3 ") /\
  trim_space (ru_password (rq_user r)) <> ru_password (rq_user r) /\ (String.length (trim_space (ru_password (rq_user r))) < 72)%nat.
Proof.
  split; [vm_compute; reflexivity|]. split; [|split; vm_compute; [discriminate|lia]].
  split; [reflexivity|]. split; [vm_compute; lia|]. vm_compute. intuition discriminate.
Qed.
Example C13_long_ex : let pw := sol (repeat "a"%char 80) ++ " " in let r := signup "alice" "alice@example.com" pw in
  o_res (exec toy (draws 9) OpAddUser two.2 two.1 r) = OOk /\ names_it toy r (login "alice" pw) /\ pw = trim_space pw ++ " " /\
  (72 <= String.length (trim_space pw))%nat.
Proof.
  split; [vm_compute; reflexivity|]. split; [|split; vm_compute; [reflexivity|lia]].
  split; [reflexivity|]. split; [vm_compute; lia|]. vm_compute. intuition discriminate.
Qed.

(** C14: the new account is the one at position [length (db_users db)]. *)
Theorem C14_wrong_password E nd nd' db fs r r' : reachable E fs db ->
  let o := exec E nd OpAddUser db fs r in
  o_res o = OOk -> bcrypt_sound E -> ru_password (rq_user r') <> "" ->
  (exists u, resolves_login E (o_db o) (ru_username (rq_user r')) (List.length (db_users db)) u) ->
  key72 (ru_password (rq_user r')) <> key72 (trim_space (ru_password (rq_user r))) ->
  rejected_400 (exec E nd' OpAuthenticate (o_db o) (o_fs o) r').
Proof. exact (reject_after_add E nd nd' db fs r r'). Qed.
Print Assumptions C14_wrong_password.
(** In particular any other string of fewer than 72 bytes without zero bytes. *)
Theorem C14_other_password E nd nd' db fs r r' : reachable E fs db ->
  let o := exec E nd OpAddUser db fs r in let pw := ru_password (rq_user r) in let pw' := ru_password (rq_user r') in
  o_res o = OOk -> bcrypt_sound E -> pw' <> "" ->
  (exists u, resolves_login E (o_db o) (ru_username (rq_user r')) (List.length (db_users db)) u) ->
  (String.length pw' < 72)%nat -> (String.length pw < 72)%nat -> ~ In Ascii.zero (los pw) -> ~ In Ascii.zero (los pw') ->
  pw' <> trim_space pw -> rejected_400 (exec E nd' OpAuthenticate (o_db o) (o_fs o) r').
Proof.
  intros HR o pw pw' H S Hne Hu L L' Z Z' N. apply (reject_after_add E nd nd' db fs r r'); auto.
  intros K. apply N. apply key72_inj; auto.
  - pose proof (trim_space_length pw). lia.
  - intros Q. apply Z. now apply trim_space_in.
Qed.
Print Assumptions C14_other_password.
Example C14_ex : let r := signup "alice" "alice@example.com" "secret-pw-3" in let o := exec toy (draws 9) OpAddUser two.2 two.1 r in
  reachable toy two.1 two.2 /\ o_res o = OOk /\ bcrypt_sound toy /\
  (exists u, resolves_login toy (o_db o) "ALICE" (List.length (db_users two.2)) u) /\ "secret-pw-2" <> trim_space "secret-pw-3".
Proof.
  cbv zeta. split; [exact two_reachable|]. assert (H : o_res (exec toy (draws 9) OpAddUser two.2 two.1 (signup "alice" "alice@example.com" "secret-pw-3")) = OOk) by (vm_compute; reflexivity).
  split; [exact H|]. split; [exact toy_sound|]. split; [|vm_compute; discriminate].
  apply (login_of_resolves toy (draws 9) two.2 two.1 _ (login "ALICE" "secret-pw-3") H).
  split; [reflexivity|]. split; [vm_compute; lia|]. vm_compute. intuition discriminate.
Qed.

(** C16 *)
Theorem C16_change_iff E nd db fs r : reachable E fs db ->
  let o := exec E nd OpChangePassword db fs r in
  o_res o = OOk <->
  (exists i u, identity_of E db r i u /\ accepts E u (ru_old_password (rq_user r))) /\
  within (pp_min (po_password (db_policy db))) (zlen (ru_password (rq_user r))) (pp_max (po_password (db_policy db))) /\
  trim_space (ru_password (rq_user r)) <> "" /\
  (exists h, e_bcrypt E (nd_salt nd) (trim_space (ru_password (rq_user r))) 10 = Some h) /\
  can_write nd fs (db_path db) (db_content (o_db o)).
Proof. exact (change_password_iff E nd db fs r). Qed.
Print Assumptions C16_change_iff.
(** Afterwards a login to that account succeeds exactly with the new password. *)
Theorem C16_switched E nd nd' db fs r r' : reachable E fs db ->
  let o := exec E nd OpChangePassword db fs r in
  o_res o = OOk -> bcrypt_complete E -> bcrypt_sound E -> bcrypt_72 E ->
  (exists i u, resolves_login E (o_db o) (ru_username (rq_user r')) i u /\ exists v, identity_of E db r i v) ->
  ru_password (rq_user r') <> "" ->
  (o_res (exec E nd' OpAuthenticate (o_db o) (o_fs o) r') = OOk <-> key72 (ru_password (rq_user r')) = key72 (trim_space (ru_password (rq_user r)))).
Proof. exact (switched E nd nd' db fs r r'). Qed.
Print Assumptions C16_switched.
Definition change (name email old new : string) : Request := signup name email new <| rq_user; ru_old_password := old |>.
Example C16_ex : let r := change "jane" "jane@example.com" "secret-pw-1" "new-secret" in let o := exec toy (draws 9) OpChangePassword two.2 two.1 r in
  reachable toy two.1 two.2 /\ o_res o = OOk /\
  (exists i u, resolves_login toy (o_db o) "jane" i u /\ exists v, identity_of toy two.2 r i v) /\
  o_res (exec toy (draws 10) OpAuthenticate (o_db o) (o_fs o) (login "jane" "new-secret")) = OOk /\
  o_res (exec toy (draws 10) OpAuthenticate (o_db o) (o_fs o) (login "jane" "secret-pw-1")) <> OOk.
Proof.
  cbv zeta. split; [exact two_reachable|]. split; [vm_compute; reflexivity|]. split; [|split; vm_compute; (reflexivity || discriminate)].
  set (r := change _ _ _ _). assert (H : o_res (exec toy (draws 9) OpChangePassword two.2 two.1 r) = OOk) by (vm_compute; reflexivity).
  pose proof (exec_reachable _ _ _ _ _ _ two_reachable (ok_returned _ H)) as HR.
  destruct (resolves_at toy _ _ "jane" 0%nat HR) as [u Hu]; [vm_compute; reflexivity|].
  destruct (identity_at toy _ _ r 0%nat two_reachable) as [v Hv]; [vm_compute; reflexivity|].
  exists 0%nat, u. split; [exact Hu|]. exists v. exact Hv.
Qed.

(** C17 *)
Theorem C17_one_active E nd db fs r fs' db' u : let o := exec E nd OpAddUser db fs r in
  o_res o = OOk -> later E (o_fs o) (o_db o) fs' db' -> account db' (List.length (db_users db)) u -> one_active u.
Proof.
  intros o H L Hu. destruct (add_user_appends _ _ _ _ _ H) as (v & NA & Hv & _). fold o in Hv.
  eapply one_active_later; [exact L| |eapply new_one_active; exact NA|exact Hu].
  unfold account. rewrite Hv. now apply list_lookup_middle.
Qed.
Print Assumptions C17_one_active.
(** From any account, whatever its file: no call revives a disabled entry, and an account with one
    active entry keeps that property. *)
Theorem C17_kept E fs db fs' db' i u u' : later E fs db fs' db' -> account db i u -> one_active u -> account db' i u' -> one_active u'.
Proof. exact (one_active_later E fs db fs' db' i u u'). Qed.
Print Assumptions C17_kept.
Theorem C17_no_reactivation E nd op db fs r i u v q : account db i u -> account (o_db (exec E nd op db fs r)) i v ->
  In q (u_passwords v) -> pw_disabled q = false ->
  In q (u_passwords u) \/ (op = OpChangePassword /\ head (u_passwords v) = Some q /\ pw_created q = nd_clock nd).
Proof. exact (no_reactivation E nd op db fs r i u v q). Qed.
Print Assumptions C17_no_reactivation.
Definition changed_calls : list (Nd * Op * Request) :=
  [(draws 9, OpChangePassword, change "jane" "jane@example.com" "secret-pw-1" "new-secret-1");
   (draws 10, OpChangePassword, change "jane" "jane@example.com" "new-secret-1" "new-secret-2")].
Example C17_ex : let o := exec toy (draws 1) OpAddUser start.2 start.1 jane_req in let w := run toy (o_fs o, o_db o) changed_calls in
  o_res o = OOk /\ later toy (o_fs o) (o_db o) w.1 w.2 /\ option_map (fun u => map pw_disabled (u_passwords u)) (db_users w.2 !! 0%nat) = Some [false; true; true].
Proof.
  cbv zeta. set (o := exec _ _ _ _ _ _). split; [vm_compute; reflexivity|]. split; [|vm_compute; reflexivity].
  apply (run_later toy (o_fs o, o_db o) changed_calls). vm_compute. reflexivity.
Qed.

(** C18 *)
Theorem C18_bounded E nd db fs r fs' db' u : let o := exec E nd OpAddUser db fs r in
  o_res o = OOk -> later E (o_fs o) (o_db o) fs' db' -> account db' (List.length (db_users db)) u ->
  (Z.of_nat (List.length (u_passwords u)) <= kept_versions (db_policy db') + 3)%Z.
Proof.
  intros o H L Hu. destruct (add_user_appends _ _ _ _ _ H) as (v & NA & Hv & _). fold o in Hv.
  eapply (bounded_later E); [exact L| |eapply new_bounded; exact NA|exact Hu].
  unfold account. rewrite Hv. now apply list_lookup_middle.
Qed.
Print Assumptions C18_bounded.
(** A change puts the new entry in front of the most recent old ones, in order and disabled. *)
Theorem C18_change E nd db fs r : reachable E fs db ->
  let o := exec E nd OpChangePassword db fs r in
  o_res o = OOk ->
  exists i u u' p l, identity_of E db r i u /\ account (o_db o) i u' /\ same_identity u u' /\
    u_passwords u' = p :: l /\ active p /\ e_bcrypt E (nd_salt nd) (trim_space (ru_password (rq_user r))) 10 = Some (pw_hash p) /\
    trim_space (ru_password (rq_user r)) <> "" /\
    Forall2 (retired (nd_clock nd)) (firstn (Z.to_nat (kept_versions (db_policy db) + 2)) (u_passwords u)) l.
Proof. exact (change_password_result E nd db fs r). Qed.
Print Assumptions C18_change.
(** The bound is reached: with keep_versions 1 an account stores four entries. *)
Definition keep1_fs : FS := <["db.json" := File "{""policy"":{""password"":{""keep_versions"":1}}}"]> ∅.
Definition keep1_calls : list (Nd * Op * Request) :=
  [(draws 1, OpAddUser, jane_req);
   (draws 2, OpChangePassword, change "jane" "jane@example.com" "secret-pw-1" "new-secret-1");
   (draws 3, OpChangePassword, change "jane" "jane@example.com" "new-secret-1" "new-secret-2");
   (draws 4, OpChangePassword, change "jane" "jane@example.com" "new-secret-2" "new-secret-3");
   (draws 5, OpChangePassword, change "jane" "jane@example.com" "new-secret-3" "new-secret-4")].
Theorem C18_keep_versions_refuted : exists E fs db i u, reachable E fs db /\ account db i u /\ (pp_keep (po_password (db_policy db)) >= 1)%Z /\
  (Z.of_nat (List.length (u_passwords u)) = pp_keep (po_password (db_policy db)) + 3)%Z.
Proof.
  pose (w := run toy (opened keep1_fs) keep1_calls). exists toy, w.1, w.2, 0%nat.
  destruct (db_users w.2 !! 0%nat) as [u|] eqn:X; [|vm_compute in X; discriminate]. exists u.
  split; [apply run_opened; vm_compute; reflexivity|]. split; [exact X|]. split; [vm_compute; discriminate|].
  vm_compute in X. injection X as <-. vm_compute. reflexivity.
Qed.
Print Assumptions C18_keep_versions_refuted.
Example C18_ex : let o := exec toy (draws 1) OpAddUser (opened keep1_fs).2 (opened keep1_fs).1 jane_req in let w := run toy (o_fs o, o_db o) (tl keep1_calls) in
  o_res o = OOk /\ later toy (o_fs o) (o_db o) w.1 w.2 /\ kept_versions (db_policy w.2) = 1%Z /\
  option_map (fun u => map pw_disabled (u_passwords u)) (db_users w.2 !! 0%nat) = Some [false; true; true; true].
Proof.
  cbv zeta. set (o := exec _ _ _ _ _ _). split; [vm_compute; reflexivity|]. split; [|split; vm_compute; reflexivity].
  apply (run_later toy (o_fs o, o_db o) (tl keep1_calls)). vm_compute. reflexivity.
Qed.

(** C19 *)
Theorem C19_length_policy E nd op db fs r : reachable E fs db -> In op [OpAddUser; OpChangePassword] -> o_res (exec E nd op db fs r) = OOk ->
  within (pp_min (po_password (db_policy db))) (zlen (ru_password (rq_user r))) (pp_max (po_password (db_policy db))).
Proof.
  intros HR [<-|[<-|[]]] H.
  - apply add_user_iff in H as [A _]; [apply A|now apply inv_reachable in HR].
  - apply change_password_iff in H; [apply H|assumption].
Qed.
Print Assumptions C19_length_policy.
(** The hashed secret may be shorter than the minimum. *)
Theorem C19_secret_length_refuted : exists E nd fs db r, reachable E fs db /\ o_res (exec E nd OpAddUser db fs r) = OOk /\
  (zlen (trim_space (ru_password (rq_user r))) < pp_min (po_password (db_policy db)))%Z /\
  exists u p, new_account E nd r u /\ account (o_db (exec E nd OpAddUser db fs r)) (List.length (db_users db)) u /\ u_passwords u = [p] /\
    e_bcrypt E (nd_salt nd) "x" 10 = Some (pw_hash p).
Proof.
  pose (r := signup "alice" "alice@example.com" "x            ").
  assert (H : o_res (exec toy (draws 9) OpAddUser two.2 two.1 r) = OOk) by (vm_compute; reflexivity).
  exists toy, (draws 9), two.1, two.2, r. split; [exact two_reachable|]. split; [exact H|]. split; [vm_compute; reflexivity|].
  destruct (add_user_appends _ _ _ _ _ H) as (u & NA & Hv & _). destruct (na_password _ _ _ _ NA) as (p & Hp & _ & _ & _ & B).
  exists u, p. split; [exact NA|]. split; [unfold account; rewrite Hv; now apply list_lookup_middle|]. split; [exact Hp|exact B].
Qed.
Print Assumptions C19_secret_length_refuted.
Example C19_ex : reachable toy two.1 two.2 /\
  o_res (exec toy (draws 9) OpAddUser two.2 two.1 (signup "alice" "alice@example.com" "short")) <> OOk /\
  o_res (exec toy (draws 9) OpAddUser two.2 two.1 (signup "alice" "alice@example.com" "long-enough")) = OOk.
Proof. split; [exact two_reachable|]. split; vm_compute; (reflexivity || discriminate). Qed.

(** C21 *)
Theorem C21_username_length E nd db fs r : reachable E fs db -> o_res (exec E nd OpAddUser db fs r) = OOk ->
  within (up_min (po_user (db_policy db))) (zlen (ru_username (rq_user r))) (up_max (po_user (db_policy db))).
Proof. intros HR H. apply add_user_iff in H as [A _]; [apply A|now apply inv_reachable in HR]. Qed.
Print Assumptions C21_username_length.
Theorem C21_characters_refuted : exists E nd fs db r, reachable E fs db /\ o_res (exec E nd OpAddUser db fs r) = OOk /\
  ~ announced (po_user (db_policy db)) (ru_username (rq_user r)).
Proof.
  exists toy, (draws 9), two.1, two.2, (signup "1 $!" "alice@example.com" "secret-pw-3").
  split; [exact two_reachable|]. split; [vm_compute; reflexivity|]. intros (_ & a & l & Hl & Hs & _).
  injection Hl as <- <-. destruct Hs as [Hs|[_ Hs]]; vm_compute in Hs; lia.
Qed.
Print Assumptions C21_characters_refuted.
(** The announced text for the default policy, and a name it does announce. *)
Example C21_ex : username_regex (po_user (db_policy two.2)) = "^[a-z][a-z0-9]{2,49}$" /\ announced (po_user (db_policy two.2)) "alice7".
Proof.
  split; [vm_compute; reflexivity|]. split; [vm_compute; split; discriminate|]. do 2 eexists. split; [reflexivity|].
  split; [left; vm_compute; lia|]. repeat constructor; unfold announced_char, announced_start; vm_compute; lia.
Qed.
