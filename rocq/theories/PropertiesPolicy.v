(** Theorems about the published policies (C87, C88). *)
From Coq Require Import String Ascii ZArith NArith Lia Bool Arith List.
From stdpp Require Import gmap strings.
From RecordUpdate Require Import RecordSet.
From Verif Require Import GoStr GoErr Types Env Persist Fs Database System SpecValue SpecDb SpecAuth SpecPolicy Examples.
From Verif Require Import DbFacts LoadFacts Inv AccountFacts PasswordFacts PolicyFacts.
Import ListNotations.
Import RecordSetNotations.
Open Scope string_scope.

(** C87 *)
(** GetUsernamePolicyRegex: read as a pattern, it matches exactly the names the policy allows. *)
Theorem C87_pattern p : (1 <= up_min p <= up_max p)%Z ->
  exists P, read_pattern (username_regex p) = Some P /\ forall s, matches_pattern P s <-> announced p s.
Proof. exact (username_pattern p). Qed.
Print Assumptions C87_pattern.
(** GetUsernamePolicySummary: limits and restrictions. *)
Theorem C87_summary p : (0 <= up_min p)%Z -> (0 <= up_max p)%Z -> exists ws,
  read_summary (username_summary p) = Some {| sm_what := "username"; sm_min := up_min p; sm_max := up_max p; sm_words := ws |} /\
  forall w, In w ws <-> (w = "lowercase" /\ up_upper p = false) \/ (w = "alpha-numeric" /\ up_nonalnum p = false).
Proof. exact (username_says p). Qed.
Print Assumptions C87_summary.
(** What is published is accepted: a request with a name and a password that match the patterns, and nothing else wrong, succeeds. *)
Theorem C87_accepted E nd fs db r P Q : reachable E fs db ->
  (1 <= up_min (po_user (db_policy db)) <= up_max (po_user (db_policy db)))%Z ->
  (0 <= pp_min (po_password (db_policy db)) <= pp_max (po_password (db_policy db)))%Z ->
  read_pattern (username_regex (po_user (db_policy db))) = Some P -> matches_pattern P (ru_username (rq_user r)) ->
  read_pattern (password_regex (po_password (db_policy db))) = Some Q -> matches_pattern Q (ru_password (rq_user r)) ->
  (exists h, e_bcrypt E (nd_salt nd) (trim_space (ru_password (rq_user r))) 10 = Some h) -> trim_space (ru_password (rq_user r)) <> "" ->
  (exists d, email_grammar (ru_email (rq_user r)) d) -> Forall (fun s => trim_space s <> "") (ru_roles (rq_user r)) -> name_parses (ru_full_name (rq_user r)) ->
  (forall i u, account db i u -> ~ has_username E u (ru_username (rq_user r)) /\ ~ has_address E u (ru_email (rq_user r))) ->
  can_write nd fs (db_path db) (db_content (o_db (exec E nd OpAddUser db fs r))) ->
  o_res (exec E nd OpAddUser db fs r) = OOk.
Proof.
  intros HR H1 H2 RP MP RQ MQ Hh Ht He Hr Hn Hf Hw. apply add_user_iff; [now apply inv_reachable in HR|]. split; [|exact Hw].
  destruct (username_pattern _ H1) as (P' & RP' & SP). assert (P' = P) as -> by congruence. apply SP in MP.
  destruct (password_pattern _ H2) as (Q' & RQ' & SQ). assert (Q' = Q) as -> by congruence. apply SQ in MQ.
  destruct MP as (L & a & l & Hl & _). destruct MQ as (L' & _). constructor; try assumption.
  - intros X. rewrite X in Hl. discriminate.
  - intros i u Hu. exact (proj1 (Hf i u Hu)).
  - intros i u Hu. exact (proj2 (Hf i u Hu)).
Qed.
Print Assumptions C87_accepted.
Definition open_policy_ex : UserPolicy := po_user (db_policy two.2) <| up_upper := true |> <| up_nonalnum := true |>.
Example C87_ex : (1 <= up_min (po_user (db_policy two.2)) <= up_max (po_user (db_policy two.2)))%Z /\
  username_regex open_policy_ex = "^[a-zA-Z][a-zA-Z0-9-_.]{2,49}$" /\ announced open_policy_ex "Jane-Doe_7.x" /\ ~ announced open_policy_ex "7jane" /\
  username_summary (po_user (db_policy two.2)) = "A username should be 3-50 character long string with lowercase, alpha-numeric characters".
Proof.
  split; [vm_compute; split; discriminate|]. split; [vm_compute; reflexivity|]. split.
  { split; [vm_compute; split; discriminate|]. exists "J"%char, (los "ane-Doe_7.x"). split; [reflexivity|]. split; [apply start_reflect; reflexivity|].
    apply List.Forall_forall. intros x Hx. apply char_reflect. revert x Hx. apply List.Forall_forall. vm_compute. repeat constructor. }
  split; [|vm_compute; reflexivity]. intros (_ & a & l & Hl & Hs & _). injection Hl as <- <-. apply start_reflect in Hs. vm_compute in Hs. discriminate.
Qed.

(** C88 *)
(** GetPasswordPolicyRegex: read as a pattern, it matches exactly the passwords with the required length and characters. *)
Theorem C88_pattern p : (0 <= pp_min p <= pp_max p)%Z ->
  exists P, read_pattern (password_regex p) = Some P /\ forall s, matches_pattern P s <-> announced_password p s.
Proof. exact (password_pattern p). Qed.
Print Assumptions C88_pattern.
(** GetPasswordPolicySummary *)
Theorem C88_summary p : (0 <= pp_min p)%Z -> (0 <= pp_max p)%Z -> exists ws,
  read_summary (password_summary p) = Some {| sm_what := "password"; sm_min := pp_min p; sm_max := pp_max p; sm_words := ws |} /\
  forall w, In w ws <-> (w = "uppercase" /\ pp_upper p = true) \/ (w = "lowercase" /\ pp_lower p = true) \/
    (w = "numbers" /\ pp_number p = true) \/ (w = "non alpha-numeric" /\ pp_nonalnum p = true).
Proof. exact (password_says p). Qed.
Print Assumptions C88_summary.
(** But only the length is enforced: passwords that lack every required kind of character are taken, on registration and on change. *)
Definition strict_fs : FS := <["db.json" := File "{""policy"":{""password"":{""require_uppercase"":true,""require_lowercase"":true,""require_number"":true,""require_non_alpha_numeric"":true}}}"]> ∅.
Notation strict := (opened strict_fs).
Theorem C88_required_refuted : exists E nd fs db r nd' r', reachable E fs db /\
  let p := po_password (db_policy db) in
  pp_upper p = true /\ pp_lower p = true /\ pp_number p = true /\ pp_nonalnum p = true /\
  o_res (exec E nd OpAddUser db fs r) = OOk /\ ~ announced_password p (ru_password (rq_user r)) /\
  o_res (exec E nd' OpChangePassword (o_db (exec E nd OpAddUser db fs r)) (o_fs (exec E nd OpAddUser db fs r)) r') = OOk /\
  ~ announced_password p (ru_password (rq_user r')).
Proof.
  exists toy, (draws 9), strict.1, strict.2, (signup "alice" "alice@example.com" ".........."), (draws 20),
    (new_request <| rq_user; ru_username := "alice" |> <| rq_user; ru_email := "alice@example.com" |> <| rq_user; ru_old_password := ".........." |> <| rq_user; ru_password := ",,,,,,,,,,," |>).
  split; [apply (run_opened strict_fs []); vm_compute; reflexivity|]. cbv zeta.
  split; [vm_compute; reflexivity|]. split; [vm_compute; reflexivity|]. split; [vm_compute; reflexivity|]. split; [vm_compute; reflexivity|].
  assert (No : forall s, forallb (fun a => negb (is_upper a)) (los s) = true -> ~ announced_password (po_password (db_policy strict.2)) s).
  { intros s F (_ & _ & U & _). destruct U as (x & a & y & E & Ha); [vm_compute; reflexivity|]. rewrite forallb_forall in F.
    specialize (F a). rewrite E, Ha in F. assert (false = true) by (apply F, in_app_iff; right; now left). discriminate. }
  split; [vm_compute; reflexivity|]. split; [apply No; vm_compute; reflexivity|]. split; [vm_compute; reflexivity|]. apply No. vm_compute. reflexivity.
Qed.
Print Assumptions C88_required_refuted.
Example C88_ex : password_regex (po_password (db_policy strict.2)) = "^(?=.*[A-Z])(?=.*[a-z].*[a-z])(?=.*[0-9].*[0-9])(?=.*[~!@#$&*]).{8,128}$" /\
  announced_password (po_password (db_policy strict.2)) "Secret-1-9!" /\
  password_summary (po_password (db_policy strict.2)) = "A password should be 8-128 character long string with uppercase, lowercase, numbers, non alpha-numeric characters".
Proof.
  split; [vm_compute; reflexivity|]. split; [|vm_compute; reflexivity].
  split; [vm_compute; split; discriminate|]. split; [cbn; intuition discriminate|].
  split; [intros _; exists [], "S"%char, (los "ecret-1-9!"); split; reflexivity|].
  split; [intros _; exists ["S"%char], "e"%char, [], "c"%char, (los "ret-1-9!"); split; [reflexivity|split; reflexivity]|].
  split; [intros _; exists (los "Secret-"), "1"%char, ["-"%char], "9"%char, ["!"%char]; split; [reflexivity|split; reflexivity]|].
  intros _; exists (los "Secret-1-9"), "!"%char, []. split; [reflexivity|cbn; tauto].
Qed.
