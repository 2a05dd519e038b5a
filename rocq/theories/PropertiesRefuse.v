(** Theorems about refusals (C116). *)
From Coq Require Import String Ascii ZArith NArith Lia Bool Arith List.
From stdpp Require Import gmap strings.
From RecordUpdate Require Import RecordSet.
From Verif Require Import GoStr Codec GoErr Types Env Mfa User Fs Database System SpecDb SpecAuth SpecKey SpecMfa SpecAssert SpecRefuse SpecMessage.
From Verif Require Import AccountFacts ApiKeyFacts AssertFacts RefuseFacts Examples PropertiesApiKey PropertiesMfa PropertiesMessage.
Import ListNotations.
Import RecordSetNotations.
Open Scope string_scope.

(** C116 *)
(** A call succeeds exactly if every check of its list holds; [c] is the content it leaves behind. *)
Theorem C116_accepted E nd op db fs r : reachable E fs db -> hmac_size E -> let o := exec E nd op db fs r in
  answered (o_res o) -> o_res o = OOk <-> Forall fst (refusals E nd op db fs r (db_content (o_db o))).
Proof. intros HR Hh o A. exact (vo_ok _ _ (exec_verdict E nd op db fs r HR Hh) A). Qed.
Print Assumptions C116_accepted.
(** Otherwise its error is that of the first check that does not hold. *)
Theorem C116_refused E nd op db fs r e : reachable E fs db -> hmac_size E -> let o := exec E nd op db fs r in
  answered (o_res o) -> o_res o = OErr e <-> first_failure (refusals E nd op db fs r (db_content (o_db o))) e.
Proof. intros HR Hh o A. exact (vo_err _ _ e (exec_verdict E nd op db fs r HR Hh) A). Qed.
Print Assumptions C116_refused.
(** Every call is answered, but for three: a registration whose key is wrongly typed (C45), a search
    for an unused key prefix that never ends (C28), and a write in which the process dies. *)
Theorem C116_answered E nd op db fs r : reachable E fs db -> let o := exec E nd op db fs r in
  answered (o_res o) \/
  (o_res o = OPanic /\ op = OpAddMfaToken /\ exists i u pk, identity_of E db r i u /\ carries_key E r pk /\ panicking pk) \/
  (o_res o = OHang /\ op = OpAddAPIKey /\ exists s j, drawn nd s /\ ref_apikey db !! take 24 s = Some j) \/
  (o_res o = OCrash /\ ~ reading op /\ exists k, nd_write nd = IoCrash k).
Proof.
  intros HR o. unfold answered. destruct (o_res o) as [|e| | |] eqn:R; [eauto|eauto| | |].
  - right. left. split; [reflexivity|]. pose proof (C92_panic E nd op db fs r R) as ->. split; [reflexivity|]. now apply (C45_panics_iff E nd db fs r HR).
  - right. right. left. split; [reflexivity|].
    assert (op = OpAddAPIKey) as -> by (unfold o in R; destruct op; try reflexivity; exfalso; revert R; apply only_add_key_hangs; discriminate). split; [reflexivity|].
    unfold o in R. apply add_key_hang in R as (i & u & s & h & _ & D & _ & [j F]). exists s, j. auto.
  - right. right. right. split; [reflexivity|]. exact (C92_crash E nd op db fs r R).
Qed.
Print Assumptions C116_answered.
Local Ltac fin := lazymatch goal with
  | |- _ -> ~ _ => discriminate
  | |- ~ _ -> _ => let H := fresh in intros H; exfalso; apply H; eauto
  | i : N, u : User, P : u_passwords ?u = _ |- _ -> exists _ _, _ => intros _; exists i, u; rewrite ?P; repeat split; auto; discriminate
  | i : nat, u : User, P : u_passwords ?u = _ |- _ -> exists _ _, _ => intros _; exists i, u; rewrite ?P; repeat split; auto; discriminate
  end.
(** The answers to a password tell whether the account exists. *)
Theorem C116_login E nd db fs r : reachable E fs db -> ru_password (rq_user r) <> "" -> let o := exec E nd OpAuthenticate db fs r in
  let login := resolves_login E db (ru_username (rq_user r)) in let w e := OErr (EWith ErrAuthFailed [AErr (EStd e)]) in
  (o_res o = OOk <-> exists i u, login i u /\ accepts E u (ru_password (rq_user r))) /\
  (o_res o = w ErrDatabaseUserNotFound <-> ~ exists i u, login i u) /\
  (o_res o = w ErrUserPasswordNotFound <-> exists i u, login i u /\ u_passwords u = []) /\
  (o_res o = w ErrUserPasswordInvalid <-> exists i u, login i u /\ u_passwords u <> [] /\ ~ accepts E u (ru_password (rq_user r))).
Proof.
  intros HR N o login w. unfold o, w, login. clear o w login. cbn [exec]. unfold db_authenticate, ret. cbv zeta. set (pw := ru_password (rq_user r)) in *. set (l := ru_username (rq_user r)).
  apply String.eqb_neq in N.
  assert (GI : forall i u, get_user E db l = Some (i, u) <-> resolves_login E db l i u) by (intros; now apply (get_user_resolves _ fs)).
  assert (AP : forall u, accepts E u pw -> u_passwords u <> []) by (intros u (p & Hp & _) Z; rewrite Z in Hp; destruct Hp).
  destruct (get_user E db l) as [[i u]|] eqn:G.
  2:{ assert (NL : forall j v, ~ resolves_login E db l j v) by (intros j v H; apply GI in H; discriminate).
      cbn [o_res]. repeat split; try discriminate; try (intros (j & v & H); exfalso; first [now apply (NL j v)|destruct H as [H _]; now apply (NL j v)]).
      intros _ (j & v & H). now apply (NL j v). }
  assert (L : resolves_login E db l i u) by (now apply GI). assert (LU : forall j v, resolves_login E db l j v -> v = u) by (intros j v H; apply GI in H; congruence).
  pose proof (PasswordFacts.accepts_iff E u pw) as AI. rewrite N. cbn [negb]. unfold verify_password in *.
  destruct (u_passwords u) as [|p ps] eqn:P.
  - cbn [o_res]. assert (NA : ~ accepts E u pw) by (intros A; now apply (AP u)).
    repeat split; try discriminate; try (intros (j & v & Hl & H); rewrite (LU _ _ Hl) in H; exfalso; solve [contradiction|congruence|destruct H; solve [contradiction|congruence]]).
    all: fin.
  - destruct existsb; cbn [o_res].
    + assert (A : accepts E u pw) by (now apply AI).
      repeat split; try discriminate; try (intros (j & v & Hl & H); rewrite (LU _ _ Hl) in H; exfalso; solve [contradiction|congruence|destruct H; solve [contradiction|congruence]]).
      all: fin.
    + assert (A : ~ accepts E u pw) by (intros A; apply AI in A; discriminate).
      repeat split; try discriminate; try (intros (j & v & Hl & H); rewrite (LU _ _ Hl) in H; exfalso; solve [contradiction|congruence|destruct H; solve [contradiction|congruence]]).
      all: fin.
Qed.
Print Assumptions C116_login.
(** Concrete calls on a database of two accounts: each fails a different check, and the checks before it hold. *)
Example C116_ex : let res op r := o_res (exec toy (draws 90) op two.2 two.1 r) in
  reachable toy two.1 two.2 /\ hmac_size toy /\
  res OpAddUser (signup "Carol" "carol@example.com" "pw-3-long-enough") = OOk /\
  res OpAddUser (signup "JANE" "carol@example.com" "pw-3-long-enough") = OErr (EWith ErrAddUser [AStr "jane"; AStr "username already in use"]) /\
  res OpAddUser (signup "Carol" "BOB@example.com" "pw-3-long-enough") = OErr (EWith ErrAddUser [AStr "bob@example.com"; AStr "email address already in use"]) /\
  res OpAddUser (signup "JANE" "BOB@example.com" "short") = OErr (EWith ErrAddUser [AStr "JANE"; AErr (EStd ErrPasswordPolicyCompliance)]) /\
  res OpAuthenticate (signup "jane" "" "secret-pw-1") = OOk /\
  res OpAuthenticate (signup "jane" "" "other") = OErr (EWith ErrAuthFailed [AErr (EStd ErrUserPasswordInvalid)]) /\
  res OpAuthenticate (signup "mallory" "" "other") = OErr (EWith ErrAuthFailed [AErr (EStd ErrDatabaseUserNotFound)]) /\
  res OpAuthenticate (signup "jane" "" "") = OErr (EWith ErrAuthFailed [AStr "malformed auth request"]).
Proof. split; [exact two_reachable|]. split; [exact toy_hmac|]. vm_compute. auto 20. Qed.
(** What the theorems say of the second of them. *)
Example C116_ex_taken : let r := signup "JANE" "carol@example.com" "pw-3-long-enough" in let o := exec toy (draws 90) OpAddUser two.2 two.1 r in
  answered (o_res o) /\ ~ Forall fst (refusals toy (draws 90) OpAddUser two.2 two.1 r (db_content (o_db o))) /\
  first_failure (refusals toy (draws 90) OpAddUser two.2 two.1 r (db_content (o_db o))) (EWith ErrAddUser [AStr "jane"; AStr "username already in use"]).
Proof.
  intros r o. assert (R : o_res o = OErr (EWith ErrAddUser [AStr "jane"; AStr "username already in use"])) by (vm_compute; reflexivity).
  assert (A : answered (o_res o)) by (right; eexists; exact R).
  pose proof (C116_accepted toy (draws 90) OpAddUser two.2 two.1 r two_reachable toy_hmac A) as Ac.
  pose proof (C116_refused toy (draws 90) OpAddUser two.2 two.1 r (EWith ErrAddUser [AStr "jane"; AStr "username already in use"]) two_reachable toy_hmac A) as Rf.
  fold o in Ac, Rf. clearbody o. split; [exact A|]. split; [|now apply Rf]. intros H. apply Ac in H. rewrite H in R. discriminate.
Qed.
