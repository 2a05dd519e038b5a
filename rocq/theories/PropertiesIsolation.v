(** Theorems about isolation of accounts and about their status (C100, C101). *)
From Coq Require Import String Ascii ZArith NArith Lia Bool Arith List.
From stdpp Require Import gmap strings.
From RecordUpdate Require Import RecordSet.
From Verif Require Import GoStr GoErr Email Random Types Env User Persist Fs Database System SpecDb SpecAuth SpecKey SpecMfa SpecPersist SpecIsolation Examples.
From Verif Require Import AccountFacts StepFacts IsolationFacts PropertiesPassword PropertiesPersist.
Import ListNotations.
Import RecordSetNotations.
Open Scope string_scope.

(** C100 *)
(** Two databases, with any other accounts, in any order, opened from any files: where they hold
    the same account, calls about it are answered the same and leave it in the same state. *)
Theorem C100_reads E nd op db fs db' fs' r i j u : reachable E fs db -> reachable E fs' db' -> In op own_reads ->
  about E db op r i u -> about E db' op r j u ->
  same_answer (exec E nd op db fs r) (exec E nd op db' fs' r) /\
  exists v, account (o_db (exec E nd op db fs r)) i v /\ account (o_db (exec E nd op db' fs' r)) j v.
Proof. exact (reads_isolated E nd op db fs db' fs' r i j u). Qed.
Print Assumptions C100_reads.
(** The same for calls that change the account, if the policies agree and both files can be
    written.  [OHang] excludes the search for an unused API key prefix that never ends (C77). *)
Theorem C100_writes E nd op db fs db' fs' r i j u : reachable E fs db -> reachable E fs' db' -> In op account_ops -> db_policy db' = db_policy db ->
  identity_of E db r i u -> identity_of E db' r j u ->
  let o := exec E nd op db fs r in let o' := exec E nd op db' fs' r in
  o_res o <> OHang -> o_res o' <> OHang ->
  can_write nd fs (db_path db) (db_content (o_db o)) -> can_write nd fs' (db_path db') (db_content (o_db o')) ->
  same_answer o o' /\ exists v, account (o_db o) i v /\ account (o_db o') j v.
Proof. exact (writes_isolated E nd op db fs db' fs' r i j u). Qed.
Print Assumptions C100_writes.
(** A login name that nobody has is answered alike whoever else is there. *)
Theorem C100_nobody E nd op db fs db' fs' r : reachable E fs db -> reachable E fs' db' -> In op [OpAuthenticate; OpIdentify] ->
  (forall i u, ~ about E db op r i u) -> (forall i u, ~ about E db' op r i u) -> same_answer (exec E nd op db fs r) (exec E nd op db' fs' r).
Proof. exact (nobody_isolated E nd op db fs db' fs' r). Qed.
Print Assumptions C100_nobody.
(** API keys: the owner of the prefix decides alone. *)
Theorem C100_lookup E nd db fs db' fs' r i j u k : reachable E fs db -> reachable E fs' db' ->
  account db i u -> account db' j u -> In k (u_apikeys u) -> prefix24 (ak_prefix k) (rk_payload (rq_key r)) ->
  same_answer (exec E nd OpLookupAPIKey db fs r) (exec E nd OpLookupAPIKey db' fs' r).
Proof. exact (lookup_isolated E nd db fs db' fs' r i j u k). Qed.
Print Assumptions C100_lookup.
(** Jane alone, and the same Jane behind Bob. *)
Notation behind := (run toy start [(draws 40, OpAddUser, bob_req); (draws 1, OpAddUser, jane_req)]).
Definition jane_u : User := match db_users one.2 with u :: _ => u | [] => new_user (draws 0) "" end.
Definition jane_key : Request := who "Jane" "jane@example.com" <| rq_key; rk_usage := "api" |> <| rq_key; rk_comment := "ci" |>.
Lemma nobody_toy fs db s : reachable toy fs db -> get_user toy db s = None -> forall i u, ~ resolves_login toy db s i u.
Proof. intros R G i u H. apply (get_user_resolves _ _ _ _ _ _ R) in H. congruence. Qed.
Example C100_ex :
  reachable toy one.1 one.2 /\ reachable toy behind.1 behind.2 /\
  about toy one.2 OpAuthenticate (login "jane" "secret-pw-1") 0 jane_u /\ about toy behind.2 OpAuthenticate (login "jane" "secret-pw-1") 1 jane_u /\
  identity_of toy one.2 jane_key 0 jane_u /\ identity_of toy behind.2 jane_key 1 jane_u /\
  db_policy behind.2 = db_policy one.2 /\
  o_res (exec toy (draws 1) OpAuthenticate one.2 one.1 (login "jane" "secret-pw-1")) = OOk /\
  o_res (exec toy (draws 9) OpAddAPIKey one.2 one.1 jane_key) = OOk /\ o_res (exec toy (draws 9) OpAddAPIKey behind.2 behind.1 jane_key) = OOk /\
  (forall i u, ~ about toy one.2 OpAuthenticate (login "carol" "x") i u) /\ (forall i u, ~ about toy behind.2 OpAuthenticate (login "carol" "x") i u).
Proof.
  assert (R : reachable toy one.1 one.2) by (apply run_reachable; vm_compute; reflexivity).
  assert (R' : reachable toy behind.1 behind.2) by (apply run_reachable; vm_compute; reflexivity).
  split; [exact R|]. split; [exact R'|].
  split; [apply (get_user_resolves _ _ _ _ _ _ R); vm_compute; reflexivity|].
  split; [apply (get_user_resolves _ _ _ _ _ _ R'); vm_compute; reflexivity|].
  split; [apply (validate_iff _ _ _ _ _ _ R); vm_compute; reflexivity|].
  split; [apply (validate_iff _ _ _ _ _ _ R'); vm_compute; reflexivity|].
  split; [vm_compute; reflexivity|]. split; [vm_compute; reflexivity|]. split; [vm_compute; reflexivity|]. split; [vm_compute; reflexivity|].
  split; [apply (nobody_toy _ _ _ R); vm_compute; reflexivity|apply (nobody_toy _ _ _ R'); vm_compute; reflexivity].
Qed.

(** C101 *)
(** An administrator would lock an account out, disable it or leave its address unconfirmed.  The
    package has fields for all three and checks none of them: two accounts that differ in nothing
    but these (and in title, organisations, times, ...) are answered the same at login, ... *)
Theorem C101_login E nd op db fs db' fs' r i j u v : reachable E fs db -> reachable E fs' db' -> In op [OpAuthenticate; OpIdentify] ->
  about E db op r i u -> about E db' op r j v -> same_but_status u v ->
  same_answer (exec E nd op db fs r) (exec E nd op db' fs' r).
Proof. exact (status_ignored E nd op db fs db' fs' r i j u v). Qed.
Print Assumptions C101_login.
(** ... and when their API keys are used. *)
Theorem C101_lookup E nd db fs db' fs' r i j u v k : reachable E fs db -> reachable E fs' db' ->
  account db i u -> account db' j v -> same_but_status u v -> In k (u_apikeys u) -> prefix24 (ak_prefix k) (rk_payload (rq_key r)) ->
  same_answer (exec E nd OpLookupAPIKey db fs r) (exec E nd OpLookupAPIKey db' fs' r).
Proof. exact (lookup_status E nd db fs db' fs' r i j u v k). Qed.
Print Assumptions C101_lookup.
(** No sequence of calls enables, locks or confirms anything: accounts keep the status they were
    loaded with, new ones are disabled, not locked, not human and unconfirmed. *)
Theorem C101_never_set E fs db fs' db' i v : later E fs db fs' db' -> account db' i v ->
  (exists u, account db i u /\ u_enabled v = u_enabled u /\ u_lockout v = u_lockout u /\ u_human v = u_human u /\ u_emails v = u_emails u) \/
  (u_enabled v = false /\ u_lockout v = None /\ u_human v = false /\ forall e, In e (u_emails v) -> em_confirmed e = false).
Proof. intros L. exact (status_later E fs db fs' db' L i v). Qed.
Print Assumptions C101_never_set.
(** Any number of attempts, failed or not, leaves the answer to a password as it was: guessing is
    never slowed down or stopped. *)
Theorem C101_no_lockout E nd fs db fs' db' r : steps E read_calls {| w_fs := fs; w_mem := Up db |} {| w_fs := fs'; w_mem := Up db' |} ->
  ru_password (rq_user r) <> "" -> same_answer (exec E nd OpAuthenticate db fs r) (exec E nd OpAuthenticate db' fs' r).
Proof. exact (attempts_ignored E nd fs db fs' db' r). Qed.
Print Assumptions C101_no_lockout.
(** The file of the two accounts with Jane's disabled and locked until the year 3169. *)
Definition lock_jane (u : User) : User := u <| u_enabled := false |> <| u_lockout := Some {| lk_enabled := true; lk_start := 0; lk_end := 99999999999000000000 |} |>.
Definition locked_text : string := match marshal (db_content one.2 <| c_users ::= map lock_jane |>) with Some b => b | None => "" end.
Notation locked := (opened (file_of locked_text)).
Definition locked_u : User := match db_users locked.2 with u :: _ => u | [] => new_user (draws 0) "" end.
Lemma locked_reachable : reachable toy locked.1 locked.2.
Proof. apply (run_opened (file_of locked_text) []); vm_compute; reflexivity. Qed.
(** "An account that is locked or disabled cannot log in" is false. *)
Theorem C101_enforced_refuted : exists E fs db nd r i u lk, reachable E fs db /\ about E db OpAuthenticate r i u /\
  u_enabled u = false /\ u_lockout u = Some lk /\ lk_enabled lk = true /\ (lk_start lk <= nd_clock nd <= lk_end lk)%Z /\
  o_res (exec E nd OpAuthenticate db fs r) = OOk /\ rq_code (o_req (exec E nd OpAuthenticate db fs r)) = 200%Z.
Proof.
  exists toy, locked.1, locked.2, (draws 1), (login "jane" "secret-pw-1"), 0%nat, locked_u, {| lk_enabled := true; lk_start := 0; lk_end := 99999999999000000000 |}.
  split; [exact locked_reachable|]. split; [apply (get_user_resolves _ _ _ _ _ _ locked_reachable); vm_compute; reflexivity|].
  split; [vm_compute; reflexivity|]. split; [vm_compute; reflexivity|]. split; [reflexivity|]. split; [vm_compute; split; discriminate|].
  split; vm_compute; reflexivity.
Qed.
Print Assumptions C101_enforced_refuted.
(** Locked Jane and the Jane of [behind] differ in status only; a wrong password, tried between. *)
Example C101_ex :
  reachable toy locked.1 locked.2 /\ reachable toy behind.1 behind.2 /\
  about toy locked.2 OpAuthenticate (login "jane" "secret-pw-1") 0 locked_u /\ about toy behind.2 OpAuthenticate (login "jane" "secret-pw-1") 1 jane_u /\
  same_but_status locked_u jane_u /\ u_lockout locked_u <> u_lockout jane_u /\
  (exists e, o_res (exec toy (draws 1) OpAuthenticate one.2 one.1 (login "jane" "guess")) = OErr e) /\
  steps toy read_calls (world one) (world (run toy one [(draws 1, OpAuthenticate, login "jane" "guess")])).
Proof.
  assert (R' : reachable toy behind.1 behind.2) by (apply run_reachable; vm_compute; reflexivity).
  split; [exact locked_reachable|]. split; [exact R'|].
  split; [apply (get_user_resolves _ _ _ _ _ _ locked_reachable); vm_compute; reflexivity|].
  split; [apply (get_user_resolves _ _ _ _ _ _ R'); vm_compute; reflexivity|].
  split; [constructor; vm_compute; reflexivity|]. split; [vm_compute; discriminate|].
  split; [eexists; vm_compute; reflexivity|].
  eapply (StCons _ _ _ (EvCall (draws 1) OpAuthenticate (login "jane" "guess"))); [apply StNil|cbn; tauto|].
  match goal with |- step _ _ _ ?w => replace w with {| w_fs := o_fs (exec toy (draws 1) OpAuthenticate one.2 one.1 (login "jane" "guess"));
    w_mem := after_call (exec toy (draws 1) OpAuthenticate one.2 one.1 (login "jane" "guess")) |} by (vm_compute; reflexivity) end. constructor.
Qed.
