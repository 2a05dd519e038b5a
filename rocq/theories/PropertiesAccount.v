(** Theorems about accounts (C01-C11, C15, C55, C56, C71, C73, C75). *)
From Coq Require Import String Ascii ZArith NArith Lia Bool Arith List.
From stdpp Require Import gmap strings.
From RecordUpdate Require Import RecordSet.
From Verif Require Import GoStr GoErr Role Name Email SpecValue Types Env Json Persist Fs Database System SpecDb SpecCrypto Examples LoadFacts AccountFacts.
Import ListNotations.
Import RecordSetNotations.
Open Scope string_scope.

(** C01 *)
Theorem C01_usernames_unique E fs db i j u v :
  reachable E fs db -> account db i u -> account db j v -> same_ci E (u_username u) (u_username v) -> i = j.
Proof. exact (username_unique E fs db i j u v). Qed.
Print Assumptions C01_usernames_unique.
Theorem C01_usernames_unique_ascii E fs db i j u v :
  reachable E fs db -> account db i u -> account db j v -> ascii_ci (u_username u) (u_username v) -> i = j.
Proof. intros H Hu Hv S. exact (username_unique E fs db i j u v H Hu Hv (ascii_ci_same E _ _ S)). Qed.
Print Assumptions C01_usernames_unique_ascii.
Example C01_ex : reachable toy two.1 two.2 /\ map u_username (db_users two.2) = ["Jane"; "bob"] /\
  o_res (exec toy (draws 9) OpAddUser two.2 two.1 (signup "jANE" "other@example.com" "secret-pw-3")) <> OOk.
Proof. split; [exact two_reachable|]. split; [vm_compute; reflexivity|vm_compute; discriminate]. Qed.

(** C02 *)
Theorem C02_addresses_unique E fs db i j u v p q e f :
  reachable E fs db -> account db i u -> account db j v -> u_emails u !! p = Some e -> u_emails v !! q = Some f ->
  same_ci E (em_address e) (em_address f) -> i = j /\ p = q.
Proof. exact (email_unique E fs db i j u v p q e f). Qed.
Print Assumptions C02_addresses_unique.
Example C02_ex : reachable toy two.1 two.2 /\ map (fun u => map em_address (u_emails u)) (db_users two.2) = [["Jane@Example.com"]; ["bob@example.com"]] /\
  o_res (exec toy (draws 9) OpAddUser two.2 two.1 (signup "other" "jane@example.COM" "secret-pw-3")) <> OOk.
Proof. split; [exact two_reachable|]. split; [vm_compute; reflexivity|vm_compute; discriminate]. Qed.

(** C03 *)
Theorem C03_ids_unique E fs db i j u v :
  reachable_by E uuid_fresh fs db -> account db i u -> account db j v -> u_id u = u_id v -> i = j.
Proof. exact (ids_reachable E fs db i j u v). Qed.
Print Assumptions C03_ids_unique.
Theorem C03_id_length E fs db i u : reachable E fs db -> account db i u -> String.length (u_id u) = 36%nat.
Proof. exact (id_length E fs db i u). Qed.
Print Assumptions C03_id_length.
(** Without fresh draws the claim is false. *)
Theorem C03_ids_unique_refuted : exists E fs db i j u v,
  reachable E fs db /\ account db i u /\ account db j v /\ u_id u = u_id v /\ i <> j.
Proof.
  pose (w := run toy start [(same_uuid (draws 1), OpAddUser, jane_req); (same_uuid (draws 40), OpAddUser, bob_req)]).
  exists toy, w.1, w.2, 0%nat, 1%nat.
  destruct (db_users w.2) as [|u [|v l]] eqn:X; [vm_compute in X; discriminate|vm_compute in X; discriminate|].
  exists u, v. unfold account. rewrite X. repeat split.
  - apply run_reachable. vm_compute. reflexivity.
  - vm_compute in X. injection X as <- <- _. reflexivity.
  - discriminate.
Qed.
Print Assumptions C03_ids_unique_refuted.
Example C03_ex : reachable_by toy uuid_fresh two.1 two.2 /\ List.length (db_users two.2) = 2%nat.
Proof.
  split; [|exact two_accounts]. exists ∅.
  assert (S0 : steps toy uuid_fresh {| w_fs := ∅; w_mem := Down |} (world start)).
  { eapply StCons with (ev := EvOpen (draws 0) "db.json"); [apply StNil|exact I|].
    change (world start) with {| w_fs := start_fs; w_mem := after_load Down (Loaded start_db) |}. constructor; [exact start_open|discriminate]. }
  assert (S1 : steps toy uuid_fresh {| w_fs := ∅; w_mem := Down |} (world (run toy start [(draws 1, OpAddUser, jane_req)]))).
  { eapply (exec_steps toy uuid_fresh (draws 1) OpAddUser start.2 start.1 jane_req); [exact S0| |split; vm_compute; discriminate].
    exists 0%nat. split; [lia|]. intros i u Hu. exfalso. vm_compute in Hu. discriminate. }
  set (w := run toy start [(draws 1, OpAddUser, jane_req)]) in *.
  eapply (exec_steps toy uuid_fresh (draws 40) OpAddUser w.2 w.1 bob_req); [exact S1| |split; vm_compute; discriminate].
  exists 0%nat. split; [lia|]. intros i u Hu. destruct i as [|i]; [|exfalso; vm_compute in Hu; discriminate].
  vm_compute in Hu. injection Hu as <-. vm_compute. discriminate.
Qed.

(** C04 *)
Theorem C04_add_user_accepts E nd fs db r :
  reachable E fs db ->
  (o_res (exec E nd OpAddUser db fs r) = OOk <->
   acceptable E nd db r /\ can_write nd fs (db_path db) (db_content (o_db (exec E nd OpAddUser db fs r)))).
Proof. intros H. exact (add_user_iff E nd db fs r (LoadFacts.inv_reachable E fs db H)). Qed.
Print Assumptions C04_add_user_accepts.
Example C04_ex : reachable toy start.1 start.2 /\ o_res (exec toy (draws 1) OpAddUser start.2 start.1 jane_req) = OOk.
Proof. split; [exact (run_reachable [] eq_refl)|vm_compute; reflexivity]. Qed.

(** C05 *)
Theorem C05_add_user_appends E nd db fs r :
  o_res (exec E nd OpAddUser db fs r) = OOk ->
  let db' := o_db (exec E nd OpAddUser db fs r) in
  exists u, new_account E nd r u /\ db_users db' = (db_users db ++ [u])%list /\
    db_policy db' = db_policy db /\ db_path db' = db_path db /\ ref_apikey db' = ref_apikey db.
Proof. exact (add_user_appends E nd db fs r). Qed.
Print Assumptions C05_add_user_appends.
Example C05_ex : exists u, db_users two.2 !! 0%nat = Some u /\ u_username u = "Jane" /\
  u_roles u = [{| ro_name := "admin"; ro_org := "corp" |}; {| ro_name := "viewer"; ro_org := "" |}] /\ u_name u = Some (mk_name "Smith" "Jane").
Proof. eexists. split; [vm_compute; reflexivity|]. repeat split. Qed.

(** C06 *)
Theorem C06_rejected_unchanged E nd op db fs r :
  writes op -> o_res (exec E nd op db fs r) <> OOk ->
  o_db (exec E nd op db fs r) = db /\ o_fs (exec E nd op db fs r) = fs \/
  ~ can_write nd fs (written_path op db) (db_content (o_db (exec E nd op db fs r))).
Proof. exact (rejected_unchanged E nd op db fs r). Qed.
Print Assumptions C06_rejected_unchanged.
Example C06_ex : writes OpAddUser /\
  o_res (exec toy (draws 9) OpAddUser two.2 two.1 (signup "jANE" "other@example.com" "secret-pw-3")) <> OOk /\
  can_write (draws 9) two.1 (db_path two.2) (db_content two.2).
Proof.
  split; [intros H; cbn in H; intuition discriminate|]. split; [vm_compute; discriminate|].
  repeat split; vm_compute; discriminate || reflexivity.
Qed.

(** C07 *)
Theorem C07_username_lookup E fs db s i u :
  reachable E fs db -> (by_username E db s = Some (i, u) <-> resolves_username E db s i u).
Proof. exact (by_username_resolves E fs db s i u). Qed.
Print Assumptions C07_username_lookup.
Theorem C07_address_lookup E fs db s i u :
  reachable E fs db -> (by_email E db s = Some (i, u) <-> resolves_address E db s i u).
Proof. exact (by_email_resolves E fs db s i u). Qed.
Print Assumptions C07_address_lookup.
Theorem C07_login_lookup E fs db s i u :
  reachable E fs db -> (get_user E db s = Some (i, u) <-> resolves_login E db s i u).
Proof. exact (get_user_resolves E fs db s i u). Qed.
Print Assumptions C07_login_lookup.
Theorem C07_identity_lookup E fs db r i u :
  reachable E fs db -> (validate_identity E db r = inl (i, u) <-> identity_of E db r i u).
Proof. exact (validate_iff E fs db r i u). Qed.
Print Assumptions C07_identity_lookup.
Example C07_ex : option_map fst (get_user toy two.2 "BOB") = Some 1%nat /\ option_map fst (get_user toy two.2 "jane@example.com") = Some 0%nat /\
  get_user toy two.2 "nobody" = None.
Proof. vm_compute. auto. Qed.

(** C08 *)
Theorem C08_added_found E nd db fs r :
  o_res (exec E nd OpAddUser db fs r) = OOk ->
  let db' := o_db (exec E nd OpAddUser db fs r) in
  exists u, new_account E nd r u /\ account db' (List.length (db_users db)) u /\
    (forall s, same_ci E (ru_username (rq_user r)) s -> (2 <= String.length s)%nat -> ~ In "@"%char (los s) ->
       resolves_login E db' s (List.length (db_users db)) u) /\
    (forall s, same_ci E (ru_email (rq_user r)) s -> (6 <= String.length s)%nat -> In "@"%char (los s) ->
       resolves_login E db' s (List.length (db_users db)) u).
Proof. exact (added_found E nd db fs r). Qed.
Print Assumptions C08_added_found.
(** The three exceptions: nothing is ever found under a short login name or a short address, and
    such accounts are accepted; an account can take another account's address as its username. *)
Theorem C08_short_username_lost E db s i u : (String.length s < 2)%nat -> ~ resolves_login E db s i u.
Proof. exact (short_login_lost E db s i u). Qed.
Print Assumptions C08_short_username_lost.
Theorem C08_short_address_lost E db s i u : In "@"%char (los s) -> (String.length s < 6)%nat -> ~ resolves_login E db s i u.
Proof. exact (short_address_lost E db s i u). Qed.
Print Assumptions C08_short_address_lost.
Theorem C08_short_username_refuted : exists E nd fs db r,
  reachable E fs db /\ String.length (ru_username (rq_user r)) = 1%nat /\ o_res (exec E nd OpAddUser db fs r) = OOk /\
  o_res (exec E nd OpAuthenticate (o_db (exec E nd OpAddUser db fs r)) (o_fs (exec E nd OpAddUser db fs r)) r) <> OOk.
Proof.
  exists toy, (draws 1), lax.1, lax.2, (signup "a" "alice@example.com" "secret-pw-1").
  split; [apply (run_opened lax_fs []); vm_compute; reflexivity|]. vm_compute. repeat split; discriminate.
Qed.
Print Assumptions C08_short_username_refuted.
Theorem C08_short_address_refuted : exists E nd fs db r,
  reachable E fs db /\ ru_email (rq_user r) = "a@b.c" /\ o_res (exec E nd OpAddUser db fs r) = OOk /\
  o_res (exec E nd OpAuthenticate (o_db (exec E nd OpAddUser db fs r)) (o_fs (exec E nd OpAddUser db fs r))
           (r <| rq_user; ru_username := ru_email (rq_user r) |>)) <> OOk /\
  o_res (exec E nd OpGetUser (o_db (exec E nd OpAddUser db fs r)) (o_fs (exec E nd OpAddUser db fs r)) r) <> OOk.
Proof.
  exists toy, (draws 1), start.1, start.2, (signup "alice" "a@b.c" "secret-pw-1").
  split; [exact (run_reachable [] eq_refl)|]. vm_compute. repeat split; discriminate.
Qed.
Print Assumptions C08_short_address_refuted.
Theorem C08_at_username_refuted : exists E nd fs db r,
  reachable E fs db /\ o_res (exec E nd OpAddUser db fs r) = OOk /\
  option_map fst (get_user E (o_db (exec E nd OpAddUser db fs r)) (ru_username (rq_user r))) = Some 0%nat /\
  List.length (db_users db) = 2%nat.
Proof.
  exists toy, (draws 77), two.1, two.2, (signup "jane@example.com" "mallory@example.com" "secret-pw-3").
  split; [exact two_reachable|]. vm_compute. auto.
Qed.
Print Assumptions C08_at_username_refuted.
Example C08_ex : let o := exec toy (draws 1) OpAddUser start.2 start.1 (signup "alice" "alice@example.com" "secret-pw-1") in
  o_res o = OOk /\ option_map fst (get_user toy (o_db o) "ALICE") = Some 0%nat /\ option_map fst (get_user toy (o_db o) "Alice@example.com") = Some 0%nat /\
  (2 <= String.length "ALICE")%nat /\ ~ In "@"%char (los "ALICE") /\ same_ci toy "alice" "ALICE" /\ same_ci toy "alice@example.com" "Alice@example.com".
Proof.
  cbv zeta. split; [vm_compute; reflexivity|]. split; [vm_compute; reflexivity|]. split; [vm_compute; reflexivity|]. split; [vm_compute; lia|].
  split; [cbn; intuition discriminate|]. split; vm_compute; reflexivity.
Qed.

(** C09 *)
Theorem C09_identity_required E nd op db fs r :
  reachable E fs db -> In op identity_ops -> (forall i u, ~ identity_of E db r i u) ->
  exists e, exec E nd op db fs r = {| o_db := db; o_fs := fs; o_req := r; o_res := OErr e |}.
Proof. exact (identity_required E nd op db fs r). Qed.
Print Assumptions C09_identity_required.
Example C09_ex : (forall i u, ~ identity_of toy two.2 (who "Jane" "bob@example.com") i u) /\
  exists i u, identity_of toy two.2 (who "jane" "JANE@example.com") i u.
Proof.
  split.
  - intros i u H. apply (validate_iff toy two.1) in H; [|exact two_reachable]. vm_compute in H. discriminate.
  - eexists _, _. apply (validate_iff toy two.1); [exact two_reachable|]. vm_compute. reflexivity.
Qed.

(** C10 *)
Theorem C10_others_untouched E nd op db fs r j v :
  reachable E fs db -> account db j v -> ~ concerns E db op r j ->
  account (o_db (exec E nd op db fs r)) j v /\
  forall s, ref_apikey (o_db (exec E nd op db fs r)) !! s = Some j <-> ref_apikey db !! s = Some j.
Proof. exact (others_untouched E nd op db fs r j v). Qed.
Print Assumptions C10_others_untouched.
Definition key_req (r : Request) : Request := r <| rq_key; rk_usage := "api" |> <| rq_key; rk_comment := "c" |>.
Example C10_ex : ~ concerns toy two.2 OpAddAPIKey (key_req (who "Jane" "jane@example.com")) 1%nat /\
  o_res (exec toy (draws 5) OpAddAPIKey two.2 two.1 (key_req (who "Jane" "jane@example.com"))) = OOk.
Proof.
  split; [|vm_compute; reflexivity]. intros (u & H). apply (validate_iff toy two.1) in H; [|exact two_reachable]. vm_compute in H. discriminate.
Qed.

(** C11 *)
Theorem C11_accounts_stay E fs db fs' db' :
  later E fs db fs' db' ->
  (List.length (db_users db) <= List.length (db_users db'))%nat /\
  forall i u, account db i u -> exists u', account db' i u' /\ same_identity u u'.
Proof. exact (extends_later E fs db fs' db'). Qed.
Print Assumptions C11_accounts_stay.
Theorem C11_delete_user_fails E nd db fs r :
  exists e, exec E nd OpDeleteUser db fs r = {| o_db := db; o_fs := fs; o_req := r; o_res := OErr e |}.
Proof. exact (delete_user_fails E nd db fs r). Qed.
Print Assumptions C11_delete_user_fails.
Example C11_ex : later toy start.1 start.2 two.1 two.2 /\ start.2 <> two.2.
Proof. split; [apply (run_later toy start two_calls); vm_compute; reflexivity|vm_compute; discriminate]. Qed.

(** C15 *)
Theorem C15_reads_change_nothing E nd op db fs r :
  In op read_ops ->
  let o := exec E nd op db fs r in
  o_fs o = fs /\ db_path (o_db o) = db_path db /\
  ref_username (o_db o) = ref_username db /\ ref_email (o_db o) = ref_email db /\ ref_id (o_db o) = ref_id db /\ ref_apikey (o_db o) = ref_apikey db /\
  db_policy (o_db o) = db_policy db /\ db_revision (o_db o) = db_revision db /\ db_modified (o_db o) = db_modified db /\
  map no_cache (db_users (o_db o)) = map no_cache (db_users db) /\
  (op <> OpAuthenticate \/ ru_password (rq_user r) <> "" -> o_db o = db).
Proof. exact (read_op E nd op db fs r). Qed.
Print Assumptions C15_reads_change_nothing.
Example C15_ex : In OpAuthenticate read_ops /\ o_res (exec toy (draws 2) OpAuthenticate two.2 two.1 (signup "bob" "" "secret-pw-2")) = OOk.
Proof. split; [cbn; auto|vm_compute; reflexivity]. Qed.

(** C55 *)
Theorem C55_revision_counts_commits E nd op db fs r :
  let o := exec E nd op db fs r in
  (writes op /\ db_revision (o_db o) = ((db_revision db + 1) mod 2 ^ 64)%N /\ db_modified (o_db o) = nd_clock nd /\
   (o_res o = OOk \/ ~ can_write nd fs (written_path op db) (db_content (o_db o)))) \/
  (db_revision (o_db o) = db_revision db /\ db_modified (o_db o) = db_modified db /\ o_fs o = fs /\ (writes op -> o_res o <> OOk)).
Proof. exact (revision_counts E nd op db fs r). Qed.
Print Assumptions C55_revision_counts_commits.
Example C55_ex : db_revision start.2 = 1%N /\ db_revision two.2 = 3%N.
Proof. vm_compute. auto. Qed.

(** C56 *)
Theorem C56_copy E nd db fs r fp :
  let o := exec E nd (OpCopy fp) db fs r in
  db_users (o_db o) = db_users db /\ db_policy (o_db o) = db_policy db /\ db_path (o_db o) = db_path db /\
  ref_username (o_db o) = ref_username db /\ ref_email (o_db o) = ref_email db /\ ref_id (o_db o) = ref_id db /\ ref_apikey (o_db o) = ref_apikey db /\
  (forall p, p <> fp -> o_fs o !! p = fs !! p) /\
  (o_res o = OOk -> exists d, marshal (db_content (o_db o)) = Some d /\ o_fs o !! fp = Some (File d)).
Proof. exact (copy_spec E nd db fs r fp). Qed.
Print Assumptions C56_copy.
Example C56_ex : o_res (exec toy (draws 2) (OpCopy "backup.json") two.2 two.1 new_request) = OOk.
Proof. vm_compute. reflexivity. Qed.

(** C71 *)
Theorem C71_bundle_size {A} (l : list A) :
  b_items (fold_left b_add l b_new) = l /\ b_size (fold_left b_add l b_new) = Z.of_nat (List.length l).
Proof. exact (bundle_spec l). Qed.
Print Assumptions C71_bundle_size.
Example C71_ex : b_size (b_add (b_add b_new "x") "y") = 2%Z.
Proof. reflexivity. Qed.

(** C73 *)
Theorem C73_get_users E nd db fs r i u :
  reachable E fs db -> identity_of E db r i u ->
  exists b, exec E nd OpGetUsers db fs r = {| o_db := db; o_fs := fs; o_req := r <| rq_payload := PUsers b |>; o_res := OOk |} /\
    Forall2 describes (db_users db) (b_items b) /\ b_size b = Z.of_nat (List.length (db_users db)).
Proof. exact (get_users_spec E nd db fs r i u). Qed.
Print Assumptions C73_get_users.
Example C73_ex : exists b, rq_payload (o_req (exec toy (draws 2) OpGetUsers two.2 two.1 (who "bob" "bob@example.com"))) = PUsers b /\
  map md_username (b_items b) = ["Jane"; "bob"] /\ map md_name (b_items b) = ["Smith, Jane"; ""].
Proof. eexists. split; [vm_compute; reflexivity|]. vm_compute. auto. Qed.

(** C75 *)
Theorem C75_account_revision E nd op db fs r :
  reachable E fs db -> In op account_ops -> o_res (exec E nd op db fs r) = OOk ->
  exists i u u', identity_of E db r i u /\ account (o_db (exec E nd op db fs r)) i u' /\
    u_revision u' = int64 (u_revision u + 1) /\ u_modified u' = nd_clock nd.
Proof. exact (account_op_revision E nd op db fs r). Qed.
Print Assumptions C75_account_revision.
Example C75_ex : In OpAddAPIKey account_ops /\ reachable toy two.1 two.2 /\
  o_res (exec toy (draws 5) OpAddAPIKey two.2 two.1 (key_req (who "Jane" "jane@example.com"))) = OOk.
Proof. split; [cbn; auto|]. split; [exact two_reachable|vm_compute; reflexivity]. Qed.
