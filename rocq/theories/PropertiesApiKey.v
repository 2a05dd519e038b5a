(** Theorems about API keys (C22-C29). *)
From Coq Require Import String Ascii ZArith NArith Lia Bool Arith List.
From stdpp Require Import gmap strings.
From RecordUpdate Require Import RecordSet.
From Verif Require Import GoStr GoErr Random SpecValue Types Env Json Persist Fs Database System SpecDb SpecCrypto SpecAuth Examples CryptoFacts LoadFacts AccountFacts StepFacts PasswordFacts ApiKeyFacts.
Import ListNotations.
Import RecordSetNotations.
Open Scope string_scope.

(** Requests and states of the examples. *)
Definition ask_key (r : Request) : Request := r <| rq_key; rk_usage := "api" |> <| rq_key; rk_comment := "ci" |>.
Definition jane_key : Request := ask_key (who "jane" "jane@example.com").
Definition bob_key : Request := ask_key (who "bob" "bob@example.com").
Definition show (s : string) : Request := new_request <| rq_key; rk_payload := s |>.
Definition kill (r : Request) (id : string) : Request := r <| rq_key; rk_id := id |>.
Definition secret (o : Out) : string := match rq_payload (o_req o) with PStr s => s | _ => "" end.
Notation jane_out := (exec toy (draws 9) OpAddAPIKey two.2 two.1 jane_key).
Notation bob_out := (exec toy (draws 99) OpAddAPIKey (o_db jane_out) (o_fs jane_out) bob_key).
Lemma jane_ok : o_res jane_out = OOk. Proof. vm_compute. reflexivity. Qed.
Lemma bob_ok : o_res bob_out = OOk. Proof. vm_compute. reflexivity. Qed.
Lemma jane_reachable : reachable toy (o_fs jane_out) (o_db jane_out).
Proof. exact (exec_reachable _ _ _ _ _ _ two_reachable (ok_returned _ jane_ok)). Qed.
Lemma bob_reachable : reachable toy (o_fs bob_out) (o_db bob_out).
Proof. exact (exec_reachable _ _ _ _ _ _ jane_reachable (ok_returned _ bob_ok)). Qed.

(** C22 *)
Theorem C22_issued_key_works E nd nd' db fs r r' : reachable E fs db -> bcrypt_complete E ->
  let o := exec E nd OpAddAPIKey db fs r in
  o_res o = OOk ->
  exists i u k s, identity_of E db r i u /\ rq_payload (o_req o) = PStr s /\ issued_key E nd r s k /\
    (forall fs' db', steps E (spares E i (ak_id k)) {| w_fs := o_fs o; w_mem := Up (o_db o) |} {| w_fs := fs'; w_mem := Up db' |} ->
     rk_payload (rq_key r') = s ->
     let o' := exec E nd' OpLookupAPIKey db' fs' r' in o_res o' = OOk /\
     exists u', account db' i u' /\ same_identity u u' /\ reports o' u').
Proof.
  intros HR C o H. destruct (add_key_result E nd db fs r HR H) as (i & u & u' & s & k & Hi & Hu' & D & P & K & Ks & SI). fold o in Hu', P.
  exists i, u, k, s. split; [exact Hi|]. split; [exact P|]. split; [exact K|]. intros fs' db' S Eq.
  pose proof (exec_reachable E nd OpAddAPIKey db fs r HR (ok_returned _ H)) as HR'. fold o in HR'.
  assert (Hk : In k (u_apikeys u')) by (rewrite Ks; apply in_app_iff; right; now left).
  destruct (key_kept E _ _ _ _ i u' k HR' Hu' Hk S) as (HR2 & v & Hv & Hkv & SI').
  assert (KF : key_for E v (rk_payload (rq_key r'))).
  { rewrite Eq. exists k. split; [exact Hkv|]. split; [apply (ik_prefix _ _ _ _ _ K)|]. eapply C, ik_hash; eauto. }
  destruct (lookup_iff E nd' db' fs' r' HR2) as (I1 & I2 & _).
  assert (O : o_res (exec E nd' OpLookupAPIKey db' fs' r') = OOk).
  { apply I1. split; [rewrite Eq; apply (ik_length _ _ _ _ _ K)|]. exists i, v. auto. }
  split; [exact O|]. exists v. split; [exact Hv|]. split; [eapply same_identity_trans; eauto|]. apply (I2 O i v Hv KF).
Qed.
Print Assumptions C22_issued_key_works.
Example C22_ex : reachable toy two.1 two.2 /\ o_res jane_out = OOk /\
  let o := exec toy (draws 100) OpLookupAPIKey (o_db bob_out) (o_fs bob_out) (show (secret jane_out)) in
  o_res o = OOk /\ ru_username (rq_user (o_req o)) = "Jane" /\ ru_email (rq_user (o_req o)) = "Jane@Example.com".
Proof. split; [exact two_reachable|]. split; [exact jane_ok|]. vm_compute. auto. Qed.

(** C23 *)
Theorem C23_lookup_iff E nd db fs r : reachable E fs db ->
  let o := exec E nd OpLookupAPIKey db fs r in let s := rk_payload (rq_key r) in
  o_res o = OOk <-> (72 <= String.length s)%nat /\
    exists i u k, account db i u /\ In k (u_apikeys u) /\ prefix24 (ak_prefix k) s /\ e_bcmp E (ak_payload k) s = true.
Proof.
  intros HR o s. destruct (lookup_iff E nd db fs r HR) as (I & _ & _). unfold o. rewrite I. split.
  - intros (L & i & u & Hu & k & Hk & P & M). split; [exact L|]. exists i, u, k. auto.
  - intros (L & i & u & k & Hu & Hk & P & M). split; [exact L|]. exists i, u. split; [exact Hu|]. exists k. auto.
Qed.
Print Assumptions C23_lookup_iff.
(** The reported account is the owner of that key, and every other payload is an error. *)
Theorem C23_reported E nd db fs r i u k : reachable E fs db ->
  let o := exec E nd OpLookupAPIKey db fs r in let s := rk_payload (rq_key r) in
  o_res o = OOk -> account db i u -> In k (u_apikeys u) -> prefix24 (ak_prefix k) s -> reports o u /\ e_bcmp E (ak_payload k) s = true.
Proof.
  intros HR o s H Hu Hk P. destruct (lookup_iff E nd db fs r HR) as (I1 & I2 & _). pose proof (proj1 I1 H) as (_ & j & v & Hv & l & Hl & P' & M).
  destruct (prefix_owner E db i j u v k l) as [-> ->]; auto; [now apply inv_reachable in HR|eapply prefix24_inj; eauto|].
  unfold account in *. assert (u = v) as -> by congruence. split; [|exact M]. apply (I2 H j v); [exact Hv|]. exists l. auto.
Qed.
Print Assumptions C23_reported.
Theorem C23_else_error E nd db fs r : reachable E fs db -> let o := exec E nd OpLookupAPIKey db fs r in o_res o = OOk \/ exists e, o_res o = OErr e.
Proof. intros HR. apply (lookup_iff E nd db fs r HR). Qed.
Print Assumptions C23_else_error.
Example C23_ex : reachable toy (o_fs bob_out) (o_db bob_out) /\
  o_res (exec toy (draws 100) OpLookupAPIKey (o_db bob_out) (o_fs bob_out) (show (secret bob_out))) = OOk /\
  o_res (exec toy (draws 100) OpLookupAPIKey (o_db bob_out) (o_fs bob_out) (show (take 71 (secret bob_out)))) <> OOk /\
  o_res (exec toy (draws 100) OpLookupAPIKey (o_db bob_out) (o_fs bob_out) (show (take 24 (secret bob_out) ++ drop 24 (secret jane_out)))) <> OOk.
Proof. split; [exact bob_reachable|]. repeat split; vm_compute; (reflexivity || discriminate). Qed.

(** C24: exactly the first 72 bytes decide. *)
Theorem C24_first_72_bytes E nd nd' db fs r r' s p : reachable E fs db -> bcrypt_complete E -> bcrypt_sound E -> bcrypt_72 E ->
  let o := exec E nd OpAddAPIKey db fs r in let s' := rk_payload (rq_key r') in
  o_res o = OOk -> rq_payload (o_req o) = PStr s -> prefix24 p s -> prefix24 p s' -> (72 <= String.length s')%nat ->
  o_res (exec E nd' OpLookupAPIKey (o_db o) (o_fs o) r') = OOk <-> firstn 72 (los s') = firstn 72 (los s).
Proof.
  intros HR C S S72 o s' H P Hp Hp' L. destruct (add_key_result E nd db fs r HR H) as (i & u & u' & s0 & k & Hi & Hu' & D & P0 & K & Ks & SI). fold o in Hu', P0.
  assert (s0 = s) as -> by congruence. clear P0. destruct K as [_ Ls Pk Hh _ _ _ _].
  pose proof (exec_reachable E nd OpAddAPIKey db fs r HR (ok_returned _ H)) as HR'. fold o in HR'.
  assert (Hk : In k (u_apikeys u')) by (rewrite Ks; apply in_app_iff; right; now left).
  assert (ak_prefix k = p) by (eapply prefix24_inj; eauto). subst p.
  rewrite <- key72_firstn by (rewrite length_los; lia). split.
  - intros O. eapply (C23_reported E nd' (o_db o) (o_fs o) r' i u' k) in O as [_ M]; eauto.
  - intros Eq. apply C23_lookup_iff; [assumption|]. split; [exact L|]. exists i, u', k. split; [exact Hu'|]. split; [exact Hk|]. split; [exact Hp'|].
    rewrite (S72 _ _ _ Eq). eapply C; eauto.
Qed.
Print Assumptions C24_first_72_bytes.
Theorem C24_whole_secret_refuted : exists E nd nd' fs db r r' s, reachable E fs db /\ bcrypt_complete E /\ bcrypt_sound E /\ bcrypt_72 E /\
  let o := exec E nd OpAddAPIKey db fs r in o_res o = OOk /\ rq_payload (o_req o) = PStr s /\ rk_payload (rq_key r') <> s /\
  o_res (exec E nd' OpLookupAPIKey (o_db o) (o_fs o) r') = OOk.
Proof.
  exists toy, (draws 9), (draws 100), two.1, two.2, jane_key, (show (take 72 (secret jane_out) ++ "anything")), (secret jane_out).
  split; [exact two_reachable|]. split; [exact toy_complete|]. split; [exact toy_sound|]. split; [exact toy_72|].
  vm_compute. repeat split. discriminate.
Qed.
Print Assumptions C24_whole_secret_refuted.
Example C24_ex : let s := secret jane_out in reachable toy two.1 two.2 /\ o_res jane_out = OOk /\ rq_payload (o_req jane_out) = PStr s /\
  prefix24 (take 24 s) s /\ prefix24 (take 24 s) (take 72 s ++ "x").
Proof.
  cbv zeta. split; [exact two_reachable|]. split; [exact jane_ok|]. split; [vm_compute; reflexivity|].
  split; apply prefix24_iff; vm_compute; (lia || reflexivity).
Qed.

(** C25: a key issued disabled works like any other. *)
Theorem C25_disabled_key_works E nd nd' db fs r r' s : reachable E fs db -> bcrypt_complete E ->
  let o := exec E nd OpAddAPIKey db fs r in
  o_res o = OOk -> rk_disabled (rq_key r) = true -> rq_payload (o_req o) = PStr s -> rk_payload (rq_key r') = s ->
  o_res (exec E nd' OpLookupAPIKey (o_db o) (o_fs o) r') = OOk /\
  exists i u k, identity_of E db r i u /\ issued_key E nd r s k /\ ak_disabled k = true /\ exists u', account (o_db o) i u' /\ In k (u_apikeys u').
Proof.
  intros HR C o H Dis P Eq. destruct (add_key_result E nd db fs r HR H) as (i & u & u' & s0 & k & Hi & Hu' & D & P0 & K & Ks & SI). fold o in Hu', P0.
  assert (s0 = s) as -> by congruence. clear P0. assert (Hk : In k (u_apikeys u')) by (rewrite Ks; apply in_app_iff; right; now left).
  pose proof (exec_reachable E nd OpAddAPIKey db fs r HR (ok_returned _ H)) as HR'. fold o in HR'. split.
  - apply C23_lookup_iff; [assumption|]. rewrite Eq. split; [apply (ik_length _ _ _ _ _ K)|]. exists i, u', k. split; [exact Hu'|]. split; [exact Hk|].
    split; [apply (ik_prefix _ _ _ _ _ K)|]. eapply C, ik_hash; eauto.
  - exists i, u, k. split; [exact Hi|]. split; [exact K|]. split; [rewrite <- Dis; apply (ik_flags _ _ _ _ _ K)|]. exists u'. auto.
Qed.
Print Assumptions C25_disabled_key_works.
Theorem C25_refused_refuted : exists E nd fs db r i u k, reachable E fs db /\ o_res (exec E nd OpLookupAPIKey db fs r) = OOk /\
  account db i u /\ In k (u_apikeys u) /\ prefix24 (ak_prefix k) (rk_payload (rq_key r)) /\ ak_disabled k = true.
Proof.
  pose (r := jane_key <| rq_key; rk_disabled := true |>). pose (o := exec toy (draws 9) OpAddAPIKey two.2 two.1 r).
  assert (H : o_res o = OOk) by (vm_compute; reflexivity).
  destruct (add_key_result toy (draws 9) two.2 two.1 r two_reachable H) as (i & u & u' & s & k & Hi & Hu' & D & P & K & Ks & SI). fold o in Hu', P.
  pose proof (exec_reachable _ _ _ _ _ _ two_reachable (ok_returned _ H)) as HR. fold o in HR.
  assert (Es : s = secret o) by (unfold secret; now rewrite P).
  exists toy, (draws 100), (o_fs o), (o_db o), (show s), i, u', k.
  split; [exact HR|]. split; [rewrite Es; vm_compute; reflexivity|]. split; [exact Hu'|]. split; [rewrite Ks; apply in_app_iff; right; now left|].
  split; [apply (ik_prefix _ _ _ _ _ K)|]. destruct (ik_flags _ _ _ _ _ K) as [F _]. rewrite F. reflexivity.
Qed.
Print Assumptions C25_refused_refuted.
Example C25_ex : let r := jane_key <| rq_key; rk_disabled := true |> in let o := exec toy (draws 9) OpAddAPIKey two.2 two.1 r in
  reachable toy two.1 two.2 /\ bcrypt_complete toy /\ o_res o = OOk /\ rk_disabled (rq_key r) = true /\ rq_payload (o_req o) = PStr (secret o) /\
  map ak_disabled (flat_map u_apikeys (db_users (o_db o))) = [true] /\ o_res (exec toy (draws 100) OpLookupAPIKey (o_db o) (o_fs o) (show (secret o))) = OOk.
Proof.
  cbv zeta. split; [exact two_reachable|]. split; [exact toy_complete|]. split; [vm_compute; reflexivity|]. split; [reflexivity|]. split; [vm_compute; reflexivity|].
  split; vm_compute; reflexivity.
Qed.

(** C26 *)
Theorem C26_deleted_key_dead E nd nd' db fs r i u k fs' db' r' : reachable E fs db ->
  let o := exec E nd OpDeleteAPIKey db fs r in
  o_res o = OOk -> identity_of E db r i u -> In k (u_apikeys u) -> ak_id k = rk_id (rq_key r) ->
  steps E (not_reissued (ak_prefix k)) {| w_fs := o_fs o; w_mem := Up (o_db o) |} {| w_fs := fs'; w_mem := Up db' |} ->
  prefix24 (ak_prefix k) (rk_payload (rq_key r')) ->
  exists e, o_res (exec E nd' OpLookupAPIKey db' fs' r') = OErr e.
Proof.
  intros HR o H Hi Hk Id S P. pose proof (exec_reachable E nd OpDeleteAPIKey db fs r HR (ok_returned _ H)) as HR'. fold o in HR'.
  destruct (absent_later E (ak_prefix k) _ _ _ _ HR' (absent_after_delete E nd db fs r i u k HR H Hi Hk Id) S) as [HR2 A].
  eapply absent_lookup; eauto.
Qed.
Print Assumptions C26_deleted_key_dead.
Theorem C26_others_continue E nd nd' db fs r r' : reachable E fs db ->
  let o := exec E nd OpDeleteAPIKey db fs r in
  o_res o = OOk ->
  (forall i u k, identity_of E db r i u -> In k (u_apikeys u) -> ak_id k = rk_id (rq_key r) -> ~ prefix24 (ak_prefix k) (rk_payload (rq_key r'))) ->
  o_res (exec E nd' OpLookupAPIKey (o_db o) (o_fs o) r') = o_res (exec E nd' OpLookupAPIKey db fs r') /\
  o_req (exec E nd' OpLookupAPIKey (o_db o) (o_fs o) r') = o_req (exec E nd' OpLookupAPIKey db fs r').
Proof. exact (delete_key_others E nd nd' db fs r r'). Qed.
Print Assumptions C26_others_continue.
Definition jane_id : string := random_string 40 (nd_id (draws 9)).
Notation killed := (exec toy (draws 100) OpDeleteAPIKey (o_db bob_out) (o_fs bob_out) (kill jane_key jane_id)).
Example C26_ex : reachable toy (o_fs bob_out) (o_db bob_out) /\ o_res killed = OOk /\
  (exists i u k, identity_of toy (o_db bob_out) (kill jane_key jane_id) i u /\ In k (u_apikeys u) /\ ak_id k = jane_id) /\
  o_res (exec toy (draws 101) OpLookupAPIKey (o_db killed) (o_fs killed) (show (secret jane_out))) <> OOk /\
  o_res (exec toy (draws 101) OpLookupAPIKey (o_db killed) (o_fs killed) (show (secret bob_out))) = OOk.
Proof.
  split; [exact bob_reachable|]. assert (H : o_res killed = OOk) by (vm_compute; reflexivity). split; [exact H|].
  split; [|split; vm_compute; (reflexivity || discriminate)].
  destruct (delete_key_result toy _ _ _ _ bob_reachable H) as (i & u & _ & Hi & _ & (k & Hk & Id) & _). exists i, u, k. auto.
Qed.

(** C27 *)
Theorem C27_prefixes_unique E fs db i j u v a b k l : reachable E fs db -> account db i u -> account db j v ->
  u_apikeys u !! a = Some k -> u_apikeys v !! b = Some l -> ak_prefix k = ak_prefix l -> i = j /\ a = b.
Proof. exact (prefixes_unique E fs db i j u v a b k l). Qed.
Print Assumptions C27_prefixes_unique.
Theorem C27_index_exact E fs db s i : reachable_by E (key_ids_fresh E) fs db ->
  ref_apikey db !! s = Some i <-> exists u k, account db i u /\ In k (u_apikeys u) /\ ak_prefix k = s.
Proof. exact (index_exact E fs db s i). Qed.
Print Assumptions C27_index_exact.
(** Without fresh IDs stored prefixes are still indexed, but an index entry can outlive its key. *)
Theorem C27_index_complete E fs db i u k : reachable E fs db -> account db i u -> In k (u_apikeys u) -> ref_apikey db !! ak_prefix k = Some i.
Proof. intros HR Hu Hk. apply inv_reachable in HR as HI. eapply Inv.inv_key; eauto. Qed.
Print Assumptions C27_index_complete.
Definition same_id (nd nd0 : Nd) : Nd := {|
  nd_clock := nd_clock nd; nd_uuid := nd_uuid nd; nd_id := nd_id nd0; nd_secret := nd_secret nd; nd_len := nd_len nd;
  nd_salt := nd_salt nd; nd_pick := nd_pick nd; nd_stat_err := nd_stat_err nd; nd_mkdir_err := nd_mkdir_err nd;
  nd_read_err := nd_read_err nd; nd_write := nd_write nd |}.
Definition twin_calls : list (Nd * Op * Request) :=
  (two_calls ++ [(draws 9, OpAddAPIKey, jane_key); (same_id (draws 99) (draws 9), OpAddAPIKey, jane_key);
                (draws 100, OpDeleteAPIKey, kill jane_key jane_id)])%list.
Theorem C27_index_exact_refuted : exists E fs db s i, reachable E fs db /\ ref_apikey db !! s = Some i /\
  ~ exists u k, account db i u /\ In k (u_apikeys u) /\ ak_prefix k = s.
Proof.
  pose (w := run toy start twin_calls). exists toy, w.1, w.2, (take 24 (secret jane_out)), 0%nat.
  split; [apply run_reachable; vm_compute; reflexivity|]. split; [vm_compute; reflexivity|].
  intros (u & k & Hu & Hk & _). assert (N : option_map u_apikeys (db_users w.2 !! 0%nat) = Some []) by (vm_compute; reflexivity).
  unfold account in Hu. rewrite Hu in N. injection N as N. rewrite N in Hk. destruct Hk.
Qed.
Print Assumptions C27_index_exact_refuted.
Lemma loaded_inj (a c : FS) (b d : Database) : (a, Loaded b) = (c, Loaded d) -> d = b.
Proof. intros H. injection H. auto. Qed.
Lemma up_inj (a b : Database) : Up a = Up b -> b = a.
Proof. intros H. injection H. auto. Qed.
Lemma no_account (db : Database) i u : db_users db = [] -> account db i u -> False.
Proof. unfold account. intros -> H. destruct i; discriminate. Qed.
Lemma no_key (db : Database) i u k : flat_map u_apikeys (db_users db) = [] -> account db i u -> In k (u_apikeys u) -> False.
Proof.
  intros N Hu Hk. assert (X : In k (flat_map u_apikeys (db_users db))).
  { apply in_flat_map. exists u. split; [|exact Hk]. apply elem_of_list_In. eapply elem_of_list_lookup_2. exact Hu. }
  rewrite N in X. destruct X.
Qed.
Example C27_ex : reachable_by toy (key_ids_fresh toy) (o_fs jane_out) (o_db jane_out) /\
  ref_apikey (o_db jane_out) !! take 24 (secret jane_out) = Some 0%nat.
Proof.
  split; [|vm_compute; reflexivity]. exists ∅.
  assert (S0 : steps toy (key_ids_fresh toy) {| w_fs := ∅; w_mem := Down |} (world start)).
  { eapply StCons with (ev := EvOpen (draws 0) "db.json"); [apply StNil| |].
    - intros fs db i u O Hu. change (w_fs {| w_fs := ∅; w_mem := Down |}) with (∅ : FS) in O. rewrite start_open in O. apply loaded_inj in O. rewrite O in Hu.
      exfalso. apply no_account in Hu; [exact Hu|]. vm_compute. reflexivity.
    - change (world start) with {| w_fs := start_fs; w_mem := after_load Down (Loaded start_db) |}. constructor; [exact start_open|discriminate]. }
  assert (S1 : steps toy (key_ids_fresh toy) {| w_fs := ∅; w_mem := Down |} (world two)).
  { apply (run_steps toy (key_ids_fresh toy) two_calls start); [|vm_compute; reflexivity|exact S0].
    intros w c [<-|[<-|[]]]; exact I. }
  apply (exec_steps toy (key_ids_fresh toy) (draws 9) OpAddAPIKey two.2 two.1 jane_key _ S1); [|split; rewrite jane_ok; discriminate].
  intros db i u k Eq Hu Hk. apply up_inj in Eq. rewrite Eq in Hu. exfalso. apply (no_key two.2 i u k); [vm_compute; reflexivity|exact Hu|exact Hk].
Qed.

(** C28 *)
Theorem C28_terminates E nd op db fs r : reachable_by E (key_ids_fresh E) fs db ->
  (op = OpAddAPIKey -> forall s i u k, drawn nd s -> account db i u -> In k (u_apikeys u) -> ~ prefix24 (ak_prefix k) s) ->
  o_res (exec E nd op db fs r) <> OHang.
Proof.
  intros HR N H. assert (op = OpAddAPIKey) as -> by (destruct op; try reflexivity; exfalso; revert H; apply only_add_key_hangs; discriminate).
  apply add_key_hang in H as (i & u & s & h & _ & D & _ & [j F]). apply (index_exact E fs db _ _ HR) in F as (v & k & Hv & Hk & P).
  eapply N; eauto. apply prefix24_iff; [|exact P]. destruct (drawn_spec nd) as (s' & D' & _ & L). unfold drawn in *. assert (s' = s) as -> by congruence. lia.
Qed.
Print Assumptions C28_terminates.
(** With the prefix in use the call never returns. *)
Theorem C28_hangs E nd db fs r i u s h j v k : reachable E fs db -> identity_of E db r i u ->
  drawn nd s -> e_bcrypt E (nd_salt nd) s 10 = Some h -> account db j v -> In k (u_apikeys v) -> prefix24 (ak_prefix k) s ->
  o_res (exec E nd OpAddAPIKey db fs r) = OHang.
Proof.
  intros HR Hi D B Hv Hk P. apply add_key_hang. exists i, u, s, h. split; [now apply (validate_iff _ fs)|]. split; [exact D|]. split; [exact B|].
  apply prefix24_iff in P. 2:{ destruct (drawn_spec nd) as (s' & D' & _ & L). unfold drawn in *. assert (s' = s) as -> by congruence. lia. }
  rewrite <- P. exists j. eapply C27_index_complete; eauto.
Qed.
Print Assumptions C28_hangs.
Theorem C28_always_returns_refuted : exists E nd fs db r, reachable E fs db /\ o_res (exec E nd OpAddAPIKey db fs r) = OHang.
Proof. exists toy, (draws 9), (o_fs jane_out), (o_db jane_out), bob_key. split; [exact jane_reachable|]. vm_compute. reflexivity. Qed.
Print Assumptions C28_always_returns_refuted.
Example C28_ex : exists i u k s h, reachable toy (o_fs jane_out) (o_db jane_out) /\ identity_of toy (o_db jane_out) bob_key i u /\
  drawn (draws 9) s /\ e_bcrypt toy (nd_salt (draws 9)) s 10 = Some h /\ prefix24 (ak_prefix k) s /\ exists j v, account (o_db jane_out) j v /\ In k (u_apikeys v).
Proof.
  destruct (identity_at toy _ _ bob_key 1%nat jane_reachable) as [u Hu]; [vm_compute; reflexivity|].
  destruct (add_key_result toy (draws 9) two.2 two.1 jane_key two_reachable jane_ok) as (j & v0 & v & s & k & _ & Hv & D & P & K & Ks & _).
  exists 1%nat, u, k, s, (ak_payload k). split; [exact jane_reachable|]. split; [exact Hu|]. split; [exact D|]. split; [apply (ik_hash _ _ _ _ _ K)|].
  split; [apply (ik_prefix _ _ _ _ _ K)|]. exists j, v. split; [exact Hv|]. rewrite Ks. apply in_app_iff. right. now left.
Qed.

(** C29: the secret is returned, only its prefix and hash are stored. *)
Theorem C29_secret_shape E nd db fs r : reachable E fs db ->
  let o := exec E nd OpAddAPIKey db fs r in o_res o = OOk ->
  exists i u u' s k, identity_of E db r i u /\ account (o_db o) i u' /\ drawn nd s /\ rq_payload (o_req o) = PStr s /\
    issued_key E nd r s k /\ u_apikeys u' = (u_apikeys u ++ [k])%list /\ same_identity u u'.
Proof. exact (add_key_result E nd db fs r). Qed.
Print Assumptions C29_secret_shape.
Example C29_ex : reachable toy two.1 two.2 /\ o_res jane_out = OOk /\ String.length (secret jane_out) = 75%nat.
Proof. split; [exact two_reachable|]. split; [exact jane_ok|]. vm_compute. reflexivity. Qed.
