(** Concurrent executions are linearizable. *)
From Coq Require Import String Ascii ZArith NArith Lia Bool Arith List.
From Coq Require Import ZifyBool ZifyNat ZifyN.
From stdpp Require Import gmap strings.
From RecordUpdate Require Import RecordSet.
From Verif Require Import GoStr Utf8 Codec GoErr Role Name Email Random SpecValue RoleFacts EmailFacts RandomFacts.
From Verif Require Import Types Env Password ApiKey PublicKey Mfa User Json GoTime Persist Fs Database System UserFacts DbFacts Inv LoadFacts.
From Verif Require Import SpecDb AccountFacts StepFacts SpecAuth ApiKeyFacts MfaFacts SpecPersist TwinFacts Conc SpecConc.
Import ListNotations.
Import RecordSetNotations.
Open Scope string_scope.
#[local] Opaque int64 new_id trim_space new_email new_role.

Lemma some_inj {A} (x y : A) : Some x = Some y -> x = y.
Proof. congruence. Qed.
(** ** Equality up to caches *)
Lemma near_refl d : near d d. Proof. split; reflexivity. Qed.
Lemma near_sym d d' : near d d' -> near d' d. Proof. intros []. split; congruence. Qed.
Lemma near_trans a b c : near a b -> near b c -> near a c. Proof. intros [] []. split; congruence. Qed.
Lemma twin_trans a b c : twin a b -> twin b c -> twin a c.
Proof. intros (N & A & _) (N' & _ & C). split; [eapply near_trans; eauto|auto]. Qed.
Lemma twin_sym a b : twin a b -> twin b a.
Proof. intros (N & A & B). split; [now apply near_sym|auto]. Qed.
Lemma near_same d d' : near d d' <-> same_data d d'.
Proof. split; intros []; split; assumption. Qed.

(** Accounts whose tokens differ only in caches. *)
Lemma near_intro d d' : c_version (db_content d) = c_version (db_content d') -> c_policy (db_content d) = c_policy (db_content d') ->
  c_revision (db_content d) = c_revision (db_content d') -> c_modified (db_content d) = c_modified (db_content d') ->
  map no_cache (db_users d) = map no_cache (db_users d') ->
  ref_username d = ref_username d' -> ref_email d = ref_email d' -> ref_id d = ref_id d' -> ref_apikey d = ref_apikey d' -> db_path d = db_path d' -> near d d'.
Proof.
  intros A B C D U F G H I J. split; try assumption. destruct d as [[v p r m us]], d' as [[v' p' r' m' us']]. cbn in *. subst.
  exact (f_equal (Build_Content _ _ _ _) U).
Qed.
Lemma map_at {A B} (f : A -> B) l k : (forall n, option_map f (l !! n) = option_map f (k !! n)) -> map f l = map f k.
Proof.
  intros H. apply list_eq. intros n. rewrite !list_lookup_fmap. specialize (H n). destruct (l !! n), (k !! n); cbn in *; congruence.
Qed.
Lemma at_map {A B} (f : A -> B) l k n : map f l = map f k -> option_map f (l !! n) = option_map f (k !! n).
Proof. intros H. apply (f_equal (fun x => x !! n)) in H. rewrite !list_lookup_fmap in H. destruct (l !! n), (k !! n); cbn in *; congruence. Qed.
Lemma no_cache_at u v : no_cache u = no_cache v <->
  set u_mfa (fun _ => []) u = set u_mfa (fun _ => []) v /\ (forall j, option_map (set t_cache (fun _ => None)) (u_mfa u !! j) = option_map (set t_cache (fun _ => None)) (u_mfa v !! j)).
Proof.
  split.
  - intros H. split.
    + exact (f_equal (fun w => with_mfa w []) H).
    + intros j. apply at_map. exact (f_equal u_mfa H).
  - intros [A B]. apply map_at in B. transitivity (with_mfa (with_mfa u []) (map (set t_cache (fun _ => None)) (u_mfa u))); [reflexivity|].
    transitivity (with_mfa (with_mfa v []) (map (set t_cache (fun _ => None)) (u_mfa v))); [|reflexivity].
    exact (f_equal2 with_mfa A B).
Qed.
Lemma near_user d d' n : near d d' -> option_map no_cache (db_users d !! n) = option_map no_cache (db_users d' !! n).
Proof. intros N. apply at_map. exact (tw_users _ _ N). Qed.
Lemma near_bare d d' n : near d d' -> option_map (set u_mfa (fun _ => [])) (user_at d n) = option_map (set u_mfa (fun _ => [])) (user_at d' n).
Proof.
  intros N. pose proof (near_user _ _ n N) as H. unfold user_at. destruct (db_users d !! n) as [u|], (db_users d' !! n) as [v|]; try discriminate; [|reflexivity].
  cbn in H. apply some_inj in H. apply no_cache_at in H as [H _]. exact (f_equal Some H).
Qed.
Lemma near_token d d' n j : near d d' -> option_map (set t_cache (fun _ => None)) (token_at d n j) = option_map (set t_cache (fun _ => None)) (token_at d' n j).
Proof.
  intros N. pose proof (near_user _ _ n N) as H. unfold token_at. destruct (db_users d !! n) as [u|], (db_users d' !! n) as [v|]; try discriminate; [|reflexivity].
  cbn in H. apply some_inj in H. apply no_cache_at in H as [_ H]. apply H.
Qed.
Lemma caches_token d : caches d <-> forall n j t, token_at d n j = Some t -> cache_ok t.
Proof.
  unfold caches, token_at, account. split.
  - intros C n j t H. destruct (db_users d !! n) as [u|] eqn:U; [|discriminate]. specialize (C _ _ U). rewrite List.Forall_forall in C. apply C. apply elem_of_list_In, elem_of_list_lookup. eauto.
  - intros C i u U. apply List.Forall_forall. intros t Ht. apply elem_of_list_In, elem_of_list_lookup in Ht as [j Hj]. apply (C i j). now rewrite U.
Qed.
Lemma cache_params t t' : set t_cache (fun _ => None) t = set t_cache (fun _ => None) t' -> t_params t = t_params t'.
Proof. intros H. exact (f_equal t_params H). Qed.
Lemma blend_twin l d0 d : (forall x, In x l -> twin d0 x) -> blend l d -> twin d0 d.
Proof.
  intros T B.
  assert (G : forall A (f : Database -> A), (forall x, near d0 x -> f d0 = f x) -> from l f d -> f d0 = f d).
  { intros A f K (x & Hx & Ex). rewrite Ex. apply K. apply (T x Hx). }
  assert (N : near d0 d).
  { pose proof B as B'. destruct B'. apply near_intro.
    - apply (G _ (fun d => c_version (db_content d))); [|assumption]. intros x N. exact (f_equal c_version (tw_content _ _ N)).
    - apply (G _ (fun d => c_policy (db_content d))); [|assumption]. intros x N. exact (f_equal c_policy (tw_content _ _ N)).
    - apply (G _ (fun d => c_revision (db_content d))); [|assumption]. intros x N. exact (f_equal c_revision (tw_content _ _ N)).
    - apply (G _ (fun d => c_modified (db_content d))); [|assumption]. intros x N. exact (f_equal c_modified (tw_content _ _ N)).
    - apply map_at. intros n.
      pose proof (G _ (fun d => option_map (set u_mfa (fun _ => [])) (user_at d n)) (fun x N => near_bare _ _ n N) (bl_user n)) as GU. cbn beta in GU.
      unfold user_at in GU. destruct (db_users d0 !! n) as [u|] eqn:U, (db_users d !! n) as [v|] eqn:V; try discriminate; [|reflexivity]. cbn in *. apply some_inj in GU. f_equal.
      apply no_cache_at. split; [exact GU|]. intros j.
      pose proof (G _ (fun d => option_map (set t_cache (fun _ => None)) (token_at d n j)) (fun x N => near_token _ _ n j N) (bl_token n j)) as GT.
      cbn beta in GT. unfold token_at in GT. rewrite U, V in GT. exact GT.
    - apply (G _ ref_username); [|assumption]. intros x N. apply (tw_name _ _ N).
    - apply (G _ ref_email); [|assumption]. intros x N. apply (tw_email _ _ N).
    - apply (G _ ref_id); [|assumption]. intros x N. apply (tw_id _ _ N).
    - apply (G _ ref_apikey); [|assumption]. intros x N. apply (tw_key _ _ N).
    - apply (G _ db_path); [|assumption]. intros x N. apply (tw_path _ _ N). }
  split; [exact N|]. split.
  - destruct (bl_path _ _ B) as (x & Hx & _). apply (T x Hx).
  - apply caches_token. intros n j t Ht k Hk. destruct (bl_cache _ _ B n j) as (x & Hx & Ex). rewrite Ht in Ex. cbn in Ex.
    destruct (token_at x n j) as [s|] eqn:S; [|discriminate]. cbn in Ex. apply some_inj in Ex. destruct (T x Hx) as (N' & _ & C). apply caches_token with (n := n) (j := j) (t := s) in C; [|exact S].
    assert (near d x) as ND by (eapply near_trans; [apply near_sym; exact N|exact N']). apply near_token with (n := n) (j := j) in ND. rewrite Ht, S in ND. cbn in ND. apply some_inj in ND.
    rewrite (cache_params _ _ ND). apply C. congruence.
Qed.
(** ** Calls that share the lock *)
Lemma shared_reads E nd op db fs r : lock_mode op = Shared -> o_fs (exec E nd op db fs r) = fs /\ near db (o_db (exec E nd op db fs r)) /\ o_res (exec E nd op db fs r) <> OCrash.
Proof.
  intros M. destruct (exec_shape E nd op db fs r) as [Fs R Cr _|db1 res Eff C Oc].
  2:{ apply effect_commits in Eff. destruct op; discriminate. }
  split; [exact Fs|]. split; [|exact Cr]. destruct R as [op|i u u' res G P V]; [apply near_refl|].
  pose proof (verify_webauthn_uncache E u r) as Hs. rewrite V in Hs. cbn in Hs.
  apply near_intro; try reflexivity. rewrite set_user_users. change (map no_cache (db_users db) = no_cache <$> <[i := u']> (db_users db)). rewrite list_fmap_insert.
  assert (no_cache u' = no_cache u) as ->.
  { destruct Hs as (m & -> & F2). destruct u. cbn in *. unfold no_cache. unfold set. cbn. f_equal. clear - F2. induction F2 as [|x y l k [H _] _ IH]; [reflexivity|]. cbn [map]. rewrite IH. f_equal. now symmetry. }
  symmetry. apply list_insert_id. rewrite list_lookup_fmap. assert (db_users db !! i = Some u) as ->; [|reflexivity].
  unfold get_user, by_email, by_username, at_ref in G. destruct contains; destruct Z.ltb; try discriminate; destruct lookup as [j|]; try discriminate; destruct (db_users db !! j) eqn:X; try discriminate; injection G as -> ->; exact X.
Qed.
Lemma shared_twin E nd op db fs r : lock_mode op = Shared -> caches db -> twin db (o_db (exec E nd op db fs r)).
Proof. intros M C. split; [apply shared_reads; exact M|]. split; [exact C|]. now apply exec_caches. Qed.

Lemma set_cache_token db n j key a b : token_at (set_cache db n j key) a b =
  if decide (a = n /\ b = j) then option_map (fun t => t <| t_cache := Some key |>) (token_at db a b) else token_at db a b.
Proof.
  unfold set_cache, token_at. destruct (db_users db !! n) as [u|] eqn:U.
  2:{ destruct decide as [[-> ->]|]; [|reflexivity]. now rewrite U. }
  rewrite set_user_users. destruct (decide (a = n)) as [->|Na].
  - rewrite list_lookup_insert by (eapply lookup_lt_Some; eauto). rewrite U. cbn. destruct (decide (b = j)) as [->|Nb].
    + rewrite decide_True by auto. apply list_lookup_alter.
    + rewrite decide_False by tauto. apply list_lookup_alter_ne; congruence.
  - rewrite decide_False by tauto. rewrite list_lookup_insert_ne by congruence; reflexivity.
Qed.
Lemma set_cache_near db n j key : near db (set_cache db n j key).
Proof.
  unfold set_cache. destruct (db_users db !! n) as [u|] eqn:U; [|apply near_refl]. apply near_intro; try reflexivity.
  rewrite set_user_users. apply map_at. intros a. destruct (decide (a = n)) as [->|Na]; [|rewrite list_lookup_insert_ne by congruence; reflexivity].
  rewrite U, list_lookup_insert by (eapply lookup_lt_Some; eauto). cbn. f_equal. apply no_cache_at. split; [reflexivity|].
  intros b. cbn. destruct (decide (b = j)) as [->|Nb]; [|rewrite list_lookup_alter_ne by congruence; reflexivity]. rewrite list_lookup_alter. now destruct (u_mfa u !! j).
Qed.
Lemma fill_twin E k i n j key x : fills E k i n j key -> (forall c l y, k_threads k !! i = Some (Reading c l) -> In y l -> twin x y) -> twin x (k_db k) ->
  twin x (set_cache (k_db k) n j key).
Proof.
  intros (c & l & d & t & Hi & Op & B & Ht & Hk & _) R T. apply blend_twin with (d0 := x) in B; [|eauto].
  eapply twin_trans; [exact T|]. split; [apply set_cache_near|]. destruct T as (N & _ & C). split; [exact C|].
  apply caches_token. intros a b s. rewrite set_cache_token. destruct decide as [[-> ->]|]; [|intros; eapply caches_token; eauto].
  destruct (token_at (k_db k) n j) as [t0|] eqn:T0; [|discriminate]. cbn. intros [= <-] k0 [= <-]. cbn.
  assert (TW : twin d (o_db (call_exec E c d (k_fs k)))). { apply shared_twin; [now rewrite Op|apply B]. }
  assert (NN : near (k_db k) (o_db (call_exec E c d (k_fs k)))). { eapply near_trans; [apply near_sym; exact N|]. eapply near_trans; [apply B|apply TW]. }
  apply near_token with (n := n) (j := j) in NN. rewrite T0, Ht in NN. cbn in NN. apply some_inj in NN. rewrite (cache_params _ _ NN).
  destruct TW as (_ & _ & CC). apply (proj1 (caches_token _) CC n j t Ht). exact Hk.
Qed.

(** ** Serial executions *)
Lemma serial_app E l e db fs : serial E (l ++ [e])%list db fs <-> serial E l db fs /\ serial E [e] (final E l db fs).1 (final E l db fs).2.
Proof.
  revert db fs. induction l as [|e' l IH]; intros db fs; [cbn; tauto|]. split.
  - intros (A & B & [C D]%IH). split; [exact (conj A (conj B C))|exact D].
  - intros [(A & B & C) D]. split; [exact A|]. split; [exact B|]. apply IH. split; [exact C|exact D].
Qed.
Lemma final_app E l e db fs : final E (l ++ [e])%list db fs = (let q := final E l db fs in let o := call_exec E (g_call e) q.1 q.2 in (o_db o, o_fs o)).
Proof. revert db fs. induction l as [|e' l IH]; intros db fs; cbn [app final]; [reflexivity|]. cbn zeta. now rewrite IH. Qed.

(** ** The invariant *)
Record cinv (E : Env) (db0 : Database) (fs0 : FS) (k : Conf) : Prop := {
  ci_serial : serial E (k_log k) db0 fs0;
  ci_caches : caches (final E (k_log k) db0 fs0).1;
  ci_excl : forall i t j t', k_threads k !! i = Some t -> k_threads k !! j = Some t' -> holds Exclusive t -> j <> i -> ~ holds Exclusive t' /\ ~ holds Shared t';
  ci_wmode : forall i c d f, k_threads k !! i = Some (Writing c d f) -> lock_mode (l_op c) = Exclusive;
  ci_rmode : forall i c l, k_threads k !! i = Some (Reading c l) -> lock_mode (l_op c) = Shared;
  ci_writer : forall i c d f, k_threads k !! i = Some (Writing c d f) -> twin (final E (k_log k) db0 fs0).1 d /\ (final E (k_log k) db0 fs0).2 = f;
  ci_reader : forall i c l, k_threads k !! i = Some (Reading c l) -> l <> [] /\ forall x, In x l -> twin (final E (k_log k) db0 fs0).1 x;
  ci_rest : nobody_writes k -> twin (final E (k_log k) db0 fs0).1 (k_db k) /\ (final E (k_log k) db0 fs0).2 = k_fs k;
  ci_entry : forall e, In e (k_log k) -> k_threads k !! g_id e = Some (Leaving (g_call e) (g_res e) (g_req e)) \/ k_threads k !! g_id e = Some (Returned (g_call e) (g_res e) (g_req e));
  ci_done : forall i c res req, k_threads k !! i = Some (Leaving c res req) \/ k_threads k !! i = Some (Returned c res req) -> In {| g_id := i; g_call := c; g_res := res; g_req := req |} (k_log k);
  ci_nodup : List.NoDup (map g_id (k_log k)) }.

Lemma reader_alone E db0 fs0 k i t : cinv E db0 fs0 k -> k_threads k !! i = Some t -> holds Shared t -> nobody_writes k.
Proof.
  intros CI Hi Hs j c d f Hj. assert (X : holds Exclusive (Writing c d f)) by (cbn; eapply ci_wmode; eauto).
  destruct (decide (i = j)) as [->|Ne].
  - rewrite Hi in Hj. injection Hj as ->. cbn in *. congruence.
  - destruct (ci_excl _ _ _ _ CI _ _ _ _ Hj Hi X Ne). tauto.
Qed.
Lemma free_nobody E db0 fs0 k m : cinv E db0 fs0 k -> free_for m k -> nobody_writes k.
Proof. intros CI F j c d f Hj. destruct (F _ _ Hj) as [N _]. apply N. cbn. eapply ci_wmode; eauto. Qed.
Lemma nobody_insert k i t db fs log : (forall c d f, t <> Writing c d f) ->
  nobody_writes k -> nobody_writes {| k_db := db; k_fs := fs; k_threads := <[i := t]> (k_threads k); k_log := log |}.
Proof. intros Nt N j c d f. cbn. intros [[<- ->]|[Ne H]]%lookup_insert_Some; [eapply Nt; reflexivity|eapply N; eauto]. Qed.
Lemma nobody_inserted k i t db fs log : (forall c d f, k_threads k !! i <> Some (Writing c d f)) ->
  nobody_writes {| k_db := db; k_fs := fs; k_threads := <[i := t]> (k_threads k); k_log := log |} -> nobody_writes k.
Proof. intros Nt N j c d f Hj. destruct (decide (i = j)) as [->|Ne]; [eapply Nt; eauto|]. apply (N j c d f). cbn. now rewrite lookup_insert_ne. Qed.
Lemma init_cinv E fs db : caches db -> cinv E db fs (init fs db).
Proof.
  intros C. split; cbn; try (intros; rewrite lookup_empty in *; discriminate); auto.
  - split; [split; [apply near_refl|auto]|reflexivity].
  - intros e [].
  - intros ? ? ? ? [H|H]; rewrite lookup_empty in H; discriminate.
  - constructor.
Qed.
Ltac lk := repeat match goal with H : <[_ := _]> _ !! _ = Some _ |- _ => apply lookup_insert_Some in H as [[<- Eq]|[? H]]; [first [discriminate Eq|match type of Eq with ?a = ?x => first [subst x|subst a] end]|] end.
Lemma done_twin E c x d f : twin x d -> let o := call_exec E c d f in let q := call_exec E c x f in
  o_res q = o_res o /\ seen (o_req q) = seen (o_req o) /\ o_fs q = o_fs o /\ twin (o_db q) (o_db o).
Proof. intros T. exact (exec_twin E (l_nd c) (l_op c) x d f (l_req c) T). Qed.
(** A call holding the lock fixes its result. *)
Lemma cinv_done E db0 fs0 k i t c d db : cinv E db0 fs0 k -> k_threads k !! i = Some t ->
  (forall res req, t <> Leaving c res req /\ t <> Returned c res req) -> call_of t = c -> holds (lock_mode (l_op c)) t ->
  twin (final E (k_log k) db0 fs0).1 d ->
  let o := call_exec E c d (final E (k_log k) db0 fs0).2 in
  twin (o_db o) db ->
  (lock_mode (l_op c) = Shared -> forall x, twin (final E (k_log k) db0 fs0).1 x -> twin (o_db o) x) ->
  cinv E db0 fs0 {| k_db := db; k_fs := o_fs o; k_threads := <[i := Leaving c (o_res o) (o_req o)]> (k_threads k); k_log := logged k i c o |}.
Proof.
  intros CI Hi Nt Ct Ho T o Tdb Sh.
  assert (Fresh : forall e, In e (k_log k) -> g_id e <> i).
  { intros e He Eq. destruct (ci_entry _ _ _ _ CI e He) as [H|H]; rewrite Eq, Hi in H; injection H as ->; cbn in Ct; subst c; destruct (Nt (g_res e) (g_req e)); congruence. }
  pose proof (done_twin E c _ _ (final E (k_log k) db0 fs0).2 T) as (R1 & R2 & R3 & R4). fold o in R1, R2, R3, R4.
  assert (Ex : lock_mode (l_op c) = Exclusive -> forall j t', k_threads k !! j = Some t' -> j <> i -> ~ holds Exclusive t' /\ ~ holds Shared t').
  { intros M j t' Hj Ne. rewrite M in Ho. exact (ci_excl _ _ _ _ CI _ _ _ _ Hi Hj Ho Ne). }
  split; cbn.
  - unfold logged. apply serial_app. split; [apply CI|]. cbn. auto.
  - unfold logged. rewrite final_app. cbn. apply R4.
  - intros a s b s' Ha Hb Hs Ne. lk.
    + congruence.
    + cbn. destruct (lock_mode (l_op c)) eqn:M; [|].
      * exfalso. destruct (ci_excl _ _ _ _ CI _ _ _ _ Ha Hi Hs); [congruence|tauto].
      * exfalso. destruct (ci_excl _ _ _ _ CI _ _ _ _ Ha Hi Hs); [congruence|tauto].
    + cbn in Hs. apply (Ex Hs _ _ Hb). congruence.
    + eapply (ci_excl _ _ _ _ CI a s); eauto.
  - intros a c' d' f' Ha. lk; try discriminate. eapply (ci_wmode _ _ _ _ CI); eauto.
  - intros a c' l' Ha. lk; try discriminate. eapply (ci_rmode _ _ _ _ CI); eauto.
  - intros a c' d' f' Ha. lk; try discriminate. exfalso. assert (X : holds Exclusive (Writing c' d' f')) by (cbn; eapply (ci_wmode _ _ _ _ CI); eauto).
    destruct (ci_excl _ _ _ _ CI _ _ _ _ Ha Hi X); [congruence|]. destruct (lock_mode (l_op c)); tauto.
  - intros a c' l' Ha. lk; try discriminate. unfold logged. rewrite final_app. cbn.
    destruct (ci_reader _ _ _ _ CI _ _ _ Ha) as [Nl Hl]. split; [exact Nl|]. intros x Hx. apply Hl in Hx.
    destruct (lock_mode (l_op c)) eqn:M.
    + eapply twin_trans; [exact R4|]. now apply Sh.
    + exfalso. destruct (Ex eq_refl _ _ Ha) as [_ N]; [congruence|]. apply N. cbn. eapply (ci_rmode _ _ _ _ CI); eauto.
  - intros _. unfold logged. rewrite final_app. cbn. split; [|exact R3]. eapply twin_trans; [exact R4|exact Tdb].
  - intros e [He|[<-|[]]]%in_app_iff; cbn.
    + rewrite lookup_insert_ne by (intros Eq; exact (Fresh e He (eq_sym Eq))). now apply (ci_entry _ _ _ _ CI).
    + rewrite lookup_insert. auto.
  - intros a c' res req H. unfold logged. apply in_app_iff. destruct (decide (i = a)) as [<-|Ne].
    + rewrite lookup_insert in H. right. left. destruct H as [H|H]; [|discriminate]. injection H as <- <- <-. reflexivity.
    + rewrite lookup_insert_ne in H by exact Ne. left. now apply (ci_done _ _ _ _ CI).
  - unfold logged. rewrite map_app. cbn. apply NoDup_ListNoDup, NoDup_app. split; [apply NoDup_ListNoDup, CI|]. split; [|apply NoDup_singleton].
    intros x Hx%elem_of_list_In Hx'%elem_of_list_singleton. apply in_map_iff in Hx as (e & <- & He). exact (Fresh e He Hx').
Qed.
(** A thread moves on without touching memory. *)
Lemma cinv_thread E db0 fs0 k i t : cinv E db0 fs0 k ->
  (forall c d f, k_threads k !! i <> Some (Writing c d f)) ->
  (holds Exclusive t -> forall j t', k_threads k !! j = Some t' -> j <> i -> ~ holds Exclusive t' /\ ~ holds Shared t') ->
  (holds Shared t -> forall j t', k_threads k !! j = Some t' -> j <> i -> ~ holds Exclusive t') ->
  (forall c d f, t = Writing c d f -> lock_mode (l_op c) = Exclusive /\ twin (final E (k_log k) db0 fs0).1 d /\ (final E (k_log k) db0 fs0).2 = f) ->
  (forall c l, t = Reading c l -> lock_mode (l_op c) = Shared /\ l <> [] /\ forall x, In x l -> twin (final E (k_log k) db0 fs0).1 x) ->
  (forall c res req, k_threads k !! i = Some (Leaving c res req) \/ k_threads k !! i = Some (Returned c res req) -> t = Leaving c res req \/ t = Returned c res req) ->
  (forall c res req, t = Leaving c res req \/ t = Returned c res req -> k_threads k !! i = Some (Leaving c res req) \/ k_threads k !! i = Some (Returned c res req)) ->
  cinv E db0 fs0 {| k_db := k_db k; k_fs := k_fs k; k_threads := <[i := t]> (k_threads k); k_log := k_log k |}.
Proof.
  intros CI Nw Hx Hs Wr Rd Dn Up. split; cbn; try apply CI.
  - intros a s b s' Ha Hb Ho Ne. lk.
    + congruence.
    + split; intros H0.
      * destruct (Hx H0 _ _ Ha); [congruence|tauto].
      * apply (Hs H0 _ _ Ha); [congruence|exact Ho].
    + apply (Hx Ho _ _ Hb). congruence.
    + eapply (ci_excl _ _ _ _ CI a s); eauto.
  - intros a c d f Ha. lk; [now apply (Wr c d f)|eapply (ci_wmode _ _ _ _ CI); eauto].
  - intros a c l Ha. lk; [now apply (Rd c l)|eapply (ci_rmode _ _ _ _ CI); eauto].
  - intros a c d f Ha. lk; [now apply (Wr c d f)|eapply (ci_writer _ _ _ _ CI); eauto].
  - intros a c l Ha. lk; [now apply (Rd c l)|eapply (ci_reader _ _ _ _ CI); eauto].
  - intros N. apply (ci_rest _ _ _ _ CI). now apply nobody_inserted in N.
  - intros e He. apply (ci_entry _ _ _ _ CI) in He. destruct (decide (i = g_id e)) as [Eq|Ne]; [|now rewrite lookup_insert_ne].
    rewrite <- Eq in *. rewrite lookup_insert. apply Dn in He as [-> | ->]; auto.
  - intros a c res req H. apply (ci_done _ _ _ _ CI). destruct (decide (i = a)) as [<-|Ne]; [|now rewrite lookup_insert_ne in H].
    rewrite lookup_insert in H. apply Up. destruct H as [[= ->]|[= ->]]; auto.
Qed.
Lemma cstep_cinv E db0 fs0 k k' : cinv E db0 fs0 k -> cstep E k k' -> cinv E db0 fs0 k'.
Proof.
  intros CI St. destruct St as [i c Hi|i c Hi M F|i c Hi M F|i c d0 f0 db fs Hi|i c d0 f0 Hi NH NC|i c l Hi|i n j key Fi|i c l d Hi B|i c res req Hi].
  - apply cinv_thread; try assumption; try (intros; cbn in *; congruence || tauto).
    + intros c' res req [H|H]; congruence.
    + intros c' res req [H|H]; discriminate.
  - pose proof (ci_rest _ _ _ _ CI (free_nobody _ _ _ _ _ CI F)) as [T Fe]. apply cinv_thread; try assumption.
    + intros; congruence.
    + intros _ j t Hj _. destruct (F _ _ Hj) as [A B]. auto.
    + intros _ j t Hj _. apply (F _ _ Hj).
    + intros c' d f [= <- <- <-]. auto.
    + intros; discriminate.
    + intros c' res req [H|H]; congruence.
    + intros c' res req [H|H]; discriminate.
  - pose proof (ci_rest _ _ _ _ CI (free_nobody _ _ _ _ _ CI F)) as [T Fe]. apply cinv_thread; try assumption.
    + intros; congruence.
    + cbn. congruence.
    + intros _ j t Hj _. apply (F _ _ Hj).
    + intros; discriminate.
    + intros c' l [= <- <-]. split; [exact M|]. split; [discriminate|]. intros x [<-|[]]. exact T.
    + intros c' res req [H|H]; congruence.
    + intros c' res req [H|H]; discriminate.
  - split; cbn; try apply CI. intros N. destruct (N i c d0 f0 Hi).
  - destruct (ci_writer _ _ _ _ CI _ _ _ _ Hi) as [T <-]. pose proof (ci_wmode _ _ _ _ CI _ _ _ _ Hi) as M.
    refine (cinv_done E db0 fs0 k i _ c d0 _ CI Hi _ eq_refl _ T _ _).
    + intros; split; discriminate.
    + exact M || (cbn; reflexivity).
    + assert (C : caches (o_db (call_exec E c d0 (final E (k_log k) db0 fs0).2))) by (apply exec_caches; apply T). split; [apply near_refl|auto].
    + rewrite M. discriminate.
  - pose proof (ci_rmode _ _ _ _ CI _ _ _ Hi) as M. pose proof (reader_alone _ _ _ _ _ _ CI Hi M) as N.
    destruct (ci_reader _ _ _ _ CI _ _ _ Hi) as [_ Hl]. destruct (ci_rest _ _ _ _ CI N) as [T _]. apply cinv_thread; try assumption.
    + intros; congruence.
    + cbn. congruence.
    + intros _ j t Hj Ne X. destruct (ci_excl _ _ _ _ CI _ _ _ _ Hj Hi X); [congruence|tauto].
    + intros; discriminate.
    + intros c' l' [= <- <-]. split; [exact M|]. split; [discriminate|]. intros x [<-|Hx]; auto.
    + intros c' res req [H|H]; congruence.
    + intros c' res req [H|H]; discriminate.
  - assert (N : nobody_writes k). { destruct Fi as (c & l & _ & _ & Hi & _). eapply reader_alone; [exact CI|exact Hi|]. exact (ci_rmode _ _ _ _ CI _ _ _ Hi). }
    destruct (ci_rest _ _ _ _ CI N) as [T Fe]. split; cbn; try apply CI. intros _. split; [|exact Fe]. eapply fill_twin; [exact Fi| |exact T].
    intros c l y Hi Hy. apply (ci_reader _ _ _ _ CI _ _ _ Hi). exact Hy.
  - pose proof (ci_rmode _ _ _ _ CI _ _ _ Hi) as M. pose proof (reader_alone _ _ _ _ _ _ CI Hi M) as N.
    destruct (ci_reader _ _ _ _ CI _ _ _ Hi) as [_ Hl]. destruct (ci_rest _ _ _ _ CI N) as [T Fe].
    apply blend_twin with (d0 := (final E (k_log k) db0 fs0).1) in B; [|exact Hl].
    pose proof (shared_twin E (l_nd c) (l_op c) d (k_fs k) (l_req c) M (proj2 (proj2 B))) as TT.
    assert (X : forall x, twin (final E (k_log k) db0 fs0).1 x -> twin (o_db (call_exec E c d (k_fs k))) x).
    { intros x Tx. eapply twin_trans; [apply twin_sym; exact TT|]. eapply twin_trans; [apply twin_sym; exact B|exact Tx]. }
    destruct (shared_reads E (l_nd c) (l_op c) d (k_fs k) (l_req c) M) as (Fs & _).
    assert (G : cinv E db0 fs0 {| k_db := k_db k; k_fs := o_fs (call_exec E c d (k_fs k)); k_threads := <[i := Leaving c (o_res (call_exec E c d (k_fs k))) (o_req (call_exec E c d (k_fs k)))]> (k_threads k); k_log := logged k i c (call_exec E c d (k_fs k)) |}).
    { rewrite <- Fe. rewrite <- Fe in X. refine (cinv_done E db0 fs0 k i _ c d (k_db k) CI Hi _ eq_refl _ B _ _).
      - intros; split; discriminate.
      - cbn. reflexivity.
      - now apply X.
      - intros _. exact X. }
    unfold call_exec at 1 in G. rewrite Fs in G. exact G.
  - apply cinv_thread; try assumption; try (intros; cbn in *; congruence || tauto).
    + intros c' res' req' [H|H]; rewrite Hi in H; [injection H as <- <- <-; auto|discriminate].
    + intros c' res' req' [H|H]; [discriminate|]. injection H as <- <- <-. auto.
Qed.
Lemma csteps_cinv E db0 fs0 k k' : cinv E db0 fs0 k -> csteps E k k' -> cinv E db0 fs0 k'.
Proof. intros CI St. induction St as [k|k1 k2 k3 S1 IH S2]; [exact CI|]. eapply cstep_cinv; [exact (IH CI)|exact S2]. Qed.
Lemma csteps_trans E a b c : csteps E a b -> csteps E b c -> csteps E a c.
Proof. intros H K. induction K as [k|k1 k2 k3 S1 IH S2]; [exact H|]. exact (CCons _ _ _ _ (IH H) S2). Qed.
Lemma run_cinv E fs db k : caches db -> csteps E (init fs db) k -> cinv E db fs k.
Proof. intros C St. eapply csteps_cinv; eauto. now apply init_cinv. Qed.

(** ** Order *)
Lemma cstep_log E k k' : cstep E k k' -> exists l, k_log k' = (k_log k ++ l)%list.
Proof. intros []; cbn; try (exists []; now rewrite app_nil_r); unfold logged; eauto. Qed.
Lemma csteps_log E k k' : csteps E k k' -> exists l, k_log k' = (k_log k ++ l)%list.
Proof.
  intros S. induction S as [k|k1 k2 k3 S1 [l IH] S2]; [exists []; now rewrite app_nil_r|].
  apply cstep_log in S2 as [l' ->]. rewrite IH. exists (l ++ l')%list. now rewrite app_assoc.
Qed.
(** A thread past taking the lock. *)
Definition inside (t : Thread) : Prop := match t with Waiting _ => False | _ => True end.
Lemma cstep_thread E k k' i t : cstep E k k' -> k_threads k !! i = Some t ->
  exists t', k_threads k' !! i = Some t' /\ call_of t' = call_of t /\ (inside t -> inside t') /\
    (forall c res req, t = Returned c res req -> t' = t) /\
    (t' = t \/ (forall c res req, t = Leaving c res req -> t' = Returned c res req)).
Proof.
  intros St Hi. destruct St; cbn;
    try (exists t; split; [exact Hi|]; split; [reflexivity|]; split; [tauto|]; split; auto; fail);
    match goal with |- context [<[?j := ?s]> _ !! _] => destruct (decide (j = i)) as [<-|Ne];
      [rewrite lookup_insert; exists s; split; [reflexivity|]|rewrite lookup_insert_ne by exact Ne; exists t; split; [exact Hi|]; split; [reflexivity|]; split; [tauto|]; split; auto] end;
    match goal with H : k_threads k !! ?j = _ |- _ => rewrite Hi in H; first [discriminate H|injection H as ->] end; cbn;
    (split; [reflexivity|]; split; [tauto|]; split; [discriminate|right; intros ? ? ? [= <- <- <-] || intros ? ? ? X; try discriminate X; try reflexivity]).
Qed.
Lemma csteps_thread E k k' i t : csteps E k k' -> k_threads k !! i = Some t ->
  exists t', k_threads k' !! i = Some t' /\ call_of t' = call_of t /\ (inside t -> inside t') /\ (forall c res req, t = Returned c res req -> t' = t).
Proof.
  intros S. revert t. induction S as [k|k1 k2 k3 S1 IH S2]; intros t Hi; [exists t; auto|].
  destruct (IH t Hi) as (t2 & H2 & C2 & I2 & R2). destruct (cstep_thread _ _ _ _ _ S2 H2) as (t3 & H3 & C3 & I3 & R3 & _).
  exists t3. split; [exact H3|]. split; [congruence|]. split; [tauto|]. intros c res req ->. rewrite (R2 _ _ _ eq_refl) in R3. eapply R3; reflexivity.
Qed.
Lemma cstep_kept E k k' : cstep E k k' -> nobody_writes k -> k_fs k' = k_fs k /\ near (k_db k) (k_db k').
Proof.
  intros St N. destruct St; cbn; try (split; [reflexivity|apply near_refl]); try (exfalso; eapply N; eauto; fail).
  split; [reflexivity|apply set_cache_near].
Qed.
Lemma order E fs db k1 k2 i j c res req : caches db -> csteps E (init fs db) k1 -> csteps E k1 k2 ->
  k_threads k1 !! i = Some (Returned c res req) -> k_threads k1 !! j = None ->
  exists a b, k_log k2 = (a ++ {| g_id := i; g_call := c; g_res := res; g_req := req |} :: b)%list /\ forall e, In e a -> g_id e <> j /\ g_id e <> i.
Proof.
  intros C S1 S2 Hi Hj. pose proof (run_cinv _ _ _ _ C S1) as CI. destruct (csteps_log _ _ _ S2) as [l L].
  pose proof (ci_done _ _ _ _ CI i c res req (or_intror Hi)) as In1. apply in_split in In1 as (a & b & Ea).
  exists a, (b ++ l)%list. split; [rewrite L, Ea, <- app_assoc; reflexivity|]. intros e He. split.
  - intros Eq. assert (In e (k_log k1)) as K by (rewrite Ea; apply in_app_iff; auto). apply (ci_entry _ _ _ _ CI) in K as [K|K]; rewrite Eq, Hj in K; discriminate.
  - intros Eq. pose proof (ci_nodup _ _ _ _ CI) as ND. rewrite Ea, map_app in ND. cbn in ND. apply List.NoDup_remove_2 in ND. apply ND.
    apply in_app_iff. left. rewrite <- Eq. now apply in_map.
Qed.
Lemma reader_kept E fs db k1 k2 i t1 t2 : caches db -> csteps E (init fs db) k1 -> csteps E k1 k2 ->
  k_threads k1 !! i = Some t1 -> holds Shared t1 -> k_threads k2 !! i = Some t2 -> holds Shared t2 ->
  near (k_db k1) (k_db k2) /\ k_fs k2 = k_fs k1 /\ nobody_writes k2.
Proof.
  intros C S0 S Hi Ho. revert t2. induction S as [k|k1 k2 k3 S1 IH S2]; intros t2 H2 Ho2.
  - split; [apply near_refl|]. split; [reflexivity|]. eapply reader_alone; [eapply run_cinv; eauto|eauto|eauto].
  - assert (nobody_writes k3) as N3 by (eapply reader_alone; [eapply (run_cinv E fs db); [exact C|]; eapply csteps_trans; [exact S0|]; eapply CCons; eauto|exact H2|exact Ho2]).
    destruct (csteps_thread _ _ _ _ _ S1 Hi) as (t & Ht & Ct & It & _). destruct (cstep_thread _ _ _ _ _ S2 Ht) as (t3 & Ht3 & C3 & _ & R3 & _).
    assert (t3 = t2) as -> by congruence.
    assert (holds Shared t) as Hs.
    { assert (inside t) as Int by (apply It; destruct t1; cbn in *; tauto). destruct t as [| | |c' res req|c' res req]; cbn in *; try tauto; subst.
      - rewrite <- C3. destruct t2; cbn in *; tauto.
      - rewrite <- C3. destruct t2; cbn in *; tauto.
      - rewrite <- C3. destruct t2; cbn in *; tauto.
      - rewrite (R3 _ _ _ eq_refl) in Ho2. exact Ho2. }
    destruct (IH S0 Hi t Ht Hs) as (N2 & F2 & W2). destruct (cstep_kept _ _ _ S2 W2) as (F3 & N'). split; [eapply near_trans; eauto|]. split; [congruence|exact N3].
Qed.
Lemma reader_sees E fs db k i c l d : caches db -> csteps E (init fs db) k -> k_threads k !! i = Some (Reading c l) -> blend l d ->
  near d (k_db k).
Proof.
  intros C S Hi B. pose proof (run_cinv _ _ _ _ C S) as CI. destruct (ci_reader _ _ _ _ CI _ _ _ Hi) as [_ Hl].
  apply blend_twin with (d0 := (final E (k_log k) db fs).1) in B; [|exact Hl]. assert (nobody_writes k) as N by (eapply reader_alone; [exact CI|exact Hi|exact (ci_rmode _ _ _ _ CI _ _ _ Hi)]).
  destruct (ci_rest _ _ _ _ CI N) as [T _]. eapply near_trans; [apply near_sym, B|apply T].
Qed.
Lemma fills_cached E fs db k i n j key : caches db -> csteps E (init fs db) k -> fills E k i n j key ->
  exists t, token_at (k_db k) n j = Some t /\ cache_ok (t <| t_cache := Some key |>).
Proof.
  intros C S (c & l & d & t & Hi & Op & B & Ht & Hk & _). pose proof (reader_sees _ _ _ _ _ _ _ _ C S Hi B) as N.
  pose proof (run_cinv _ _ _ _ C S) as CI. destruct (ci_reader _ _ _ _ CI _ _ _ Hi) as [_ Hl]. apply blend_twin with (d0 := (final E (k_log k) db fs).1) in B; [|exact Hl].
  assert (TW : twin d (o_db (call_exec E c d (k_fs k)))). { apply shared_twin; [now rewrite Op|apply B]. }
  assert (NN : near (k_db k) (o_db (call_exec E c d (k_fs k)))). { eapply near_trans; [apply near_sym; exact N|apply TW]. }
  apply near_token with (n := n) (j := j) in NN. rewrite Ht in NN. destruct (token_at (k_db k) n j) as [t0|]; [|discriminate]. exists t0. split; [reflexivity|].
  cbn in NN. apply some_inj in NN. intros k0 [= <-]. cbn. rewrite (cache_params _ _ NN). destruct TW as (_ & _ & CC). apply (proj1 (caches_token _) CC n j t Ht). exact Hk.
Qed.
Lemma fills_agree E fs db k i i' n j key key' : caches db -> csteps E (init fs db) k -> fills E k i n j key -> fills E k i' n j key' -> key = key'.
Proof.
  intros C S F F'. destruct (fills_cached _ _ _ _ _ _ _ _ C S F) as (t & Ht & K). destruct (fills_cached _ _ _ _ _ _ _ _ C S F') as (t' & Ht' & K').
  assert (t = t') as <- by congruence. specialize (K key eq_refl). specialize (K' key' eq_refl). cbn in K, K'. congruence.
Qed.

(** ** Progress *)
Lemma blend_self l d : In d l -> blend l d.
Proof. intros H. split; intros; exists d; auto. Qed.
Lemma finish E fs db k i t : caches db -> csteps E (init fs db) k -> k_threads k !! i = Some t -> comes_back E (call_of t) ->
  (holds Shared t \/ holds Exclusive t) ->
  exists k' res req, csteps E k k' /\ k_threads k' = <[i := Returned (call_of t) res req]> (k_threads k).
Proof.
  intros C S Hi CB Ho. pose proof (run_cinv _ _ _ _ C S) as CI.
  destruct t as [c|c d f|c l|c res req|c res req]; cbn [call_of] in *; try (cbn in Ho; tauto).
  - destruct (CB d f) as [A B]. eexists _, _, _. split.
    + eapply CCons; [eapply CCons; [apply CNil|eapply CWrote; eassumption]|]. eapply CUnlock. cbn. apply lookup_insert.
    + cbn. apply insert_insert.
  - destruct (ci_reader _ _ _ _ CI _ _ _ Hi) as [Nl _]. destruct l as [|x l]; [congruence|]. eexists _, _, _. split.
    + eapply CCons; [eapply CCons; [apply CNil|eapply (CRead _ _ _ _ _ x); [exact Hi|apply blend_self; now left]]|]. eapply CUnlock. cbn. apply lookup_insert.
    + cbn. apply insert_insert.
  - exists {| k_db := k_db k; k_fs := k_fs k; k_threads := <[i := Returned c res req]> (k_threads k); k_log := k_log k |}, res, req. split; [|reflexivity].
    eapply CCons; [apply CNil|]. eapply CUnlock. exact Hi.
Qed.
Definition idle (t : Thread) : Prop := ~ holds Shared t /\ ~ holds Exclusive t.
Lemma start_one E fs db k i c : caches db -> csteps E (init fs db) k -> k_threads k !! i = Some (Waiting c) -> comes_back E c ->
  (forall j t, k_threads k !! j = Some t -> idle t) ->
  exists k' res req, csteps E k k' /\ k_threads k' = <[i := Returned c res req]> (k_threads k).
Proof.
  intros C S Hi CB Id.
  assert (exists k1 t, cstep E k k1 /\ k_threads k1 = <[i := t]> (k_threads k) /\ call_of t = c /\ (holds Shared t \/ holds Exclusive t)) as (k1 & t & S1 & E1 & Ct & Ho).
  { destruct (lock_mode (l_op c)) eqn:M.
    - eexists _, _. split; [eapply CRLock; [exact Hi|exact M|]|split; [reflexivity|cbn; auto]]. intros j t Hj. destruct (Id _ _ Hj). split; [assumption|discriminate].
    - eexists _, _. split; [eapply CLock; [exact Hi|exact M|]|split; [reflexivity|cbn; auto]]. intros j t Hj. destruct (Id _ _ Hj). auto. }
  assert (S' : csteps E (init fs db) k1) by (eapply CCons; eauto).
  destruct (finish E fs db k1 i t C S') as (k' & res & req & K & Ek); [rewrite E1; apply lookup_insert|now rewrite Ct|exact Ho|].
  exists k', res, req. split; [eapply csteps_trans; [eapply CCons; [apply CNil|exact S1]|exact K]|]. rewrite Ek, E1, Ct. apply insert_insert.
Qed.
(** [k'] is [k] with some calls returned. *)
Definition further (k k' : Conf) : Prop := forall j t', k_threads k' !! j = Some t' ->
  exists t, k_threads k !! j = Some t /\ call_of t' = call_of t /\ (t' = t \/ exists c res req, t' = Returned c res req).
Lemma further_refl k : further k k. Proof. intros j t H. eauto. Qed.
Lemma further_trans a b c : further a b -> further b c -> further a c.
Proof.
  intros F G j t H. apply G in H as (t1 & H1 & C1 & E1). apply F in H1 as (t2 & H2 & C2 & E2). exists t2. split; [exact H2|]. split; [congruence|].
  destruct E1 as [->|E1]; auto.
Qed.
Lemma further_one k k' i t res req : k_threads k !! i = Some t -> k_threads k' = <[i := Returned (call_of t) res req]> (k_threads k) -> further k k'.
Proof. intros Hi Ek j t'. rewrite Ek. intros [[<- <-]|[Ne H]]%lookup_insert_Some; [exists t; split; [exact Hi|]; split; [reflexivity|right; eauto]|eauto]. Qed.
Lemma further_back E k k' : further k k' -> (forall i t, k_threads k !! i = Some t -> comes_back E (call_of t)) -> forall i t, k_threads k' !! i = Some t -> comes_back E (call_of t).
Proof. intros F CB i t H. apply F in H as (t1 & H1 & -> & _). eauto. Qed.
Lemma idle_dec t : {idle t} + {holds Shared t \/ holds Exclusive t}.
Proof. unfold idle. destruct t as [c|c d f|c l|c res req|c res req]; cbn; try (left; tauto); destruct (lock_mode (l_op c)); right; auto. Defined.
Lemma drain E fs db L : caches db -> forall k, csteps E (init fs db) k -> (forall i t, k_threads k !! i = Some t -> comes_back E (call_of t)) ->
  exists k', csteps E k k' /\ further k k' /\ forall i t, In i L -> k_threads k' !! i = Some t -> idle t.
Proof.
  intros C. induction L as [|i L IH]; intros k S CB; [exists k; split; [apply CNil|split; [apply further_refl|intros i t []]]|].
  destruct (IH k S CB) as (k1 & S1 & F1 & I1). pose proof (csteps_trans _ _ _ _ S S1) as S01.
  destruct (k_threads k1 !! i) as [t|] eqn:Hi.
  2:{ exists k1. split; [exact S1|]. split; [exact F1|]. intros j t [<-|Hj] H; [congruence|eauto]. }
  destruct (idle_dec t) as [Id|Ho].
  - exists k1. split; [exact S1|]. split; [exact F1|]. intros j t' [<-|Hj] H; [congruence|eauto].
  - destruct (finish E fs db k1 i t C S01 Hi (further_back _ _ _ F1 CB _ _ Hi) Ho) as (k' & res & req & K & Ek). exists k'. split; [eapply csteps_trans; eauto|].
    split; [eapply further_trans; [exact F1|eapply further_one; eauto]|]. intros j t'. rewrite Ek. intros Hj [[<- <-]|[Ne H]]%lookup_insert_Some; [split; cbn; tauto|].
    destruct Hj as [->|Hj]; [congruence|eauto].
Qed.
Lemma serve E fs db L : caches db -> forall k, csteps E (init fs db) k -> (forall i t, k_threads k !! i = Some t -> comes_back E (call_of t)) ->
  (forall i t, k_threads k !! i = Some t -> idle t) ->
  exists k', csteps E k k' /\ further k k' /\ (forall i t, k_threads k' !! i = Some t -> idle t) /\
    forall i t, In i L -> k_threads k' !! i = Some t -> exists c res req, t = Returned c res req.
Proof.
  intros C. induction L as [|i L IH]; intros k S CB Id; [exists k; split; [apply CNil|split; [apply further_refl|split; [exact Id|intros i t []]]]|].
  destruct (IH k S CB Id) as (k1 & S1 & F1 & Id1 & I1). pose proof (csteps_trans _ _ _ _ S S1) as S01.
  destruct (k_threads k1 !! i) as [t|] eqn:Hi.
  2:{ exists k1. split; [exact S1|]. split; [exact F1|]. split; [exact Id1|]. intros j t [<-|Hj] H; [congruence|eauto]. }
  assert (D : (exists c, t = Waiting c) \/ exists c res req, t = Returned c res req).
  { destruct (Id1 _ _ Hi) as [A B]. destruct t as [c|c d f|c l|c res req|c res req]; cbn in A, B; try (destruct (lock_mode (l_op c)); tauto); eauto. }
  destruct D as [[c ->]|R].
  - destruct (start_one E fs db k1 i c C S01 Hi (further_back _ _ _ F1 CB _ _ Hi) Id1) as (k' & res & req & K & Ek). exists k'. split; [eapply csteps_trans; eauto|].
    split; [eapply further_trans; [exact F1|eapply (further_one _ _ _ (Waiting c)); eauto]|]. split.
    + intros j t'. rewrite Ek. intros [[<- <-]|[Ne H]]%lookup_insert_Some; [split; cbn; tauto|eauto].
    + intros j t'. rewrite Ek. intros Hj [[<- <-]|[Ne H]]%lookup_insert_Some; [eauto|]. destruct Hj as [->|Hj]; [congruence|eauto].
  - exists k1. split; [exact S1|]. split; [exact F1|]. split; [exact Id1|]. intros j t' [<-|Hj] H; [assert (t' = t) as -> by congruence; exact R|eauto].
Qed.
Lemma progress E fs db k : caches db -> csteps E (init fs db) k -> (forall i t, k_threads k !! i = Some t -> comes_back E (call_of t)) ->
  exists k', csteps E k k' /\ all_returned k' /\ forall i t, k_threads k !! i = Some t -> exists res req, k_threads k' !! i = Some (Returned (call_of t) res req).
Proof.
  intros C S CB. set (L := elements (dom (k_threads k))).
  assert (HL : forall k' i t, further k k' -> k_threads k' !! i = Some t -> In i L).
  { intros k' i t F H. apply F in H as (t0 & H0 & _). unfold L. apply elem_of_list_In, elem_of_elements, elem_of_dom. eauto. }
  destruct (drain E fs db L C k S CB) as (k1 & S1 & F1 & I1). pose proof (csteps_trans _ _ _ _ S S1) as S01.
  destruct (serve E fs db L C k1 S01 (further_back _ _ _ F1 CB)) as (k2 & S2 & F2 & _ & R2); [intros i t H; eapply I1; eauto|].
  pose proof (csteps_trans _ _ _ _ S1 S2) as S02. pose proof (further_trans _ _ _ F1 F2) as F02.
  exists k2. split; [exact S02|]. split; [intros i t H; eapply R2; eauto|].
  intros i t H. destruct (csteps_thread _ _ _ _ _ S02 H) as (t2 & H2 & C2 & _). destruct (R2 i t2) as (c & res & req & ->); [eauto|exact H2|]. cbn in C2. subst c. eauto.
Qed.
(** A call that never comes back keeps everybody waiting. *)
Lemma stuck E fs db k k' i c d f : caches db -> csteps E (init fs db) k -> csteps E k k' -> k_threads k !! i = Some (Writing c d f) -> o_res (call_exec E c d f) = OHang ->
  k_threads k' !! i = Some (Writing c d f) /\ (forall j c', k_threads k !! j = Some (Waiting c') -> k_threads k' !! j = Some (Waiting c')) /\ k_log k' = k_log k.
Proof.
  intros C S0 S Hi Hg. induction S as [k|k1 k2 k3 S1 IH S2]; [auto|]. destruct (IH S0 Hi) as (H2 & W2 & L2).
  pose proof (run_cinv _ _ _ _ C (csteps_trans _ _ _ _ S0 S1)) as CI.
  assert (M : lock_mode (l_op c) = Exclusive) by (eapply (ci_wmode _ _ _ _ CI); eauto).
  assert (X : forall j t, k_threads k2 !! j = Some t -> j <> i -> ~ holds Exclusive t /\ ~ holds Shared t) by (intros j t Hj Ne; eapply (ci_excl _ _ _ _ CI i); eauto).
  assert (NF : forall m, ~ free_for m k2) by (intros m F; destruct (F _ _ H2) as [F' _]; apply F'; exact M).
  assert (NR : forall j c' l, k_threads k2 !! j <> Some (Reading c' l)).
  { intros j c' l Hj. destruct (decide (j = i)) as [->|Ne]; [congruence|]. destruct (X _ _ Hj Ne) as [_ N]. apply N. cbn. eapply (ci_rmode _ _ _ _ CI); eauto. }
  assert (NL : forall j c' res req, k_threads k2 !! j <> Some (Leaving c' res req)).
  { intros j c' res req Hj. destruct (decide (j = i)) as [->|Ne]; [congruence|]. destruct (X _ _ Hj Ne) as [A B]. cbn in A, B. destruct (lock_mode (l_op c')); tauto. }
  destruct S2 as [j c' Hj|j c' Hj M' F|j c' Hj M' F|j c' d0 f0 db' fs' Hj|j c' d0 f0 Hj NH NC|j c' l Hj|j n m key Fi|j c' l d' Hj B|j c' res req Hj]; cbn;
    try (now destruct (NF _ F)); try (now destruct (NR _ _ _ Hj)); try (now destruct (NL _ _ _ _ Hj)).
  - split; [|split; [|exact L2]].
    + rewrite lookup_insert_ne; [exact H2|congruence].
    + intros a ca Ha. rewrite lookup_insert_ne; [eauto|]. intros ->. apply W2 in Ha. congruence.
  - auto.
  - exfalso. destruct (decide (j = i)) as [->|Ne].
    + rewrite H2 in Hj. injection Hj as <- <- <-. congruence.
    + destruct (X _ _ Hj Ne) as [N _]. apply N. cbn. eapply (ci_wmode _ _ _ _ CI); eauto.
  - destruct Fi as (c' & l & _ & _ & Hj & _). destruct (NR _ _ _ Hj).
Qed.
