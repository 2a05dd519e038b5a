(** Proofs about accounts and calls (C01-C11, C15, C55, C56, C71, C73, C75). *)
From Coq Require Import String Ascii ZArith NArith Lia Bool Arith List.
From stdpp Require Import gmap strings.
From RecordUpdate Require Import RecordSet.
From Verif Require Import GoStr Utf8 GoErr Role Name Email Random SpecValue RoleFacts EmailFacts RandomFacts.
From Verif Require Import Types Env Password ApiKey PublicKey Mfa User Json Persist Fs Database System UserFacts DbFacts Inv LoadFacts SpecDb.
Import ListNotations.
Import RecordSetNotations.
Open Scope string_scope.
#[local] Opaque int64 new_id trim_space new_email new_role.

(** ** Uniqueness *)
Lemma has_address_in E u s : has_address E u s <-> In (lower E s) (addrs_of E u).
Proof.
  unfold has_address, addrs_of, same_ci. rewrite in_map_iff. split; intros (e & H1 & H2); eauto.
Qed.
Lemma username_unique E fs db i j u v : reachable E fs db -> account db i u -> account db j v ->
  same_ci E (u_username u) (u_username v) -> i = j.
Proof.
  intros H%inv_reachable Hu Hv S.
  assert (ref_username db !! lower E (u_username v) = Some i) as A by (apply (inv_name _ _ H); eauto).
  assert (ref_username db !! lower E (u_username v) = Some j) as B by (apply (inv_name _ _ H); eauto).
  congruence.
Qed.
Lemma ascii_ci_same E a b : ascii_ci a b -> same_ci E a b.
Proof.
  intros (Ha & Hb & H). unfold same_ci, lower.
  assert (A7 : forall l, Forall (fun x => (nat_of_ascii x < 128)%nat) l -> ascii_only l = true).
  { intros l F. apply forallb_forall. intros x Hx. rewrite List.Forall_forall in F. specialize (F x Hx).
    unfold is_ascii7. apply N.ltb_lt. unfold nat_of_ascii in F. lia. }
  rewrite !to_lower_ascii by auto. f_equal.
  assert (K : forall x y, ascii_fold x = ascii_fold y -> lower_ascii x = lower_ascii y).
  { assert (G : forall x, lower_ascii x = ascii_of_nat (ascii_fold x)).
    { intros x. destruct x as [[] [] [] [] [] [] [] []]; reflexivity. }
    intros x y Hxy. now rewrite !G, Hxy. }
  clear Ha Hb. revert H. generalize (los b). induction (los a) as [|x l IH]; intros [|y m] H; try discriminate; [reflexivity|].
  cbn in *. injection H as H1 H2. f_equal; auto.
Qed.
Lemma email_unique E fs db i j u v p q e f : reachable E fs db -> account db i u -> account db j v ->
  u_emails u !! p = Some e -> u_emails v !! q = Some f -> same_ci E (em_address e) (em_address f) -> i = j /\ p = q.
Proof.
  intros H%inv_reachable Hu Hv He Hf S.
  assert (In (lower E (em_address f)) (addrs_of E u)) as A1.
  { unfold addrs_of. rewrite <- S. apply in_map_iff. exists e. split; [reflexivity|]. eapply elem_of_list_In, elem_of_list_lookup_2; eauto. }
  assert (In (lower E (em_address f)) (addrs_of E v)) as A2.
  { unfold addrs_of. apply in_map_iff. exists f. split; [reflexivity|]. eapply elem_of_list_In, elem_of_list_lookup_2; eauto. }
  assert (i = j) as <-.
  { assert (ref_email db !! lower E (em_address f) = Some i) by (apply (inv_email _ _ H); eauto).
    assert (ref_email db !! lower E (em_address f) = Some j) by (apply (inv_email _ _ H); eauto). congruence. }
  split; [reflexivity|]. unfold account in *. assert (u = v) as -> by congruence.
  pose proof (inv_email_nodup _ _ H _ _ Hv) as N. unfold addrs_of in N.
  eapply (NoDup_lookup _ p q); [exact N| |].
  - rewrite list_lookup_fmap, He. reflexivity.
  - rewrite list_lookup_fmap, Hf. cbn. now rewrite S.
Qed.

(** ** Identifiers *)
Definition mem_ids (m : Mem) : Prop := match m with Up db | Stuck db => ids_unique db | Down => True end.
Lemma ids_set_user db i u u' : db_users db !! i = Some u -> u_id u' = u_id u -> ids_unique db -> ids_unique (set_user db i u').
Proof.
  intros Hi Eid HU a b x y Hx Hy Exy. unfold db_users, set_user in *. cbn in *.
  assert (L : forall j v, <[i := u']> (c_users (db_content db)) !! j = Some v -> exists w, c_users (db_content db) !! j = Some w /\ u_id w = u_id v).
  { intros j v. destruct (decide (j = i)) as [->|N].
    - rewrite list_lookup_insert by (eapply lookup_lt_Some; eauto). intros [=<-]. eauto.
    - rewrite list_lookup_insert_ne by congruence. eauto. }
  apply L in Hx as (x' & Hx & E1). apply L in Hy as (y' & Hy & E2). eapply HU; eauto. congruence.
Qed.
Lemma ids_keys db m : ids_unique db -> ids_unique (db <| ref_apikey := m |>).
Proof. auto. Qed.
Lemma ids_exec E nd op db fs r :
  Inv E db -> ids_unique db -> uuid_fresh {| w_fs := fs; w_mem := Up db |} (EvCall nd op r) ->
  ids_unique (o_db (exec E nd op db fs r)).
Proof.
  intros HI HU HF. destruct (exec_shape E nd op db fs r) as [_ R _ _|db1 res Eff C _].
  - destruct R as [|i u u' res G _ V]; [assumption|].
    pose proof (verify_webauthn_uncache E u r) as W. rewrite V in W. apply same_uncached_frame in W as (F & _).
    eapply ids_set_user; eauto using get_user_at. apply F.
  - apply commit_to_inv in C as [-> _]. change (ids_unique db1). destruct Eff; auto.
    + subst u. cbn in HF. destruct HF as (k & Hk & HF).
      apply new_user_iff in H0 as (p & e & rs & n & _ & _ & _ & _ & _ & ->).
      set (id := pick_id db nd 1 10 (u_id (fresh_user nd (ru_username (rq_user r)) p e (dedup_roles [] rs) n))).
      assert (Hid : forall i u, db_users db !! i = Some u -> u_id u <> id).
      { assert (Hk0 : ref_id db !! new_id (nd_uuid nd k) = None).
        { destruct (ref_id db !! new_id (nd_uuid nd k)) as [j|] eqn:X; [|reflexivity].
          apply (inv_id_dom _ _ HI) in X as (v & Hv & Ev). exfalso. eapply HF; eauto. }
        intros i u Hu Eu. destruct (inv_id_cod _ _ HI _ _ Hu) as [y Hy]. rewrite Eu in Hy.
        destruct (decide (k = 0%nat)) as [->|Nk].
        - destruct (pick_id_cases db nd 10 1 (u_id (fresh_user nd (ru_username (rq_user r)) p e (dedup_roles [] rs) n))) as [Q|(k' & _ & Q & Q')];
            unfold id in Hy; rewrite Q in Hy; [|congruence].
          change (u_id (fresh_user nd (ru_username (rq_user r)) p e (dedup_roles [] rs) n)) with (new_id (nd_uuid nd 0)) in Hy. congruence.
        - unfold id in Hy. rewrite (pick_id_fresh db nd 10 1 _ k) in Hy; [discriminate|lia|assumption]. }
      clearbody id. intros a b x y Hx Hy Exy. unfold db_users, with_account in *. cbn in *.
      apply lookup_app_Some in Hx as [Hx|[Lx Hx]]; apply lookup_app_Some in Hy as [Hy|[Ly Hy]].
      * eapply HU; eauto.
      * exfalso. apply list_lookup_singleton_Some in Hy as [_ <-]. cbn in Exy. eapply Hid; eauto.
      * exfalso. apply list_lookup_singleton_Some in Hx as [_ <-]. cbn in Exy. eapply Hid; eauto.
      * apply list_lookup_singleton_Some in Hx as [? _]. apply list_lookup_singleton_Some in Hy as [? _]. lia.
    + eapply ids_set_user; eauto using validate_at. apply upd_frame in H0 as [F _]. apply F.
    + change (ids_unique (set_user db i u')). eapply ids_set_user; eauto using validate_at. apply add_api_key_frame in H3. apply H3.
    + change (ids_unique (set_user db i u')). eapply ids_set_user; eauto using validate_at. apply delete_api_key_frame in H0. apply H0.
Qed.
Lemma ids_steps E (P : World -> Event -> Prop) w w' : (forall w ev, P w ev -> uuid_fresh w ev) -> mem_inv E (w_mem w) -> mem_ids (w_mem w) ->
  steps E P w w' -> mem_ids (w_mem w').
Proof.
  intros HP H0 H1 S. assert (mem_inv E (w_mem w') /\ mem_ids (w_mem w')) as [_ ?]; [|assumption].
  induction S as [|w1 ev w2 w3 S IH Hev St]; [auto|]. destruct (IH H0 H1) as [A B].
  split; [eapply inv_step; eauto|].
  destruct St as [nd fp fs m fs' res O N|nd op r fs db|fs m|fs m fs']; cbn in *; auto.
  - destruct res; cbn; auto. now apply inv_open in O as (_ & ? & _).
  - unfold after_call. pose proof (ids_exec E nd op db fs r A B (HP _ _ Hev)). destruct o_res; cbn; auto.
Qed.
Lemma ids_reachable E fs db i j u v : reachable_by E uuid_fresh fs db -> account db i u -> account db j v ->
  u_id u = u_id v -> i = j.
Proof.
  intros (fs0 & S) Hu Hv Eid. assert (ids_unique db) as HU; [|eapply HU; eauto].
  apply (ids_steps E uuid_fresh _ _ (fun _ _ H => H)) in S; [exact S|exact I|exact I].
Qed.
Lemma id_length E fs db i u : reachable E fs db -> account db i u -> String.length (u_id u) = 36%nat.
Proof. intros H%inv_reachable Hu. now destruct (inv_valid _ _ H _ _ Hu). Qed.

(** ** Lookups *)
Lemma by_username_resolves E fs db s i u : reachable E fs db ->
  by_username E db s = Some (i, u) <-> resolves_username E db s i u.
Proof. intros H%inv_reachable. apply by_username_iff, H. Qed.
Lemma by_email_resolves E fs db s i u : reachable E fs db ->
  by_email E db s = Some (i, u) <-> resolves_address E db s i u.
Proof. intros H%inv_reachable. unfold resolves_address. rewrite has_address_in. apply by_email_iff, H. Qed.
Lemma get_user_resolves E fs db s i u : reachable E fs db -> get_user E db s = Some (i, u) <-> resolves_login E db s i u.
Proof.
  intros H. unfold get_user, resolves_login. rewrite <- (by_username_resolves _ fs), <- (by_email_resolves _ fs) by assumption.
  rewrite <- (contains_char s "@"). change (String "@" "") with "@". destruct (contains s "@"); intuition (try discriminate; congruence).
Qed.
Lemma validate_iff E fs db r i u : reachable E fs db -> validate_identity E db r = inl (i, u) <-> identity_of E db r i u.
Proof.
  intros H. unfold identity_of. split.
  - intros (A & j & v & B & C)%validate_identity_inv. apply (by_username_resolves _ fs) in A; [|assumption].
    apply (by_email_resolves _ fs) in B; [|assumption]. eauto 10.
  - intros (A & j & v & B & C). apply (by_username_resolves _ fs) in A; [|assumption].
    apply (by_email_resolves _ fs) in B; [|assumption]. unfold validate_identity. rewrite A, B, C, String.eqb_refl. reflexivity.
Qed.
Lemma validate_total E db r : (exists e, validate_identity E db r = inr e) \/ exists i u, validate_identity E db r = inl (i, u).
Proof. destruct validate_identity as [[i u]|e]; eauto. Qed.

(** ** AddUser *)
Lemma write_db_ok nd path data fs fs' : write_db nd path data fs = (fs', COk) <->
  nd_write nd = IoOk /\ path <> "" /\ fs !! path <> Some Dir /\ exists d, data = Some d /\ fs' = <[path := File d]> fs.
Proof.
  unfold write_db, write_file. destruct data as [d|].
  - destruct (String.eqb path "") eqn:P.
    + apply String.eqb_eq in P. split; [discriminate|]. tauto.
    + apply String.eqb_neq in P. destruct (fs !! path) as [[c|]|] eqn:X.
      2:{ split; [discriminate|]. intros (_ & _ & F & _). congruence. }
      all: destruct (nd_write nd); (split; [try discriminate|]).
      all: try (intros [=<-]; repeat split; try congruence; eauto; fail).
      all: intros (N & _ & _ & d' & [=<-] & ->); try discriminate; reflexivity.
  - split; [discriminate|]. intros (_ & _ & _ & d & [=] & _).
Qed.
Lemma write_db_can nd path data fs : (exists fs', write_db nd path data fs = (fs', COk)) <->
  nd_write nd = IoOk /\ path <> "" /\ fs !! path <> Some Dir /\ data <> None.
Proof.
  split.
  - intros (fs' & H). apply write_db_ok in H as (? & ? & ? & d & -> & _). repeat split; auto; discriminate.
  - intros (A & B & C & D). destruct data as [d|]; [|congruence]. eexists. apply write_db_ok. eauto 10.
Qed.
Lemma commit_ok_iff nd path db fs : (exists db' fs', commit_to nd path db fs = (db', fs', COk)) <->
  can_write nd fs path (db_content (db <| db_content ::= bump nd |>)).
Proof.
  unfold can_write, commit_to. cbv zeta. cbn [db_content set]. rewrite <- (write_db_can nd path _ fs).
  change (db_content (db <| db_content ::= bump nd |>)) with (bump nd (db_content db)).
  destruct write_db as [f [| |]]; split.
  all: intros (x & H); eauto; try (destruct H as (y & H)); try discriminate; inversion H; eauto.
Qed.

Lemma check_policy_None p u s : check_policy p u s = None <->
  within (up_min (po_user p)) (zlen u) (up_max (po_user p)) /\ within (pp_min (po_password p)) (zlen s) (pp_max (po_password p)).
Proof.
  unfold check_policy, user_policy_ok, password_policy_ok, within.
  destruct (zlen u >? up_max (po_user p))%Z eqn:A, (zlen u <? up_min (po_user p))%Z eqn:B; cbn;
  try (split; [discriminate|lia]).
  destruct (zlen s >? pp_max (po_password p))%Z eqn:C, (zlen s <? pp_min (po_password p))%Z eqn:D; cbn;
  try (split; [discriminate|lia]). split; [lia|reflexivity].
Qed.
Lemma new_roles_iff l : (exists rs, Forall2 (fun s r => new_role s = inl r) l rs) <-> Forall (fun s => trim_space s <> "") l.
Proof.
  split.
  - intros (rs & H). induction H as [|s r l rs Hr H IH]; constructor; auto. intros T. rewrite (new_role_blank s T) in Hr. discriminate.
  - intros H. induction H as [|s l Hs H [rs IH]]; [eauto|]. destruct (new_role_total s Hs) as [r Hr]. eauto.
Qed.
Lemma name_given_iff f : (exists n, name_given f n) <-> name_parses f.
Proof.
  unfold name_given, name_parses. rewrite <- parse_name_iff. split.
  - intros (n & [[H _]|(_ & x & H & _)]); eauto.
  - destruct (string_dec (trim_space f) "") as [E|N]; [eauto|]. intros [H|(x & H)]; [contradiction|]. eauto 10.
Qed.
Lemma name_lookup_None E db s : Inv E db -> ref_username db !! lower E s = None <-> forall i u, account db i u -> ~ has_username E u s.
Proof.
  intros HI. split.
  - intros H i u Hu Hs. assert (ref_username db !! lower E s = Some i) by (apply (inv_name _ _ HI); eauto). congruence.
  - intros H. destruct (ref_username db !! lower E s) as [i|] eqn:X; [|reflexivity].
    apply (inv_name _ _ HI) in X as (u & Hu & Hs). exfalso. eapply H; eauto.
Qed.
Lemma email_lookup_None E db s : Inv E db -> ref_email db !! lower E s = None <-> forall i u, account db i u -> ~ has_address E u s.
Proof.
  intros HI. split.
  - intros H i u Hu Hs. apply has_address_in in Hs.
    assert (ref_email db !! lower E s = Some i) by (apply (inv_email _ _ HI); eauto). congruence.
  - intros H. destruct (ref_email db !! lower E s) as [i|] eqn:X; [|reflexivity].
    apply (inv_email _ _ HI) in X as (u & Hu & Hs). exfalso. eapply H; eauto. now apply has_address_in.
Qed.
Lemma new_email_address s e : new_email s = inl e -> em_address e = s.
Proof. intros H. apply new_email_spec in H. tauto. Qed.

(** AddUser reaches its commit exactly on acceptable requests. *)
Lemma add_user_effect E nd db r : Inv E db ->
  (exists db1, effect E nd db r OpAddUser db1) <-> acceptable E nd db r.
Proof.
  intros HI. split.
  - intros (db1 & Eff). inversion Eff; subst.
    + apply new_user_iff in H0 as (p & e & rs & n & P & EM & Hrs & Hn & U & ->).
      apply check_policy_None in H as [W1 W2]. apply new_password_iff in P as (h & T & B & ->).
      apply new_addresses_inv in H3 as [-> F]. cbn in F. apply Forall_cons in F as [F _].
      rewrite (new_email_address _ _ EM) in F.
      split; auto.
      * exists h. exact B.
      * apply new_email_spec in EM as (G & _). exists (em_domain e). exact G.
      * apply new_roles_iff. exists rs. exact Hrs.
      * apply name_given_iff. exists n. exact Hn.
      * apply name_lookup_None; auto.
      * apply email_lookup_None; auto.
    + exfalso. inversion H0.
  - intros [A1 A2 A3 A4 [h A5] [d A6] A7 A8 A9 A10].
    apply new_roles_iff in A7 as [rs A7]. apply name_given_iff in A8 as [n A8].
    destruct (new_email (ru_email (rq_user r))) as [e|x] eqn:EM.
    2:{ exfalso. destruct (new_email_err (ru_email (rq_user r))) as [G _]. eapply G; eauto. }
    eexists. eapply EffUser.
    + apply check_policy_None. auto.
    + apply new_user_iff. do 4 eexists. split; [apply new_password_iff; eauto|]. split; [exact EM|]. split; [exact A7|]. split; [exact A8|]. split; [exact A2|reflexivity].
    + reflexivity.
    + change (u_username _) with (ru_username (rq_user r)) at 1. apply name_lookup_None; auto.
    + change (u_emails _) with [e]. cbn [new_addresses]. rewrite (new_email_address _ _ EM).
      rewrite (proj2 (email_lookup_None E db _ HI) A10). reflexivity.
Qed.

(** ** Outcomes of commits *)
Lemma commits_writes op : commits op = true <-> writes op.
Proof. unfold writes, read_ops. destruct op; cbn; split; intros; try reflexivity; try discriminate; intuition discriminate. Qed.
Lemma target_written op db : target op db = written_path op db.
Proof. reflexivity. Qed.
Lemma commit_res nd path d fs d' fs' res : commit_to nd path d fs = (d', fs', res) ->
  res = COk <-> can_write nd fs path (db_content d').
Proof.
  intros C. pose proof (commit_to_inv _ _ _ _ _ _ _ C) as [-> W]. rewrite <- commit_ok_iff. split.
  - intros ->. eauto.
  - intros (a & b & C'). congruence.
Qed.
Lemma outcome_ok res o : commit_outcome res o -> o = OOk <-> res = COk.
Proof. destruct res; cbn; [|intros [? ->]|intros ->]; intuition congruence. Qed.

Lemma add_user_iff E nd db fs r : Inv E db ->
  o_res (exec E nd OpAddUser db fs r) = OOk <->
  acceptable E nd db r /\ can_write nd fs (db_path db) (db_content (o_db (exec E nd OpAddUser db fs r))).
Proof.
  intros HI. rewrite <- (add_user_effect E nd db r HI). split.
  - intros H. destruct (exec_shape E nd OpAddUser db fs r) as [_ _ _ N|db1 res Eff C O].
    + exfalso. now apply N.
    + split; [eauto|]. apply (outcome_ok _ _ O) in H. now apply (commit_res _ _ _ _ _ _ _ C).
  - intros [[db1 Eff] W]. destruct (effect_exec _ _ _ fs _ _ _ Eff) as (res & C & O).
    apply (outcome_ok _ _ O). now apply (commit_res _ _ _ _ _ _ _ C).
Qed.

(** ** The new account *)
Lemma role_text_iff s ro : role_text s ro <-> new_role s = inl ro.
Proof.
  unfold role_text. destruct (string_dec (trim_space s) "") as [T|T].
  - rewrite (new_role_blank s T). split; [tauto|discriminate].
  - rewrite (new_role_spec s ro T). tauto.
Qed.
Lemma dedup_in rs : forall acc r, In r (dedup_roles acc rs) <-> In r acc \/ In r rs.
Proof.
  induction rs as [|x rs IH]; intros acc r; [cbn; tauto|]. cbn [In].
  change (dedup_roles acc (x :: rs)) with (dedup_roles (if existsb (role_eqb x) acc then acc else (acc ++ [x])%list) rs). rewrite IH. destruct existsb eqn:X.
  - apply existsb_role in X. intuition (subst; auto).
  - rewrite in_app_iff. cbn. tauto.
Qed.
Lemma dedup_nodup rs : forall acc, NoDup acc -> NoDup (dedup_roles acc rs).
Proof.
  induction rs as [|x rs IH]; intros acc H; [assumption|].
  change (dedup_roles acc (x :: rs)) with (dedup_roles (if existsb (role_eqb x) acc then acc else (acc ++ [x])%list) rs). apply IH. destruct existsb eqn:X; [assumption|].
  apply NoDup_app. repeat split; auto.
  - intros y Hy%elem_of_list_In Hx. apply elem_of_list_singleton in Hx as ->.
    apply existsb_role in Hy. congruence.
  - apply NoDup_singleton.
Qed.
Lemma name_text_iff s n : name_text s n <-> parse_name s = inl n.
Proof.
  unfold name_text, parse_name, parse_sep. split.
  - intros [(a & b & Ha & Hb & -> & ->)|(N & a & b & Ha & Hb & Hs & ->)].
    + rewrite split_app_l by assumption. reflexivity.
    + pose proof (split_not_two "," s N) as X. destruct (split "," s) as [|x [|y [|z t]]] eqn:S.
      3: now destruct (X x y).
      all: subst s; rewrite (split_app_l " ") by assumption; reflexivity.
  - destruct (split "," s) as [|a [|b [|c t]]] eqn:X.
    3:{ intros [=<-]. left. apply split_two in X as (-> & ? & ?). eauto 10. }
    all: destruct (split " " s) as [|a' [|b' [|c' t']]] eqn:X'; try discriminate; intros [=<-]; right;
      (split; [intros a1 b1 Ha1 Hb1 ->; rewrite split_app_l in X by assumption; discriminate
              |apply split_two in X' as (-> & ? & ?); eauto 10]).
Qed.

Lemma effect_add_user E nd db r db1 : effect E nd db r OpAddUser db1 ->
  exists u, new_account E nd r u /\ db_users db1 = (db_users db ++ [u])%list /\
    db_policy db1 = db_policy db /\ db_path db1 = db_path db /\ ref_apikey db1 = ref_apikey db.
Proof.
  intros Eff. inversion Eff; subst.
  - apply new_user_iff in H0 as (p & e & rs & n & P & EM & Hrs & Hn & U & ->).
    set (id := pick_id db nd 1 10 (u_id (fresh_user nd (ru_username (rq_user r)) p e (dedup_roles [] rs) n))).
    assert (Hid : String.length id = 36%nat).
    { destruct (pick_id_cases db nd 10 1 (u_id (fresh_user nd (ru_username (rq_user r)) p e (dedup_roles [] rs) n))) as [Q|(k & _ & Q & _)];
        unfold id; rewrite Q; apply new_id_length. }
    clearbody id. eexists. split; [|split; [reflexivity|repeat split]].
    apply new_password_iff in P as (h & T & B & ->). apply new_email_spec in EM as (G & A & Cf).
    constructor; try (repeat split; fail).
    + exact Hid.
    + exists e. repeat split; assumption.
    + change (NoDup (dedup_roles [] rs)). apply dedup_nodup. constructor.
    + intros ro. change (In ro (dedup_roles [] rs) <-> exists s, In s (ru_roles (rq_user r)) /\ role_text s ro).
      rewrite dedup_in. cbn [In]. clear - Hrs. induction Hrs as [|s x l rs Hr H IH]; cbn [In].
      * split; [tauto|]. intros (s & [] & _).
      * split.
        -- intros [[]|[<-|Hro]]; [exists s; rewrite role_text_iff; auto|].
           destruct (proj1 IH (or_intror Hro)) as (s' & ? & ?). eauto.
        -- intros (s' & [<-|Hs'] & Hro).
           ++ apply role_text_iff in Hro. right. left. congruence.
           ++ right. right. destruct (proj2 IH) as [[]|Q]; eauto.
    + destruct Hn as [[F ->]|(F & x & N & ->)]; [left; auto|]. right. exists x. rewrite name_text_iff. auto.
    + eexists. split; [reflexivity|]. repeat split. exact B.
  - inversion H0.
Qed.
Lemma add_user_appends E nd db fs r : o_res (exec E nd OpAddUser db fs r) = OOk ->
  let db' := o_db (exec E nd OpAddUser db fs r) in
  exists u, new_account E nd r u /\ db_users db' = (db_users db ++ [u])%list /\
    db_policy db' = db_policy db /\ db_path db' = db_path db /\ ref_apikey db' = ref_apikey db.
Proof.
  intros H. destruct (exec_shape E nd OpAddUser db fs r) as [_ _ _ N|db1 res Eff C O].
  - exfalso. now apply N.
  - apply commit_to_inv in C as [-> _]. apply effect_add_user in Eff as (u & ? & ? & ? & ? & ?). exists u. auto.
Qed.

(** ** Rejected calls *)
Lemma rejected_unchanged E nd op db fs r : writes op -> o_res (exec E nd op db fs r) <> OOk ->
  o_db (exec E nd op db fs r) = db /\ o_fs (exec E nd op db fs r) = fs \/
  ~ can_write nd fs (written_path op db) (db_content (o_db (exec E nd op db fs r))).
Proof.
  intros Wr%commits_writes H. destruct (exec_shape E nd op db fs r) as [Fs R _ _|db1 res Eff C O].
  - left. split; [|assumption]. destruct R; [reflexivity|discriminate].
  - right. rewrite <- target_written, <- (commit_res _ _ _ _ _ _ _ C). rewrite (outcome_ok _ _ O) in H. exact H.
Qed.
Lemma no_identity E nd op db fs r : (forall i u, validate_identity E db r <> inl (i, u)) -> In op identity_ops ->
  exists e, exec E nd op db fs r = {| o_db := db; o_fs := fs; o_req := r; o_res := OErr e |}.
Proof.
  intros N Hop. destruct (validate_total E db r) as [[e V]|(i & u & V)]; [|now destruct (N i u)].
  unfold identity_ops in Hop. cbn [In] in Hop.
  decompose [or] Hop; subst; try contradiction; cbn [exec].
  all: unfold db_get_users, db_get_user, db_delete_user, db_add_public_key, db_get_public_keys, db_delete_public_key, db_add_api_key,
    db_delete_api_key, db_get_api_keys, db_change_password, db_add_mfa_token, db_get_mfa_tokens, db_delete_mfa_token, ret;
    rewrite V; eauto.
Qed.
Lemma identity_required E nd op db fs r : reachable E fs db -> In op identity_ops -> (forall i u, ~ identity_of E db r i u) ->
  exists e, exec E nd op db fs r = {| o_db := db; o_fs := fs; o_req := r; o_res := OErr e |}.
Proof.
  intros H Hop N. apply no_identity; [|assumption]. intros i u V. apply (validate_iff _ fs) in V; [|assumption]. eapply N, V.
Qed.

(** ** One account at a time *)
Lemma key_step (m : gmap string nat) s t (i j : nat) : i <> j -> m !! s = None \/ m !! s = Some i ->
  (<[s := i]> m) !! t = Some j <-> m !! t = Some j.
Proof.
  intros N H. destruct (decide (s = t)) as [->|Nst].
  - rewrite lookup_insert. destruct H as [->| ->]; split; congruence.
  - now rewrite lookup_insert_ne.
Qed.
Lemma key_del (m : gmap string nat) s t (i j : nat) : i <> j -> m !! s = Some i -> (delete s m) !! t = Some j <-> m !! t = Some j.
Proof.
  intros N H. destruct (decide (s = t)) as [->|Nst].
  - rewrite lookup_delete, H. split; congruence.
  - now rewrite lookup_delete_ne.
Qed.
Lemma set_user_other db i j u v : i <> j -> account (set_user db i u) j v <-> account db j v.
Proof. intros N. unfold account. rewrite set_user_users, list_lookup_insert_ne by assumption. tauto. Qed.
Lemma others_untouched E nd op db fs r j v : reachable E fs db -> account db j v -> ~ concerns E db op r j ->
  account (o_db (exec E nd op db fs r)) j v /\
  forall s, ref_apikey (o_db (exec E nd op db fs r)) !! s = Some j <-> ref_apikey db !! s = Some j.
Proof.
  intros HR Hj N. pose proof (inv_reachable _ _ _ HR) as HI.
  destruct (exec_shape E nd op db fs r) as [_ R _ _|db1 res Eff C _].
  - destruct R as [|i u u' res G _ V]; [tauto|]. apply (get_user_resolves _ fs) in G; [|assumption].
    assert (i <> j) by (intros ->; apply N; eexists; exact G). rewrite set_user_other by assumption. tauto.
  - apply commit_to_inv in C as [-> _]. change (account db1 j v /\ forall s, ref_apikey db1 !! s = Some j <-> ref_apikey db !! s = Some j).
    destruct op; pose proof (effect_commits _ _ _ _ _ _ Eff) as Cm; try discriminate Cm.
    1:{ apply effect_add_user in Eff as (u & _ & Hu & _ & _ & ->). split; [|tauto]. unfold account. rewrite Hu. now apply lookup_app_l_Some. }
    all: inversion Eff; subst; try tauto.
    all: match goal with V : validate_identity _ _ _ = inl (?i, ?u), N : ~ concerns _ _ _ _ ?j |- _ =>
           pose proof (validate_at _ _ _ _ _ V) as Hi; eapply validate_iff in V; [|eassumption];
           assert (i <> j) as Nij by (intros ->; apply N; eexists; exact V) end.
    all: try match goal with U : upd _ _ _ _ _ ?o _ |- _ => inversion U; fail end.
    all: (split; [now apply set_user_other|]); intros s0.
    all: try tauto.
    + cbn [ref_apikey set]. apply key_step; auto.
    + cbn [ref_apikey set]. apply (key_del _ _ _ i); [assumption|].
      match goal with D : delete_api_key _ _ _ = _ |- _ => apply delete_api_key_inv in D as (X & _ & ->) end.
      cbn [rq_key rk_prefix set]. destruct (last_prefix_in _ _ (rk_prefix (rq_key r)) X) as (k & Hk & _ & ->).
      exact (inv_key _ _ HI _ _ _ Hi Hk).
Qed.

(** ** Accounts only grow *)
Lemma same_identity_refl u : same_identity u u.
Proof. repeat split. Qed.
Lemma same_identity_trans u v w : same_identity u v -> same_identity v w -> same_identity u w.
Proof. unfold same_identity. intros H1 H2. decompose [and] H1. decompose [and] H2. repeat split; congruence. Qed.
Lemma frame_identity u u' : frame u u' -> same_identity u u'.
Proof. apply frame_fields. Qed.
Definition extends (l l' : list User) : Prop :=
  (List.length l <= List.length l')%nat /\ forall i u, l !! i = Some u -> exists u', l' !! i = Some u' /\ same_identity u u'.
Lemma extends_refl l : extends l l.
Proof. split; [lia|]. intros i u H. exists u. split; [assumption|apply same_identity_refl]. Qed.
Lemma extends_trans a b c : extends a b -> extends b c -> extends a c.
Proof.
  intros [L1 H1] [L2 H2]. split; [lia|]. intros i u Hu. destruct (H1 _ _ Hu) as (v & Hv & S1). destruct (H2 _ _ Hv) as (w & Hw & S2).
  exists w. split; [assumption|]. eapply same_identity_trans; eauto.
Qed.
Lemma extends_set db i u u' : db_users db !! i = Some u -> frame u u' -> extends (db_users db) (db_users (set_user db i u')).
Proof.
  intros Hi F. rewrite set_user_users. split; [rewrite insert_length; lia|]. intros j v Hj. destruct (decide (i = j)) as [<-|N].
  - exists u'. rewrite list_lookup_insert by (eapply lookup_lt_Some; eauto). split; [reflexivity|]. assert (u = v) as <- by congruence. now apply frame_identity.
  - exists v. rewrite list_lookup_insert_ne by assumption. split; [assumption|apply same_identity_refl].
Qed.
Lemma extends_exec E nd op db fs r : extends (db_users db) (db_users (o_db (exec E nd op db fs r))).
Proof.
  destruct (exec_shape E nd op db fs r) as [_ R _ _|db1 res Eff C _].
  - destruct R as [|i u u' res G _ V]; [apply extends_refl|].
    pose proof (verify_webauthn_uncache E u r) as W. rewrite V in W. apply same_uncached_frame in W as (F & _).
    eapply extends_set; eauto using get_user_at.
  - apply commit_to_inv in C as [-> _]. change (extends (db_users db) (db_users db1)). destruct Eff; try apply extends_refl.
    + split.
      * change (db_users (with_account E db u addrs)) with (db_users db ++ [u])%list. rewrite app_length. lia.
      * intros i v Hv. exists v. split; [|apply same_identity_refl].
        change (db_users (with_account E db u addrs)) with (db_users db ++ [u])%list. now apply lookup_app_l_Some.
    + eapply extends_set; eauto using validate_at. now apply upd_frame in H0 as [F _].
    + change (extends (db_users db) (db_users (set_user db i u'))). eapply extends_set; eauto using validate_at, add_api_key_frame.
    + change (extends (db_users db) (db_users (set_user db i u'))). eapply extends_set; eauto using validate_at, delete_api_key_frame.
Qed.
Lemma extends_later E fs db fs' db' : later E fs db fs' db' -> extends (db_users db) (db_users db').
Proof.
  unfold later. intros S.
  assert (G : forall w w', steps E only_calls w w' -> forall fs db, w = {| w_fs := fs; w_mem := Up db |} ->
    match w_mem w' with Down => True | Up d | Stuck d => extends (db_users db) (db_users d) end).
  { clear. intros w w' S. induction S as [w|w1 ev w2 w3 S IH Hev St]; intros fs0 db0 ->; [apply extends_refl|].
    specialize (IH _ _ eq_refl). destruct St as [nd fp fs m fs' res O N|nd op r fs db|fs m|fs m fs']; cbn in Hev; try contradiction. cbn in *.
    unfold after_call. pose proof (extends_trans _ _ _ IH (extends_exec E nd op db fs r)). destruct o_res; auto. }
  exact (G _ _ S _ _ eq_refl).
Qed.
Lemma delete_user_fails E nd db fs r : exists e, exec E nd OpDeleteUser db fs r = {| o_db := db; o_fs := fs; o_req := r; o_res := OErr e |}.
Proof. cbn [exec]. unfold db_delete_user, ret. destruct validate_identity; eauto. Qed.

(** ** Reads *)
Lemma uncached_no_cache u u' : same_uncached u u' -> no_cache u' = no_cache u.
Proof.
  intros (l & -> & H). unfold no_cache. change (u <| u_mfa := map uncache l |> = u <| u_mfa := map uncache (u_mfa u) |>).
  assert (map uncache l = map uncache (u_mfa u)) as ->; [|reflexivity].
  induction H as [|t t' ? ? [Ht _] H IH]; cbn [map]; congruence.
Qed.
Lemma read_op E nd op db fs r : In op read_ops ->
  let o := exec E nd op db fs r in
  o_fs o = fs /\ db_path (o_db o) = db_path db /\
  ref_username (o_db o) = ref_username db /\ ref_email (o_db o) = ref_email db /\ ref_id (o_db o) = ref_id db /\ ref_apikey (o_db o) = ref_apikey db /\
  db_policy (o_db o) = db_policy db /\ db_revision (o_db o) = db_revision db /\ db_modified (o_db o) = db_modified db /\
  map no_cache (db_users (o_db o)) = map no_cache (db_users db) /\
  (op <> OpAuthenticate \/ ru_password (rq_user r) <> "" -> o_db o = db).
Proof.
  intros Hop o. subst o. assert (commits op = false) as Cm.
  { destruct (commits op) eqn:X; [|reflexivity]. apply commits_writes in X. contradiction. }
  destruct (exec_shape E nd op db fs r) as [Fs R _ _|db1 res Eff C _].
  2:{ apply effect_commits in Eff. congruence. }
  destruct R as [|i u u' res G Pw V]; [repeat split; auto|].
  repeat (split; [first [assumption|reflexivity]|]). split.
  - rewrite set_user_users. pose proof (get_user_at _ _ _ _ _ G) as Hi.
    pose proof (verify_webauthn_uncache E u r) as W. rewrite V in W. apply uncached_no_cache in W. cbn in W.
    change (no_cache <$> <[i:=u']> (db_users db) = no_cache <$> db_users db). rewrite list_fmap_insert, W.
    apply list_insert_id. now rewrite list_lookup_fmap, Hi.
  - intros [H|H]; congruence.
Qed.

(** ** Revisions *)
Lemma revision_counts E nd op db fs r :
  let o := exec E nd op db fs r in
  (writes op /\ db_revision (o_db o) = ((db_revision db + 1) mod 2 ^ 64)%N /\ db_modified (o_db o) = nd_clock nd /\
   (o_res o = OOk \/ ~ can_write nd fs (written_path op db) (db_content (o_db o)))) \/
  (db_revision (o_db o) = db_revision db /\ db_modified (o_db o) = db_modified db /\ o_fs o = fs /\ (writes op -> o_res o <> OOk)).
Proof.
  intros o. subst o. destruct (exec_shape E nd op db fs r) as [Fs R _ N|db1 res Eff C O].
  - right. rewrite <- commits_writes. destruct R; repeat split; auto.
  - left. pose proof (effect_commits _ _ _ _ _ _ Eff) as Cm. split; [now apply commits_writes|].
    assert (X : db_revision db1 = db_revision db) by (destruct Eff; reflexivity).
    pose proof (commit_res _ _ _ _ _ _ _ C) as CR. pose proof C as C'. apply commit_to_inv in C' as [Hd _].
    split; [rewrite Hd; rewrite <- X; reflexivity|]. split; [rewrite Hd; reflexivity|].
    rewrite <- target_written, <- CR, (outcome_ok _ _ O). destruct res; [left; reflexivity|right; discriminate|right; discriminate].
Qed.
Lemma write_db_other nd path data fs p : p <> path -> fst (write_db nd path data fs) !! p = fs !! p.
Proof.
  intros N. unfold write_db, write_file. destruct data as [d|]; [|reflexivity].
  destruct String.eqb; [reflexivity|]. destruct (fs !! path) as [[c|]|]; [|reflexivity|].
  all: destruct (nd_write nd); cbn; try reflexivity; apply lookup_insert_ne; congruence.
Qed.
Lemma copy_spec E nd db fs r fp :
  let o := exec E nd (OpCopy fp) db fs r in
  db_users (o_db o) = db_users db /\ db_policy (o_db o) = db_policy db /\ db_path (o_db o) = db_path db /\
  ref_username (o_db o) = ref_username db /\ ref_email (o_db o) = ref_email db /\ ref_id (o_db o) = ref_id db /\ ref_apikey (o_db o) = ref_apikey db /\
  (forall p, p <> fp -> o_fs o !! p = fs !! p) /\
  (o_res o = OOk -> exists d, marshal (db_content (o_db o)) = Some d /\ o_fs o !! fp = Some (File d)).
Proof.
  intros o. subst o. cbn [exec]. unfold db_copy. destruct commit_to as [[d2 fs2] res] eqn:C.
  pose proof (commit_to_inv _ _ _ _ _ _ _ C) as [-> W].
  assert (forall p, p <> fp -> fs2 !! p = fs !! p) as Hp.
  { intros p N. pose proof (write_db_other nd fp (marshal (bump nd (db_content db))) fs p N) as X. now rewrite W in X. }
  destruct res; cbn [ret o_db o_fs o_res]; repeat split; auto; try discriminate.
  intros _. apply write_db_ok in W as (_ & _ & _ & d & Hd & ->). exists d. split; [exact Hd|]. apply lookup_insert.
Qed.
Lemma upd_revision E nd pol r u op u' : upd E nd pol r u op u' ->
  u_revision u' = int64 (u_revision u + 1) /\ u_modified u' = nd_clock nd.
Proof.
  intros [].
  all: repeat match goal with
    | H : add_public_key _ _ _ _ = inl _ |- _ => apply add_public_key_inv in H as (? & ? & ? & ->)
    | H : delete_public_key _ _ _ = inl _ |- _ => apply delete_public_key_inv in H as (? & ->)
    | H : change_password _ _ _ _ _ = inl _ |- _ => apply change_password_inv in H as (? & H)
    | H : add_password _ _ _ _ _ = inl _ |- _ => apply add_password_inv in H as (? & ? & ->)
    | H : add_mfa_token _ _ _ _ = (_, ROk _) |- _ => apply add_mfa_token_inv in H as (? & ? & ? & ->)
    | H : delete_mfa_token _ _ _ = inl _ |- _ => apply delete_mfa_token_inv in H as (? & ->)
    end.
  all: split; reflexivity.
Qed.
Lemma account_op_revision E nd op db fs r : reachable E fs db -> In op account_ops -> o_res (exec E nd op db fs r) = OOk ->
  exists i u u', identity_of E db r i u /\ account (o_db (exec E nd op db fs r)) i u' /\
    u_revision u' = int64 (u_revision u + 1) /\ u_modified u' = nd_clock nd.
Proof.
  intros HR Hop H. assert (commits op = true) as Cm.
  { unfold account_ops in Hop. cbn [In] in Hop. decompose [or] Hop; subst; reflexivity || contradiction. }
  destruct (exec_shape E nd op db fs r) as [_ _ _ N|db1 res Eff C O]; [now destruct (N Cm)|].
  apply commit_to_inv in C as [-> _].
  assert (S : forall d i u', db_users d = db_users (set_user db i u') -> is_Some (db_users db !! i) -> account d i u').
  { intros d i u' Hd L. unfold account. rewrite Hd, set_user_users. apply list_lookup_insert. now apply lookup_lt_is_Some. }
  unfold account_ops in Hop. cbn [In] in Hop.
  destruct Eff as [| |u0 addrs u P N U Hu Ha|op' i u u' V Up|i u s hk u' V R Hh K A|i u u' r' V D].
  1-3: exfalso; intuition discriminate.
  all: exists i, u, u'; (split; [now apply (validate_iff _ fs)|]); (split; [apply S; [reflexivity|rewrite (validate_at _ _ _ _ _ V); eauto]|]).
  - eapply upd_revision; eauto.
  - apply add_api_key_inv in A as (k & _ & ->). split; reflexivity.
  - apply delete_api_key_inv in D as (_ & -> & _). split; reflexivity.
Qed.

(** ** Bundles and metadata *)
Lemma bundle_fold {A} (l : list A) : forall b, fold_left b_add l b = {| b_items := (b_items b ++ l)%list; b_size := (b_size b + Z.of_nat (List.length l))%Z |}.
Proof.
  induction l as [|x l IH]; intros b; cbn [fold_left List.length].
  - rewrite app_nil_r, Z.add_0_r. now destruct b.
  - rewrite IH. unfold b_add. cbn [b_items b_size]. rewrite <- app_assoc. f_equal. lia.
Qed.
Lemma bundle_spec {A} (l : list A) : b_items (fold_left b_add l b_new) = l /\ b_size (fold_left b_add l b_new) = Z.of_nat (List.length l).
Proof. rewrite bundle_fold. split; reflexivity. Qed.
Lemma fold_map {A B C} (f : B -> A -> B) (g : C -> A) l : forall b, fold_left (fun b x => f b (g x)) l b = fold_left f (map g l) b.
Proof. induction l as [|x l IH]; intros b; cbn; auto. Qed.
Lemma metadata_describes u : describes u (metadata u).
Proof.
  constructor; try reflexivity; unfold metadata; cbn.
  - destruct (u_name u) as [n|]; [right; exists n|left; auto]. split; [reflexivity|]. unfold full_name.
    destruct (String.eqb_spec (nm_first n) ""); [left|right]; split; auto. apply los_inj. rewrite los_app. cbn [los]. now rewrite app_nil_r.
  - destruct (u_email u); eauto.
  - destruct (u_avatar u); eauto.
Qed.
Lemma get_users_spec E nd db fs r i u : reachable E fs db -> identity_of E db r i u ->
  exists b, exec E nd OpGetUsers db fs r = {| o_db := db; o_fs := fs; o_req := r <| rq_payload := PUsers b |>; o_res := OOk |} /\
    Forall2 describes (db_users db) (b_items b) /\ b_size b = Z.of_nat (List.length (db_users db)).
Proof.
  intros H V. apply (validate_iff _ fs) in V; [|assumption]. cbn [exec]. unfold db_get_users. rewrite V. eexists. split; [reflexivity|].
  rewrite (fold_map b_add metadata). destruct (bundle_spec (map metadata (db_users db))) as [-> ->]. rewrite map_length. split; [|reflexivity].
  induction (db_users db); constructor; auto using metadata_describes.
Qed.

(** ** Finding accounts again *)
Definition returned (o : Out) : Prop := o_res o <> OHang /\ o_res o <> OCrash.
Lemma exec_steps E (P : World -> Event -> Prop) nd op db fs r w0 :
  steps E P w0 {| w_fs := fs; w_mem := Up db |} -> P {| w_fs := fs; w_mem := Up db |} (EvCall nd op r) -> returned (exec E nd op db fs r) ->
  steps E P w0 {| w_fs := o_fs (exec E nd op db fs r); w_mem := Up (o_db (exec E nd op db fs r)) |}.
Proof.
  intros S HP [H1 H2]. eapply StCons; [exact S|exact HP|].
  replace (Up (o_db (exec E nd op db fs r))) with (after_call (exec E nd op db fs r)); [constructor|].
  unfold after_call. destruct o_res; congruence.
Qed.
Lemma exec_reachable E nd op db fs r : reachable E fs db -> returned (exec E nd op db fs r) ->
  reachable E (o_fs (exec E nd op db fs r)) (o_db (exec E nd op db fs r)).
Proof. intros (fs0 & S) H. exists fs0. apply exec_steps; auto. exact I. Qed.
Lemma ok_returned o : o_res o = OOk -> returned o.
Proof. intros H. split; rewrite H; discriminate. Qed.
Lemma added_found E nd db fs r : o_res (exec E nd OpAddUser db fs r) = OOk ->
  let db' := o_db (exec E nd OpAddUser db fs r) in
  exists u, new_account E nd r u /\ account db' (List.length (db_users db)) u /\
    (forall s, same_ci E (ru_username (rq_user r)) s -> (2 <= String.length s)%nat -> ~ In "@"%char (los s) ->
       resolves_login E db' s (List.length (db_users db)) u) /\
    (forall s, same_ci E (ru_email (rq_user r)) s -> (6 <= String.length s)%nat -> In "@"%char (los s) ->
       resolves_login E db' s (List.length (db_users db)) u).
Proof.
  intros H db'. destruct (add_user_appends _ _ _ _ _ H) as (u & NA & U & _). fold db' in U. exists u.
  assert (A : account db' (List.length (db_users db)) u).
  { unfold account. rewrite U. now apply list_lookup_middle. }
  split; [assumption|]. split; [assumption|]. split; intros s Hs L At; unfold resolves_login.
  - right. split; [assumption|]. repeat split; auto. unfold has_username. now rewrite (na_username _ _ _ _ NA).
  - left. split; [assumption|]. repeat split; auto. destruct (na_email _ _ _ _ NA) as (e & _ & He & Ha & _).
    exists e. rewrite He, Ha. split; [now left|assumption].
Qed.
Lemma short_login_lost E db s i u : (String.length s < 2)%nat -> ~ resolves_login E db s i u.
Proof. intros L [(_ & H & _)|(_ & H & _)]; lia. Qed.
Lemma short_address_lost E db s i u : In "@"%char (los s) -> (String.length s < 6)%nat -> ~ resolves_login E db s i u.
Proof. intros A L [(_ & H & _)|(N & _)]; [lia|contradiction]. Qed.
