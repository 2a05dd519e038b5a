(** The consistency invariant of an open database and its preservation by every event. *)
From Coq Require Import String Ascii ZArith NArith Lia Bool Arith List.
From stdpp Require Import gmap strings.
From RecordUpdate Require Import RecordSet.
From Verif Require Import GoStr GoErr Role Name Email Random SpecValue RoleFacts EmailFacts RandomFacts.
From Verif Require Import Types Env Password ApiKey PublicKey Mfa User Json Persist Fs Database System UserFacts DbFacts.
Import ListNotations.
Import RecordSetNotations.
Open Scope string_scope.
#[local] Opaque int64 new_id trim_space new_email new_role.

Definition addrs_of (E : Env) (u : User) : list string := map (fun e => lower E (em_address e)) (u_emails u).
Record Inv (E : Env) (db : Database) : Prop := {
  inv_name s i : ref_username db !! s = Some i <-> exists u, db_users db !! i = Some u /\ lower E (u_username u) = s;
  inv_email s i : ref_email db !! s = Some i <-> exists u, db_users db !! i = Some u /\ In s (addrs_of E u);
  inv_email_nodup i u : db_users db !! i = Some u -> NoDup (addrs_of E u);
  inv_id_dom s i : ref_id db !! s = Some i -> exists u, db_users db !! i = Some u /\ u_id u = s;
  inv_id_cod i u : db_users db !! i = Some u -> is_Some (ref_id db !! u_id u);
  inv_key i u k : db_users db !! i = Some u -> In k (u_apikeys u) -> ref_apikey db !! ak_prefix k = Some i;
  inv_key_dom s i : ref_apikey db !! s = Some i -> is_Some (db_users db !! i);
  inv_key_nodup i u : db_users db !! i = Some u -> NoDup (map ak_prefix (u_apikeys u));
  inv_valid i u : db_users db !! i = Some u -> String.length (u_id u) = 36%nat /\ u_username u <> "" /\ u_passwords u <> [];
  inv_policy : policy_changed (db_policy db) = false
}.

(** ** Frames *)
Lemma frame_fields u u' : frame u u' ->
  u_id u' = u_id u /\ u_username u' = u_username u /\ u_emails u' = u_emails u /\ u_email u' = u_email u /\
  u_name u' = u_name u /\ u_names u' = u_names u /\ u_roles u' = u_roles u /\ u_created u' = u_created u.
Proof. unfold frame. tauto. Qed.

Lemma set_user_users db i u : db_users (set_user db i u) = <[i := u]> (db_users db).
Proof. reflexivity. Qed.

(** Replacing account [i] by one with the same identity and the given keys. *)
Lemma inv_set_user E db i u u' m :
  Inv E db -> db_users db !! i = Some u -> frame u u' -> u_passwords u' <> [] ->
  NoDup (map ak_prefix (u_apikeys u')) ->
  (forall k, In k (u_apikeys u') -> m !! ak_prefix k = Some i) ->
  (forall s j, m !! s = Some j -> j = i \/ ref_apikey db !! s = Some j) ->
  (forall s j, ref_apikey db !! s = Some j -> j <> i -> m !! s = Some j) ->
  Inv E (set_user db i u' <| ref_apikey := m |>).
Proof.
  intros HI Hi F Hpw Hnd Hm1 Hm2 Hm3.
  pose proof (frame_fields _ _ F) as (Eid & Eun & Eem & _).
  assert (Hlt : (i < List.length (db_users db))%nat) by (eapply lookup_lt_Some; eauto).
  assert (L : forall j v, <[i := u']> (db_users db) !! j = Some v ->
             (j = i /\ v = u') \/ (j <> i /\ db_users db !! j = Some v)).
  { intros j v. destruct (decide (j = i)) as [->|N].
    - rewrite list_lookup_insert by assumption. intros [=<-]. auto.
    - rewrite list_lookup_insert_ne by congruence. auto. }
  assert (L' : <[i := u']> (db_users db) !! i = Some u') by (now apply list_lookup_insert).
  assert (Ln : forall j, j <> i -> <[i := u']> (db_users db) !! j = db_users db !! j).
  { intros. apply list_lookup_insert_ne; congruence. }
  assert (Ea : addrs_of E u' = addrs_of E u) by (unfold addrs_of; now rewrite Eem).
  destruct HI. split; unfold db_users in *; cbn [set_user ref_username ref_email ref_id ref_apikey db_content c_users set] in *; cbn in *.
  - intros s j. rewrite inv_name0. split; intros (v & Hv & Hs).
    + destruct (decide (j = i)) as [->|N]; [|rewrite Ln by assumption; eauto].
      exists u'. split; [assumption|]. congruence.
    + apply L in Hv as [[-> ->]|[N Hv]]; [|eauto]. exists u. split; congruence.
  - intros s j. rewrite inv_email0. split; intros (v & Hv & Hs).
    + destruct (decide (j = i)) as [->|N]; [|rewrite Ln by assumption; eauto].
      exists u'. split; [assumption|]. congruence.
    + apply L in Hv as [[-> ->]|[N Hv]]; [|eauto]. exists u. split; congruence.
  - intros j v Hv. apply L in Hv as [[-> ->]|[N Hv]]; [|eauto]. rewrite Ea. eauto.
  - intros s j Hs. apply inv_id_dom0 in Hs as (v & Hv & Hs).
    destruct (decide (j = i)) as [->|N]; [|rewrite Ln by assumption; eauto]. exists u'. split; congruence.
  - intros j v Hv. apply L in Hv as [[-> ->]|[N Hv]]; [|eauto]. rewrite Eid. eauto.
  - intros j v k Hv Hk. apply L in Hv as [[-> ->]|[N Hv]]; [eauto|]. apply Hm3; eauto.
  - intros s j Hs. destruct (decide (j = i)) as [->|N]; [eauto|]. rewrite Ln by assumption.
    apply Hm2 in Hs as [->|Hs]; [congruence|eauto].
  - intros j v Hv. apply L in Hv as [[-> ->]|[N Hv]]; eauto.
  - intros j v Hv. apply L in Hv as [[-> ->]|[N Hv]]; [|eauto]. rewrite Eid, Eun. destruct (inv_valid0 _ _ Hi) as (? & ? & ?). auto.
  - assumption.
Qed.
Lemma set_user_key_id db i u : set_user db i u <| ref_apikey := ref_apikey db |> = set_user db i u.
Proof. destruct db; reflexivity. Qed.

(** ** Lookups under the invariant *)
Lemma at_ref_Some db ref i u : at_ref db ref = Some (i, u) -> ref = Some i /\ db_users db !! i = Some u.
Proof. unfold at_ref. destruct ref as [j|]; [|discriminate]. destruct (db_users db !! j) eqn:X; [|discriminate]. intros [=<- <-]. auto. Qed.
Lemma by_username_iff E db s i u : Inv E db ->
  by_username E db s = Some (i, u) <-> (2 <= String.length s)%nat /\ db_users db !! i = Some u /\ lower E (u_username u) = lower E s.
Proof.
  intros HI. unfold by_username, zlen. destruct Z.ltb eqn:L.
  - split; [discriminate|]. intros (H & _). apply Z.ltb_lt in L. lia.
  - apply Z.ltb_ge in L. split.
    + intros [H1 H2]%at_ref_Some. split; [lia|]. split; [assumption|]. apply (inv_name _ _ HI) in H1 as (v & Hv & Hs). congruence.
    + intros (_ & Hu & Hs). assert (ref_username db !! lower E s = Some i) as -> by (apply (inv_name _ _ HI); eauto).
      unfold at_ref. now rewrite Hu.
Qed.
Lemma by_email_iff E db s i u : Inv E db ->
  by_email E db s = Some (i, u) <-> (6 <= String.length s)%nat /\ db_users db !! i = Some u /\ In (lower E s) (addrs_of E u).
Proof.
  intros HI. unfold by_email, zlen. destruct Z.ltb eqn:L.
  - split; [discriminate|]. intros (H & _). apply Z.ltb_lt in L. lia.
  - apply Z.ltb_ge in L. split.
    + intros [H1 H2]%at_ref_Some. split; [lia|]. split; [assumption|]. apply (inv_email _ _ HI) in H1 as (v & Hv & Hs). congruence.
    + intros (_ & Hu & Hs). assert (ref_email db !! lower E s = Some i) as -> by (apply (inv_email _ _ HI); eauto).
      unfold at_ref. now rewrite Hu.
Qed.
Lemma by_username_at E db s i u : by_username E db s = Some (i, u) -> db_users db !! i = Some u.
Proof. unfold by_username. destruct Z.ltb; [discriminate|]. now intros [_ ?]%at_ref_Some. Qed.
Lemma by_email_at E db s i u : by_email E db s = Some (i, u) -> db_users db !! i = Some u.
Proof. unfold by_email. destruct Z.ltb; [discriminate|]. now intros [_ ?]%at_ref_Some. Qed.
Lemma get_user_at E db s i u : get_user E db s = Some (i, u) -> db_users db !! i = Some u.
Proof. unfold get_user. destruct contains; [apply by_email_at|apply by_username_at]. Qed.
Lemma validate_identity_inv E db r i u : validate_identity E db r = inl (i, u) ->
  by_username E db (ru_username (rq_user r)) = Some (i, u) /\
  exists j v, by_email E db (ru_email (rq_user r)) = Some (j, v) /\ u_id u = u_id v.
Proof.
  unfold validate_identity. destruct by_username as [[i' u']|]; [|discriminate]. destruct by_email as [[j v]|]; [|discriminate].
  destruct String.eqb eqn:X; [|discriminate]. apply String.eqb_eq in X. intros [=<- <-]. eauto.
Qed.
Lemma validate_at E db r i u : validate_identity E db r = inl (i, u) -> db_users db !! i = Some u.
Proof. intros [H _]%validate_identity_inv. eauto using by_username_at. Qed.

(** ** New accounts *)
Lemma pick_id_cases db nd n i old : pick_id db nd i n old = old \/
  exists k, (i <= k < i + n)%nat /\ pick_id db nd i n old = new_id (nd_uuid nd k) /\ ref_id db !! new_id (nd_uuid nd k) = None.
Proof.
  revert i. induction n as [|n IH]; intros i; cbn [pick_id]; [auto|]. cbv zeta.
  destruct (ref_id db !! new_id (nd_uuid nd i)) eqn:X.
  - destruct (IH (S i)) as [->|(k & Hk & H)]; [auto|]. right. exists k. split; [lia|exact H].
  - right. exists i. repeat split; auto; lia.
Qed.
Lemma pick_id_fresh db nd n i old k : (i <= k < i + n)%nat -> ref_id db !! new_id (nd_uuid nd k) = None ->
  ref_id db !! pick_id db nd i n old = None.
Proof.
  revert i. induction n as [|n IH]; intros i Hk Hf; cbn [pick_id]; [lia|]. cbv zeta.
  destruct (ref_id db !! new_id (nd_uuid nd i)) eqn:X; [|exact X].
  destruct (decide (k = i)) as [->|N]; [congruence|]. apply IH; [lia|exact Hf].
Qed.
Lemma new_addresses_inv E db l addrs : new_addresses E db l = inl addrs ->
  addrs = map (fun e => lower E (em_address e)) l /\ Forall (fun a => ref_email db !! a = None) addrs.
Proof.
  revert addrs. induction l as [|e l IH]; intros addrs; cbn [new_addresses]; [intros [=<-]; auto|]. cbv zeta.
  destruct (ref_email db !! _) eqn:X; [discriminate|]. destruct new_addresses as [t|]; [|discriminate].
  intros [=<-]. destruct (IH _ eq_refl) as [-> H]. auto.
Qed.
Lemma insert_all_lookup (l : list string) (i : nat) (m : gmap string nat) s :
  fold_left (fun m a => <[a := i]> m) l m !! s = if in_dec string_dec s l then Some i else m !! s.
Proof.
  revert m. induction l as [|a l IH]; intros m; cbn [fold_left]; [reflexivity|]. rewrite IH.
  destruct (in_dec string_dec s l) as [H|H]; destruct (in_dec string_dec s (a :: l)) as [H'|H']; try reflexivity.
  - exfalso. apply H'. now right.
  - destruct H' as [->|H']; [|contradiction]. now rewrite lookup_insert.
  - rewrite lookup_insert_ne; [reflexivity|]. intros ->. apply H'. now left.
Qed.

Lemma inv_with_account E db u addrs :
  Inv E db -> ref_username db !! lower E (u_username u) = None ->
  addrs = addrs_of E u -> NoDup addrs -> Forall (fun a => ref_email db !! a = None) addrs ->
  u_apikeys u = [] -> String.length (u_id u) = 36%nat -> u_username u <> "" -> u_passwords u <> [] ->
  Inv E (with_account E db u addrs).
Proof.
  intros HI Hn -> Hnd Hf Hk Hid Hun Hpw.
  assert (L : forall j v, (db_users db ++ [u])%list !! j = Some v ->
            (j = List.length (db_users db) /\ v = u) \/ (db_users db !! j = Some v /\ j <> List.length (db_users db))).
  { intros j v H. apply lookup_app_Some in H as [H|[H1 H2]].
    - right. split; [assumption|]. apply lookup_lt_Some in H. lia.
    - left. destruct (j - List.length (db_users db))%nat eqn:X; [|discriminate]. split; [lia|]. now injection H2. }
  assert (L1 : (db_users db ++ [u])%list !! List.length (db_users db) = Some u) by (now apply list_lookup_middle).
  assert (L2 : forall j v, db_users db !! j = Some v -> (db_users db ++ [u])%list !! j = Some v).
  { intros. now apply lookup_app_l_Some. }
  assert (Lt : forall j v, db_users db !! j = Some v -> j <> List.length (db_users db)).
  { intros j v H. apply lookup_lt_Some in H. lia. }
  destruct HI. split; unfold with_account, db_users in *; cbn in *.
  - intros s j. destruct (decide (s = lower E (u_username u))) as [->|N].
    + rewrite lookup_insert. split.
      * intros [=<-]. eauto.
      * intros (v & Hv & Hs). apply L in Hv as [[-> _]|[Hv _]]; [reflexivity|].
        exfalso. assert (ref_username db !! lower E (u_username u) = Some j) by (apply inv_name0; eauto). congruence.
    + rewrite lookup_insert_ne by congruence. rewrite inv_name0. split; intros (v & Hv & Hs); [eauto|].
      apply L in Hv as [[-> ->]|[Hv _]]; [congruence|eauto].
  - intros s j. rewrite insert_all_lookup. destruct in_dec as [H|H].
    + split.
      * intros [=<-]. eauto.
      * intros (v & Hv & Hs). apply L in Hv as [[-> _]|[Hv _]]; [reflexivity|].
        exfalso. assert (ref_email db !! s = Some j) by (apply inv_email0; eauto).
        rewrite List.Forall_forall in Hf. apply Hf in H. congruence.
    + rewrite inv_email0. split; intros (v & Hv & Hs); [eauto|].
      apply L in Hv as [[-> ->]|[Hv _]]; [contradiction|eauto].
  - intros j v Hv. apply L in Hv as [[-> ->]|[Hv _]]; eauto.
  - intros s j. destruct (decide (s = u_id u)) as [->|N].
    + rewrite lookup_insert. intros [=<-]. eauto.
    + rewrite lookup_insert_ne by congruence. intros (v & Hv & Hs)%inv_id_dom0. eauto.
  - intros j v Hv. destruct (decide (u_id v = u_id u)) as [->|N]; [rewrite lookup_insert; eauto|].
    rewrite lookup_insert_ne by congruence. apply L in Hv as [[-> ->]|[Hv _]]; [congruence|eauto].
  - intros j v k Hv Hi. apply L in Hv as [[-> ->]|[Hv _]]; [rewrite Hk in Hi; destruct Hi|eauto].
  - intros s j Hs. apply inv_key_dom0 in Hs as [v Hv]. eauto.
  - intros j v Hv. apply L in Hv as [[-> ->]|[Hv _]]; [rewrite Hk; constructor|eauto].
  - intros j v Hv. apply L in Hv as [[-> ->]|[Hv _]]; eauto.
  - assumption.
Qed.

Lemma inv_bump E nd db : Inv E db -> Inv E (db <| db_content ::= bump nd |>).
Proof. intros []. split; unfold db_users in *; cbn in *; assumption. Qed.

(** ** Effects *)
Lemma keep_passwords_ne nd k i p l : p :: keep_passwords nd k i l <> [].
Proof. discriminate. Qed.
Lemma upd_passwords_ne E nd pol r u op u' : upd E nd pol r u op u' -> u_passwords u <> [] -> u_passwords u' <> [].
Proof.
  intros H N. destruct H.
  - apply add_public_key_inv in H as (? & ? & ? & ->). exact N.
  - apply delete_public_key_inv in H as (? & ->). exact N.
  - apply change_password_inv in H0 as (? & H0). apply add_password_inv in H0 as (? & ? & ->). discriminate.
  - apply add_mfa_token_inv in H as (? & ? & ? & ->). exact N.
  - apply delete_mfa_token_inv in H as (? & ->). exact N.
Qed.
Lemma NoDup_map_filter {A B} (f : A -> B) p (l : list A) : NoDup (map f l) -> NoDup (map f (List.filter p l)).
Proof.
  induction l as [|x l IH]; cbn; [auto|]. intros H. apply NoDup_cons in H as [H1 H2]. destruct (p x); cbn; [|auto].
  apply NoDup_cons. split; [|auto]. intros H. apply H1. apply elem_of_list_In, in_map_iff in H as (y & E' & Hy).
  apply elem_of_list_In, in_map_iff. exists y. split; [assumption|]. now apply filter_In in Hy.
Qed.
Lemma last_prefix_in id l p0 : existsb (fun k => String.eqb (ak_id k) id) l = true ->
  exists k, In k l /\ ak_id k = id /\ last_prefix id l p0 = ak_prefix k.
Proof.
  unfold last_prefix. revert p0. induction l as [|k l IH]; intros p0; cbn [existsb fold_left]; [discriminate|].
  intros H. destruct (existsb (fun k => String.eqb (ak_id k) id) l) eqn:X.
  - destruct (IH (if String.eqb (ak_id k) id then ak_prefix k else p0) eq_refl) as (k' & H1 & H2 & H3). exists k'. repeat split; auto. now right.
  - rewrite orb_false_r in H. rewrite H. apply String.eqb_eq in H. exists k. repeat split; auto; [now left|].
    clear IH. revert X. generalize (ak_prefix k). induction l as [|k' l IH]; intros p X; cbn [fold_left]; [reflexivity|].
    cbn in X. apply orb_false_iff in X as [X1 X2]. rewrite X1. apply IH. exact X2.
Qed.

Lemma inv_effect E nd db r op db1 : Inv E db -> effect E nd db r op db1 -> Inv E db1.
Proof.
  intros HI Heff. destruct Heff.
  - assumption.
  - assumption.
  - apply new_user_iff in H0 as (p & e & rs & n & P & EM & Hrs & Hn & U & ->). subst u.
    apply new_addresses_inv in H3 as [-> Hf].
    apply inv_with_account; auto.
    + cbn. apply NoDup_singleton.
    + change (String.length (pick_id db nd 1 10 (new_id (nd_uuid nd 0))) = 36%nat). destruct (pick_id_cases db nd 10 1 (new_id (nd_uuid nd 0))) as [->|(k & _ & -> & _)]; apply new_id_length.
  - pose proof (validate_at _ _ _ _ _ H) as Hi. pose proof (upd_frame _ _ _ _ _ _ _ H0) as [F K].
    rewrite <- set_user_key_id. eapply inv_set_user; eauto.
    + eapply upd_passwords_ne; eauto. now destruct (inv_valid _ _ HI _ _ Hi) as (_ & _ & ?).
    + rewrite K. eauto using inv_key_nodup.
    + intros k. rewrite K. eauto using inv_key.
  - pose proof (validate_at _ _ _ _ _ H) as Hi. pose proof (add_api_key_frame _ _ _ _ H3) as F.
    apply add_api_key_inv in H3 as (k & Hk & ->).
    assert (ak_prefix k = take 24 s) as Hp.
    { unfold new_api_key in Hk. cbv zeta in Hk. repeat (match type of Hk with (if ?c then _ else _) = _ => destruct c; [discriminate|] end).
      injection Hk as <-. reflexivity. }
    change (set_user db i ?u' <| ref_apikey ::= ?f |>) with (set_user db i u' <| ref_apikey := f (ref_apikey db) |>).
    eapply inv_set_user; eauto.
    + cbn. now destruct (inv_valid _ _ HI _ _ Hi) as (_ & _ & ?).
    + cbn. rewrite map_app. apply NoDup_app. split; [eauto using inv_key_nodup|]. split; [|apply NoDup_singleton].
      intros x Hx Hx'. cbn in Hx'. apply elem_of_list_singleton in Hx'. subst x. rewrite Hp in Hx.
      apply elem_of_list_In, in_map_iff in Hx as (k' & E' & Hk'). apply (inv_key _ _ HI _ _ _ Hi) in Hk'. congruence.
    + intros k'. cbn. intros [H'|[<-|[]]]%in_app_or.
      * rewrite lookup_insert_ne; [eauto using inv_key|]. intros E'. apply (inv_key _ _ HI _ _ _ Hi) in H'. congruence.
      * rewrite Hp. apply lookup_insert.
    + intros s' j. cbn. destruct (decide (take 24 s = s')) as [<-|N]; [rewrite lookup_insert; intros [=<-]; auto|].
      rewrite lookup_insert_ne by assumption. auto.
    + intros s' j Hj N. cbn. rewrite lookup_insert_ne; [assumption|]. congruence.
  - pose proof (validate_at _ _ _ _ _ H) as Hi. pose proof (delete_api_key_frame _ _ _ _ _ H0) as F.
    apply delete_api_key_inv in H0 as (Hex & -> & ->).
    set (id := rk_id (rq_key r)) in *.
    change (set_user db i ?u' <| ref_apikey ::= ?f |>) with (set_user db i u' <| ref_apikey := f (ref_apikey db) |>).
    change (rk_prefix (rq_key (r <| rq_key; rk_prefix := ?p |>))) with p.
    destruct (last_prefix_in id (u_apikeys u) (rk_prefix (rq_key r)) Hex) as (k0 & Hk0 & Hid0 & ->).
    eapply inv_set_user; eauto.
    + cbn. now destruct (inv_valid _ _ HI _ _ Hi) as (_ & _ & ?).
    + cbn. apply NoDup_map_filter. eauto using inv_key_nodup.
    + intros k. cbn. intros [Hk Hn]%filter_In. rewrite lookup_delete_ne; [eauto using inv_key|].
      intros Ep. apply negb_true_iff, String.eqb_neq in Hn. apply Hn.
      assert (k0 = k) as <-; [|exact Hid0].
      pose proof (inv_key_nodup _ _ HI _ _ Hi) as Hnd.
      clear - Hnd Ep Hk0 Hk. induction (u_apikeys u) as [|x l IH]; [destruct Hk|].
      cbn in Hnd. apply NoDup_cons in Hnd as [N1 N2].
      destruct Hk0 as [->|Hk0], Hk as [->|Hk]; auto.
      * exfalso. apply N1, elem_of_list_In, in_map_iff. eauto.
      * exfalso. apply N1, elem_of_list_In, in_map_iff. eauto.
    + intros s' j. cbn. destruct (decide (ak_prefix k0 = s')) as [<-|N]; [rewrite lookup_delete; discriminate|].
      rewrite lookup_delete_ne by assumption. auto.
    + intros s' j Hj N. cbn. rewrite lookup_delete_ne; [assumption|]. intros E'.
      apply (inv_key _ _ HI _ _ _ Hi) in Hk0. congruence.
Qed.
