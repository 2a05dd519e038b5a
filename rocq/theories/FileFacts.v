(** Opening: times that can be written, policy defaults, torn files, consistency, nulls. *)
From Coq Require Import String Ascii ZArith NArith Lia Bool Arith List.
From Coq Require Import ZifyBool ZifyNat ZifyN.
From stdpp Require Import gmap strings.
From RecordUpdate Require Import RecordSet.
From Verif Require Import GoStr Utf8 Codec GoErr Role Name Email Random SpecValue RoleFacts EmailFacts RandomFacts.
From Verif Require Import Types Env Password ApiKey PublicKey Mfa User Json GoTime Persist Fs Database System UserFacts DbFacts Inv LoadFacts.
From Verif Require Import SpecDb AccountFacts StepFacts SpecAuth ApiKeyFacts MfaFacts SpecPersist JsonFacts PersistFacts StoredFacts ReloadFacts TwinFacts ReopenFacts.
Import ListNotations.
Import RecordSetNotations.
Open Scope string_scope.
#[local] Opaque int64 new_id trim_space new_email new_role.

(** ** Times *)
Lemma days_bounds y m d : (1 <= m <= 12)%Z -> (1 <= d <= 31)%Z -> (d <= days_in y m)%Z -> (365 * (y - 1) + (y - 1) / 4 - (y - 1) / 100 + (y - 1) / 400 <= days y m d < 365 * y + y / 4 - y / 100 + y / 400)%Z.
Proof.
  intros Hm Hd Hd2.
  assert (forall z, (z / 400 * 146097 + (z mod 400 * 365 + (z mod 400) / 4 - (z mod 400) / 100) = 365 * z + z / 4 - z / 100 + z / 400)%Z) as K.
  { intros z. pose proof (Z.div_mod z 400 ltac:(lia)) as Q. set (a := (z / 400)%Z) in *. set (b := (z mod 400)%Z) in *.
    assert (z / 4 = 100 * a + b / 4)%Z as -> by (rewrite Q; replace (400 * a + b)%Z with (b + (100 * a) * 4)%Z by lia; rewrite Z.div_add by lia; lia).
    assert (z / 100 = 4 * a + b / 100)%Z as -> by (rewrite Q; replace (400 * a + b)%Z with (b + (4 * a) * 100)%Z by lia; rewrite Z.div_add by lia; lia). lia. }
  unfold days. cbv zeta.
  assert (M : (m = 1 \/ m = 2 \/ m = 3 \/ m = 4 \/ m = 5 \/ m = 6 \/ m = 7 \/ m = 8 \/ m = 9 \/ m = 10 \/ m = 11 \/ m = 12)%Z) by lia.
  unfold days_in, leap in Hd2.
  set (Y4 := (y / 4)%Z) in *.
  destruct M as [->|[->|[->|[->|[->|[->|[->|[->|[->|[->|[->| ->]]]]]]]]]]]; cbn -[Z.div Z.modulo Z.mul Z.add Z.sub] in *; subst Y4;
    match goal with |- context[(?z / 400 * 146097 + (?z mod 400 * 365 + ?z mod 400 / 4 - ?z mod 400 / 100 + ?w) - 306)%Z] =>
      replace (z / 400 * 146097 + (z mod 400 * 365 + z mod 400 / 4 - z mod 400 / 100 + w) - 306)%Z with (365 * z + z / 4 - z / 100 + z / 400 + w - 306)%Z by (rewrite <- (K z); lia) end;
    try (change ((153 * (1 + 9) + 2) / 5)%Z with 306%Z);
    Z.to_euclidean_division_equations; lia.
Qed.
Lemma days_in_31 y m : (days_in y m <= 31)%Z.
Proof. unfold days_in. destruct (m =? 2)%Z; [destruct leap; lia|]. destruct (_ || _); lia. Qed.
Lemma time_ok_iff t : time_ok t = true <-> in_years t.
Proof.
  unfold time_ok, year_of, in_years. pose proof (civil_days (t / ns_day)) as C. destruct (civil (t / ns_day)) as [[y m] d]. destruct C as (C1 & C2 & C3).
  pose proof (days_in_31 y m) as D. pose proof (days_bounds y m d C2 ltac:(lia) ltac:(lia)) as B. rewrite C1 in B. clear C1 C2 C3 D m d.
  assert (Q : (t = t / ns_day * 86400000000000 + t mod ns_day /\ 0 <= t mod ns_day < 86400000000000)%Z).
  { unfold ns_day. split; [rewrite Z.mul_comm; apply Z.div_mod; lia|apply Z.mod_pos_bound; lia]. }
  set (n := (t / ns_day)%Z) in *. set (k := (t mod ns_day)%Z) in *. clearbody n k.
  assert (Mono : forall a b, (a <= b -> 365 * a + a / 4 - a / 100 + a / 400 <= 365 * b + b / 4 - b / 100 + b / 400)%Z) by (intros; Z.to_euclidean_division_equations; lia).
  assert (Y : (0 <= y <= 9999 <-> -366 <= n < 3652059)%Z).
  { split; intros H.
    - pose proof (Mono (-1) (y - 1) ltac:(lia))%Z as M1. pose proof (Mono y 9999 ltac:(lia))%Z as M2. change (365 * -1 + -1 / 4 - -1 / 100 + -1 / 400)%Z with (-366)%Z in M1.
      change (365 * 9999 + 9999 / 4 - 9999 / 100 + 9999 / 400)%Z with 3652059%Z in M2. lia.
    - assert (~ (y < 0))%Z. { intros L. pose proof (Mono y (-1) ltac:(lia))%Z as M1. change (365 * -1 + -1 / 4 - -1 / 100 + -1 / 400)%Z with (-366)%Z in M1. lia. }
      assert (~ (9999 < y))%Z. { intros L. pose proof (Mono 9999 (y - 1) ltac:(lia))%Z as M2. change (365 * 9999 + 9999 / 4 - 9999 / 100 + 9999 / 400)%Z with 3652059%Z in M2. lia. }
      lia. }
  lia.
Qed.
Lemma forallb_flat {A} (f : A -> bool) (g : A -> list Z) l : (forall x, f x = true <-> Forall in_years (g x)) -> forallb f l = true <-> Forall in_years (flat_map g l).
Proof.
  intros H. induction l as [|x l IH]; cbn [forallb flat_map]; [split; auto|]. rewrite andb_true_iff, List.Forall_app, IH, H. reflexivity.
Qed.
Lemma forallb_some {A} (f : A -> bool) l : forallb (opt_all f) (map Some l) = forallb f l.
Proof. induction l as [|x l IH]; [reflexivity|]. cbn. now rewrite IH. Qed.
Ltac inst := intros; rewrite ?andb_true_iff, ?time_ok_iff, ?List.Forall_cons_iff, ?List.Forall_nil_iff; tauto.
Lemma user_times_iff u : raw_user_times (to_raw_user u) = true <-> Forall in_years (user_instants u).
Proof.
  unfold raw_user_times, user_instants. cbn [raw_user raw_passwords raw_keys to_raw_user].
  change (u_pubkeys (u <| u_emails := [] |> <| u_passwords := [] |> <| u_apikeys := [] |>)) with (u_pubkeys u).
  change (u_mfa (u <| u_emails := [] |> <| u_passwords := [] |> <| u_apikeys := [] |>)) with (u_mfa u).
  change (u_lockout (u <| u_emails := [] |> <| u_passwords := [] |> <| u_apikeys := [] |>)) with (u_lockout u).
  change (u_created (u <| u_emails := [] |> <| u_passwords := [] |> <| u_apikeys := [] |>)) with (u_created u).
  change (u_modified (u <| u_emails := [] |> <| u_passwords := [] |> <| u_apikeys := [] |>)) with (u_modified u).
  rewrite !forallb_some, !andb_true_iff, !List.Forall_app.
  rewrite (forallb_flat password_times password_instants), (forallb_flat pubkey_times pubkey_instants), (forallb_flat apikey_times apikey_instants), (forallb_flat mfa_times mfa_instants).
  - rewrite !time_ok_iff. assert (opt_all lockout_times (u_lockout u) = true <-> Forall in_years (match u_lockout u with Some l => [lk_start l; lk_end l] | None => [] end)) as ->.
    { destruct (u_lockout u) as [l|]; cbn; [unfold lockout_times; inst|split; auto]. }
    rewrite !List.Forall_cons_iff. assert (Forall in_years []) by constructor. tauto.
  - intros x. unfold mfa_times, mfa_instants. inst.
  - intros x. unfold apikey_times, apikey_instants. inst.
  - intros x. unfold pubkey_times, pubkey_instants. inst.
  - intros x. unfold password_times, password_instants. inst.
Qed.
Lemma marshal_iff c : (exists s, marshal c = Some s) <-> Forall in_years (content_instants c).
Proof.
  assert (raw_times (to_raw c) = true <-> Forall in_years (content_instants c)) as K.
  { unfold raw_times, content_instants. cbn [rc_modified rc_users to_raw]. rewrite andb_true_iff, time_ok_iff, List.Forall_cons_iff.
    assert (forallb (opt_all raw_user_times) (map (fun u => Some (to_raw_user u)) (c_users c)) = forallb (fun u => raw_user_times (to_raw_user u)) (c_users c)) as ->.
    { induction (c_users c) as [|u l IH]; [reflexivity|]. cbn [map forallb]. rewrite IH. reflexivity. }
    rewrite (forallb_flat _ user_instants); [reflexivity|]. apply user_times_iff. }
  rewrite <- K. unfold marshal, marshal_raw. destruct raw_times; split; intros H; try (destruct H; discriminate); eauto; discriminate.
Qed.
Lemma round_trip c : content_typed c -> all_utf8 (content_texts c) -> Forall in_years (content_instants c) ->
  exists s, marshal c = Some s /\ unmarshal s = DOk (to_raw (drop_caches c)).
Proof.
  intros T U Y. apply marshal_iff in Y as [s M]. exists s. split; [exact M|]. rewrite <- (keep_content _ U). now apply unmarshal_marshal.
Qed.

(** ** Policy *)
Lemma enforce_filled p : policy_filled p (enforce_policy p).
Proof.
  destruct p as [[a b c d e f g h i] [j k l m]]. unfold enforce_policy, dflt. split; cbn; try (repeat split; reflexivity).
  all: unfold filled; match goal with |- context[(?x =? 0)%Z] => destruct (Z.eqb_spec x 0) end; split; intros; congruence.
Qed.
Lemma policy_changed_iff p : policy_changed p = false <-> limits_set p.
Proof. unfold policy_changed, limits_set. rewrite !orb_false_iff, !Z.eqb_neq. tauto. Qed.
Lemma unchanged_filled p : limits_set p -> policy_filled p p.
Proof. intros (A & B & C & D & F). split; try (split; tauto). Qed.
Lemma load_users_content E l : forall db db', load_users E db l = Loaded db' -> db_policy db' = db_policy db.
Proof.
  induction l as [|[r|] l IH]; intros db db'; cbn [load_users]; [now intros [=->]| |discriminate].
  destruct load_user as [d| |] eqn:L; try discriminate. intros H. apply IH in H. rewrite H. clear - L. revert L. unfold load_user. cbv zeta.
  destruct raw_valid; [discriminate|]. destruct lookup; [discriminate|]. destruct lookup; [discriminate|]. destruct load_emails as [[]| |]; try discriminate.
  destruct load_passwords; [|discriminate]. destruct load_keys as [[]| |]; try discriminate. now intros [=<-].
Qed.
Lemma open_policy E nd fp fs fs' db : new_database E nd fp fs = (fs', Loaded db) ->
  limits_set (db_policy db) /\
  match (if String.eqb fp "" then None else fs !! fp) with
  | None => policy_filled policy_z (db_policy db)
  | Some _ => exists b c, read_file E nd fs fp = Some b /\ unmarshal b = DOk c /\ policy_filled (rc_policy c) (db_policy db)
  end.
Proof.
  intros H. split; [apply policy_changed_iff; eapply inv_policy; eapply inv_open; eauto|]. revert H.
  unfold new_database. destruct nd_stat_err; [discriminate|]. destruct (if String.eqb fp "" then None else fs !! fp) as [[b|]|]; [|discriminate|].
  - destruct read_file as [b'|]; [|discriminate]. intros H. exists b'. revert H. unfold load_bytes. destruct unmarshal as [c| |]; try discriminate. intros H. exists c. split; [reflexivity|]. split; [reflexivity|]. revert H.
    destruct policy_changed eqn:P.
    + cbv zeta. destruct write_db as [f []]; try discriminate. intros [= _ H]. apply load_users_content in H. rewrite H. exact (enforce_filled (rc_policy c)).
    + intros [= _ H]. apply load_users_content in H. rewrite H. apply unchanged_filled. now apply policy_changed_iff.
  - destruct nd_mkdir_err; [discriminate|]. cbv zeta. destruct write_db as [f []]; try discriminate. intros [= _ <-]. exact (enforce_filled policy_z).
Qed.

(** ** Torn files *)
Lemma torn E nd fp fs c s k : marshal_raw c = Some s -> (k < String.length s)%nat -> plain_path fp -> fs !! fp = Some (File (take k s)) ->
  exists e, new_database E nd fp fs = (fs, LErr e).
Proof.
  intros M K (Ne & T)%plain_prefix F. unfold new_database. destruct nd_stat_err; [eauto|]. apply String.eqb_neq in Ne. rewrite Ne, F.
  destruct read_file as [b|] eqn:R; [|eauto]. revert R. unfold read_file, expand. destruct nd_read_err; [discriminate|]. rewrite T, F. intros [=<-].
  unfold load_bytes. rewrite (unmarshal_truncated c s k M K). eauto.
Qed.
(** A crash inside the write leaves some prefix of the new text in the file. *)
Lemma crash_leaves E nd op db fs r : o_res (exec E nd op db fs r) = OCrash ->
  exists k s, nd_write nd = IoCrash k /\ marshal (db_content (o_db (exec E nd op db fs r))) = Some s /\ written_path op db <> "" /\
    o_fs (exec E nd op db fs r) = <[written_path op db := File (take k s)]> fs.
Proof.
  intros H. destruct (exec_shape E nd op db fs r) as [_ _ N _|db1 res Eff C O]; [now destruct N|].
  assert (res = CCrash) as -> by (destruct res; cbn in O; [congruence|destruct O; congruence|reflexivity]).
  apply commit_to_inv in C as [Hd W]. rewrite Hd, <- target_written. revert W. unfold write_db.
  change (db_content (db1 <| db_content ::= bump nd |>)) with (bump nd (db_content db1)).
  destruct (marshal (bump nd (db_content db1))) as [s|]; [|discriminate]. unfold write_file. destruct (String.eqb (target op db) "") eqn:Ne; [discriminate|]. apply String.eqb_neq in Ne.
  destruct (fs !! target op db) as [[b|]|]; try discriminate; destruct (nd_write nd) as [| |k|k]; try discriminate; intros [=<-]; exists k, s; auto.
Qed.
Lemma take_all k s : (String.length s <= k)%nat -> take k s = s.
Proof. revert k. induction s as [|c s IH]; intros [|k] H; cbn in *; try reflexivity; try lia. f_equal. apply IH. lia. Qed.

(** ** Failing writes *)
Lemma keep_io nd nd' k l : nd_clock nd' = nd_clock nd -> forall i, keep_passwords nd' k i l = keep_passwords nd k i l.
Proof. intros H. induction l as [|p l IH]; intros i; cbn [keep_passwords]; [reflexivity|]. rewrite IH. unfold pw_disable. now rewrite H. Qed.
Lemma change_io E nd nd' u r k : nd_clock nd' = nd_clock nd -> nd_salt nd' = nd_salt nd -> change_password E nd' u r k = change_password E nd u r k.
Proof.
  intros H H'. unfold change_password, add_password. destruct (verify_password E u _); [reflexivity|].
  assert (new_password E nd' (ru_password (rq_user r)) = new_password E nd (ru_password (rq_user r))) as ->
    by (unfold new_password, new_password_opt, pw_hash_of; now rewrite H, H').
  destruct (new_password E nd _) as [p|e]; [|reflexivity]. cbv zeta. rewrite (keep_io nd nd' _ _ H).
  destruct nd, nd'. cbn in H. subst. reflexivity.
Qed.
Lemma upd_io E nd nd' pol r u op u' : but_write nd nd' -> upd E nd pol r u op u' -> upd E nd' pol r u op u'.
Proof.
  destruct nd, nd'. intros (A & B & C & D & F & G & H). cbn in *. subst. intros [v Hv|v Hv|v Hp Hv|q v Hv|v Hv].
  - apply UpdAddPk. exact Hv.
  - apply UpdDelPk. exact Hv.
  - apply UpdPw; [exact Hp|]. rewrite <- Hv. now apply change_io.
  - eapply UpdAddMfa. exact Hv.
  - apply UpdDelMfa. exact Hv.
Qed.
Lemma roles_io nd nd' l : nd_clock nd' = nd_clock nd -> forall u, add_roles nd' u l = add_roles nd u l.
Proof.
  intros H. induction l as [|s l IH]; intros u; cbn [add_roles]; [reflexivity|].
  assert (add_role nd' u s = add_role nd u s) as -> by (destruct nd, nd'; cbn in H; subst; reflexivity).
  destruct (add_role nd u s); [apply IH|reflexivity].
Qed.
Lemma pick_io db nd nd' : nd_uuid nd' = nd_uuid nd -> forall n i s, pick_id db nd' i n s = pick_id db nd i n s.
Proof. intros H. induction n as [|n IH]; intros i s; cbn [pick_id]; [reflexivity|]. rewrite H, IH. reflexivity. Qed.
Lemma roles_user_io E nd nd' a b c d l : but_write nd nd' -> new_user_with_roles E nd' a b c d l = new_user_with_roles E nd a b c d l.
Proof.
  intros B. unfold new_user_with_roles.
  assert (new_user nd' a = new_user nd a) as -> by (destruct nd, nd', B as (B1 & B2 & _); cbn in *; subst; reflexivity).
  assert (forall u, add_password E nd' u b 0 = add_password E nd u b 0) as P.
  { intros u. destruct B as (H & _ & _ & _ & _ & H' & _). unfold add_password.
    assert (new_password E nd' b = new_password E nd b) as -> by (unfold new_password, new_password_opt, pw_hash_of; now rewrite H, H').
    destruct (new_password E nd _) as [p|e]; [|reflexivity]. cbv zeta. rewrite (keep_io nd nd' _ _ H).
    destruct nd, nd'. cbn in H. subst. reflexivity. }
  rewrite P. clear P. destruct (add_password E nd _ _ _) as [u|e]; [|reflexivity].
  assert (add_email nd' u c = add_email nd u c) as -> by (destruct nd, nd', B as (B1 & _); cbn in *; subst; reflexivity).
  destruct (add_email nd u c) as [v|e]; [|reflexivity]. rewrite (roles_io nd nd') by apply B.
  destruct (add_roles nd v l) as [w|e]; [|reflexivity]. destruct nd, nd', B as (B1 & _); cbn in *; subst; reflexivity.
Qed.
Lemma effect_io E nd nd' db r op db1 : but_write nd nd' -> effect E nd db r op db1 -> effect E nd' db r op db1.
Proof.
  intros B [| |u0 addrs u P N U Hu Ha|op' i u u' V K|i u s hk u' V R H K A|i u u' r' V H].
  - constructor.
  - constructor.
  - rewrite <- (roles_user_io E nd nd' _ _ _ _ _ B) in N. rewrite <- (pick_io db nd nd') in U by apply B. exact (EffUser _ _ _ _ u0 addrs _ P N U Hu Ha).
  - exact (EffUpd _ _ _ _ _ i u u' V (upd_io _ _ _ _ _ _ _ _ B K)).
  - destruct nd, nd'. destruct B as (B1 & B2 & B3 & B4 & B5 & B6 & B7). cbn in *. subst. refine (EffAddKey _ _ _ _ i u s hk u' V _ _ K _); [exact R|exact H|exact A].
  - destruct nd, nd'. destruct B as (B1 & B2 & B3 & B4 & B5 & B6 & B7). cbn in *. subst. refine (EffDelKey _ _ _ _ i u u' r' V _); exact H.
Qed.
Lemma failed_write_kept E nd nd' op db fs fs' r : but_write nd nd' -> writes op -> o_res (exec E nd op db fs r) = OOk ->
  o_db (exec E nd' op db fs' r) = o_db (exec E nd op db fs r) /\
  (o_res (exec E nd' op db fs' r) = OOk <-> can_write nd' fs' (written_path op db) (db_content (o_db (exec E nd op db fs r)))).
Proof.
  intros B W O. destruct (exec_shape E nd op db fs r) as [_ _ _ N|db1 res Eff C Oc]; [exfalso; apply commits_writes in W; exact (N W O)|].
  apply commit_to_inv in C as [Hd _]. destruct (effect_exec E nd' db fs' r op db1 (effect_io _ _ _ _ _ _ _ B Eff)) as (res' & C' & O').
  pose proof (commit_res _ _ _ _ _ _ _ C') as CR. apply commit_to_inv in C' as [Hd' _].
  assert (o_db (exec E nd' op db fs' r) = o_db (exec E nd op db fs r)) as Heq.
  { rewrite Hd, Hd'. assert (forall c, bump nd' c = bump nd c) as X by (intros c; unfold bump; destruct B as (-> & _); reflexivity).
    unfold set; cbn. f_equal. apply X. }
  split; [exact Heq|]. rewrite <- Heq, <- target_written, <- CR. now apply outcome_ok.
Qed.
(** A call that returns an error: nothing changed, or the change was made and only the write failed. *)
Lemma error_cases E nd op db fs r e : o_res (exec E nd op db fs r) = OErr e -> let o := exec E nd op db fs r in
  (o_fs o = fs /\ drop_caches (db_content (o_db o)) = drop_caches (db_content db) /\ (writes op -> o_db o = db)) \/
  (writes op /\ ~ can_write nd fs (written_path op db) (db_content (o_db o)) /\ (forall nd' fs', but_write nd nd' ->
     can_write nd' fs' (written_path op db) (db_content (o_db o)) -> o_res (exec E nd' op db fs' r) = OOk /\ o_db (exec E nd' op db fs' r) = o_db o)).
Proof.
  intros Er o. unfold o. destruct (exec_shape E nd op db fs r) as [Fs R _ N|db1 res Eff C Oc].
  - left. split; [exact Fs|]. split.
    + destruct R as [op|i u u' res G P V]; [reflexivity|]. pose proof (verify_webauthn_uncache E u r) as Hs. rewrite V in Hs. cbn in Hs.
      assert (map no_cache (db_users (set_user db i u')) = map no_cache (db_users db)) as K; [|destruct db as [[]]; exact (f_equal (Build_Content _ _ _ _) K)].
      rewrite set_user_users, list_fmap_insert.
      assert (no_cache u' = no_cache u) as ->.
      { destruct Hs as (m & -> & F2). destruct u. cbn in *. unfold no_cache. unfold set. cbn. f_equal. clear - F2. induction F2 as [|x y l k [H _] _ IH]; [reflexivity|]. cbn [map]. rewrite IH. f_equal. now symmetry. }
      apply list_insert_id. rewrite list_lookup_fmap. assert (db_users db !! i = Some u) as ->; [|reflexivity].
      unfold get_user, by_email, by_username, at_ref in G. destruct contains; destruct Z.ltb; try discriminate; destruct lookup as [j|]; try discriminate; destruct (db_users db !! j) eqn:X; try discriminate; injection G as -> ->; exact X.
    + intros W. destruct R as [|]; [reflexivity|]. exfalso. apply W. cbn. tauto.
  - right. assert (W : writes op) by (apply commits_writes; exact (effect_commits _ _ _ _ _ _ Eff)). split; [exact W|].
    pose proof (commit_res _ _ _ _ _ _ _ C) as CR. pose proof C as C0. apply commit_to_inv in C0 as [Hd _].
    rewrite <- target_written. split; [intros H; apply CR in H; subst res; cbn in Oc; congruence|].
    intros nd' fs' B CW. destruct (effect_exec E nd' db fs' r op db1 (effect_io _ _ _ _ _ _ _ B Eff)) as (res' & C' & O').
    pose proof (commit_res _ _ _ _ _ _ _ C') as CR'. apply commit_to_inv in C' as [Hd' _].
    assert (o_db (exec E nd' op db fs' r) = o_db (exec E nd op db fs r)) as Heq.
    { rewrite Hd, Hd'. assert (forall c, bump nd' c = bump nd c) as X by (intros c; unfold bump; destruct B as (-> & _); reflexivity).
      unfold set; cbn. f_equal. apply X. }
    split; [|exact Heq]. apply (outcome_ok res'); [exact O'|]. apply CR'. now rewrite Heq.
Qed.
