(** Which files open: consistency, nulls, home directory paths. *)
From Coq Require Import String Ascii ZArith NArith Lia Bool Arith List.
From Coq Require Import ZifyBool ZifyNat ZifyN.
From stdpp Require Import gmap strings.
From RecordUpdate Require Import RecordSet.
From Verif Require Import GoStr Utf8 Codec GoErr Role Name Email Random SpecValue RoleFacts EmailFacts RandomFacts.
From Verif Require Import Types Env Password ApiKey PublicKey Mfa User Json GoTime Persist Fs Database System UserFacts DbFacts Inv LoadFacts.
From Verif Require Import SpecDb AccountFacts StepFacts SpecAuth ApiKeyFacts MfaFacts SpecPersist JsonFacts PersistFacts StoredFacts ReloadFacts TwinFacts ReopenFacts FileFacts.
Import ListNotations.
Import RecordSetNotations.
Open Scope string_scope.
#[local] Opaque int64 new_id trim_space new_email new_role.

(** ** Decoded accounts *)
Lemma decodes_load E db r u : decodes (Some r) u -> load_user E db r = load_user E db (to_raw_user u).
Proof.
  intros (q & [=<-] & A & B & C & D). destruct r as [v es ps ks]. cbn in A, B, C. subst es ps ks.
  unfold load_user, raw_valid. cbn [raw_user raw_emails raw_passwords raw_keys to_raw_user]. cbn [raw_user] in D.
  destruct u, v. cbn in D. injection D as ?. subst. reflexivity.
Qed.
Lemma fix_algo_set p : fix_algo p = if String.eqb (pw_algorithm p) "" then set pw_algorithm (fun _ => "bcrypt") p else p.
Proof. reflexivity. Qed.
Lemma fix_twice p : fix_algo (fix_algo p) = fix_algo p.
Proof. unfold fix_algo. destruct (String.eqb (pw_algorithm p) "") eqn:X; [reflexivity|]. now rewrite X. Qed.
Lemma algorithm_load E db u : load_user E db (to_raw_user u) = load_user E db (to_raw_user (with_algorithm u)).
Proof.
  assert (load_passwords (map Some (u_passwords u)) = Some (map fix_algo (u_passwords u))) as L1 by (apply load_passwords_ok; eauto).
  assert (load_passwords (map Some (map fix_algo (u_passwords u))) = Some (map fix_algo (u_passwords u))) as L2.
  { apply load_passwords_ok. exists (map fix_algo (u_passwords u)). split; [reflexivity|]. rewrite map_map. apply map_ext. intros p. symmetry. apply fix_twice. }
  assert (u_passwords (with_algorithm u) = map fix_algo (u_passwords u)) as HP by reflexivity.
  unfold load_user. cbv zeta.
  assert (raw_valid (to_raw_user (with_algorithm u)) = raw_valid (to_raw_user u)) as ->.
  { unfold raw_valid. cbv zeta. change (raw_passwords (to_raw_user (with_algorithm u))) with (map Some (u_passwords (with_algorithm u))). rewrite HP.
    change (raw_passwords (to_raw_user u)) with (map Some (u_passwords u)). destruct (u_passwords u); reflexivity. }
  change (raw_passwords (to_raw_user (with_algorithm u))) with (map Some (u_passwords (with_algorithm u))). rewrite HP, L2.
  change (raw_passwords (to_raw_user u)) with (map Some (u_passwords u)). rewrite L1. destruct u. reflexivity.
Qed.

(** ** Consistency *)
Lemma nodup_at {A B} (f : A -> B) l : NoDup (map f l) <-> forall p q x y, l !! p = Some x -> l !! q = Some y -> f x = f y -> p = q.
Proof.
  rewrite NoDup_alt. split.
  - intros H p q x y Hp Hq E. apply (H p q (f x)); rewrite list_lookup_fmap; [now rewrite Hp|now rewrite Hq, E].
  - intros H p q z Hp Hq. rewrite list_lookup_fmap in Hp, Hq. apply fmap_Some in Hp as (x & Hp & ->). apply fmap_Some in Hq as (y & Hq & E). eauto.
Qed.
Lemma in_at {A} (x : A) l : In x l <-> exists p, l !! p = Some x.
Proof. rewrite <- elem_of_list_In. apply elem_of_list_lookup. Qed.
Lemma inv_consistent E db : Inv E db -> ids_unique db -> keys_exact db -> consistent E (db_users db) /\ indexed E db.
Proof.
  intros HI HU HK. split.
  - split.
    + exact (inv_valid _ _ HI).
    + intros i j u v Hu Hv S. assert (A : ref_username db !! lower E (u_username u) = Some i) by (apply (inv_name _ _ HI); eauto).
      assert (B : ref_username db !! lower E (u_username v) = Some j) by (apply (inv_name _ _ HI); eauto). unfold same_ci in S. congruence.
    + exact HU.
    + intros i j u v p q e f Hu Hv He Hf S. unfold same_ci in S.
      assert (A : ref_email db !! lower E (em_address e) = Some i).
      { apply (inv_email _ _ HI). exists u. split; [assumption|]. unfold addrs_of. apply in_map_iff. exists e. split; [reflexivity|]. apply in_at. eauto. }
      assert (B : ref_email db !! lower E (em_address f) = Some j).
      { apply (inv_email _ _ HI). exists v. split; [assumption|]. unfold addrs_of. apply in_map_iff. exists f. split; [reflexivity|]. apply in_at. eauto. }
      assert (i = j) as -> by congruence. split; [reflexivity|]. assert (u = v) as -> by congruence.
      pose proof (inv_email_nodup _ _ HI _ _ Hv) as N. unfold addrs_of in N. rewrite nodup_at in N. exact (N p q e f He Hf S).
    + intros i j u v p q k l Hu Hv He Hf S.
      assert (A : ref_apikey db !! ak_prefix k = Some i) by (apply (inv_key _ _ HI i u); [assumption|]; apply in_at; eauto).
      assert (B : ref_apikey db !! ak_prefix l = Some j) by (apply (inv_key _ _ HI j v); [assumption|]; apply in_at; eauto).
      assert (i = j) as -> by congruence. split; [reflexivity|]. assert (u = v) as -> by congruence.
      pose proof (inv_key_nodup _ _ HI _ _ Hv) as N. rewrite nodup_at in N. exact (N p q k l He Hf S).
  - split.
    + exact (inv_name _ _ HI).
    + intros s i. split; [apply (inv_id_dom _ _ HI)|]. intros (u & Hu & <-). destruct (inv_id_cod _ _ HI _ _ Hu) as [j Hj].
      rewrite Hj. apply (inv_id_dom _ _ HI) in Hj as (v & Hv & Ev). f_equal. exact (HU _ _ _ _ Hv Hu Ev).
    + intros s i. rewrite (inv_email _ _ HI). unfold addrs_of. split.
      * intros (u & Hu & Ha). apply in_map_iff in Ha as (e & <- & He). eauto 6.
      * intros (u & e & Hu & He & <-). exists u. split; [exact Hu|]. apply in_map_iff. eauto.
    + intros s i. split; [apply HK|]. intros (u & k & Hu & Hk & <-). exact (inv_key _ _ HI _ _ _ Hu Hk).
Qed.
Lemma algorithm_at us i v : map with_algorithm us !! i = Some v <-> exists u, us !! i = Some u /\ v = with_algorithm u.
Proof. rewrite list_lookup_fmap, fmap_Some. reflexivity. Qed.
Lemma algorithm_consistent E us : consistent E (map with_algorithm us) <-> consistent E us.
Proof.
  assert (P : forall u, u_passwords (with_algorithm u) <> [] <-> u_passwords u <> []) by (intros u; unfold with_algorithm; cbn; destruct (u_passwords u); split; intros H ?; try discriminate; now apply H).
  split; intros [A B C D F]; split.
  - intros i u Hu. destruct (A i (with_algorithm u)) as (A1 & A2 & A3); [apply algorithm_at; eauto|]. split; [exact A1|]. split; [exact A2|]. now apply P.
  - intros i j u v Hu Hv. exact (B i j (with_algorithm u) (with_algorithm v) (proj2 (algorithm_at _ _ _) (ex_intro _ u (conj Hu eq_refl))) (proj2 (algorithm_at _ _ _) (ex_intro _ v (conj Hv eq_refl)))).
  - intros i j u v Hu Hv. exact (C i j (with_algorithm u) (with_algorithm v) (proj2 (algorithm_at _ _ _) (ex_intro _ u (conj Hu eq_refl))) (proj2 (algorithm_at _ _ _) (ex_intro _ v (conj Hv eq_refl)))).
  - intros i j u v p q e f Hu Hv. exact (D i j (with_algorithm u) (with_algorithm v) p q e f (proj2 (algorithm_at _ _ _) (ex_intro _ u (conj Hu eq_refl))) (proj2 (algorithm_at _ _ _) (ex_intro _ v (conj Hv eq_refl)))).
  - intros i j u v p q e f Hu Hv. exact (F i j (with_algorithm u) (with_algorithm v) p q e f (proj2 (algorithm_at _ _ _) (ex_intro _ u (conj Hu eq_refl))) (proj2 (algorithm_at _ _ _) (ex_intro _ v (conj Hv eq_refl)))).
  - intros i v Hv. apply algorithm_at in Hv as (u & Hu & ->). destruct (A i u Hu) as (A1 & A2 & A3). split; [exact A1|]. split; [exact A2|]. now apply P.
  - intros i j x y Hx Hy. apply algorithm_at in Hx as (u & Hu & ->). apply algorithm_at in Hy as (v & Hv & ->). exact (B i j u v Hu Hv).
  - intros i j x y Hx Hy. apply algorithm_at in Hx as (u & Hu & ->). apply algorithm_at in Hy as (v & Hv & ->). exact (C i j u v Hu Hv).
  - intros i j x y p q e f Hx Hy. apply algorithm_at in Hx as (u & Hu & ->). apply algorithm_at in Hy as (v & Hv & ->). exact (D i j u v p q e f Hu Hv).
  - intros i j x y p q e f Hx Hy. apply algorithm_at in Hx as (u & Hu & ->). apply algorithm_at in Hy as (v & Hv & ->). exact (F i j u v p q e f Hu Hv).
Qed.
Lemma load_users_decoded E l : forall db db', load_users E db l = Loaded db' ->
  exists us, Forall2 decodes l us /\ db_users db' = (db_users db ++ map with_algorithm us)%list.
Proof.
  induction l as [|[r|] l IH]; intros db db'; cbn [load_users].
  - intros [=<-]. exists []. split; [constructor|]. cbn. now rewrite app_nil_r.
  - destruct load_user as [d| |] eqn:L; try discriminate. intros H. apply IH in H as (us & F & U).
    apply load_user_ok in L as (es & ps & ks & A & B & C & -> & _).
    exists (loaded_user r es ps ks :: us). split.
    + constructor; [|assumption]. exists r. split; [reflexivity|]. split; [exact A|]. split; [exact B|]. split; [exact C|]. reflexivity.
    + rewrite U. unfold with_loaded. cbn [map]. rewrite cons_middle, app_assoc. reflexivity.
  - discriminate.
Qed.
Lemma load_users_decodes E l us : Forall2 decodes l us -> forall db, load_users E db l = load_users E db (map (fun u => Some (to_raw_user u)) (map with_algorithm us)).
Proof.
  intros F. induction F as [|x u l us D F IH]; intros db; [reflexivity|]. pose proof D as (r & -> & _). cbn [map load_users].
  rewrite (decodes_load E db r u D), algorithm_load. destruct (load_user E db (to_raw_user (with_algorithm u))); auto.
Qed.
Lemma consistent_loads E fp c l us : policy_changed (rc_policy c) = false -> Forall2 decodes l us -> consistent E us ->
  exists db, load_users E (empty_db fp c) l = Loaded db /\ db_users db = map with_algorithm us.
Proof.
  intros P F C. rewrite (load_users_decodes _ _ _ F). apply algorithm_consistent in C.
  assert (AL : Forall (fun v => Forall (fun p => pw_algorithm p <> "") (u_passwords v)) (map with_algorithm us)).
  { apply List.Forall_forall. intros v Hv. apply in_map_iff in Hv as (u & <- & _). apply List.Forall_forall. intros p Hp. unfold with_algorithm in Hp. cbn in Hp.
    apply in_map_iff in Hp as (q & <- & _). destruct (String.eqb (pw_algorithm q) "") eqn:X; [discriminate|]. now apply String.eqb_neq in X. }
  set (vs := map with_algorithm us) in *. clearbody vs. clear F us.
  destruct (inv_empty E fp c P) as (I0 & U0 & K0). destruct C as [A B C D G].
  destruct (load_users_complete E vs (empty_db fp c) I0 U0 K0) as (db & L & Cn & _).
  - apply List.Forall_forall. intros u Hu. rewrite List.Forall_forall in AL. pose proof (AL _ Hu) as Al. apply in_at in Hu as [i Hi]. destruct (A i u Hi) as (A1 & A2 & A3).
    split; auto.
    + unfold addrs_of. apply nodup_at. intros p q e f Hp Hq S. exact (proj2 (D i i u u p q e f Hi Hi Hp Hq S)).
    + apply nodup_at. intros p q e f Hp Hq S. exact (proj2 (G i i u u p q e f Hi Hi Hp Hq S)).
  - intros i j u v Hu Hv N. cbn in Hu, Hv. split.
    + intros S. pose proof (B i j u v Hu Hv S). lia.
    + intros S. pose proof (C i j u v Hu Hv S). lia.
    + intros a Ha Hb. unfold addrs_of in *. apply in_map_iff in Ha as (e & <- & He). apply in_map_iff in Hb as (f & S & Hf).
      apply in_at in He as [p Hp]. apply in_at in Hf as [q Hq]. destruct (D i j u v p q e f Hu Hv Hp Hq (eq_sym S)). lia.
    + intros a Ha Hb. apply in_map_iff in Ha as (e & <- & He). apply in_map_iff in Hb as (f & S & Hf).
      apply in_at in He as [p Hp]. apply in_at in Hf as [q Hq]. destruct (G i j u v p q e f Hu Hv Hp Hq (eq_sym S)). lia.
  - exists db. split; [exact L|]. unfold db_users. rewrite Cn. reflexivity.
Qed.
(** What was read, when a file was there and opening it succeeded. *)
Lemma open_reads E nd fp fs fs' res n : new_database E nd fp fs = (fs', res) -> fp <> "" -> fs !! fp = Some n -> (forall e, res <> LErr e) -> res <> LUnmod -> res <> LCrash ->
  exists b c pol rev t fs2, read_file E nd fs fp = Some b /\ unmarshal b = DOk c /\ fs' = fs2 /\
    res = load_users E (empty_db fp {| rc_version := rc_version c; rc_policy := pol; rc_revision := rev; rc_modified := t; rc_users := rc_users c |}) (rc_users c) /\
    policy_changed pol = false.
Proof.
  unfold new_database. intros H Ne F. apply String.eqb_neq in Ne. rewrite Ne, F in H. intros NE NU NC.
  destruct nd_stat_err; [injection H as <- <-; now destruct (NE _ eq_refl)|].
  destruct n as [b|]; [|injection H as <- <-; now destruct (NE _ eq_refl)].
  destruct read_file as [b'|]; [|injection H as <- <-; now destruct (NE _ eq_refl)].
  exists b'. revert H. unfold load_bytes. destruct unmarshal as [c| |]; [|intros [=<- <-]; now destruct (NE _ eq_refl)|now intros [=<- <-]].
  exists c. revert H. cbv zeta. destruct policy_changed eqn:P.
  - destruct write_db as [f []]; [|intros [=<- <-]; now destruct (NE _ eq_refl)|now intros [=<- <-]].
    intros [= <- <-]. exists (enforce_policy (rc_policy c)), ((rc_revision c + 1) mod two64N)%N, (nd_clock nd), f. repeat split; auto. apply policy_enforced.
  - intros [= <- <-]. exists (rc_policy c), (rc_revision c), (rc_modified c), fs. repeat split; auto.
Qed.
Lemma open_sound E nd fp fs fs' db : new_database E nd fp fs = (fs', Loaded db) ->
  consistent E (db_users db) /\ indexed E db /\
  (fp <> "" -> is_Some (fs !! fp) -> exists b c us, read_file E nd fs fp = Some b /\ unmarshal b = DOk c /\ Forall2 decodes (rc_users c) us /\
    consistent E us /\ db_users db = map with_algorithm us).
Proof.
  intros H. destruct (inv_open _ _ _ _ _ _ H) as (HI & HU & HK). destruct (inv_consistent _ _ HI HU HK) as [C I]. split; [exact C|]. split; [exact I|].
  intros Ne [n F]. destruct (open_reads _ _ _ _ _ _ _ H Ne F) as (b & c & pol & rev & t & fs2 & R & U & _ & L & _); try discriminate.
  symmetry in L. apply load_users_decoded in L as (us & D & Us). exists b, c, us. split; [exact R|]. split; [exact U|]. split; [exact D|]. cbn in Us.
  split; [|exact Us]. apply algorithm_consistent. now rewrite <- Us.
Qed.
Lemma decoded_no_panic E db l us : Forall2 decodes l us -> load_users E db l <> LPanic.
Proof.
  intros D. rewrite (load_users_decodes _ _ _ D). generalize db. generalize (map with_algorithm us). clear.
  intros k. induction k as [|u k IH]; intros db; cbn [map load_users]; [discriminate|].
      destruct (load_user E db (to_raw_user u)) eqn:X; [apply IH|discriminate|]. intros _. revert X. unfold load_user. cbv zeta.
      destruct raw_valid; [discriminate|]. destruct lookup; [discriminate|]. destruct lookup; [discriminate|].
      change (raw_emails (to_raw_user u)) with (map Some (u_emails u)).
      destruct (load_emails _ _ _ _) as [[]| |] eqn:LE; [|discriminate|].
      * change (raw_passwords (to_raw_user u)) with (map Some (u_passwords u)). assert (load_passwords (map Some (u_passwords u)) = Some (map fix_algo (u_passwords u))) as -> by (apply load_passwords_ok; eauto).
        change (raw_keys (to_raw_user u)) with (map Some (u_apikeys u)). destruct (load_keys _ _ _) as [[]| |] eqn:LK; [discriminate|discriminate|].
        intros _. revert LK. generalize (ref_apikey db), (List.length (db_users db)). induction (u_apikeys u) as [|k0 ks IHk]; intros m0 i; cbn [map load_keys]; [discriminate|].
        destruct lookup; [discriminate|]. destruct load_keys as [[]| |] eqn:K; try discriminate. intros _. exact (IHk _ _ K).
      * intros _. revert LE. generalize (ref_email db), (List.length (db_users db)). induction (u_emails u) as [|k0 ks IHk]; intros m0 i; cbn [map load_emails]; [discriminate|].
        cbv zeta. destruct lookup; [discriminate|]. destruct load_emails as [[]| |] eqn:K; try discriminate. intros _. exact (IHk _ _ K).
Qed.
Lemma open_complete E nd fp fs b c us : plain_path fp -> readable nd -> fs !! fp = Some (File b) -> unmarshal b = DOk c -> limits_set (rc_policy c) ->
  Forall2 decodes (rc_users c) us ->
  (consistent E us -> exists db, new_database E nd fp fs = (fs, Loaded db) /\ db_users db = map with_algorithm us) /\
  (~ consistent E us -> exists e, new_database E nd fp fs = (fs, LErr e)).
Proof.
  intros (Ne & T)%plain_prefix [R1 R2] F U P D. apply policy_changed_iff in P. unfold new_database. rewrite R1. apply String.eqb_neq in Ne. rewrite Ne, F.
  unfold read_file, expand. rewrite R2, T, F. unfold load_bytes. rewrite U, P. split.
  - intros C. destruct (consistent_loads E fp c _ us P D C) as (db & -> & Us). eauto.
  - intros NC. destruct (load_users E (empty_db fp c) (rc_users c)) as [db|e| | |] eqn:L; [|eauto| | |].
    + exfalso. apply NC. destruct (inv_load_empty _ _ _ _ _ P L) as (HI & HU & HK). apply load_users_decoded in L as (vs & Dv & Us). cbn in Us.
      assert (vs = us) as ->.
      { clear - D Dv. revert us D. induction Dv as [|x v l vs Hv _ IH]; intros us D; inversion D as [|? u ? us' Hu D']; subst; [reflexivity|]. rewrite (IH _ D'). f_equal.
        destruct Hv as (r & Er & A1 & A2 & A3 & A4). destruct Hu as (q & Eq & B1 & B2 & B3 & B4). rewrite Er in Eq. injection Eq as <-.
        rewrite A1 in B1. rewrite A2 in B2. rewrite A3 in B3. rewrite A4, B4.
        assert (I : forall X (a b : list X), map Some a = map Some b -> a = b).
        { intros X a. induction a as [|x0 a IHa]; intros [|y b] H; try discriminate; [reflexivity|]. cbn in H. injection H as -> H. f_equal. auto. }
        now rewrite (I _ _ _ B1), (I _ _ _ B2), (I _ _ _ B3). }
      apply algorithm_consistent. rewrite <- Us. now apply inv_consistent.
    + exfalso. exact (decoded_no_panic _ _ _ _ D L).
    + exfalso. revert L. generalize (empty_db fp c). generalize (rc_users c). clear. intros l. induction l as [|[r|] l IH]; intros db; cbn [load_users]; try discriminate. destruct load_user; try discriminate. apply IH.
    + exfalso. revert L. generalize (empty_db fp c). generalize (rc_users c). clear. intros l. induction l as [|[r|] l IH]; intros db; cbn [load_users]; try discriminate. destruct load_user; try discriminate. apply IH.
Qed.

(** ** Nulls *)
Lemma somes {A} (l : list (option A)) : ~ In None l -> exists k, l = map Some k.
Proof.
  induction l as [|[a|] l IH]; intros H; [exists []; reflexivity| |exfalso; apply H; now left]. destruct IH as [k ->]; [intros X; apply H; now right|]. now exists (a :: k).
Qed.
Lemma none_in {A} (l : list (option A)) k : l = map Some k -> ~ In None l.
Proof. intros -> H. apply in_map_iff in H as (x & Hx & _). discriminate. Qed.
Lemma no_null c : ~ has_null c <-> exists us, Forall2 decodes (rc_users c) us.
Proof.
  unfold has_null. generalize (rc_users c) as l. clear c. split.
  - induction l as [|[r|] l IH]; intros H; [exists []; constructor| |exfalso; apply H; left; now left].
    destruct IH as [us F].
    { intros [X|(q & Hq & X)]; apply H; [left; now right|]. right. exists q. split; [now right|exact X]. }
    destruct (somes (raw_emails r)) as [es He]; [intros X; apply H; right; exists r; split; [now left|auto]|].
    destruct (somes (raw_passwords r)) as [ps Hp]; [intros X; apply H; right; exists r; split; [now left|auto]|].
    destruct (somes (raw_keys r)) as [ks Hk]; [intros X; apply H; right; exists r; split; [now left|auto]|].
    exists (loaded_user r es ps ks :: us). constructor; [|exact F]. exists r. split; [reflexivity|]. split; [exact He|]. split; [exact Hp|]. split; [exact Hk|]. reflexivity.
  - intros [us F]. induction F as [|x u l us D F IH]; [intros [[]|(r & [] & _)]|]. destruct D as (q & -> & A & B & C & _).
    intros [[X|X]|(r & [X|X] & H)]; try discriminate; [apply IH; now left| |apply IH; right; eauto].
    injection X as ->. destruct H as [H|[H|H]]; revert H; [exact (none_in _ _ A)|exact (none_in _ _ B)|exact (none_in _ _ C)].
Qed.
Lemma none_dec {A} (l : list (option A)) : In None l \/ ~ In None l.
Proof. induction l as [|[a|] l [H|H]]; [right; intros []|left; now right|right; intros [X|X]; [discriminate|auto]|left; now left|left; now left]. Qed.
Lemma dec_no c : has_null c \/ ~ has_null c.
Proof.
  unfold has_null. generalize (rc_users c) as l. clear c. induction l as [|[r|] l IH].
  - right. intros [[]|(r & [] & _)].
  - destruct IH as [[H|(q & Hq & H)]|IH]; [left; left; now right|left; right; exists q; split; [now right|exact H]|].
    destruct (none_dec (raw_emails r)) as [A|A]; [left; right; exists r; split; [now left|auto]|].
    destruct (none_dec (raw_passwords r)) as [B|B]; [left; right; exists r; split; [now left|auto]|].
    destruct (none_dec (raw_keys r)) as [C|C]; [left; right; exists r; split; [now left|auto]|].
    right. intros [[X|X]|(q & [X|X] & H)]; [discriminate|apply IH; now left| |apply IH; right; eauto]. injection X as ->. tauto.
  - left. left. now left.
Qed.
Lemma panic_null E nd fp fs fs' : new_database E nd fp fs = (fs', LPanic) -> exists b c, read_file E nd fs fp = Some b /\ unmarshal b = DOk c /\ has_null c.
Proof.
  intros H. destruct (String.eqb_spec fp "") as [->|Ne].
  - exfalso. revert H. unfold new_database. destruct nd_stat_err; [discriminate|]. cbn [String.eqb]. destruct nd_mkdir_err; [discriminate|]. cbv zeta. destruct write_db as [f []]; discriminate.
  - destruct (fs !! fp) as [n|] eqn:F.
    + destruct (open_reads _ _ _ _ _ _ _ H Ne F) as (b & c & pol & rev & t & fs2 & R & U & _ & L & _); try discriminate. exists b, c. split; [exact R|]. split; [exact U|].
      symmetry in L. destruct (dec_no c) as [X|X]; [exact X|]. exfalso. apply no_null in X as [us D]. exact (decoded_no_panic _ _ _ _ D L).
    + exfalso. revert H. unfold new_database. apply String.eqb_neq in Ne. rewrite Ne, F. destruct nd_stat_err; [discriminate|]. destruct nd_mkdir_err; [discriminate|]. cbv zeta. destruct write_db as [f []]; discriminate.
Qed.
Lemma null_not_loaded E nd fp fs fs' db b c : read_file E nd fs fp = Some b -> unmarshal b = DOk c -> has_null c -> fp <> "" -> is_Some (fs !! fp) ->
  new_database E nd fp fs <> (fs', Loaded db).
Proof.
  intros R U N Ne F H. apply open_sound in H as (_ & _ & H). destruct (H Ne F) as (b' & c' & us & R' & U' & D & _).
  rewrite R in R'. injection R' as <-. rewrite U in U'. injection U' as <-. apply no_null in N; [exact N|]. eauto.
Qed.
Lemma null_panics E nd fp fs b c us l : plain_path fp -> readable nd -> fs !! fp = Some (File b) -> unmarshal b = DOk c -> limits_set (rc_policy c) ->
  rc_users c = (map (fun u => Some (to_raw_user u)) us ++ None :: l)%list -> consistent E us -> new_database E nd fp fs = (fs, LPanic).
Proof.
  intros (Ne & T)%plain_prefix [R1 R2] F U P D C. apply policy_changed_iff in P. unfold new_database. rewrite R1. apply String.eqb_neq in Ne. rewrite Ne, F.
  unfold read_file, expand. rewrite R2, T, F. unfold load_bytes. rewrite U, P, D. f_equal.
  assert (G : Forall2 decodes (map (fun u => Some (to_raw_user u)) us) us).
  { clear. induction us as [|u us IH]; constructor; [|exact IH]. exists (to_raw_user u). repeat (split; [reflexivity|]). now destruct u. }
  destruct (consistent_loads E fp c _ us P G C) as (db & L & _). revert L. generalize (empty_db fp c). clear. induction us as [|u us IH]; intros d; cbn [map load_users app]; [reflexivity|].
  destruct load_user; try discriminate. apply IH.
Qed.

(** ** Home directory paths *)
Lemma tilde_prefix s : has_prefix (String "~" s) "~" = true.
Proof. unfold has_prefix. cbn -[Ascii.ascii_dec]. match goal with |- (if ?d then _ else _) = _ => destruct d end; [now destruct s|congruence]. Qed.
Lemma tilde_missing E nd s p fs n : e_home E (String "~" s) = Some p -> fs !! String "~" s = Some n -> (forall b, fs !! p <> Some (File b)) ->
  exists e, new_database E nd (String "~" s) fs = (fs, LErr e).
Proof.
  intros H F N. unfold new_database. destruct nd_stat_err; [eauto|]. cbn [String.eqb]. rewrite F. destruct n as [b|]; [|eauto].
  unfold read_file, expand. destruct nd_read_err; [eauto|]. rewrite (tilde_prefix s), H. destruct (fs !! p) as [[c|]|] eqn:X; [|eauto|eauto]. now destruct (N c).
Qed.
(** Only the file at the expanded path is read. *)
Lemma tilde_other E nd s p fs b b' : e_home E (String "~" s) = Some p -> p <> String "~" s -> fs !! String "~" s = Some (File b) ->
  snd (new_database E nd (String "~" s) (<[String "~" s := File b']> fs)) = snd (new_database E nd (String "~" s) fs).
Proof.
  intros H Ne F. set (fs2 := <[String "~" s := File b']> fs). assert (F2 : fs2 !! String "~" s = Some (File b')) by apply lookup_insert.
  assert (P2 : fs2 !! p = fs !! p) by (apply lookup_insert_ne; congruence). clearbody fs2.
  unfold new_database. destruct nd_stat_err; [reflexivity|]. cbn [String.eqb]. rewrite F, F2.
  unfold read_file, expand. destruct nd_read_err; [reflexivity|]. rewrite (tilde_prefix s), H, P2.
  destruct (fs !! p) as [[c|]|]; [|reflexivity|reflexivity]. unfold load_bytes. destruct unmarshal as [rc| |]; [|reflexivity|reflexivity]. cbv zeta.
  destruct policy_changed; [|reflexivity]. unfold write_db. destruct marshal_raw as [t|]; [|reflexivity]. unfold write_file. cbn [String.eqb]. rewrite F, F2.
  destruct (nd_write nd); reflexivity.
Qed.
(** What can be opened at such a path is what the file at the expanded path holds. *)
Lemma tilde_reads E nd s p fs fs' db n : e_home E (String "~" s) = Some p -> fs !! String "~" s = Some n -> new_database E nd (String "~" s) fs = (fs', Loaded db) ->
  exists b c us, fs !! p = Some (File b) /\ unmarshal b = DOk c /\ Forall2 decodes (rc_users c) us /\ db_users db = map with_algorithm us.
Proof.
  intros H F O. destruct (open_sound _ _ _ _ _ _ O) as (_ & _ & G). destruct (G ltac:(discriminate) ltac:(eauto)) as (b & c & us & R & U & D & _ & Us).
  exists b, c, us. split; [|auto]. revert R. unfold read_file, expand. destruct nd_read_err; [discriminate|]. rewrite (tilde_prefix s), H. destruct (fs !! p) as [[x|]|]; congruence.
Qed.
