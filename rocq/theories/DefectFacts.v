(** Opening a database: the first defect decides (C117). *)
From Coq Require Import String Ascii ZArith NArith Lia Bool Arith List.
From stdpp Require Import gmap strings.
From RecordUpdate Require Import RecordSet.
From Verif Require Import GoStr GoTime GoErr Email Types Env Persist Fs Database SpecDb SpecPersist SpecMeaning SpecDefect FileFacts OpenFacts MeaningFacts.
Import ListNotations.
Import RecordSetNotations.
Open Scope string_scope.

Lemma defect_not_all l x : first_defect l x -> ~ Forall fst l.
Proof. intros (a & c & b & -> & _ & N) F. apply Forall_app in F as [_ F]. inversion F; subst. now apply N. Qed.
Lemma defect_det l x y : first_defect l x -> first_defect l y -> x = y.
Proof.
  intros (a & c & b & -> & F & N) (a' & c' & b' & Eq & F' & N').
  revert a' Eq F'. induction a as [|d a IH]; intros [|d' a'] Eq F'; cbn in Eq.
  - congruence.
  - injection Eq as <- _. inversion F'; subst. contradiction.
  - injection Eq as -> _. inversion F; subst. contradiction.
  - injection Eq as <- Eq. inversion F; inversion F'; subst. eauto.
Qed.
(** The outcome that the checks [l] give, when nothing else is checked. *)
Definition settles (l : defects) (x : LoadRes) : Prop := match x with Loaded _ => Forall fst l | LUnmod => True | x => first_defect l x end.
Lemma settles_check (c : Prop) e (l : defects) x : (forall db, e <> Loaded db) -> (c /\ settles l x) \/ (~ c /\ x = e) -> settles ((c, e) :: l) x.
Proof.
  intros Ne [[C V]|[N ->]].
  - assert (L : first_defect l x -> first_defect ((c, e) :: l) x).
    { intros (l1 & c' & l2 & -> & F & N). exists ((c, e) :: l1), c', l2. split; [reflexivity|]. split; [now constructor|exact N]. }
    destruct x; cbn [settles] in *; auto.
  - assert (H : first_defect ((c, e) :: l) e) by (exists [], c, l; auto). destruct e as [db| | | |]; cbn [settles]; auto. exfalso. now apply (Ne db).
Qed.
(** A block of checks that stops with [y] or goes on. *)
Inductive block (l : defects) : option LoadRes -> Prop :=
| block_ok : Forall fst l -> block l None
| block_no y : first_defect l y -> (forall db, y <> Loaded db) -> block l (Some y).
Lemma settles_block l1 l2 y x : block l1 y -> match y with None => settles l2 x | Some y => x = y end -> settles (l1 ++ l2)%list x.
Proof.
  intros [F|z (a & c & b & -> & F & N) Nl] H.
  - destruct x; cbn [settles] in *; auto; try (destruct H as (a & c & b & -> & F' & N); exists (l1 ++ a)%list, c, b; rewrite <- app_assoc; split; [reflexivity|]; split; [apply Forall_app; auto|exact N]).
    apply Forall_app. auto.
  - subst x. assert (D : first_defect ((a ++ (c, z) :: b) ++ l2)%list z). { exists a, c, (b ++ l2)%list. rewrite <- app_assoc. auto. }
    destruct z; cbn [settles]; auto. exfalso. now eapply Nl.
Qed.
Lemma block_nil : block [] None.
Proof. constructor. constructor. Qed.
Lemma block_check (c : Prop) e l y : (forall db, e <> Loaded db) -> (c /\ block l y) \/ (~ c /\ y = Some e) -> block ((c, e) :: l) y.
Proof.
  intros Ne [[C B]|[N ->]].
  - destruct B as [F|z (a & d & b & -> & F & N) Nl]; [constructor; now constructor|]. apply block_no; [|exact Nl].
    exists ((c, e) :: a), d, b. split; [reflexivity|]. split; [now constructor|exact N].
  - apply block_no; [|exact Ne]. exists [], c, l. auto.
Qed.
Lemma settles_unless (c : Prop) l l2 x : ~ c -> settles l2 x -> settles (in_case c l ++ l2)%list x.
Proof.
  intros N H. apply (settles_block _ _ None); [|exact H]. apply block_ok. apply List.Forall_map. apply List.Forall_forall. cbn. tauto.
Qed.
Lemma in_case_defect (c : Prop) l y : c -> first_defect l y -> first_defect (in_case c l) y.
Proof.
  intros H (a & d & b & -> & F & N). exists (in_case c a), (c -> d), (in_case c b). unfold in_case. rewrite map_app. split; [reflexivity|]. split; [|auto].
  apply List.Forall_map. eapply List.Forall_impl; [|exact F]. cbn. auto.
Qed.
Lemma in_case_all (c : Prop) l : c -> Forall fst l -> Forall fst (in_case c l).
Proof. intros H F. apply List.Forall_map. eapply List.Forall_impl; [|exact F]. cbn. auto. Qed.
Lemma block_case (c : Prop) l y : c -> block l y -> block (in_case c l) y.
Proof. intros H [F|z D N]; [apply block_ok; now apply in_case_all|apply block_no; [now apply in_case_defect|exact N]]. Qed.
Lemma settles_case (c : Prop) l x : c -> settles l x -> settles (in_case c l) x.
Proof. intros H S. destruct x; cbn [settles] in *; auto; try (now apply in_case_defect). now apply in_case_all. Qed.

(** ** Accounts *)
(** The indexes after the accounts [pre]. *)
Record seen (E : Env) (pre : list RawUser) (db : Database) : Prop := {
  se_name : forall n, is_Some (ref_username db !! n) <-> exists p, In p pre /\ lower E (u_username (raw_user p)) = n;
  se_id : forall n, is_Some (ref_id db !! n) <-> exists p, In p pre /\ u_id (raw_user p) = n;
  se_email : forall n, is_Some (ref_email db !! n) <-> exists a, In a (flat_map addresses pre) /\ lower E a = n;
  se_key : forall n, is_Some (ref_apikey db !! n) <-> In n (flat_map prefixes pre) }.
Definition of_res {A} (x : Res A) : option LoadRes := match x with ROk _ => None | RErr e => Some (LErr e) | RPanic => Some LPanic end.
Definition known_in (E : Env) (known : list string) (m : gmap string nat) : Prop := forall n, is_Some (m !! n) <-> exists a, In a known /\ lower E a = n.
Lemma emails_block E i l : forall known m, known_in E known m -> block (address_defects E known l) (of_res (load_emails E i l m)) /\
  forall es m', load_emails E i l m = ROk (es, m') -> known_in E (flat_map (fun x => match x with Some e => [em_address e] | None => [] end) l ++ known)%list m'.
Proof.
  induction l as [|[e|] l IH]; intros known m K; cbn [load_emails address_defects of_res].
  - split; [apply block_nil|]. now intros es m' [= _ <-].
  - cbv zeta. destruct (m !! lower E (em_address e)) as [j|] eqn:L.
    + split; [|discriminate]. apply block_check; [discriminate|]. right. split; [|reflexivity]. intros H.
      destruct (proj1 (K (lower E (em_address e)))) as (a & Ha & Eq); [eauto|]. exact (H a Ha Eq).
    + assert (K' : known_in E (em_address e :: known) (<[lower E (em_address e) := i]> m)).
      { intros n. destruct (decide (lower E (em_address e) = n)) as [<-|Hn].
        - rewrite lookup_insert. split; [intros _; exists (em_address e); split; [now left|reflexivity]|eauto].
        - rewrite lookup_insert_ne by assumption. rewrite (K n). split; intros (a & Ha & Eq); exists a; (split; [|exact Eq]); [now right|]. destruct Ha as [<-|Ha]; [contradiction|exact Ha]. }
      destruct (IH _ _ K') as [B P]. assert (C : forall a, In a known -> ~ same_ci E a (em_address e)).
      { intros a Ha Eq. assert (is_Some (m !! lower E (em_address e))) as [j Hj] by (apply K; exists a; split; [exact Ha|exact Eq]). congruence. }
      destruct (load_emails E i l _) as [[es m2]|x|] eqn:LE; cbn [of_res] in *.
      * split; [apply block_check; [discriminate|left; auto]|]. intros es' m' [= <- <-]. intros n. rewrite (P _ _ eq_refl n). cbn [flat_map app].
        split; intros (a & Ha & Eq); exists a; (split; [|exact Eq]); rewrite in_app_iff in *; cbn [In] in *; rewrite ?in_app_iff in *; tauto.
      * split; [apply block_check; [discriminate|left; auto]|discriminate].
      * split; [apply block_check; [discriminate|left; auto]|discriminate].
  - split; [|discriminate]. apply block_check; [discriminate|]. right. auto.
Qed.
Definition prefix_in (known : list string) (m : gmap string nat) : Prop := forall n, is_Some (m !! n) <-> In n known.
Lemma keys_block i l : forall known m, prefix_in known m -> block (key_defects known l) (of_res (load_keys i l m)) /\
  forall ks m', load_keys i l m = ROk (ks, m') -> prefix_in (flat_map (fun x => match x with Some k => [ak_prefix k] | None => [] end) l ++ known)%list m'.
Proof.
  induction l as [|[k|] l IH]; intros known m K; cbn [load_keys key_defects of_res].
  - split; [apply block_nil|]. now intros es m' [= _ <-].
  - destruct (m !! ak_prefix k) as [j|] eqn:L.
    + split; [|discriminate]. apply block_check; [discriminate|]. right. split; [|reflexivity]. intros H. apply H. apply K. eauto.
    + assert (K' : prefix_in (ak_prefix k :: known) (<[ak_prefix k := i]> m)).
      { intros n. destruct (decide (ak_prefix k = n)) as [<-|Hn].
        - rewrite lookup_insert. split; [intros _; now left|eauto].
        - rewrite lookup_insert_ne by assumption. rewrite (K n). cbn [In]. tauto. }
      destruct (IH _ _ K') as [B P]. assert (C : ~ In (ak_prefix k) known). { intros H. apply K in H as [j H]. congruence. }
      destruct (load_keys i l _) as [[es m2]|x|] eqn:LE; cbn [of_res] in *.
      * split; [apply block_check; [discriminate|left; auto]|]. intros es' m' [= <- <-]. intros n. rewrite (P _ _ eq_refl n). cbn [flat_map app In]. rewrite !in_app_iff. cbn [In]. tauto.
      * split; [apply block_check; [discriminate|left; auto]|discriminate].
      * split; [apply block_check; [discriminate|left; auto]|discriminate].
  - split; [|discriminate]. apply block_check; [discriminate|]. right. auto.
Qed.
Lemma passwords_null l : load_passwords l = None <-> In None l.
Proof.
  induction l as [|[p|] l IH]; cbn [load_passwords In].
  - split; [discriminate|tauto].
  - destruct load_passwords; [|tauto]. split; [discriminate|]. intros [H|H]; [discriminate|]. apply IH in H. discriminate.
  - tauto.
Qed.
Lemma block_app l1 l2 y z : block l1 y -> match y with None => block l2 z | Some _ => z = y end -> block (l1 ++ l2)%list z.
Proof.
  intros [F|w (a & c & b & -> & F & N) Nl] H.
  - destruct H as [F'|w (a & c & b & -> & F' & N) Nl]; [apply block_ok; apply Forall_app; auto|]. apply block_no; [|exact Nl].
    exists (l1 ++ a)%list, c, b. rewrite <- app_assoc. split; [reflexivity|]. split; [apply Forall_app; auto|exact N].
  - subst z. apply block_no; [|exact Nl]. exists a, c, (b ++ l2)%list. rewrite <- app_assoc. auto.
Qed.
Lemma user_block E pre db r : seen E pre db -> block (account_defects E pre r) (of_res (load_user E db r)) /\
  forall db', load_user E db r = ROk db' -> seen E (pre ++ [r])%list db'.
Proof.
  intros S. unfold load_user, account_defects, raw_valid. cbv zeta. set (u := raw_user r). cbn [app].
  destruct (Z.eqb_spec (zlen (u_id u)) 36) as [L|L]; cbn [negb].
  2:{ split; [|discriminate]. apply block_check; [discriminate|]. right. split; [|reflexivity]. unfold zlen in L. lia. }
  assert (L' : String.length (u_id u) = 36%nat) by (unfold zlen in L; lia).
  destruct (String.eqb_spec (u_username u) "") as [Z|Z].
  { split; [|discriminate]. apply block_check; [discriminate|]. left. split; [exact L'|]. apply block_check; [discriminate|]. right. auto. }
  destruct (raw_passwords r) as [|p0 ps0] eqn:PW.
  { split; [|discriminate]. apply block_check; [discriminate|]. left. split; [exact L'|]. apply block_check; [discriminate|]. left. split; [exact Z|]. apply block_check; [discriminate|]. right. split; [tauto|reflexivity]. }
  rewrite <- PW. assert (PN : raw_passwords r <> []) by (rewrite PW; discriminate). clear PW p0 ps0.
  assert (H3 : forall l y, block l y -> block ((String.length (u_id u) = 36%nat, LErr (EWith ErrNewDatabaseInvalidUser [AOther; AErr (EWith ErrUserIDInvalidLength [AInt (zlen (u_id u))])])) ::
    (u_username u <> "", LErr (EWith ErrNewDatabaseInvalidUser [AOther; AErr (EStd ErrUsernameEmpty)])) ::
    (raw_passwords r <> [], LErr (EWith ErrNewDatabaseInvalidUser [AOther; AErr (EStd ErrUserPasswordNotFound)])) :: l) y).
  { intros l y B. apply block_check; [discriminate|]. left. split; [exact L'|]. apply block_check; [discriminate|]. left. split; [exact Z|]. apply block_check; [discriminate|]. left. auto. }
  destruct (ref_username db !! lower E (u_username u)) as [j|] eqn:LN.
  { split; [|discriminate]. apply H3, block_check; [discriminate|]. right. split; [|reflexivity]. intros H.
    destruct (proj1 (se_name _ _ _ S (lower E (u_username u)))) as (p & Hp & Eq); [eauto|]. exact (H p Hp Eq). }
  assert (N1 : forall p, In p pre -> ~ same_ci E (u_username (raw_user p)) (u_username u)).
  { intros p Hp Eq. assert (is_Some (ref_username db !! lower E (u_username u))) as [j Hj] by (apply (se_name _ _ _ S); eauto). congruence. }
  destruct (ref_id db !! u_id u) as [j|] eqn:LI.
  { split; [|discriminate]. apply H3, block_check; [discriminate|]. left. split; [exact N1|]. apply block_check; [discriminate|]. right. split; [|reflexivity]. intros H.
    destruct (proj1 (se_id _ _ _ S (u_id u))) as (p & Hp & Eq); [eauto|]. exact (H p Hp Eq). }
  assert (N2 : forall p, In p pre -> u_id (raw_user p) <> u_id u).
  { intros p Hp Eq. assert (is_Some (ref_id db !! u_id u)) as [j Hj] by (apply (se_id _ _ _ S); eauto). congruence. }
  assert (H5 : forall l y, block l y -> block ((String.length (u_id u) = 36%nat, LErr (EWith ErrNewDatabaseInvalidUser [AOther; AErr (EWith ErrUserIDInvalidLength [AInt (zlen (u_id u))])])) ::
    (u_username u <> "", LErr (EWith ErrNewDatabaseInvalidUser [AOther; AErr (EStd ErrUsernameEmpty)])) ::
    (raw_passwords r <> [], LErr (EWith ErrNewDatabaseInvalidUser [AOther; AErr (EStd ErrUserPasswordNotFound)])) ::
    ((forall p, In p pre -> ~ same_ci E (u_username (raw_user p)) (u_username u)), LErr (EWith ErrNewDatabaseDuplicateUser [AStr (u_username u); AOther])) ::
    ((forall p, In p pre -> u_id (raw_user p) <> u_id u), LErr (EWith ErrNewDatabaseDuplicateUserID [AStr (u_id u); AOther])) :: l) y).
  { intros l y B. apply H3, block_check; [discriminate|]. left. split; [exact N1|]. apply block_check; [discriminate|]. left. auto. }
  clear H3. set (i := List.length (db_users db)).
  destruct (emails_block E i (raw_emails r) (flat_map addresses pre) (ref_email db) (se_email _ _ _ S)) as [BE PE].
  destruct (load_emails E i (raw_emails r) (ref_email db)) as [[es me]|e|]; cbn [of_res] in *.
  2:{ split; [|discriminate]. apply H5. eapply block_app; [exact BE|]. reflexivity. }
  2:{ split; [|discriminate]. apply H5. eapply block_app; [exact BE|]. reflexivity. }
  destruct (load_passwords (raw_passwords r)) as [ps|] eqn:LP; cbn [of_res].
  2:{ split; [|discriminate]. apply H5. eapply block_app; [exact BE|]. cbn. apply block_check; [discriminate|]. right. split; [|reflexivity]. apply passwords_null in LP. tauto. }
  assert (NP : ~ In None (raw_passwords r)) by (intros H; apply passwords_null in H; congruence).
  destruct (keys_block i (raw_keys r) (flat_map prefixes pre) (ref_apikey db) (se_key _ _ _ S)) as [BK PK].
  destruct (load_keys i (raw_keys r) (ref_apikey db)) as [[ks mk]|e|]; cbn [of_res] in *.
  2:{ split; [|discriminate]. apply H5. eapply block_app; [exact BE|]. cbn. apply block_check; [discriminate|]. left. auto. }
  2:{ split; [|discriminate]. apply H5. eapply block_app; [exact BE|]. cbn. apply block_check; [discriminate|]. left. auto. }
  split. { apply H5. eapply block_app; [exact BE|]. cbn. apply block_check; [discriminate|]. left. auto. }
  intros db' [= <-]. specialize (PE _ _ eq_refl). specialize (PK _ _ eq_refl). clear BE BK H5. split.
  - intros n. cbn [ref_username]. destruct (decide (lower E (u_username u) = n)) as [<-|Hn].
    + rewrite lookup_insert. split; [intros _; exists r; split; [apply in_or_app; right; now left|reflexivity]|eauto].
    + rewrite lookup_insert_ne by assumption. rewrite (se_name _ _ _ S n). setoid_rewrite in_app_iff. cbn [In]. split.
      * intros (p & Hp & Eq). eauto.
      * intros (p & [Hp|[<-|[]]] & Eq); [eauto|]. contradiction.
  - intros n. cbn [ref_id]. change (u_id (u <| u_emails := es |> <| u_passwords := ps |> <| u_apikeys := ks |>)) with (u_id u). destruct (decide (u_id u = n)) as [<-|Hn].
    + rewrite lookup_insert. split; [intros _; exists r; split; [apply in_or_app; right; now left|reflexivity]|eauto].
    + rewrite lookup_insert_ne by assumption. rewrite (se_id _ _ _ S n). setoid_rewrite in_app_iff. cbn [In]. split.
      * intros (p & Hp & Eq). eauto.
      * intros (p & [Hp|[<-|[]]] & Eq); [eauto|]. contradiction.
  - intros n. cbn [ref_email]. rewrite (PE n). rewrite flat_map_app. cbn [flat_map]. rewrite app_nil_r. unfold addresses at 3.
    split; intros (a & Ha & Eq); exists a; (split; [|exact Eq]); rewrite in_app_iff in *; tauto.
  - intros n. cbn [ref_apikey]. rewrite (PK n). rewrite flat_map_app. cbn [flat_map]. rewrite app_nil_r. unfold prefixes at 3. rewrite !in_app_iff. tauto.
Qed.
Lemma users_settled E l : forall pre db, seen E pre db -> settles (accounts_defects E pre l) (load_users E db l) /\ load_users E db l <> LUnmod.
Proof.
  induction l as [|[r|] l IH]; intros pre db S; cbn [load_users accounts_defects].
  - split; [constructor|discriminate].
  - destruct (user_block E pre db r S) as [B P]. destruct (load_user E db r) as [db'|e|]; cbn [of_res] in B.
    + destruct (IH _ _ (P _ eq_refl)) as [H N]. split; [|exact N]. eapply settles_block; [exact B|exact H].
    + split; [|discriminate]. eapply settles_block; [exact B|reflexivity].
    + split; [|discriminate]. eapply settles_block; [exact B|reflexivity].
  - split; [|discriminate]. apply settles_check; [discriminate|]. right. auto.
Qed.
Lemma seen_empty E fp c : seen E [] (empty_db fp c).
Proof. split; intros n; cbn; rewrite lookup_empty; (split; [intros [? H]; discriminate|]); [intros (? & [] & _)|intros (? & [] & _)|intros (? & [] & _)|intros []]. Qed.

(** ** Files *)
Definition of_commit (fp : string) (x : CommitRes) : option LoadRes :=
  match x with COk => None | CErr e => Some (LErr (EWith ErrNewDatabase [AStr fp; AErr e])) | CCrash => Some LCrash end.
Lemma write_block nd fp fs (ok : Prop) d : (d <> None <-> ok) -> block (write_defects nd fs fp ok) (of_commit fp (snd (write_db nd fp d fs))).
Proof.
  intros Hd. unfold write_db, write_defects, write_file. destruct d as [s|].
  2:{ cbn. apply block_check; [discriminate|]. right. split; [|reflexivity]. intros H. now apply Hd in H. }
  apply block_check; [discriminate|]. left. split; [apply Hd; discriminate|].
  destruct (String.eqb_spec fp "") as [Z|Z].
  { cbn. apply block_check; [discriminate|]. right. split; [tauto|reflexivity]. }
  destruct (fs !! fp) as [[b|]|] eqn:F.
  2:{ cbn. apply block_check; [discriminate|]. right. split; [tauto|reflexivity]. }
  all: apply block_check; [discriminate|]; left; (split; [split; [exact Z|discriminate]|]); destruct (nd_write nd) as [| |k|k]; cbn;
    (apply block_check; [discriminate|]);
    first [right; (split; [intros H; now apply (H k)|reflexivity])
          |left; (split; [discriminate|]); (apply block_check; [discriminate|]); first [left; split; [reflexivity|apply block_nil]|right; split; [discriminate|reflexivity]]].
Qed.
Lemma reads_iff E nd fs fp b : read_file E nd fs fp = Some b <-> reads E nd fs fp b.
Proof.
  unfold read_file, reads, expand. destruct (nd_read_err nd); [split; [discriminate|intros [H _]; discriminate]|].
  destruct (has_prefix fp "~").
  - destruct (e_home E fp) as [p|]; [|split; [discriminate|intros (_ & p & H & _); discriminate]].
    split.
    + intros H. split; [reflexivity|]. exists p. split; [reflexivity|]. destruct (fs !! p) as [[s|]|]; congruence.
    + intros (_ & q & [= <-] & H). now rewrite H.
  - split.
    + intros H. split; [reflexivity|]. exists fp. split; [reflexivity|]. destruct (fs !! fp) as [[s|]|]; congruence.
    + intros (_ & q & -> & H). now rewrite H.
Qed.
Lemma times_text c : marshal_raw c <> None <-> raw_times c = true.
Proof. unfold marshal_raw. destruct (raw_times c); split; congruence. Qed.
Lemma opening_settled E nd fp fs c : says E nd fs fp c -> settles (opening_defects E nd fp fs c) (snd (new_database E nd fp fs)).
Proof.
  intros Sy. unfold new_database, opening_defects. cbv zeta. cbn [app]. apply settles_check; [discriminate|].
  destruct (nd_stat_err nd); [right; split; [discriminate|reflexivity]|]. left. split; [reflexivity|].
  destruct (if String.eqb fp "" then None else fs !! fp) as [n|] eqn:F.
  2:{ assert (A : absent fs fp) by (destruct (String.eqb_spec fp ""); [now left|now right]).
      eapply settles_block.
      - apply block_case; [exact A|]. apply block_check with (y := if nd_mkdir_err nd then Some (LErr (EWith ErrNewDatabase [AStr fp; AErr ext_err])) else
          of_commit fp (snd (write_db nd fp (marshal_raw (bump_raw nd (content_z <| rc_version := app_version |> <| rc_policy ::= enforce_policy |>))) fs))); [discriminate|].
        destruct (nd_mkdir_err nd); [right; split; [discriminate|reflexivity]|]. left. split; [reflexivity|]. apply write_block. rewrite times_text.
        unfold raw_times. cbn. rewrite andb_true_r. tauto.
      - destruct (nd_mkdir_err nd); [reflexivity|]. destruct write_db as [fs' [|e|]]; cbn [snd of_commit]; [|reflexivity|reflexivity].
        cbn [settles]. apply List.Forall_map, List.Forall_forall. intros x _ Na. contradiction. }
  assert (A : ~ absent fs fp). { intros [->|H]; [discriminate|]. destruct (String.eqb fp ""); congruence. }
  assert (Fp : fs !! fp = Some n) by (destruct (String.eqb fp ""); [discriminate|exact F]). clear F.
  apply settles_unless; [exact A|]. apply settles_case; [exact A|]. cbn [app]. apply settles_check; [discriminate|].
  destruct n as [s|]; [|right; rewrite Fp; split; [tauto|reflexivity]]. left. rewrite Fp. split; [discriminate|].
  apply settles_check; [discriminate|]. destruct (read_file E nd fs fp) as [b|] eqn:R.
  2:{ right. split; [|reflexivity]. intros [b H]. apply reads_iff in H. congruence. }
  left. split; [exists b; now apply reads_iff|]. unfold load_bytes. destruct (unmarshal b) as [c'| |] eqn:U.
  3:{ exact I. }
  2:{ apply settles_check; [discriminate|]. right. split; [|reflexivity]. intros (b' & c' & Hb & Hc). apply reads_iff in Hb. apply unmarshal_iff in Hc. congruence. }
  assert (c' = c) as -> by (apply (Sy b); [now apply reads_iff|now apply unmarshal_iff]).
  apply settles_check; [discriminate|]. left. split; [exists b, c; split; [now apply reads_iff|now apply unmarshal_iff]|].
  destruct (policy_changed (rc_policy c)) eqn:P.
  - assert (L : ~ limits_set (rc_policy c)) by (intros L; apply policy_changed_iff in L; congruence).
    set (c2 := bump_raw nd (c <| rc_policy ::= enforce_policy |>)).
    eapply settles_block; [apply block_case; [exact L|]; apply (write_block nd fp fs _ (marshal_raw c2)); rewrite times_text; unfold raw_times, c2; cbn; tauto|].
    destruct (write_db nd fp (marshal_raw c2) fs) as [fs' [|e|]]; cbn [snd of_commit]; [|reflexivity|reflexivity].
    change (rc_users c2) with (rc_users c). apply users_settled, seen_empty.
  - apply settles_unless; [apply policy_changed_iff in P; tauto|]. apply users_settled, seen_empty.
Qed.
Lemma settles_opened l x : settles l x -> x <> LUnmod -> (exists db, x = Loaded db) <-> Forall fst l.
Proof.
  intros S N. destruct x; cbn [settles] in S; try (split; [intros [db H]; discriminate|intros F; exfalso; exact (defect_not_all _ _ S F)]).
  - split; eauto.
  - contradiction.
Qed.
Lemma settles_refused l x y : settles l x -> x <> LUnmod -> (forall db, y <> Loaded db) -> x = y <-> first_defect l y.
Proof.
  intros S N Ny. destruct x; cbn [settles] in S; try (split; [now intros <-|intros F; exact (defect_det _ _ _ S F)]).
  - split; [intros <-; exfalso; eapply Ny; eauto|]. intros F. exfalso. eapply defect_not_all; eauto.
  - contradiction.
Qed.
(** What opening does to the files. *)
Lemma write_db_files nd fp d fs p : p <> fp -> fst (write_db nd fp d fs) !! p = fs !! p.
Proof.
  intros N. unfold write_db, write_file. destruct d; [|reflexivity]. destruct String.eqb; [reflexivity|]. unfold FS in *.
  destruct (fs !! fp) as [[]|]; [|reflexivity|]; destruct nd_write; cbn [fst]; try reflexivity; apply lookup_insert_ne; congruence.
Qed.
Lemma opening_files E nd fp fs p : p <> fp -> fst (new_database E nd fp fs) !! p = fs !! p.
Proof.
  intros N. unfold new_database. destruct nd_stat_err; [reflexivity|]. destruct (if String.eqb fp "" then None else fs !! fp) as [[s|]|].
  - destruct read_file as [b|]; [|reflexivity]. unfold load_bytes. destruct unmarshal as [c| |]; [|reflexivity|reflexivity]. destruct policy_changed; [|reflexivity].
    pose proof (write_db_files nd fp (marshal_raw (bump_raw nd (c <| rc_policy ::= enforce_policy |>))) fs p N) as H. cbv zeta.
    destruct write_db as [fs' []]; exact H.
  - reflexivity.
  - destruct nd_mkdir_err; [reflexivity|]. cbv zeta. match goal with |- context [write_db nd fp ?d fs] => pose proof (write_db_files nd fp d fs p N) as H; destruct (write_db nd fp d fs) as [fs' []] end; exact H.
Qed.
Lemma opening_writes E nd fp fs : fst (new_database E nd fp fs) <> fs ->
  absent fs fp \/ exists b c, reads E nd fs fp b /\ database_text b c /\ ~ limits_set (rc_policy c).
Proof.
  unfold new_database. destruct nd_stat_err; [intros H; now destruct H|]. destruct (if String.eqb fp "" then None else fs !! fp) as [[s|]|] eqn:F.
  - destruct (read_file E nd fs fp) as [b|] eqn:R; [|intros H; now destruct H]. unfold load_bytes. destruct (unmarshal b) as [c| |] eqn:U; [|intros H; now destruct H|intros H; now destruct H].
    destruct (policy_changed (rc_policy c)) eqn:P; [|intros H; now destruct H]. intros _. right. exists b, c. split; [now apply reads_iff|]. split; [now apply unmarshal_iff|].
    intros L. apply policy_changed_iff in L. congruence.
  - intros H; now destruct H.
  - intros _. left. destruct (String.eqb_spec fp ""); [now left|now right].
Qed.
