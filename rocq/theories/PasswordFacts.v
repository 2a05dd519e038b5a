(** Proofs about passwords (C12-C14, C16-C21). *)
From Coq Require Import String Ascii ZArith NArith Lia Bool Arith List.
From stdpp Require Import gmap strings.
From RecordUpdate Require Import RecordSet.
From Verif Require Import GoStr Utf8 GoErr Role Name Email Random SpecValue RoleFacts EmailFacts RandomFacts.
From Verif Require Import Types Env Password ApiKey PublicKey Mfa User Json Persist Fs Database System UserFacts DbFacts Inv LoadFacts.
From Verif Require Import SpecDb SpecCrypto SpecAuth CryptoFacts AccountFacts StepFacts.
Import ListNotations.
Import RecordSetNotations.
Open Scope string_scope.
#[local] Opaque int64 new_id trim_space new_email new_role.

Lemma accepts_iff E u s : verify_password E u s = None <-> accepts E u s.
Proof.
  rewrite verify_password_iff. unfold accepts, active. split.
  - intros (p & H1 & H2 & H3 & H4). eauto 10.
  - intros (p & H1 & [H2 H3] & H4). eauto 10.
Qed.
(** ** Authentication *)
Definition auth_code (o : Out) : Prop :=
  (o_res o = OOk /\ rq_code (o_req o) = 200%Z) \/ ((exists e, o_res o = OErr e) /\ rq_code (o_req o) = 400%Z).
Lemma authenticate_code E nd db fs r : auth_code (exec E nd OpAuthenticate db fs r).
Proof.
  unfold auth_code. cbn [exec]. unfold db_authenticate. cbv zeta. destruct get_user as [[i u]|]; [|right; cbn; eauto].
  destruct (negb _).
  - destruct verify_password; [right; cbn; eauto|left; cbn; auto].
  - destruct (negb _); [|right; cbn; eauto]. destruct verify_webauthn as [u' [e|]]; [right; cbn; eauto|left; cbn; auto].
Qed.
Lemma authenticate_password E nd db fs r : reachable E fs db -> ru_password (rq_user r) <> "" ->
  o_res (exec E nd OpAuthenticate db fs r) = OOk <->
  exists i u, resolves_login E db (ru_username (rq_user r)) i u /\ accepts E u (ru_password (rq_user r)).
Proof.
  intros HR Hne. cbn [exec]. unfold db_authenticate. cbv zeta. apply String.eqb_neq in Hne.
  destruct get_user as [[i u]|] eqn:G.
  - rewrite Hne. cbn [negb]. destruct verify_password eqn:V.
    + split; [discriminate|]. intros (j & v & Hv & Ac). apply (get_user_resolves _ fs) in Hv; [|assumption].
      assert (u = v) as -> by congruence. apply accepts_iff in Ac. congruence.
    + split; [intros _|reflexivity]. exists i, u. split; [now apply (get_user_resolves _ fs)|now apply accepts_iff].
  - split; [discriminate|]. intros (j & v & Hv & _). apply (get_user_resolves _ fs) in Hv; [|assumption]. congruence.
Qed.
Lemma login_fails E nd db fs r i u : reachable E fs db -> ru_password (rq_user r) <> "" ->
  resolves_login E db (ru_username (rq_user r)) i u -> ~ accepts E u (ru_password (rq_user r)) ->
  (exists e, o_res (exec E nd OpAuthenticate db fs r) = OErr e) /\ rq_code (o_req (exec E nd OpAuthenticate db fs r)) = 400%Z.
Proof.
  intros HR Hne Hl Ha. destruct (authenticate_code E nd db fs r) as [[H _]|H]; [|exact H]. exfalso.
  apply authenticate_password in H as (j & v & Hv & Ac); [|assumption|assumption].
  apply (get_user_resolves _ fs) in Hl, Hv; [|assumption|assumption]. assert (u = v) as -> by congruence. contradiction.
Qed.
(** ** The new account *)
Lemma trimmed_ne s : trim_space s <> "" -> s <> "".
Proof. intros H ->. apply H. reflexivity. Qed.
Lemma added_password E nd db fs r : reachable E fs db -> o_res (exec E nd OpAddUser db fs r) = OOk -> trim_space (ru_password (rq_user r)) <> "".
Proof. intros HR H. apply add_user_iff in H as [A _]; [|now apply inv_reachable in HR]. apply A. Qed.
Lemma new_accepts E nd r u : new_account E nd r u -> bcrypt_complete E -> accepts E u (trim_space (ru_password (rq_user r))).
Proof. intros NA C. destruct (na_password _ _ _ _ NA) as (p & Hp & D & X & _ & B). exists p. rewrite Hp. repeat split; auto. now left. eapply C, B. Qed.
Lemma new_rejects E nd r u s : new_account E nd r u -> bcrypt_sound E -> key72 s <> key72 (trim_space (ru_password (rq_user r))) -> ~ accepts E u s.
Proof.
  intros NA S K (q & Hq & _ & M). destruct (na_password _ _ _ _ NA) as (p & Hp & _ & _ & _ & B). rewrite Hp in Hq.
  destruct Hq as [<-|[]]. apply K. eapply S; eauto.
Qed.
Lemma new_accepts_key E nd r u s : new_account E nd r u -> bcrypt_complete E -> bcrypt_72 E -> key72 s = key72 (trim_space (ru_password (rq_user r))) -> accepts E u s.
Proof. intros NA C S K. destruct (new_accepts _ _ _ _ NA C) as (p & H1 & H2 & H3). exists p. repeat split; try apply H2; auto. rewrite (S _ _ _ K). exact H3. Qed.

Definition login_of (E : Env) (r r' : Request) : Prop :=
  same_ci E (ru_username (rq_user r)) (ru_username (rq_user r')) /\ (2 <= String.length (ru_username (rq_user r')))%nat /\
  ~ In "@"%char (los (ru_username (rq_user r'))).
Lemma login_after_add E nd nd' db fs r r' : reachable E fs db ->
  let o := exec E nd OpAddUser db fs r in
  o_res o = OOk -> bcrypt_complete E -> bcrypt_72 E -> login_of E r r' -> ru_password (rq_user r') <> "" ->
  key72 (ru_password (rq_user r')) = key72 (trim_space (ru_password (rq_user r))) ->
  o_res (exec E nd' OpAuthenticate (o_db o) (o_fs o) r') = OOk /\ rq_code (o_req (exec E nd' OpAuthenticate (o_db o) (o_fs o) r')) = 200%Z.
Proof.
  intros HR o H C C72 (L1 & L2 & L3) Pn K. pose proof (exec_reachable E nd OpAddUser db fs r HR (ok_returned _ H)) as HR'. fold o in HR'.
  destruct (added_found _ _ _ _ _ H) as (u & NA & _ & F & _). fold o in F.
  assert (O : o_res (exec E nd' OpAuthenticate (o_db o) (o_fs o) r') = OOk).
  { apply authenticate_password; auto. exists (List.length (db_users db)), u. split; [now apply F|]. eapply new_accepts_key; eauto. }
  split; [exact O|]. destruct (authenticate_code E nd' (o_db o) (o_fs o) r') as [[_ X]|[[e X] _]]; [exact X|congruence].
Qed.
Lemma reject_after_add E nd nd' db fs r r' : reachable E fs db ->
  let o := exec E nd OpAddUser db fs r in
  o_res o = OOk -> bcrypt_sound E -> ru_password (rq_user r') <> "" ->
  (exists u, resolves_login E (o_db o) (ru_username (rq_user r')) (List.length (db_users db)) u) ->
  key72 (ru_password (rq_user r')) <> key72 (trim_space (ru_password (rq_user r))) ->
  (exists e, o_res (exec E nd' OpAuthenticate (o_db o) (o_fs o) r') = OErr e) /\ rq_code (o_req (exec E nd' OpAuthenticate (o_db o) (o_fs o) r')) = 400%Z.
Proof.
  intros HR o H S Pn (u & Hu) K. pose proof (exec_reachable E nd OpAddUser db fs r HR (ok_returned _ H)) as HR'. fold o in HR'.
  eapply login_fails; eauto. destruct (added_found _ _ _ _ _ H) as (v & NA & Hv & _).
  assert (u = v) as ->.
  { destruct Hu as [(_ & _ & Hu & _)|(_ & _ & Hu & _)]; unfold account in *; fold o in Hv; congruence. }
  eapply new_rejects; eauto.
Qed.
Lemma login_of_resolves E nd db fs r r' : o_res (exec E nd OpAddUser db fs r) = OOk -> login_of E r r' ->
  exists u, resolves_login E (o_db (exec E nd OpAddUser db fs r)) (ru_username (rq_user r')) (List.length (db_users db)) u.
Proof. intros H (L1 & L2 & L3). destruct (added_found _ _ _ _ _ H) as (u & NA & _ & F & _). exists u. now apply F. Qed.

(** ** Changing the password *)
Lemma keep_firstn nd k : forall l i, (0 <= i <= k + 1)%Z -> exists m, keep_passwords nd k i l = m /\
  m = map (fun p => if pw_disabled p then p else pw_disable nd p) (firstn (Z.to_nat (k + 2 - i)) l).
Proof.
  induction l as [|p l IH]; intros i Hi; eexists; (split; [reflexivity|]); [now rewrite firstn_nil|].
  cbn [keep_passwords]. destruct (i >? k)%Z eqn:G.
  - replace (k + 2 - i)%Z with 1%Z by lia. reflexivity.
  - destruct (IH (i + 1)%Z ltac:(lia)) as (m & -> & ->).
    replace (Z.to_nat (k + 2 - i)) with (S (Z.to_nat (k + 2 - (i + 1)))) by lia. reflexivity.
Qed.
Lemma keep_versions_pos p : (1 <= kept_versions p)%Z.
Proof. unfold kept_versions. destruct (Z.ltb_spec (pp_keep (po_password p)) 1); lia. Qed.
Lemma keep_spec nd p l : keep_passwords nd (kept_versions p) 0 l =
  map (fun p => if pw_disabled p then p else pw_disable nd p) (firstn (Z.to_nat (kept_versions p + 2)) l).
Proof. pose proof (keep_versions_pos p). destruct (keep_firstn nd (kept_versions p) l 0 ltac:(lia)) as (m & -> & ->). now rewrite Z.sub_0_r. Qed.
Lemma keep_retired nd l : Forall2 (retired (nd_clock nd)) l (map (fun p => if pw_disabled p then p else pw_disable nd p) l).
Proof.
  induction l as [|p l IH]; constructor; [|exact IH]. unfold retired. destruct (pw_disabled p) eqn:D; cbn; repeat split; auto; discriminate.
Qed.
Lemma change_effect E nd db r db1 : effect E nd db r OpChangePassword db1 <->
  exists i u u' p, validate_identity E db r = inl (i, u) /\
    within (pp_min (po_password (db_policy db))) (zlen (ru_password (rq_user r))) (pp_max (po_password (db_policy db))) /\
    accepts E u (ru_old_password (rq_user r)) /\ new_password E nd (ru_password (rq_user r)) = inl p /\
    u' = revise nd (u <| u_passwords := p :: keep_passwords nd (kept_versions (db_policy db)) 0 (u_passwords u) |>) /\
    db1 = set_user db i u'.
Proof.
  assert (W : password_policy_ok (db_policy db) (ru_password (rq_user r)) = true <->
    within (pp_min (po_password (db_policy db))) (zlen (ru_password (rq_user r))) (pp_max (po_password (db_policy db)))).
  { unfold password_policy_ok, within. destruct (zlen _ >? _)%Z eqn:A, (zlen _ <? _)%Z eqn:B; cbn; split; intros; lia || discriminate || reflexivity. }
  split.
  - intros Eff. inversion Eff as [| | |op' i u u' V Up| |]; subst. inversion Up as [| |u1 P H| |]; subst.
    apply change_password_inv in H as [Hv Ha]. apply add_password_inv in Ha as (p & Hp & ->).
    exists i, u, (revise nd (u <| u_passwords := p :: keep_passwords nd (kept_versions (db_policy db)) 0 (u_passwords u) |>)), p.
    split; [exact V|]. split; [now apply W|]. split; [now apply accepts_iff|]. split; [exact Hp|]. split; reflexivity.
  - intros (i & u & u' & p & V & P & Ac & Hp & -> & ->). eapply EffUpd; [exact V|]. constructor; [now apply W|].
    unfold change_password. apply accepts_iff in Ac. rewrite Ac. unfold add_password. rewrite Hp. reflexivity.
Qed.
Lemma change_password_iff E nd db fs r : reachable E fs db ->
  let o := exec E nd OpChangePassword db fs r in
  o_res o = OOk <->
  (exists i u, identity_of E db r i u /\ accepts E u (ru_old_password (rq_user r))) /\
  within (pp_min (po_password (db_policy db))) (zlen (ru_password (rq_user r))) (pp_max (po_password (db_policy db))) /\
  trim_space (ru_password (rq_user r)) <> "" /\
  (exists h, e_bcrypt E (nd_salt nd) (trim_space (ru_password (rq_user r))) 10 = Some h) /\
  can_write nd fs (db_path db) (db_content (o_db o)).
Proof.
  intros HR o. assert (Eq : (exists db1, effect E nd db r OpChangePassword db1) <->
    (exists i u, identity_of E db r i u /\ accepts E u (ru_old_password (rq_user r))) /\
    within (pp_min (po_password (db_policy db))) (zlen (ru_password (rq_user r))) (pp_max (po_password (db_policy db))) /\
    trim_space (ru_password (rq_user r)) <> "" /\
    (exists h, e_bcrypt E (nd_salt nd) (trim_space (ru_password (rq_user r))) 10 = Some h)).
  { split.
    - intros (db1 & (i & u & u' & p & V & P & Ac & Hp & _)%change_effect). apply new_password_iff in Hp as (h & T & B & _).
      apply (validate_iff _ fs) in V; [|assumption]. repeat split; try apply P; eauto.
    - intros ((i & u & V & Ac) & P & T & h & B). apply (validate_iff _ fs) in V; [|assumption]. eexists. apply change_effect.
      do 4 eexists. split; [exact V|]. split; [exact P|]. split; [exact Ac|]. split; [apply new_password_iff; eauto|]. split; reflexivity. }
  split.
  - intros H. destruct (exec_shape E nd OpChangePassword db fs r) as [_ _ _ N|db1 res Eff C O]; [exfalso; now apply N|].
    apply (outcome_ok _ _ O) in H. apply (commit_res _ _ _ _ _ _ _ C) in H.
    destruct (proj1 Eq (ex_intro _ _ Eff)) as (A1 & A2 & A3 & A4). auto.
  - intros (A1 & A2 & A3 & A4 & W). destruct (proj2 Eq (conj A1 (conj A2 (conj A3 A4)))) as (db1 & Eff).
    destruct (effect_exec _ _ _ fs _ _ _ Eff) as (res & C & O). apply (outcome_ok _ _ O). now apply (commit_res _ _ _ _ _ _ _ C).
Qed.
(** The account after a successful change. *)
Lemma change_password_result E nd db fs r : reachable E fs db ->
  let o := exec E nd OpChangePassword db fs r in
  o_res o = OOk ->
  exists i u u' p l, identity_of E db r i u /\ account (o_db o) i u' /\ same_identity u u' /\
    u_passwords u' = p :: l /\ active p /\ e_bcrypt E (nd_salt nd) (trim_space (ru_password (rq_user r))) 10 = Some (pw_hash p) /\
    trim_space (ru_password (rq_user r)) <> "" /\
    Forall2 (retired (nd_clock nd)) (firstn (Z.to_nat (kept_versions (db_policy db) + 2)) (u_passwords u)) l.
Proof.
  intros HR o H. unfold o in *. destruct (exec_shape E nd OpChangePassword db fs r) as [_ _ _ N|db1 res Eff C O]; [exfalso; now apply N|].
  apply commit_to_inv in C as [-> _]. apply change_effect in Eff as (i & u & u' & p & V & P & Ac & Hp & Hu' & ->).
  apply new_password_iff in Hp as (h & T & B & Hp). pose proof (validate_at _ _ _ _ _ V) as Hi. apply (validate_iff _ fs) in V; [|assumption].
  exists i, u, u', p, (keep_passwords nd (kept_versions (db_policy db)) 0 (u_passwords u)). split; [exact V|]. split.
  { unfold account. change (db_users (set_user db i u' <| db_content ::= bump nd |>)) with (db_users (set_user db i u')).
    rewrite set_user_users. apply list_lookup_insert. eapply lookup_lt_Some; eauto. }
  split; [rewrite Hu'; repeat split|]. split; [rewrite Hu'; reflexivity|]. split; [rewrite Hp; split; reflexivity|].
  split; [rewrite Hp; exact B|]. split; [exact T|]. rewrite keep_spec. apply keep_retired.
Qed.
Lemma new_password_active E nd s p : new_password E nd s = inl p -> active p.
Proof. intros (h & _ & _ & ->)%new_password_iff. split; reflexivity. Qed.
(** After a change only the new password is accepted. *)
Lemma changed_accepts E nd u' s p l m : u_passwords u' = p :: l -> active p -> Forall2 (retired (nd_clock nd)) m l ->
  accepts E u' s <-> e_bcmp E (pw_hash p) s = true.
Proof.
  intros Hu A R. split.
  - intros (q & Hq & [D _] & M). rewrite Hu in Hq. destruct Hq as [<-|Hq]; [exact M|exfalso].
    clear - R Hq D. induction R as [|x y m l Hxy R IH]; [destruct Hq|]. destruct Hq as [<-|Hq]; [|auto].
    destruct Hxy as (_ & _ & H & _). congruence.
  - intros M. exists p. rewrite Hu. split; [now left|]. auto.
Qed.
Lemma switched E nd nd' db fs r r' : reachable E fs db ->
  let o := exec E nd OpChangePassword db fs r in
  o_res o = OOk -> bcrypt_complete E -> bcrypt_sound E -> bcrypt_72 E ->
  (exists i u, resolves_login E (o_db o) (ru_username (rq_user r')) i u /\ exists v, identity_of E db r i v) ->
  ru_password (rq_user r') <> "" ->
  (o_res (exec E nd' OpAuthenticate (o_db o) (o_fs o) r') = OOk <-> key72 (ru_password (rq_user r')) = key72 (trim_space (ru_password (rq_user r)))).
Proof.
  intros HR o H C S S72 (i & u & Hu & v & Hv) Hne. pose proof (exec_reachable E nd OpChangePassword db fs r HR (ok_returned _ H)) as HR'. fold o in HR'.
  destruct (change_password_result E nd db fs r HR H) as (j & w & u' & p & l & Hw & Hu' & _ & Hp & A & B & T & R). fold o in Hu'.
  assert (i = j) as <-.
  { apply (validate_iff _ fs) in Hv, Hw; [|assumption|assumption]. congruence. }
  assert (Ac : forall x, resolves_login E (o_db o) (ru_username (rq_user r')) i x -> x = u').
  { intros x [(_ & _ & Hx & _)|(_ & _ & Hx & _)]; unfold account in *; congruence. }
  pose proof (Ac _ Hu) as ->. rewrite authenticate_password by assumption. split.
  - intros (k & x & Hx & Acc). assert (k = i /\ x = u') as [-> ->].
    { apply (get_user_resolves _ (o_fs o)) in Hx; [|assumption]. apply (get_user_resolves _ (o_fs o)) in Hu; [|assumption]. split; congruence. }
    eapply changed_accepts in Acc; eauto.
  - intros K. exists i, u'. split; [assumption|]. eapply changed_accepts; eauto.
Qed.
(** ** The stored entries *)
Lemma one_active_later E fs db fs' db' i u u' : later E fs db fs' db' -> account db i u -> one_active u -> account db' i u' -> one_active u'.
Proof.
  apply (later_account E (fun _ => one_active)). intros nd d r j v op w (p & l & Hp & A & F) St. destruct (ustep_passwords _ _ _ _ _ _ _ _ St) as [Eq|(_ & q & Hq & Eq)].
  - exists p, l. rewrite Eq. auto.
  - exists q. eexists. split; [exact Eq|]. split; [eapply new_password_active; eauto|]. change (if (pp_keep (po_password (db_policy d)) <? 1)%Z then 9%Z else pp_keep (po_password (db_policy d))) with (kept_versions (db_policy d)).
    rewrite keep_spec. apply List.Forall_forall. intros x Hx. apply in_map_iff in Hx as (y & <- & _). destruct (pw_disabled y) eqn:D; [exact D|reflexivity].
Qed.
Lemma new_one_active E nd r u : new_account E nd r u -> one_active u.
Proof. intros NA. destruct (na_password _ _ _ _ NA) as (p & Hp & D & X & _). exists p, []. unfold active. auto. Qed.
Lemma no_reactivation E nd op db fs r i u v q : account db i u -> account (o_db (exec E nd op db fs r)) i v -> In q (u_passwords v) -> pw_disabled q = false ->
  In q (u_passwords u) \/ (op = OpChangePassword /\ head (u_passwords v) = Some q /\ pw_created q = nd_clock nd).
Proof.
  intros Hu Hv Hq D. destruct (exec_account E nd op db fs r i u Hu) as (w & Hw & S). unfold account in *. assert (w = v) as -> by congruence.
  destruct (ustep_passwords _ _ _ _ _ _ _ _ S) as [Eq|(-> & p & Hp & Eq)]; rewrite Eq in *; [auto|].
  destruct Hq as [<-|Hq]; [right|].
  - apply new_password_iff in Hp as (h & _ & _ & ->). auto.
  - exfalso. change (if (pp_keep (po_password (db_policy db)) <? 1)%Z then 9%Z else pp_keep (po_password (db_policy db))) with (kept_versions (db_policy db)) in Hq.
    rewrite keep_spec in Hq. apply in_map_iff in Hq as (y & <- & _). destruct (pw_disabled y) eqn:X; [congruence|discriminate].
Qed.
Definition bounded (p : Policy) (u : User) : Prop := (Z.of_nat (List.length (u_passwords u)) <= kept_versions p + 3)%Z.
Lemma bounded_later E fs db fs' db' i u u' : later E fs db fs' db' -> account db i u -> bounded (db_policy db) u -> account db' i u' -> bounded (db_policy db') u'.
Proof.
  apply (later_account E bounded). intros nd d r j v op w B St. unfold bounded in *. destruct (ustep_passwords _ _ _ _ _ _ _ _ St) as [->|(_ & q & Hq & ->)]; [exact B|].
  change (if (pp_keep (po_password (db_policy d)) <? 1)%Z then 9%Z else pp_keep (po_password (db_policy d))) with (kept_versions (db_policy d)).
  rewrite keep_spec. cbn [List.length]. rewrite map_length, firstn_length. pose proof (keep_versions_pos (db_policy d)). lia.
Qed.
Lemma new_bounded E nd r u p : new_account E nd r u -> bounded p u.
Proof. intros NA. destruct (na_password _ _ _ _ NA) as (q & Hp & _). unfold bounded. rewrite Hp. cbn. pose proof (keep_versions_pos p). lia. Qed.
Lemma login_trimmed E nd nd' db fs r r' : reachable E fs db ->
  let o := exec E nd OpAddUser db fs r in
  o_res o = OOk -> bcrypt_complete E -> login_of E r r' -> ru_password (rq_user r') = trim_space (ru_password (rq_user r)) ->
  o_res (exec E nd' OpAuthenticate (o_db o) (o_fs o) r') = OOk /\ rq_code (o_req (exec E nd' OpAuthenticate (o_db o) (o_fs o) r')) = 200%Z.
Proof.
  intros HR o H C (L1 & L2 & L3) K. pose proof (exec_reachable E nd OpAddUser db fs r HR (ok_returned _ H)) as HR'. fold o in HR'.
  destruct (added_found _ _ _ _ _ H) as (u & NA & _ & F & _). fold o in F.
  assert (O : o_res (exec E nd' OpAuthenticate (o_db o) (o_fs o) r') = OOk).
  { apply authenticate_password; [assumption|rewrite K; exact (added_password E nd db fs r HR H)|]. exists (List.length (db_users db)), u. split; [now apply F|]. rewrite K. eapply new_accepts; eauto. }
  split; [exact O|]. destruct (authenticate_code E nd' (o_db o) (o_fs o) r') as [[_ X]|[[e X] _]]; [exact X|congruence].
Qed.
