(** Direct calls on accounts, login and the file (C79, C80). *)
From Coq Require Import String Ascii ZArith NArith Lia Bool Arith List.
From stdpp Require Import gmap strings.
From RecordUpdate Require Import RecordSet.
From Verif Require Import GoStr Utf8 GoErr Role Name Email Random SpecValue RoleFacts EmailFacts RandomFacts.
From Verif Require Import Types Env Password ApiKey PublicKey Mfa User Json Persist Fs Database System UserFacts DbFacts Inv LoadFacts.
From Verif Require Import SpecDb AccountFacts StepFacts SpecCrypto SpecAuth CryptoFacts PasswordFacts ApiKeyFacts SpecPersist JsonFacts PersistFacts StoredFacts ReloadFacts ReopenFacts FileFacts OpenFacts.
From Verif Require Import Method SpecMethod MethodFacts.
Import ListNotations.
Import RecordSetNotations.
Open Scope string_scope.
#[local] Opaque int64 new_id trim_space new_email new_role.

(** ** Login *)
Lemma inv_authenticate E nd db fs r : Inv E db -> ru_password (rq_user r) <> "" ->
  o_res (exec E nd OpAuthenticate db fs r) = OOk <->
  exists i u, resolves_login E db (ru_username (rq_user r)) i u /\ accepts E u (ru_password (rq_user r)).
Proof.
  intros HI Hne. cbn [exec]. unfold db_authenticate. cbv zeta. apply String.eqb_neq in Hne.
  destruct get_user as [[i u]|] eqn:G.
  - rewrite Hne. cbn [negb]. destruct verify_password eqn:V.
    + split; [discriminate|]. intros (j & v & Hv & Ac). apply inv_get_user in Hv; [|assumption].
      assert (u = v) as -> by congruence. apply accepts_iff in Ac. congruence.
    + split; [intros _|reflexivity]. exists i, u. split; [now apply inv_get_user|now apply accepts_iff].
  - split; [discriminate|]. intros (j & v & Hv & _). apply inv_get_user in Hv; [|assumption]. congruence.
Qed.
(** Names and addresses of the accounts decide who is meant. *)
Lemma live_resolves E nd i m db u s j v : tame m -> account db i u -> resolves_login E db s j v ->
  resolves_login E (live E nd i m db) s j (if Nat.eqb j i then fst (call_method E nd m u) else v).
Proof.
  intros T Hi. destruct (method_identity E nd m u T) as (A & B & C).
  assert (L : forall w, account db j w -> account (live E nd i m db) j (if Nat.eqb j i then fst (call_method E nd m u) else w)).
  { intros w Hw. destruct (Nat.eqb_spec j i) as [->|N]; [now apply live_account|]. unfold account. now rewrite live_others. }
  intros [(P & Q & R & S)|(P & Q & R & S)]; [left|right]; (split; [exact P|split; [exact Q|split; [now apply L|]]]).
  - destruct (Nat.eqb_spec j i) as [->|N]; [|exact S]. unfold account in *. assert (v = u) as -> by congruence. unfold has_address in *. now rewrite C.
  - destruct (Nat.eqb_spec j i) as [->|N]; [|exact S]. unfold account in *. assert (v = u) as -> by congruence. unfold has_username in *. now rewrite B.
Qed.

(** ** What the file can hold *)
Lemma Forall_alter {A} (P : A -> Prop) f k l : (forall x, P x -> P (f x)) -> Forall P l -> Forall P (alter f k l).
Proof. intros H F. revert k. induction F as [|x l Hx F IH]; intros [|k]; cbn; constructor; auto. Qed.
Definition no_new_key (m : Method) : Prop := match m with MAddAPIKey _ => False | _ => True end.
Lemma stored_revision u n : stored u -> is_int64 n -> stored (u <| u_revision := n |>).
Proof. intros ((T1 & T2 & T3 & T4 & T5 & T6) & S) H. split; [|exact S]. repeat (split; [assumption|]). exact H. Qed.
Lemma roles_stored nd l : forall u, stored u -> stored (fst (add_roles_live nd u l)).
Proof.
  induction l as [|s l IH]; intros u S; [exact S|]. cbn [add_roles_live]. destruct add_role as [v|] eqn:A; [|exact S]. apply IH.
  apply add_role_cases in A as (r & _ & [[_ ->]|[_ ->]]); [exact S|]. apply stored_revise. exact S.
Qed.
Lemma method_stored E nd m u : register_typed E -> no_new_key m -> stored u -> stored (fst (call_method E nd m u)).
Proof.
  intros RT N S. destruct m; cbn [call_method]; try destruct N.
  - destruct add_password as [v|] eqn:A; [|exact S]. cbn [or_same fst]. apply add_password_inv in A as (p & P & ->). apply new_password_typed in P as [P1 P2].
    apply stored_revise. destruct S as ((T1 & T2 & T3 & T4 & T5 & T6) & S2 & S3 & S4). split; [|split; [exact S2|split; [exact S3|]]].
    + split; [exact T1|]. split; [exact T2|]. split; [|split; [exact T4|split; [exact T5|exact T6]]]. constructor; [exact P1|]. apply keep_passwords_all; auto.
    + constructor; [exact P2|]. apply keep_passwords_all; auto.
  - unfold add_email. destruct (new_email s) as [e|]; [|exact S]. destruct (u_emails u); [|destruct existsb]; cbn [or_same fst]; [|exact S|]; apply stored_revise; exact S.
  - destruct add_role as [v|] eqn:A; [|exact S]. cbn [or_same fst]. apply add_role_cases in A as (r & _ & [[_ ->]|[_ ->]]); [exact S|]. apply stored_revise. exact S.
  - pose proof (roles_stored nd l u S) as H. destruct add_roles_live. exact H.
  - cbn [fst]. unfold add_name. destruct (u_names u); [exact S|]. destruct existsb; [exact S|]. apply stored_revise. exact S.
  - destruct add_public_key as [v|] eqn:A; [|exact S]. cbn [or_same fst]. apply add_public_key_inv in A as (? & ? & ? & ->). apply stored_revise. exact S.
  - destruct delete_public_key as [v|] eqn:A; [|exact S]. cbn [or_same fst]. apply delete_public_key_inv in A as (? & ->). apply stored_revise. exact S.
  - destruct delete_api_key as [[v|] r'] eqn:A; [|exact S]. cbn [or_same fst]. apply delete_api_key_inv in A as (? & -> & ?). apply stored_revise.
    destruct S as (T & S2 & S3 & S4). split; [exact T|]. split; [exact S2|]. split; [|exact S4]. cbn. now apply Forall_filter_l.
  - destruct add_mfa_token as [r' [v|e|]] eqn:A; [|exact S|exact S]. cbn [snd fst]. apply add_mfa_token_inv in A as (t & Ht & ? & ->). apply stored_revise.
    destruct S as ((T1 & T2 & T3 & T4 & T5 & T6) & S). split; [|exact S]. split; [exact T1|]. split; [exact T2|]. split; [exact T3|]. split; [|split; [exact T5|exact T6]].
    cbn. apply Forall_app. split; [exact T4|]. constructor; [|constructor]. eapply new_mfa_typed; eauto.
  - destruct delete_mfa_token as [v|] eqn:A; [|exact S]. cbn [or_same fst]. apply delete_mfa_token_inv in A as (? & ->). apply stored_revise.
    destruct S as ((T1 & T2 & T3 & T4 & T5 & T6) & S). split; [|exact S]. split; [exact T1|]. split; [exact T2|]. split; [exact T3|]. split; [|split; [exact T5|exact T6]]. cbn. now apply Forall_filter_l.
  - destruct change_password as [v|] eqn:A; [|exact S]. cbn [or_same fst]. apply change_password_inv in A as (_ & A). apply add_password_inv in A as (p & P & ->). apply new_password_typed in P as [P1 P2].
    apply stored_revise. destruct S as ((T1 & T2 & T3 & T4 & T5 & T6) & S2 & S3 & S4). split; [|split; [exact S2|split; [exact S3|]]].
    + split; [exact T1|]. split; [exact T2|]. split; [|split; [exact T4|split; [exact T5|exact T6]]]. constructor; [exact P1|]. apply keep_passwords_all; auto.
    + constructor; [exact P2|]. apply keep_passwords_all; auto.
  - destruct (verify_webauthn_uncache E u r) as (l & Hl & H). destruct verify_webauthn as [v e]. cbn [fst] in *. rewrite Hl. destruct S as ((T1 & T2 & T3 & T4 & T5 & T6) & S).
    split; [|exact S]. split; [assumption|]. split; [assumption|]. split; [assumption|]. split; [|split; assumption]. cbn.
    clear - H T4. induction H as [|t t' ? ? [Ht _] H IH]; inversion T4; subst; constructor; eauto using mfa_typed_uncache.
  - apply stored_revise. exact S.
  - destruct S as ((T1 & T2 & T3 & T4 & T5 & T6) & S2 & S3 & S4). split; [|split; [exact S2|split; [exact S3|]]]; cbn.
    + split; [exact T1|]. split; [exact T2|]. split; [|split; [exact T4|split; [exact T5|exact T6]]]. apply Forall_alter; auto.
    + apply Forall_alter; auto.
  - exact S.
  - destruct S as (T & S2 & S3 & S4). split; [exact T|]. split; [exact S2|]. split; [|exact S4]. cbn. apply Forall_alter; auto.
  - destruct S as ((T1 & T2 & T3 & T4 & T5 & T6) & S). split; [|exact S]. split; [exact T1|]. split; [exact T2|]. split; [exact T3|]. split; [|split; [exact T5|exact T6]].
    cbn. apply Forall_alter; auto.
Qed.
Definition sound_file (db : Database) : Prop := all_stored db /\ has_version db /\ policy_changed (db_policy db) = false.
Lemma live_sound E nd i m db : register_typed E -> no_new_key m -> sound_file db -> sound_file (live E nd i m db).
Proof.
  intros RT N ((S1 & S2 & S3) & V & P). unfold live. destruct (db_users db !! i) as [u|] eqn:Hi; [|exact (conj (conj S1 (conj S2 S3)) (conj V P))].
  split; [|split; [exact V|exact P]]. split; [exact S1|]. split; [exact S2|]. intros j v Hv. unfold account in Hv. rewrite set_user_users in Hv.
  destruct (decide (j = i)) as [->|NE].
  - rewrite list_lookup_insert in Hv by (eapply lookup_lt_Some; eauto). injection Hv as <-. apply method_stored; auto. exact (S3 _ _ Hi).
  - rewrite list_lookup_insert_ne in Hv by congruence. exact (S3 _ _ Hv).
Qed.
Lemma mixed_sound E (P : Method -> Prop) fs db : register_typed E -> (forall m, P m -> no_new_key m) -> mixed E P fs db -> sound_file db.
Proof.
  intros RT HP. induction 1 as [nd fp fs0 fs db O|nd op r fs db M IH _ _|nd i m fs db M IH T|fs fs' db M IH]; auto.
  - split; [now apply open_stored in O|]. split; [now apply open_version in O|]. destruct (inv_open _ _ _ _ _ _ O) as (HI & _). exact (inv_policy _ _ HI).
  - destruct IH as (S & V & Po). split; [now apply exec_stored|]. split; [unfold has_version in *; pose proof (exec_version E nd op db fs r); congruence|]. now rewrite exec_policy.
  - apply live_sound; auto.
Qed.
Lemma tame_keys m : tame m -> no_new_key m.
Proof. now destruct m. Qed.

(** ** Saving and reopening *)
Lemma reopen_mixed E nd fs0 fs db : register_typed E -> mixed E tame fs0 db -> ids_unique db -> saved fs db -> plain_path (db_path db) -> readable nd ->
  exists db', new_database E nd (db_path db) fs = (fs, Loaded db') /\ db_content db' = clean_content (db_content db) /\ db_path db' = db_path db.
Proof.
  intros RT M HU (s & Ms & F & Ne) (_ & T)%plain_prefix (H1 & H2).
  destruct (mixed_sound E tame fs0 db RT tame_keys M) as (S & V & _).
  unfold new_database. rewrite H1. apply String.eqb_neq in Ne. rewrite Ne, F. unfold read_file, expand. rewrite H2, T, F.
  apply (reload_state E nd (db_path db) fs db s); auto. now apply inv_mixed in M.
Qed.
Lemma decodes_raw u : decodes (Some (to_raw_user u)) u.
Proof. exists (to_raw_user u). split; [reflexivity|]. split; [reflexivity|]. split; [reflexivity|]. split; [reflexivity|]. destruct u; reflexivity. Qed.
Lemma shared_unopenable E nd fs db i j u v e f : sound_file db -> saved fs db -> plain_path (db_path db) -> readable nd ->
  account db i u -> account db j v -> i <> j -> In e (u_emails u) -> In f (u_emails v) ->
  same_ci E (sanitize (em_address e)) (sanitize (em_address f)) ->
  exists err, new_database E nd (db_path db) fs = (fs, LErr err).
Proof.
  intros (S & V & Po) (s & Ms & F & Ne) Pl Rd Hu Hv N He Hf Sa.
  pose proof (unmarshal_marshal _ _ (stored_content _ S) Ms) as U.
  apply (open_complete E nd (db_path db) fs s (to_raw (clean_content (db_content db))) (map clean_user (db_users db))) in U as [_ H]; auto.
  - apply H. intros [_ _ _ CE _]. apply N. apply elem_of_list_In, elem_of_list_lookup in He as [p Hp]. apply elem_of_list_In, elem_of_list_lookup in Hf as [q Hq].
    apply (CE i j (clean_user u) (clean_user v) p q (clean_email e) (clean_email f)).
    + change (map clean_user (db_users db)) with (clean_user <$> db_users db). rewrite list_lookup_fmap, Hu. reflexivity.
    + change (map clean_user (db_users db)) with (clean_user <$> db_users db). rewrite list_lookup_fmap, Hv. reflexivity.
    + cbn. change (map clean_email (u_emails u)) with (clean_email <$> u_emails u). now rewrite list_lookup_fmap, Hp.
    + cbn. change (map clean_email (u_emails v)) with (clean_email <$> u_emails v). now rewrite list_lookup_fmap, Hq.
    + exact Sa.
  - apply policy_changed_iff. exact Po.
  - change (rc_users (to_raw (clean_content (db_content db)))) with (map (fun u => Some (to_raw_user u)) (map clean_user (db_users db))).
    clear. induction (map clean_user (db_users db)) as [|u l IH]; constructor; [apply decodes_raw|exact IH].
Qed.
Lemma exec_sound E nd op db fs r : register_typed E -> sound_file db -> sound_file (o_db (exec E nd op db fs r)).
Proof.
  intros RT (S & V & Po). split; [now apply exec_stored|]. split; [unfold has_version in *; pose proof (exec_version E nd op db fs r); congruence|]. now rewrite exec_policy.
Qed.
Lemma foreign_address E nd nd2 nd3 fs db i j u v f s u' op r :
  register_typed E -> mixed E no_new_key fs db -> account db i u -> account db j v -> i <> j -> In f (u_emails v) -> em_address f = s ->
  call_method E nd (MAddEmail s) u = (u', MOk) ->
  let db1 := live E nd i (MAddEmail s) db in
  writes op -> written_path op db1 = db_path db1 -> o_res (exec E nd2 op db1 fs r) = OOk -> plain_path (db_path db) -> readable nd3 ->
  exists err, new_database E nd3 (db_path db) (o_fs (exec E nd2 op db1 fs r)) = (o_fs (exec E nd2 op db1 fs r), LErr err).
Proof.
  intros RT M Hi Hj N Hf Es C db1 W T O Pl Rd.
  assert (M1 : sound_file db1) by (apply live_sound; [exact RT|exact I|]; exact (mixed_sound E no_new_key fs db RT (fun _ H => H) M)).
  assert (Pa : db_path db1 = db_path db) by apply live_refs.
  pose proof (write_saved E nd2 op db1 fs r W T O) as (Sv & Pd). rewrite Pa in Pd.
  destruct (extends_exec E nd2 op db1 fs r) as [_ Ex].
  assert (H1 : account db1 i u') by (pose proof (live_account E nd i (MAddEmail s) db u Hi) as L; rewrite C in L; exact L).
  assert (H2 : account db1 j v) by (unfold account, db1; rewrite live_others by congruence; exact Hj).
  destruct (Ex _ _ H1) as (w1 & W1 & (_ & _ & I1 & _)). destruct (Ex _ _ H2) as (w2 & W2 & (_ & _ & I2 & _)).
  assert (X : exists e, In e (u_emails u') /\ em_address e = s).
  { destruct (add_email_cases nd u s) as [(_ & e & Q)|[(e & He & (x & Hx & Q) & Q')|(e & u1 & He & _ & Q & Em & _)]]; cbn [call_method] in C.
    - rewrite Q in C. discriminate.
    - rewrite Q' in C. injection C as <-. exists x. auto.
    - rewrite Q in C. injection C as <-. exists e. rewrite Em. split; [apply in_app_iff; right; now left|]. apply new_email_spec in He as (_ & H & _). exact H. }
  destruct X as (e & He & Ee). rewrite <- Pd.
  apply (shared_unopenable E nd3 _ (o_db (exec E nd2 op db1 fs r)) i j w1 w2 e f); auto.
  - now apply exec_sound.
  - now rewrite Pd.
  - now rewrite I1.
  - now rewrite I2.
  - unfold same_ci. now rewrite Ee, Es.
Qed.

(** Histories without direct calls are among them. *)
Lemma reachable_mixed E (P : Method -> Prop) Q fs db : reachable_by E Q fs db -> mixed E P fs db.
Proof.
  intros (fs0 & S).
  assert (G : forall w w', steps E Q w w' -> match w_mem w with Up d => mixed E P (w_fs w) d | _ => True end -> match w_mem w' with Up d => mixed E P (w_fs w') d | _ => True end).
  { clear. intros w w' S. induction S as [w|w1 ev w2 w3 S IH Hev St]; [auto|]. intros H. specialize (IH H).
    destruct St as [nd fp fs m fs' res O N|nd op r fs db|fs m|fs m fs']; cbn [w_mem w_fs] in *.
    - destruct res; cbn [after_load]; auto; [eapply MxOpen; exact O|..]; destruct m; auto; eapply MxEdit; exact IH.
    - unfold after_call. destruct (o_res (exec E nd op db fs r)) eqn:X; cbn; auto; apply MxCall; auto; rewrite X; discriminate.
    - auto.
    - destruct m; auto; eapply MxEdit; exact IH. }
  exact (G _ _ S I).
Qed.
Lemma mixed_mono E (P Q : Method -> Prop) fs db : (forall m, P m -> Q m) -> mixed E P fs db -> mixed E Q fs db.
Proof.
  intros H. induction 1 as [nd fp fs0 fs db O|nd op r fs db M IH H1 H2|nd i m fs db M IH T|fs fs' db M IH].
  - eapply MxOpen; eauto.
  - now apply MxCall.
  - apply MxMethod; auto.
  - eapply MxEdit; eauto.
Qed.

(** ** AddPassword *)
Lemma add_password_shape E nd u s keep u' : call_method E nd (MAddPassword s keep) u = (u', MOk) ->
  exists p h l, u_passwords u' = p :: l /\ active p /\ pw_hash p = h /\ e_bcrypt E (nd_salt nd) (trim_space s) 10 = Some h /\ trim_space s <> "" /\
    Forall (fun q => pw_disabled q = true) l.
Proof.
  cbn [call_method]. destruct add_password as [v|] eqn:A; [|discriminate]. cbn [or_same]. intros [=<-]. apply add_password_inv in A as (p & P & ->).
  apply new_password_iff in P as (h & N & B & ->). eexists _, h, _. split; [reflexivity|]. split; [split; reflexivity|]. split; [reflexivity|]. split; [exact B|]. split; [exact N|].
  generalize 0%Z. clear. induction (u_passwords u) as [|q l IH]; intros i; cbn [keep_passwords]; [constructor|].
  assert (pw_disabled (if pw_disabled q then q else pw_disable nd q) = true) by (destruct (pw_disabled q) eqn:D; [exact D|reflexivity]).
  destruct Z.gtb; constructor; auto.
Qed.
Lemma added_accepts E nd u s keep u' : call_method E nd (MAddPassword s keep) u = (u', MOk) -> bcrypt_complete E -> accepts E u' (trim_space s).
Proof.
  intros (p & h & l & Hp & Ac & Hh & B & _)%add_password_shape C. exists p. rewrite Hp. split; [now left|]. split; [exact Ac|]. rewrite Hh. eapply C; eauto.
Qed.
Lemma added_only E nd u s keep u' x : call_method E nd (MAddPassword s keep) u = (u', MOk) -> bcrypt_sound E -> accepts E u' x -> key72 x = key72 (trim_space s).
Proof.
  intros (p & h & l & Hp & Ac & Hh & B & _ & F)%add_password_shape C (q & Hq & [D _] & M). rewrite Hp in Hq. destruct Hq as [<-|Hq].
  - rewrite Hh in M. eapply C; eauto.
  - rewrite List.Forall_forall in F. apply F in Hq. congruence.
Qed.

(** ** Disable *)
Lemma alter_at_only {A} (R : A -> A -> Prop) f k l : (forall x, R x (f x)) -> at_only R k l (alter f k l).
Proof.
  intros H. split; [apply alter_length|]. split.
  - intros j x N Hx. now rewrite list_lookup_alter_ne by congruence.
  - intros x Hx. exists (f x). split; [|apply H]. now rewrite list_lookup_alter, Hx.
Qed.
Lemma alter_in {A} (f : A -> A) k l y : In y (alter f k l) <-> (exists j, j <> k /\ l !! j = Some y) \/ exists x, l !! k = Some x /\ y = f x.
Proof.
  rewrite in_at. split.
  - intros (j & Hj). destruct (decide (j = k)) as [->|N].
    + rewrite list_lookup_alter in Hj. apply fmap_Some in Hj as (x & Hx & ->). right. eauto.
    + rewrite list_lookup_alter_ne in Hj by congruence. left. eauto.
  - intros [(j & N & Hj)|(x & Hx & ->)].
    + exists j. now rewrite list_lookup_alter_ne by congruence.
    + exists k. now rewrite list_lookup_alter, Hx.
Qed.
Lemma disable_accepts E nd k u s : accepts E (fst (call_method E nd (MDisablePassword k) u)) s <->
  exists j p, j <> k /\ u_passwords u !! j = Some p /\ active p /\ e_bcmp E (pw_hash p) s = true.
Proof.
  unfold accepts. cbn. split.
  - intros (p & [(j & N & Hj)|(x & _ & ->)]%alter_in & Ac & M); [exists j, p; auto|]. destruct Ac as [D _]. discriminate.
  - intros (j & p & N & Hj & Ac & M). exists p. split; [|auto]. apply alter_in. left. eauto.
Qed.
Lemma disable_candidate E nd k u p : In p (u_mfa (fst (call_method E nd (MDisableMfaToken k) u))) -> t_disabled p = false ->
  exists j, j <> k /\ u_mfa u !! j = Some p.
Proof. cbn. intros [H|(x & _ & ->)]%alter_in D; [exact H|discriminate]. Qed.
Lemma disable_lookup E nd nd' k i db fs r :
  o_res (exec E nd' OpLookupAPIKey (live E nd i (MDisableAPIKey k) db) fs r) = o_res (exec E nd' OpLookupAPIKey db fs r).
Proof.
  cbn [exec]. unfold db_lookup_api_key. destruct (live_refs E nd i (MDisableAPIKey k) db) as (_ & _ & _ & -> & _). cbv zeta.
  destruct String.eqb; [reflexivity|]. destruct Z.ltb; [reflexivity|]. unfold at_ref. destruct (ref_apikey db !! _) as [j|]; [|reflexivity].
  destruct (decide (j = i)) as [->|N].
  - destruct (db_users db !! i) as [u|] eqn:Hu; [|unfold live; rewrite Hu, Hu; reflexivity]. rewrite (live_account E nd i (MDisableAPIKey k) db u Hu).
    set (u' := fst (call_method E nd (MDisableAPIKey k) u)). match goal with |- context [lookup_api_key E u' ?q] => set (r0 := q) end.
    assert (L : lookup_api_key E u' r0 = lookup_api_key E u r0); [|rewrite L; clear L; destruct (lookup_api_key E u r0); reflexivity].
    unfold lookup_api_key. subst u'. cbn. clear. revert k. induction (u_apikeys u) as [|x l IH]; intros [|k]; cbn; try reflexivity.
    + change (ak_prefix (ak_disable nd x)) with (ak_prefix x). destruct String.eqb; reflexivity.
    + destruct String.eqb; [reflexivity|]. apply IH.
  - rewrite (live_others E nd i (MDisableAPIKey k) db j N). destruct (db_users db !! j); [|reflexivity]. destruct lookup_api_key; reflexivity.
Qed.

(** ** What the indexes do not know *)
Lemma new_address_unknown E nd i s db fs0 : mixed E tame fs0 db -> In "@"%char (los s) ->
  (forall j v, account db j v -> ~ has_address E v s) -> get_user E (live E nd i (MAddEmail s) db) s = None.
Proof.
  intros M At No. apply inv_mixed in M. unfold get_user. change "@" with (String "@" ""). rewrite (proj2 (contains_char s "@") At).
  unfold by_email. destruct (live_refs E nd i (MAddEmail s) db) as (_ & -> & _). destruct Z.ltb; [reflexivity|].
  destruct (ref_email db !! lower E s) as [j|] eqn:X; [|reflexivity]. exfalso.
  apply (inv_email _ _ M) in X as (v & Hv & Hs). apply (No j v Hv). now rewrite has_address_in.
Qed.
Lemma new_key_unknown E nd nd' i r0 db fs0 fs r : reachable_by E (key_ids_fresh E) fs0 db ->
  (forall j v k, account db j v -> In k (u_apikeys v) -> ak_prefix k <> take 24 (rk_payload (rq_key r))) ->
  exists e, o_res (exec E nd' OpLookupAPIKey (live E nd i (MAddAPIKey r0) db) fs r) = OErr e.
Proof.
  intros HR No. cbn [exec]. unfold db_lookup_api_key. destruct (live_refs E nd i (MAddAPIKey r0) db) as (_ & _ & _ & -> & _). cbv zeta.
  destruct String.eqb; [cbn; eauto|]. destruct Z.ltb; [cbn; eauto|]. destruct (ref_apikey db !! _) as [j|] eqn:X; [|cbn; eauto]. exfalso.
  apply (index_exact E fs0 db _ _ HR) in X as (v & k & Hv & Hk & P). eapply No; eauto.
Qed.
