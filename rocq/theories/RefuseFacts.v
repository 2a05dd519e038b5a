(** Facts about refusals (C116). *)
From Coq Require Import String Ascii ZArith NArith Lia Bool Arith List ZifyBool ZifyN ZifyNat.
From stdpp Require Import gmap strings.
From RecordUpdate Require Import RecordSet.
From Verif Require Import GoStr Codec GoErr GoTime Role Name Email Random SpecValue RoleFacts EmailFacts RandomFacts.
From Verif Require Import Types Env Password ApiKey PublicKey Mfa User Json Persist Fs Database System UserFacts DbFacts Inv LoadFacts.
From Verif Require Import SpecDb SpecAuth SpecKey SpecMfa AccountFacts StepFacts ApiKeyFacts PasswordFacts PublicKeyFacts TotpFacts MfaFacts WebAuthnFacts TokenFacts.
From Verif Require Import SpecWebAuthn Assert SpecAssert AssertFacts SpecRefuse.
Import ListNotations.
Import RecordSetNotations.
Open Scope string_scope.
#[local] Opaque int64 new_id trim_space new_email new_role.

(** ** Lists of checks *)
Definition verdict_out (l : checks) (res : Outcome) : Prop :=
  match res with OOk => Forall fst l | OErr e => first_failure l e | _ => True end.
Definition verdict_res {A} (l : checks) (res : Res A) : Prop :=
  match res with ROk _ => Forall fst l | RErr e => first_failure l e | RPanic => True end.
Lemma fail_here (c : Prop) e l : ~ c -> first_failure ((c, e) :: l) e.
Proof. intros H. exists [], c, l. repeat split; auto. Qed.
Lemma fail_later (c : Prop) e l e' : c -> first_failure l e' -> first_failure ((c, e) :: l) e'.
Proof. intros H (l1 & c' & l2 & -> & F & N). exists ((c, e) :: l1), c', l2. split; [reflexivity|]. split; [now constructor|exact N]. Qed.
Lemma fail_right l1 l2 e : Forall fst l1 -> first_failure l2 e -> first_failure (l1 ++ l2)%list e.
Proof. intros H (a & c & b & -> & F & N). exists (l1 ++ a)%list, c, b. rewrite <- app_assoc. split; [reflexivity|]. split; [|exact N]. apply Forall_app. auto. Qed.
Lemma fail_left l1 l2 e : first_failure l1 e -> first_failure (l1 ++ l2)%list e.
Proof. intros (a & c & b & -> & F & N). exists a, c, (b ++ l2)%list. rewrite <- app_assoc. auto. Qed.
Lemma fail_wrapped w l e : first_failure l e -> first_failure (wrapped w l) (w e).
Proof.
  intros (a & c & b & -> & F & N). exists (wrapped w a), c, (wrapped w b). unfold wrapped. rewrite map_app. split; [reflexivity|]. split; [|exact N].
  apply List.Forall_map. exact F.
Qed.
Lemma all_wrapped w l : Forall fst l -> Forall fst (wrapped w l).
Proof. intros F. apply List.Forall_map. exact F. Qed.
Lemma wrapped_app w a b : wrapped w (a ++ b)%list = (wrapped w a ++ wrapped w b)%list.
Proof. apply map_app. Qed.
Lemma fail_if (c : Prop) l e : c -> first_failure l e -> first_failure (if_so c l) e.
Proof.
  intros H (a & d & b & -> & F & N). exists (if_so c a), (c -> d), (if_so c b). unfold if_so. rewrite map_app. split; [reflexivity|]. split; [|auto].
  apply List.Forall_map. eapply List.Forall_impl; [|exact F]. cbn. auto.
Qed.
Lemma all_if (c : Prop) l : (c -> Forall fst l) -> Forall fst (if_so c l).
Proof. intros H. apply List.Forall_map. apply List.Forall_forall. intros x Hx. cbn. intros C. specialize (H C). rewrite List.Forall_forall in H. auto. Qed.
Lemma all_unless (c : Prop) l : ~ c -> Forall fst (if_so c l).
Proof. intros H. apply all_if. contradiction. Qed.
Lemma vo_block {A} (l1 l2 : checks) (x : A + goerr) res : verdict l1 x ->
  match x with inl _ => verdict_out l2 res | inr e => res = OErr e end -> verdict_out (l1 ++ l2)%list res.
Proof.
  intros V H. destruct x as [a|e]; cbn [verdict] in V.
  - destruct res; cbn [verdict_out] in *; auto; [apply Forall_app; auto|now apply fail_right].
  - subst. now apply fail_left.
Qed.
Lemma vo_check (c : Prop) e (l : checks) res : (c /\ verdict_out l res) \/ (~ c /\ res = OErr e) -> verdict_out ((c, e) :: l) res.
Proof.
  intros [[C V]|[N ->]]; [|now apply fail_here]. destruct res; cbn [verdict_out] in *; auto. now apply fail_later.
Qed.
Lemma verdict_wrapped {A} w l (x : A + goerr) : verdict l x -> verdict (wrapped w l) (match x with inl a => inl a | inr e => inr (w e) end).
Proof. destruct x; cbn [verdict]; intros H; [now apply all_wrapped|now apply fail_wrapped]. Qed.
Lemma verdict_app {A B} l1 l2 (x : A + goerr) (y : B + goerr) : verdict l1 x -> verdict l2 y ->
  verdict (l1 ++ l2)%list (match x with inl _ => y | inr e => inr e end).
Proof.
  destruct x as [a|e]; cbn [verdict]; intros H V; [|now apply fail_left]. destruct y; cbn [verdict] in *; [apply Forall_app; auto|now apply fail_right].
Qed.
Lemma vo_ok l res : verdict_out l res -> answered res -> res = OOk <-> Forall fst l.
Proof.
  intros V A. destruct res; cbn [verdict_out] in V; try (destruct A as [A|[? A]]; discriminate).
  - tauto.
  - split; [discriminate|]. intros F. exfalso. eapply failure_not_all; eauto.
Qed.
Lemma vo_err l res e : verdict_out l res -> answered res -> res = OErr e <-> first_failure l e.
Proof.
  intros V A. destruct res as [|e'| | |]; cbn [verdict_out] in V; try (destruct A as [A|[? A]]; discriminate).
  - split; [discriminate|]. intros F. exfalso. eapply failure_not_all; eauto.
  - split; [now intros [= ->]|]. intros F. now rewrite (failure_det _ _ _ V F).
Qed.

(** ** Identity *)
Lemma identity_verdict E fs db r : reachable E fs db -> verdict (identity_checks E db r) (validate_identity E db r).
Proof.
  intros HR. pose proof (validate_iff E fs db r) as VI. unfold identity_checks. revert VI. unfold validate_identity.
  destruct (by_username E db (ru_username (rq_user r))) as [[i u]|] eqn:A; intros VI.
  2:{ apply v_bad. intros (i & u & H). apply (by_username_resolves _ fs) in H; [congruence|assumption]. }
  apply v_ok; [exists i, u; now apply (by_username_resolves _ fs)|].
  destruct (by_email E db (ru_email (rq_user r))) as [[j v]|] eqn:B.
  2:{ apply v_bad. intros (j & v & H). apply (by_email_resolves _ fs) in H; [congruence|assumption]. }
  apply v_ok; [exists j, v; now apply (by_email_resolves _ fs)|].
  destruct (String.eqb (u_id u) (u_id v)); [apply v_ok; [exists i, u; now apply VI|apply v_nil]|].
  apply v_bad. intros (k & x & H). apply VI in H; [discriminate|assumption].
Qed.
Lemma about_iff E fs db r i u P : reachable E fs db -> validate_identity E db r = inl (i, u) -> about E db r P <-> P u.
Proof.
  intros HR V. split.
  - intros (j & v & H & Hp). apply (validate_iff _ fs) in H; [|assumption]. congruence.
  - intros Hp. exists i, u. split; [|exact Hp]. now apply (validate_iff _ fs).
Qed.
(** ** Writing *)
Lemma write_db_res nd path d fs fs' res : write_db nd path d fs = (fs', res) -> forall e, res = CErr e -> e = EWith ErrDatabaseCommit [AStr path; AErr ext_err].
Proof. unfold write_db. destruct d as [d|]; [|intros [=<- <-] e [=<-]; reflexivity]. destruct write_file as [f []]; intros [=<- <-] e; try discriminate. now intros [=<-]. Qed.
Lemma commit_verdict nd path d fs d' fs' res : commit_to nd path d fs = (d', fs', res) ->
  verdict_out (write_checks nd fs path (db_content d')) (match res with COk => OOk | CErr e => OErr e | CCrash => OCrash end).
Proof.
  intros C. pose proof (commit_res _ _ _ _ _ _ _ C) as K. destruct res as [|e|]; [| |exact I].
  - cbn [verdict_out]. constructor; [|constructor]. now apply K.
  - assert (e = EWith ErrDatabaseCommit [AStr path; AErr ext_err]) as ->.
    { unfold commit_to in C. cbv zeta in C. destruct write_db as [f x] eqn:W. injection C as <- <- ->. eapply write_db_res; eauto. }
    apply fail_here. intros H. apply K in H. discriminate.
Qed.
Lemma finish_verdict nd db fs r w path : path = db_path db ->
  verdict_out (wrapped w (write_checks nd fs path (db_content (o_db (finish nd db fs r w))))) (o_res (finish nd db fs r w)).
Proof.
  intros ->. unfold finish, commit. destruct (commit_to nd (db_path db) db fs) as [[d f] res] eqn:C. apply commit_verdict in C.
  destruct res; cbn [ret o_db o_res verdict_out] in *; [now apply all_wrapped|now apply fail_wrapped|exact I].
Qed.

(** ** New accounts *)
Lemma password_verdict E nd s : verdict (password_checks E nd s) (new_password E nd s).
Proof.
  unfold password_checks, new_password, new_password_opt, pw_hash_of. destruct (String.eqb_spec (trim_space s) "") as [Z|N]; [now apply v_bad|]. apply v_ok; [exact N|].
  change (0 <? 8)%Z with true. change (String.eqb "bcrypt" "bcrypt") with true. cbv iota zeta.
  destruct e_bcrypt as [h|]; [apply v_ok; [eauto|apply v_nil]|]. apply v_bad. intros [h H]. discriminate.
Qed.
Lemma email_error s e : new_email s = inr e -> e = EStd ErrEmailAddressInvalid.
Proof. Transparent new_email. unfold new_email. repeat (match goal with |- context [match ?x with _ => _ end] => destruct x end; try discriminate; try now intros [=<-]). Opaque new_email. Qed.
Lemma roles_error nd l : forall u e, add_roles nd u l = inr e -> e = EStd ErrRoleEmpty /\ ~ Forall (fun s => trim_space s <> "") l.
Proof.
  induction l as [|s l IH]; intros u e; cbn [add_roles]; [discriminate|]. unfold add_role.
  destruct (string_dec (trim_space s) "") as [Z|N].
  - rewrite (new_role_blank s Z). intros [=<-]. split; [reflexivity|]. now inversion 1.
  - destruct (new_role_total s N) as [ro ->]. destruct add_role_list; intros H; apply IH in H as [-> H]; (split; [reflexivity|]); inversion 1; contradiction.
Qed.
Lemma name_error s e : parse_name s = inr e -> e = EWith ErrParseNameFailed [AStr s].
Proof. unfold parse_name. destruct parse_sep; [discriminate|]. destruct parse_sep; [discriminate|]. now intros [=<-]. Qed.
Lemma user_verdict E nd name pw email f roles :
  verdict (password_checks E nd pw ++
     [((exists d, email_grammar email d), EStd ErrEmailAddressInvalid);
      (Forall (fun s => trim_space s <> "") roles, EStd ErrRoleEmpty);
      (name_parses f, EWith ErrParseNameFailed [AStr (trim_space f)]);
      (name <> "", EStd ErrUsernameEmpty)])%list (new_user_with_roles E nd name pw email f roles).
Proof.
  unfold new_user_with_roles. rewrite add_password_new. pose proof (password_verdict E nd pw) as V.
  destruct (new_password E nd pw) as [p|e]; [|now apply fail_left].
  match goal with |- verdict (?a ++ ?b)%list ?x => enough (H : verdict b x) by exact (verdict_app a b (inl p) x V H) end. clear V.
  rewrite add_email_first by reflexivity. destruct (new_email email) as [e|e] eqn:EM.
  2:{ rewrite (email_error _ _ EM). apply v_bad. intros [d D]. destruct (proj1 (new_email_err email)) with (d := d); eauto. }
  apply v_ok; [apply new_email_spec in EM as (G & _); eauto|].
  destruct add_roles as [u2|x] eqn:R.
  2:{ apply roles_error in R as [-> R]. now apply v_bad. }
  pose proof R as R'. apply add_roles_inv in R' as [rs Hrs].
  edestruct (add_roles_ok nd) as [rev R2]; [exact Hrs| |rewrite R2 in R]; [reflexivity|].
  injection R as <-. rewrite fresh_roles. cbv zeta. change (dedup_roles _ rs) with (dedup_roles [] rs).
  apply v_ok; [apply new_roles_iff; eauto|].
  destruct (String.eqb_spec (trim_space f) "") as [F|F].
  - apply v_ok; [now left|]. rewrite fresh_valid. destruct (String.eqb_spec name "") as [->|U]; [now apply v_bad|]. apply v_ok; [exact U|apply v_nil].
  - destruct (parse_name (trim_space f)) as [n|x] eqn:N.
    + apply v_ok; [apply name_given_iff; exists (Some n); right; eauto|]. rewrite fresh_name, fresh_valid.
      destruct (String.eqb_spec name "") as [->|U]; [now apply v_bad|]. apply v_ok; [exact U|apply v_nil].
    + rewrite (name_error _ _ N). apply v_bad. intros H. apply name_given_iff in H as (n & [[Z _]|(_ & y & Hy & _)]); [contradiction|congruence].
Qed.
Lemma new_user_fields E nd name pw email f roles u : new_user_with_roles E nd name pw email f roles = inl u ->
  u_username u = name /\ exists e, u_emails u = [e] /\ em_address e = email.
Proof. intros H. apply new_user_iff in H as (p & e & rs & n & _ & EM & _ & _ & _ & ->). split; [reflexivity|]. exists e. split; [reflexivity|]. now apply new_email_address. Qed.
Lemma within_user p s : user_policy_ok p s = true <-> within (up_min (po_user p)) (zlen s) (up_max (po_user p)).
Proof. unfold user_policy_ok, within. lia. Qed.
Lemma within_password p s : password_policy_ok p s = true <-> within (pp_min (po_password p)) (zlen s) (pp_max (po_password p)).
Proof. unfold password_policy_ok, within. lia. Qed.
Lemma add_user_verdict E nd db fs r : reachable E fs db -> let o := exec E nd OpAddUser db fs r in
  verdict_out (refusals E nd OpAddUser db fs r (db_content (o_db o))) (o_res o).
Proof.
  intros HR o. unfold o. clear o. cbn [refusals exec]. pose proof (inv_reachable _ _ _ HR) as HI. unfold add_user_checks, db_add_user. cbv zeta.
  set (q := rq_user r). set (po := db_policy db).
  pose proof (user_verdict E nd (ru_username q) (ru_password q) (ru_email q) (ru_full_name q) (ru_roles q)) as V.
  set (x := match check_policy po (ru_username q) (ru_password q) with Some e => inr e | None =>
              new_user_with_roles E nd (ru_username q) (ru_password q) (ru_email q) (ru_full_name q) (ru_roles q) end).
  eapply (vo_block _ _ (match x with inl a => inl a | inr e => inr (EWith ErrAddUser [AStr (ru_username q); AErr e]) end)).
  - apply (verdict_wrapped (fun e => EWith ErrAddUser [AStr (ru_username q); AErr e])). unfold x, check_policy. cbn [app].
    destruct (user_policy_ok po (ru_username q)) eqn:U; cbn [negb].
    2:{ apply v_bad. intros H. apply within_user in H. congruence. }
    apply v_ok; [now apply within_user|]. destruct (password_policy_ok po (ru_password q)) eqn:P; cbn [negb].
    2:{ apply v_bad. intros H. apply within_password in H. congruence. }
    apply v_ok; [now apply within_password|]. exact V.
  - unfold x. clear x. destruct check_policy as [e|]; [reflexivity|]. clear V.
    destruct new_user_with_roles as [u|e] eqn:N; [|reflexivity]. apply new_user_fields in N as (Hn & e & He & Ha).
    change (u_username (u <| u_id := pick_id db nd 1 10 (u_id u) |>)) with (u_username u). rewrite Hn.
    change (u_emails (u <| u_id := pick_id db nd 1 10 (u_id u) |>)) with (u_emails u). rewrite He. cbn [app].
    apply vo_check. destruct (ref_username db !! lower E (ru_username q)) as [j|] eqn:X.
    { right. split; [|reflexivity]. intros H. apply (name_lookup_None E db _ HI) in H. congruence. }
    left. split; [now apply (name_lookup_None E db _ HI)|]. cbn [new_addresses]. rewrite Ha.
    apply vo_check. destruct (ref_email db !! lower E (ru_email q)) as [j|] eqn:Y.
    { right. split; [|reflexivity]. intros H. apply (email_lookup_None E db _ HI) in H. congruence. }
    left. split; [now apply (email_lookup_None E db _ HI)|]. apply finish_verdict. reflexivity.
Qed.

(** ** Reading, writing, looking up *)
Lemma user_first E fs db r w (l : checks) res : reachable E fs db ->
  (forall e, validate_identity E db r = inr e -> res = OErr (w e)) ->
  (forall i u, validate_identity E db r = inl (i, u) -> verdict_out l res) ->
  verdict_out (wrapped w (identity_checks E db r) ++ l)%list res.
Proof.
  intros HR H0 Hk. apply (vo_block _ _ (match validate_identity E db r with inl x => inl x | inr e => inr (w e) end)).
  - apply (verdict_wrapped w), (identity_verdict _ fs), HR.
  - destruct (validate_identity E db r) as [[i u]|e] eqn:V; [now apply (Hk i u)|now apply H0].
Qed.
Lemma user_only E fs db r w res : reachable E fs db ->
  (forall e, validate_identity E db r = inr e -> res = OErr (w e)) ->
  (forall i u, validate_identity E db r = inl (i, u) -> res = OOk) ->
  verdict_out (wrapped w (identity_checks E db r)) res.
Proof.
  intros HR H0 Hk. rewrite <- (app_nil_r (wrapped _ _)). apply (user_first _ fs); auto. intros i u V. rewrite (Hk _ _ V). constructor.
Qed.
Lemma reads_verdict E nd op db fs r : reachable E fs db -> In op [OpGetUsers; OpGetUser; OpDeleteUser; OpGetPublicKeys; OpGetAPIKeys; OpGetMfaTokens; OpIdentify; OpUserCount] ->
  let o := exec E nd op db fs r in verdict_out (refusals E nd op db fs r (db_content (o_db o))) (o_res o).
Proof.
  intros HR H o. unfold o. clear o. cbn [In] in H.
  destruct H as [<-|[<-|[<-|[<-|[<-|[<-|[<-|[<-|[]]]]]]]]]; cbn [refusals exec].
  - apply (user_only _ fs); [assumption| |]; unfold db_get_users; [intros e ->|intros i u ->]; reflexivity.
  - apply (user_only _ fs); [assumption| |]; unfold db_get_user; [intros e ->|intros i u ->]; reflexivity.
  - apply (user_first _ fs); [assumption| |]; unfold db_delete_user; [intros e ->; reflexivity|intros i u ->]. apply fail_here. tauto.
  - apply (user_only _ fs); [assumption| |]; unfold db_get_public_keys; [intros e ->|intros i u ->]; reflexivity.
  - apply (user_only _ fs); [assumption| |]; unfold db_get_api_keys; [intros e ->|intros i u ->]; reflexivity.
  - apply (user_only _ fs); [assumption| |]; unfold db_get_mfa_tokens; [intros e ->|intros i u ->]; reflexivity.
  - unfold db_identify. destruct get_user as [[i u]|]; constructor.
  - constructor.
Qed.
Lemma writes_verdict E nd op db fs r : op = OpSave \/ (exists fp, op = OpCopy fp) ->
  let o := exec E nd op db fs r in verdict_out (refusals E nd op db fs r (db_content (o_db o))) (o_res o).
Proof.
  intros H o. unfold o. clear o. destruct H as [->|[fp ->]]; cbn [refusals exec].
  - unfold db_save, finish, commit. destruct commit_to as [[d f] res] eqn:C. apply commit_verdict in C. destruct res; exact C.
  - unfold db_copy. destruct commit_to as [[d f] res] eqn:C. apply commit_verdict in C. destruct res; exact C.
Qed.
Lemma lookup_error E nd db fs r e : o_res (exec E nd OpLookupAPIKey db fs r) = OErr e -> let s := rk_payload (rq_key r) in
  s <> "" -> (72 <= String.length s)%nat -> e = EStd ErrLookupAPIKeyFailed.
Proof.
  cbn [exec]. unfold db_lookup_api_key. cbv zeta. intros H N L. destruct (String.eqb_spec (rk_payload (rq_key r)) "") as [|_]; [contradiction|].
  destruct (zlen (rk_payload (rq_key r)) <? 72)%Z eqn:Z; [unfold zlen in Z; lia|].
  destruct at_ref as [[i u]|]; [|now injection H]. unfold lookup_api_key in H.
  destruct find as [k|]; [|now injection H]. destruct ak_match; [discriminate|now injection H].
Qed.
Lemma lookup_verdict E nd db fs r : reachable E fs db -> let o := exec E nd OpLookupAPIKey db fs r in
  verdict_out (refusals E nd OpLookupAPIKey db fs r (db_content (o_db o))) (o_res o).
Proof.
  intros HR o. unfold o. clear o. cbn [refusals]. unfold lookup_checks. cbv zeta. set (s := rk_payload (rq_key r)).
  destruct (lookup_iff E nd db fs r HR) as (I & _ & T). pose proof (lookup_error E nd db fs r) as LE. cbv zeta in I, LE. fold s in I, LE.
  apply vo_check. destruct (string_dec s "") as [Z|N].
  { right. split; [now intros X|]. cbn [exec]. unfold db_lookup_api_key. cbv zeta. fold s. rewrite Z. reflexivity. }
  left. split; [exact N|]. apply vo_check. destruct (Nat.le_gt_cases 72 (String.length s)) as [L|L].
  2:{ right. split; [lia|]. cbn [exec]. unfold db_lookup_api_key. cbv zeta. fold s. apply String.eqb_neq in N. rewrite N.
      assert (zlen s <? 72 = true)%Z as -> by (unfold zlen; lia). reflexivity. }
  left. split; [exact L|]. apply vo_check. destruct T as [T|[e T]].
  - left. rewrite T. split; [|constructor]. now apply I in T.
  - right. split; [|rewrite T; f_equal; now apply LE]. intros K. assert (X : o_res (exec E nd OpLookupAPIKey db fs r) = OOk) by (apply I; auto). congruence.
Qed.

(** ** Logging in *)
Lemma auth_block l1 l2 res : Forall fst l1 -> verdict_out l2 res -> verdict_out (l1 ++ l2)%list res.
Proof. intros H V. now apply (vo_block _ _ (inl (tt, ()))). Qed.
Lemma authenticate_verdict E nd db fs r : reachable E fs db -> let o := exec E nd OpAuthenticate db fs r in
  verdict_out (refusals E nd OpAuthenticate db fs r (db_content (o_db o))) (o_res o).
Proof.
  intros HR o. unfold o. clear o. cbn [refusals exec]. unfold authenticate_checks, db_authenticate. cbv zeta. set (pw := ru_password (rq_user r)). set (m := rw_request (rq_webauthn r)).
  set (w := fun e => EWith ErrAuthFailed [AErr e]). set (login := resolves_login E db (ru_username (rq_user r))).
  assert (GI : forall i u, get_user E db (ru_username (rq_user r)) = Some (i, u) <-> login i u) by (intros; now apply (get_user_resolves _ fs)).
  rewrite wrapped_app, <- app_assoc. unfold wrapped at 1. cbn [map fst snd app]. apply vo_check.
  destruct (get_user E db (ru_username (rq_user r))) as [[i u]|].
  2:{ right. split; [|reflexivity]. intros (j & v & H). apply GI in H. discriminate. }
  assert (L : login i u) by (now apply GI). assert (LU : forall j v, login j v -> v = u) by (intros j v H; apply GI in H; congruence).
  left. split; [exists i, u; exact L|]. destruct (String.eqb_spec pw "") as [Z|N]; cbn [negb].
  - apply auth_block; [apply all_wrapped, all_unless; tauto|]. cbn [app]. apply vo_check.
    destruct (String.eqb_spec m "") as [Zm|Nm]; cbn [negb]; [right; split; [tauto|reflexivity]|]. left. split; [now right|].
    assert (F : Forall cache_ok (u_mfa u)). { apply (reachable_caches _ _ _ HR i). assert (G : get_user E db (ru_username (rq_user r)) = Some (i, u)) by (now apply (get_user_resolves _ fs)). exact (get_user_at _ _ _ _ _ G). }
    pose proof (verify_webauthn_iff E u r F) as W. unfold wrapped, if_so. cbn [map fst snd].
    revert W. unfold verify_webauthn, unpack_request, assertion. fold m. destruct (b64_decode m) as [d|] eqn:D.
    2:{ intros _. apply vo_check. right. split; [|reflexivity]. intros H. destruct (H Z) as [d H']. discriminate. }
    destruct (e_authreq E d) as [q|] eqn:Q.
    2:{ intros _. apply vo_check. left. split; [eauto|]. apply vo_check. right. split; [|reflexivity]. intros H. destruct (H Z) as (a & d' & [=<-] & Qa). congruence. }
    intros W. apply vo_check. left. split; [eauto|]. apply vo_check. left. split; [eauto|]. apply vo_check.
    assert (VE : forall l e, snd (verify_tokens E r (wq_id q) l) = Some e -> e = EStd ErrWebAuthnVerifyRequest).
    { clear. induction l as [|t l IH]; intros e; cbn [verify_tokens]; [now intros [=<-]|]. destruct (_ && _).
      - destruct webauthn_request as [t' [c|]]; [destruct String.eqb; [discriminate|]|]; now intros [=<-].
      - destruct verify_tokens as [l' res]. apply IH. }
    specialize (VE (u_mfa u)). destruct (verify_tokens E r (wq_id q) (u_mfa u)) as [l' res]. cbn [snd] in *. destruct res as [e|].
    + right. split; [|now rewrite (VE e eq_refl)]. intros H. destruct (H Z) as (j & v & a & p & Hl & Ha & Hc & Hp). rewrite (LU _ _ Hl) in Hc.
      enough (Some e = None) by discriminate. apply W. eauto.
    + left. split; [|constructor]. intros _. destruct (proj1 W eq_refl) as (a & p & Ha & Hc & Hp). exists i, u, a, p. auto.
  - unfold wrapped at 1, if_so at 1. cbn [map fst snd app]. apply vo_check. pose proof (accepts_iff E u pw) as AI. unfold verify_password in *.
    destruct (u_passwords u) as [|p ps] eqn:P.
    { right. split; [|reflexivity]. intros H. destruct (H N) as (j & v & Hl & Hv). rewrite (LU _ _ Hl) in Hv. contradiction. }
    left. split; [intros _; exists i, u; rewrite P; auto|]. apply vo_check. destruct existsb.
    + left. split; [intros _; exists i, u; split; [exact L|now apply AI]|]. cbn [ret o_res]. apply vo_check. left. split; [now left|].
      apply all_wrapped, all_unless. exact N.
    + right. split; [|reflexivity]. intros H. destruct (H N) as (j & v & Hl & Hv). rewrite (LU _ _ Hl) in Hv. apply AI in Hv. discriminate.
Qed.

(** ** Deleting, changing a password, API keys *)
Lemma deletes_verdict E nd op db fs r : reachable E fs db -> In op [OpDeletePublicKey; OpDeleteAPIKey; OpDeleteMfaToken] ->
  let o := exec E nd op db fs r in verdict_out (refusals E nd op db fs r (db_content (o_db o))) (o_res o).
Proof.
  intros HR H o. unfold o. clear o. cbn [In] in H. destruct H as [<-|[<-|[<-|[]]]]; cbn [refusals exec].
  - apply (user_first _ fs); [assumption| |]; unfold db_delete_public_key; [intros e ->; reflexivity|intros i u V; rewrite V]. unfold delete_public_key.
    cbn [app]. apply vo_check. rewrite (about_iff _ _ _ _ _ _ _ HR V), <- existsb_id. destruct existsb; [|right; split; [discriminate|reflexivity]].
    left. split; [reflexivity|]. apply finish_verdict. reflexivity.
  - apply (user_first _ fs); [assumption| |]; unfold db_delete_api_key; [intros e ->; reflexivity|intros i u V; rewrite V]. unfold delete_api_key.
    cbn [app]. apply vo_check. rewrite (about_iff _ _ _ _ _ _ _ HR V), <- existsb_id. destruct existsb; [|right; split; [discriminate|reflexivity]].
    left. split; [reflexivity|]. apply finish_verdict. reflexivity.
  - apply (user_first _ fs); [assumption| |]; unfold db_delete_mfa_token; [intros e ->; reflexivity|intros i u V; rewrite V]. unfold delete_mfa_token.
    cbn [app]. apply vo_check. rewrite (about_iff _ _ _ _ _ _ _ HR V), <- existsb_id. destruct existsb; [|right; split; [discriminate|reflexivity]].
    left. split; [reflexivity|]. apply finish_verdict. reflexivity.
Qed.
Lemma change_verdict E nd db fs r : reachable E fs db -> let o := exec E nd OpChangePassword db fs r in
  verdict_out (refusals E nd OpChangePassword db fs r (db_content (o_db o))) (o_res o).
Proof.
  intros HR o. unfold o. clear o. cbn [refusals exec]. unfold change_password_checks. cbv zeta. set (w := fun e => EWith ErrChangeUserPassword [AErr e]).
  rewrite !wrapped_app. apply (user_first _ fs); [assumption| |]; unfold db_change_password; [intros e ->; reflexivity|intros i u V; rewrite V].
  unfold wrapped at 1. cbn [map fst snd app]. apply vo_check. destruct (password_policy_ok (db_policy db) (ru_password (rq_user r))) eqn:P; cbn [negb].
  2:{ right. split; [|reflexivity]. intros H. apply within_password in H. congruence. }
  left. split; [now apply within_password|]. unfold change_password, add_password. apply vo_check. rewrite (about_iff _ _ _ _ _ _ _ HR V).
  pose proof (accepts_iff E u (ru_old_password (rq_user r))) as AI. unfold verify_password in *. destruct (u_passwords u) as [|p ps] eqn:Ps; [right; split; [tauto|reflexivity]|].
  left. split; [discriminate|]. apply vo_check. rewrite (about_iff _ _ _ _ _ _ _ HR V).
  destruct existsb; [|right; split; [intros H; apply AI in H; discriminate|reflexivity]]. left. split; [now apply AI|].
  pose proof (password_verdict E nd (ru_password (rq_user r))) as PV. apply (verdict_wrapped w) in PV.
  eapply vo_block; [exact PV|]. destruct new_password as [np|e]; [|reflexivity]. apply finish_verdict. reflexivity.
Qed.
Lemma api_key_verdict E nd db fs r : reachable E fs db -> let o := exec E nd OpAddAPIKey db fs r in
  verdict_out (refusals E nd OpAddAPIKey db fs r (db_content (o_db o))) (o_res o).
Proof.
  intros HR o. unfold o. clear o. cbn [refusals exec]. unfold add_api_key_checks. cbv zeta. set (w := fun e => EWith ErrAddAPIKey [AStr (rk_usage (rq_key r)); AErr e]).
  apply (user_first _ fs); [assumption| |]; unfold db_add_api_key; [intros e ->; reflexivity|intros i u V; rewrite V].
  destruct (random_range 72 96 (nd_len nd) (nd_secret nd)) as [s|] eqn:R; [|exact I]. cbn [app]. apply vo_check.
  assert (D : forall s', drawn nd s' -> s' = s) by (unfold drawn; intros; congruence).
  destruct (drawn_spec nd) as (s0 & D0 & A & Le). rewrite (D _ D0) in A, Le. clear s0 D0. pose proof (alnum_trim s A) as T.
  assert (Ne : s <> "") by (intros ->; cbn in Le; lia).
  unfold new_password, new_password_opt, pw_hash_of. rewrite T. apply String.eqb_neq in Ne. rewrite Ne. change (String.eqb "bcrypt" "bcrypt") with true. change (0 <? 8)%Z with true. cbv iota zeta.
  destruct (e_bcrypt E (nd_salt nd) s 10) as [h|] eqn:B.
  2:{ right. split; [|reflexivity]. intros (s' & h & Hs & Hh). rewrite (D _ Hs) in Hh. congruence. }
  left. split; [exists s, h; auto|]. cbn [pw_hash]. destruct (ref_apikey db !! take 24 s); [exact I|]. unfold add_api_key, new_api_key.
  match goal with |- context [finish nd _ fs ?q _] => set (r' := q) end.
  change (rk_payload (rq_key r')) with h. change (rk_usage (rq_key r')) with (rk_usage (rq_key r)). change (rk_comment (rq_key r')) with (rk_comment (rq_key r)).
  unfold wrapped at 1. cbn [map fst snd app]. apply vo_check. destruct (String.eqb_spec h "") as [Zh|Nh].
  { right. split; [|reflexivity]. intros (s' & h' & Hs & Hh & N). rewrite (D _ Hs) in Hh. congruence. }
  left. split; [exists s, h; auto|]. apply vo_check. destruct (String.eqb_spec (rk_usage (rq_key r)) "") as [Zu|Nu]; [right; split; [tauto|reflexivity]|]. left. split; [exact Nu|].
  apply vo_check. destruct (String.eqb_spec (rk_usage (rq_key r)) "api") as [Ua|Na]; cbn [negb]; [|right; split; [exact Na|reflexivity]]. left. split; [exact Ua|].
  apply vo_check. destruct (String.eqb_spec (rk_comment (rq_key r)) "") as [Zc|Nc]; [right; split; [tauto|reflexivity]|]. left. split; [exact Nc|].
  apply finish_verdict. reflexivity.
Qed.

(** ** Public keys *)
Lemma seq_start p a t : In p space_seqs -> p = a :: t -> In (nat_of_ascii a) [9; 10; 11; 12; 13; 32; 194; 225; 226; 227]%nat.
Proof.
  intros H ->. assert (F : forallb (fun p => match p with [] => true | a :: _ => existsb (Nat.eqb (nat_of_ascii a)) [9; 10; 11; 12; 13; 32; 194; 225; 226; 227]%nat end) space_seqs = true) by (vm_compute; reflexivity).
  rewrite forallb_forall in F. specialize (F _ H). cbn beta iota in F. apply existsb_exists in F as (n & Hn & En). apply Nat.eqb_eq in En. now rewrite En.
Qed.
Lemma all_space_start a l : all_space (a :: l) -> In (nat_of_ascii a) [9; 10; 11; 12; 13; 32; 194; 225; 226; 227]%nat.
Proof.
  intros ([|p ps] & F & H); [discriminate|]. inversion F; subst. destruct p as [|x p]; [now apply space_seqs_ne in H2|].
  cbn in H. injection H as -> _. now apply (seq_start _ _ p H2).
Qed.
Lemma ssh_trim s b : s = "ssh-rsa " ++ b -> exists rest, los (trim_space s) = (los "ssh-rsa" ++ rest)%list /\ (rest = [] \/ exists t, rest = (" "%char :: t)%list).
Proof.
  intros Hs. destruct (trim_space_spec s) as (_ & x & y & Hx & Hy & H). rewrite Hs, los_app in H. rewrite <- Hs in H. cbn in H.
  destruct x as [|a x]; [|exfalso; cbn in H; injection H as <- _; apply all_space_start in Hx; cbn in Hx; intuition discriminate]. cbn [app] in H.
  assert (Y : forall a y0, y = a :: y0 -> In (nat_of_ascii a) [9; 10; 11; 12; 13; 32; 194; 225; 226; 227]%nat) by (intros a y0 ->; now apply all_space_start in Hy).
  set (t := los (trim_space s)) in *. clearbody t. clear Hs Hx Hy.
  repeat match goal with
  | H : _ :: _ = (?t ++ y)%list |- _ =>
      lazymatch type of H with " "%char :: _ = _ => fail | _ => idtac end;
      destruct t as [|? t]; cbn [app] in H; [exfalso; specialize (Y _ _ (eq_sym H)); cbn in Y; intuition discriminate|injection H as <- H]
  end.
  exists t. split; [reflexivity|]. destruct t as [|c t]; [now left|]. right. cbn [app] in H. injection H as <- _. eauto.
Qed.
Lemma cut_until l : match cut_blank l with None => until_blank l = l | Some (x, _) => until_blank l = x end.
Proof.
  induction l as [|a l IH]; cbn [cut_blank until_blank]; [reflexivity|]. destruct (_ || _); [reflexivity|]. destruct (cut_blank l) as [[x y]|]; now rewrite IH.
Qed.
Lemma cut_head l y : cut_blank l = Some ([], y) -> exists a t, l = a :: t /\ (a = " "%char \/ a = "009"%char).
Proof.
  destruct l as [|a l]; cbn [cut_blank]; [discriminate|]. destruct (Ascii.eqb_spec a " "); [eauto|]. destruct (Ascii.eqb_spec a "009"); [eauto|].
  cbn [orb]. destruct (cut_blank l) as [[? ?]|]; discriminate.
Qed.
Lemma trim_no_blank s a t : los (trim_space s) = a :: t -> ~ (a = " "%char \/ a = "009"%char).
Proof.
  intros H X. destruct (trim_space_spec s) as ([N _] & _). apply (N [a] t); [|exact H]. destruct X as [-> | ->]; vm_compute; auto 10.
Qed.
Lemma openssh_word s b : s = "ssh-rsa " ++ b -> let payload := los (trim_space s) in
  exists w rest, (match cut_blank payload with Some x => x | None => (payload, []) end) = (w, rest) /\ (List.length w <? 20)%nat = true /\
    exists comment openssh, (match cut_blank (los (trim_space (sol rest))) with Some ([], _) | None => (los (trim_space (sol rest)), "", sol (los (trim_space (sol rest))))
      | Some (x, y) => (x, trim_space (sol y), sol x) end) = (los (ssh_word s), comment, openssh).
Proof.
  intros Hs payload. unfold ssh_word, payload. clear payload. destruct (ssh_trim _ _ Hs) as (rest & -> & R). change (sol (skipn 7 (los "ssh-rsa" ++ rest)%list)) with (sol rest).
  exists (los "ssh-rsa"), rest. split; [|split; [reflexivity|]].
  - destruct R as [->|[t ->]]; reflexivity.
  - rewrite los_sol. set (body := los (trim_space (sol rest))). pose proof (cut_until body) as C. destruct (cut_blank body) as [[[|c x] y]|] eqn:K.
    + exfalso. apply cut_head in K as (a & t & K & X). eapply trim_no_blank; eauto.
    + rewrite C. eauto.
    + rewrite C. eauto.
Qed.
Lemma openssh_verdict E p b : pk_payload p = "ssh-rsa " ++ b -> let s := pk_payload p in
  verdict [((exists b, b64_decode (ssh_word s) = Some b), unparsed ext_err);
     ((exists k, ssh_blob E s k), unparsed ext_err);
     ((exists k, ssh_blob E s k /\ sk_type k = "ssh-rsa"), EWith ErrPublicKeyTypeUnsupported [AStr (ssh_type E s)]);
     ((exists k pem, ssh_blob E s k /\ sk_pem k = Some pem), unparsed ext_err)] (parse_openssh E p) /\
  forall q, parse_openssh E p = inl q -> exists k, ssh_blob E s k /\ pk_type q = sk_type k /\ pk_fp q = sk_sha256 k.
Proof.
  intros Hs s. unfold parse_openssh. fold s. change (s = "ssh-rsa " ++ b) in Hs. clearbody s.
  destruct (openssh_word _ _ Hs) as (w & rest & Hw & Hl & comment & openssh & Eq). cbv zeta. rewrite Hw, Hl, Eq. clear Eq Hw Hl.
  unfold ssh_blob, ssh_type, b64_decode. destruct (b64_decode_l (los (ssh_word s))) as [blob|] eqn:D; cbn [option_map].
  2:{ split; [apply v_bad; intros [? [=]]|discriminate]. }
  destruct (e_ssh E (sol blob)) as [k|] eqn:K.
  2:{ split; [|discriminate]. apply v_ok; [eauto|]. apply v_bad. intros (k & c & [=<-] & Hc). congruence. }
  assert (U : forall P : SshKey -> Prop, (exists k', (exists c, Some (sol blob) = Some c /\ e_ssh E c = Some k') /\ P k') <-> P k).
  { intros P. split; [intros (k' & (c & [=<-] & Hc) & Hp); congruence|]. intros Hp. exists k. eauto. }
  destruct (String.eqb_spec (sk_type k) "ssh-rsa") as [T|T].
  - destruct (sk_pem k) as [pem|] eqn:Pm.
    + split; [apply v_ok; [eauto|]; apply v_ok; [eauto|]; apply v_ok; [now apply U|]; apply v_ok; [exists k, pem; eauto|apply v_nil]|].
      intros q [=<-]. exists k. split; [eauto|]. split; reflexivity.
    + split; [|discriminate]. apply v_ok; [eauto|]; apply v_ok; [eauto|]; apply v_ok; [now apply U|]. apply v_bad. intros (k' & pem & (c & [=<-] & Hc) & Hp). congruence.
  - split; [|discriminate]. apply v_ok; [eauto|]; apply v_ok; [eauto|]. apply v_bad. now rewrite U.
Qed.
Lemma rsa_verdict E p : let s := pk_payload p in
  verdict [(pk_usage p = "ssh", EWith ErrPublicKeyUsagePayloadMismatch [AStr (pk_usage p)]);
     ((exists b, e_pem E (trim_space s) = Some ("RSA PUBLIC KEY", b)), EWith ErrPublicKeyBlockType [AStr (block_type E s)]);
     ((exists b, e_pem E (trim_space s) = Some ("RSA PUBLIC KEY", b) /\ e_pkix E b <> PkixErr), unparsed ext_err);
     ((exists b k, e_pem E (trim_space s) = Some ("RSA PUBLIC KEY", b) /\ e_pkix E b = PkixKey k), EFmt "failed ssh.NewPublicKey")] (parse_rsa E p) /\
  forall q, parse_rsa E p = inl q -> exists b k, e_pem E (trim_space s) = Some ("RSA PUBLIC KEY", b) /\ e_pkix E b = PkixKey k /\
     pk_type q = sk_type k /\ pk_fp q = replace_all (sk_sha256 k) "SHA256:" "".
Proof.
  intros s. unfold parse_rsa, block_type. fold s. destruct (String.eqb_spec (pk_usage p) "ssh") as [U|U]; cbn [negb]; [|split; [now apply v_bad|discriminate]].
  destruct (e_pem E (trim_space s)) as [[ty bs]|].
  2:{ split; [|discriminate]. apply v_ok; [exact U|]. apply v_bad. intros [? [=]]. }
  destruct (String.eqb_spec ty "RSA PUBLIC KEY") as [->|T]; cbn [negb].
  2:{ split; [|discriminate]. apply v_ok; [exact U|]. apply v_bad. intros [? [=]]. contradiction. }
  destruct (e_pkix E bs) as [| |k] eqn:X.
  - split; [|discriminate]. apply v_ok; [exact U|]. apply v_ok; [eauto|]. apply v_bad. intros (b & [=<-] & N). contradiction.
  - split; [|discriminate]. apply v_ok; [exact U|]. apply v_ok; [eauto|]. apply v_ok; [exists bs; rewrite X; split; [reflexivity|discriminate]|].
    apply v_bad. intros (b & k & [=<-] & N). congruence.
  - split.
    + apply v_ok; [exact U|]. apply v_ok; [eauto|]. apply v_ok; [exists bs; rewrite X; split; [reflexivity|discriminate]|]. apply v_ok; [exists bs, k; auto|apply v_nil].
    + intros q [=<-]. exists bs, k. repeat split; auto.
Qed.
Lemma pgp_algo_iff n : (exists a t, pgp_algo n = Some (a, t)) <-> In n [1; 2; 3; 17; 18; 19]%N.
Proof.
  unfold pgp_algo. cbn [In]. destruct (_ || _) eqn:A; [split; [lia|eauto]|]. destruct (n =? 17)%N eqn:B; [split; [lia|eauto]|].
  destruct (n =? 18)%N eqn:C; [split; [lia|eauto]|]. destruct (n =? 19)%N eqn:D; [split; [lia|eauto]|]. split; [intros (? & ? & [=])|lia].
Qed.
Lemma pgp_algo_name n a t ty : pgp_algo n = Some (a, t) -> algorithm_name n ty <-> ty = t.
Proof.
  unfold pgp_algo, algorithm_name. cbn [In]. intros H. destruct (_ || _) eqn:A.
  { injection H as _ <-. assert (n <> 17 /\ n <> 18 /\ n <> 19)%N by lia. assert (1 = n \/ 2 = n \/ 3 = n \/ False)%N by lia. tauto. }
  assert (~ (1 = n \/ 2 = n \/ 3 = n \/ False))%N by lia.
  destruct (n =? 17)%N eqn:B; [injection H as _ <-; assert (n = 17 /\ n <> 18 /\ n <> 19)%N by lia; tauto|].
  destruct (n =? 18)%N eqn:C; [injection H as _ <-; assert (n <> 17 /\ n = 18 /\ n <> 19)%N by lia; tauto|].
  destruct (n =? 19)%N eqn:D; [injection H as _ <-; assert (n <> 17 /\ n <> 18 /\ n = 19)%N by lia; tauto|]. discriminate.
Qed.
Lemma pgp_verdict E nd p : let s := pk_payload p in
  verdict [((exists b, trim_space s = ("-----BEGIN PGP PUBLIC KEY BLOCK-----" ++ b)%string), unparsed (EFmt "BEGIN PGP PUBLIC KEY BLOCK not found"));
     ((exists b, trim_space s = (b ++ "-----END PGP PUBLIC KEY BLOCK-----")%string), unparsed (EFmt "END PGP PUBLIC KEY BLOCK not found"));
     ((exists l, e_pgp E (trim_space s) = Some l), unparsed ext_err);
     ((exists x, e_pgp E (trim_space s) = Some [x]), unparsed (EFmt "PGP keyring does not contain one entry"));
     ((exists x k, e_pgp E (trim_space s) = Some [x] /\ pg_primary x = Some k), unparsed (EFmt "PGP keyring entry has no public key"));
     ((exists x, e_pgp E (trim_space s) = Some [x] /\ pg_names x <> []), unparsed (EFmt "PGP keyring entry has no identities"));
     ((exists x k, e_pgp E (trim_space s) = Some [x] /\ pg_primary x = Some k /\ In (pg_algo k) [1; 2; 3; 17; 18; 19]%N),
      unparsed (EFmt "PGP keyring entry has unsupported public key algo"))] (parse_pgp E nd p) /\
  forall q, parse_pgp E nd p = inl q -> exists x k a, e_pgp E (trim_space s) = Some [x] /\ pg_primary x = Some k /\
     pgp_algo (pg_algo k) = Some (a, pk_type q) /\ pk_fp q = hex_encode (pg_fp k).
Proof.
  intros s. unfold parse_pgp. cbv zeta. change (pk_payload (p <| pk_payload := trim_space (pk_payload p) |>)) with (trim_space s).
  destruct (has_prefix (trim_space s) pgp_begin) eqn:B; cbn [negb].
  2:{ split; [|discriminate]. apply v_bad. intros H. apply has_prefix_iff in H. unfold pgp_begin in B. congruence. }
  destruct (has_suffix (trim_space s) pgp_end) eqn:F; cbn [negb].
  2:{ split; [|discriminate]. apply v_ok; [now apply has_prefix_iff|]. apply v_bad. intros H. apply has_suffix_iff in H. unfold pgp_end in F. congruence. }
  apply has_prefix_iff in B. apply has_suffix_iff in F.
  match goal with |- verdict (?a :: ?b :: ?l) ?x /\ ?P => enough (verdict l x /\ P) as [V X] by (split; [|exact X]; apply v_ok; [exact B|]; apply v_ok; [exact F|exact V]) end.
  destruct (e_pgp E (trim_space s)) as [[|x [|y l]]|].
  4:{ split; [|discriminate]. apply v_bad. intros [? [=]]. }
  1,3: split; [|discriminate]; apply v_ok; [eauto|]; apply v_bad; intros [? [=]].
  destruct (pg_primary x) as [k|] eqn:P.
  2:{ split; [|discriminate]. apply v_ok; [eauto|]. apply v_ok; [eauto|]. apply v_bad. intros (x' & k & [=<-] & H). congruence. }
  destruct (pg_names x) as [|n ns] eqn:Nm.
  { split; [|discriminate]. apply v_ok; [eauto|]. apply v_ok; [eauto|]. apply v_ok; [eauto|]. apply v_bad. intros (x' & [=<-] & H). congruence. }
  assert (Ne : exists x0, Some [x] = Some [x0] /\ pg_names x0 <> []) by (exists x; rewrite Nm; split; [reflexivity|discriminate]).
  destruct (pgp_algo (pg_algo k)) as [[a t]|] eqn:A.
  - split.
    + apply v_ok; [eauto|]. apply v_ok; [eauto|]. apply v_ok; [eauto|]. apply v_ok; [exact Ne|]. apply v_ok; [|apply v_nil].
      exists x, k. repeat split; auto. apply pgp_algo_iff. eauto.
    + intros q [=<-]. exists x, k, a. repeat split; auto.
  - split; [|discriminate]. apply v_ok; [eauto|]. apply v_ok; [eauto|]. apply v_ok; [eauto|]. apply v_ok; [exact Ne|].
    apply v_bad. intros (x' & k' & [=<-] & Hk & H). apply pgp_algo_iff in H as (? & ? & H). congruence.
Qed.
Lemma rsa_contains s : contains s "RSA PUBLIC KEY" = true <-> rsa_payload s.
Proof. apply contains_spec. Qed.
Lemma verdict_if {A} (c : Prop) (l : checks) (x : A + goerr) : c -> verdict l x -> verdict (if_so c l) x.
Proof. intros C V. destruct x; cbn [verdict] in *; [now apply all_if|now apply fail_if]. Qed.
Lemma verdict_right {A} (l1 l2 : checks) (x : A + goerr) : Forall fst l1 -> verdict l2 x -> verdict (l1 ++ l2)%list x.
Proof. intros C V. destruct x; cbn [verdict] in *; [apply Forall_app; auto|now apply fail_right]. Qed.
Lemma verdict_left {A} (l1 l2 : checks) (x : A + goerr) : verdict l1 x -> Forall fst l2 -> verdict (l1 ++ l2)%list x.
Proof. intros V C. destruct x; cbn [verdict] in *; [apply Forall_app; auto|now apply fail_left]. Qed.
Lemma payload_verdict E nd p : let s := pk_payload p in
  verdict (key_payload_checks E (pk_usage p) s) (parse_pk E nd p) /\
  forall q, parse_pk E nd p = inl q -> forall ty fp, key_mark E s ty fp <-> ty = pk_type q /\ fp = pk_fp q.
Proof.
  intros s. unfold parse_pk, key_payload_checks, key_mark. fold s. cbn [app].
  destruct (String.eqb (pk_usage p) "ssh" || String.eqb (pk_usage p) "gpg") eqn:U; cbn [negb].
  2:{ split; [|discriminate]. apply v_bad. intros [X|X]; rewrite X in U; discriminate. }
  assert (HU : pk_usage p = "ssh" \/ pk_usage p = "gpg") by (apply orb_true_iff in U as [U|U]; apply String.eqb_eq in U; auto). clear U.
  destruct (String.eqb_spec s "") as [Z|N].
  { split; [|discriminate]. apply v_ok; [exact HU|]. now apply v_bad. }
  pose proof (rsa_contains s) as RC. pose proof (has_prefix_iff s "ssh-rsa ") as SC. pose proof (contains_spec s "BEGIN PGP PUBLIC KEY BLOCK") as PC.
  unfold ssh_payload, pgp_payload.
  destruct (contains s "RSA PUBLIC KEY"); [assert (R : rsa_payload s) by (now apply RC)|assert (R : ~ rsa_payload s) by (intros R; apply RC in R; discriminate)]; clear RC.
  { destruct (rsa_verdict E p) as [V M]. fold s in V, M. split.
    - apply v_ok; [exact HU|]. apply v_ok; [exact N|]. apply v_ok; [now left|].
      apply verdict_left; [now apply verdict_if|]. apply Forall_app. split; apply all_unless; tauto.
    - intros q Hq ty fp. destruct (M q Hq) as (b & k & P & X & -> & ->). split.
      + intros [(_ & b' & k' & P' & X' & -> & ->)|[[? _]|[? _]]]; [|tauto|tauto]. assert (b' = b) as -> by congruence. assert (k' = k) as -> by congruence. auto.
      + intros [-> ->]. left. split; [exact R|]. exists b, k. auto. }
  destruct (has_prefix s "ssh-rsa "); [assert (S : exists b, s = "ssh-rsa " ++ b) by (now apply SC)|assert (S : ~ exists b, s = "ssh-rsa " ++ b) by (intros S; apply SC in S; discriminate)]; clear SC.
  { destruct S as [b Hb]. destruct (openssh_verdict E p b Hb) as [V M]. fold s in V, M. assert (S : exists b, s = "ssh-rsa " ++ b) by eauto. split.
    - apply v_ok; [exact HU|]. apply v_ok; [exact N|]. apply v_ok; [tauto|].
      apply verdict_right; [apply all_unless; tauto|]. apply verdict_left; [apply verdict_if; [tauto|exact V]|]. apply all_unless; tauto.
    - intros q Hq ty fp. destruct (M q Hq) as (k & K & -> & ->). split.
      + intros [[? _]|[(_ & k' & K' & -> & ->)|[(_ & NS & _) _]]]; [tauto| |tauto]. destruct K as (c & D & K), K' as (c' & D' & K').
        assert (c' = c) as -> by congruence. assert (k' = k) as -> by congruence. auto.
      + intros [-> ->]. right. left. split; [tauto|]. exists k. auto. }
  destruct (contains s "BEGIN PGP PUBLIC KEY BLOCK"); [assert (G : contains_text s "BEGIN PGP PUBLIC KEY BLOCK") by (now apply PC)|assert (G : ~ contains_text s "BEGIN PGP PUBLIC KEY BLOCK") by (intros G; apply PC in G; discriminate)]; clear PC.
  { destruct (pgp_verdict E nd p) as [V M]. fold s in V, M. split.
    - apply v_ok; [exact HU|]. apply v_ok; [exact N|]. apply v_ok; [tauto|].
      apply verdict_right; [apply all_unless; tauto|]. apply verdict_right; [apply all_unless; tauto|]. apply verdict_if; [tauto|exact V].
    - intros q Hq ty fp. destruct (M q Hq) as (x & k & a & X & P & A & ->). pose proof (pgp_algo_name _ _ _ ty A) as AN. split.
      + intros [[? _]|[[[_ ?] _]|(_ & x' & k' & X' & P' & A' & H)]]; [tauto|tauto|]. assert (x' = x) as -> by congruence. assert (k' = k) as -> by congruence.
        split; [now apply AN|]. apply los_inj. apply hex_of_det in H. rewrite H. unfold hex_encode. now rewrite los_sol.
      + intros [-> ->]. right. right. split; [tauto|]. exists x, k. split; [exact X|]. split; [exact P|]. split; [now apply AN|].
        unfold hex_encode. rewrite los_sol. apply hex_of_encode. }
  split; [|discriminate]. apply v_ok; [exact HU|]. apply v_ok; [exact N|]. apply v_bad. tauto.
Qed.
Lemma key_verdict E nd r : let s := rk_payload (rq_key r) in
  verdict (key_payload_checks E (rk_usage (rq_key r)) s) (new_public_key E nd r) /\
  forall q, new_public_key E nd r = inl q -> forall ty fp, key_mark E s ty fp <-> ty = pk_type q /\ fp = pk_fp q.
Proof.
  intros s. rewrite new_public_key_eq. destruct (payload_verdict E nd (blank_key nd r)) as [V M]. change (pk_payload (blank_key nd r)) with s in V, M.
  change (pk_usage (blank_key nd r)) with (rk_usage (rq_key r)) in V. destruct (parse_pk E nd (blank_key nd r)) as [p|e]; (split; [exact V|]); [|discriminate].
  intros q [=<-] ty fp. rewrite (M p eq_refl). unfold flagged. destruct rk_disabled; reflexivity.
Qed.
Lemma public_key_verdict E nd db fs r : reachable E fs db -> let o := exec E nd OpAddPublicKey db fs r in
  verdict_out (refusals E nd OpAddPublicKey db fs r (db_content (o_db o))) (o_res o).
Proof.
  intros HR o. unfold o. clear o. cbn [refusals exec]. unfold add_public_key_checks. cbv zeta. set (w := fun e => EWith ErrAddPublicKey [AStr (rk_usage (rq_key r)); AErr e]).
  rewrite wrapped_app, <- app_assoc. apply (user_first _ fs); [assumption| |]; unfold db_add_public_key; [intros e ->; reflexivity|intros i u V; rewrite V].
  unfold add_public_key. destruct (key_verdict E nd r) as [KV M]. apply (verdict_wrapped w) in KV. eapply vo_block; [exact KV|].
  destruct (new_public_key E nd r) as [k|e]; [|reflexivity]. cbn [app]. apply vo_check. rewrite (about_iff _ _ _ _ _ _ _ HR V).
  assert (X : existsb (fun x => String.eqb (pk_type x) (pk_type k) && String.eqb (pk_fp x) (pk_fp k)) (u_pubkeys u) = true <-> holds_fp u (pk_type k) (pk_fp k)).
  { rewrite existsb_exists. unfold holds_fp. split; intros (x & Hx & H); exists x; (split; [exact Hx|]).
    - apply andb_true_iff in H as [H1 H2]. apply String.eqb_eq in H1, H2. auto.
    - destruct H as [-> ->]. now rewrite !String.eqb_refl. }
  destruct existsb.
  - right. split; [|reflexivity]. intros H. apply (H (pk_type k) (pk_fp k)); [now apply (M k)|now apply X].
  - left. split; [|apply finish_verdict; reflexivity]. intros ty fp Hm. apply (M k eq_refl) in Hm as [-> ->]. intros H. apply X in H. discriminate.
Qed.

(** ** Second factors *)
Lemma r_ok {A} (c : Prop) e (l : checks) (x : Res A) : c -> verdict_res l x -> verdict_res ((c, e) :: l) x.
Proof. intros H. destruct x; cbn [verdict_res]; [now constructor|now apply fail_later|auto]. Qed.
Lemma r_bad {A} (c : Prop) e (l : checks) : ~ c -> verdict_res (A := A) ((c, e) :: l) (RErr e).
Proof. apply fail_here. Qed.
Lemma r_nil {A} (a : A) : verdict_res [] (ROk a).
Proof. constructor. Qed.
Lemma totp_verdict E nd r : hmac_size E -> rm_type (rq_mfa r) = "totp" -> verdict_res (totp_checks E nd r) (snd (new_mfa_token E nd r)).
Proof.
  intros Hh Ty. unfold totp_checks, new_mfa_token. cbv zeta. fold (base_token nd r). rewrite Ty, String.eqb_refl. fold (totp_digits r). set (d0 := totp_digits r).
  set (b := lower E (rm_algorithm (rq_mfa r))). set (a0 := if String.eqb b "" then "sha1" else b).
  assert (CA : forall a, chosen_algorithm E r a <-> known_algorithm a0 /\ a = a0).
  { intros a. unfold chosen_algorithm. fold b. unfold a0. destruct (String.eqb_spec b "") as [Eb|N].
    - split; [|intros [_ ->]; auto]. intros [[_ ->]|[<- K]]; [split; [now left|reflexivity]|]. rewrite Eb in K. destruct K as [K|[K|K]]; discriminate.
    - split; [|intros [K ->]; auto]. intros [[K _]|[<- K]]; [contradiction|auto]. }
  match goal with |- context [negb ?x] => assert (KA : x = true <-> known_algorithm a0) end.
  { unfold a0. rewrite orb_true_iff, known_eqb, String.eqb_eq. destruct (String.eqb_spec b "") as [Eb|N].
    - split; [intros _; now left|auto].
    - split; [intros [K|K]; [exact K|contradiction]|auto]. }
  destruct (_ || _) eqn:KB; cbn [negb].
  2:{ apply r_bad. intros [a H]. apply CA in H as [K _]. apply KA in K. discriminate. }
  pose proof (proj1 KA eq_refl) as K. clear KA KB. apply r_ok; [exists a0; now apply CA|].
  destruct ((rm_period (rq_mfa r) <? 30)%Z || (rm_period (rq_mfa r) >? 300)%Z) eqn:P; cbn [snd]; [apply r_bad; unfold within; lia|].
  apply r_ok; [unfold within; lia|].
  destruct ((d0 <? 4)%Z || (d0 >? 8)%Z) eqn:D; cbn [snd]; [apply r_bad; unfold within; lia|]. apply r_ok; [unfold within; lia|].
  fold (totp_of nd r a0 d0).
  pose (P0 := rm_period (rq_mfa r)). pose (T := (unix (nd_clock nd) / P0)%Z).
  assert (HT : in_period (nd_clock nd) P0 T) by (apply in_period_iff; unfold P0 in *; [lia|reflexivity]).
  pose proof HT as HT'. apply previous_period in HT'.
  pose proof (validate_code_iff E (totp_of nd r a0 d0) (rm_passcode (rq_mfa r)) (nd_clock nd - P0 * 1000000000) (T - 1) Hh ltac:(change (1 <= P0)%Z; unfold P0; lia) HT') as V.
  cbv zeta in V. fold P0. change (t_digits (totp_of nd r a0 d0)) with d0 in V.
  match goal with |- context [validate_code E ?t _ _] => change t with (totp_of nd r a0 d0) end.
  unfold validate_code in *. cbv zeta in *. set (code := trim_space (rm_passcode (rq_mfa r))) in *. change (t_digits (totp_of nd r a0 d0)) with d0 in *.
  destruct (String.eqb_spec code "") as [Zc|Nc]; cbn [snd]; [now apply r_bad|]. apply r_ok; [exact Nc|].
  destruct ((zlen code <? 4)%Z || (zlen code >? 8)%Z) eqn:L; cbn [snd]; [apply r_bad; unfold within; lia|]. apply r_ok; [unfold within; lia|].
  destruct (zlen code =? d0)%Z eqn:Ld; cbn [negb snd]; [|apply r_bad; lia]. apply r_ok; [lia|].
  destruct existsb; cbn [snd].
  - apply r_ok; [|apply r_nil]. destruct (proj1 V eq_refl) as (_ & _ & T' & R & C). exists a0, T, T'. split; [now apply CA|]. split; [exact HT|]. split; [lia|exact C].
  - apply r_bad. intros (a & T1 & T2 & Ha & H1 & R & C). apply CA in Ha as [_ ->].
    assert (T1 = T) as -> by (eapply in_period_det; [|exact H1|exact HT]; unfold P0 in *; lia).
    enough (X : Some (EWith ErrMfaTokenInvalidPasscode [AStr "failed"]) = None) by discriminate. apply V. split; [unfold within; lia|]. split; [lia|].
    exists T2. split; [lia|exact C].
Qed.
Lemma transport_verdict l : match bad_transport l with
  | None => Forall (fun t => In t transports) l
  | Some e => e = transport_error l /\ ~ Forall (fun t => In t transports) l end.
Proof.
  pose proof (bad_transport_None l) as B. destruct (bad_transport l) as [e|] eqn:X; [|now apply B].
  split; [|intros H; apply B in H; discriminate]. clear B. revert X. unfold transport_error, transports. induction l as [|t l IH]; [discriminate|].
  cbn [bad_transport find]. destruct existsb; cbn [negb]; [exact IH|]. destruct t; cbn [String.eqb]; now intros [=<-].
Qed.
Lemma u2f_verdict E nd r : rm_type (rq_mfa r) = "u2f" -> verdict_res (u2f_checks E r) (snd (new_mfa_token E nd r)).
Proof.
  intros Ty. unfold u2f_checks, new_mfa_token. cbv zeta. fold (base_token nd r). rewrite Ty. change (String.eqb "u2f" "totp") with false. change (String.eqb "u2f" "u2f") with true. cbv iota.
  unfold of_reg, reg_of. set (w := rq_webauthn r).
  destruct (String.eqb_spec (rw_register w) "") as [Zr|Nr]; cbn [snd]; [now apply r_bad|]. apply r_ok; [exact Nr|].
  destruct (String.eqb_spec (rw_challenge w) "") as [Zc|Nc]; cbn [snd]; [now apply r_bad|]. apply r_ok; [exact Nc|].
  destruct (b64_decode (rw_register w)) as [d|] eqn:D; cbn [snd]; [|apply r_bad; intros [? [=]]]. apply r_ok; [eauto|].
  destruct (e_register E d) as [q|] eqn:Q; cbn [snd]; [|apply r_bad; intros (? & [=] & _)].
  assert (U : forall P : RegisterRequest -> Prop, (exists q', Some q = Some q' /\ P q') <-> P q).
  { intros P. split; [now intros (q' & [=<-] & H)|eauto]. }
  apply r_ok; [now apply U|]. unfold u2f_register. generalize (base_token nd r <| t_secret := rw_challenge w |>). intros p.
  destruct (String.eqb_spec (wr_id q) "") as [Z1|N1]; [apply r_bad; rewrite U; tauto|]. apply r_ok; [now apply U|].
  destruct (String.eqb_spec (wr_type q) "") as [Z2|N2]; [apply r_bad; rewrite U; tauto|]. apply r_ok; [now apply U|].
  destruct (String.eqb_spec (wr_type q) "public-key") as [Z3|N3]; cbn [negb]; [|apply r_bad; rewrite U; tauto]. apply r_ok; [now apply U|].
  pose proof (transport_verdict (wr_transports q)) as TV. destruct (bad_transport (wr_transports q)) as [e|].
  { destruct TV as [-> TV]. apply r_bad. now rewrite U. }
  apply r_ok; [now apply U|].
  destruct (wr_att q) as [ao|] eqn:Ao; [|apply r_bad; rewrite U; congruence]. apply r_ok; [apply U; congruence|].
  unfold key_of, auth_of.
  destruct (ao_auth ao) as [ad|] eqn:Ad; [|apply r_bad; rewrite U; intros (a & o & H1 & H2); congruence].
  assert (UA : forall a, (exists o, wr_att q = Some o /\ ao_auth o = Some a) <-> a = ad).
  { intros a. rewrite Ao. split; [intros (o & [=<-] & H); congruence|]. intros ->. eauto. }
  apply r_ok; [apply U; exists ad; now apply UA|].
  assert (UP : forall P : AuthData -> Prop, (exists q0, Some q = Some q0 /\ exists a, (exists o, wr_att q0 = Some o /\ ao_auth o = Some a) /\ P a) <-> P ad).
  { intros P. rewrite U. split; [intros (a & H & Hp); apply UA in H; now subst|]. intros H. exists ad. split; [now apply UA|exact H]. }
  destruct (String.eqb_spec (ad_rpid ad) "") as [Z4|N4]; [apply r_bad; rewrite UP; tauto|]. apply r_ok; [now apply UP|].
  destruct (ad_flags ad) as [fl|] eqn:Fl; [|apply r_bad; rewrite UP; congruence]. apply r_ok; [apply UP; congruence|].
  destruct (ad_cred ad) as [cd|] eqn:Cd; [|apply r_bad; rewrite UP; congruence]. apply r_ok; [apply UP; congruence|].
  assert (UK : forall pk, (exists a c, (exists o, wr_att q = Some o /\ ao_auth o = Some a) /\ ad_cred a = Some c /\ cd_pubkey c = Some pk) <-> cd_pubkey cd = Some pk).
  { intros pk. split; [intros (a & c & H & Hc & Hp); apply UA in H; subst; congruence|]. intros H. exists ad, cd. split; [now apply UA|auto]. }
  destruct (cd_pubkey cd) as [pk|] eqn:Pk; [|apply r_bad; rewrite U; intros (pk & H); apply UK in H; discriminate].
  apply r_ok; [apply U; exists pk; now apply UK|].
  assert (UQ : forall P : gmap string Jv -> Prop, (exists q0, Some q = Some q0 /\ exists pk, (exists a c, (exists o, wr_att q0 = Some o /\ ao_auth o = Some a) /\
      ad_cred a = Some c /\ cd_pubkey c = Some pk) /\ P pk) <-> P pk).
  { intros P. rewrite U. split; [intros (k & H & Hp); apply UK in H; congruence|]. intros H. exists pk. split; [now apply UK|exact H]. }
  clear UK UP UA U. unfold int_field.
  destruct (pk !! "key_type") as [v|] eqn:K1; [|apply r_bad; rewrite UQ; congruence]. apply r_ok; [apply UQ; congruence|].
  destruct v as [[z|]| |]; cbn [jv_is].
  2:{ apply r_bad. rewrite UQ. congruence. }
  2,3: exact I.
  destruct (Z.eqb_spec z 2) as [->|Nz]; [|apply r_bad; rewrite UQ; congruence]. apply r_ok; [now apply UQ|].
  destruct (pk !! "algorithm") as [v|] eqn:K2; [|apply r_bad; rewrite UQ; congruence]. apply r_ok; [apply UQ; congruence|].
  destruct v as [[z|]| |]; cbn [jv_is].
  2:{ apply r_bad. rewrite UQ. congruence. }
  2,3: exact I.
  destruct (Z.eqb_spec z (-7)) as [->|Nz]; [|apply r_bad; rewrite UQ; congruence]. apply r_ok; [now apply UQ|].
  destruct (pk !! "curve_type") as [v|] eqn:K3.
  - destruct v as [[z|]| |]; cbn [jv_is]; try exact I.
    2:{ apply r_bad. rewrite UQ. intros [H|H]; congruence. }
    destruct (Z.eqb_spec z 1) as [->|Nz]; [|apply r_bad; rewrite UQ; intros [H|H]; congruence].
    destruct (coord_of pk "curve_x"), (coord_of pk "curve_y"); try exact I. apply r_ok; [apply UQ; now right|apply r_nil].
  - destruct (coord_of pk "curve_x"), (coord_of pk "curve_y"); try exact I. apply r_ok; [apply UQ; now left|apply r_nil].
Qed.
Lemma token_marks E nd r t : snd (new_mfa_token E nd r) = ROk t -> t_secret t = token_secret r /\ t_comment t = rm_comment (rq_mfa r).
Proof.
  intros H. split; [|apply new_token_ok in H as [_ H]; now destruct H]. revert H.
  unfold new_mfa_token, token_secret. cbv zeta. fold (base_token nd r). destruct (String.eqb_spec (rm_type (rq_mfa r)) "totp") as [Ty|].
  - repeat (match goal with |- context [match ?x with _ => _ end] => destruct x end; try discriminate). all: now intros [=<-].
  - destruct (String.eqb_spec (rm_type (rq_mfa r)) "u2f") as [Ty|].
    + destruct (String.eqb (rw_register _) ""); [discriminate|]. destruct (String.eqb_spec (rw_challenge (rq_webauthn r)) "") as [|Nc]; [discriminate|].
      destruct b64_decode as [d|]; [|discriminate]. destruct (e_register E d) as [q|]; [|discriminate]. cbn [snd]. intros U.
      apply u2f_register_ok in U as (_ & _ & _ & _ & H4 & _); [exact H4|reflexivity|exact Ty|exact Nc].
    + destruct String.eqb; discriminate.
Qed.
Lemma clash_here s c k l (P : MfaToken -> Prop) : (t_secret k = s \/ t_comment k = c) -> first_clash s c (k :: l) P -> P k \/ t_secret k <> s /\ t_comment k <> c.
Proof. intros C ([|x l1] & k' & l2 & H & F & Hp); cbn in H; injection H as -> _; [auto|]. right. now inversion F. Qed.
Lemma clash_later s c k l (P : MfaToken -> Prop) : t_secret k <> s -> t_comment k <> c -> (forall x, P x -> t_secret x = s \/ t_comment x = c) -> first_clash s c (k :: l) P <-> first_clash s c l P.
Proof.
  intros N1 N2 HP. split.
  - intros ([|x l1] & k' & l2 & H & F & Hp); cbn in H; injection H as <- ->; [destruct (HP _ Hp); contradiction|]. exists l1, k', l2. inversion F; auto.
  - intros (l1 & k' & l2 & -> & F & Hp). exists (k :: l1), k', l2. auto.
Qed.
Lemma dup_verdict t l (s := t_secret t) (c := t_comment t) :
  match dup_token t l with
  | None => ~ first_clash s c l (fun x => t_secret x = s) /\ ~ first_clash s c l (fun x => t_comment x = c)
  | Some e => (first_clash s c l (fun x => t_secret x = s) /\ e = EWith ErrAddMfaToken [AErr (EStd ErrDuplicateMfaTokenSecret)]) \/
              (~ first_clash s c l (fun x => t_secret x = s) /\ first_clash s c l (fun x => t_comment x = c) /\ e = EWith ErrAddMfaToken [AErr (EStd ErrDuplicateMfaTokenComment)])
  end.
Proof.
  induction l as [|k l IH]; cbn [dup_token].
  { split; intros ([|x l1] & k & l2 & H & _); discriminate. }
  fold s c in IH |- *. destruct (String.eqb_spec (t_secret k) s) as [E1|N1].
  { left. split; [|reflexivity]. exists [], k, l. auto. }
  destruct (String.eqb_spec (t_comment k) c) as [E2|N2].
  { right. split; [|split; [exists [], k, l; auto|reflexivity]]. intros H. apply clash_here in H; [|auto]. tauto. }
  pose proof (clash_later s c k l (fun x => t_secret x = s) N1 N2 ltac:(auto)) as C1. pose proof (clash_later s c k l (fun x => t_comment x = c) N1 N2 ltac:(auto)) as C2.
  destruct (dup_token t l); tauto.
Qed.
Lemma token_verdict E nd r : hmac_size E -> let ty := rm_type (rq_mfa r) in
  verdict_res ([(ty <> "", EStd ErrMfaTokenTypeEmpty); (ty = "totp" \/ ty = "u2f", EWith ErrMfaTokenInvalidType [AStr ty])] ++
    if_so (ty = "totp") (totp_checks E nd r) ++ if_so (ty = "u2f") (u2f_checks E r))%list (snd (new_mfa_token E nd r)).
Proof.
  intros Hh ty. cbn [app]. pose proof (totp_verdict E nd r Hh) as VT. pose proof (u2f_verdict E nd r) as VU. fold ty in VT, VU.
  destruct (string_dec ty "totp") as [T|T]; [|destruct (string_dec ty "u2f") as [U|U]].
  - apply r_ok; [rewrite T; discriminate|]. apply r_ok; [now left|]. specialize (VT T). clear VU.
    assert (F : Forall fst (if_so (ty = "u2f") (u2f_checks E r))) by (apply all_unless; rewrite T; discriminate).
    destruct (snd (new_mfa_token E nd r)); cbn [verdict_res] in *; [apply Forall_app; split; [now apply all_if|exact F]|now apply fail_left, fail_if|exact I].
  - apply r_ok; [rewrite U; discriminate|]. apply r_ok; [now right|]. specialize (VU U). clear VT.
    assert (F : Forall fst (if_so (ty = "totp") (totp_checks E nd r))) by (now apply all_unless).
    destruct (snd (new_mfa_token E nd r)); cbn [verdict_res] in *; [apply Forall_app; split; [exact F|now apply all_if]|apply fail_right; [exact F|now apply fail_if]|exact I].
  - unfold new_mfa_token. cbv zeta. fold ty. apply String.eqb_neq in T, U. rewrite T, U. apply String.eqb_neq in T, U.
    destruct (String.eqb_spec ty "") as [Z|N]; cbn [snd]; [now apply r_bad|]. apply r_ok; [exact N|]. apply r_bad. tauto.
Qed.
Lemma mfa_token_verdict E nd db fs r : reachable E fs db -> hmac_size E -> let o := exec E nd OpAddMfaToken db fs r in
  verdict_out (refusals E nd OpAddMfaToken db fs r (db_content (o_db o))) (o_res o).
Proof.
  intros HR Hh o. unfold o. clear o. cbn [refusals exec]. unfold add_mfa_token_checks. cbv zeta. set (w := fun e => EWith ErrAddMfaToken [AErr e]).
  rewrite wrapped_app. apply (user_first _ fs); [assumption| |]; unfold db_add_mfa_token; [intros e ->; reflexivity|intros i u V; rewrite V].
  pose proof (token_verdict E nd r Hh) as TV. cbv zeta in TV. pose proof (token_marks E nd r) as TM. set (ty := rm_type (rq_mfa r)) in *.
  rewrite !app_assoc. rewrite <- (app_assoc _ _ (write_checks _ _ _ _)). rewrite wrapped_app. rewrite <- !app_assoc. rewrite !app_assoc in TV |- *.
  unfold add_mfa_token. destruct (new_mfa_token E nd r) as [r' res]. cbn [snd] in *. destruct res as [t|e|]; cbn [verdict_res] in TV; [| |exact I].
  2:{ apply fail_left, (fail_wrapped w). exact TV. }
  destruct (TM t eq_refl) as [<- <-]. apply auth_block; [apply all_wrapped; exact TV|].
  unfold wrapped at 1. cbn [map fst snd app]. pose proof (dup_verdict t (u_mfa u)) as DV. cbv zeta in DV. apply vo_check. rewrite (about_iff _ _ _ _ _ _ _ HR V).
  destruct (dup_token t (u_mfa u)) as [e|].
  - destruct DV as [[D ->]|(D1 & D2 & ->)]; [right; split; [tauto|reflexivity]|]. left. split; [exact D1|]. apply vo_check. rewrite (about_iff _ _ _ _ _ _ _ HR V).
    right. split; [tauto|reflexivity].
  - left. split; [apply DV|]. apply vo_check. rewrite (about_iff _ _ _ _ _ _ _ HR V). left. split; [apply DV|].
    apply (finish_verdict nd (set_user db i (revise nd (u <| u_mfa := (u_mfa u ++ [t])%list |>))) fs r' w). reflexivity.
Qed.
(** ** All calls *)
Lemma exec_verdict E nd op db fs r : reachable E fs db -> hmac_size E -> let o := exec E nd op db fs r in
  verdict_out (refusals E nd op db fs r (db_content (o_db o))) (o_res o).
Proof.
  intros HR Hh. destruct op.
  - now apply add_user_verdict.
  - apply reads_verdict; cbn; auto 10.
  - apply reads_verdict; cbn; auto 10.
  - apply reads_verdict; cbn; auto 10.
  - now apply authenticate_verdict.
  - apply writes_verdict; eauto.
  - apply writes_verdict; eauto.
  - now apply public_key_verdict.
  - apply reads_verdict; cbn; auto 10.
  - apply deletes_verdict; cbn; auto 10.
  - now apply api_key_verdict.
  - apply deletes_verdict; cbn; auto 10.
  - apply reads_verdict; cbn; auto 10.
  - now apply change_verdict.
  - apply reads_verdict; cbn; auto 10.
  - now apply lookup_verdict.
  - now apply mfa_token_verdict.
  - apply reads_verdict; cbn; auto 10.
  - apply deletes_verdict; cbn; auto 10.
  - apply reads_verdict; cbn; auto 10.
Qed.
