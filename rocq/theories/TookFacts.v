(** Proofs about calls whose write fails (C121). *)
From Coq Require Import String Ascii ZArith NArith Lia Bool Arith List.
From stdpp Require Import gmap strings.
From RecordUpdate Require Import RecordSet.
From Verif Require Import GoStr Codec GoErr Role Name Email Random RandomFacts Types Env Password ApiKey PublicKey Mfa User Json Persist Fs Database.
From Verif Require Import UserFacts Method Message SpecMessage MessageFacts DbFacts SpecDb SpecOutage AccountFacts.
Import ListNotations.
Import RecordSetNotations.
Open Scope string_scope.
#[local] Opaque int64 new_id trim_space new_email new_role.

(** ** Errors that do not come from a write *)
Definition calm (e : goerr) : bool := match e with EWith t _ => negb (String.eqb t ErrDatabaseCommit) | _ => true end.
Lemma calm_wrap1 t e : calm e = true -> unsaved (EWith t [AErr e]) = false.
Proof. cbn. destruct e as [|t' a|]; cbn; try reflexivity. now intros ->%negb_true_iff. Qed.
Lemma calm_wrap2 t s e : calm e = true -> unsaved (EWith t [AStr s; AErr e]) = false.
Proof. cbn. destruct e as [|t' a|]; cbn; try reflexivity. now intros ->%negb_true_iff. Qed.
Lemma calm_in l e : forallb calm l = true -> In e l -> calm e = true.
Proof. rewrite forallb_forall. auto. Qed.
Lemma calm_identity E db r e : validate_identity E db r = inr e -> calm e = true.
Proof. intros H. apply identity_err in H. now apply (calm_in e_ident). Qed.
Lemma calm_password E nd s e : new_password E nd s = inr e -> calm e = true.
Proof. intros H. apply new_password_err in H. now apply (calm_in e_pw). Qed.
Lemma calm_user E nd n pw em full roles e : new_user_with_roles E nd n pw em full roles = inr e -> calm e = true.
Proof. intros H. apply new_user_err in H. apply (calm_in (e_new_user full)); [reflexivity|exact H]. Qed.
Lemma calm_verify E u s e : verify_password E u s = Some e -> calm e = true.
Proof. intros H. apply verify_password_err in H. now apply (calm_in e_verify). Qed.
Lemma calm_public_key E nd r e : new_public_key E nd r = inr e -> calm e = true.
Proof.
  unfold new_public_key. cbv zeta. destruct (parse_pk E nd _) as [p|e'] eqn:P; [discriminate|]. intros [= <-]. revert P.
  unfold parse_pk, parse_rsa, parse_openssh, parse_pgp. repeat case_match; intros [= <-]; reflexivity.
Qed.
Lemma calm_token E nd r r' e : new_mfa_token E nd r = (r', RErr e) -> calm e = true.
Proof.
  intros H. apply token_err in H. revert H. apply calm_in. unfold e_token. cbv zeta. rewrite !forallb_app.
  apply andb_true_intro; split; [reflexivity|]. apply andb_true_intro; split; [reflexivity|]. apply andb_true_intro; split; [reflexivity|].
  unfold e_u2f. destruct b64_decode; [|reflexivity]. destruct e_register as [reg|]; [|reflexivity]. destruct u2f_register as [|e'|] eqn:U; try reflexivity. cbn. rewrite andb_true_r.
  revert U. unfold u2f_register. repeat case_match; try discriminate; intros [= <-]; try reflexivity.
  match goal with H : bad_transport _ = Some _ |- _ => apply bad_transport_err in H as [-> | (t & ->)] end; reflexivity.
Qed.
Lemma calm_api_key nd r e : new_api_key nd r = inr e -> calm e = true.
Proof. intros H. apply api_key_err in H. cbn in H. intuition (subst; reflexivity). Qed.

(** ** A call that took effect reached its commit *)
Definition own (op : Op) : bool := match op with OpSave | OpCopy _ => false | _ => commits op end.
Ltac gone := intros ?X; exfalso; revert X; cbn [o_res ret took].
Lemma took_effect E nd op db fs r : own op = true -> took (exec E nd op db fs r) = true -> exists db1, effect E nd db r op db1.
Proof.
  intros Ow. unfold took.
  assert (G1 : forall t e, calm e = true -> unsaved (EWith t [AErr e]) = true -> False) by (intros t e C H; rewrite (calm_wrap1 t e C) in H; discriminate).
  assert (G2 : forall t s e, calm e = true -> unsaved (EWith t [AStr s; AErr e]) = true -> False) by (intros t s e C H; rewrite (calm_wrap2 t s e C) in H; discriminate).
  destruct op; try discriminate Ow; cbn [exec]; cbv zeta; clear Ow.
  - unfold db_add_user. cbv zeta. destruct check_policy as [e|] eqn:CP.
    { gone. apply G2. revert CP. unfold check_policy. repeat case_match; intros [= <-]; reflexivity. }
    destruct new_user_with_roles as [u|e] eqn:N; [|gone; apply G2; eapply calm_user; eauto].
    destruct (ref_username db !! _) eqn:U; [discriminate|]. destruct new_addresses eqn:A; [|discriminate]. intros _. eexists. eapply EffUser; eauto.
  - unfold db_add_public_key. destruct validate_identity as [[i u]|e] eqn:V; [|gone; apply G2; eapply calm_identity; eauto].
    destruct add_public_key as [u'|e] eqn:A; [intros _; eexists; eapply EffUpd; [eassumption|]; eapply UpdAddPk; eauto|].
    revert A. unfold add_public_key. destruct new_public_key as [k|e'] eqn:K.
    + destruct existsb; [|discriminate]. intros [= <-]. discriminate.
    + intros [= <-]. gone. apply G2. eapply calm_public_key; eauto.
  - unfold db_delete_public_key. destruct validate_identity as [[i u]|e] eqn:V; [|gone; apply G2; eapply calm_identity; eauto].
    destruct delete_public_key as [u'|e] eqn:A; [intros _; eexists; eapply EffUpd; [eassumption|]; eapply UpdDelPk; eauto|].
    revert A. unfold delete_public_key. cbv zeta. destruct existsb; [discriminate|]. intros [= <-]. discriminate.
  - unfold db_add_api_key. destruct validate_identity as [[i u]|e] eqn:V; [|gone; apply G2; eapply calm_identity; eauto].
    destruct random_range as [s|] eqn:R; [|discriminate]. destruct new_password as [hk|e] eqn:P.
    2:{ gone. apply new_password_err in P as [<-|[<-|[]]]; discriminate. }
    destruct (ref_apikey db !! _) eqn:K; [discriminate|]. cbv zeta. destruct add_api_key as [u'|e] eqn:A; [intros _; eexists; eapply EffAddKey; eauto|].
    revert A. unfold add_api_key. destruct new_api_key as [k|e'] eqn:Q; [discriminate|]. intros [= <-]. gone. apply G2. eapply calm_api_key; eauto.
  - unfold db_delete_api_key. destruct validate_identity as [[i u]|e] eqn:V; [|gone; apply G2; eapply calm_identity; eauto].
    destruct delete_api_key as [[u'|e] r'] eqn:A; [intros _; eexists; eapply EffDelKey; eauto|].
    revert A. unfold delete_api_key. cbv zeta. destruct existsb; [discriminate|]. intros [= <- <-]. discriminate.
  - unfold db_change_password. destruct validate_identity as [[i u]|e] eqn:V; [|gone; apply G1; eapply calm_identity; eauto].
    destruct password_policy_ok eqn:P; cbn [negb]; [|gone; now apply G1].
    destruct change_password as [u'|e] eqn:A; [intros _; eexists; eapply EffUpd; [eassumption|]; eapply UpdPw; eauto|].
    revert A. unfold change_password. destruct verify_password eqn:Q; [intros [= <-]; gone; apply G1; eapply calm_verify; eauto|].
    unfold add_password. destruct new_password eqn:N; [discriminate|]. intros [= <-]. gone. apply G1. eapply calm_password; eauto.
  - unfold db_add_mfa_token. destruct validate_identity as [[i u]|e] eqn:V; [|gone; apply G1; eapply calm_identity; eauto].
    destruct add_mfa_token as [r' [u'|e|]] eqn:A; [intros _; eexists; eapply EffUpd; [eassumption|]; eapply UpdAddMfa; eauto| |discriminate].
    revert A. unfold add_mfa_token. destruct new_mfa_token as [r2 [t|e'|]] eqn:T; [|intros [= <- <-]; gone; apply G1; eapply calm_token; eauto|discriminate].
    destruct dup_token eqn:D; [|discriminate]. intros [= <- <-]. apply dup_token_err in D as (e' & -> & D). gone. apply G1. revert D. now apply calm_in.
  - unfold db_delete_mfa_token. destruct validate_identity as [[i u]|e] eqn:V; [|gone; apply G2; eapply calm_identity; eauto].
    destruct delete_mfa_token as [u'|e] eqn:A; [intros _; eexists; eapply EffUpd; [eassumption|]; eapply UpdDelMfa; eauto|].
    revert A. unfold delete_mfa_token. cbv zeta. destruct existsb; [discriminate|]. intros [= <-]. discriminate.
Qed.
Lemma finish_took nd db fs r wrap : (forall p, unsaved (wrap (e_commit p)) = true) -> o_res (finish nd db fs r wrap) <> OCrash -> took (finish nd db fs r wrap) = true.
Proof.
  intros W N. pose proof (finish_err nd db fs r wrap) as F. unfold took. destruct (o_res (finish nd db fs r wrap)) as [|e| | |] eqn:O; try congruence.
  - rewrite (F e eq_refl). apply W.
  - unfold finish, commit in O. destruct commit_to as [[? ?] []]; discriminate.
  - unfold finish, commit in O. destruct commit_to as [[? ?] []]; discriminate.
Qed.
Lemma effect_took E nd op db fs r db1 : effect E nd db r op db1 -> own op = true -> o_res (exec E nd op db fs r) <> OCrash -> took (exec E nd op db fs r) = true.
Proof.
  assert (F : forall d r' w, (forall p, unsaved (w (e_commit p)) = true) -> o_res (finish nd d fs r' w) <> OCrash -> took (finish nd d fs r' w) = true) by (intros; now apply finish_took).
  intros [| |u0 addrs u P N U Hu Ha|op' i u u' V [u1 H|u1 H|u1 Hp H|q u1 H|u1 H]|i u s hk u' V R H K A|i u u' r' V H] Ow; try discriminate Ow; cbn [exec].
  - unfold db_add_user. cbv zeta. rewrite P, N. rewrite U in Hu, Ha. rewrite Hu, Ha. now apply F.
  - unfold db_add_public_key. rewrite V, H. now apply F.
  - unfold db_delete_public_key. rewrite V, H. now apply F.
  - unfold db_change_password. rewrite V, Hp. cbn [negb]. rewrite H. now apply F.
  - unfold db_add_mfa_token. rewrite V, H. now apply F.
  - unfold db_delete_mfa_token. rewrite V, H. now apply F.
  - unfold db_add_api_key. rewrite V, R, H, K. cbv zeta. change (r <| rq_payload := PStr s |> <| rq_key; rk_payload := pw_hash hk |> <| rq_key; rk_prefix := take 24 s |>) with (issued r s (pw_hash hk)).
    rewrite A. now apply F.
  - unfold db_delete_api_key. rewrite V, H. now apply F.
Qed.
(** A call with a commit of its own took effect exactly if it did so in memory. *)
Lemma took_iff E nd op db fs r : own op = true -> o_res (exec E nd op db fs r) <> OCrash -> took (exec E nd op db fs r) = true <-> exists db1, effect E nd db r op db1.
Proof. intros Ow N. split; [apply took_effect; exact Ow|]. intros (db1 & H). eapply effect_took; eauto. Qed.

(** ** What a call does in memory does not depend on the disk *)
Section blind.
Context (w : WriteIo) (nd : Nd).
Let nd' : Nd := on_disk_that w nd.
Lemma blind_roles l : forall u, add_roles nd' u l = add_roles nd u l.
Proof. induction l as [|s l IH]; intros u; [reflexivity|]. cbn [add_roles]. change (add_role nd' u s) with (add_role nd u s). destruct add_role; [apply IH|reflexivity]. Qed.
Lemma blind_keep k l : forall i, keep_passwords nd' k i l = keep_passwords nd k i l.
Proof. induction l as [|p l IH]; intros i; [reflexivity|]. cbn [keep_passwords]. rewrite !IH. reflexivity. Qed.
Lemma blind_pick db n : forall i old, pick_id db nd' i n old = pick_id db nd i n old.
Proof. induction n as [|n IH]; intros i old; [reflexivity|]. cbn [pick_id]. rewrite IH. reflexivity. Qed.
Lemma blind_add_password E u s k : add_password E nd' u s k = add_password E nd u s k.
Proof. unfold add_password. change (new_password E nd' s) with (new_password E nd s). destruct new_password; [|reflexivity]. now rewrite blind_keep. Qed.
Lemma blind_user E n pw em full roles : new_user_with_roles E nd' n pw em full roles = new_user_with_roles E nd n pw em full roles.
Proof.
  unfold new_user_with_roles. change (new_user nd' n) with (new_user nd n). rewrite blind_add_password. destruct add_password as [u|]; [|reflexivity].
  change (add_email nd' u em) with (add_email nd u em). destruct add_email as [u1|]; [|reflexivity]. rewrite blind_roles. reflexivity.
Qed.
Lemma blind_change E u r k : change_password E nd' u r k = change_password E nd u r k.
Proof. unfold change_password. now rewrite blind_add_password. Qed.
Lemma blind_finish db fs fs' r r' wrap : r' = r -> o_db (finish nd' db fs' r' wrap) = o_db (finish nd db fs r wrap) /\ o_req (finish nd' db fs' r' wrap) = o_req (finish nd db fs r wrap).
Proof.
  intros ->. unfold finish, commit, commit_to. change (bump nd' (db_content db)) with (bump nd (db_content db)).
  destruct (write_db nd' _ _ _) as [? []], (write_db nd _ _ _) as [? []]; split; reflexivity.
Qed.
Lemma blind_effect E db r op db1 : effect E nd db r op db1 -> effect E nd' db r op db1.
Proof.
  intros [| |u0 addrs u P N U Hu Ha|op' i u u' V [u1 H|u1 H|u1 Hp H|q u1 H|u1 H]|i u s hk u' V R H K A|i u u' r' V H].
  - constructor.
  - constructor.
  - apply (EffUser E nd' db r u0); auto; now rewrite ?blind_user, ?blind_pick.
  - eapply EffUpd; [exact V|]. eapply UpdAddPk. exact H.
  - eapply EffUpd; [exact V|]. eapply UpdDelPk. exact H.
  - eapply EffUpd; [exact V|]. eapply UpdPw; [exact Hp|]. now rewrite blind_change.
  - eapply EffUpd; [exact V|]. eapply UpdAddMfa. exact H.
  - eapply EffUpd; [exact V|]. eapply UpdDelMfa. exact H.
  - eapply EffAddKey; eauto.
  - eapply EffDelKey; eauto.
Qed.
Lemma blind_exec E op db fs fs' r : o_db (exec E nd' op db fs' r) = o_db (exec E nd op db fs r) /\ o_req (exec E nd' op db fs' r) = o_req (exec E nd op db fs r) /\
  (commits op = false -> o_res (exec E nd' op db fs' r) = o_res (exec E nd op db fs r)).
Proof.
  assert (F : forall d r1 w1 w2, w1 = w2 -> o_db (finish nd' d fs' r1 w1) = o_db (finish nd d fs r1 w2) /\ o_req (finish nd' d fs' r1 w1) = o_req (finish nd d fs r1 w2) /\
    (true = false -> o_res (finish nd' d fs' r1 w1) = o_res (finish nd d fs r1 w2))).
  { intros d r1 w1 w2 ->. destruct (blind_finish d fs fs' r1 r1 w2 eq_refl) as [A B]. split; [exact A|]. split; [exact B|discriminate]. }
  destruct op; cbn [exec commits].
  - unfold db_add_user. cbv zeta. destruct check_policy; [auto|]. rewrite blind_user. destruct new_user_with_roles as [u|]; [|auto].
    rewrite blind_pick. destruct (ref_username db !! _); [auto|]. destruct new_addresses; [|auto]. now apply F.
  - unfold db_get_users. destruct validate_identity as [[]|]; auto.
  - unfold db_get_user. destruct validate_identity as [[]|]; auto.
  - unfold db_delete_user. destruct validate_identity as [[]|]; auto.
  - unfold db_authenticate. destruct get_user as [[i u]|]; [|auto]. destruct negb; [destruct verify_password; auto|]. destruct negb; [|auto]. destruct verify_webauthn as [u' []]; auto.
  - unfold db_save. now apply F.
  - unfold db_copy, commit_to. change (bump nd' (db_content db)) with (bump nd (db_content db)).
    destruct (write_db nd' _ _ _) as [? []], (write_db nd _ _ _) as [? []]; (split; [reflexivity|split; [reflexivity|discriminate]]).
  - unfold db_add_public_key. destruct validate_identity as [[i u]|]; [|auto]. change (add_public_key E nd' u r) with (add_public_key E nd u r). destruct add_public_key; [now apply F|auto].
  - unfold db_get_public_keys. destruct validate_identity as [[]|]; auto.
  - unfold db_delete_public_key. destruct validate_identity as [[i u]|]; [|auto]. change (delete_public_key nd' u r) with (delete_public_key nd u r). destruct delete_public_key; [now apply F|auto].
  - unfold db_add_api_key. destruct validate_identity as [[i u]|]; [|auto]. change (random_range 72 96 (nd_len nd') (nd_secret nd')) with (random_range 72 96 (nd_len nd) (nd_secret nd)).
    destruct random_range as [s|]; [|auto]. change (new_password E nd' s) with (new_password E nd s). destruct new_password as [hk|]; [|auto]. destruct (ref_apikey db !! _); [auto|]. cbv zeta.
    match goal with |- context [add_api_key nd' u ?x] => change (add_api_key nd' u x) with (add_api_key nd u x) end. destruct add_api_key; [now apply F|auto].
  - unfold db_delete_api_key. destruct validate_identity as [[i u]|]; [|auto]. change (delete_api_key nd' u r) with (delete_api_key nd u r). destruct delete_api_key as [[] ?]; [now apply F|auto].
  - unfold db_get_api_keys. destruct validate_identity as [[]|]; auto.
  - unfold db_change_password. destruct validate_identity as [[i u]|]; [|auto]. destruct negb; [auto|]. rewrite blind_change. destruct change_password; [now apply F|auto].
  - unfold db_identify. destruct get_user as [[]|]; auto.
  - unfold db_lookup_api_key. cbv zeta. destruct String.eqb; [auto|]. destruct Z.ltb; [auto|]. destruct at_ref as [[]|]; [|auto]. destruct lookup_api_key; auto.
  - unfold db_add_mfa_token. destruct validate_identity as [[i u]|]; [|auto]. change (add_mfa_token E nd' u r) with (add_mfa_token E nd u r). destruct add_mfa_token as [r' []]; [now apply F|auto|auto].
  - unfold db_get_mfa_tokens. destruct validate_identity as [[]|]; auto.
  - unfold db_delete_mfa_token. destruct validate_identity as [[i u]|]; [|auto]. change (delete_mfa_token nd' u r) with (delete_mfa_token nd u r). destruct delete_mfa_token; [now apply F|auto].
  - auto.
Qed.
End blind.
(** ** Calls that took effect and the others *)
Lemma took_shape E nd op db fs r : let o := exec E nd op db fs r in o_res o <> OCrash ->
  (own op = true /\ took o = true /\ exists db1 res, effect E nd db r op db1 /\ commit_to nd (target op db) db1 fs = (o_db o, o_fs o, res)) \/
  ((own op = false \/ took o = false) /\ (recached E db r op (o_db o) \/ db_users (o_db o) = db_users db)).
Proof.
  intros o Nc. destruct (own op) eqn:Ow; [destruct (took o) eqn:T|].
  - left. split; [reflexivity|]. split; [reflexivity|]. destruct (took_effect E nd op db fs r Ow T) as (db1 & Eff). destruct (effect_exec E nd db fs r op db1 Eff) as (res & C & _). eauto.
  - right. split; [auto|]. destruct (exec_shape E nd op db fs r) as [_ Rc _ _|db1 res Eff _ _]; [auto|]. exfalso.
    unfold o in T. rewrite (effect_took E nd op db fs r db1 Eff Ow Nc) in T. discriminate.
  - right. split; [auto|]. destruct (exec_shape E nd op db fs r) as [_ Rc _ _|db1 res Eff C _]; [auto|]. right.
    apply commit_to_inv in C as [Hd _]. unfold o. rewrite Hd. destruct Eff as [| |? ? ? ? ? ? ? ?|? ? ? ? ? []|? ? ? ? ? ? ? ? ? ?|? ? ? ? ? ?]; try discriminate Ow; reflexivity.
Qed.
(** The secret of an issued key is handed out even if the key could not be stored. *)
Lemma issued_payload E nd db fs r i u s hk u' : validate_identity E db r = inl (i, u) -> random_range 72 96 (nd_len nd) (nd_secret nd) = Some s -> new_password E nd s = inl hk ->
  ref_apikey db !! take 24 s = None -> add_api_key nd u (issued r s (pw_hash hk)) = inl u' ->
  rq_payload (o_req (exec E nd OpAddAPIKey db fs r)) = PStr s.
Proof.
  intros V R H K A. cbn [exec]. unfold db_add_api_key. rewrite V, R, H. cbv zeta. rewrite K. unfold issued in A. rewrite A.
  unfold finish, commit. destruct commit_to as [[? ?] []]; reflexivity.
Qed.
(** ** A disk that works and one that does not *)
Lemma changes_own op : changes op <-> own op = true.
Proof. unfold changes. destruct op; cbn; split; intros; try reflexivity; try discriminate; intuition discriminate. Qed.
Lemma took_elsewhere E nd op db fs fs' r w : changes op -> let o := exec E nd op db fs r in let o' := exec E (on_disk_that w nd) op db fs' r in
  o_res o <> OCrash -> o_res o' <> OCrash -> took o = took o'.
Proof.
  intros Ow%changes_own o o' N N'. assert (X : took o = true <-> took o' = true); [|destruct (took o), (took o'); intuition congruence].
  unfold o, o'. rewrite !took_iff by assumption. split; intros (db1 & H); exists db1.
  - now apply blind_effect.
  - replace nd with (on_disk_that (nd_write nd) (on_disk_that w nd)) by (destruct nd; reflexivity). now apply blind_effect.
Qed.
Lemma took_written E nd op db fs r : changes op -> let o := exec E nd op db fs r in o_res o <> OCrash ->
  o_res o = OOk <-> took o = true /\ can_write nd fs (db_path db) (db_content (o_db o)).
Proof.
  intros Ow%changes_own o N. assert (T : target op db = db_path db) by (destruct op; try discriminate Ow; reflexivity). split.
  - intros H. destruct (exec_shape E nd op db fs r) as [_ _ _ Nk|db1 res Eff C O].
    + exfalso. apply Nk; [|exact H]. destruct op; try discriminate Ow; reflexivity.
    + split; [exact (effect_took E nd op db fs r db1 Eff Ow N)|]. fold o in C, O. rewrite T in C. apply (outcome_ok _ _ O) in H. now apply (commit_res _ _ _ _ _ _ _ C).
  - intros (H & W). destruct (took_effect E nd op db fs r Ow H) as (db1 & Eff). destruct (effect_exec _ _ _ fs _ _ _ Eff) as (res & C & O). fold o in C, O. rewrite T in C.
    apply (outcome_ok _ _ O). now apply (commit_res _ _ _ _ _ _ _ C).
Qed.
Lemma not_took E nd op db fs r : changes op -> let o := exec E nd op db fs r in o_res o <> OCrash -> took o = false -> o_db o = db /\ o_fs o = fs.
Proof.
  intros Ow%changes_own o N T. destruct (exec_shape E nd op db fs r) as [Hf Rc _ _|db1 res Eff C O].
  - split; [|exact Hf]. unfold o. destruct Rc; [reflexivity|discriminate Ow].
  - exfalso. unfold o in T. rewrite (effect_took E nd op db fs r db1 Eff Ow N) in T. discriminate.
Qed.
(** A file that could not be opened is left alone. *)
Lemma unopened E nd op db fs r : nd_write nd = IoOpenErr -> o_fs (exec E nd op db fs r) = fs.
Proof.
  intros H. destruct (exec_shape E nd op db fs r) as [Hf _ _ _|db1 res _ C _]; [exact Hf|]. apply commit_to_inv in C as [_ W]. revert W.
  unfold write_db, write_file. rewrite H. repeat case_match; intros; simplify_eq; congruence.
Qed.
