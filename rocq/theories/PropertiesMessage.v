(** Theorems about error texts (C89-C92). *)
From Coq Require Import String Ascii ZArith NArith Lia Bool Arith List.
From stdpp Require Import gmap strings.
From RecordUpdate Require Import RecordSet.
From Verif Require Import GoStr GoErr Types Env User Persist Fs Database System Method SpecDb SpecAuth Message SpecMessage Examples.
From Verif Require Import DbFacts LoadFacts Inv AccountFacts PasswordFacts ApiKeyFacts MessageFacts.
From Verif Require PropertiesMfa PropertiesPassword.
Import ListNotations.
Import RecordSetNotations.
Open Scope string_scope.
Notation u2f_out := (exec toy (draws 50) OpAddMfaToken (o_db PropertiesMfa.totp_out) (o_fs PropertiesMfa.totp_out) PropertiesMfa.u2f_req).
Notation stale := (PropertiesMfa.login_req <| rq_webauthn; rw_challenge := "other" |>).
Definition plain_texts : Texts := {| tx_quote := fun s => """" ++ s ++ """"; tx_ext := fun s => s; tx_other := "?" |}.

(** C89 *)
(** Every error of an API call reads as its template with each placeholder replaced by one argument, except one. *)
Theorem C89_calls F E nd op db fs r e : o_res (exec E nd op db fs r) = OErr e -> e <> EWith ErrAuthFailed [AErr (EStd ErrWebAuthnVerifyRequest)] -> reads F e (message F e).
Proof. intros H N. apply proper_reads. exact (exec_proper E nd op db fs r e H N). Qed.
Print Assumptions C89_calls.
(** The same for opening a database *)
Theorem C89_opening F E nd fp fs fs' e : new_database E nd fp fs = (fs', LErr e) -> reads F e (message F e).
Proof. intros H. apply proper_reads. exact (open_proper E nd fp fs fs' e H). Qed.
Print Assumptions C89_opening.
(** and for direct calls on an account. *)
Theorem C89_direct F E nd m u u' e : call_method E nd m u = (u', MErr e) -> e <> EStd ErrWebAuthnVerifyRequest -> reads F e (message F e).
Proof. intros H N. apply proper_reads. exact (method_proper E nd m u u' e H N). Qed.
Print Assumptions C89_direct.
(** A failed WebAuthn login returns a template whose placeholder was never filled. *)
Theorem C89_always_refuted : exists E nd fs db r e, reachable E fs db /\ o_res (exec E nd OpAuthenticate db fs r) = OErr e /\
  (forall F, message F e = "user authentication failed: webauthn authentication request failed: %v") /\ forall F m, ~ reads F e m.
Proof.
  exists toy, (draws 60), (o_fs u2f_out), (o_db u2f_out), stale, unworded.
  split; [exact PropertiesMfa.u2f_reachable|]. split; [vm_compute; reflexivity|]. split; [reflexivity|].
  intros F m H. inversion H as [| |t args m' Fi]; subst. inversion Fi as [|l v t a args x m' Pl Sh T E1]; subst.
  inversion Sh as [| | | | |e m Re]; subst. inversion Re as [t' Pt| |]; subst. apply Pt. vm_compute. tauto.
Qed.
Print Assumptions C89_always_refuted.
Example C89_ex : forall e, o_res (exec toy (draws 9) OpAddUser two.2 two.1 (signup "jane" "x@example.com" "secret-pw-9")) = OErr e ->
  reads plain_texts e (message plain_texts e) /\ message plain_texts e = "failed adding user ""jane"": username already in use".
Proof. vm_compute o_res. intros e [= <-]. split; [apply proper_reads; reflexivity|vm_compute; reflexivity]. Qed.

(** C90 *)
(** For given disclosed parts of the request and a given file name there are at most 18 errors, whatever
    passwords, codes, keys and secrets the request carries and whatever the database holds. *)
Theorem C90_few E op path v : exists L, (List.length L <= 18)%nat /\
  forall nd db fs r e, db_path db = path -> disclosed op r = v -> o_res (exec E nd op db fs r) = OErr e -> In e L.
Proof. exists (possible E op path v). split; [apply possible_few|]. intros nd db fs r e <- <- H. exact (exec_err E nd op db fs r e H). Qed.
Print Assumptions C90_few.
(** So the text never depends on a secret beyond the choice among these. *)
Theorem C90_texts F E op path v : exists L, (List.length L <= 18)%nat /\
  forall nd db fs r e, db_path db = path -> disclosed op r = v -> o_res (exec E nd op db fs r) = OErr e -> In (message F e) L.
Proof.
  exists (map (message F) (possible E op path v)). split; [rewrite map_length; apply possible_few|].
  intros nd db fs r e <- <- H. apply in_map. exact (exec_err E nd op db fs r e H).
Qed.
Print Assumptions C90_texts.
Example C90_ex : let r pw := PropertiesPassword.login "jane" pw in disclosed OpAuthenticate (r "wrong-1") = disclosed OpAuthenticate (r "wrong-2") /\
  exists e, o_res (exec toy (draws 9) OpAuthenticate two.2 two.1 (r "wrong-1")) = OErr e /\ o_res (exec toy (draws 9) OpAuthenticate two.2 two.1 (r "wrong-2")) = OErr e.
Proof. cbv zeta. split; [reflexivity|]. eexists. split; vm_compute; reflexivity. Qed.

(** C91 *)
(** A failed login says whether the account exists. *)
Theorem C91_reveals E nd db fs r e : reachable E fs db -> o_res (exec E nd OpAuthenticate db fs r) = OErr e ->
  (e = EWith ErrAuthFailed [AErr (EStd ErrDatabaseUserNotFound)] <-> ~ exists i u, resolves_login E db (ru_username (rq_user r)) i u).
Proof.
  intros HR. cbn [exec]. unfold db_authenticate. destruct (get_user E db (ru_username (rq_user r))) as [[i u]|] eqn:G.
  - intros H. split.
    + intros ->. exfalso. revert H. destruct (negb _).
      { destruct (verify_password _ _ _) eqn:V; [|easy]. apply verify_password_err in V. destruct V as [<-|[<-|[]]]; discriminate. }
      destruct (negb _); [|discriminate]. pose proof (verify_webauthn_err E u r) as W. destruct (verify_webauthn E u r) as [u' [e|]]; [|easy].
      destruct (W _ eq_refl) as [-> | ->]; discriminate.
    + intros N. exfalso. apply N. exists i, u. now apply (get_user_resolves _ fs).
  - intros [= <-]. split; [|reflexivity]. intros _ (i & u & Hu). apply (get_user_resolves _ fs) in Hu; congruence.
Qed.
Print Assumptions C91_reveals.
(** So two wrong logins with the same password are told apart. *)
Theorem C91_hidden_refuted : exists E nd fs db r r' e e', reachable E fs db /\ ru_password (rq_user r) = ru_password (rq_user r') /\
  (exists i u, resolves_login E db (ru_username (rq_user r)) i u) /\ (~ exists i u, resolves_login E db (ru_username (rq_user r')) i u) /\
  o_res (exec E nd OpAuthenticate db fs r) = OErr e /\ o_res (exec E nd OpAuthenticate db fs r') = OErr e' /\ e <> e' /\
  forall F, message F e <> message F e'.
Proof.
  exists toy, (draws 9), two.1, two.2, (PropertiesPassword.login "jane" "wrong-1"), (PropertiesPassword.login "john" "wrong-1").
  eexists. eexists. split; [exact two_reachable|]. split; [reflexivity|].
  split; [do 2 eexists; apply (get_user_resolves toy two.1); [exact two_reachable|vm_compute; reflexivity]|].
  split; [intros (i & u & H); apply (get_user_resolves toy two.1) in H; [vm_compute in H; discriminate|exact two_reachable]|].
  split; [vm_compute; reflexivity|]. split; [vm_compute; reflexivity|]. split; [discriminate|]. intros F. vm_compute. discriminate.
Qed.
Print Assumptions C91_hidden_refuted.
Example C91_ex : exists e, o_res (exec toy (draws 9) OpAuthenticate two.2 two.1 (PropertiesPassword.login "nobody@example.com" "x")) = OErr e /\
  message plain_texts e = "user authentication failed: user not found".
Proof. eexists. split; vm_compute; reflexivity. Qed.

(** C92 *)
(** The only call that can panic is AddMfaToken. *)
Theorem C92_panic E nd op db fs r : o_res (exec E nd op db fs r) = OPanic -> op = OpAddMfaToken.
Proof.
  assert (Fi : forall nd db fs r w, o_res (finish nd db fs r w) <> OPanic).
  { intros. unfold finish. destruct (commit _ _ _) as [[? ?] []]; discriminate. }
  destruct op; cbn [exec]; try reflexivity; intros H; exfalso; revert H.
  - unfold db_add_user. cbv zeta. repeat (case_match; try discriminate). apply Fi.
  - unfold db_get_users. case_match; discriminate.
  - unfold db_get_user. repeat case_match; discriminate.
  - unfold db_delete_user. case_match; discriminate.
  - unfold db_authenticate. repeat case_match; discriminate.
  - apply Fi.
  - unfold db_copy. destruct (commit_to _ _ _ _) as [[? ?] []]; discriminate.
  - unfold db_add_public_key. repeat (case_match; try discriminate). apply Fi.
  - unfold db_get_public_keys. repeat case_match; discriminate.
  - unfold db_delete_public_key. repeat (case_match; try discriminate). apply Fi.
  - unfold db_add_api_key. destruct (drawn_spec nd) as (s & D & _). unfold drawn in D. rewrite D. cbv zeta. repeat (case_match; try discriminate). apply Fi.
  - unfold db_delete_api_key. repeat (case_match; try discriminate). apply Fi.
  - unfold db_get_api_keys. repeat case_match; discriminate.
  - unfold db_change_password. repeat (case_match; try discriminate). apply Fi.
  - unfold db_identify. repeat case_match; discriminate.
  - unfold db_lookup_api_key. cbv zeta. repeat case_match; discriminate.
  - unfold db_get_mfa_tokens. repeat case_match; discriminate.
  - unfold db_delete_mfa_token. repeat (case_match; try discriminate). apply Fi.
  - discriminate.
Qed.
Print Assumptions C92_panic.
(** The only call that can fail to return is AddAPIKey. *)
Theorem C92_hang E nd op db fs r : o_res (exec E nd op db fs r) = OHang -> op = OpAddAPIKey.
Proof. intros H. destruct op; try reflexivity; exfalso; revert H; apply only_add_key_hangs; discriminate. Qed.
Print Assumptions C92_hang.
(** Calls that only read return, whatever happens to the disk, and do not touch it. *)
Definition reading (op : Op) : Prop := match op with
  | OpGetUsers | OpGetUser | OpDeleteUser | OpAuthenticate | OpGetPublicKeys | OpGetAPIKeys | OpIdentify | OpLookupAPIKey | OpGetMfaTokens | OpUserCount => True | _ => False end.
Theorem C92_reading E nd op db fs r : reading op -> let o := exec E nd op db fs r in o_fs o = fs /\ (o_res o = OOk \/ exists e, o_res o = OErr e).
Proof.
  destruct op; intros []; cbv zeta; cbn [exec].
  - unfold db_get_users. case_match; cbn; eauto.
  - unfold db_get_user. repeat case_match; cbn; eauto.
  - unfold db_delete_user. repeat case_match; cbn; eauto.
  - unfold db_authenticate. repeat case_match; cbn; eauto.
  - unfold db_get_public_keys. repeat case_match; cbn; eauto.
  - unfold db_get_api_keys. repeat case_match; cbn; eauto.
  - unfold db_identify. repeat case_match; cbn; eauto.
  - unfold db_lookup_api_key. cbv zeta. repeat case_match; cbn; eauto.
  - unfold db_get_mfa_tokens. repeat case_match; cbn; eauto.
  - cbn. eauto.
Qed.
Print Assumptions C92_reading.
(** A call dies only when the write does, and in a call that writes. *)
Theorem C92_crash E nd op db fs r : o_res (exec E nd op db fs r) = OCrash -> ~ reading op /\ exists k, nd_write nd = IoCrash k.
Proof.
  intros H. split; [intros R; destruct (C92_reading E nd op db fs r R) as (_ & [X | (e & X)]); congruence|]. revert H.
  assert (Wr : forall p d f, snd (write_db nd p d f) = CCrash -> exists k, nd_write nd = IoCrash k).
  { intros p d f. unfold write_db, write_file. repeat case_match; cbn; try discriminate; simplify_eq; eauto. }
  assert (Fi : forall db fs r w, o_res (finish nd db fs r w) = OCrash -> exists k, nd_write nd = IoCrash k).
  { intros db' fs' r' w. unfold finish, commit, commit_to. pose proof (Wr (db_path db') (marshal (db_content (db' <| db_content ::= bump nd |>))) fs') as X.
    destruct (write_db _ _ _ _) as [fs1 []]; cbn in *; try discriminate. auto. }
  destruct op; cbn [exec].
  - unfold db_add_user. cbv zeta. repeat (case_match; try discriminate). apply Fi.
  - unfold db_get_users. case_match; discriminate.
  - unfold db_get_user. repeat case_match; discriminate.
  - unfold db_delete_user. case_match; discriminate.
  - unfold db_authenticate. repeat case_match; discriminate.
  - apply Fi.
  - unfold db_copy, commit_to. match goal with |- context [write_db nd ?p ?d ?f] => pose proof (Wr p d f) as X; destruct (write_db nd p d f) as [fs1 []] end; cbn in *; try discriminate. auto.
  - unfold db_add_public_key. repeat (case_match; try discriminate). apply Fi.
  - unfold db_get_public_keys. repeat case_match; discriminate.
  - unfold db_delete_public_key. repeat (case_match; try discriminate). apply Fi.
  - unfold db_add_api_key. cbv zeta. repeat (case_match; try discriminate). apply Fi.
  - unfold db_delete_api_key. repeat (case_match; try discriminate). apply Fi.
  - unfold db_get_api_keys. repeat case_match; discriminate.
  - unfold db_change_password. repeat (case_match; try discriminate). apply Fi.
  - unfold db_identify. repeat case_match; discriminate.
  - unfold db_lookup_api_key. cbv zeta. repeat case_match; discriminate.
  - unfold db_add_mfa_token. repeat (case_match; try discriminate). apply Fi.
  - unfold db_get_mfa_tokens. repeat case_match; discriminate.
  - unfold db_delete_mfa_token. repeat (case_match; try discriminate). apply Fi.
  - discriminate.
Qed.
Print Assumptions C92_crash.
Example C92_ex : o_res (exec toy (with_io (draws 9) (IoCrash 3)) OpSave two.2 two.1 new_request) = OCrash /\ reading OpAuthenticate /\
  (exists e, o_res (exec toy (with_io (draws 9) (IoCrash 3)) OpAuthenticate two.2 two.1 (PropertiesPassword.login "jane" "x")) = OErr e).
Proof. split; [vm_compute; reflexivity|]. split; [exact I|]. eexists. vm_compute. reflexivity. Qed.
