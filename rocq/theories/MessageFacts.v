(** Error texts. *)
From Coq Require Import String Ascii ZArith NArith Lia Bool Arith List.
From stdpp Require Import gmap strings.
From RecordUpdate Require Import RecordSet.
From Verif Require Import GoStr Codec GoErr Role Name Email Random RandomFacts Types Env Password ApiKey PublicKey Mfa User Json Persist Fs Database.
From Verif Require Import UserFacts Method Message SpecMessage.
Import ListNotations.
Import RecordSetNotations.
Open Scope string_scope.

#[local] Opaque int64 new_id trim_space new_email new_role.

(** ** From a check of the placeholders to the text *)
Fixpoint scan (t : list ascii) (ks : list (ascii -> bool)) : bool :=
  match t with
  | [] => match ks with [] => true | _ => false end
  | a :: t => if Ascii.eqb a "%" then
                match t, ks with v :: t, k :: ks => k v && scan t ks | _, _ => false end
              else scan t ks
  end.
Fixpoint proper (e : goerr) : bool :=
  match e with
  | EStd t => negb (existsb (Ascii.eqb "%") (los t))
  | EFmt _ => true
  | EWith t args =>
      scan (los t) ((fix go (l : list arg) : list (ascii -> bool) :=
        match l with
        | [] => []
        | a :: l => match a with
                    | AStr s => fun v => Ascii.eqb v "s" || Ascii.eqb v "v" || Ascii.eqb v "q"
                    | AInt z => fun v => Ascii.eqb v "d"
                    | AErr e => fun v => Ascii.eqb v "v" && proper e
                    | ANil => fun _ => false
                    | AOther => fun v => Ascii.eqb v "v"
                    end :: go l
        end) args)
  end.
Definition kind (a : arg) : ascii -> bool :=
  match a with
  | AStr s => fun v => Ascii.eqb v "s" || Ascii.eqb v "v" || Ascii.eqb v "q"
  | AInt z => fun v => Ascii.eqb v "d"
  | AErr e => fun v => Ascii.eqb v "v" && proper e
  | ANil => fun _ => false
  | AOther => fun v => Ascii.eqb v "v"
  end.
Definition printer (F : Texts) (a : arg) : (ascii -> string) * string :=
  match a with
  | AStr s => (fun v => put_text F v "string" s, "string=" ++ s)
  | AInt z => (fun v => put_int v z, "int=" ++ sprint_d z)
  | AErr e => (fun v => put_text F v "error" (message F e), "error=" ++ message F e)
  | ANil => (put_nil, "<nil>")
  | AOther => (put_other F, tx_other F)
  end.
Lemma proper_with t args : proper (EWith t args) = scan (los t) (map kind args).
Proof. reflexivity. Qed.
Lemma message_with F t args : message F (EWith t args) = fill (los t) (map (printer F) args).
Proof. reflexivity. Qed.
Definition on_arg (P : goerr -> Prop) (a : arg) : Prop := match a with AErr e => P e | _ => True end.
Section Ind.
  Context (P : goerr -> Prop) (Hs : forall t, P (EStd t)) (Hf : forall t, P (EFmt t))
    (Hw : forall t args, Forall (on_arg P) args -> P (EWith t args)).
  Fixpoint goerr_all (e : goerr) : P e :=
    match e with
    | EStd t => Hs t
    | EFmt t => Hf t
    | EWith t args => Hw t args ((fix go l : Forall (on_arg P) l :=
        match l with
        | [] => List.Forall_nil _
        | a :: l => @List.Forall_cons arg (on_arg P) a l (match a return on_arg P a with AErr e => goerr_all e | _ => I end) (go l)
        end) args)
    end.
End Ind.

Lemma fill_char a t args : a <> "%"%char -> fill (a :: t) args = String a (fill t args).
Proof. intros H. destruct a as [[] [] [] [] [] [] [] []]; try reflexivity. now destruct H. Qed.
Lemma fill_verb v t x args : v <> "%"%char -> fill ("%"%char :: v :: t) (x :: args) = fst x v ++ fill t args.
Proof. intros H. destruct v as [[] [] [] [] [] [] [] []]; try reflexivity. now destruct H. Qed.
Lemma filled_char F a t args m : a <> "%"%char -> filled F t args m -> filled F (String a t) args (String a m).
Proof.
  intros Ha [l Pl|l v t' x args' y m' Pl S T].
  - constructor. intros [->|H]; [congruence|exact (Pl H)].
  - change (String a (l ++ "%" ++ String v "" ++ t')) with (String a l ++ "%" ++ String v "" ++ t').
    change (String a (l ++ y ++ m')) with (String a l ++ y ++ m'). constructor; auto. intros [->|H]; [congruence|exact (Pl H)].
Qed.
Lemma kind_shown F a v : on_arg (fun e => proper e = true -> reads F e (message F e)) a ->
  kind a v = true -> v <> "%"%char /\ shown F v a (fst (printer F a) v).
Proof.
  intros IH K. destruct a; cbn in *; try discriminate.
  - apply orb_true_iff in K as [K|K]; [apply orb_true_iff in K as [K|K]|]; apply Ascii.eqb_eq in K as ->; split; try congruence; cbn; constructor.
  - apply Ascii.eqb_eq in K as ->. split; [congruence|]. cbn. constructor.
  - apply andb_true_iff in K as [K P]. apply Ascii.eqb_eq in K as ->. split; [congruence|]. cbn. constructor. auto.
  - apply Ascii.eqb_eq in K as ->. split; [congruence|]. cbn. constructor.
Qed.
Lemma scan_filled F n : forall t args, (List.length t <= n)%nat ->
  Forall (on_arg (fun e => proper e = true -> reads F e (message F e))) args ->
  scan t (map kind args) = true -> filled F (sol t) args (fill t (map (printer F) args)).
Proof.
  induction n as [|n IH]; intros t args L HA S.
  - destruct t; [|cbn in L; lia]. destruct args; [|discriminate]. cbn. constructor. intros [].
  - destruct t as [|a t].
    { destruct args; [|discriminate]. cbn. constructor. intros []. }
    cbn [scan] in S. destruct (Ascii.eqb_spec a "%") as [->|N].
    + destruct t as [|v t]; [discriminate|]. destruct args as [|x args]; [discriminate|]. cbn [map] in S.
      apply andb_true_iff in S as [K S]. inversion HA; subst.
      destruct (kind_shown F x v H1 K) as (Nv & Sh). cbn [map]. rewrite fill_verb by exact Nv.
      change (sol ("%"%char :: v :: t)) with ("" ++ "%" ++ String v "" ++ sol t).
      apply (filled_arg F ""); [intros []|exact Sh|]. apply IH; auto. cbn in L. lia.
    + rewrite fill_char by exact N. change (sol (a :: t)) with (String a (sol t)). apply filled_char; [exact N|]. apply IH; auto. cbn in L. lia.
Qed.
Lemma proper_reads F e : proper e = true -> reads F e (message F e).
Proof.
  induction e as [t|t|t args IH] using goerr_all; intros P.
  - constructor. intros H. cbn in P. apply negb_true_iff in P. assert (existsb (Ascii.eqb "%") (los t) = true); [|congruence].
    apply existsb_exists. exists "%"%char. split; [exact H|reflexivity].
  - constructor.
  - constructor. rewrite message_with. rewrite proper_with in P. rewrite <- (sol_los t) at 1. eapply scan_filled; eauto.
Qed.

(** ** The errors a call can return *)
Definition nd0 : Nd := {| nd_clock := 0; nd_uuid := fun _ _ => "0"%char; nd_id := fun _ => 0%N; nd_secret := fun _ => 0%N; nd_len := 0; nd_salt := "";
  nd_pick := 0; nd_stat_err := false; nd_mkdir_err := false; nd_read_err := false; nd_write := IoOk |}.
Definition token0 : MfaToken := {| t_id := ""; t_type := ""; t_algorithm := ""; t_comment := ""; t_secret := ""; t_period := 0; t_digits := 0; t_expired := false; t_expired_at := 0;
  t_created := 0; t_disabled := false; t_disabled_at := 0; t_device := None; t_params := ∅; t_flags := ∅; t_counter := 0; t_cache := None |}.
Definition e_ident : list goerr := [EStd ErrDatabaseUserNotFound; EStd ErrDatabaseInvalidUser].
Definition e_commit (path : string) : goerr := EWith ErrDatabaseCommit [AStr path; AErr ext_err].
Definition e_pw : list goerr := [EStd ErrPasswordEmpty; EWith ErrPasswordGenerate [AErr ext_err]].
Definition e_new_user (full : string) : list goerr :=
  (e_pw ++ [EStd ErrEmailAddressInvalid; EStd ErrRoleEmpty; EWith ErrParseNameFailed [AStr (trim_space full)]; EStd ErrUsernameEmpty])%list.
Definition e_verify : list goerr := [EStd ErrUserPasswordNotFound; EStd ErrUserPasswordInvalid].
Definition e_pubkey (E : Env) (v : Request) : list goerr := match new_public_key E nd0 v with inr e => [e] | inl _ => [] end.
Definition e_u2f (E : Env) (s : string) : list goerr :=
  match b64_decode s with
  | Some d => match e_register E d with Some reg => match u2f_register token0 reg with RErr e => [e] | _ => [] end | None => [] end
  | None => []
  end.
Definition e_token (E : Env) (v : Request) : list goerr :=
  let m := rq_mfa v in
  ([EStd ErrMfaTokenTypeEmpty; EWith ErrMfaTokenInvalidType [AStr (rm_type m)]; EWith ErrMfaTokenInvalidAlgorithm [AStr (lower E (rm_algorithm m))];
    EWith ErrMfaTokenInvalidPeriod [AInt (rm_period m)]; EWith ErrMfaTokenInvalidDigits [AInt (if (rm_digits m =? 0)%Z then 6%Z else rm_digits m)]] ++
   map (fun s => EWith ErrMfaTokenInvalidPasscode [AStr s]) ["empty"; "not 4-8 characters long"; "digits length mismatch"; "failed"] ++
   [EStd ErrWebAuthnRegisterNotFound; EStd ErrWebAuthnChallengeNotFound; EWith ErrWebAuthnParse [AErr ext_err];
    EStd ErrDuplicateMfaTokenSecret; EStd ErrDuplicateMfaTokenComment] ++ e_u2f E (rw_register (rq_webauthn v)))%list.
Definition possible (E : Env) (op : Op) (path : string) (v : Request) : list goerr :=
  let n := ru_username (rq_user v) in
  let usage := rk_usage (rq_key v) in
  match op with
  | OpAddUser =>
      (map (fun e => EWith ErrAddUser [AStr n; AErr e]) ([EStd ErrUserPolicyCompliance; EStd ErrPasswordPolicyCompliance] ++ e_new_user (ru_full_name (rq_user v))) ++
       [EWith ErrAddUser [AStr (lower E n); AStr "username already in use"];
        EWith ErrAddUser [AStr (lower E (ru_email (rq_user v))); AStr "email address already in use"];
        EWith ErrAddUser [AStr (lower E n); AErr (e_commit path)]])%list
  | OpGetUsers | OpGetUser => map (fun e => EWith ErrGetUsers [AErr e]) e_ident
  | OpDeleteUser =>
      (map (fun e => EWith ErrDeleteUser [AStr (rq_query_id v); AErr e]) e_ident ++
       [EWith ErrDeleteUser [AStr (rq_query_id v); AStr "user delete operation is not supported"]])%list
  | OpAuthenticate =>
      (map (fun e => EWith ErrAuthFailed [AErr e]) (EStd ErrDatabaseUserNotFound :: e_verify ++ [EWith ErrWebAuthnParse [AErr ext_err]]) ++
       [EWith ErrAuthFailed [AStr "malformed auth request"]; EWith ErrAuthFailed [AErr (EStd ErrWebAuthnVerifyRequest)]])%list
  | OpSave => [e_commit path]
  | OpCopy fp => [e_commit fp]
  | OpAddPublicKey =>
      (map (fun e => EWith ErrAddPublicKey [AStr usage; AErr e]) (e_commit path :: e_ident ++ e_pubkey E v) ++
       [EWith ErrAddPublicKey [AStr usage; AStr "already exists"]])%list
  | OpGetPublicKeys => map (fun e => EWith ErrGetPublicKeys [AStr usage; AErr e]) e_ident
  | OpDeletePublicKey =>
      (map (fun e => EWith ErrDeletePublicKey [AStr (rk_id (rq_key v)); AErr e]) e_ident ++
       [EWith ErrDeletePublicKey [AStr (rk_id (rq_key v)); AStr "not found"]; EWith ErrDeletePublicKey [AStr usage; AErr (e_commit path)]])%list
  | OpAddAPIKey =>
      (e_pw ++ map (fun e => EWith ErrAddAPIKey [AStr usage; AErr e])
         (e_commit path :: e_ident ++ [EStd ErrAPIKeyPayloadEmpty; EStd ErrAPIKeyUsageEmpty; EWith ErrAPIKeyUsageUnsupported [AStr usage]; EStd ErrAPIKeyCommentEmpty]))%list
  | OpDeleteAPIKey =>
      (map (fun e => EWith ErrDeleteAPIKey [AStr (rk_id (rq_key v)); AErr e]) e_ident ++
       [EWith ErrDeleteAPIKey [AStr (rk_id (rq_key v)); AStr "not found"]; EWith ErrDeleteAPIKey [AStr usage; AErr (e_commit path)]])%list
  | OpGetAPIKeys => map (fun e => EWith ErrGetAPIKeys [AStr usage; AErr e]) e_ident
  | OpChangePassword =>
      map (fun e => EWith ErrChangeUserPassword [AErr e]) (e_commit path :: EStd ErrPasswordPolicyCompliance :: e_ident ++ e_verify ++ e_pw)
  | OpIdentify | OpUserCount => []
  | OpLookupAPIKey => [EStd ErrLookupAPIKeyPayloadEmpty; EStd ErrLookupAPIKeyMalformedPayload; EStd ErrLookupAPIKeyFailed]
  | OpAddMfaToken => map (fun e => EWith ErrAddMfaToken [AErr e]) (e_commit path :: e_ident ++ e_token E v)
  | OpGetMfaTokens => map (fun e => EWith ErrGetMfaTokens [AErr e]) e_ident
  | OpDeleteMfaToken =>
      (map (fun e => EWith ErrDeleteMfaToken [AStr (rm_id (rq_mfa v)); AErr e]) (e_commit path :: e_ident) ++
       [EWith ErrDeleteMfaToken [AStr (rm_id (rq_mfa v)); AStr "not found"]])%list
  end.

Lemma finish_err nd db fs r wrap e : o_res (finish nd db fs r wrap) = OErr e -> e = wrap (e_commit (db_path db)).
Proof.
  unfold finish, commit, commit_to, write_db, e_commit. cbn [db_path]. destruct (marshal _) as [d|]; [|cbn; congruence].
  destruct (write_file _ _ _ _) as [fs' []]; cbn; congruence.
Qed.
Lemma identity_err E db r e : validate_identity E db r = inr e -> In e e_ident.
Proof. unfold validate_identity, e_ident. repeat case_match; intros [= <-]; cbn; tauto. Qed.
Lemma new_password_err E nd s e : new_password E nd s = inr e -> In e e_pw.
Proof. unfold new_password, new_password_opt, pw_hash_of, e_pw. cbn. repeat case_match; intros; simplify_eq; tauto. Qed.
Lemma verify_password_err E u s e : verify_password E u s = Some e -> In e e_verify.
Proof. unfold verify_password, e_verify. repeat case_match; intros [= <-]; cbn; tauto. Qed.
Lemma add_roles_err nd l : forall u e, add_roles nd u l = inr e -> e = EStd ErrRoleEmpty.
Proof.
  induction l as [|s l IH]; intros u e; cbn; [discriminate|]. unfold add_role. destruct (new_role s) as [r|e'] eqn:R.
  - destruct (add_role_list _ _); apply IH.
  - intros [= <-]. revert R. #[local] Transparent new_role. unfold new_role. repeat case_match; congruence.
Qed.
#[local] Opaque new_role.
Lemma new_email_err s e : new_email s = inr e -> e = EStd ErrEmailAddressInvalid.
Proof. #[local] Transparent new_email. unfold new_email. case_match; congruence. Qed.
#[local] Opaque new_email.
Lemma new_user_err E nd n pw em full roles e : new_user_with_roles E nd n pw em full roles = inr e -> In e (e_new_user full).
Proof.
  unfold new_user_with_roles. rewrite add_password_new. destruct (new_password E nd pw) as [p|e'] eqn:P.
  2:{ intros [= <-]. apply new_password_err in P. unfold e_new_user. apply in_app_iff. now left. }
  rewrite add_email_first by reflexivity. destruct (new_email em) as [a|e'] eqn:A.
  2:{ intros [= <-]. apply new_email_err in A as ->. unfold e_new_user. cbn. tauto. }
  destruct (add_roles nd _ roles) as [u|e'] eqn:R.
  2:{ intros [= <-]. apply add_roles_err in R as ->. unfold e_new_user. cbn. tauto. }
  destruct (add_roles_inv _ _ _ _ R) as (rs & F).
  destruct (add_roles_ok nd (revise nd (new_user nd n <| u_passwords := [p] |> <| u_revision := int64 (0 + 1) |> <| u_email := Some a |> <| u_emails := [a] |>)) roles rs F eq_refl) as (rev & R').
  rewrite R in R'. injection R' as ->. rewrite fresh_roles. cbv zeta.
  destruct (String.eqb (trim_space full) "").
  - rewrite fresh_valid. destruct (String.eqb n ""); intros [= <-]. unfold e_new_user. cbn. tauto.
  - destruct (parse_name (trim_space full)) as [nm|e'] eqn:Pn.
    + rewrite fresh_name, fresh_valid. destruct (String.eqb n ""); intros [= <-]. unfold e_new_user. cbn. tauto.
    + intros [= <-]. revert Pn. unfold parse_name. repeat case_match; intros [= <-]. unfold e_new_user. cbn. tauto.
Qed.
Lemma parse_pk_err E nd nd' p p' e : pk_usage p = pk_usage p' -> pk_payload p = pk_payload p' -> parse_pk E nd p = inr e -> parse_pk E nd' p' = inr e.
Proof.
  intros U P. unfold parse_pk. rewrite U, P. destruct (_ || _); cbn [negb]; [|easy]. destruct (String.eqb _ ""); [easy|].
  destruct (contains _ "RSA PUBLIC KEY").
  { unfold parse_rsa. rewrite U, P. repeat case_match; congruence. }
  destruct (has_prefix _ _).
  { unfold parse_openssh. rewrite P. destruct (match cut_blank _ with Some x => x | None => _ end) as [w rest]. destruct (_ <? _)%nat.
    - destruct (match cut_blank _ with Some ([], _) | None => _ | Some (_ :: _, _) => _ end) as [[b c] o]. repeat case_match; congruence.
    - repeat case_match; congruence. }
  destruct (contains _ _); [|easy]. unfold parse_pgp. cbn [pk_payload set]. unfold set. cbn. rewrite P. repeat case_match; congruence.
Qed.
Lemma public_key_err E nd r e : new_public_key E nd r = inr e -> In e (e_pubkey E (disclosed OpAddPublicKey r)).
Proof.
  unfold e_pubkey, new_public_key. cbv zeta. destruct (parse_pk E nd _) as [p|e'] eqn:P; [discriminate|]. intros [= <-].
  eapply (parse_pk_err _ _ nd0) in P; [rewrite P; now left|reflexivity|reflexivity].
Qed.
Lemma bad_transport_err l : forall e, bad_transport l = Some e -> e = EStd ErrWebAuthnEmptyRegisterTransport \/ exists t, e = EWith ErrWebAuthnInvalidRegisterTransport [AStr t].
Proof. induction l as [|t l IH]; cbn; intros e; repeat case_match; try discriminate; auto; intros [= <-]; eauto. Qed.
Lemma u2f_err p p' r e : u2f_register p r = RErr e -> u2f_register p' r = RErr e.
Proof. unfold u2f_register. repeat case_match; congruence. Qed.
Lemma code_err E p c t e : validate_code E p c t = Some e -> exists s, e = EWith ErrMfaTokenInvalidPasscode [AStr s] /\ In s ["empty"; "not 4-8 characters long"; "digits length mismatch"; "failed"].
Proof. unfold validate_code. repeat case_match; intros [= <-]; eexists; (split; [reflexivity|cbn; tauto]). Qed.
Lemma token_err E nd r r' e : new_mfa_token E nd r = (r', RErr e) -> In e (e_token E (disclosed OpAddMfaToken r)).
Proof.
  unfold new_mfa_token, e_token. cbn [rq_mfa disclosed]. destruct (String.eqb _ "totp").
  { destruct (negb _); [intros [= _ <-]; cbn; tauto|]. destruct (_ || _); [intros [= _ <-]; cbn; tauto|]. destruct (_ || _); [intros [= _ <-]; cbn; tauto|].
    destruct (validate_code _ _ _ _) eqn:C; [|discriminate]. intros [= _ <-]. apply code_err in C as (s & -> & H).
    apply in_app_iff. right. apply in_app_iff. left. apply in_map_iff. now exists s. }
  destruct (String.eqb _ "u2f").
  { destruct (String.eqb _ ""); [intros [= _ <-]; cbn; tauto|]. destruct (String.eqb _ ""); [intros [= _ <-]; cbn; tauto|].
    unfold e_u2f. cbn [rq_webauthn rw_register disclosed]. cbn [set]. unfold set. cbn.
    destruct (b64_decode (rw_register (rq_webauthn r))) as [d|]; [|intros [= _ <-]; tauto].
    destruct (e_register E d) as [reg|]; [|intros [= _ <-]; tauto]. intros [= _ U]. rewrite (u2f_err _ token0 _ _ U). cbn. tauto. }
  destruct (String.eqb _ ""); intros [= _ <-]; cbn; tauto.
Qed.
Lemma verify_tokens_err E r id l e : snd (verify_tokens E r id l) = Some e -> e = EStd ErrWebAuthnVerifyRequest.
Proof.
  induction l as [|t l IH]; cbn; [congruence|]. destruct (_ && _).
  - destruct (webauthn_request E t _) as [t' [c|]]; cbn; repeat case_match; congruence.
  - destruct (verify_tokens E r id l). exact IH.
Qed.
Lemma verify_webauthn_err E u r e : snd (verify_webauthn E u r) = Some e -> e = EWith ErrWebAuthnParse [AErr ext_err] \/ e = EStd ErrWebAuthnVerifyRequest.
Proof.
  unfold verify_webauthn, unpack_request. destruct (b64_decode _) as [d|]; [|cbn; intros [= <-]; tauto].
  destruct (e_authreq E d) as [q|]; [|cbn; intros [= <-]; tauto].
  pose proof (verify_tokens_err E r (wq_id q) (u_mfa u) e) as H. destruct (verify_tokens _ _ _ _) as [l res]. cbn in *. auto.
Qed.
Lemma in_wrap (f : goerr -> goerr) e l : In e l -> In (f e) (map f l).
Proof. apply in_map. Qed.
Lemma dup_token_err t l e : dup_token t l = Some e -> exists e', e = EWith ErrAddMfaToken [AErr e'] /\ In e' [EStd ErrDuplicateMfaTokenSecret; EStd ErrDuplicateMfaTokenComment].
Proof. induction l as [|k l IH]; cbn; [discriminate|]. repeat case_match; auto; intros [= <-]; eexists; (split; [reflexivity|cbn; tauto]). Qed.
Lemma api_key_err nd r e : new_api_key nd r = inr e ->
  In e [EStd ErrAPIKeyPayloadEmpty; EStd ErrAPIKeyUsageEmpty; EWith ErrAPIKeyUsageUnsupported [AStr (rk_usage (rq_key r))]; EStd ErrAPIKeyCommentEmpty].
Proof. unfold new_api_key. repeat case_match; intros [= <-]; cbn; tauto. Qed.
Lemma new_addresses_err E db u e r nd a : new_user_with_roles E nd (ru_username (rq_user r)) (ru_password (rq_user r)) (ru_email (rq_user r)) (ru_full_name (rq_user r)) (ru_roles (rq_user r)) = inl u ->
  e = u_emails u -> new_addresses E db e = inr a -> a = lower E (ru_email (rq_user r)) /\ u_username u = ru_username (rq_user r).
Proof.
  intros N -> A. apply new_user_iff in N as (p & em & rs & n & _ & Em & _ & _ & _ & ->). split; [|reflexivity].
  revert A. cbn. #[local] Transparent new_email. unfold new_email in Em. case_match; [|discriminate]. injection Em as <-. cbn. case_match; congruence.
Qed.
#[local] Opaque new_email.
Lemma new_user_name E nd n pw em full roles u : new_user_with_roles E nd n pw em full roles = inl u -> u_username u = n.
Proof. intros N. apply new_user_iff in N as (p & a & rs & x & _ & _ & _ & _ & _ & ->). reflexivity. Qed.

#[local] Opaque lower.
Lemma exec_err E nd op db fs r e : o_res (exec E nd op db fs r) = OErr e -> In e (possible E op (db_path db) (disclosed op r)).
Proof.
  assert (W : forall (f : goerr -> goerr) x l, In x l -> In (f x) (map f l)) by (intros; now apply in_map).
  destruct op; cbn [exec possible]; cbv zeta.
  - unfold db_add_user, check_policy. cbv zeta.
    change (ru_username (rq_user (disclosed OpAddUser r))) with (ru_username (rq_user r)).
    change (ru_email (rq_user (disclosed OpAddUser r))) with (ru_email (rq_user r)).
    change (ru_full_name (rq_user (disclosed OpAddUser r))) with (ru_full_name (rq_user r)).
    destruct (negb _); [intros [= <-]; cbn; tauto|]. destruct (negb _); [intros [= <-]; cbn; tauto|].
    destruct (new_user_with_roles _ _ _ _ _ _ _) as [u|e'] eqn:N.
    2:{ intros [= <-]. apply new_user_err in N. apply in_app_iff. left. apply (W (fun e => EWith ErrAddUser [AStr (ru_username (rq_user r)); AErr e])). apply in_app_iff. now right. }
    match goal with |- context [ref_username db !! ?x] => change x with (lower E (u_username u)) end. rewrite (new_user_name _ _ _ _ _ _ _ _ N).
    destruct (ref_username db !! _); [intros [= <-]; apply in_app_iff; right; cbn; tauto|].
    match goal with |- context [new_addresses E db ?x] => change x with (u_emails u); destruct (new_addresses E db (u_emails u)) as [l|a] eqn:A end.
    2:{ destruct (new_addresses_err _ _ _ _ _ _ _ N eq_refl A) as (-> & _). intros [= <-]. apply in_app_iff; right; cbn; tauto. }
    intros H. apply finish_err in H as ->. apply in_app_iff; right; cbn; tauto.
  - unfold db_get_users. destruct (validate_identity E db r) eqn:V; [easy|]. intros [= <-]. apply (W (fun e => EWith ErrGetUsers [AErr e])). eapply identity_err; eauto.
  - unfold db_get_user. destruct (validate_identity E db r) as [[]|] eqn:V; [easy|]. intros [= <-]. apply (W (fun e => EWith ErrGetUsers [AErr e])). eapply identity_err; eauto.
  - unfold db_delete_user. destruct (validate_identity E db r) eqn:V; intros [= <-]; apply in_app_iff; [right; now left|]. left.
    apply (W (fun e => EWith ErrDeleteUser [AStr (rq_query_id r); AErr e])). eapply identity_err; eauto.
  - unfold db_authenticate. destruct (get_user _ _ _) as [[i u]|]; [|intros [= <-]; cbn; tauto].
    destruct (negb _).
    { destruct (verify_password _ _ _) eqn:V; [|easy]. intros [= <-]. apply verify_password_err in V. destruct V as [<-|[<-|[]]]; cbn; tauto. }
    destruct (negb _); [|intros [= <-]; cbn; tauto].
    pose proof (verify_webauthn_err E u r) as VW. destruct (verify_webauthn E u r) as [u' [e'|]]; [|easy]. intros [= <-].
    destruct (VW _ eq_refl) as [-> | ->]; cbn; tauto.
  - unfold db_save. intros H. apply finish_err in H as ->. now left.
  - unfold db_copy, commit_to, write_db, e_commit. destruct (marshal _); [destruct (write_file _ _ _ _) as [fs' []]|]; cbn; try discriminate; intros [= <-]; now left.
  - unfold db_add_public_key. change (rk_usage (rq_key (disclosed OpAddPublicKey r))) with (rk_usage (rq_key r)).
    set (f := fun e => EWith ErrAddPublicKey [AStr (rk_usage (rq_key r)); AErr e]).
    destruct (validate_identity E db r) as [[i u]|] eqn:V.
    2:{ intros [= <-]. apply in_app_iff. left. apply (W f). right. apply in_app_iff. left. eapply identity_err; eauto. }
    unfold add_public_key. destruct (new_public_key E nd r) as [k|e'] eqn:K.
    2:{ intros [= <-]. apply in_app_iff. left. apply (W f). right. apply in_app_iff. right. eapply public_key_err; eauto. }
    destruct (existsb _ _); [intros [= <-]; apply in_app_iff; right; now left|].
    intros H. apply finish_err in H as ->. apply in_app_iff. left. apply (W f). now left.
  - unfold db_get_public_keys. destruct (validate_identity E db r) as [[]|] eqn:V; [easy|]. intros [= <-].
    apply (W (fun e => EWith ErrGetPublicKeys [AStr (rk_usage (rq_key r)); AErr e])). eapply identity_err; eauto.
  - unfold db_delete_public_key, delete_public_key. destruct (validate_identity E db r) as [[i u]|] eqn:V.
    2:{ intros [= <-]. apply in_app_iff. left. apply (W (fun e => EWith ErrDeletePublicKey [AStr (rk_id (rq_key r)); AErr e])). eapply identity_err; eauto. }
    destruct (existsb _ _); [|intros [= <-]; apply in_app_iff; right; now left].
    intros H. apply finish_err in H as ->. apply in_app_iff. right. right. now left.
  - unfold db_add_api_key. change (rk_usage (rq_key (disclosed OpAddAPIKey r))) with (rk_usage (rq_key r)).
    set (f := fun e => EWith ErrAddAPIKey [AStr (rk_usage (rq_key r)); AErr e]).
    destruct (validate_identity E db r) as [[i u]|] eqn:V.
    2:{ intros [= <-]. apply in_app_iff. right. apply (W f). right. apply in_app_iff. left. eapply identity_err; eauto. }
    destruct (random_range _ _ _ _) as [s|]; [|easy]. destruct (new_password E nd s) as [hk|e'] eqn:P.
    2:{ intros [= <-]. apply in_app_iff. left. eapply new_password_err; eauto. }
    destruct (ref_apikey db !! _); [easy|]. cbv zeta. unfold add_api_key. destruct (new_api_key nd _) as [k|e'] eqn:K.
    2:{ intros [= <-]. apply in_app_iff. right. apply (W f). right. apply in_app_iff. right. apply api_key_err in K. exact K. }
    intros H. apply finish_err in H as ->. apply in_app_iff. right. apply (W f). now left.
  - unfold db_delete_api_key, delete_api_key. destruct (validate_identity E db r) as [[i u]|] eqn:V.
    2:{ intros [= <-]. apply in_app_iff. left. apply (W (fun e => EWith ErrDeleteAPIKey [AStr (rk_id (rq_key r)); AErr e])). eapply identity_err; eauto. }
    cbv zeta. destruct (existsb _ _); [|intros [= <-]; apply in_app_iff; right; now left].
    intros H. apply finish_err in H as ->. apply in_app_iff. right. right. now left.
  - unfold db_get_api_keys. destruct (validate_identity E db r) as [[]|] eqn:V; [easy|]. intros [= <-].
    apply (W (fun e => EWith ErrGetAPIKeys [AStr (rk_usage (rq_key r)); AErr e])). eapply identity_err; eauto.
  - unfold db_change_password. set (f := fun e => EWith ErrChangeUserPassword [AErr e]). destruct (validate_identity E db r) as [[i u]|] eqn:V.
    2:{ intros [= <-]. apply (W f). do 2 right. apply in_app_iff. left. eapply identity_err; eauto. }
    destruct (negb _); [intros [= <-]; apply (W f); right; now left|]. unfold change_password. destruct (verify_password _ _ _) eqn:P.
    { intros [= <-]. apply (W f). do 2 right. apply in_app_iff. right. apply in_app_iff. left. eapply verify_password_err; eauto. }
    unfold add_password. destruct (new_password _ _ _) eqn:N.
    2:{ intros [= <-]. apply (W f). do 2 right. apply in_app_iff. right. apply in_app_iff. right. eapply new_password_err; eauto. }
    intros H. apply finish_err in H as ->. apply (W f). now left.
  - unfold db_identify. destruct (get_user _ _ _) as [[]|]; easy.
  - unfold db_lookup_api_key, lookup_api_key. destruct (String.eqb _ ""); [intros [= <-]; now left|]. destruct (_ <? _)%Z; [intros [= <-]; right; now left|]. cbv zeta.
    destruct (at_ref _ _) as [[i u]|]; [|intros [= <-]; right; right; now left]. destruct (find _ _); [|intros [= <-]; right; right; now left].
    destruct (ak_match _ _ _); [easy|intros [= <-]; right; right; now left].
  - unfold db_add_mfa_token. set (f := fun e => EWith ErrAddMfaToken [AErr e]). destruct (validate_identity E db r) as [[i u]|] eqn:V.
    2:{ intros [= <-]. apply (W f). right. apply in_app_iff. left. eapply identity_err; eauto. }
    unfold add_mfa_token. destruct (new_mfa_token E nd r) as [r' [t|e'|]] eqn:T; [| |easy].
    2:{ intros [= <-]. apply (W f). right. apply in_app_iff. right. eapply token_err; eauto. }
    destruct (dup_token t (u_mfa u)) eqn:D.
    { intros [= <-]. apply dup_token_err in D as (e' & -> & D). apply (W f). right. apply in_app_iff. right.
      unfold e_token. cbv zeta. apply in_app_iff. right. apply in_app_iff. right. apply in_app_iff. left. do 3 right. exact D. }
    intros H. apply finish_err in H as ->. apply (W f). now left.
  - unfold db_get_mfa_tokens. destruct (validate_identity E db r) as [[]|] eqn:V; [easy|]. intros [= <-].
    apply (W (fun e => EWith ErrGetMfaTokens [AErr e])). eapply identity_err; eauto.
  - unfold db_delete_mfa_token, delete_mfa_token. set (f := fun e => EWith ErrDeleteMfaToken [AStr (rm_id (rq_mfa r)); AErr e]).
    destruct (validate_identity E db r) as [[i u]|] eqn:V.
    2:{ intros [= <-]. apply in_app_iff. left. apply (W f). right. eapply identity_err; eauto. }
    destruct (existsb _ _); [|intros [= <-]; apply in_app_iff; right; now left].
    intros H. apply finish_err in H as ->. apply in_app_iff. left. apply (W f). now left.
  - easy.
Qed.

(** ** They are properly worded, but for one *)
Definition unworded : goerr := EWith ErrAuthFailed [AErr (EStd ErrWebAuthnVerifyRequest)].
Lemma proper_wrap t v e : proper e = true -> proper (EWith t [AErr e]) = scan (los t) [fun v => Ascii.eqb v "v" && true] /\
  proper (EWith t [AStr v; AErr e]) = scan (los t) [kind (AStr v); fun v => Ascii.eqb v "v" && true].
Proof. intros P. rewrite !proper_with. cbn [map kind]. rewrite P. split; reflexivity. Qed.
Lemma pubkey_proper E nd r e : new_public_key E nd r = inr e -> proper e = true.
Proof.
  unfold new_public_key. cbv zeta. destruct (parse_pk E nd _) as [p|e'] eqn:P; [discriminate|]. intros [= <-]. revert P.
  unfold parse_pk, parse_rsa, parse_openssh, parse_pgp. repeat case_match; intros [= <-]; reflexivity.
Qed.
Lemma u2f_proper p r e : u2f_register p r = RErr e -> proper e = true.
Proof.
  unfold u2f_register. repeat case_match; try discriminate; intros [= <-]; try reflexivity.
  match goal with H : bad_transport _ = Some _ |- _ => apply bad_transport_err in H as [-> | (t & ->)] end; reflexivity.
Qed.
Lemma Forall_wrap (f : goerr -> goerr) l : (forall e, proper e = true -> proper (f e) = true) -> Forall (fun e => proper e = true) l -> Forall (fun e => proper e = true) (map f l).
Proof. intros Hf H. induction H; cbn; constructor; auto. Qed.
Lemma wrap1 t : scan (los t) [fun v => Ascii.eqb v "v" && true] = true -> forall e, proper e = true -> proper (EWith t [AErr e]) = true.
Proof. intros S e P. now rewrite (proj1 (proper_wrap t "" e P)). Qed.
Lemma wrap2 t v : scan (los t) [kind (AStr v); fun v => Ascii.eqb v "v" && true] = true -> forall e, proper e = true -> proper (EWith t [AStr v; AErr e]) = true.
Proof. intros S e P. now rewrite (proj2 (proper_wrap t v e P)). Qed.
Lemma token_proper E v : Forall (fun e => proper e = true) (e_token E v).
Proof.
  unfold e_token. cbv zeta. repeat (apply List.Forall_app; split); try (repeat constructor; fail).
  unfold e_u2f. repeat case_match; try constructor; auto. eapply u2f_proper; eauto.
Qed.
Lemma possible_proper E op path v : Forall (fun e => e <> unworded -> proper e = true) (possible E op path v).
Proof.
  assert (A : forall l, Forall (fun e => proper e = true) l -> Forall (fun e => e <> unworded -> proper e = true) l).
  { intros l H. eapply List.Forall_impl; [|exact H]. auto. }
  destruct op; cbn [possible]; cbv zeta; try (apply A; repeat constructor; fail).
  - repeat (constructor; [intros N; try reflexivity; now destruct N|]). constructor.
  - apply A. apply List.Forall_app. split; [|repeat constructor]. apply Forall_wrap; [now apply wrap2|]. constructor; [reflexivity|].
    apply List.Forall_app. split; [repeat constructor|]. unfold e_pubkey. destruct (new_public_key E nd0 v) eqn:P; constructor; [|constructor]. eapply pubkey_proper; eauto.
  - apply A. apply Forall_wrap; [now apply wrap1|]. constructor; [reflexivity|]. apply List.Forall_app. split; [repeat constructor|]. apply token_proper.
Qed.
Lemma exec_proper E nd op db fs r e : o_res (exec E nd op db fs r) = OErr e -> e <> unworded -> proper e = true.
Proof. intros H. apply exec_err in H. exact (proj1 (List.Forall_forall _ _) (possible_proper E op (db_path db) (disclosed op r)) e H). Qed.
Lemma possible_few E op path v : (List.length (possible E op path v) <= 18)%nat.
Proof.
  destruct op; cbn [possible]; cbv zeta; try (cbn; lia).
  - rewrite app_length, map_length. cbn [List.length]. rewrite app_length. unfold e_pubkey. destruct (new_public_key _ _ _); cbn; lia.
  - rewrite map_length. cbn [List.length]. rewrite app_length. unfold e_token. cbv zeta. rewrite !app_length, map_length.
    unfold e_u2f. repeat case_match; cbn; lia.
Qed.

(** ** Opening *)
Lemma raw_valid_proper r e : raw_valid r = Some e -> proper e = true.
Proof. unfold raw_valid. repeat case_match; intros [= <-]; reflexivity. Qed.
Lemma load_emails_proper E i l : forall m e, load_emails E i l m = RErr e -> proper e = true.
Proof.
  induction l as [|[a|] l IH]; cbn; intros m e; try discriminate. destruct (m !! _); [intros [= <-]; reflexivity|].
  specialize (IH (<[lower E (em_address a):=i]> m)). destruct (load_emails _ _ _ _) as [[]| |]; try discriminate. intros [= <-]. now apply IH.
Qed.
Lemma load_keys_proper i l : forall m e, load_keys i l m = RErr e -> proper e = true.
Proof.
  induction l as [|[a|] l IH]; cbn; intros m e; try discriminate. destruct (m !! _); [intros [= <-]; reflexivity|].
  specialize (IH (<[ak_prefix a:=i]> m)). destruct (load_keys _ _ _) as [[]| |]; try discriminate. intros [= <-]. now apply IH.
Qed.
Lemma load_user_proper E db r e : load_user E db r = RErr e -> proper e = true.
Proof.
  unfold load_user. cbv zeta. destruct (raw_valid r) eqn:V.
  { intros [= <-]. rewrite proper_with. cbn [map kind]. rewrite (raw_valid_proper _ _ V). reflexivity. }
  destruct (ref_username db !! _); [intros [= <-]; reflexivity|]. destruct (ref_id db !! _); [intros [= <-]; reflexivity|].
  destruct (load_emails _ _ _ _) as [[]| |] eqn:L; [|intros [= <-]; eapply load_emails_proper; eauto|discriminate].
  destruct (load_passwords _); [|discriminate]. destruct (load_keys _ _ _) as [[]| |] eqn:K; try discriminate. intros [= <-]. eapply load_keys_proper; eauto.
Qed.
Lemma load_users_proper E l : forall db e, load_users E db l = LErr e -> proper e = true.
Proof.
  induction l as [|[r|] l IH]; cbn; intros db e; try discriminate. destruct (load_user E db r) eqn:L; try discriminate; [apply IH|].
  intros [= <-]. eapply load_user_proper; eauto.
Qed.
Lemma write_db_proper nd path d fs fs' e : write_db nd path d fs = (fs', CErr e) -> proper e = true.
Proof. unfold write_db. repeat case_match; intros [= _ <-]; reflexivity. Qed.
Lemma open_proper E nd fp fs fs' e : new_database E nd fp fs = (fs', LErr e) -> proper e = true.
Proof.
  unfold new_database, load_bytes. cbv zeta. destruct (nd_stat_err nd); [intros [= _ <-]; reflexivity|].
  destruct (if String.eqb fp "" then None else fs !! fp) as [[b|]|].
  - destruct (read_file _ _ _ _); [|intros [= _ <-]; reflexivity]. destruct (unmarshal _); [|intros [= _ <-]; reflexivity|discriminate].
    destruct (policy_changed _); [|intros [= _ H]; eapply load_users_proper; eauto].
    destruct (write_db _ _ _ _) as [fs1 [|e'|]] eqn:W; [intros [= _ H]; eapply load_users_proper; eauto| |discriminate].
    intros [= _ <-]. apply wrap2; [reflexivity|]. eapply write_db_proper; eauto.
  - intros [= _ <-]. reflexivity.
  - destruct (nd_mkdir_err nd); [intros [= _ <-]; reflexivity|]. destruct (write_db _ _ _ _) as [fs1 [|e'|]] eqn:W; try discriminate.
    intros [= _ <-]. apply wrap2; [reflexivity|]. eapply write_db_proper; eauto.
Qed.

(** ** Direct calls *)
Lemma role_err nd u s e : add_role nd u s = inr e -> e = EStd ErrRoleEmpty.
Proof. intros H. apply (add_roles_err nd [s] u). cbn. now rewrite H. Qed.
Lemma roles_live_err nd l : forall u e, snd (add_roles_live nd u l) = Some e -> e = EStd ErrRoleEmpty.
Proof. induction l as [|s l IH]; cbn; intros u e; [discriminate|]. destruct (add_role nd u s) eqn:R; [apply IH|]. intros [= <-]. eapply role_err; eauto. Qed.
Lemma pw_proper E nd s e : new_password E nd s = inr e -> proper e = true.
Proof. intros H. apply new_password_err in H as [<-|[<-|[]]]; reflexivity. Qed.
Lemma method_proper E nd m u u' e : call_method E nd m u = (u', MErr e) -> e <> EStd ErrWebAuthnVerifyRequest -> proper e = true.
Proof.
  destruct m; cbn [call_method]; try discriminate.
  - unfold add_password. destruct (new_password E nd s) eqn:P; [discriminate|]. intros [= _ <-] _. eapply pw_proper; eauto.
  - unfold add_email. destruct (new_email s) eqn:P; [repeat case_match; discriminate|]. intros [= _ <-] _. apply new_email_err in P as ->. reflexivity.
  - destruct (add_role nd u s) eqn:R; [discriminate|]. intros [= _ <-] _. apply role_err in R as ->. reflexivity.
  - pose proof (roles_live_err nd l u) as R. destruct (add_roles_live nd u l) as [u1 [e1|]]; [|discriminate]. intros [= _ <-] _. rewrite (R _ eq_refl). reflexivity.
  - unfold add_public_key. destruct (new_public_key E nd r) eqn:P.
    + case_match; [|discriminate]. intros [= _ <-] _. reflexivity.
    + intros [= _ <-] _. apply wrap2; [reflexivity|]. eapply pubkey_proper; eauto.
  - unfold delete_public_key. cbv zeta. destruct (existsb _ _); [discriminate|]. intros [= _ <-] _. reflexivity.
  - unfold add_api_key. destruct (new_api_key nd r) eqn:P; [discriminate|]. intros [= _ <-] _. apply wrap2; [reflexivity|].
    apply api_key_err in P. destruct P as [<-|[<-|[<-|[<-|[]]]]]; reflexivity.
  - unfold delete_api_key. cbv zeta. destruct (existsb _ _); [discriminate|]. intros [= _ <-] _. reflexivity.
  - unfold add_mfa_token. destruct (new_mfa_token E nd r) as [r' [t|e'|]] eqn:T; cbn [snd]; [| |discriminate].
    + destruct (dup_token t _) eqn:D; [|discriminate]. intros [= _ <-] _. apply dup_token_err in D as (e' & -> & [<-|[<-|[]]]); reflexivity.
    + intros [= _ <-] _. apply wrap1; [reflexivity|]. apply token_err in T. exact (proj1 (List.Forall_forall _ _) (token_proper _ _) _ T).
  - unfold delete_mfa_token. cbv zeta. destruct (existsb _ _); [discriminate|]. intros [= _ <-] _. reflexivity.
  - unfold change_password. destruct (verify_password _ _ _) eqn:V.
    + intros [= _ <-] _. apply wrap1; [reflexivity|]. apply verify_password_err in V. destruct V as [<-|[<-|[]]]; reflexivity.
    + unfold add_password. destruct (new_password _ _ _) eqn:P; [discriminate|]. intros [= _ <-] _. apply wrap1; [reflexivity|]. eapply pw_proper; eauto.
  - pose proof (verify_webauthn_err E u r) as V. destruct (verify_webauthn E u r) as [u1 [e1|]]; [|discriminate]. intros [= _ <-] N.
    destruct (V _ eq_refl) as [-> | ->]; [reflexivity|congruence].
Qed.
