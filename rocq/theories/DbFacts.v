(** The shape of every API call, and the consistency invariant of the database. *)
From Coq Require Import String Ascii ZArith NArith Lia Bool Arith List.
From stdpp Require Import gmap strings.
From RecordUpdate Require Import RecordSet.
From Verif Require Import GoStr GoErr Role Name Email Random Types Env Password ApiKey PublicKey Mfa User Json Persist Fs Database System.
Import ListNotations.
Import RecordSetNotations.
Open Scope string_scope.

(** ** Users *)
(** The operations that change an existing account, other than API key operations. *)
Inductive upd (E : Env) (nd : Nd) (pol : Policy) (r : Request) (u : User) : Op -> User -> Prop :=
| UpdAddPk u' : add_public_key E nd u r = inl u' -> upd E nd pol r u OpAddPublicKey u'
| UpdDelPk u' : delete_public_key nd u r = inl u' -> upd E nd pol r u OpDeletePublicKey u'
| UpdPw u' : password_policy_ok pol (ru_password (rq_user r)) = true ->
             change_password E nd u r (pp_keep (po_password pol)) = inl u' -> upd E nd pol r u OpChangePassword u'
| UpdAddMfa r' u' : add_mfa_token E nd u r = (r', ROk u') -> upd E nd pol r u OpAddMfaToken u'
| UpdDelMfa u' : delete_mfa_token nd u r = inl u' -> upd E nd pol r u OpDeleteMfaToken u'.

(** Everything but credentials, revision and modification time is kept. *)
Definition frame (u u' : User) : Prop :=
  u_id u' = u_id u /\ u_enabled u' = u_enabled u /\ u_human u' = u_human u /\ u_username u' = u_username u /\
  u_title u' = u_title u /\ u_name u' = u_name u /\ u_org u' = u_org u /\ u_names u' = u_names u /\
  u_orgs u' = u_orgs u /\ u_addrs u' = u_addrs u /\ u_email u' = u_email u /\ u_emails u' = u_emails u /\
  u_lockout u' = u_lockout u /\ u_avatar u' = u_avatar u /\ u_created u' = u_created u /\ u_roles u' = u_roles u.
Lemma frame_refl u : frame u u.
Proof. repeat split. Qed.
Lemma frame_trans u v w : frame u v -> frame v w -> frame u w.
Proof. unfold frame. intros H1 H2. decompose [and] H1. decompose [and] H2. repeat split; congruence. Qed.

Lemma add_public_key_inv E nd u r u' : add_public_key E nd u r = inl u' ->
  exists k, new_public_key E nd r = inl k /\
    existsb (fun x => String.eqb (pk_type x) (pk_type k) && String.eqb (pk_fp x) (pk_fp k)) (u_pubkeys u) = false /\
    u' = revise nd (u <| u_pubkeys := (u_pubkeys u ++ [k])%list |>).
Proof.
  unfold add_public_key. destruct (new_public_key E nd r) as [k|e]; [|discriminate].
  destruct existsb eqn:X; [discriminate|]. intros [=<-]. eauto.
Qed.
Lemma delete_public_key_inv nd u r u' : delete_public_key nd u r = inl u' ->
  existsb (fun k => String.eqb (pk_id k) (rk_id (rq_key r))) (u_pubkeys u) = true /\
  u' = revise nd (u <| u_pubkeys := List.filter (fun k => negb (String.eqb (pk_id k) (rk_id (rq_key r)))) (u_pubkeys u) |>).
Proof. unfold delete_public_key. cbv zeta. destruct existsb eqn:X; [|discriminate]. intros [=<-]. eauto. Qed.
Lemma add_password_inv E nd u s keep u' : add_password E nd u s keep = inl u' ->
  exists p, new_password E nd s = inl p /\
    u' = revise nd (u <| u_passwords := p :: keep_passwords nd (if (keep <? 1)%Z then 9%Z else keep) 0 (u_passwords u) |>).
Proof. unfold add_password. destruct new_password as [p|e]; [|discriminate]. intros [=<-]. eauto. Qed.
Lemma change_password_inv E nd u r keep u' : change_password E nd u r keep = inl u' ->
  verify_password E u (ru_old_password (rq_user r)) = None /\
  add_password E nd u (ru_password (rq_user r)) keep = inl u'.
Proof.
  unfold change_password. destruct verify_password; [discriminate|]. destruct add_password; [|discriminate].
  intros [=<-]. eauto.
Qed.
Lemma add_mfa_token_inv E nd u r r' u' : add_mfa_token E nd u r = (r', ROk u') ->
  exists t, new_mfa_token E nd r = (r', ROk t) /\ dup_token t (u_mfa u) = None /\
    u' = revise nd (u <| u_mfa := (u_mfa u ++ [t])%list |>).
Proof.
  unfold add_mfa_token. destruct new_mfa_token as [q [t|e|]]; try discriminate. destruct dup_token eqn:X; [discriminate|].
  intros [=<- <-]. eauto.
Qed.
Lemma delete_mfa_token_inv nd u r u' : delete_mfa_token nd u r = inl u' ->
  existsb (fun k => String.eqb (t_id k) (rm_id (rq_mfa r))) (u_mfa u) = true /\
  u' = revise nd (u <| u_mfa := List.filter (fun k => negb (String.eqb (t_id k) (rm_id (rq_mfa r)))) (u_mfa u) |>).
Proof. unfold delete_mfa_token. cbv zeta. destruct existsb eqn:X; [|discriminate]. intros [=<-]. eauto. Qed.
Lemma add_api_key_inv nd u r u' : add_api_key nd u r = inl u' ->
  exists k, new_api_key nd r = inl k /\ u' = revise nd (u <| u_apikeys := (u_apikeys u ++ [k])%list |>).
Proof. unfold add_api_key. destruct new_api_key; [|discriminate]. intros [=<-]. eauto. Qed.
Lemma delete_api_key_inv nd u r u' r' : delete_api_key nd u r = (inl u', r') ->
  existsb (fun k => String.eqb (ak_id k) (rk_id (rq_key r))) (u_apikeys u) = true /\
  u' = revise nd (u <| u_apikeys := List.filter (fun k => negb (String.eqb (ak_id k) (rk_id (rq_key r)))) (u_apikeys u) |>) /\
  r' = r <| rq_key; rk_prefix := last_prefix (rk_id (rq_key r)) (u_apikeys u) (rk_prefix (rq_key r)) |>.
Proof. unfold delete_api_key. cbv zeta. destruct existsb eqn:X; [|discriminate]. intros [=<- <-]. eauto. Qed.

Lemma upd_frame E nd pol r u op u' : upd E nd pol r u op u' -> frame u u' /\ u_apikeys u' = u_apikeys u.
Proof.
  intros []; split.
  all: repeat match goal with
    | H : add_public_key _ _ _ _ = inl _ |- _ => apply add_public_key_inv in H as (? & ? & ? & ->)
    | H : delete_public_key _ _ _ = inl _ |- _ => apply delete_public_key_inv in H as (? & ->)
    | H : change_password _ _ _ _ _ = inl _ |- _ => apply change_password_inv in H as (? & H)
    | H : add_password _ _ _ _ _ = inl _ |- _ => apply add_password_inv in H as (? & ? & ->)
    | H : add_mfa_token _ _ _ _ = (_, ROk _) |- _ => apply add_mfa_token_inv in H as (? & ? & ? & ->)
    | H : delete_mfa_token _ _ _ = inl _ |- _ => apply delete_mfa_token_inv in H as (? & ->)
    end.
  all: try reflexivity.
  all: repeat split.
Qed.
Lemma add_api_key_frame nd u r u' : add_api_key nd u r = inl u' -> frame u u'.
Proof. intros (k & _ & ->)%add_api_key_inv. repeat split. Qed.
Lemma delete_api_key_frame nd u r u' r' : delete_api_key nd u r = (inl u', r') -> frame u u'.
Proof. intros (_ & -> & _)%delete_api_key_inv. repeat split. Qed.

(** ** Calls *)
Definition with_account (E : Env) (db : Database) (u : User) (addrs : list string) : Database :=
  let i := List.length (db_users db) in
  db <| ref_username ::= <[lower E (u_username u) := i]> |> <| ref_id ::= <[u_id u := i]> |>
     <| ref_email ::= fun m => fold_left (fun m a => <[a := i]> m) addrs m |>
     <| db_content; c_users ::= fun l => (l ++ [u])%list |>.
Definition issued (r : Request) (s h : string) : Request :=
  r <| rq_payload := PStr s |> <| rq_key; rk_payload := h |> <| rq_key; rk_prefix := take 24 s |>.

(** What a call has done to memory when it reaches the commit. *)
Inductive effect (E : Env) (nd : Nd) (db : Database) (r : Request) : Op -> Database -> Prop :=
| EffSave : effect E nd db r OpSave db
| EffCopy fp : effect E nd db r (OpCopy fp) db
| EffUser u0 addrs u :
    check_policy (db_policy db) (ru_username (rq_user r)) (ru_password (rq_user r)) = None ->
    new_user_with_roles E nd (ru_username (rq_user r)) (ru_password (rq_user r)) (ru_email (rq_user r)) (ru_full_name (rq_user r)) (ru_roles (rq_user r)) = inl u0 ->
    u = u0 <| u_id := pick_id db nd 1 10 (u_id u0) |> ->
    ref_username db !! lower E (u_username u) = None ->
    new_addresses E db (u_emails u) = inl addrs ->
    effect E nd db r OpAddUser (with_account E db u addrs)
| EffUpd op i u u' :
    validate_identity E db r = inl (i, u) -> upd E nd (db_policy db) r u op u' ->
    effect E nd db r op (set_user db i u')
| EffAddKey i u s hk u' :
    validate_identity E db r = inl (i, u) ->
    random_range 72 96 (nd_len nd) (nd_secret nd) = Some s ->
    new_password E nd s = inl hk ->
    ref_apikey db !! take 24 s = None ->
    add_api_key nd u (issued r s (pw_hash hk)) = inl u' ->
    effect E nd db r OpAddAPIKey (set_user db i u' <| ref_apikey ::= <[take 24 s := i]> |>)
| EffDelKey i u u' r' :
    validate_identity E db r = inl (i, u) ->
    delete_api_key nd u r = (inl u', r') ->
    effect E nd db r OpDeleteAPIKey (set_user db i u' <| ref_apikey ::= delete (rk_prefix (rq_key r')) |>).

(** The memory after a call that did not commit: unchanged except for the key cache filled during
    WebAuthn authentication. *)
Inductive recached (E : Env) (db : Database) (r : Request) : Op -> Database -> Prop :=
| RcSame op : recached E db r op db
| RcAuth i u u' res :
    get_user E db (ru_username (rq_user r)) = Some (i, u) ->
    ru_password (rq_user r) = "" ->
    verify_webauthn E u r = (u', res) ->
    recached E db r OpAuthenticate (set_user db i u').

Definition target (op : Op) (db : Database) : string := match op with OpCopy fp => fp | _ => db_path db end.
Definition commit_outcome (res : CommitRes) (o : Outcome) : Prop :=
  match res with COk => o = OOk | CErr _ => exists e, o = OErr e | CCrash => o = OCrash end.

(** The calls that end in a commit when they succeed. *)
Definition commits (op : Op) : bool :=
  match op with
  | OpGetUsers | OpGetUser | OpDeleteUser | OpAuthenticate | OpGetPublicKeys | OpGetAPIKeys | OpIdentify | OpLookupAPIKey
  | OpGetMfaTokens | OpUserCount => false
  | _ => true
  end.
Inductive shape (E : Env) (nd : Nd) (op : Op) (db : Database) (fs : FS) (r : Request) (o : Out) : Prop :=
| ShNo : o_fs o = fs -> recached E db r op (o_db o) -> o_res o <> OCrash -> (commits op = true -> o_res o <> OOk) -> shape E nd op db fs r o
| ShCommit db1 res : effect E nd db r op db1 -> commit_to nd (target op db) db1 fs = (o_db o, o_fs o, res) ->
    commit_outcome res (o_res o) -> shape E nd op db fs r o.

Lemma finish_shape E nd op db db1 fs r r' wrap :
  effect E nd db r op db1 -> db_path db1 = db_path db -> (forall fp, op <> OpCopy fp) ->
  shape E nd op db fs r (finish nd db1 fs r' wrap).
Proof.
  intros H Hp Hop. unfold finish, commit. destruct (commit_to nd (db_path db1) db1 fs) as [[d2 fs2] res] eqn:C.
  assert (target op db = db_path db1) as T. { rewrite Hp. destruct op; try reflexivity. now destruct (Hop fp). }
  rewrite <- T in C. destruct res; eapply ShCommit; try exact H; try exact C; cbn; eauto.
Qed.

Ltac no := apply ShNo; cbn; [reflexivity|constructor|discriminate|discriminate].
Lemma exec_shape E nd op db fs r : shape E nd op db fs r (exec E nd op db fs r).
Proof.
  destruct op; cbn [exec].
  - unfold db_add_user. cbv zeta.
    destruct check_policy eqn:P; [no|].
    destruct new_user_with_roles as [u0|e] eqn:N; [|no].
    set (u := u0 <| u_id := _ |>).
    destruct (ref_username db !! _) eqn:U; [no|].
    destruct new_addresses as [addrs|a] eqn:A; [|no].
    apply finish_shape; [|reflexivity|discriminate].
    eapply EffUser with (u := u) (addrs := addrs); eauto.
  - unfold db_get_users. destruct validate_identity; no.
  - unfold db_get_user. destruct validate_identity as [[]|]; no.
  - unfold db_delete_user. destruct validate_identity; no.
  - unfold db_authenticate. cbv zeta. destruct get_user as [[i u]|] eqn:G; [|no].
    destruct (String.eqb (ru_password (rq_user r)) "") eqn:PW; cbn [negb].
    2: destruct verify_password; no.
    destruct (negb _); [|no]. destruct verify_webauthn as [u' res] eqn:V.
    apply String.eqb_eq in PW.
    destruct res; apply ShNo; cbn; try reflexivity; try discriminate; eapply RcAuth; eauto.
  - unfold db_save. apply finish_shape; [constructor|reflexivity|discriminate].
  - unfold db_copy. destruct commit_to as [[d2 fs2] res] eqn:C.
    destruct res; eapply ShCommit; try exact C; try (constructor; fail); cbn; eauto.
  - unfold db_add_public_key. destruct validate_identity as [[i u]|] eqn:V; [|no]. destruct add_public_key eqn:X; [|no].
    apply finish_shape; [|reflexivity|discriminate]. eapply EffUpd; [eassumption|]. eapply UpdAddPk; eauto.
  - unfold db_get_public_keys. destruct validate_identity as [[]|]; no.
  - unfold db_delete_public_key. destruct validate_identity as [[i u]|] eqn:V; [|no]. destruct delete_public_key eqn:X; [|no].
    apply finish_shape; [|reflexivity|discriminate]. eapply EffUpd; [eassumption|]. eapply UpdDelPk; eauto.
  - unfold db_add_api_key. destruct validate_identity as [[i u]|] eqn:V; [|no]. destruct random_range as [s|] eqn:R; [|no].
    destruct new_password as [hk|] eqn:H; [|no]. cbv zeta. destruct (ref_apikey db !! take 24 s) eqn:K; [no|].
    destruct add_api_key eqn:X; [|no].
    apply finish_shape; [|reflexivity|discriminate]. eapply EffAddKey; eauto.
  - unfold db_delete_api_key. destruct validate_identity as [[i u]|] eqn:V; [|no]. destruct delete_api_key as [[u'|] r'] eqn:X; [|no].
    apply finish_shape; [|reflexivity|discriminate]. eapply EffDelKey; eauto.
  - unfold db_get_api_keys. destruct validate_identity as [[]|]; no.
  - unfold db_change_password. destruct validate_identity as [[i u]|] eqn:V; [|no]. destruct password_policy_ok eqn:P; cbn [negb]; [|no].
    destruct change_password eqn:X; [|no].
    apply finish_shape; [|reflexivity|discriminate]. eapply EffUpd; [eassumption|]. eapply UpdPw; eauto.
  - unfold db_identify. destruct get_user as [[]|]; no.
  - unfold db_lookup_api_key. cbv zeta. destruct String.eqb; [no|]. destruct Z.ltb; [no|]. destruct at_ref as [[]|]; [|no].
    destruct lookup_api_key; no.
  - unfold db_add_mfa_token. destruct validate_identity as [[i u]|] eqn:V; [|no]. destruct add_mfa_token as [r' []] eqn:X; try no.
    apply finish_shape; [|reflexivity|discriminate]. eapply EffUpd; [eassumption|]. eapply UpdAddMfa; eauto.
  - unfold db_get_mfa_tokens. destruct validate_identity as [[]|]; no.
  - unfold db_delete_mfa_token. destruct validate_identity as [[i u]|] eqn:V; [|no]. destruct delete_mfa_token eqn:X; [|no].
    apply finish_shape; [|reflexivity|discriminate]. eapply EffUpd; [eassumption|]. eapply UpdDelMfa; eauto.
  - no.
Qed.

Lemma commit_to_inv nd path db fs db' fs' res : commit_to nd path db fs = (db', fs', res) ->
  db' = db <| db_content ::= bump nd |> /\
  write_db nd path (marshal (bump nd (db_content db))) fs = (fs', res).
Proof. unfold commit_to. cbv zeta. destruct write_db as [f s] eqn:W. intros [=<- <- <-]. auto. Qed.

Lemma effect_commits E nd db r op db1 : effect E nd db r op db1 -> commits op = true.
Proof. intros []; try reflexivity. now destruct H0. Qed.
(** A call whose effect is possible commits it. *)
Lemma effect_exec E nd db fs r op db1 : effect E nd db r op db1 ->
  exists res, commit_to nd (target op db) db1 fs = (o_db (exec E nd op db fs r), o_fs (exec E nd op db fs r), res) /\
              commit_outcome res (o_res (exec E nd op db fs r)).
Proof.
  assert (F : forall d r' w, db_path d = db_path db -> exists res,
    commit_to nd (db_path db) d fs = (o_db (finish nd d fs r' w), o_fs (finish nd d fs r' w), res) /\ commit_outcome res (o_res (finish nd d fs r' w))).
  { intros d r' w Hd. unfold finish, commit. rewrite Hd. destruct commit_to as [[d2 fs2] []]; eexists; (split; [reflexivity|cbn; eauto]). }
  intros [| |u0 addrs u P N U Hu Ha|op' i u u' V [u1 H|u1 H|u1 Hp H|q u1 H|u1 H]|i u s hk u' V R H K A|i u u' r' V H]; cbn [exec target].
  - now apply F.
  - unfold db_copy. destruct commit_to as [[d2 fs2] []]; eexists; (split; [reflexivity|cbn; eauto]).
  - unfold db_add_user. cbv zeta. rewrite P, N. rewrite U in Hu, Ha. rewrite Hu, Ha. rewrite U. now apply F.
  - unfold db_add_public_key. rewrite V, H. now apply F.
  - unfold db_delete_public_key. rewrite V, H. now apply F.
  - unfold db_change_password. rewrite V, Hp. cbn [negb]. rewrite H. now apply F.
  - unfold db_add_mfa_token. rewrite V, H. now apply F.
  - unfold db_delete_mfa_token. rewrite V, H. now apply F.
  - unfold db_add_api_key. rewrite V, R, H. cbv zeta. rewrite K. unfold issued in A. rewrite A. now apply F.
  - unfold db_delete_api_key. rewrite V, H. now apply F.
Qed.
