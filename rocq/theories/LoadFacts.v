(** Opening a database establishes the invariant. *)
From Coq Require Import String Ascii ZArith NArith Lia Bool Arith List.
From stdpp Require Import gmap strings.
From RecordUpdate Require Import RecordSet.
From Verif Require Import GoStr GoErr Role Name Email Random SpecValue RoleFacts EmailFacts RandomFacts.
From Verif Require Import Types Env Password ApiKey PublicKey Mfa User Json Persist Fs Database System UserFacts DbFacts Inv.
Import ListNotations.
Import RecordSetNotations.
Open Scope string_scope.

Definition ids_unique (db : Database) : Prop :=
  forall i j u v, db_users db !! i = Some u -> db_users db !! j = Some v -> u_id u = u_id v -> i = j.
Definition keys_exact (db : Database) : Prop :=
  forall s i, ref_apikey db !! s = Some i -> exists u k, db_users db !! i = Some u /\ In k (u_apikeys u) /\ ak_prefix k = s.

Lemma load_emails_ok E i l m es m' : load_emails E i l m = ROk (es, m') ->
  l = map Some es /\ NoDup (map (fun e => lower E (em_address e)) es) /\
  Forall (fun a => m !! a = None) (map (fun e => lower E (em_address e)) es) /\
  m' = fold_left (fun m a => <[a := i]> m) (map (fun e => lower E (em_address e)) es) m.
Proof.
  revert m es m'. induction l as [|[e|] l IH]; intros m es m'; cbn [load_emails].
  - intros [=<- <-]. repeat split; constructor.
  - cbv zeta. destruct (m !! _) eqn:X; [discriminate|]. destruct load_emails as [[es' m'']| |] eqn:L; try discriminate.
    intros [=<- <-]. apply IH in L as (-> & N & F & ->). cbn. repeat split.
    + apply NoDup_cons. split; [|assumption]. intros H. apply elem_of_list_In in H. rewrite List.Forall_forall in F.
      apply F in H. rewrite lookup_insert in H. discriminate.
    + constructor; [assumption|]. apply List.Forall_forall. intros a H. rewrite List.Forall_forall in F. pose proof (F _ H) as G.
      destruct (decide (lower E (em_address e) = a)) as [<-|Ne]; [assumption|]. now rewrite lookup_insert_ne in G.
  - discriminate.
Qed.
Lemma load_keys_ok i l m ks m' : load_keys i l m = ROk (ks, m') ->
  l = map Some ks /\ NoDup (map ak_prefix ks) /\ Forall (fun a => m !! a = None) (map ak_prefix ks) /\
  m' = fold_left (fun m a => <[a := i]> m) (map ak_prefix ks) m.
Proof.
  revert m ks m'. induction l as [|[e|] l IH]; intros m ks m'; cbn [load_keys].
  - intros [=<- <-]. repeat split; constructor.
  - destruct (m !! _) eqn:X; [discriminate|]. destruct load_keys as [[ks' m'']| |] eqn:L; try discriminate.
    intros [=<- <-]. apply IH in L as (-> & N & F & ->). cbn. repeat split.
    + apply NoDup_cons. split; [|assumption]. intros H. apply elem_of_list_In in H. rewrite List.Forall_forall in F.
      apply F in H. rewrite lookup_insert in H. discriminate.
    + constructor; [assumption|]. apply List.Forall_forall. intros a H. rewrite List.Forall_forall in F. pose proof (F _ H) as G.
      destruct (decide (ak_prefix e = a)) as [<-|Ne]; [assumption|]. now rewrite lookup_insert_ne in G.
  - discriminate.
Qed.
Definition fix_algo (p : Password) : Password := if String.eqb (pw_algorithm p) "" then p <| pw_algorithm := "bcrypt" |> else p.
Lemma load_passwords_ok l ps : load_passwords l = Some ps <-> exists qs, l = map Some qs /\ ps = map fix_algo qs.
Proof.
  revert ps. induction l as [|[p|] l IH]; intros ps; cbn [load_passwords].
  - split; [intros [=<-]; exists []; auto|]. intros ([|q qs] & H & ->); [reflexivity|discriminate].
  - destruct load_passwords as [t|] eqn:L.
    + split.
      * intros [=<-]. destruct (IH t) as [H _]. destruct (H eq_refl) as (qs & -> & ->). exists (p :: qs). auto.
      * intros ([|q qs] & H & ->); [discriminate|]. injection H as -> ->.
        destruct (IH (map fix_algo qs)) as [_ H]. specialize (H ltac:(eauto)). injection H as ->. reflexivity.
    + split; [discriminate|]. intros ([|q qs] & H & ->); [discriminate|]. injection H as -> ->.
      destruct (IH (map fix_algo qs)) as [_ H]. specialize (H ltac:(eauto)). discriminate.
  - split; [discriminate|]. intros ([|q qs] & H & ->); discriminate.
Qed.

(** The account that [load_user] appends. *)
Definition loaded_user (r : RawUser) (es : list EmailAddress) (ps : list Password) (ks : list APIKey) : User :=
  raw_user r <| u_emails := es |> <| u_passwords := ps |> <| u_apikeys := ks |>.
Definition with_loaded (E : Env) (db : Database) (u : User) : Database :=
  with_account E db u (addrs_of E u)
    <| ref_apikey ::= fun m => fold_left (fun m a => <[a := List.length (db_users db)]> m) (map ak_prefix (u_apikeys u)) m |>.
Lemma raw_valid_None r : raw_valid r = None <->
  String.length (u_id (raw_user r)) = 36%nat /\ u_username (raw_user r) <> "" /\ raw_passwords r <> [].
Proof.
  unfold raw_valid, zlen. cbv zeta. destruct (Z.eqb _ 36) eqn:L; cbn [negb].
  - apply Z.eqb_eq in L. destruct (String.eqb _ "") eqn:U.
    + apply String.eqb_eq in U. split; [discriminate|]. tauto.
    + apply String.eqb_neq in U. destruct (raw_passwords r); split; try discriminate; try tauto.
      intros _. repeat split; auto. lia.
  - apply Z.eqb_neq in L. split; [discriminate|]. lia.
Qed.
Lemma load_user_ok E db r db' : load_user E db r = ROk db' ->
  exists es ps ks, let u := loaded_user r es (map fix_algo ps) ks in
    raw_emails r = map Some es /\ raw_passwords r = map Some ps /\ raw_keys r = map Some ks /\
    db' = with_loaded E db u /\
    String.length (u_id u) = 36%nat /\ u_username u <> "" /\ u_passwords u <> [] /\
    ref_username db !! lower E (u_username u) = None /\ ref_id db !! u_id u = None /\
    NoDup (addrs_of E u) /\ Forall (fun a => ref_email db !! a = None) (addrs_of E u) /\
    NoDup (map ak_prefix ks) /\ Forall (fun a => ref_apikey db !! a = None) (map ak_prefix ks).
Proof.
  unfold load_user. cbv zeta. destruct raw_valid eqn:V; [discriminate|]. apply raw_valid_None in V as (V1 & V2 & V3).
  destruct (ref_username db !! _) eqn:U; [discriminate|]. destruct (ref_id db !! _) eqn:I; [discriminate|].
  destruct load_emails as [[es me]| |] eqn:LE; try discriminate. apply load_emails_ok in LE as (LE & NE & FE & ->).
  destruct load_passwords as [ps|] eqn:LP; [|discriminate]. apply load_passwords_ok in LP as (qs & LP & ->).
  destruct load_keys as [[ks mk]| |] eqn:LK; try discriminate. apply load_keys_ok in LK as (LK & NK & FK & ->).
  intros [=<-]. exists es, qs, ks. repeat split; auto.
  intros H. apply V3. rewrite LP. destruct qs; [reflexivity|discriminate].
Qed.

Lemma inv_load_user E db r db' : Inv E db -> ids_unique db -> keys_exact db -> load_user E db r = ROk db' ->
  Inv E db' /\ ids_unique db' /\ keys_exact db'.
Proof.
  intros HI HU HK H. apply load_user_ok in H as (es & ps & ks & H). set (u := loaded_user r es (map fix_algo ps) ks) in *. cbv zeta in H.
  destruct H as (_ & _ & _ & -> & Vid & Vun & Vpw & U & I & NE & FE & NK & FK).
  assert (L : forall j v, (db_users db ++ [u])%list !! j = Some v ->
            (j = List.length (db_users db) /\ v = u) \/ (db_users db !! j = Some v /\ j <> List.length (db_users db))).
  { intros j v H. apply lookup_app_Some in H as [H|[H1 H2]].
    - right. split; [assumption|]. apply lookup_lt_Some in H. lia.
    - left. destruct (j - List.length (db_users db))%nat eqn:X; [|discriminate]. split; [lia|]. now injection H2. }
  assert (L1 : (db_users db ++ [u])%list !! List.length (db_users db) = Some u) by (now apply list_lookup_middle).
  assert (HI' : Inv E (with_account E db (u <| u_apikeys := [] |>) (addrs_of E u))) by (apply inv_with_account; auto).
  assert (Ku : u_apikeys u = ks) by reflexivity.
  assert (LA : forall j v, (db_users db ++ [u <| u_apikeys := [] |>])%list !! j = Some v -> db_users db !! j = Some v \/ (j = List.length (db_users db) /\ v = u <| u_apikeys := [] |>)).
  { intros j v H. apply lookup_app_Some in H as [H|[H1 H2]]; [auto|].
    right. destruct (j - List.length (db_users db))%nat eqn:X; [|discriminate]. split; [lia|]. now injection H2. }
  assert (LB : (db_users db ++ [u <| u_apikeys := [] |>])%list !! List.length (db_users db) = Some (u <| u_apikeys := [] |>)) by (now apply list_lookup_middle).
  assert (LC : forall j v, db_users db !! j = Some v -> (db_users db ++ [u <| u_apikeys := [] |>])%list !! j = Some v) by (intros; now apply lookup_app_l_Some).
  assert (LD : forall j v, db_users db !! j = Some v -> (db_users db ++ [u])%list !! j = Some v) by (intros; now apply lookup_app_l_Some).
  split; [|split].
  - destruct HI' as [inv_name0 inv_email0 inv_email_nodup0 inv_id_dom0 inv_id_cod0 inv_key0 inv_key_dom0 inv_key_nodup0 inv_valid0 inv_policy0]. split; unfold with_loaded, with_account, db_users in *; cbn in *.
    + intros s j. rewrite inv_name0. split; intros (v & Hv & Hs).
      * apply LA in Hv as [Hv|[-> ->]]; eauto.
      * apply L in Hv as [[-> ->]|[Hv _]]; eauto.
    + intros s j. rewrite inv_email0. split; intros (v & Hv & Hs).
      * apply LA in Hv as [Hv|[-> ->]]; eauto.
      * apply L in Hv as [[-> ->]|[Hv _]]; eauto.
    + intros j v Hv. apply L in Hv as [[-> ->]|[Hv _]]; [assumption|]. eauto using inv_email_nodup.
    + intros s j Hs. apply inv_id_dom0 in Hs as (v & Hv & Hs). apply LA in Hv as [Hv|[-> ->]]; eauto.
    + intros j v Hv. apply L in Hv as [[-> ->]|[Hv _]]; eauto.
      exact (inv_id_cod0 _ _ LB).
    + intros j v k Hv Hk. rewrite insert_all_lookup. apply L in Hv as [[-> ->]|[Hv _]].
      * destruct in_dec as [_|N]; [reflexivity|]. exfalso. apply N, in_map, Hk.
      * pose proof (inv_key _ _ HI _ _ _ Hv Hk) as G. destruct in_dec as [Y|_]; [|assumption].
        rewrite List.Forall_forall in FK. apply FK in Y. congruence.
    + intros s j. rewrite insert_all_lookup. destruct in_dec; [intros [=<-]; eauto|].
      intros [v Hv]%(inv_key_dom _ _ HI). eauto.
    + intros j v Hv. apply L in Hv as [[-> ->]|[Hv _]]; [assumption|]. eauto using inv_key_nodup.
    + intros j v Hv. apply L in Hv as [[-> ->]|[Hv _]]; [auto|]. eauto using inv_valid.
    + assumption.
  - assert (forall k x, c_users (db_content db) !! k = Some x -> u_id x <> u_id u) as Nu.
    { intros k x Hx Ex. destruct (inv_id_cod _ _ HI _ _ Hx) as [y Hy]. rewrite Ex in Hy. congruence. }
    clearbody u. unfold ids_unique, with_loaded, with_account, db_users in *; cbn in *. intros i j v w Hv Hw Eid.
    apply L in Hv as [[-> ->]|[Hv Nv]]; apply L in Hw as [[-> ->]|[Hw Nw]]; eauto.
    + exfalso. eapply Nu; eauto.
    + exfalso. eapply Nu; eauto.
  - clearbody u. unfold keys_exact, with_loaded, with_account, db_users in *; cbn in *. intros s i. rewrite insert_all_lookup.
    destruct in_dec as [Y|N].
    + intros [=<-]. apply in_map_iff in Y as (k & Ek & Hk). exists u, k. auto.
    + intros Hs. apply HK in Hs as (v & k & Hv & Hk & Ek). exists v, k. auto.
Qed.

Lemma inv_load_users E db l db' : Inv E db -> ids_unique db -> keys_exact db -> load_users E db l = Loaded db' ->
  Inv E db' /\ ids_unique db' /\ keys_exact db'.
Proof.
  revert db. induction l as [|[r|] l IH]; intros db HI HU HK; cbn [load_users].
  - intros [=<-]. auto.
  - destruct load_user as [d|e|] eqn:L; try discriminate. destruct (inv_load_user _ _ _ _ HI HU HK L) as (? & ? & ?). eauto.
  - discriminate.
Qed.
Lemma policy_enforced p : policy_changed (enforce_policy p) = false.
Proof.
  destruct p as [[a b c d e f g h i] [j k l m]]. unfold policy_changed, enforce_policy, dflt. cbn.
  repeat (match goal with |- context[(if (?x =? 0)%Z then _ else _)] => destruct (Z.eqb_spec x 0); cbn end);
  rewrite ?orb_false_iff, ?Z.eqb_neq; repeat split; try lia; try assumption; reflexivity.
Qed.
Lemma inv_empty E fp c : policy_changed (rc_policy c) = false ->
  Inv E (empty_db fp c) /\ ids_unique (empty_db fp c) /\ keys_exact (empty_db fp c).
Proof.
  intros P. split; [|split].
  - split; unfold db_users; cbn.
    all: try (intros; rewrite ?lookup_empty in *; try discriminate; try (rewrite lookup_nil in *; discriminate)).
    + split; [discriminate|]. intros (? & H & _). discriminate.
    + split; [discriminate|]. intros (? & H & _). discriminate.
    + assumption.
  - intros i j u v H. discriminate.
  - intros s i H. cbn in H. discriminate.
Qed.
Lemma inv_load_empty E fp c l db : policy_changed (rc_policy c) = false -> load_users E (empty_db fp c) l = Loaded db ->
  Inv E db /\ ids_unique db /\ keys_exact db.
Proof. intros P H. destruct (inv_empty E fp c P) as (? & ? & ?). eauto using inv_load_users. Qed.
Lemma inv_open E nd fp fs fs' db : new_database E nd fp fs = (fs', Loaded db) -> Inv E db /\ ids_unique db /\ keys_exact db.
Proof.
  unfold new_database. destruct nd_stat_err; [discriminate|].
  destruct (if String.eqb fp "" then None else fs !! fp) as [[b|]|].
  - destruct read_file as [b'|]; [|discriminate]. unfold load_bytes. destruct unmarshal as [c| |]; try discriminate.
    destruct policy_changed eqn:P.
    + cbv zeta. destruct write_db as [fs2 []]; try discriminate. intros [= <- H].
      eapply inv_load_empty, H. apply policy_enforced.
    + intros [= <- H]. eapply inv_load_empty, H. assumption.
  - discriminate.
  - destruct nd_mkdir_err; [discriminate|]. cbv zeta. destruct write_db as [fs2 []]; try discriminate.
    intros [= <- <-]. apply inv_empty. reflexivity.
Qed.

(** ** Calls that do not commit *)
Definition uncache (t : MfaToken) : MfaToken := t <| t_cache := None |>.
(** The cache holds nothing or the key given by the parameters. *)
Definition cache_ok (t : MfaToken) : Prop := forall k, t_cache t = Some k -> derive_key (t_params t) = Some k.
Lemma webauthn_request_cache E t s :
  fst (webauthn_request E t s) = t \/
  exists k, fst (webauthn_request E t s) = t <| t_cache := Some k |> /\
            (t_cache t = Some k \/ t_cache t = None /\ derive_key (t_params t) = Some k).
Proof.
  unfold webauthn_request. destruct negb; [auto|]. destruct (t_params t !! "u2f_id") as [uid|]; [|auto].
  destruct (t_params t !! "key_type") as [kt|]; [|auto]. destruct negb; [auto|].
  destruct (t_cache t) as [k|]; [right; exists k; split; auto|].
  destruct (derive_key (t_params t)) as [k|]; [|auto]. right. exists k. split; auto.
Qed.
Definition same_uncached (u u' : User) : Prop :=
  exists l, u' = u <| u_mfa := l |> /\ Forall2 (fun t t' => uncache t = uncache t' /\ (cache_ok t -> cache_ok t')) (u_mfa u) l.
Lemma uncache_set t k : uncache (t <| t_cache := k |>) = uncache t.
Proof. reflexivity. Qed.
Lemma webauthn_request_uncache E t s :
  uncache t = uncache (fst (webauthn_request E t s)) /\ (cache_ok t -> cache_ok (fst (webauthn_request E t s))).
Proof.
  destruct (webauthn_request_cache E t s) as [->|(k & -> & H)]; [auto|]. split; [reflexivity|].
  intros C k' Hk'. cbn in *. injection Hk' as <-. destruct H as [H|[_ H]]; auto.
Qed.
Lemma verify_tokens_uncache E r id l :
  Forall2 (fun t t' => uncache t = uncache t' /\ (cache_ok t -> cache_ok t')) l (fst (verify_tokens E r id l)).
Proof.
  induction l as [|t l IH]; cbn [verify_tokens]; [constructor|].
  destruct (_ && _).
  - pose proof (webauthn_request_uncache E t (rw_request (rq_webauthn r))) as W. destruct webauthn_request as [t' res]. cbn.
    constructor; [exact W|]. clear. induction l; constructor; auto.
  - destruct (verify_tokens E r id l) as [l' res]. cbn in *. constructor; auto.
Qed.
Lemma user_set_mfa_id u : u = u <| u_mfa := u_mfa u |>.
Proof. destruct u; reflexivity. Qed.
Lemma Forall2_same l : Forall2 (fun t t' => uncache t = uncache t' /\ (cache_ok t -> cache_ok t')) l l.
Proof. induction l; constructor; auto. Qed.
Lemma verify_webauthn_uncache E u r : same_uncached u (fst (verify_webauthn E u r)).
Proof.
  unfold verify_webauthn. destruct unpack_request as [q|e].
  - pose proof (verify_tokens_uncache E r (wq_id q) (u_mfa u)) as H. destruct verify_tokens as [l res]. cbn in *. exists l. auto.
  - exists (u_mfa u). split; [apply user_set_mfa_id|apply Forall2_same].
Qed.
Lemma same_uncached_frame u u' : same_uncached u u' ->
  frame u u' /\ u_passwords u' = u_passwords u /\ u_apikeys u' = u_apikeys u /\ u_pubkeys u' = u_pubkeys u /\
  u_revision u' = u_revision u /\ u_modified u' = u_modified u /\ map uncache (u_mfa u') = map uncache (u_mfa u).
Proof.
  intros (l & -> & H). repeat split. cbn [u_mfa set]. change (map uncache l = map uncache (u_mfa u)). induction H as [|t t' ? ? [Ht _] H IH]; cbn [map]; congruence.
Qed.

Lemma inv_recached E db r op db' : Inv E db -> recached E db r op db' -> Inv E db'.
Proof.
  intros HI H. destruct H as [|i u u' res G _ V]; [assumption|].
  pose proof (get_user_at _ _ _ _ _ G) as Hi.
  pose proof (verify_webauthn_uncache E u r) as W. rewrite V in W. cbn in W.
  apply same_uncached_frame in W as (F & Pw & K & _).
  rewrite <- set_user_key_id. eapply inv_set_user; eauto.
  - rewrite Pw. now destruct (inv_valid _ _ HI _ _ Hi) as (_ & _ & ?).
  - rewrite K. eauto using inv_key_nodup.
  - intros k. rewrite K. eauto using inv_key.
Qed.

(** ** Every event *)
Lemma inv_exec E nd op db fs r : Inv E db -> Inv E (o_db (exec E nd op db fs r)).
Proof.
  intros HI. destruct (exec_shape E nd op db fs r) as [_ R _ _|db1 res Eff C _].
  - eauto using inv_recached.
  - apply commit_to_inv in C as [-> _]. eauto using inv_bump, inv_effect.
Qed.
Definition mem_inv (E : Env) (m : Mem) : Prop := match m with Down => True | Up db | Stuck db => Inv E db end.
Lemma inv_step E w ev w' : mem_inv E (w_mem w) -> step E w ev w' -> mem_inv E (w_mem w').
Proof.
  intros H S. destruct S; cbn in *; auto.
  - destruct res; cbn; auto. now apply inv_open in H0 as [? _].
  - unfold after_call. pose proof (inv_exec E nd op db fs r H). destruct o_res; cbn; auto.
Qed.
Lemma inv_steps E P w w' : mem_inv E (w_mem w) -> steps E P w w' -> mem_inv E (w_mem w').
Proof. intros H S. induction S; eauto using inv_step. Qed.
Lemma inv_reachable_by E P fs db : reachable_by E P fs db -> Inv E db.
Proof. intros (fs0 & S). apply inv_steps in S; exact S || exact I. Qed.
Lemma inv_reachable E fs db : reachable E fs db -> Inv E db.
Proof. apply inv_reachable_by. Qed.
