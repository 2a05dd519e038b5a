(** Facts on isolation of accounts (C100-C102). *)
From Coq Require Import String Ascii ZArith NArith Lia Bool Arith List ZifyBool ZifyN ZifyNat.
From stdpp Require Import gmap strings.
From RecordUpdate Require Import RecordSet.
From Verif Require Import GoStr Utf8 Codec GoErr GoTime Role Name Email Random SpecValue.
From Verif Require Import Types Env Password ApiKey PublicKey Mfa User Json Persist Fs Database System UserFacts DbFacts Inv LoadFacts.
From Verif Require Import SpecDb SpecAuth SpecKey SpecMfa SpecIsolation AccountFacts StepFacts.
Import ListNotations.
Import RecordSetNotations.
Open Scope string_scope.
#[local] Opaque int64 new_id trim_space new_email new_role random_string random_range new_password.

Lemma set_user_at db i u v : db_users db !! i = Some u -> db_users (set_user db i v) !! i = Some v.
Proof. intros H. unfold set_user, db_users in *. cbn. rewrite list_lookup_insert; [reflexivity|]. now apply lookup_lt_Some in H. Qed.
Lemma finish_ok nd db fs r wrap : can_write nd fs (db_path db) (db_content (o_db (finish nd db fs r wrap))) ->
  o_res (finish nd db fs r wrap) = OOk /\ o_req (finish nd db fs r wrap) = r.
Proof.
  unfold finish, commit. destruct (commit_to nd (db_path db) db fs) as [[d f] res] eqn:C. intros H.
  pose proof (commit_to_inv _ _ _ _ _ _ _ C) as [-> _].
  assert (K : can_write nd fs (db_path db) (db_content (db <| db_content ::= bump nd |>))) by (destruct res; exact H).
  apply commit_ok_iff in K as (d2 & f2 & K). rewrite K in C. injection C as _ _ <-. auto.
Qed.
Lemma finish_users nd db fs r wrap : db_users (o_db (finish nd db fs r wrap)) = db_users db.
Proof.
  unfold finish, commit. destruct (commit_to nd (db_path db) db fs) as [[d f] res] eqn:C.
  apply commit_to_inv in C as [-> _]. destruct res; reflexivity.
Qed.
(** Two commits of databases in which an account is the same. *)
Lemma finish_same nd d fs d' fs' r wrap wrap' i j v :
  can_write nd fs (db_path d) (db_content (o_db (finish nd d fs r wrap))) ->
  can_write nd fs' (db_path d') (db_content (o_db (finish nd d' fs' r wrap'))) ->
  account d i v -> account d' j v ->
  same_answer (finish nd d fs r wrap) (finish nd d' fs' r wrap') /\
  exists v, account (o_db (finish nd d fs r wrap)) i v /\ account (o_db (finish nd d' fs' r wrap')) j v.
Proof.
  intros W W' A A'. apply finish_ok in W as [W1 W2], W' as [W1' W2']. split; [split; congruence|].
  exists v. unfold account. rewrite !finish_users. auto.
Qed.
Lemma about_get E fs db op r i u : reachable E fs db -> about E db op r i u ->
  (op = OpAuthenticate \/ op = OpIdentify -> get_user E db (ru_username (rq_user r)) = Some (i, u)) /\
  (op <> OpAuthenticate -> op <> OpIdentify -> validate_identity E db r = inl (i, u)).
Proof.
  intros HR H. split.
  - intros [ -> | -> ]; now apply (get_user_resolves _ _ _ _ _ _ HR).
  - intros N1 N2. apply (validate_iff _ _ _ _ _ _ HR). destruct op; try exact H; contradiction.
Qed.
Lemma get_user_at E db s i u : get_user E db s = Some (i, u) -> db_users db !! i = Some u.
Proof.
  unfold get_user, by_email, by_username, at_ref. intros H.
  destruct (contains s "@").
  all: match type of H with (if ?b then _ else _) = _ => destruct b; [discriminate|] end.
  all: match type of H with match ?m !! ?k with _ => _ end = _ => destruct (m !! k) as [n|]; [|discriminate] end.
  all: destruct (db_users db !! n) eqn:X; [|discriminate]; congruence.
Qed.
Lemma validate_at E db r i u : validate_identity E db r = inl (i, u) -> db_users db !! i = Some u.
Proof.
  intros (A & _)%validate_identity_inv. unfold by_username, at_ref in A.
  match type of A with (if ?b then _ else _) = _ => destruct b; [discriminate|] end.
  destruct (ref_username db !! _) as [n|]; [|discriminate]. destruct (db_users db !! n) eqn:X; [|discriminate]. congruence.
Qed.

Lemma reads_isolated E nd op db fs db' fs' r i j u : reachable E fs db -> reachable E fs' db' -> In op own_reads ->
  about E db op r i u -> about E db' op r j u ->
  same_answer (exec E nd op db fs r) (exec E nd op db' fs' r) /\
  exists v, account (o_db (exec E nd op db fs r)) i v /\ account (o_db (exec E nd op db' fs' r)) j v.
Proof.
  intros HR HR' Ho A A'. destruct (about_get _ _ _ _ _ _ _ HR A) as [G V]. destruct (about_get _ _ _ _ _ _ _ HR' A') as [G' V'].
  unfold own_reads in Ho. cbn [In] in Ho. destruct Ho as [<-|[<-|[<-|[<-|[<-|[<-|[]]]]]]]; cbn [exec].
  - specialize (G (or_introl eq_refl)). specialize (G' (or_introl eq_refl)). pose proof (get_user_at _ _ _ _ _ G) as L. pose proof (get_user_at _ _ _ _ _ G') as L'.
    unfold db_authenticate. cbv zeta. rewrite G, G'.
    destruct (negb (String.eqb (ru_password (rq_user r)) "")).
    + destruct verify_password; (split; [split; reflexivity|exists u; auto]).
    + destruct (negb (String.eqb (rw_request (rq_webauthn r)) "")); [|split; [split; reflexivity|exists u; auto]].
      destruct verify_webauthn as [u' res]. destruct res; (split; [split; reflexivity|]); exists u'; cbn; split; eapply set_user_at; eauto.
  - specialize (G (or_intror eq_refl)). specialize (G' (or_intror eq_refl)). pose proof (get_user_at _ _ _ _ _ G) as L. pose proof (get_user_at _ _ _ _ _ G') as L'.
    unfold db_identify. rewrite G, G'. split; [split; reflexivity|exists u; auto].
  - specialize (V ltac:(discriminate) ltac:(discriminate)). specialize (V' ltac:(discriminate) ltac:(discriminate)).
    pose proof (validate_at _ _ _ _ _ V) as L. pose proof (validate_at _ _ _ _ _ V') as L'.
    unfold db_get_public_keys. rewrite V, V'. split; [split; reflexivity|exists u; auto].
  - specialize (V ltac:(discriminate) ltac:(discriminate)). specialize (V' ltac:(discriminate) ltac:(discriminate)).
    pose proof (validate_at _ _ _ _ _ V) as L. pose proof (validate_at _ _ _ _ _ V') as L'.
    unfold db_get_api_keys. rewrite V, V'. split; [split; reflexivity|exists u; auto].
  - specialize (V ltac:(discriminate) ltac:(discriminate)). specialize (V' ltac:(discriminate) ltac:(discriminate)).
    pose proof (validate_at _ _ _ _ _ V) as L. pose proof (validate_at _ _ _ _ _ V') as L'.
    unfold db_get_mfa_tokens. rewrite V, V'. split; [split; reflexivity|exists u; auto].
  - specialize (V ltac:(discriminate) ltac:(discriminate)). specialize (V' ltac:(discriminate) ltac:(discriminate)).
    pose proof (validate_at _ _ _ _ _ V) as L. pose proof (validate_at _ _ _ _ _ V') as L'.
    unfold db_delete_user. rewrite V, V'. split; [split; reflexivity|exists u; auto].
Qed.

Lemma writes_isolated E nd op db fs db' fs' r i j u : reachable E fs db -> reachable E fs' db' -> In op account_ops -> db_policy db' = db_policy db ->
  identity_of E db r i u -> identity_of E db' r j u ->
  let o := exec E nd op db fs r in let o' := exec E nd op db' fs' r in
  o_res o <> OHang -> o_res o' <> OHang ->
  can_write nd fs (db_path db) (db_content (o_db o)) -> can_write nd fs' (db_path db') (db_content (o_db o')) ->
  same_answer o o' /\ exists v, account (o_db o) i v /\ account (o_db o') j v.
Proof.
  intros HR HR' Ho HP A A'. apply (validate_iff _ _ _ _ _ _ HR) in A as V. apply (validate_iff _ _ _ _ _ _ HR') in A' as V'.
  pose proof (validate_at _ _ _ _ _ V) as L. pose proof (validate_at _ _ _ _ _ V') as L'.
  assert (K : forall d d' v r wrap wrap', db_path d = db_path db -> db_path d' = db_path db' -> account d i v -> account d' j v ->
    can_write nd fs (db_path db) (db_content (o_db (finish nd d fs r wrap))) ->
    can_write nd fs' (db_path db') (db_content (o_db (finish nd d' fs' r wrap'))) ->
    same_answer (finish nd d fs r wrap) (finish nd d' fs' r wrap') /\
    exists v, account (o_db (finish nd d fs r wrap)) i v /\ account (o_db (finish nd d' fs' r wrap')) j v).
  { intros d d' v r0 w w' P P' B B' W W'. rewrite <- P in W. rewrite <- P' in W'. eapply finish_same; eauto. }
  assert (SU : forall v, account (set_user db i v) i v) by (intros; eapply set_user_at; eauto).
  assert (SU' : forall v, account (set_user db' j v) j v) by (intros; eapply set_user_at; eauto).
  unfold account_ops in Ho. cbn [In] in Ho. destruct Ho as [<-|[<-|[<-|[<-|[<-|[<-|[<-|[]]]]]]]]; cbn [exec]; cbv zeta.
  - unfold db_add_public_key. rewrite V, V'. destruct add_public_key as [v|e]; [|intros; split; [split; reflexivity|exists u; auto]].
    intros _ _. apply (K _ _ v); auto; first [exact (SU v) | exact (SU' v)].
  - unfold db_delete_public_key. rewrite V, V'. destruct delete_public_key as [v|e]; [|intros; split; [split; reflexivity|exists u; auto]].
    intros _ _. apply (K _ _ v); auto; first [exact (SU v) | exact (SU' v)].
  - unfold db_add_api_key. rewrite V, V'. destruct random_range as [s|]; [|intros; split; [split; reflexivity|exists u; auto]].
    destruct new_password as [hk|]; [|intros; split; [split; reflexivity|exists u; auto]]. cbv zeta.
    destruct (ref_apikey db !! take 24 s); [intros H; now destruct H|]. destruct (ref_apikey db' !! take 24 s); [intros _ H; now destruct H|].
    destruct add_api_key as [v|e]; [|intros; split; [split; reflexivity|exists u; auto]].
    intros _ _. apply (K _ _ v); auto; first [exact (SU v) | exact (SU' v)].
  - unfold db_delete_api_key. rewrite V, V'. destruct delete_api_key as [[v|e] r']; [|intros; split; [split; reflexivity|exists u; auto]].
    intros _ _. apply (K _ _ v); auto; first [exact (SU v) | exact (SU' v)].
  - unfold db_change_password. rewrite V, V', HP. destruct (negb (password_policy_ok _ _)); [intros; split; [split; reflexivity|exists u; auto]|].
    destruct change_password as [v|e]; [|intros; split; [split; reflexivity|exists u; auto]].
    intros _ _. apply (K _ _ v); auto; first [exact (SU v) | exact (SU' v)].
  - unfold db_add_mfa_token. rewrite V, V'. destruct add_mfa_token as [r' [v|e|]]; try (intros; split; [split; reflexivity|exists u; auto]; fail).
    intros _ _. apply (K _ _ v); auto; first [exact (SU v) | exact (SU' v)].
  - unfold db_delete_mfa_token. rewrite V, V'. destruct delete_mfa_token as [v|e]; [|intros; split; [split; reflexivity|exists u; auto]].
    intros _ _. apply (K _ _ v); auto; first [exact (SU v) | exact (SU' v)].
Qed.
Lemma nobody_isolated E nd op db fs db' fs' r : reachable E fs db -> reachable E fs' db' -> In op [OpAuthenticate; OpIdentify] ->
  (forall i u, ~ about E db op r i u) -> (forall i u, ~ about E db' op r i u) -> same_answer (exec E nd op db fs r) (exec E nd op db' fs' r).
Proof.
  intros HR HR' Ho N N'.
  assert (G : get_user E db (ru_username (rq_user r)) = None).
  { destruct get_user as [[i u]|] eqn:G; [|reflexivity]. apply (get_user_resolves _ _ _ _ _ _ HR) in G. destruct (N i u). destruct Ho as [<-|[<-|[]]]; exact G. }
  assert (G' : get_user E db' (ru_username (rq_user r)) = None).
  { destruct (get_user E db' _) as [[i u]|] eqn:G'; [|reflexivity]. apply (get_user_resolves _ _ _ _ _ _ HR') in G'. destruct (N' i u). destruct Ho as [<-|[<-|[]]]; exact G'. }
  destruct Ho as [<-|[<-|[]]]; cbn [exec].
  - unfold db_authenticate. cbv zeta. rewrite G, G'. split; reflexivity.
  - unfold db_identify. rewrite G, G'. split; reflexivity.
Qed.
Lemma lookup_isolated E nd db fs db' fs' r i j u k : reachable E fs db -> reachable E fs' db' ->
  account db i u -> account db' j u -> In k (u_apikeys u) -> prefix24 (ak_prefix k) (rk_payload (rq_key r)) ->
  same_answer (exec E nd OpLookupAPIKey db fs r) (exec E nd OpLookupAPIKey db' fs' r).
Proof.
  intros HR HR' A A' Hk [L (w & Hs)]. apply inv_reachable in HR, HR'. cbn [exec]. unfold db_lookup_api_key. cbv zeta.
  destruct String.eqb; [split; reflexivity|]. destruct Z.ltb; [split; reflexivity|].
  assert (T : take 24 (rk_payload (rq_key r)) = ak_prefix k). { rewrite Hs. unfold take. rewrite los_app, firstn_app. rewrite <- length_los in L. rewrite L, Nat.sub_diag, firstn_O, app_nil_r, <- L, firstn_all. apply sol_los. }
  rewrite T. rewrite (inv_key _ _ HR _ _ _ A Hk), (inv_key _ _ HR' _ _ _ A' Hk). unfold at_ref. unfold account in A, A'. rewrite A, A'.
  destruct lookup_api_key; split; reflexivity.
Qed.

(** ** Status (C101) *)
Lemma status_claims u v : same_but_status u v -> mail_claim v = mail_claim u /\ name_claim v = name_claim u.
Proof.
  intros H. split; [|unfold name_claim; now rewrite (ss_name _ _ H)]. pose proof (ss_emails _ _ H) as S. unfold mail_claim.
  assert (F : forall l, find em_is_primary l = None) by (induction l; auto). rewrite !F.
  destruct (u_emails u), (u_emails v); cbn in S; congruence.
Qed.
Lemma get_flags_mfa u v r : u_mfa v = u_mfa u -> get_flags v r = get_flags u r.
Proof. unfold get_flags. now intros ->. Qed.
Lemma status_ignored E nd op db fs db' fs' r i j u v : reachable E fs db -> reachable E fs' db' -> In op [OpAuthenticate; OpIdentify] ->
  about E db op r i u -> about E db' op r j v -> same_but_status u v ->
  same_answer (exec E nd op db fs r) (exec E nd op db' fs' r).
Proof.
  intros HR HR' Ho A A' S. destruct (status_claims _ _ S) as [M N]. destruct S as [S1 S2 S3 S4 S5 S6 S7 S8].
  destruct (about_get _ _ _ _ _ _ _ HR A) as [G _]. destruct (about_get _ _ _ _ _ _ _ HR' A') as [G' _].
  destruct Ho as [<-|[<-|[]]]; cbn [exec].
  - specialize (G (or_introl eq_refl)). specialize (G' (or_introl eq_refl)). unfold db_authenticate. cbv zeta. rewrite G, G'.
    destruct (negb (String.eqb (ru_password (rq_user r)) "")).
    + assert (verify_password E v (ru_password (rq_user r)) = verify_password E u (ru_password (rq_user r))) as -> by (unfold verify_password; now rewrite S6).
      destruct verify_password; split; reflexivity.
    + destruct (negb (String.eqb (rw_request (rq_webauthn r)) "")); [|split; reflexivity].
      assert (snd (verify_webauthn E v r) = snd (verify_webauthn E u r)) as W.
      { unfold verify_webauthn. destruct unpack_request; [|reflexivity]. rewrite S8. now destruct verify_tokens. }
      destruct (verify_webauthn E v r) as [v' res'], (verify_webauthn E u r) as [u' res]. cbn in W. subst res'. destruct res; split; reflexivity.
  - specialize (G (or_intror eq_refl)). specialize (G' (or_intror eq_refl)). unfold db_identify. rewrite G, G', M, N, (get_flags_mfa u v r S8), S2, S5.
    unfold challenges. rewrite S8. split; reflexivity.
Qed.
Lemma lookup_status E nd db fs db' fs' r i j u v k : reachable E fs db -> reachable E fs' db' ->
  account db i u -> account db' j v -> same_but_status u v -> In k (u_apikeys u) -> prefix24 (ak_prefix k) (rk_payload (rq_key r)) ->
  same_answer (exec E nd OpLookupAPIKey db fs r) (exec E nd OpLookupAPIKey db' fs' r).
Proof.
  intros HR HR' A A' S Hk [L (w & Hs)]. destruct (status_claims _ _ S) as [M _]. pose proof (ss_apikeys _ _ S) as K. pose proof (ss_username _ _ S) as U.
  apply inv_reachable in HR, HR'. cbn [exec]. unfold db_lookup_api_key. cbv zeta.
  destruct String.eqb; [split; reflexivity|]. destruct Z.ltb; [split; reflexivity|].
  assert (T : take 24 (rk_payload (rq_key r)) = ak_prefix k).
  { rewrite Hs. unfold take. rewrite los_app, firstn_app. rewrite <- length_los in L. rewrite L, Nat.sub_diag, firstn_O, app_nil_r, <- L, firstn_all. apply sol_los. }
  assert (Hk' : In k (u_apikeys v)) by (now rewrite K).
  rewrite T. rewrite (inv_key _ _ HR _ _ _ A Hk), (inv_key _ _ HR' _ _ _ A' Hk'). unfold at_ref. unfold account in A, A'. rewrite A, A'.
  unfold lookup_api_key. rewrite K, M, U. destruct find as [k0|]; [|split; reflexivity]. destruct ak_match; split; reflexivity.
Qed.
Lemma ustep_frame E nd db r i u op v : ustep E nd db r i u op v -> frame u v.
Proof.
  intros [op0|u' res _ V|op0 u' _ Up|s hk u' _ _ _ _ A|u' r' _ D].
  - apply frame_refl.
  - pose proof (verify_webauthn_uncache E u r) as W. rewrite V in W. destruct W as (l & W & _). cbn in W. rewrite W. repeat split.
  - now apply upd_frame in Up as [? _].
  - eapply add_api_key_frame; eauto.
  - eapply delete_api_key_frame; eauto.
Qed.
(** Calls that only read give the same accounts, apart from caches. *)
Lemma reads_keep E fs db fs' db' : steps E (fun _ ev => match ev with EvCall _ op _ => In op read_ops | _ => False end)
    {| w_fs := fs; w_mem := Up db |} {| w_fs := fs'; w_mem := Up db' |} ->
  ref_username db' = ref_username db /\ ref_email db' = ref_email db /\ map no_cache (db_users db') = map no_cache (db_users db).
Proof.
  intros S. match type of S with steps _ ?P _ _ => assert (G : forall w w', steps E P w w' -> forall fs db, w = {| w_fs := fs; w_mem := Up db |} ->
    match w_mem w' with Up d | Stuck d => ref_username d = ref_username db /\ ref_email d = ref_email db /\ map no_cache (db_users d) = map no_cache (db_users db) | Down => True end) end.
  { clear. intros w w' S. induction S as [w|w1 ev w2 w3 S IH Hev St]; intros fs0 db0 ->; [cbn; auto|]. specialize (IH _ _ eq_refl).
    destruct St as [nd fp fs m fs' res O N|nd op r fs db|fs m|fs m fs']; cbn in Hev; try contradiction. cbn [w_mem w_fs] in *. destruct IH as (I1 & I2 & I3).
    destruct (read_op E nd op db fs r Hev) as (_ & _ & R1 & R2 & _ & _ & _ & _ & _ & R3 & _). unfold after_call.
    destruct o_res; cbn; auto; (split; [congruence|split; congruence]). }
  exact (G _ _ S _ _ eq_refl).
Qed.
Lemma at_ref_kept db db' x : map no_cache (db_users db') = map no_cache (db_users db) ->
  match at_ref db x, at_ref db' x with
  | None, None => True
  | Some (i, u), Some (j, v) => i = j /\ no_cache v = no_cache u
  | _, _ => False
  end.
Proof.
  intros H. unfold at_ref. destruct x as [i|]; [|exact I]. apply (f_equal (fun l => l !! i)) in H.
  change (map no_cache) with (fmap no_cache : list User -> list User) in H. rewrite !list_lookup_fmap in H.
  destruct (db_users db !! i), (db_users db' !! i); cbn in H; try discriminate; [|exact I]. split; [reflexivity|congruence].
Qed.
Lemma attempts_ignored E nd fs db fs' db' r : steps E (fun _ ev => match ev with EvCall _ op _ => In op read_ops | _ => False end)
    {| w_fs := fs; w_mem := Up db |} {| w_fs := fs'; w_mem := Up db' |} -> ru_password (rq_user r) <> "" ->
  same_answer (exec E nd OpAuthenticate db fs r) (exec E nd OpAuthenticate db' fs' r).
Proof.
  intros (R1 & R2 & R3)%reads_keep Hp. cbn [exec]. unfold db_authenticate. cbv zeta. apply String.eqb_neq in Hp. rewrite Hp. cbn [negb].
  assert (G : match get_user E db (ru_username (rq_user r)), get_user E db' (ru_username (rq_user r)) with
    | None, None => True | Some (i, u), Some (j, v) => i = j /\ no_cache v = no_cache u | _, _ => False end).
  { unfold get_user, by_email, by_username. rewrite R1, R2. destruct contains; destruct Z.ltb; try exact I; now apply at_ref_kept. }
  destruct (get_user E db _) as [[i u]|], (get_user E db' _) as [[j v]|]; try contradiction; [|split; reflexivity].
  destruct G as [_ G]. apply (f_equal u_passwords) in G. cbn in G. unfold verify_password. rewrite G.
  match goal with |- context [match ?x with Some _ => _ | None => _ end] => destruct x end; split; reflexivity.
Qed.
(** An account has the status it had before the call, or it is new and has none. *)
Definition status_kept (u v : User) : Prop := u_enabled v = u_enabled u /\ u_lockout v = u_lockout u /\ u_human v = u_human u /\ u_emails v = u_emails u.
Definition no_status (v : User) : Prop := u_enabled v = false /\ u_lockout v = None /\ u_human v = false /\ forall e, In e (u_emails v) -> em_confirmed e = false.
Lemma status_step E nd op db fs r i v : account (o_db (exec E nd op db fs r)) i v ->
  (exists u, account db i u /\ status_kept u v) \/ no_status v.
Proof.
  intros [(u & Hu & S)|(_ & _ & N)]%exec_ustep.
  - left. exists u. split; [exact Hu|]. apply ustep_frame in S. unfold frame in S. unfold status_kept. tauto.
  - right. destruct (na_rest _ _ _ _ N) as (_ & _ & _ & _ & L & _ & En & Hm). split; [exact En|]. split; [exact L|]. split; [exact Hm|].
    destruct (na_email _ _ _ _ N) as (e & _ & -> & _ & C). intros e' [<-|[]]. exact C.
Qed.
Lemma status_later E fs db fs' db' : later E fs db fs' db' -> forall i v, account db' i v ->
  (exists u, account db i u /\ status_kept u v) \/ no_status v.
Proof.
  apply (later_ind_db E (fun d d' => forall i v, account d' i v -> (exists u, account d i u /\ status_kept u v) \/ no_status v)).
  - intros d i v H. left. exists v. split; [exact H|]. repeat split.
  - intros nd op d0 d fs0 r IH i v [(u & Hu & (K1 & K2 & K3 & K4))|N]%status_step; [|now right].
    destruct (IH _ _ Hu) as [(u0 & Hu0 & (L1 & L2 & L3 & L4))|(N1 & N2 & N3 & N4)]; [left; exists u0|right].
    + split; [exact Hu0|]. unfold status_kept. repeat split; congruence.
    + unfold no_status. rewrite K1, K2, K3, K4. auto.
Qed.
