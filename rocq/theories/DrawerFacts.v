(** Proofs about the passwords kept (C128). *)
From Coq Require Import String Ascii ZArith NArith Lia Bool Arith List.
From stdpp Require Import gmap strings.
From RecordUpdate Require Import RecordSet.
From Verif Require Import GoStr Utf8 GoErr GoTime Role Name Email Random SpecValue RandomFacts.
From Verif Require Import Types Env Password ApiKey PublicKey Mfa User Json Persist Fs Database System UserFacts DbFacts Inv LoadFacts.
From Verif Require Import SpecDb SpecKey SpecCrypto SpecAuth SpecMfa SpecPersist SpecDefect SpecOutage SpecLedger SpecDrawer CryptoFacts AccountFacts StepFacts.
From Verif Require Import PublicKeyFacts PersistFacts StoredFacts ReloadFacts OpenFacts LiveFacts ApiKeyFacts LedgerFacts TookFacts ShelfFacts PasswordFacts FileFacts.
Import ListNotations.
Import RecordSetNotations.
Open Scope string_scope.
#[local] Opaque int64 new_id trim_space new_email new_role.

Record fits (E : Env) (e : Drawer) (u : User) : Prop := {
  ft_name : u_username u = dw_name e;
  ft_kept : versions E None (firstn 13 (dw_phrases e)) (u_passwords u) }.
Lemma fits_insert E l us i u v (f : Drawer -> Drawer) r :
  Forall2 (fits E) l us -> us !! i = Some u -> same_ci E (u_username u) (ru_username (rq_user r)) ->
  (forall j w, us !! j = Some w -> same_ci E (u_username w) (u_username u) -> j = i) ->
  (forall e, fits E e u -> fits E (f e) v) ->
  Forall2 (fits E) (on_drawer E r f l) (<[i := v]> us).
Proof.
  intros F Hi Sc U G. apply Forall2_lookup. intros j. unfold on_drawer. rewrite list_lookup_fmap. destruct (decide (j = i)) as [->|Nj].
  - rewrite list_lookup_insert by (eapply lookup_lt_Some; exact Hi). destruct (Forall2_lookup_r _ _ _ _ _ F Hi) as (e & He & M). rewrite He. cbn. constructor.
    unfold same_ci in Sc. rewrite <- (ft_name _ _ _ M), Sc, String.eqb_refl. auto.
  - rewrite list_lookup_insert_ne by congruence. destruct (us !! j) as [w|] eqn:Hj.
    + destruct (Forall2_lookup_r _ _ _ _ _ F Hj) as (e & He & M). rewrite He. cbn. constructor.
      destruct (String.eqb_spec (lower E (dw_name e)) (lower E (ru_username (rq_user r)))) as [X|X]; [|exact M].
      exfalso. apply Nj. apply (U j w Hj). unfold same_ci in *. rewrite (ft_name _ _ _ M). congruence.
    + assert (Hl : l !! j = None) by (apply lookup_ge_None; apply lookup_ge_None in Hj; rewrite (Forall2_length _ _ _ F); exact Hj). rewrite Hl. constructor.
Qed.
Lemma fits_update E l us i u v : Forall2 (fits E) l us -> us !! i = Some u -> (forall e, fits E e u -> fits E e v) -> Forall2 (fits E) l (<[i := v]> us).
Proof.
  intros F. revert i. induction F as [|e w l us M F IH]; intros i Hi G; [discriminate|]. destruct i as [|i]; cbn.
  - injection Hi as ->. constructor; auto.
  - constructor; auto.
Qed.
Lemma fits_same E e u v : fits E e u -> u_username v = u_username u -> u_passwords v = u_passwords u -> fits E e v.
Proof. intros [A B] H1 H2. constructor; rewrite ?H1, ?H2; assumption. Qed.
(** ** Versions *)
Lemma versions_firstn E n t l ps : versions E t l ps -> versions E t (firstn n l) (firstn n ps).
Proof. intros V. revert n. induction V as [t|t x p l ps H V IH]; intros n; destruct n; cbn; constructor; auto. Qed.
Lemma versions_over E nd t l ps : versions E (Some t) l ps -> map (fun p => if pw_disabled p then p else pw_disable nd p) ps = ps.
Proof.
  intros V. remember (Some t) as o eqn:Ho. revert t Ho. induction V as [o|o x p l ps H V IH]; intros t ->; [reflexivity|]. cbn [map].
  destruct H as [_ _ _ _ (D & _)]. rewrite D. f_equal. exact (IH _ eq_refl).
Qed.
Lemma versions_retire E nd l ps : versions E None l ps -> versions E (Some (nd_clock nd)) l (map (fun p => if pw_disabled p then p else pw_disable nd p) ps).
Proof.
  intros V. inversion V as [|? x p l' ps' H V']; subst; [constructor|]. cbn [map]. rewrite (versions_over _ _ _ _ _ V'). constructor; [|exact V'].
  destruct H as [A B C D (F & _)]. rewrite F. constructor; try assumption. cbn. auto.
Qed.
Lemma versions_next E nd l ps p x : versions E None (firstn 13 l) ps -> version E None x p -> ph_nd x = nd ->
  versions E None (firstn 13 (x :: l)) (p :: map (fun p => if pw_disabled p then p else pw_disable nd p) (firstn 12 ps)).
Proof.
  intros V H <-. cbn [firstn]. constructor; [exact H|]. apply versions_retire. change 12%nat with (Nat.min 12 13) at 1. rewrite <- firstn_firstn. exact (versions_firstn _ 12 _ _ _ V).
Qed.
Lemma versions_algorithm E t l ps : versions E t l ps -> map (fun p => if String.eqb (pw_algorithm p) "" then set pw_algorithm (fun _ => "bcrypt") p else p) ps = ps.
Proof. intros V. induction V as [t|t x p l ps H V IH]; [reflexivity|]. cbn [map]. rewrite IH. destruct H as [_ _ (_ & A & _) _ _]. rewrite A. reflexivity. Qed.
Lemma new_version E nd s p : new_password E nd s = inl p -> version E None {| ph_nd := nd; ph_text := s |} p.
Proof. intros (h & T & B & ->)%new_password_iff. constructor; cbn; auto. Qed.
(** ** Calls *)
Lemma lay_in_other E nd op r o l : own op = false \/ took o = false \/ ~ In op [OpAddUser; OpChangePassword] -> lay_in E nd op r o l = l.
Proof. intros H. unfold lay_in. destruct (took o); [|reflexivity]. destruct op; try reflexivity; exfalso; destruct H as [H|[H|H]]; try discriminate; apply H; cbn; tauto. Qed.
Lemma call_fits E nd op db fs r l : reachable E fs db -> pp_keep (po_password (db_policy db)) = 10%Z -> let o := exec E nd op db fs r in
  o_res o <> OCrash -> Forall2 (fits E) l (db_users db) -> Forall2 (fits E) (lay_in E nd op r o l) (db_users (o_db o)).
Proof.
  intros HR Kp o Nc F. destruct (took_shape E nd op db fs r Nc) as [(Ow & T & db1 & res & Eff & C)|(Q & Rc)]; [fold o in T, C|fold o in Q, Rc].
  2:{ rewrite lay_in_other by tauto. destruct Rc as [Rc|Rc]; [|now rewrite Rc]. destruct Rc as [|i u u' res G _ V]; [exact F|]. pose proof (Inv.get_user_at _ _ _ _ _ G) as Hi.
      pose proof (verify_webauthn_uncache E u r) as X. rewrite V in X. cbn in X. apply same_uncached_frame in X as (Fr & Pw & _).
      apply frame_mails in Fr as (A & B). rewrite set_user_users. apply (fits_update E l _ i u u' F Hi). intros e M. eapply fits_same; eauto. }
  pose proof (commit_to_inv _ _ _ _ _ _ _ C) as [Hd _]. clear C. rewrite Hd, commit_users.
  assert (UN : forall i u, db_users db !! i = Some u -> forall j w, db_users db !! j = Some w -> same_ci E (u_username w) (u_username u) -> j = i).
  { intros i u Hi j w Hj S. exact (username_unique E fs db j i w u HR Hj Hi S). }
  destruct Eff as [|fp|u0 addrs u CP NU Hu RU NA|op i u u' V Up|i u s hk u' V Dr Pw Fp A|i u u' r' V D].
  - discriminate Ow.
  - discriminate Ow.
  - unfold lay_in. rewrite T. change (db_users (with_account E db u addrs)) with (db_users db ++ [u])%list. apply Forall2_app; [exact F|]. constructor; [|constructor].
    apply new_user_iff in NU as (p & e & rs & n & P & _ & _ & _ & _ & ->). subst u. constructor; cbn [dw_name dw_phrases]; [reflexivity|].
    change (versions E None [{| ph_nd := nd; ph_text := ru_password (rq_user r) |}] [p]). constructor; [exact (new_version _ _ _ _ P)|constructor].
  - pose proof (Inv.validate_at _ _ _ _ _ V) as Hi. pose proof V as V'. apply (validate_iff _ fs) in V' as ((_ & _ & Sn) & _); [|assumption].
    rewrite set_user_users. destruct (upd_frame _ _ _ _ _ _ _ Up) as [Fr Ka]. apply frame_mails in Fr as (Fa & Fb).
    inversion Up as [? H|? H|? P H|q ? H|? H]; subst.
    1, 2, 4, 5: rewrite lay_in_other by (right; right; cbn; intuition discriminate); apply (fits_update E l _ i u u' F Hi); intros e M; eapply fits_same; eauto.
    + apply add_public_key_inv in H as (? & ? & ? & ->). reflexivity.
    + apply delete_public_key_inv in H as (? & ->). reflexivity.
    + apply add_mfa_token_inv in H as (t & Ht & _ & ->). reflexivity.
    + apply delete_mfa_token_inv in H as (_ & ->). reflexivity.
    + unfold lay_in. rewrite T. apply (fits_insert E l _ i u u' _ r F Hi Sn (UN i u Hi)). intros e [A B].
      apply change_password_inv in H as [_ H]. apply add_password_inv in H as (p & Hp & Hu').
      constructor; cbn [with_phrase dw_name dw_phrases]; [congruence|].
      assert (Hw : u_passwords u' = p :: keep_passwords nd (kept_versions (db_policy db)) 0 (u_passwords u)) by (rewrite Hu'; reflexivity).
      rewrite Hw, keep_spec. unfold kept_versions. rewrite Kp. cbn [Z.ltb Z.compare]. change (Z.to_nat (10 + 2)) with 12%nat.
      apply versions_next; [exact B|exact (new_version _ _ _ _ Hp)|reflexivity].
  - pose proof (Inv.validate_at _ _ _ _ _ V) as Hi. rewrite lay_in_other by (right; right; cbn; intuition discriminate).
    change (db_users (set_user db i u' <| ref_apikey ::= <[take 24 s := i]> |>)) with (<[i := u']> (db_users db)). apply (fits_update E l _ i u u' F Hi). intros e M.
    apply add_api_key_inv in A as (k & Hk & ->). eapply fits_same; eauto.
  - pose proof (Inv.validate_at _ _ _ _ _ V) as Hi. rewrite lay_in_other by (right; right; cbn; intuition discriminate).
    change (db_users (set_user db i u' <| ref_apikey ::= delete (rk_prefix (rq_key r')) |>)) with (<[i := u']> (db_users db)). apply (fits_update E l _ i u u' F Hi). intros e M.
    apply delete_api_key_inv in D as (_ & -> & _). eapply fits_same; eauto.
Qed.
Lemma put_reachable E fs db l : put_away E fs db l -> reachable E fs db.
Proof. exact (traced_reachable E _ _ fs db l). Qed.
Lemma put_fits E fs db l : register_typed E -> put_away E fs db l -> Forall2 (fits E) l (db_users db) /\ pp_keep (po_password (db_policy db)) = 10%Z.
Proof.
  intros RT R. induction R as [nd fp fs fs' db A O|nd op r fs db l R IH o Nh Nc|fs fs' db l R IH|nd fp fs0 fs fs' db db' l R IH D P U O].
  - assert (X : (if String.eqb fp "" then None else fs !! fp) = None).
    { destruct (String.eqb_spec fp ""); [reflexivity|]. destruct A; [contradiction|assumption]. }
    destruct (open_policy _ _ _ _ _ _ O) as [_ G]. rewrite X in G. split; [|exact (proj1 (pf_keep _ _ G) eq_refl)].
    unfold new_database in O. destruct nd_stat_err; [discriminate|].
    rewrite X in O. destruct nd_mkdir_err; [discriminate|]. cbv zeta in O. destruct write_db as [fs2 []]; try discriminate. injection O as <- <-. constructor.
  - destruct IH as [I1 I2]. split; [exact (call_fits E nd op db fs r l (put_reachable _ _ _ _ R) I2 Nc I1)|]. unfold o. now rewrite exec_policy.
  - exact IH.
  - destruct IH as [I1 I2]. split.
    + destruct (restart_users E nd db fp fs fs' db' _ _ RT (put_reachable _ _ _ _ R) D P U O) as (us & F & ->). clear - I1 F.
      revert us F. induction I1 as [|e u l us0 M IH1 IH2]; intros us F; inversion F as [|? v ? us' (H1 & _ & H3 & _) F']; subst; constructor; [|auto].
      apply (fits_same E e u); [exact M|exact H1|]. change (map (fun p => if String.eqb (pw_algorithm p) "" then set pw_algorithm (fun _ => "bcrypt") p else p) (u_passwords v) = u_passwords u).
      rewrite H3. exact (versions_algorithm _ _ _ _ (ft_kept _ _ _ M)).
    + destruct D as (s & Hm & Hf). apply ReopenFacts.plain_prefix in P as (Ne & T). destruct (open_policy _ _ _ _ _ _ O) as [_ G]. rewrite Hf in G. apply String.eqb_neq in Ne. rewrite Ne in G.
      destruct G as (b & c & Rd & Um & G). assert (b = s) as ->. { unfold read_file, expand in Rd. rewrite T, Hf in Rd. destruct nd_read_err; congruence. }
      rewrite (unmarshal_marshal _ _ (policy_typed_content E _ fs0 db RT (put_reachable _ _ _ _ R)) Hm), (keep_content _ U) in Um. injection Um as <-.
      pose proof (pf_keep _ _ G) as [_ K]. change (rc_policy (to_raw (drop_caches (db_content db)))) with (db_policy db) in K. rewrite I2 in K. apply K. discriminate.
Qed.
