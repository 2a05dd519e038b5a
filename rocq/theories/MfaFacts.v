(** Facts about second factors (C38-C49). *)
From Coq Require Import String Ascii ZArith NArith Lia Bool Arith List ZifyBool ZifyN ZifyNat.
From stdpp Require Import gmap strings.
From RecordUpdate Require Import RecordSet.
From Verif Require Import GoStr Utf8 Codec GoErr Role Name Email Random SpecValue RoleFacts EmailFacts RandomFacts.
From Verif Require Import Types Env Password ApiKey PublicKey Mfa User Json Persist Fs Database System UserFacts DbFacts Inv LoadFacts.
From Verif Require Import SpecDb SpecAuth SpecKey SpecMfa AccountFacts StepFacts PublicKeyFacts TotpFacts.
From Verif Require PersistFacts.
Import ListNotations.
Import RecordSetNotations.
Open Scope string_scope.
#[local] Opaque int64 new_id trim_space new_email new_role.

(** ** The key cache *)
Lemma dec_members_keeps {R} (P : R -> Prop) (fs : list (field R)) :
  (forall f, In f fs -> forall v x r, dec_val (f_codec f) (f_get f r) v = DOk x -> P r -> P (f_set f x r)) ->
  forall ms r r', P r -> dec_members fs ms r = DOk r' -> P r'.
Proof.
  intros K ms. induction ms as [|[k v] ms IH]; intros r r' Hr; cbn [dec_members]; [now intros [=<-]|].
  destruct (find_field fs k) as [f|] eqn:F; [|now apply IH]. apply find_some in F as [F _].
  destruct (dec_val (f_codec f) (f_get f r) v) as [x| |] eqn:D; cbn [dbind]; try discriminate. apply IH. eapply K; eauto.
Qed.
Lemma dec_struct_keeps {R} (P : R -> Prop) (fs : list (field R)) z j r :
  (forall f, In f fs -> forall v x r, dec_val (f_codec f) (f_get f r) v = DOk x -> P r -> P (f_set f x r)) ->
  P z -> dec_struct fs z j = DOk r -> P r.
Proof. intros K Hz. destruct j; try discriminate. cbn [dec_struct]. now apply dec_members_keeps. Qed.
Lemma dlist_all {A} (P : A -> Prop) (f : json -> dres A) l x : (forall j a, f j = DOk a -> P a) -> dlist f l = DOk x -> Forall P x.
Proof.
  intros K. revert x. induction l as [|j l IH]; intros x; cbn [dlist]; [intros [=<-]; constructor|].
  destruct (f j) as [a| |] eqn:F; cbn [dbind]; try discriminate. destruct (dlist f l) as [y| |]; cbn; try discriminate. intros [=<-]. constructor; eauto.
Qed.
Definition fresh (t : MfaToken) : Prop := t_cache t = None.
Lemma dec_token_fresh j t : dec_struct mfa_f mfa_z j = DOk t -> fresh t.
Proof.
  apply dec_struct_keeps; [|reflexivity]. intros f Hf. unfold mfa_f in Hf. cbn [In] in Hf.
  decompose [or] Hf; try contradiction; subst; cbn; auto.
Qed.
Definition raw_fresh (r : RawUser) : Prop := Forall fresh (u_mfa (raw_user r)).
Lemma dec_user_fresh j r : dec_struct user_f raw_z j = DOk r -> raw_fresh r.
Proof.
  apply dec_struct_keeps; [|constructor]. intros f Hf. unfold user_f in Hf. cbn [In] in Hf.
  decompose [or] Hf; try contradiction; subst; try (intros v0 x0 r0 _ H0; exact H0).
  intros v x r0 D _. unfold raw_fresh. cbn. cbn in D. destruct v; try discriminate; [injection D as <-; constructor|]. apply PersistFacts.into_empty_ok in D.
  eapply dlist_all; [|exact D]. intros j' a. destruct j'; try discriminate; apply dec_token_fresh.
Qed.
Lemma unmarshal_fresh s c : unmarshal s = DOk c -> Forall (fun x => forall r, x = Some r -> raw_fresh r) (rc_users c).
Proof.
  unfold unmarshal. destruct parse as [j|]; [|discriminate].
  assert (G : dec_struct content_f content_z j = DOk c -> Forall (fun x => forall r, x = Some r -> raw_fresh r) (rc_users c)).
  { apply (dec_struct_keeps (fun c => Forall (fun x => forall r, x = Some r -> raw_fresh r) (rc_users c))); [|constructor]. intros f Hf. unfold content_f in Hf. cbn [In] in Hf.
    decompose [or] Hf; try contradiction; subst; try (intros v0 x0 r0 _ H0; exact H0).
    intros v x r0 D _. cbn. cbn in D. destruct v; try discriminate; [injection D as <-; constructor|]. apply PersistFacts.into_empty_ok in D. eapply dlist_all; [|exact D].
    intros j' a. destruct j'; try (intros [=<-] r'; discriminate); (destruct dec_struct as [y| |] eqn:Dy; cbn; try discriminate; intros [=<-] r' [=<-]; eapply dec_user_fresh; eauto). }
  destruct j; try exact G. intros [=<-]. constructor.
Qed.
Definition caches (db : Database) : Prop := forall i u, account db i u -> Forall cache_ok (u_mfa u).
Lemma fresh_cache t : fresh t -> cache_ok t.
Proof. unfold fresh. intros H k. rewrite H. discriminate. Qed.
Lemma load_caches E l : forall db db', caches db -> Forall (fun x => forall r, x = Some r -> raw_fresh r) l -> load_users E db l = Loaded db' -> caches db'.
Proof.
  induction l as [|x l IH]; intros db db' C F; cbn [load_users]; [now intros [=<-]|]. destruct x as [r|]; [|discriminate].
  inversion F as [|? ? F1 F2]; subst. destruct load_user as [db1| |] eqn:L; try discriminate. apply IH; [|assumption].
  apply load_user_ok in L as (es & ps & ks & _ & _ & _ & -> & _). intros i u Hu. unfold account in Hu.
  change (db_users _) with (db_users db ++ [loaded_user r es (map fix_algo ps) ks])%list in Hu. apply lookup_app_Some in Hu as [Hu|[_ Hu]]; [now apply (C i)|].
  destruct (i - _)%nat; [|discriminate]. injection Hu as <-. specialize (F1 r eq_refl). unfold raw_fresh in F1.
  change (u_mfa (loaded_user r es (map fix_algo ps) ks)) with (u_mfa (raw_user r)). eapply Forall_impl; [exact F1|]. exact fresh_cache.
Qed.
Lemma open_caches E nd fp fs fs' db : new_database E nd fp fs = (fs', Loaded db) -> caches db.
Proof.
  unfold new_database. destruct nd_stat_err; [discriminate|]. assert (C0 : forall c, caches (empty_db fp c)) by (intros c i u Hu; destruct i; discriminate).
  destruct (if String.eqb fp "" then None else fs !! fp) as [[s|]|].
  - destruct read_file as [b|]; [|discriminate]. unfold load_bytes. destruct (unmarshal b) as [c| |] eqn:U; try discriminate. apply unmarshal_fresh in U.
    destruct policy_changed.
    + cbv zeta. destruct write_db as [fs2 []]; try discriminate. intros [= _ H]. eapply load_caches; [| |exact H]; auto.
    + intros [= _ H]. eapply load_caches; [| |exact H]; auto.
  - discriminate.
  - destruct nd_mkdir_err; [discriminate|]. cbv zeta. destruct write_db as [fs2 []]; try discriminate. intros [= _ <-]. apply C0.
Qed.
Lemma new_token_fresh E nd r r' t : new_mfa_token E nd r = (r', ROk t) -> fresh t.
Proof.
  unfold new_mfa_token. cbv zeta. destruct (String.eqb (rm_type (rq_mfa r)) "totp").
  - destruct negb; [discriminate|]. destruct (_ || _); [discriminate|]. destruct (_ || _); [discriminate|]. destruct validate_code; [discriminate|]. intros [= _ <-]. reflexivity.
  - destruct (String.eqb _ "u2f").
    + destruct (String.eqb _ ""); [discriminate|]. destruct (String.eqb _ ""); [discriminate|]. destruct b64_decode; [|discriminate].
      destruct e_register as [q|]; [|discriminate]. intros [= _ H]. unfold u2f_register in H.
      repeat match type of H with context [match ?x with _ => _ end] => destruct x; try discriminate end; injection H as <-; reflexivity.
    + destruct (String.eqb _ ""); discriminate.
Qed.
Lemma ustep_caches E nd db r i u op v : ustep E nd db r i u op v -> Forall cache_ok (u_mfa u) -> Forall cache_ok (u_mfa v).
Proof.
  intros St F. destruct St as [op|u' res G V|op u' V U| |].
  - exact F.
  - pose proof (verify_webauthn_uncache E u r) as (l & Hl & H). rewrite V in Hl. cbn [fst] in Hl. rewrite Hl. change (Forall cache_ok l).
    clear - H F. induction H as [|t t' ? ? [_ Ht] H IH]; [constructor|]. inversion F; subst. constructor; auto.
  - destruct U; ustep_inv; try exact F.
    + cbn. apply List.Forall_app. split; [exact F|]. constructor; [|constructor]. eapply fresh_cache, new_token_fresh; eauto.
    + cbn. rewrite List.Forall_forall in *. intros t Ht. apply List.filter_In in Ht as [Ht _]. auto.
  - ustep_inv. exact F.
  - ustep_inv. exact F.
Qed.
Lemma exec_caches E nd op db fs r : caches db -> caches (o_db (exec E nd op db fs r)).
Proof.
  intros C i v Hv. destruct (exec_ustep _ _ _ _ _ _ _ _ Hv) as [(u & Hu & St)|(_ & _ & N)].
  - eapply ustep_caches; eauto.
  - destruct (na_keys _ _ _ _ N) as (_ & _ & ->). constructor.
Qed.
Lemma reachable_caches E fs db : reachable E fs db -> caches db.
Proof.
  intros [fs0 S]. assert (G : forall w w', steps E any_event w w' -> match w_mem w with Down => True | Up d | Stuck d => caches d end ->
    match w_mem w' with Down => True | Up d | Stuck d => caches d end).
  { clear. intros w w' S. induction S as [w|w1 ev w2 w3 S IH _ St]; intros H; [exact H|]. specialize (IH H).
    destruct St as [nd fp fs m fs' res O N|nd op r fs db|fs m|fs m fs']; cbn in *; auto.
    - destruct res; cbn; auto. eapply open_caches; eauto.
    - unfold after_call. pose proof (exec_caches E nd op _ fs r IH). destruct o_res; cbn; auto. }
  exact (G _ _ S I).
Qed.
