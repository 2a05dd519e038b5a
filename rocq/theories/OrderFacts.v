(** Facts on the order of times (C104). *)
From Coq Require Import String Ascii ZArith NArith Lia Bool Arith List Sorting.Sorted ZifyBool ZifyN ZifyNat.
From stdpp Require Import gmap strings.
From RecordUpdate Require Import RecordSet.
From Verif Require Import GoStr Utf8 Codec GoErr GoTime Role Name Email Random SpecValue.
From Verif Require Import Types Env Password ApiKey PublicKey Mfa User Json Persist Fs Database System UserFacts DbFacts Inv LoadFacts.
From Verif Require Import SpecDb SpecAuth SpecKey SpecMfa SpecPersist SpecOrder AccountFacts StepFacts ApiKeyFacts PublicKeyFacts.
Import ListNotations.
Import RecordSetNotations.
Open Scope string_scope.
#[local] Opaque int64 new_id trim_space new_email new_role random_string random_range new_password.

Lemma sorted_snoc {A} (R : A -> A -> Prop) l x : StronglySorted R l -> Forall (fun y => R y x) l -> StronglySorted R (l ++ [x]).
Proof.
  induction 1 as [|y l S IH F]; intros H; cbn; [repeat constructor|]. inversion H; subst. constructor; [now apply IH|].
  apply List.Forall_app. split; [exact F|]. constructor; [assumption|constructor].
Qed.
Lemma sorted_filter {A B} (R : B -> B -> Prop) (f : A -> B) (p : A -> bool) l : StronglySorted R (map f l) -> StronglySorted R (map f (List.filter p l)).
Proof.
  induction l as [|x l IH]; intros H; [exact H|]. cbn in *. inversion H; subst. destruct (p x); [|now apply IH]. cbn. constructor; [now apply IH|].
  rewrite List.Forall_forall in *. intros y (z & <- & Hz)%in_map_iff. apply List.filter_In in Hz as [Hz _]. apply H3. now apply in_map.
Qed.
Lemma span_later lo hi hi' c b d : span lo hi c b d -> (hi <= hi')%Z -> span lo hi' c b d.
Proof. unfold span. intros [A B] L. split; [lia|]. intros X. specialize (B X). lia. Qed.
Lemma span_new lo now (b : bool) d : (lo <= now)%Z -> (b = true -> d = now) -> span lo now now b d.
Proof. unfold span. intros A B. split; [lia|]. intros X. rewrite (B X). lia. Qed.

Lemma new_key_times nd r k : new_api_key nd r = inl k -> ak_created k = nd_clock nd /\ (ak_disabled k = true -> ak_disabled_at k = nd_clock nd).
Proof. intros (_ & _ & _ & ->)%new_api_key_inv. cbn. split; [reflexivity|]. now intros ->. Qed.
Lemma new_token_times E nd r r' t : new_mfa_token E nd r = (r', ROk t) -> t_created t = nd_clock nd /\ (t_disabled t = true -> t_disabled_at t = nd_clock nd).
Proof.
  unfold new_mfa_token. cbv zeta. destruct (String.eqb (rm_type (rq_mfa r)) "totp").
  - destruct negb; [discriminate|]. destruct (_ || _); [discriminate|]. destruct (_ || _); [discriminate|]. destruct validate_code; [discriminate|].
    intros [= _ <-]. cbn. split; [reflexivity|]. now intros ->.
  - destruct (String.eqb _ "u2f").
    + destruct (String.eqb _ ""); [discriminate|]. destruct (String.eqb _ ""); [discriminate|]. destruct b64_decode; [|discriminate].
      destruct e_register as [q|]; [|discriminate]. intros [= _ H]. unfold u2f_register in H.
      repeat match type of H with context [match ?x with _ => _ end] => destruct x; try discriminate end; injection H as <-; (split; [reflexivity|]); cbn; intros X; first [reflexivity|discriminate|now rewrite X].
    + destruct (String.eqb _ ""); discriminate.
Qed.
Lemma parse_pk_times E nd p q : parse_pk E nd p = inl q -> pk_created q = pk_created p /\ pk_disabled q = pk_disabled p.
Proof.
  unfold parse_pk. destruct negb; [discriminate|]. destruct String.eqb; [discriminate|].
  destruct contains.
  { unfold parse_rsa. intros X. destruct (negb _); [discriminate|]. destruct e_pem as [[ty bs]|]; [|discriminate]. destruct (negb _); [discriminate|].
    destruct e_pkix; try discriminate. injection X as <-. split; reflexivity. }
  destruct has_prefix.
  { unfold parse_openssh. intros X. destruct (match cut_blank _ with Some x => x | None => _ end) as [w rest].
    match type of X with (let '(_, _) := ?c in _) = _ => destruct c as [[b64 comment] openssh] end.
    destruct b64_decode_l as [blob|]; [|discriminate]. destruct (e_ssh E (sol blob)) as [k|] eqn:K; [|discriminate]. cbv zeta in X.
    destruct String.eqb; [|discriminate]. destruct (sk_pem k) as [pem|] eqn:P; [|discriminate]. injection X as <-. split; reflexivity. }
  destruct contains; [|discriminate].
  unfold parse_pgp. intros X. cbv zeta in X. destruct has_prefix eqn:Hp; [|discriminate]. cbn [negb] in X. destruct has_suffix; [|discriminate]. cbn [negb] in X.
  destruct e_pgp as [[|ent [|? ?]]|]; try discriminate. destruct (pg_primary ent); [|discriminate]. destruct (pg_names ent); [discriminate|].
  destruct pgp_algo as [[algo ty]|]; [|discriminate]. injection X as <-. split; reflexivity.
Qed.
Lemma new_pk_times E nd r k : new_public_key E nd r = inl k -> pk_created k = nd_clock nd /\ (pk_disabled k = true -> pk_disabled_at k = nd_clock nd).
Proof.
  unfold new_public_key. cbv zeta. destruct parse_pk as [q|] eqn:P; [|discriminate]. apply parse_pk_times in P as [P1 P2]. cbn in P1, P2.
  intros [= <-]. destruct rk_disabled; cbn; (split; [exact P1|]); congruence.
Qed.
Lemma keep_times nd keep lo hi : forall l i, (forall p, In p l -> span lo hi (pw_created p) (pw_disabled p) (pw_disabled_at p)) -> (hi <= nd_clock nd)%Z ->
  forall p, In p (keep_passwords nd keep i l) -> span lo (nd_clock nd) (pw_created p) (pw_disabled p) (pw_disabled_at p).
Proof.
  induction l as [|x l IH]; intros i F L p; [intros []|]. cbn [keep_passwords]. cbv zeta.
  assert (X : span lo (nd_clock nd) (pw_created (if pw_disabled x then x else pw_disable nd x)) (pw_disabled (if pw_disabled x then x else pw_disable nd x)) (pw_disabled_at (if pw_disabled x then x else pw_disable nd x))).
  { specialize (F x (or_introl eq_refl)). destruct (pw_disabled x) eqn:D; [eapply span_later; [|exact L]; now rewrite D|].
    cbn. destruct F as [F _]. unfold span. split; [lia|]. intros _. lia. }
  destruct (i >? keep)%Z; intros [<-|H]; try exact X; [destruct H|].
  eapply IH; [|exact L|exact H]. intros q Hq. apply F. now right.
Qed.
Lemma keep_created nd keep : forall l i y, In y (map pw_created (keep_passwords nd keep i l)) -> In y (map pw_created l).
Proof.
  induction l as [|x l IH]; intros i y; [intros []|]. cbn [keep_passwords]. cbv zeta.
  assert (X : pw_created (if pw_disabled x then x else pw_disable nd x) = pw_created x) by (destruct (pw_disabled x); reflexivity).
  destruct (i >? keep)%Z; cbn [map]; rewrite X; intros [<-|H]; try (now left); right; eauto.
Qed.
Lemma keep_sorted nd keep : forall l i, descending (map pw_created l) -> descending (map pw_created (keep_passwords nd keep i l)).
Proof.
  unfold descending. induction l as [|x l IH]; intros i H; [exact H|]. cbn [keep_passwords]. cbv zeta. cbn in H. inversion H; subst.
  assert (X : pw_created (if pw_disabled x then x else pw_disable nd x) = pw_created x) by (destruct (pw_disabled x); reflexivity).
  destruct (i >? keep)%Z; cbn [map]; rewrite X; [repeat constructor|]. constructor; [now apply IH|].
  rewrite List.Forall_forall in *. intros y Hy. apply H3. eapply keep_created; eauto.
Qed.
Lemma in_order_later now now' u : in_order now u -> (now <= now')%Z -> in_order now' u.
Proof. intros [[A B] P1 P2 P3 P4 S1 S2 S3 S4] L. constructor; auto. lia. Qed.

Ltac below := match goal with |- Forall _ (map ?f ?l) => rewrite List.Forall_forall; intros ? (xx & <- & Hxx)%in_map_iff end.
Lemma upd_in_order E nd pol r u op v now : upd E nd pol r u op v -> in_order now u -> (now <= nd_clock nd)%Z -> in_order (nd_clock nd) v.
Proof.
  intros Up [[A B] P1 P2 P3 P4 S1 S2 S3 S4] L. assert (M : (u_modified u <= nd_clock nd)%Z) by lia.
  destruct Up as [u' H|u' H|u' _ H|r' u' H|u' H].
  - apply add_public_key_inv in H as (k & K & _ & ->). apply new_pk_times in K as [K1 K2]. constructor; cbn.
    + lia.
    + intros p Hp. eapply span_later; eauto.
    + intros p [Hp|[<-|[]]]%in_app_or; [eapply span_later; eauto|]. rewrite K1. apply span_new; [lia|exact K2].
    + intros p Hp. eapply span_later; eauto.
    + intros p Hp. eapply span_later; eauto.
    + exact S1.
    + unfold ascending. rewrite map_app. apply sorted_snoc; [exact S2|]. cbn. below. destruct (P2 xx Hxx) as [? _]. lia.
    + exact S3.
    + exact S4.
  - apply delete_public_key_inv in H as (_ & ->). constructor; cbn.
    + lia.
    + intros p Hp. eapply span_later; eauto.
    + intros p [Hp _]%List.filter_In. eapply span_later; eauto.
    + intros p Hp. eapply span_later; eauto.
    + intros p Hp. eapply span_later; eauto.
    + exact S1.
    + now apply sorted_filter.
    + exact S3.
    + exact S4.
  - apply change_password_inv in H as (_ & H). apply add_password_inv in H as (p0 & N & ->). apply new_password_iff in N as (h & _ & _ & ->). constructor; cbn.
    + lia.
    + intros p [<-|Hp]; [cbn; apply span_new; [lia|discriminate]|]. eapply keep_times; [| |exact Hp]; [exact P1|exact M].
    + intros p Hp. eapply span_later; eauto.
    + intros p Hp. eapply span_later; eauto.
    + intros p Hp. eapply span_later; eauto.
    + constructor; [now apply keep_sorted|]. rewrite List.Forall_forall. intros y Hy. apply keep_created in Hy. apply in_map_iff in Hy as (p & <- & Hp). destruct (P1 p Hp) as [? _]. lia.
    + exact S2.
    + exact S3.
    + exact S4.
  - apply add_mfa_token_inv in H as (t & K & _ & ->). apply new_token_times in K as [K1 K2]. constructor; cbn.
    + lia.
    + intros p Hp. eapply span_later; eauto.
    + intros p Hp. eapply span_later; eauto.
    + intros p Hp. eapply span_later; eauto.
    + intros p [Hp|[<-|[]]]%in_app_or; [eapply span_later; eauto|]. rewrite K1. apply span_new; [lia|exact K2].
    + exact S1.
    + exact S2.
    + exact S3.
    + unfold ascending. rewrite map_app. apply sorted_snoc; [exact S4|]. cbn. below. destruct (P4 xx Hxx) as [? _]. lia.
  - apply delete_mfa_token_inv in H as (_ & ->). constructor; cbn.
    + lia.
    + intros p Hp. eapply span_later; eauto.
    + intros p Hp. eapply span_later; eauto.
    + intros p Hp. eapply span_later; eauto.
    + intros p [Hp _]%List.filter_In. eapply span_later; eauto.
    + exact S1.
    + exact S2.
    + exact S3.
    + now apply sorted_filter.
Qed.
Lemma add_key_in_order nd r u v now : add_api_key nd u r = inl v -> in_order now u -> (now <= nd_clock nd)%Z -> in_order (nd_clock nd) v.
Proof.
  intros H [[A B] P1 P2 P3 P4 S1 S2 S3 S4] L. assert (M : (u_modified u <= nd_clock nd)%Z) by lia.
  apply add_api_key_inv in H as (k & K & ->). apply new_key_times in K as [K1 K2]. constructor; cbn.
  - lia.
  - intros p Hp. eapply span_later; eauto.
  - intros p Hp. eapply span_later; eauto.
  - intros p [Hp|[<-|[]]]%in_app_or; [eapply span_later; eauto|]. rewrite K1. apply span_new; [lia|exact K2].
  - intros p Hp. eapply span_later; eauto.
  - exact S1.
  - exact S2.
  - unfold ascending. rewrite map_app. apply sorted_snoc; [exact S3|]. cbn. below. destruct (P3 xx Hxx) as [? _]. lia.
  - exact S4.
Qed.
Lemma delete_key_in_order nd r r' u v now : delete_api_key nd u r = (inl v, r') -> in_order now u -> (now <= nd_clock nd)%Z -> in_order (nd_clock nd) v.
Proof.
  intros H [[A B] P1 P2 P3 P4 S1 S2 S3 S4] L. assert (M : (u_modified u <= nd_clock nd)%Z) by lia.
  apply delete_api_key_inv in H as (_ & -> & _). constructor; cbn.
  - lia.
  - intros p Hp. eapply span_later; eauto.
  - intros p Hp. eapply span_later; eauto.
  - intros p [Hp _]%List.filter_In. eapply span_later; eauto.
  - intros p Hp. eapply span_later; eauto.
  - exact S1.
  - exact S2.
  - now apply sorted_filter.
  - exact S4.
Qed.
Lemma new_in_order E nd r u : new_account E nd r u -> in_order (nd_clock nd) u.
Proof.
  intros [_ _ _ _ _ _ (p & Hp & D & _ & C & _) (K1 & K2 & K3) (T1 & T2 & _) _]. constructor; rewrite ?Hp, ?K1, ?K2, ?K3, ?T1, ?T2; cbn.
  - lia.
  - intros q [<-|[]]. rewrite C, D. apply span_new; [lia|discriminate].
  - intros k [].
  - intros k [].
  - intros k [].
  - repeat constructor.
  - constructor.
  - constructor.
  - constructor.
Qed.
Lemma cached_in_order E r u v res now : verify_webauthn E u r = (v, res) -> in_order now u -> in_order now v.
Proof.
  intros V [[A B] P1 P2 P3 P4 S1 S2 S3 S4]. pose proof (verify_webauthn_uncache E u r) as (l & Hl & H). rewrite V in Hl. cbn [fst] in Hl. subst v. clear V.
  assert (T : forall x y, uncache x = uncache y -> t_created y = t_created x /\ t_disabled y = t_disabled x /\ t_disabled_at y = t_disabled_at x).
  { intros x y X. pose proof (f_equal t_created X). pose proof (f_equal t_disabled X). pose proof (f_equal t_disabled_at X). cbn in *. repeat split; congruence. }
  constructor; cbn [u_created u_modified u_passwords u_pubkeys u_apikeys u_mfa set]; auto; try (split; assumption).
  - change (forall t, In t l -> span (u_created u) (u_modified u) (t_created t) (t_disabled t) (t_disabled_at t)).
    clear S4. revert P4. induction H as [|x y m m' [X _] H IH]; intros P4; [intros ? []|]. destruct (T _ _ X) as (-> & -> & ->) || idtac. intros t [<-|Ht].
    + destruct (T _ _ X) as (-> & -> & ->). apply P4. now left.
    + apply IH; [|exact Ht]. intros z Hz. apply P4. now right.
  - change (ascending (map t_created l)). replace (map t_created l) with (map t_created (u_mfa u)); [exact S4|].
    clear S4 P4. induction H as [|x y m m' [X _] H IH]; [reflexivity|]. cbn [map]. destruct (T _ _ X) as (-> & _). now rewrite IH.
Qed.

Lemma last_change_exec E nd op db fs r : let db' := o_db (exec E nd op db fs r) in
  last_change db' = last_change db \/ last_change db' = nd_clock nd.
Proof.
  cbv zeta. destruct (exec_shape E nd op db fs r) as [_ R _ _|db1 res Eff C _]; [left; now destruct R|right].
  apply commit_to_inv in C as [-> _]. reflexivity.
Qed.
Lemma db_in_order_set db i u v : db_in_order db -> account db i u -> in_order (last_change db) v -> u_created v = u_created u -> db_in_order (set_user db i v).
Proof.
  intros [A S] Hu Hv C. constructor.
  - intros j w Hw. destruct (set_user_cases _ _ _ _ _ _ Hu Hw) as [[-> ->]|[N Hw']]; [exact Hv|now apply (A j)].
  - change (ascending (map u_created (<[i := v]> (db_users db)))). replace (map u_created (<[i := v]> (db_users db))) with (map u_created (db_users db)); [exact S|].
    clear - Hu C. unfold account in Hu. revert i Hu. induction (db_users db) as [|x l IH]; intros [|i] Hu; cbn in *; try congruence.
    f_equal. now apply IH.
Qed.

Lemma in_order_exec E nd op db fs r : db_in_order db -> (last_change db <= nd_clock nd)%Z -> db_in_order (o_db (exec E nd op db fs r)).
Proof.
  intros D L. destruct (exec_shape E nd op db fs r) as [_ R _ _|db1 res Eff C _].
  - destruct R as [|j u u' res G _ V]; [exact D|]. pose proof (get_user_at _ _ _ _ _ G) as Hj.
    eapply db_in_order_set; eauto.
    + eapply cached_in_order; eauto. eapply do_accounts; eauto.
    + pose proof (verify_webauthn_uncache E u r) as (l & Hl & _). rewrite V in Hl. cbn in Hl. now subst u'.
  - apply commit_to_inv in C as [-> _].
    assert (D0 : db_in_order (db <| db_content ::= bump nd |>)).
    { destruct D as [A S]. constructor; [|exact S]. intros i u Hu. eapply in_order_later; [now apply (A i)|exact L]. }
    destruct Eff as [|fp|u0 addrs u P N Hu Hn Ha|op i u u' V U|i u s hk u' V Hs Hk Hf Ha|i u u' r' V Hd]; try exact D0.
    + destruct D0 as [A S]. assert (NA : new_account E nd r u).
      { destruct (effect_add_user E nd db r _ (EffUser E nd db r u0 addrs u P N Hu Hn Ha)) as (w & NA & Hw & _). change ((db_users db ++ [u])%list = (db_users db ++ [w])%list) in Hw.
        apply app_inj_tail in Hw as [_ ->]. exact NA. }
      constructor.
      * intros i v Hv. change ((db_users db ++ [u])%list !! i = Some v) in Hv. change (in_order (nd_clock nd) v).
        apply lookup_app_Some in Hv as [Hv|[_ Hv]]; [now apply (A i)|].
        destruct (i - _)%nat; [|discriminate]. injection Hv as <-. eapply new_in_order; eauto.
      * change (ascending (map u_created (db_users db ++ [u])%list)). unfold ascending. rewrite map_app. apply sorted_snoc; [exact S|].
        destruct NA as [_ _ _ _ _ _ _ _ (T1 & _) _]. rewrite T1. below.
        apply elem_of_list_In, elem_of_list_lookup in Hxx as (i & Hi). destruct (A i xx Hi) as [X _ _ _ _ _ _ _ _]. change (last_change _) with (nd_clock nd) in X. lia.
    + pose proof (validate_at _ _ _ _ _ V) as Hi. change (db_in_order (set_user (db <| db_content ::= bump nd |>) i u')).
      eapply db_in_order_set; [exact D0|exact Hi| |].
      * eapply upd_in_order; eauto. destruct D as [A _]. now apply (A i).
      * apply upd_frame in U as [F _]. apply F.
    + pose proof (validate_at _ _ _ _ _ V) as Hi.
      assert (G : db_in_order (set_user (db <| db_content ::= bump nd |>) i u')).
      { eapply db_in_order_set; [exact D0|exact Hi| |].
        * eapply add_key_in_order; eauto. destruct D as [A _]. now apply (A i).
        * apply add_api_key_inv in Ha as (k & K & ->). reflexivity. }
      destruct G as [A S]. constructor; [exact A|exact S].
    + pose proof (validate_at _ _ _ _ _ V) as Hi.
      assert (G : db_in_order (set_user (db <| db_content ::= bump nd |>) i u')).
      { eapply db_in_order_set; [exact D0|exact Hi| |].
        * eapply delete_key_in_order; eauto. destruct D as [A _]. now apply (A i).
        * apply delete_api_key_inv in Hd as (_ & -> & _). reflexivity. }
      destruct G as [A S]. constructor; [exact A|exact S].
Qed.

Lemma on_time_steps E w1 w2 : steps E on_time w1 w2 -> forall db db', w_mem w1 = Up db -> w_mem w2 = Up db' -> db_in_order db -> db_in_order db'.
Proof.
  induction 1 as [|w1 ev w2 w3 S IH P St]; intros db db' H1 H2 D; [congruence|].
  destruct St; cbn in P; try contradiction. cbn in H2. specialize (IH db db0 H1 eq_refl D). specialize (P db0 eq_refl).
  unfold after_call in H2. destruct (o_res _); try discriminate; injection H2 as <-; now apply in_order_exec.
Qed.

(** ** Opening *)
Lemma absent_empty E nd fp fs fs' db : fs !! fp = None -> new_database E nd fp fs = (fs', Loaded db) -> db_users db = [].
Proof.
  intros A. unfold new_database. destruct nd_stat_err; [discriminate|].
  assert ((if String.eqb fp "" then None else fs !! fp) = None) as -> by (destruct String.eqb; auto).
  destruct nd_mkdir_err; [discriminate|]. cbv zeta. destruct write_db as [fs2 []]; try discriminate. intros [= _ <-]. reflexivity.
Qed.
Lemma open_readable E nd fp fs fs' db n : fp <> "" -> fs !! fp = Some n -> new_database E nd fp fs = (fs', Loaded db) -> nd_stat_err nd = false /\ nd_read_err nd = false.
Proof.
  intros Ne%String.eqb_neq F. unfold new_database. destruct nd_stat_err; [discriminate|]. rewrite Ne, F. destruct n; [|discriminate].
  unfold read_file. destruct nd_read_err; [discriminate|]. auto.
Qed.
Lemma clean_user_in_order now u : in_order now u -> in_order now (clean_user u).
Proof.
  intros [A P1 P2 P3 P4 S1 S2 S3 S4]. constructor; cbn [clean_user u_created u_modified u_passwords u_pubkeys u_apikeys u_mfa]; rewrite ?map_map; auto.
  all: intros ? (x & <- & Hx)%in_map_iff; cbn; auto.
Qed.
Lemma clean_in_order db db' : db_content db' = clean_content (db_content db) -> db_in_order db -> db_in_order db'.
Proof.
  intros C [A S]. unfold account, db_users, last_change in *. constructor; unfold account, db_users, last_change; rewrite C; cbn [clean_content c_users c_modified].
  - intros i u Hu. rewrite list_lookup_fmap in Hu. apply fmap_Some in Hu as (v & Hv & ->). apply clean_user_in_order. eauto.
  - rewrite map_map. exact S.
Qed.
