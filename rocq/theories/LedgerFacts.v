(** Proofs about the ledger of calls that took effect (C118). *)
From Coq Require Import String Ascii ZArith NArith Lia Bool Arith List.
From stdpp Require Import gmap strings.
From RecordUpdate Require Import RecordSet.
From Verif Require Import GoStr Utf8 GoErr Role Name Email Random SpecValue RandomFacts.
From Verif Require Import Types Env Password ApiKey PublicKey Mfa User Json Persist Fs Database System UserFacts DbFacts Inv LoadFacts.
From Verif Require Import SpecDb SpecCrypto SpecAuth SpecPersist SpecDefect SpecOutage SpecLedger CryptoFacts AccountFacts StepFacts PasswordFacts ApiKeyFacts.
From Verif Require Import PersistFacts StoredFacts ReloadFacts OpenFacts LiveFacts TookFacts.
Import ListNotations.
Import RecordSetNotations.
Open Scope string_scope.
#[local] Opaque int64 new_id trim_space new_email new_role.

(** ** Histories are histories of the system *)
Lemma traced_reachable {L} E (step : Nd -> Op -> Request -> Out -> L -> L) l0 fs db l : traced E step l0 fs db l -> reachable E fs db.
Proof.
  intros R. induction R as [nd fp fs fs' db A O|nd op r fs db l R IH o Nh Nc|fs fs' db l R IH|nd fp fs0 fs fs' db db' l R IH D P U O].
  - exists fs. eapply StCons; [apply StNil|exact I|]. change (Up db) with (after_load Down (Loaded db)). eapply StOpen; [exact O|discriminate].
  - apply exec_reachable; [exact IH|split; assumption].
  - destruct IH as (fs0 & S). exists fs0. eapply StCons; [exact S|exact I|]. constructor.
  - destruct IH as (fs1 & S). exists fs1. eapply StCons; [eapply StCons; [exact S|exact I|apply (StEdit E fs0 (Up db) fs)]|exact I|].
    change (Up db') with (after_load (Up db) (Loaded db')). eapply StOpen; [exact O|discriminate].
Qed.
Lemma recorded_reachable E fs db l : recorded E fs db l -> reachable E fs db.
Proof. exact (traced_reachable E _ _ fs db l). Qed.
(** ** Entries and accounts *)
Definition held (E : Env) (x : string * string) (k : APIKey) : Prop :=
  ak_id k = fst x /\ (72 <= String.length (snd x))%nat /\ prefix24 (ak_prefix k) (snd x) /\ exists salt, e_bcrypt E salt (snd x) 10 = Some (ak_payload k).
Record matches (E : Env) (e : Entry) (u : User) : Prop := {
  ma_name : u_username u = en_name e;
  ma_mail : exists m, u_emails u = [m] /\ em_address m = en_mail e;
  ma_secret : exists p q salt, u_passwords u = p :: q /\ active p /\ Forall (fun x => pw_disabled x = true) q /\ e_bcrypt E salt (en_secret e) 10 = Some (pw_hash p);
  ma_keys : Forall2 (held E) (en_keys e) (u_apikeys u) }.
Lemma matches_same E e u v : matches E e u -> u_username v = u_username u -> u_emails v = u_emails u -> u_passwords v = u_passwords u -> u_apikeys v = u_apikeys u -> matches E e v.
Proof. intros [A B C D] H1 H2 H3 H4. constructor; rewrite ?H1, ?H2, ?H3, ?H4; assumption. Qed.
Lemma frame_mails u v : frame u v -> u_username v = u_username u /\ u_emails v = u_emails u.
Proof. intros F. unfold frame in F. tauto. Qed.
Lemma matches_insert E l us i u v (f : Entry -> Entry) r :
  Forall2 (matches E) l us -> us !! i = Some u -> same_ci E (u_username u) (ru_username (rq_user r)) ->
  (forall j w, us !! j = Some w -> same_ci E (u_username w) (u_username u) -> j = i) ->
  (forall e, matches E e u -> matches E (f e) v) ->
  Forall2 (matches E) (for_name E r f l) (<[i := v]> us).
Proof.
  intros F Hi Sc U G. unfold for_name. revert i Hi U. induction F as [|e w l us M F IH]; intros i Hi U; [discriminate|].
  destruct i as [|i].
  - injection Hi as ->. cbn. constructor.
    + unfold same_ci in Sc. rewrite <- (ma_name _ _ _ M), Sc, String.eqb_refl. auto.
    + clear IH. assert (U' : forall j w, us !! j = Some w -> ~ same_ci E (u_username w) (u_username u)) by (intros j w Hj Sw; specialize (U (S j) w Hj Sw); discriminate).
      clear U. induction F as [|e' w l us M' F IH]; constructor.
      * assert (N : ~ same_ci E (u_username w) (u_username u)) by (apply (U' 0%nat); reflexivity).
        destruct (String.eqb_spec (lower E (en_name e')) (lower E (ru_username (rq_user r)))) as [X|X]; [|exact M'].
        exfalso. apply N. unfold same_ci in *. rewrite (ma_name _ _ _ M'), X. congruence.
      * apply IH. intros j x Hx. exact (U' (S j) x Hx).
  - cbn in Hi. cbn. constructor.
    + destruct (String.eqb_spec (lower E (en_name e)) (lower E (ru_username (rq_user r)))) as [X|X]; [|exact M].
      exfalso. assert (0%nat = S i) by (apply (U 0%nat w); [reflexivity|]; unfold same_ci in *; rewrite (ma_name _ _ _ M), X; congruence). discriminate.
    + apply IH; [exact Hi|]. intros j x Hx Sx. specialize (U (S j) x Hx Sx). congruence.
Qed.
Lemma matches_update E l us i u v : Forall2 (matches E) l us -> us !! i = Some u -> (forall e, matches E e u -> matches E e v) -> Forall2 (matches E) l (<[i := v]> us).
Proof.
  intros F. revert i. induction F as [|e w l us M F IH]; intros i Hi G; [discriminate|]. destruct i as [|i]; cbn.
  - injection Hi as ->. constructor; auto.
  - constructor; auto.
Qed.
Lemma at_entry E l us i u : Forall2 (matches E) l us -> us !! i = Some u -> exists e, l !! i = Some e /\ matches E e u.
Proof. intros F Hu. destruct (Forall2_lookup_r _ _ _ _ _ F Hu) as (e & He & M). eauto. Qed.
Lemma entry_at E l us e : Forall2 (matches E) l us -> In e l -> exists i u, us !! i = Some u /\ matches E e u.
Proof.
  intros F H. apply elem_of_list_In, elem_of_list_lookup in H as [i Hi]. destruct (Forall2_lookup_l _ _ _ _ _ F Hi) as (u & Hu & M). eauto.
Qed.
(** ** Calls *)
Lemma held_filter E ks l id : Forall2 (held E) ks l ->
  Forall2 (held E) (List.filter (fun k => negb (String.eqb (fst k) id)) ks) (List.filter (fun k => negb (String.eqb (ak_id k) id)) l).
Proof.
  intros F. induction F as [|x k ks l H F IH]; [constructor|]. cbn. rewrite (proj1 H). destruct (String.eqb (fst x) id); cbn; auto.
Qed.
Lemma commit_users db nd : db_users (db <| db_content ::= bump nd |>) = db_users db.
Proof. reflexivity. Qed.
Lemma enter_other E nd op r o l : own op = false \/ took o = false \/ ~ In op [OpAddUser; OpChangePassword; OpAddAPIKey; OpDeleteAPIKey] -> enter E nd op r o l = l.
Proof. intros H. unfold enter. destruct (took o); [|reflexivity]. destruct op; try reflexivity; exfalso; destruct H as [H|[H|H]]; try discriminate; apply H; cbn; tauto. Qed.
Lemma call_matches E nd op db fs r l : reachable E fs db -> let o := exec E nd op db fs r in
  o_res o <> OCrash -> Forall2 (matches E) l (db_users db) -> Forall2 (matches E) (enter E nd op r o l) (db_users (o_db o)).
Proof.
  intros HR o Nc F. destruct (took_shape E nd op db fs r Nc) as [(Ow & T & db1 & res & Eff & C)|(Q & Rc)]; [fold o in T, C|fold o in Q, Rc].
  2:{ rewrite enter_other by tauto. destruct Rc as [Rc|Rc]; [|now rewrite Rc]. destruct Rc as [|i u u' res G _ V]; [exact F|]. pose proof (Inv.get_user_at _ _ _ _ _ G) as Hi.
      pose proof (verify_webauthn_uncache E u r) as X. rewrite V in X. cbn in X. apply same_uncached_frame in X as (Fr & Pw & K & _).
      apply frame_mails in Fr as (A & B). rewrite set_user_users. apply (matches_update E l _ i u u' F Hi). intros e M. eapply matches_same; eauto. }
  - pose proof (commit_to_inv _ _ _ _ _ _ _ C) as [Hd _]. clear C. rewrite Hd, commit_users.
    assert (UN : forall i u, db_users db !! i = Some u -> forall j w, db_users db !! j = Some w -> same_ci E (u_username w) (u_username u) -> j = i).
    { intros i u Hi j w Hj S. exact (username_unique E fs db j i w u HR Hj Hi S). }
    destruct Eff as [|fp|u0 addrs u CP NU Hu RU NA|op i u u' V Up|i u s hk u' V Dr Pw Fp A|i u u' r' V D].
    + discriminate Ow.
    + discriminate Ow.
    + unfold enter. rewrite T. change (db_users (with_account E db u addrs)) with (db_users db ++ [u])%list. apply Forall2_app; [exact F|]. constructor; [|constructor].
      destruct (effect_add_user E nd db r _ (EffUser E nd db r u0 addrs u CP NU Hu RU NA)) as (v & Nv & Hv & _).
      change (db_users (with_account E db u addrs)) with (db_users db ++ [u])%list in Hv. apply app_inv_head in Hv. injection Hv as <-.
      destruct Nv as [_ N1 (m & _ & N2 & N3 & _) _ _ _ (p & N4 & N5 & N6 & _ & N7) (_ & N8 & _) _ _].
      constructor; cbn [en_name en_mail en_secret en_keys]; [exact N1|eauto| |rewrite N8; constructor].
      exists p, [], (nd_salt nd). rewrite N4. repeat split; auto.
    + pose proof (Inv.validate_at _ _ _ _ _ V) as Hi. pose proof V as V'. apply (validate_iff _ fs) in V' as ((_ & _ & Sn) & _); [|assumption].
      rewrite set_user_users. destruct (upd_frame _ _ _ _ _ _ _ Up) as [Fr Ka]. apply frame_mails in Fr as (Fa & Fb).
      inversion Up as [? H|? H|? P H|? ? H|? H]; subst.
      1, 2, 4, 5: rewrite enter_other by (right; right; cbn; intuition discriminate); apply (matches_update E l _ i u u' F Hi); intros e M; eapply matches_same; eauto.
      * apply add_public_key_inv in H as (? & ? & ? & ->). reflexivity.
      * apply delete_public_key_inv in H as (? & ->). reflexivity.
      * apply add_mfa_token_inv in H as (? & ? & ? & ->). reflexivity.
      * apply delete_mfa_token_inv in H as (? & ->). reflexivity.
      * unfold enter. rewrite T. apply (matches_insert E l _ i u u' _ r F Hi Sn (UN i u Hi)). intros e [A B C D].
        apply change_password_inv in H as [_ H]. apply add_password_inv in H as (p & Hp & Hu').
        constructor; cbn [with_secret en_name en_mail en_secret en_keys].
        -- congruence.
        -- now rewrite Fb.
        -- pose proof (new_password_active _ _ _ _ Hp) as Ac. apply new_password_iff in Hp as (h & _ & Hb & Hp).
           exists p, (keep_passwords nd (kept_versions (db_policy db)) 0 (u_passwords u)), (nd_salt nd).
           split; [rewrite Hu'; reflexivity|]. split; [exact Ac|]. split; [|rewrite Hp; exact Hb].
           rewrite keep_spec. apply List.Forall_forall. intros x Hx. apply in_map_iff in Hx as (y & <- & _). destruct (pw_disabled y) eqn:Dy; [exact Dy|reflexivity].
        -- now rewrite Ka.
    + assert (Pay : handed_out o = s).
      { unfold handed_out, o. rewrite (issued_payload E nd db fs r i u s hk u' V Dr Pw Fp A). reflexivity. }
      pose proof (Inv.validate_at _ _ _ _ _ V) as Hi. pose proof V as V'. apply (validate_iff _ fs) in V' as ((_ & _ & Sn) & _); [|assumption].
      unfold enter. rewrite T, Pay. change (db_users (set_user db i u' <| ref_apikey ::= <[take 24 s := i]> |>)) with (<[i := u']> (db_users db)).
      apply (matches_insert E l _ i u u' _ r F Hi Sn (UN i u Hi)). intros e [A1 B1 C1 D1].
      apply add_api_key_inv in A as (k & Hk & ->). destruct (issued_key_intro E nd r s hk k Dr Pw Hk) as [_ Kl Kp Kh Ki _ _ _].
      constructor; cbn [with_keys en_name en_mail en_secret en_keys]; [exact A1|exact B1|exact C1|].
      change (u_apikeys (revise nd (u <| u_apikeys := (u_apikeys u ++ [k])%list |>))) with (u_apikeys u ++ [k])%list.
      apply Forall2_app; [exact D1|]. constructor; [|constructor]. split; [exact Ki|]. cbn [fst snd]. split; [lia|]. split; [exact Kp|]. eauto.
    + pose proof (Inv.validate_at _ _ _ _ _ V) as Hi. pose proof V as V'. apply (validate_iff _ fs) in V' as ((_ & _ & Sn) & _); [|assumption].
      unfold enter. rewrite T. change (db_users (set_user db i u' <| ref_apikey ::= delete (rk_prefix (rq_key r')) |>)) with (<[i := u']> (db_users db)).
      apply (matches_insert E l _ i u u' _ r F Hi Sn (UN i u Hi)). intros e [A1 B1 C1 D1].
      apply delete_api_key_inv in D as (_ & -> & _).
      constructor; cbn [with_keys en_name en_mail en_secret en_keys]; [exact A1|exact B1|exact C1|]. exact (held_filter E _ _ _ D1).
Qed.
(** ** Restarts *)
Lemma map_some_inj {A} (l m : list A) : map Some l = map Some m -> l = m.
Proof. revert m. induction l as [|x l IH]; intros [|y m]; try discriminate; [reflexivity|]. cbn. intros [= -> H]. f_equal. auto. Qed.
Lemma restart_users E nd db fp fs fs' db' P fs0 : register_typed E -> reachable_by E P fs0 db -> on_disk fs fp db -> plain_path fp ->
  all_utf8 (content_texts (db_content db)) -> new_database E nd fp fs = (fs', Loaded db') ->
  exists us, Forall2 (fun u v => u_username v = u_username u /\ u_emails v = u_emails u /\ u_passwords v = u_passwords u /\ u_apikeys v = u_apikeys u /\
    u_pubkeys v = u_pubkeys u /\ u_mfa v = map (set t_cache (fun _ => None)) (u_mfa u)) (db_users db) us /\
    db_users db' = map with_algorithm us.
Proof.
  intros RT HR (s & Hm & Hf) (Ne & T)%ReopenFacts.plain_prefix U O. destruct (open_sound _ _ _ _ _ _ O) as (_ & _ & G).
  destruct (G Ne ltac:(rewrite Hf; eauto)) as (b & c & us & R & D & F & _ & Hu). clear G.
  assert (b = s) as ->. { unfold read_file, expand in R. rewrite T, Hf in R. destruct nd_read_err; congruence. }
  rewrite (unmarshal_marshal _ _ (policy_typed_content E P fs0 db RT HR) Hm), (keep_content _ U) in D. injection D as <-.
  exists us. split; [|exact Hu]. clear - F. change (rc_users (to_raw (drop_caches (db_content db)))) with (map (fun u => Some (to_raw_user u)) (map no_cache (db_users db))) in F.
  revert us F. induction (db_users db) as [|u l IH]; intros us F; inversion F as [|x v ? us' Dv F']; subst; constructor; [|auto].
  destruct Dv as (x & [= <-] & H1 & H2 & H3 & H4). apply map_some_inj in H1, H2, H3.
  split; [rewrite H4; reflexivity|]. split; [symmetry; exact H1|]. split; [symmetry; exact H2|]. split; [symmetry; exact H3|].
  rewrite H4. split; reflexivity.
Qed.
Lemma matches_algorithm E e u : matches E e u -> matches E e (with_algorithm u).
Proof.
  intros [A B (p & q & salt & C1 & C2 & C3 & C4) D]. constructor; [exact A|exact B| |exact D].
  set (f := fun p : Password => if String.eqb (pw_algorithm p) "" then set pw_algorithm (fun _ => "bcrypt") p else p).
  exists (f p), (map f q), salt. split; [change (map f (u_passwords u) = f p :: map f q); now rewrite C1|].
  assert (K : forall x, pw_disabled (f x) = pw_disabled x /\ pw_expired (f x) = pw_expired x /\ pw_hash (f x) = pw_hash x) by (intros x; unfold f; destruct String.eqb; repeat split).
  destruct (K p) as (K1 & K2 & K3). split; [unfold active in *; rewrite K1, K2; exact C2|]. split; [|now rewrite K3].
  apply List.Forall_forall. intros x (y & <- & Hy)%in_map_iff. rewrite (proj1 (K y)). rewrite List.Forall_forall in C3. auto.
Qed.
Lemma recorded_matches E fs db l : register_typed E -> recorded E fs db l -> Forall2 (matches E) l (db_users db).
Proof.
  intros RT R. induction R as [nd fp fs fs' db A O|nd op r fs db l R IH o Nh Nc|fs fs' db l R IH|nd fp fs0 fs fs' db db' l R IH D P U O].
  - unfold new_database in O. destruct nd_stat_err; [discriminate|]. assert (X : (if String.eqb fp "" then None else fs !! fp) = None).
    { destruct (String.eqb_spec fp ""); [reflexivity|]. destruct A; [contradiction|assumption]. }
    rewrite X in O. destruct nd_mkdir_err; [discriminate|]. cbv zeta in O. destruct write_db as [fs2 []]; try discriminate. injection O as <- <-. constructor.
  - exact (call_matches E nd op db fs r l (recorded_reachable _ _ _ _ R) Nc IH).
  - exact IH.
  - destruct (restart_users E nd db fp fs fs' db' _ _ RT (recorded_reachable _ _ _ _ R) D P U O) as (us & F & ->). clear - IH F.
    revert us F. induction IH as [|e u l us0 M IH1 IH2]; intros us F; inversion F as [|? v ? us' (H1 & H2 & H3 & H4 & _) F']; subst; constructor; [|auto].
    apply matches_algorithm. eapply matches_same; eauto.
Qed.
(** ** Logins *)
Lemma matches_accepts E e u s : bcrypt_complete E -> bcrypt_sound E -> bcrypt_72 E -> matches E e u -> accepts E u s <-> key72 s = key72 (en_secret e).
Proof.
  intros Bc Bs B72 [_ _ (p & q & salt & C1 & C2 & C3 & C4) _]. split.
  - intros (x & Hx & [D _] & M). rewrite C1 in Hx. destruct Hx as [<-|Hx]; [exact (Bs _ _ _ _ _ C4 M)|].
    rewrite List.Forall_forall in C3. rewrite (C3 x Hx) in D. discriminate.
  - intros K. exists p. rewrite C1. split; [now left|]. split; [exact C2|]. rewrite (B72 _ _ _ K). exact (Bc _ _ _ _ C4).
Qed.
Lemma matches_called E db e i u s : account db i u -> matches E e u -> called E e s <-> resolves_login E db s i u.
Proof.
  intros Hu [A (m & B1 & B2) _ _]. unfold called, resolves_login, resolves_address, resolves_username, has_username, has_address. rewrite A, B1.
  assert (X : (exists x, In x [m] /\ same_ci E (em_address x) s) <-> same_ci E (en_mail e) s).
  { rewrite <- B2. split; [intros (x & [<-|[]] & H); exact H|intros H; exists m; split; [now left|exact H]]. }
  rewrite X. tauto.
Qed.
Lemma login_recorded E fs db l nd r : register_typed E -> bcrypt_complete E -> bcrypt_sound E -> bcrypt_72 E -> recorded E fs db l ->
  ru_password (rq_user r) <> "" ->
  o_res (exec E nd OpAuthenticate db fs r) = OOk <->
  exists e, In e l /\ called E e (ru_username (rq_user r)) /\ key72 (ru_password (rq_user r)) = key72 (en_secret e).
Proof.
  intros RT Bc Bs B72 R Ne. pose proof (recorded_reachable _ _ _ _ R) as HR. pose proof (recorded_matches _ _ _ _ RT R) as F.
  rewrite (authenticate_password E nd db fs r HR Ne). split.
  - intros (i & u & Hl & Ac). assert (Hu : account db i u) by (destruct Hl as [(_ & _ & H & _)|(_ & _ & H & _)]; exact H).
    destruct (at_entry _ _ _ _ _ F Hu) as (e & He & M). exists e. split; [eapply elem_of_list_In, elem_of_list_lookup_2; exact He|].
    split; [apply (matches_called E db e i u _ Hu M); exact Hl|apply (matches_accepts E e u _ Bc Bs B72 M); exact Ac].
  - intros (e & He & Hc & K). destruct (entry_at _ _ _ _ F He) as (i & u & Hu & M). exists i, u.
    split; [apply (matches_called E db e i u _ Hu M); exact Hc|apply (matches_accepts E e u _ Bc Bs B72 M); exact K].
Qed.
(** ** API keys *)
Lemma matches_key E e u s : bcrypt_complete E -> bcrypt_sound E -> bcrypt_72 E -> matches E e u -> (72 <= String.length s)%nat ->
  key_for E u s <-> exists id k, In (id, k) (en_keys e) /\ firstn 72 (los s) = firstn 72 (los k).
Proof.
  intros Bc Bs B72 [_ _ _ D] L. rewrite <- length_los in L. split.
  - intros (k & Hk & P & M). apply elem_of_list_In, elem_of_list_lookup in Hk as [j Hj]. destruct (Forall2_lookup_r _ _ _ _ _ D Hj) as ([id t] & Hx & (_ & Lt & _ & salt & Hb)).
    exists id, t. split; [eapply elem_of_list_In, elem_of_list_lookup_2; exact Hx|]. cbn [snd] in *. rewrite <- length_los in Lt. apply (key72_firstn s t L Lt). exact (Bs _ _ _ _ _ Hb M).
  - intros (id & t & Hx & K). apply elem_of_list_In, elem_of_list_lookup in Hx as [j Hj]. destruct (Forall2_lookup_l _ _ _ _ _ D Hj) as (k & Hk & (_ & Lt & Pt & salt & Hb)). cbn [fst snd] in *.
    exists k. split; [eapply elem_of_list_In, elem_of_list_lookup_2; exact Hk|]. rewrite <- length_los in Lt. split.
    + apply prefix24_iff in Pt; [|rewrite <- length_los; lia]. apply prefix24_iff; [rewrite <- length_los; lia|]. rewrite Pt. unfold take. f_equal.
      apply (f_equal (firstn 24)) in K. rewrite !firstn_firstn in K. exact (eq_sym K).
    + rewrite (B72 _ s t); [exact (Bc _ _ _ _ Hb)|]. now apply key72_firstn.
Qed.
Lemma key_recorded E fs db l nd r : register_typed E -> bcrypt_complete E -> bcrypt_sound E -> bcrypt_72 E -> recorded E fs db l ->
  let s := rk_payload (rq_key r) in let o := exec E nd OpLookupAPIKey db fs r in
  (o_res o = OOk <-> (72 <= String.length s)%nat /\ exists e id k, In e l /\ In (id, k) (en_keys e) /\ firstn 72 (los s) = firstn 72 (los k)) /\
  (o_res o = OOk -> forall e id k, In e l -> In (id, k) (en_keys e) -> firstn 72 (los s) = firstn 72 (los k) ->
     ru_username (rq_user (o_req o)) = en_name e /\ ru_email (rq_user (o_req o)) = en_mail e).
Proof.
  intros RT Bc Bs B72 R s o. pose proof (recorded_reachable _ _ _ _ R) as HR. pose proof (recorded_matches _ _ _ _ RT R) as F.
  destruct (lookup_iff E nd db fs r HR) as (I1 & I2 & _). fold o s in I1, I2. split.
  - rewrite I1. split; intros (L & H); (split; [exact L|]).
    + destruct H as (i & u & Hu & Hk). destruct (at_entry _ _ _ _ _ F Hu) as (e & He & M). destruct (proj1 (matches_key E e u s Bc Bs B72 M L) Hk) as (id & k & A & B).
      exists e, id, k. split; [eapply elem_of_list_In, elem_of_list_lookup_2; exact He|auto].
    + destruct H as (e & id & k & He & A & B). destruct (entry_at _ _ _ _ F He) as (i & u & Hu & M). exists i, u. split; [exact Hu|]. apply (matches_key E e u s Bc Bs B72 M L). eauto.
  - intros H e id k He A B. pose proof (proj1 (proj1 I1 H)) as L. destruct (entry_at _ _ _ _ F He) as (i & u & Hu & M).
    destruct (I2 H i u Hu) as (N1 & N2 & _); [apply (matches_key E e u s Bc Bs B72 M L); eauto|]. destruct M as [M1 (m & M2 & M3) _ _].
    split; [congruence|]. destruct N2 as [(X & _)|(y & t & X & ->)]; [congruence|]. rewrite M2 in X. injection X as <- <-. exact M3.
Qed.
(** ** Password changes *)
Lemma change_recorded E fs db l nd r : register_typed E -> bcrypt_complete E -> bcrypt_sound E -> bcrypt_72 E -> recorded E fs db l ->
  took (exec E nd OpChangePassword db fs r) = true ->
  exists e, In e l /\ same_ci E (en_name e) (ru_username (rq_user r)) /\ key72 (ru_old_password (rq_user r)) = key72 (en_secret e).
Proof.
  intros RT Bc Bs B72 R H. pose proof (recorded_reachable _ _ _ _ R) as HR. pose proof (recorded_matches _ _ _ _ RT R) as F.
  destruct (took_effect E nd OpChangePassword db fs r eq_refl H) as (db1 & (i & u & u' & p & V & _ & Ac & _)%change_effect). apply (validate_iff _ fs) in V as ((_ & Hu & Sn) & _); [|exact HR].
  destruct (at_entry _ _ _ _ _ F Hu) as (e & He & M). exists e. split; [eapply elem_of_list_In, elem_of_list_lookup_2; exact He|].
  split; [unfold has_username in Sn; now rewrite <- (ma_name _ _ _ M)|apply (matches_accepts E e u _ Bc Bs B72 M); exact Ac].
Qed.
(** ** What is listed *)
Lemma names_recorded E fs db l : register_typed E -> recorded E fs db l ->
  map u_username (db_users db) = map en_name l /\ map (fun u => map em_address (u_emails u)) (db_users db) = map (fun e => [en_mail e]) l /\
  map (fun u => map ak_id (u_apikeys u)) (db_users db) = map (fun e => map fst (en_keys e)) l.
Proof.
  intros RT R. pose proof (recorded_matches _ _ _ _ RT R) as F. clear R. induction F as [|e u l us M F IH]; [repeat split|]. cbn [map]. destruct IH as (A & B & C).
  destruct M as [M1 (m & M2 & M3) _ M4]. rewrite A, B, C, M1, M2. cbn [map]. rewrite M3. split; [reflexivity|]. split; [reflexivity|]. f_equal.
  clear - M4. induction M4 as [|x k ks l H F IH]; [reflexivity|]. cbn. rewrite (proj1 H), IH. reflexivity.
Qed.
Lemma one_entry E fs db l i j e e' s : register_typed E -> recorded E fs db l -> l !! i = Some e -> l !! j = Some e' -> called E e s -> called E e' s -> i = j.
Proof.
  intros RT R Hi Hj C C'. pose proof (recorded_reachable _ _ _ _ R) as HR. pose proof (recorded_matches _ _ _ _ RT R) as F.
  destruct (Forall2_lookup_l _ _ _ _ _ F Hi) as (u & Hu & M). destruct (Forall2_lookup_l _ _ _ _ _ F Hj) as (v & Hv & M').
  apply (matches_called E db e i u s Hu M), (get_user_resolves _ fs) in C; [|exact HR]. apply (matches_called E db e' j v s Hv M'), (get_user_resolves _ fs) in C'; [|exact HR]. congruence.
Qed.
