(** Proofs about what accounts hold (C119). *)
From Coq Require Import String Ascii ZArith NArith Lia Bool Arith List.
From stdpp Require Import gmap strings.
From RecordUpdate Require Import RecordSet.
From Verif Require Import GoStr Utf8 GoErr Role Name Email Random SpecValue RandomFacts.
From Verif Require Import Types Env Password ApiKey PublicKey Mfa User Json Persist Fs Database System UserFacts DbFacts Inv LoadFacts.
From Verif Require Import SpecDb SpecKey SpecCrypto SpecAuth SpecMfa SpecPersist SpecDefect SpecOutage SpecLedger SpecShelf CryptoFacts AccountFacts StepFacts PasswordFacts ApiKeyFacts.
From Verif Require Import PublicKeyFacts TokenFacts MfaFacts PersistFacts StoredFacts ReloadFacts OpenFacts LiveFacts LedgerFacts TookFacts TokenUse.
Import ListNotations.
Import RecordSetNotations.
Open Scope string_scope.
#[local] Opaque int64 new_id trim_space new_email new_role.

(** ** Items and what accounts hold *)
Definition is_pub (x : Item) (k : PublicKey) : Prop := pk_id k = it_id x /\ pk_usage k = it_kind x /\ pk_disabled k = it_off x.
Definition is_key (x : Item) (k : APIKey) : Prop := ak_id k = it_id x /\ ak_usage k = it_kind x /\ ak_disabled k = it_off x.
Definition is_token (x : Item) (t : MfaToken) : Prop := t_id t = it_id x /\ t_type t = it_kind x /\ t_disabled t = it_off x.
Record holds (e : Shelf) (u : User) : Prop := {
  ho_name : u_username u = sh_name e;
  ho_mail : exists m, u_emails u = [m] /\ em_address m = sh_mail e;
  ho_pubs : Forall2 is_pub (sh_pubs e) (u_pubkeys u);
  ho_keys : Forall2 is_key (sh_keys e) (u_apikeys u);
  ho_tokens : Forall2 is_token (sh_tokens e) (u_mfa u) }.
Lemma holds_insert E l us i u v (f : Shelf -> Shelf) r :
  Forall2 holds l us -> us !! i = Some u -> same_ci E (u_username u) (ru_username (rq_user r)) ->
  (forall j w, us !! j = Some w -> same_ci E (u_username w) (u_username u) -> j = i) ->
  (forall e, holds e u -> holds (f e) v) ->
  Forall2 holds (on_shelf E r f l) (<[i := v]> us).
Proof.
  intros F Hi Sc U G. unfold on_shelf. revert i Hi U. induction F as [|e w l us M F IH]; intros i Hi U; [discriminate|].
  destruct i as [|i].
  - injection Hi as ->. cbn. constructor.
    + unfold same_ci in Sc. rewrite <- (ho_name _ _ M), Sc, String.eqb_refl. auto.
    + clear IH. assert (U' : forall j w, us !! j = Some w -> ~ same_ci E (u_username w) (u_username u)) by (intros j w Hj Sw; specialize (U (S j) w Hj Sw); discriminate).
      clear U. induction F as [|e' w l us M' F IH]; constructor.
      * assert (N : ~ same_ci E (u_username w) (u_username u)) by (apply (U' 0%nat); reflexivity).
        destruct (String.eqb_spec (lower E (sh_name e')) (lower E (ru_username (rq_user r)))) as [X|X]; [|exact M'].
        exfalso. apply N. unfold same_ci in *. rewrite (ho_name _ _ M'), X. congruence.
      * apply IH. intros j x Hx. exact (U' (S j) x Hx).
  - cbn in Hi. cbn. constructor.
    + destruct (String.eqb_spec (lower E (sh_name e)) (lower E (ru_username (rq_user r)))) as [X|X]; [|exact M].
      exfalso. assert (0%nat = S i) by (apply (U 0%nat w); [reflexivity|]; unfold same_ci in *; rewrite (ho_name _ _ M), X; congruence). discriminate.
    + apply IH; [exact Hi|]. intros j x Hx Sx. specialize (U (S j) x Hx Sx). congruence.
Qed.
Lemma holds_update l us i u v : Forall2 holds l us -> us !! i = Some u -> (forall e, holds e u -> holds e v) -> Forall2 holds l (<[i := v]> us).
Proof.
  intros F. revert i. induction F as [|e w l us M F IH]; intros i Hi G; [discriminate|]. destruct i as [|i]; cbn.
  - injection Hi as ->. constructor; auto.
  - constructor; auto.
Qed.
Lemma holds_same e u v : holds e u -> u_username v = u_username u -> u_emails v = u_emails u -> u_pubkeys v = u_pubkeys u -> u_apikeys v = u_apikeys u -> u_mfa v = u_mfa u -> holds e v.
Proof. intros [A B C D F] H1 H2 H3 H4 H5. constructor; rewrite ?H1, ?H2, ?H3, ?H4, ?H5; assumption. Qed.
Lemma uncached_tokens l t t' : map uncache t' = map uncache t -> Forall2 is_token l t -> Forall2 is_token l t'.
Proof.
  intros H F. revert t' H. induction F as [|x a l t X F IH]; intros [|b t']; try discriminate; [constructor|]. cbn [map]. intros H0. pose proof (f_equal (@tl _) H0) as H'.
  pose proof (f_equal (fun l => match l with [] => uncache a | x :: _ => x end) H0) as H. cbn [tl] in H, H'. cbv beta iota in H. clear H0.
  constructor; [|auto]. destruct X as (X1 & X2 & X3). apply (f_equal t_id) in H as Y1. apply (f_equal t_type) in H as Y2. apply (f_equal t_disabled) in H as Y3.
  change (t_id b = t_id a) in Y1. change (t_type b = t_type a) in Y2. change (t_disabled b = t_disabled a) in Y3. repeat split; congruence.
Qed.
(** ** New items *)
Lemma new_pub E nd r k : new_public_key E nd r = inl k -> is_pub {| it_id := key_id E nd r; it_kind := rk_usage (rq_key r); it_off := rk_disabled (rq_key r) |} k.
Proof.
  rewrite new_public_key_eq. destruct (parse_pk E nd (blank_key nd r)) as [q|] eqn:X; [|discriminate]. intros [= <-].
  assert (Q : pk_id q = key_id E nd r /\ pk_usage q = rk_usage (rq_key r) /\ pk_disabled q = false).
  { unfold parse_pk in X. change (pk_payload (blank_key nd r)) with (rk_payload (rq_key r)) in X. unfold key_id. cbv zeta.
    destruct negb; [discriminate|]. destruct String.eqb; [discriminate|].
    destruct (contains (rk_payload (rq_key r)) "RSA PUBLIC KEY"); cbn [orb].
    { revert X. unfold parse_rsa. destruct negb; [discriminate|]. destruct e_pem as [[ty bs]|]; [|discriminate]. destruct negb; [discriminate|].
      destruct e_pkix; try discriminate. intros [= <-]. repeat split. }
    destruct (has_prefix (rk_payload (rq_key r)) "ssh-rsa "); cbn [orb].
    { revert X. unfold parse_openssh. repeat case_match; intros [= <-]; repeat split. }
    destruct contains; [|discriminate]. revert X. unfold parse_pgp. cbv zeta.
    change (pk_payload (blank_key nd r <| pk_payload := trim_space (pk_payload (blank_key nd r)) |>)) with (trim_space (rk_payload (rq_key r))).
    destruct negb; [discriminate|]. destruct negb; [discriminate|]. destruct e_pgp as [[|ent [|]]|]; try discriminate. destruct (pg_primary ent) as [k|]; [|discriminate].
    destruct (pg_names ent); [discriminate|]. destruct pgp_algo as [[]|]; [|discriminate]. intros [= <-]. repeat split. }
  destruct Q as (A & B & C). unfold flagged. destruct rk_disabled; repeat split; auto.
Qed.
Lemma new_token E nd r r' t : new_mfa_token E nd r = (r', ROk t) -> is_token {| it_id := drawn_id nd; it_kind := rm_type (rq_mfa r); it_off := rm_disabled (rq_mfa r) |} t.
Proof. intros H. apply (f_equal snd), new_token_ok in H as [_ [A B _ _ C _]]. repeat split; assumption. Qed.
(** ** Calls *)
Lemma drop_pubs l ks id : Forall2 is_pub l ks -> Forall2 is_pub (drop_item id l) (List.filter (fun k => negb (String.eqb (pk_id k) id)) ks).
Proof. intros F. unfold drop_item. induction F as [|x k l ks H F IH]; [constructor|]. cbn. rewrite (proj1 H). destruct (String.eqb (it_id x) id); cbn; auto. Qed.
Lemma drop_keys l ks id : Forall2 is_key l ks -> Forall2 is_key (drop_item id l) (List.filter (fun k => negb (String.eqb (ak_id k) id)) ks).
Proof. intros F. unfold drop_item. induction F as [|x k l ks H F IH]; [constructor|]. cbn. rewrite (proj1 H). destruct (String.eqb (it_id x) id); cbn; auto. Qed.
Lemma drop_tokens l ks id : Forall2 is_token l ks -> Forall2 is_token (drop_item id l) (List.filter (fun k => negb (String.eqb (t_id k) id)) ks).
Proof. intros F. unfold drop_item. induction F as [|x k l ks H F IH]; [constructor|]. cbn. rewrite (proj1 H). destruct (String.eqb (it_id x) id); cbn; auto. Qed.
Lemma stock_refused E nd op r o l : own op = false \/ took o = false \/ ~ In op [OpAddUser; OpAddPublicKey; OpDeletePublicKey; OpAddAPIKey; OpDeleteAPIKey; OpAddMfaToken; OpDeleteMfaToken] ->
  stock E nd op r o l = l.
Proof. intros H. unfold stock. destruct (took o); [|reflexivity]. destruct op; try reflexivity; exfalso; destruct H as [H|[H|H]]; try discriminate; apply H; cbn; tauto. Qed.
Lemma call_holds E nd op db fs r l : reachable E fs db -> let o := exec E nd op db fs r in
  o_res o <> OCrash -> Forall2 holds l (db_users db) -> Forall2 holds (stock E nd op r o l) (db_users (o_db o)).
Proof.
  intros HR o Nc F. destruct (took_shape E nd op db fs r Nc) as [(Ow & T & db1 & res & Eff & C)|(Q & Rc)]; [fold o in T, C|fold o in Q, Rc].
  2:{ rewrite stock_refused by tauto. destruct Rc as [Rc|Rc]; [|now rewrite Rc]. destruct Rc as [|i u u' res G _ V]; [exact F|]. pose proof (Inv.get_user_at _ _ _ _ _ G) as Hi.
      pose proof (verify_webauthn_uncache E u r) as X. rewrite V in X. cbn in X. apply same_uncached_frame in X as (Fr & _ & K & P & _ & _ & Ts).
      apply frame_mails in Fr as (A & B). rewrite set_user_users. apply (holds_update l _ i u u' F Hi). intros e [M1 M2 M3 M4 M5].
      constructor; rewrite ?A, ?B, ?K, ?P; try assumption. exact (uncached_tokens _ _ _ Ts M5). }
  - pose proof (commit_to_inv _ _ _ _ _ _ _ C) as [Hd _]. clear C. rewrite Hd, commit_users.
    assert (UN : forall i u, db_users db !! i = Some u -> forall j w, db_users db !! j = Some w -> same_ci E (u_username w) (u_username u) -> j = i).
    { intros i u Hi j w Hj S. exact (username_unique E fs db j i w u HR Hj Hi S). }
    destruct Eff as [|fp|u0 addrs u CP NU Hu RU NA|op i u u' V Up|i u s hk u' V Dr Pw Fp A|i u u' r' V D].
    + discriminate Ow.
    + discriminate Ow.
    + unfold stock. rewrite T. change (db_users (with_account E db u addrs)) with (db_users db ++ [u])%list. apply Forall2_app; [exact F|]. constructor; [|constructor].
      destruct (effect_add_user E nd db r _ (EffUser E nd db r u0 addrs u CP NU Hu RU NA)) as (v & Nv & Hv & _).
      change (db_users (with_account E db u addrs)) with (db_users db ++ [u])%list in Hv. apply app_inv_head in Hv. injection Hv as <-.
      destruct Nv as [_ N1 (m & _ & N2 & N3 & _) _ _ _ _ (N7 & N8 & N9) _ _].
      constructor; cbn [sh_name sh_mail sh_pubs sh_keys sh_tokens]; [exact N1|eauto|rewrite N7|rewrite N8|rewrite N9]; constructor.
    + pose proof (Inv.validate_at _ _ _ _ _ V) as Hi. pose proof V as V'. apply (validate_iff _ fs) in V' as ((_ & _ & Sn) & _); [|assumption].
      rewrite set_user_users. destruct (upd_frame _ _ _ _ _ _ _ Up) as [Fr Ka]. apply frame_mails in Fr as (Fa & Fb).
      inversion Up as [? H|? H|? P H|? ? H|? H]; subst.
      * unfold stock. rewrite T. apply (holds_insert E l _ i u u' _ r F Hi Sn (UN i u Hi)). intros e [A B C D G]. apply add_public_key_inv in H as (k & Hk & _ & ->).
        constructor; cbn [with_pubs sh_name sh_mail sh_pubs sh_keys sh_tokens]; try assumption. apply Forall2_app; [exact C|]. constructor; [exact (new_pub _ _ _ _ Hk)|constructor].
      * unfold stock. rewrite T. apply (holds_insert E l _ i u u' _ r F Hi Sn (UN i u Hi)). intros e [A B C D G]. apply delete_public_key_inv in H as (_ & ->).
        constructor; cbn [with_pubs sh_name sh_mail sh_pubs sh_keys sh_tokens]; try assumption. exact (drop_pubs _ _ _ C).
      * rewrite stock_refused by (right; right; cbn; intuition discriminate). apply (holds_update l _ i u u' F Hi). intros e M.
        apply change_password_inv in H as [_ H]. apply add_password_inv in H as (p & Hp & ->). eapply holds_same; eauto.
      * unfold stock. rewrite T. apply (holds_insert E l _ i u u' _ r F Hi Sn (UN i u Hi)). intros e [A B C D G]. apply add_mfa_token_inv in H as (t & Ht & _ & ->).
        constructor; cbn [with_tokens sh_name sh_mail sh_pubs sh_keys sh_tokens]; try assumption. apply Forall2_app; [exact G|]. constructor; [exact (new_token _ _ _ _ _ Ht)|constructor].
      * unfold stock. rewrite T. apply (holds_insert E l _ i u u' _ r F Hi Sn (UN i u Hi)). intros e [A B C D G]. apply delete_mfa_token_inv in H as (_ & ->).
        constructor; cbn [with_tokens sh_name sh_mail sh_pubs sh_keys sh_tokens]; try assumption. exact (drop_tokens _ _ _ G).
    + pose proof (Inv.validate_at _ _ _ _ _ V) as Hi. pose proof V as V'. apply (validate_iff _ fs) in V' as ((_ & _ & Sn) & _); [|assumption].
      unfold stock. rewrite T. change (db_users (set_user db i u' <| ref_apikey ::= <[take 24 s := i]> |>)) with (<[i := u']> (db_users db)).
      apply (holds_insert E l _ i u u' _ r F Hi Sn (UN i u Hi)). intros e [A1 B1 C1 D1 G1].
      apply add_api_key_inv in A as (k & Hk & ->). destruct (issued_key_intro E nd r s hk k Dr Pw Hk) as [_ _ _ _ Ki (Ku & Ku') _ (Kd & _)].
      constructor; cbn [with_items sh_name sh_mail sh_pubs sh_keys sh_tokens]; try assumption. apply Forall2_app; [exact D1|]. constructor; [|constructor].
      split; [exact Ki|]. cbn [it_kind it_off]. split; [congruence|exact Kd].
    + pose proof (Inv.validate_at _ _ _ _ _ V) as Hi. pose proof V as V'. apply (validate_iff _ fs) in V' as ((_ & _ & Sn) & _); [|assumption].
      unfold stock. rewrite T. change (db_users (set_user db i u' <| ref_apikey ::= delete (rk_prefix (rq_key r')) |>)) with (<[i := u']> (db_users db)).
      apply (holds_insert E l _ i u u' _ r F Hi Sn (UN i u Hi)). intros e [A1 B1 C1 D1 G1].
      apply delete_api_key_inv in D as (_ & -> & _).
      constructor; cbn [with_items sh_name sh_mail sh_pubs sh_keys sh_tokens]; try assumption. exact (drop_keys _ _ _ D1).
Qed.
Lemma stocked_reachable E fs db l : stocked E fs db l -> reachable E fs db.
Proof. exact (traced_reachable E _ _ fs db l). Qed.
Lemma stocked_holds E fs db l : register_typed E -> stocked E fs db l -> Forall2 holds l (db_users db).
Proof.
  intros RT R. induction R as [nd fp fs fs' db A O|nd op r fs db l R IH o Nh Nc|fs fs' db l R IH|nd fp fs0 fs fs' db db' l R IH D P U O].
  - unfold new_database in O. destruct nd_stat_err; [discriminate|]. assert (X : (if String.eqb fp "" then None else fs !! fp) = None).
    { destruct (String.eqb_spec fp ""); [reflexivity|]. destruct A; [contradiction|assumption]. }
    rewrite X in O. destruct nd_mkdir_err; [discriminate|]. cbv zeta in O. destruct write_db as [fs2 []]; try discriminate. injection O as <- <-. constructor.
  - exact (call_holds E nd op db fs r l (stocked_reachable _ _ _ _ R) Nc IH).
  - exact IH.
  - destruct (restart_users E nd db fp fs fs' db' _ _ RT (stocked_reachable _ _ _ _ R) D P U O) as (us & F & ->). clear - IH F.
    revert us F. induction IH as [|e u l us0 M IH1 IH2]; intros us F; inversion F as [|? v ? us' (H1 & H2 & H3 & H4 & H5 & H6) F']; subst; constructor; [|auto].
    destruct M as [M1 (m & M2 & M2') M3 M4 M5]. constructor.
    + change (u_username v = sh_name e). congruence.
    + exists m. change (u_emails v = [m] /\ em_address m = sh_mail e). split; congruence.
    + change (Forall2 is_pub (sh_pubs e) (u_pubkeys v)). now rewrite H5.
    + change (Forall2 is_key (sh_keys e) (u_apikeys v)). now rewrite H4.
    + change (Forall2 is_token (sh_tokens e) (u_mfa v)). apply (uncached_tokens _ (u_mfa u)); [|exact M5]. rewrite H6, map_map. apply map_ext. reflexivity.
Qed.
(** ** Answers *)
Lemma shelf_at l us e : Forall2 holds l us -> In e l -> exists i u, us !! i = Some u /\ holds e u.
Proof. intros F H. apply elem_of_list_In, elem_of_list_lookup in H as [i Hi]. destruct (Forall2_lookup_l _ _ _ _ _ F Hi) as (u & Hu & M). eauto. Qed.
Lemma named_identity E db e i u r : account db i u -> holds e u -> names_both E e r -> identity_of E db r i u.
Proof.
  intros Hu [A (m & B1 & B2) _ _ _] (L1 & S1 & L2 & S2). split; [split; [exact L1|]; split; [exact Hu|]; unfold has_username; now rewrite A|].
  exists i, u. split; [|reflexivity]. split; [exact L2|]. split; [exact Hu|]. exists m. rewrite B1, B2. split; [now left|exact S2].
Qed.
Lemma named_login E db e i u s : account db i u -> holds e u -> names_login E e s -> resolves_login E db s i u.
Proof.
  intros Hu [A (m & B1 & B2) _ _ _] [(X & L & Sc)|(X & L & Sc)]; [left|right]; (split; [exact X|]; split; [exact L|]; split; [exact Hu|]).
  - exists m. rewrite B1, B2. split; [now left|exact Sc].
  - unfold has_username. now rewrite A.
Qed.
Lemma picked_ids {A} (R : Item -> A -> Prop) (id : A -> string) (P : A -> Prop) (f : Item -> bool) l ks ks' :
  (forall x k, R x k -> id k = it_id x) -> (forall x k, R x k -> f x = true <-> P k) -> Forall2 R l ks -> picked P ks ks' -> map id ks' = map it_id (List.filter f l).
Proof.
  intros I Q F. revert ks'. induction F as [|x k l ks H F IH]; intros ks' K; inversion K as [|? ? ? Hp K'|? ? ? Hp K']; subst; [reflexivity| |]; cbn [List.filter].
  - rewrite (proj2 (Q _ _ H) Hp). cbn [map]. rewrite (I _ _ H). f_equal. auto.
  - destruct (f x) eqn:Fx; [exfalso; exact (Hp (proj1 (Q _ _ H) Fx))|auto].
Qed.
Lemma use_iff a b c d kind : a = b -> c = d -> (String.eqb b kind && negb d = true) <-> (a = kind /\ c = false).
Proof. intros -> ->. rewrite andb_true_iff, String.eqb_eq, negb_true_iff. reflexivity. Qed.
Lemma listed_pubs E fs db l nd r e : register_typed E -> stocked E fs db l -> In e l -> names_both E e r ->
  exists ks, exec E nd OpGetPublicKeys db fs r = {| o_db := db; o_fs := fs; o_req := r <| rq_payload := PPublicKeys {| b_items := ks; b_size := Z.of_nat (List.length ks) |} |>; o_res := OOk |} /\
    map pk_id ks = in_use (rk_usage (rq_key r)) (sh_pubs e).
Proof.
  intros RT R He N. destruct (shelf_at _ _ _ (stocked_holds _ _ _ _ RT R) He) as (i & u & Hu & M).
  destruct (get_public_keys_spec E nd db fs r i u (stocked_reachable _ _ _ _ R) (named_identity _ _ _ _ _ _ Hu M N)) as (ks & X & K). exists ks. split; [exact X|].
  apply (picked_ids is_pub pk_id _ _ _ _ _ (fun x k H => proj1 H)) with (2 := ho_pubs _ _ M) (3 := K). intros x k (_ & H1 & H2). exact (use_iff _ _ _ _ _ H1 H2).
Qed.
Lemma listed_keys E fs db l nd r e : register_typed E -> stocked E fs db l -> In e l -> names_both E e r ->
  exists ks, exec E nd OpGetAPIKeys db fs r = {| o_db := db; o_fs := fs; o_req := r <| rq_payload := PAPIKeys {| b_items := ks; b_size := Z.of_nat (List.length ks) |} |>; o_res := OOk |} /\
    map ak_id ks = in_use (rk_usage (rq_key r)) (sh_keys e).
Proof.
  intros RT R He N. destruct (shelf_at _ _ _ (stocked_holds _ _ _ _ RT R) He) as (i & u & Hu & M).
  destruct (get_api_keys_spec E nd db fs r i u (stocked_reachable _ _ _ _ R) (named_identity _ _ _ _ _ _ Hu M N)) as (ks & X & K). exists ks. split; [exact X|].
  apply (picked_ids is_key ak_id _ _ _ _ _ (fun x k H => proj1 H)) with (2 := ho_keys _ _ M) (3 := K). intros x k (_ & H1 & H2). exact (use_iff _ _ _ _ _ H1 H2).
Qed.
Lemma listed_tokens E fs db l nd r e : register_typed E -> stocked E fs db l -> In e l -> names_both E e r ->
  exists ts, exec E nd OpGetMfaTokens db fs r = {| o_db := db; o_fs := fs; o_req := r <| rq_payload := PMfaTokens {| b_items := ts; b_size := Z.of_nat (List.length ts) |} |>; o_res := OOk |} /\
    map t_id ts = in_use_any (sh_tokens e).
Proof.
  intros RT R He N. destruct (shelf_at _ _ _ (stocked_holds _ _ _ _ RT R) He) as (i & u & Hu & M).
  destruct (get_mfa_tokens_spec E nd db fs r i u (stocked_reachable _ _ _ _ R) (named_identity _ _ _ _ _ _ Hu M N)) as (ts & X & K). exists ts. split; [exact X|].
  apply (picked_ids is_token t_id _ _ _ _ _ (fun x k H => proj1 H)) with (2 := ho_tokens _ _ M) (3 := K). intros x k (_ & _ & H). rewrite negb_true_iff, H. reflexivity.
Qed.
(** Deleting succeeds for what is held. *)
Lemma ids_in {A} (R : Item -> A -> Prop) (id : A -> string) l ks n : (forall x k, R x k -> id k = it_id x) -> Forall2 R l ks -> (exists k, In k ks /\ id k = n) <-> In n (map it_id l).
Proof.
  intros I F. rewrite in_map_iff. split.
  - intros (k & Hk & <-). apply elem_of_list_In, elem_of_list_lookup in Hk as [j Hj]. destruct (Forall2_lookup_r _ _ _ _ _ F Hj) as (x & Hx & H). exists x.
    split; [symmetry; exact (I _ _ H)|]. eapply elem_of_list_In, elem_of_list_lookup_2; exact Hx.
  - intros (x & <- & Hx). apply elem_of_list_In, elem_of_list_lookup in Hx as [j Hj]. destruct (Forall2_lookup_l _ _ _ _ _ F Hj) as (k & Hk & H). exists k.
    split; [eapply elem_of_list_In, elem_of_list_lookup_2; exact Hk|exact (I _ _ H)].
Qed.
Lemma identity_fun E fs db r i u j v : reachable E fs db -> identity_of E db r i u -> identity_of E db r j v -> i = j /\ u = v.
Proof. intros HR A B. apply (validate_iff _ fs) in A; [|exact HR]. apply (validate_iff _ fs) in B; [|exact HR]. rewrite A in B. now injection B. Qed.
Lemma deletes E fs db l nd r e : register_typed E -> stocked E fs db l -> In e l -> names_both E e r ->
  (o_res (exec E nd OpDeletePublicKey db fs r) = OOk <-> In (rk_id (rq_key r)) (map it_id (sh_pubs e)) /\ can_write nd fs (db_path db) (db_content (o_db (exec E nd OpDeletePublicKey db fs r)))) /\
  (o_res (exec E nd OpDeleteAPIKey db fs r) = OOk <-> In (rk_id (rq_key r)) (map it_id (sh_keys e)) /\ can_write nd fs (db_path db) (db_content (o_db (exec E nd OpDeleteAPIKey db fs r)))) /\
  (o_res (exec E nd OpDeleteMfaToken db fs r) = OOk <-> In (rm_id (rq_mfa r)) (map it_id (sh_tokens e)) /\ can_write nd fs (db_path db) (db_content (o_db (exec E nd OpDeleteMfaToken db fs r)))).
Proof.
  intros RT R He N. pose proof (stocked_reachable _ _ _ _ R) as HR. destruct (shelf_at _ _ _ (stocked_holds _ _ _ _ RT R) He) as (i & u & Hu & M).
  pose proof (named_identity _ _ _ _ _ _ Hu M N) as V.
  rewrite (delete_public_key_iff E nd db fs r HR), (delete_api_key_iff E nd db fs r HR), (delete_mfa_token_iff E nd db fs r HR).
  rewrite <- (ids_in is_pub pk_id (sh_pubs e) (u_pubkeys u) _ (fun x k H => proj1 H) (ho_pubs _ _ M)).
  rewrite <- (ids_in is_key ak_id (sh_keys e) (u_apikeys u) _ (fun x k H => proj1 H) (ho_keys _ _ M)).
  rewrite <- (ids_in is_token t_id (sh_tokens e) (u_mfa u) _ (fun x k H => proj1 H) (ho_tokens _ _ M)).
  split; [|split]; (split; intros (H & C); (split; [|exact C])).
  1, 3, 5: destruct H as (j & v & k & Hv & Hk & Hi); destruct (identity_fun _ _ _ _ _ _ _ _ HR V Hv) as [<- <-]; eauto.
  1, 2, 3: destruct H as (k & Hk & Hi); exists i, u, k; auto.
Qed.
(** The challenge and the flags of IdentifyUser. *)
Lemma asked E fs db l nd r e : register_typed E -> stocked E fs db l -> In e l -> names_login E e (ru_username (rq_user r)) ->
  let q := o_req (exec E nd OpIdentify db fs r) in
  ru_username (rq_user q) = sh_name e /\ ru_email (rq_user q) = sh_mail e /\
  ru_challenges (rq_user q) = match sh_tokens e with [] => ["password"] | _ => ["password"; "mfa"] end.
Proof.
  intros RT R He N q. pose proof (stocked_reachable _ _ _ _ R) as HR. destruct (shelf_at _ _ _ (stocked_holds _ _ _ _ RT R) He) as (i & u & Hu & M).
  destruct (identify_known E nd db fs r i u HR (named_login _ _ _ _ _ _ Hu M N)) as (mail & name & roles & flags & X & H1 & _). unfold q. rewrite X. cbn. clear X q.
  destruct M as [A (m & B1 & B2) _ _ T]. split; [exact A|]. split.
  - destruct H1 as [(X & _)|(y & t & X & ->)]; [congruence|]. rewrite B1 in X. injection X as <- <-. exact B2.
  - destruct (challenges_spec u) as [(X & ->)|(X & ->)]; destruct T; congruence.
Qed.
