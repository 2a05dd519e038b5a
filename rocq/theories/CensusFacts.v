(** Proofs about who is listed and how (C125). *)
From Coq Require Import String Ascii ZArith NArith Lia Bool Arith List.
From stdpp Require Import gmap strings.
From RecordUpdate Require Import RecordSet.
From Verif Require Import GoStr Utf8 GoErr GoTime Role Name Email Random SpecValue RandomFacts.
From Verif Require Import Types Env Password ApiKey PublicKey Mfa User Json Persist Fs Database System UserFacts DbFacts Inv LoadFacts.
From Verif Require Import SpecDb SpecKey SpecCrypto SpecAuth SpecMfa SpecPersist SpecDefect SpecOutage SpecLedger SpecCensus CryptoFacts AccountFacts StepFacts.
From Verif Require Import PublicKeyFacts PersistFacts StoredFacts ReloadFacts OpenFacts LiveFacts LedgerFacts TookFacts TokenUse ShelfFacts.
Import ListNotations.
Import RecordSetNotations.
Open Scope string_scope.

(** ** Counters *)
Lemma wraps_0 : wraps 0 0.
Proof. split; [lia|]. exists 0%Z. lia. Qed.
Lemma wraps_S n z : wraps n z -> wraps (S n) (int64 (z + 1)).
Proof.
  intros [B (k & K)]. unfold wraps, int64. pose proof (Z.mod_pos_bound (z + 1 + 2 ^ 63) (2 ^ 64) ltac:(lia)) as M. split; [lia|].
  exists (k + (z + 1 + 2 ^ 63) / 2 ^ 64)%Z. pose proof (Z.div_mod (z + 1 + 2 ^ 63) (2 ^ 64) ltac:(lia)). lia.
Qed.
#[local] Opaque int64 new_id trim_space new_email new_role.
Record bears (E : Env) (e : Line) (u : User) : Prop := {
  be_id : String.length (u_id u) = 36%nat;
  be_name : u_username u = ln_name e;
  be_mail : exists m, u_email u = Some m /\ u_emails u = [m] /\ em_address m = ln_mail e;
  be_roles : forall ro, In ro (u_roles u) <-> exists s, In s (ru_roles (rq_user (ln_req e))) /\ role_text s ro;
  be_roles_nodup : NoDup (u_roles u);
  be_full : (trim_space (ru_full_name (rq_user (ln_req e))) = "" /\ u_name u = None) \/
            exists n, name_text (trim_space (ru_full_name (rq_user (ln_req e)))) n /\ u_name u = Some n;
  be_since : u_created u = ln_since e; be_last : u_modified u = ln_last e; be_changes : wraps (ln_changes e) (u_revision u);
  be_rest : u_title u = "" /\ u_avatar u = None /\ u_enabled u = false }.
Lemma bears_frame E e u v : bears E e u -> frame u v -> u_modified v = u_modified u -> u_revision v = u_revision u -> bears E e v.
Proof.
  intros [A1 A2 A3 A4 A5 A6 A7 A8 A9 A10] F M R. unfold frame in F. decompose [and] F. clear F.
  constructor; repeat match goal with H : ?f v = ?f u |- context [?f v] => rewrite H end; assumption.
Qed.
Lemma bears_change E e u v now : bears E e u -> frame u v -> u_modified v = now -> u_revision v = int64 (u_revision u + 1) -> bears E (changed now e) v.
Proof.
  intros [A1 A2 A3 A4 A5 A6 A7 A8 A9 A10] F M R. unfold frame in F. decompose [and] F. clear F.
  constructor; cbn [changed ln_req ln_since ln_last ln_changes]; repeat match goal with H : ?f v = ?f u |- context [?f v] => rewrite H end; try assumption.
  rewrite R. now apply wraps_S.
Qed.
Lemma bears_insert E l us i u v (f : Line -> Line) r :
  Forall2 (bears E) l us -> us !! i = Some u -> same_ci E (u_username u) (ru_username (rq_user r)) ->
  (forall j w, us !! j = Some w -> same_ci E (u_username w) (u_username u) -> j = i) ->
  (forall e, bears E e u -> bears E (f e) v) ->
  Forall2 (bears E) (on_line E r f l) (<[i := v]> us).
Proof.
  intros F Hi Sc U G. apply Forall2_lookup. intros j. unfold on_line. rewrite list_lookup_fmap. destruct (decide (j = i)) as [->|Nj].
  - rewrite list_lookup_insert by (eapply lookup_lt_Some; exact Hi). destruct (Forall2_lookup_r _ _ _ _ _ F Hi) as (e & He & M). rewrite He. cbn. constructor.
    unfold same_ci in Sc. rewrite <- (be_name _ _ _ M), Sc, String.eqb_refl. auto.
  - rewrite list_lookup_insert_ne by congruence. destruct (us !! j) as [w|] eqn:Hj.
    + destruct (Forall2_lookup_r _ _ _ _ _ F Hj) as (e & He & M). rewrite He. cbn. constructor.
      destruct (String.eqb_spec (lower E (ln_name e)) (lower E (ru_username (rq_user r)))) as [X|X]; [|exact M].
      exfalso. apply Nj. apply (U j w Hj). unfold same_ci in *. rewrite (be_name _ _ _ M). congruence.
    + assert (Hl : l !! j = None) by (apply lookup_ge_None; apply lookup_ge_None in Hj; rewrite (Forall2_length _ _ _ F); exact Hj). rewrite Hl. constructor.
Qed.
Lemma bears_update E l us i u v : Forall2 (bears E) l us -> us !! i = Some u -> (forall e, bears E e u -> bears E e v) -> Forall2 (bears E) l (<[i := v]> us).
Proof.
  intros F. revert i. induction F as [|e w l us M F IH]; intros i Hi G; [discriminate|]. destruct i as [|i]; cbn.
  - injection Hi as ->. constructor; auto.
  - constructor; auto.
Qed.
(** ** Calls *)
Lemma count_other E nd op r o l : own op = false \/ took o = false -> count E nd op r o l = l.
Proof. intros H. unfold count. destruct (took o); [|reflexivity]. destruct op; try reflexivity; exfalso; destruct H as [H|H]; discriminate. Qed.
Lemma call_bears E nd op db fs r l : reachable E fs db -> let o := exec E nd op db fs r in
  o_res o <> OCrash -> Forall2 (bears E) l (db_users db) -> Forall2 (bears E) (count E nd op r o l) (db_users (o_db o)).
Proof.
  intros HR o Nc F. destruct (took_shape E nd op db fs r Nc) as [(Ow & T & db1 & res & Eff & C)|(Q & Rc)]; [fold o in T, C|fold o in Q, Rc].
  2:{ rewrite count_other by tauto. destruct Rc as [Rc|Rc]; [|now rewrite Rc]. destruct Rc as [|i u u' res G _ V]; [exact F|]. pose proof (Inv.get_user_at _ _ _ _ _ G) as Hi.
      pose proof (verify_webauthn_uncache E u r) as X. rewrite V in X. cbn in X. apply same_uncached_frame in X as (Fr & _ & _ & _ & X1 & X2 & _).
      rewrite set_user_users. apply (bears_update E l _ i u u' F Hi). intros e M. eapply bears_frame; eauto. }
  pose proof (commit_to_inv _ _ _ _ _ _ _ C) as [Hd _]. clear C. rewrite Hd, commit_users.
  assert (UN : forall i u, db_users db !! i = Some u -> forall j w, db_users db !! j = Some w -> same_ci E (u_username w) (u_username u) -> j = i).
  { intros i u Hi j w Hj S. exact (username_unique E fs db j i w u HR Hj Hi S). }
  destruct Eff as [|fp|u0 addrs u CP NU Hu RU NA|op i u u' V Up|i u s hk u' V Dr Pw Fp A|i u u' r' V D].
  - discriminate Ow.
  - discriminate Ow.
  - unfold count. rewrite T. change (db_users (with_account E db u addrs)) with (db_users db ++ [u])%list. apply Forall2_app; [exact F|]. constructor; [|constructor].
    destruct (effect_add_user E nd db r _ (EffUser E nd db r u0 addrs u CP NU Hu RU NA)) as (v & Nv & Hv & _).
    change (db_users (with_account E db u addrs)) with (db_users db ++ [u])%list in Hv. apply app_inv_head in Hv. injection Hv as <-.
    destruct Nv as [N0 N1 (m & N2 & N3 & N4 & _) N5 N6 N7 _ _ (N8 & N9 & N10) (R1 & _ & _ & _ & _ & R6 & R7 & _)].
    constructor; cbn [ln_req ln_since ln_last ln_changes]; try assumption; [now exists m| |rewrite N10; exact wraps_0|auto].
    destruct N7 as [(X & Y & _)|(n & X & Y & _)]; [left; auto|right; eauto].
  - pose proof (Inv.validate_at _ _ _ _ _ V) as Hi. pose proof V as V'. apply (validate_iff _ fs) in V' as ((_ & _ & Sn) & _); [|assumption].
    rewrite set_user_users. destruct (upd_frame _ _ _ _ _ _ _ Up) as [Fr _]. destruct (upd_revision _ _ _ _ _ _ _ Up) as [Rv Md].
    assert (Hc : count E nd op r o l = on_line E r (changed (nd_clock nd)) l) by (unfold count; rewrite T; destruct Up; reflexivity).
    rewrite Hc. apply (bears_insert E l _ i u u' _ r F Hi Sn (UN i u Hi)). intros e M. eapply bears_change; eauto.
  - pose proof (Inv.validate_at _ _ _ _ _ V) as Hi. pose proof V as V'. apply (validate_iff _ fs) in V' as ((_ & _ & Sn) & _); [|assumption]. unfold count. rewrite T.
    change (db_users (set_user db i u' <| ref_apikey ::= <[take 24 s := i]> |>)) with (<[i := u']> (db_users db)).
    apply (bears_insert E l _ i u u' _ r F Hi Sn (UN i u Hi)). intros e M. apply add_api_key_inv in A as (k & Hk & ->). eapply bears_change; [exact M| | |]; repeat split.
  - pose proof (Inv.validate_at _ _ _ _ _ V) as Hi. pose proof V as V'. apply (validate_iff _ fs) in V' as ((_ & _ & Sn) & _); [|assumption]. unfold count. rewrite T.
    change (db_users (set_user db i u' <| ref_apikey ::= delete (rk_prefix (rq_key r')) |>)) with (<[i := u']> (db_users db)).
    apply (bears_insert E l _ i u u' _ r F Hi Sn (UN i u Hi)). intros e M. apply delete_api_key_inv in D as (_ & -> & _). eapply bears_change; [exact M| | |]; repeat split.
Qed.
(** ** Restarts *)
Lemma restart_frame E nd db fp fs fs' db' P fs0 : register_typed E -> reachable_by E P fs0 db -> on_disk fs fp db -> plain_path fp ->
  all_utf8 (content_texts (db_content db)) -> new_database E nd fp fs = (fs', Loaded db') ->
  exists us, Forall2 (fun u v => frame u v /\ u_modified v = u_modified u /\ u_revision v = u_revision u) (db_users db) us /\ db_users db' = map with_algorithm us.
Proof.
  intros RT HR (s & Hm & Hf) (Ne & T)%ReopenFacts.plain_prefix U O. destruct (open_sound _ _ _ _ _ _ O) as (_ & _ & G).
  destruct (G Ne ltac:(rewrite Hf; eauto)) as (b & c & us & R & D & F & _ & Hu). clear G.
  assert (b = s) as ->. { unfold read_file, expand in R. rewrite T, Hf in R. destruct nd_read_err; congruence. }
  rewrite (unmarshal_marshal _ _ (policy_typed_content E P fs0 db RT HR) Hm), (keep_content _ U) in D. injection D as <-.
  exists us. split; [|exact Hu]. clear - F. change (rc_users (to_raw (drop_caches (db_content db)))) with (map (fun u => Some (to_raw_user u)) (map no_cache (db_users db))) in F.
  revert us F. induction (db_users db) as [|u l IH]; intros us F; inversion F as [|x v ? us' Dv F']; subst; constructor; [|auto].
  destruct Dv as (x & [= <-] & H1 & H2 & H3 & H4). apply map_some_inj in H1. 
  assert (Hm : u_emails v = u_emails u) by (symmetry; exact H1). split; [|split; rewrite H4; reflexivity].
  unfold frame. rewrite Hm. rewrite H4. repeat split.
Qed.
Lemma counted_reachable E fs db l : counted E fs db l -> reachable E fs db.
Proof. exact (traced_reachable E _ _ fs db l). Qed.
Lemma counted_bears E fs db l : register_typed E -> counted E fs db l -> Forall2 (bears E) l (db_users db).
Proof.
  intros RT R. induction R as [nd fp fs fs' db A O|nd op r fs db l R IH o Nh Nc|fs fs' db l R IH|nd fp fs0 fs fs' db db' l R IH D P U O].
  - unfold new_database in O. destruct nd_stat_err; [discriminate|]. assert (X : (if String.eqb fp "" then None else fs !! fp) = None).
    { destruct (String.eqb_spec fp ""); [reflexivity|]. destruct A; [contradiction|assumption]. }
    rewrite X in O. destruct nd_mkdir_err; [discriminate|]. cbv zeta in O. destruct write_db as [fs2 []]; try discriminate. injection O as <- <-. constructor.
  - exact (call_bears E nd op db fs r l (counted_reachable _ _ _ _ R) Nc IH).
  - exact IH.
  - destruct (restart_frame E nd db fp fs fs' db' _ _ RT (counted_reachable _ _ _ _ R) D P U O) as (us & F & ->). clear - IH F.
    revert us F. induction IH as [|e u l us0 M IH1 IH2]; intros us F; inversion F as [|? v ? us' (H1 & H2 & H3) F']; subst; constructor; [|auto].
    apply (bears_frame E e v); [exact (bears_frame E e u v M H1 H2 H3)| | |]; repeat split.
Qed.
(** ** What is listed *)
Lemma line_at E l us e : Forall2 (bears E) l us -> In e l -> exists i u, us !! i = Some u /\ bears E e u.
Proof. intros F H. apply elem_of_list_In, elem_of_list_lookup in H as [i Hi]. destruct (Forall2_lookup_l _ _ _ _ _ F Hi) as (u & Hu & M). eauto. Qed.
Lemma bears_named E db e i u r : account db i u -> bears E e u -> line_named E e r -> identity_of E db r i u.
Proof.
  intros Hu B (L1 & S1 & L2 & S2). destruct (be_mail _ _ _ B) as (m & _ & B1 & B2). split; [split; [exact L1|]; split; [exact Hu|]; unfold has_username; now rewrite (be_name _ _ _ B)|].
  exists i, u. split; [|reflexivity]. split; [exact L2|]. split; [exact Hu|]. exists m. rewrite B1, B2. split; [now left|exact S2].
Qed.
Lemma bears_called E db e i u s : account db i u -> bears E e u -> line_called E e s -> resolves_login E db s i u.
Proof.
  intros Hu B [(A1 & A2 & A3)|(A1 & A2 & A3)]; [left|right]; (split; [exact A1|]; split; [exact A2|]; split; [exact Hu|]).
  - destruct (be_mail _ _ _ B) as (m & _ & B1 & B2). exists m. rewrite B1, B2. split; [now left|exact A3].
  - unfold has_username. now rewrite (be_name _ _ _ B).
Qed.
Lemma bears_lists E e u m : bears E e u -> describes u m -> lists e m.
Proof.
  intros [A1 A2 (em & A3 & _ & A3') A4 A5 A6 A7 A8 A9 (A10 & A11 & A12)] [D1 D2 D3 D4 D5 D6 D7 D8 D9 D10]. constructor; try congruence.
  - destruct D9 as [(X & _)|(x & X & ->)]; congruence.
  - unfold full_text. cbv zeta. destruct A6 as [(X & Y)|(n & X & Y)].
    + left. split; [exact X|]. destruct D8 as [(_ & H)|(n & H & _)]; congruence.
    + right. exists n. split; [exact X|]. destruct D8 as [(H & _)|(n' & H & K)]; [congruence|]. rewrite Y in H. injection H as <-. exact K.
  - split; [congruence|]. split; [|congruence]. destruct D10 as [(_ & H)|(x & H & _)]; congruence.
Qed.
Lemma census E fs db l nd r e : register_typed E -> counted E fs db l -> In e l -> line_named E e r ->
  exists b, exec E nd OpGetUsers db fs r = {| o_db := db; o_fs := fs; o_req := r <| rq_payload := PUsers b |>; o_res := OOk |} /\
    Forall2 lists l (b_items b) /\ b_size b = Z.of_nat (List.length l).
Proof.
  intros RT R He N. pose proof (counted_bears _ _ _ _ RT R) as F. destruct (line_at _ _ _ _ F He) as (i & u & Hu & M).
  destruct (get_users_spec E nd db fs r i u (counted_reachable _ _ _ _ R) (bears_named _ _ _ _ _ _ Hu M N)) as (b & X & D & S). exists b. split; [exact X|].
  split; [|rewrite S, (Forall2_length _ _ _ F); reflexivity]. clear - F D. revert D. generalize (b_items b). induction F as [|x v l us B F IH]; intros ms D; inversion D; subst; constructor; auto. eapply bears_lists; eauto.
Qed.
Lemma census_claims E fs db l nd r e : register_typed E -> counted E fs db l -> In e l -> line_called E e (ru_username (rq_user r)) ->
  let q := rq_user (o_req (exec E nd OpIdentify db fs r)) in
  ru_username q = ln_name e /\ ru_email q = ln_mail e /\ full_text e (ru_full_name q) /\
  forall c, In c (ru_roles q) <-> exists s ro, In s (ru_roles (rq_user (ln_req e))) /\ role_text s ro /\ shows_role ro c.
Proof.
  intros RT R He N q. destruct (line_at _ _ _ _ (counted_bears _ _ _ _ RT R) He) as (i & u & Hu & M).
  destruct (identify_known E nd db fs r i u (counted_reachable _ _ _ _ R) (bears_called _ _ _ _ _ _ Hu M N)) as (mail & name & roles & flags & X & H1 & H2 & H3 & _). unfold q. rewrite X. cbn. clear X q.
  destruct M as [A1 A2 (em & A3 & A3b & A3') A4 A5 A6 A7 A8 A9 _]. split; [exact A2|]. split.
  { destruct H1 as [(X & _)|(y & t & X & ->)]; [congruence|]. rewrite A3b in X. injection X as <- <-. exact A3'. }
  split.
  { unfold full_text. cbv zeta. destruct A6 as [(X & Y)|(n & X & Y)].
    - left. split; [exact X|]. destruct H2 as [(_ & H)|(n & H & _)]; congruence.
    - right. exists n. split; [exact X|]. destruct H2 as [(H & _)|(n' & H & K)]; [congruence|]. rewrite Y in H. injection H as <-. exact K. }
  intros c. split.
  - intros H. apply elem_of_list_In, elem_of_list_lookup in H as [j Hj]. destruct (Forall2_lookup_r _ _ _ _ _ H3 Hj) as (ro & Hro & Sh).
    apply elem_of_list_lookup_2, elem_of_list_In, A4 in Hro as (s & S1 & S2). eauto.
  - intros (s & ro & S1 & S2 & Sh). assert (Hro : In ro (u_roles u)) by (apply A4; eauto). apply elem_of_list_In, elem_of_list_lookup in Hro as [j Hj].
    destruct (Forall2_lookup_l _ _ _ _ _ H3 Hj) as (c' & Hc & Sh'). apply elem_of_list_lookup_2, elem_of_list_In in Hc. assert (c' = c) as -> by (unfold shows_role in *; intuition congruence). exact Hc.
Qed.
