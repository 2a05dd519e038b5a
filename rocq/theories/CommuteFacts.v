(** Facts on calls about different accounts (C103). *)
From Coq Require Import String Ascii ZArith NArith Lia Bool Arith List ZifyBool ZifyN ZifyNat.
From stdpp Require Import gmap strings.
From RecordUpdate Require Import RecordSet.
From Verif Require Import GoStr Utf8 Codec GoErr GoTime Role Name Email Random SpecValue.
From Verif Require Import Types Env Password ApiKey PublicKey Mfa User Json Persist Fs Database System UserFacts DbFacts Inv LoadFacts.
From Verif Require Import SpecDb SpecAuth SpecKey SpecMfa SpecIsolation AccountFacts StepFacts IsolationFacts.
Import ListNotations.
Import RecordSetNotations.
Open Scope string_scope.
#[local] Opaque int64 new_id trim_space new_email new_role random_string random_range new_password.

Lemma finish_keys nd db fs r wrap : ref_apikey (o_db (finish nd db fs r wrap)) = ref_apikey db.
Proof.
  unfold finish, commit. destruct (commit_to nd (db_path db) db fs) as [[d f] res] eqn:C.
  apply commit_to_inv in C as [-> _]. destruct res; reflexivity.
Qed.
(** The index entries that point to account [i]. *)
Definition points (db : Database) (i : nat) (s : string) : Prop := ref_apikey db !! s = Some i.
Lemma ret_both db fs r db' fs' r' res i j u : account db i u -> account db' j u ->
  (exists v, account (o_db (ret db fs r res)) i v /\ account (o_db (ret db' fs' r' res)) j v) /\
  ((forall s, points db i s <-> points db' j s) -> forall s, points (o_db (ret db fs r res)) i s <-> points (o_db (ret db' fs' r' res)) j s).
Proof. intros A B. split; [now exists u|]. intros H. exact H. Qed.
Lemma finish_both nd db fs r w db' fs' r' w' i j v : account db i v -> account db' j v ->
  (exists v, account (o_db (finish nd db fs r w)) i v /\ account (o_db (finish nd db' fs' r' w')) j v) /\
  ((forall s, points db i s <-> points db' j s) -> forall s, points (o_db (finish nd db fs r w)) i s <-> points (o_db (finish nd db' fs' r' w')) j s).
Proof. intros A B. unfold account, points. rewrite !finish_users, !finish_keys. split; [now exists v|]. intros H. exact H. Qed.
Lemma writes_memory E nd op db fs db' fs' r i j u : reachable E fs db -> reachable E fs' db' -> In op account_ops -> db_policy db' = db_policy db ->
  identity_of E db r i u -> identity_of E db' r j u ->
  let o := exec E nd op db fs r in let o' := exec E nd op db' fs' r in
  o_res o <> OHang -> o_res o' <> OHang ->
  (exists v, account (o_db o) i v /\ account (o_db o') j v) /\
  ((forall s, points db i s <-> points db' j s) -> forall s, points (o_db o) i s <-> points (o_db o') j s).
Proof.
  intros HR HR' Ho HP A A'. apply (validate_iff _ _ _ _ _ _ HR) in A as V. apply (validate_iff _ _ _ _ _ _ HR') in A' as V'.
  pose proof (validate_at _ _ _ _ _ V) as L. pose proof (validate_at _ _ _ _ _ V') as L'.
  assert (SU : forall v, account (set_user db i v) i v) by (intros; eapply set_user_at; eauto).
  assert (SU' : forall v, account (set_user db' j v) j v) by (intros; eapply set_user_at; eauto).
  unfold account_ops in Ho. cbn [In] in Ho. destruct Ho as [<-|[<-|[<-|[<-|[<-|[<-|[<-|[]]]]]]]]; cbn [exec]; cbv zeta.
  - unfold db_add_public_key. rewrite V, V'. intros _ _. destruct add_public_key as [v|e]; [|eapply ret_both; eauto].
    exact (finish_both nd _ _ _ _ _ _ _ _ i j v (SU v) (SU' v)).
  - unfold db_delete_public_key. rewrite V, V'. intros _ _. destruct delete_public_key as [v|e]; [|eapply ret_both; eauto].
    exact (finish_both nd _ _ _ _ _ _ _ _ i j v (SU v) (SU' v)).
  - unfold db_add_api_key. rewrite V, V'. destruct random_range as [s|]; [|intros; eapply ret_both; eauto].
    destruct new_password as [hk|]; [|intros; eapply ret_both; eauto]. cbv zeta.
    destruct (ref_apikey db !! take 24 s); [intros H; now destruct H|]. destruct (ref_apikey db' !! take 24 s); [intros _ H; now destruct H|].
    intros _ _. destruct add_api_key as [v|e]; [|eapply ret_both; eauto].
    match goal with |- context [finish nd ?d fs ?r1 ?w] => match goal with |- context [finish nd ?d' fs' r1 ?w'] =>
      destruct (finish_both nd d fs r1 w d' fs' r1 w' i j v (SU v) (SU' v)) as [X Y] end end.
    split; [exact X|]. intros H. apply Y. intros t. unfold points. cbn [ref_apikey set set_user].
    destruct (decide (take 24 s = t)) as [<-|N]; [rewrite !lookup_insert; split; congruence|]. rewrite !lookup_insert_ne by assumption. apply H.
  - unfold db_delete_api_key. rewrite V, V'. intros _ _. destruct delete_api_key as [[v|e] r']; [|eapply ret_both; eauto].
    match goal with |- context [finish nd ?d fs ?r1 ?w] => match goal with |- context [finish nd ?d' fs' r1 ?w'] =>
      destruct (finish_both nd d fs r1 w d' fs' r1 w' i j v (SU v) (SU' v)) as [X Y] end end.
    split; [exact X|]. intros H. apply Y. intros t. unfold points. cbn [ref_apikey set set_user].
    destruct (decide (rk_prefix (rq_key r') = t)) as [<-|N]; [rewrite !lookup_delete; split; congruence|]. rewrite !lookup_delete_ne by assumption. apply H.
  - unfold db_change_password. rewrite V, V', HP. intros _ _. destruct (negb (password_policy_ok _ _)); [eapply ret_both; eauto|].
    destruct change_password as [v|e]; [|eapply ret_both; eauto]. exact (finish_both nd _ _ _ _ _ _ _ _ i j v (SU v) (SU' v)).
  - unfold db_add_mfa_token. rewrite V, V'. intros _ _. destruct add_mfa_token as [r' [v|e|]]; try (eapply ret_both; eauto; fail).
    exact (finish_both nd _ _ _ _ _ _ _ _ i j v (SU v) (SU' v)).
  - unfold db_delete_mfa_token. rewrite V, V'. intros _ _. destruct delete_mfa_token as [v|e]; [|eapply ret_both; eauto].
    exact (finish_both nd _ _ _ _ _ _ _ _ i j v (SU v) (SU' v)).
Qed.

(** What calls about an account leave alone in any case. *)
Lemma account_op_rest E nd op db fs r : In op account_ops -> let d := o_db (exec E nd op db fs r) in
  List.length (db_users d) = List.length (db_users db) /\ ref_username d = ref_username db /\ ref_email d = ref_email db /\ ref_id d = ref_id db /\
  db_policy d = db_policy db /\ db_path d = db_path db /\ c_version (db_content d) = c_version (db_content db).
Proof.
  intros Ho. cbv zeta. destruct (exec_shape E nd op db fs r) as [_ R _ _|db1 res Eff C _].
  - destruct R as [|i u u' res G _ V]; [repeat split|]. exfalso. cbn in Ho. intuition discriminate.
  - apply commit_to_inv in C as [-> _].
    destruct Eff as [|fp|u0 addrs u P N U Hu Ha|op i u u' V Up|i u s hk u' V R H K A|i u u' r' V H]; try (exfalso; cbn in Ho; intuition discriminate).
    all: cbn; unfold db_users; cbn; rewrite insert_length; repeat split.
Qed.
Lemma identity_fun E fs db r i u j v : reachable E fs db -> identity_of E db r i u -> identity_of E db r j v -> i = j /\ u = v.
Proof. intros HR A B. apply (validate_iff _ _ _ _ _ _ HR) in A, B. split; congruence. Qed.
Lemma other_identity E nd op db fs r i u r' j v : reachable E fs db -> In op account_ops -> identity_of E db r i u -> identity_of E db r' j v -> i <> j ->
  identity_of E (o_db (exec E nd op db fs r)) r' j v /\ forall s, points (o_db (exec E nd op db fs r)) j s <-> points db j s.
Proof.
  intros HR Ho A B N. pose proof B as ((B1 & B2 & B3) & k & w & (B4 & B5 & B6) & B7).
  assert (NC : ~ concerns E db op r j).
  { assert (Q : concerns E db op r j = exists u, identity_of E db r j u) by (destruct op; try reflexivity; exfalso; cbn in Ho; intuition discriminate).
    rewrite Q. intros (u' & C). destruct (identity_fun _ _ _ _ _ _ _ _ HR A C). contradiction. }
  destruct (others_untouched E nd op db fs r j v HR B2 NC) as [X Y]. split; [|exact Y].
  split; [repeat split; assumption|]. destruct (extends_exec E nd op db fs r) as [_ Ex]. destruct (Ex _ _ B5) as (w' & W1 & W2).
  exists k, w'. unfold same_identity in W2. destruct W2 as (I1 & _ & I3 & _). split; [|congruence].
  split; [exact B4|]. split; [exact W1|]. unfold has_address in *. now rewrite I3.
Qed.
Lemma calls_commute E nd1 nd2 op1 op2 db fs r1 r2 i j u v : reachable E fs db -> In op1 account_ops -> In op2 account_ops ->
  identity_of E db r1 i u -> identity_of E db r2 j v -> i <> j ->
  let a := exec E nd1 op1 db fs r1 in let ab := exec E nd2 op2 (o_db a) (o_fs a) r2 in
  let b := exec E nd2 op2 db fs r2 in let ba := exec E nd1 op1 (o_db b) (o_fs b) r1 in
  returned a -> returned ab -> returned b -> returned ba ->
  db_users (o_db ab) = db_users (o_db ba) /\ ref_username (o_db ab) = ref_username (o_db ba) /\ ref_email (o_db ab) = ref_email (o_db ba) /\
  ref_id (o_db ab) = ref_id (o_db ba) /\ ref_apikey (o_db ab) = ref_apikey (o_db ba) /\ db_policy (o_db ab) = db_policy (o_db ba) /\ db_path (o_db ab) = db_path (o_db ba).
Proof.
  intros HR H1 H2 A B N a ab b ba Ra Rab Rb Rba.
  pose proof (exec_reachable _ _ _ _ _ _ HR Ra) as HRa. pose proof (exec_reachable _ _ _ _ _ _ HR Rb) as HRb. fold a in HRa. fold b in HRb.
  destruct (account_op_rest E nd1 op1 db fs r1 H1) as (La & Ua & Ea & Ia & Pa & Fa & _). fold a in La, Ua, Ea, Ia, Pa, Fa.
  destruct (account_op_rest E nd2 op2 db fs r2 H2) as (Lb & Ub & Eb & Ib & Pb & Fb & _). fold b in Lb, Ub, Eb, Ib, Pb, Fb.
  destruct (account_op_rest E nd2 op2 (o_db a) (o_fs a) r2 H2) as (Lab & Uab & Eab & Iab & Pab & Fab & _). fold ab in Lab, Uab, Eab, Iab, Pab, Fab.
  destruct (account_op_rest E nd1 op1 (o_db b) (o_fs b) r1 H1) as (Lba & Uba & Eba & Iba & Pba & Fba & _). fold ba in Lba, Uba, Eba, Iba, Pba, Fba.
  destruct (other_identity E nd1 op1 db fs r1 i u r2 j v HR H1 A B N) as [Ba Pja]. fold a in Ba, Pja.
  destruct (other_identity E nd2 op2 db fs r2 j v r1 i u HR H2 B A (not_eq_sym N)) as [Ab Pib]. fold b in Ab, Pib.
  (* account j: second call after the first one, and alone *)
  destruct (writes_memory E nd2 op2 db fs (o_db a) (o_fs a) r2 j j v HR HRa H2 Pa B Ba (proj1 Rb) (proj1 Rab)) as [(v' & Vb & Vab) Pj]. fold b in Vb, Pj. fold ab in Vab, Pj.
  destruct (writes_memory E nd1 op1 db fs (o_db b) (o_fs b) r1 i i u HR HRb H1 Pb A Ab (proj1 Ra) (proj1 Rba)) as [(u' & Xa & Xba) Pi]. fold a in Xa, Pi. fold ba in Xba, Pi.
  assert (Pj' : forall s, points (o_db b) j s <-> points (o_db ab) j s) by (apply Pj; intros s; symmetry; apply Pja).
  assert (Pi' : forall s, points (o_db a) i s <-> points (o_db ba) i s) by (apply Pi; intros s; symmetry; apply Pib).
  (* account i through the second call, account j through the first *)
  assert (KI : forall k w, k <> j -> account (o_db a) k w -> account (o_db ab) k w /\ forall s, points (o_db ab) k s <-> points (o_db a) k s).
  { intros k w Nk Hk. assert (NC : ~ concerns E (o_db a) op2 r2 k).
    { assert (Q : concerns E (o_db a) op2 r2 k = exists u, identity_of E (o_db a) r2 k u) by (destruct op2; try reflexivity; exfalso; cbn in H2; intuition discriminate).
      rewrite Q. intros (z & C). destruct (identity_fun _ _ _ _ _ _ _ _ HRa Ba C). congruence. }
    exact (others_untouched E nd2 op2 (o_db a) (o_fs a) r2 k w HRa Hk NC). }
  assert (KJ : forall k w, k <> i -> account (o_db b) k w -> account (o_db ba) k w /\ forall s, points (o_db ba) k s <-> points (o_db b) k s).
  { intros k w Nk Hk. assert (NC : ~ concerns E (o_db b) op1 r1 k).
    { assert (Q : concerns E (o_db b) op1 r1 k = exists u, identity_of E (o_db b) r1 k u) by (destruct op1; try reflexivity; exfalso; cbn in H1; intuition discriminate).
      rewrite Q. intros (z & C). destruct (identity_fun _ _ _ _ _ _ _ _ HRb Ab C). congruence. }
    exact (others_untouched E nd1 op1 (o_db b) (o_fs b) r1 k w HRb Hk NC). }
  assert (KA : forall k w, k <> i -> account db k w -> account (o_db a) k w /\ forall s, points (o_db a) k s <-> points db k s).
  { intros k w Nk Hk. assert (NC : ~ concerns E db op1 r1 k).
    { assert (Q : concerns E db op1 r1 k = exists u, identity_of E db r1 k u) by (destruct op1; try reflexivity; exfalso; cbn in H1; intuition discriminate).
      rewrite Q. intros (z & C). destruct (identity_fun _ _ _ _ _ _ _ _ HR A C). congruence. }
    exact (others_untouched E nd1 op1 db fs r1 k w HR Hk NC). }
  assert (KB : forall k w, k <> j -> account db k w -> account (o_db b) k w /\ forall s, points (o_db b) k s <-> points db k s).
  { intros k w Nk Hk. assert (NC : ~ concerns E db op2 r2 k).
    { assert (Q : concerns E db op2 r2 k = exists u, identity_of E db r2 k u) by (destruct op2; try reflexivity; exfalso; cbn in H2; intuition discriminate).
      rewrite Q. intros (z & C). destruct (identity_fun _ _ _ _ _ _ _ _ HR B C). congruence. }
    exact (others_untouched E nd2 op2 db fs r2 k w HR Hk NC). }
  assert (Vba : account (o_db ba) j v') by (apply KJ; auto).
  assert (Xab : account (o_db ab) i u') by (apply KI; auto).
  assert (Same : forall k, db_users (o_db ab) !! k = db_users (o_db ba) !! k).
  { intros k. destruct (decide (k = i)) as [->|Ni]; [unfold account in *; congruence|]. destruct (decide (k = j)) as [->|Nj]; [unfold account in *; congruence|].
    destruct (db_users db !! k) as [w|] eqn:W.
    - destruct (KA k w Ni W) as [W1 _]. destruct (KI k w Nj W1) as [W2 _]. destruct (KB k w Nj W) as [W3 _]. destruct (KJ k w Ni W3) as [W4 _]. unfold account in *. congruence.
    - apply lookup_ge_None in W. transitivity (@None User); [|symmetry]; apply lookup_ge_None; lia. }
  assert (Pts : forall k s, points (o_db ab) k s <-> points (o_db ba) k s).
  { intros k s. destruct (db_users db !! k) as [w|] eqn:W.
    - destruct (decide (k = i)) as [->|Ni]; [|destruct (decide (k = j)) as [->|Nj]].
      + destruct (KI i u' N Xa) as [_ Q]. rewrite Q. apply Pi'.
      + destruct (KJ j v' (not_eq_sym N) Vb) as [_ Q]. rewrite Q. symmetry. apply Pj'.
      + destruct (KA k w Ni W) as [W1 Q1]. destruct (KI k w Nj W1) as [_ Q2]. destruct (KB k w Nj W) as [W3 Q3]. destruct (KJ k w Ni W3) as [_ Q4].
        now rewrite Q2, Q1, Q4, Q3.
    - apply lookup_ge_None in W. pose proof (inv_reachable _ _ _ (exec_reachable _ _ _ _ _ _ HRa Rab)) as IA. pose proof (inv_reachable _ _ _ (exec_reachable _ _ _ _ _ _ HRb Rba)) as IB.
      fold ab in IA. fold ba in IB. unfold points. split; intros Q; exfalso.
      + apply (inv_key_dom _ _ IA) in Q as [z Q]. apply lookup_lt_Some in Q. lia.
      + apply (inv_key_dom _ _ IB) in Q as [z Q]. apply lookup_lt_Some in Q. lia. }
  split; [now apply list_eq|]. split; [congruence|]. split; [congruence|]. split; [congruence|].
  split; [|split; congruence]. apply map_eq. intros s. destruct (ref_apikey (o_db ab) !! s) as [k|] eqn:Q.
  - symmetry. now apply Pts.
  - destruct (ref_apikey (o_db ba) !! s) as [k|] eqn:Q'; [|reflexivity]. apply Pts in Q'. unfold points in Q'. congruence.
Qed.
Lemma revision_ok E nd op db fs r : In op account_ops -> let o := exec E nd op db fs r in can_write nd fs (db_path db) (db_content (o_db o)) ->
  db_revision (o_db o) = match o_res o with OOk => ((db_revision db + 1) mod two64N)%N | _ => db_revision db end.
Proof.
  intros Ho o W. unfold o in *. destruct (exec_shape E nd op db fs r) as [_ R _ X|db1 res Eff C O].
  - assert (Y : db_revision (o_db (exec E nd op db fs r)) = db_revision db) by (destruct R; reflexivity).
    destruct (o_res (exec E nd op db fs r)) eqn:K; try exact Y.
    exfalso. apply X; [|reflexivity]. cbn in Ho. destruct Ho as [<-|[<-|[<-|[<-|[<-|[<-|[<-|[]]]]]]]]; reflexivity.
  - assert (T : target op db = db_path db) by (destruct op; try reflexivity; exfalso; cbn in Ho; intuition discriminate). rewrite T in C.
    pose proof (commit_to_inv _ _ _ _ _ _ _ C) as [D _]. rewrite D in W.
    apply commit_ok_iff in W as (d & f & W). rewrite W in C. injection C as _ _ <-. cbn in O. rewrite O, D.
    assert (Q : db_revision (db1 <| db_content ::= bump nd |>) = ((db_revision db1 + 1) mod two64N)%N) by reflexivity. rewrite Q.
    assert (R : db_revision db1 = db_revision db) by (destruct Eff; reflexivity). now rewrite R.
Qed.
Lemma calls_commute_answers E nd1 nd2 op1 op2 db fs r1 r2 i j u v : reachable E fs db -> In op1 account_ops -> In op2 account_ops ->
  identity_of E db r1 i u -> identity_of E db r2 j v -> i <> j ->
  let a := exec E nd1 op1 db fs r1 in let ab := exec E nd2 op2 (o_db a) (o_fs a) r2 in
  let b := exec E nd2 op2 db fs r2 in let ba := exec E nd1 op1 (o_db b) (o_fs b) r1 in
  returned a -> returned ab -> returned b -> returned ba ->
  can_write nd1 fs (db_path db) (db_content (o_db a)) -> can_write nd2 (o_fs a) (db_path db) (db_content (o_db ab)) ->
  can_write nd2 fs (db_path db) (db_content (o_db b)) -> can_write nd1 (o_fs b) (db_path db) (db_content (o_db ba)) ->
  same_answer b ab /\ same_answer a ba /\ db_revision (o_db ab) = db_revision (o_db ba).
Proof.
  intros HR H1 H2 A B N a ab b ba Ra Rab Rb Rba Wa Wab Wb Wba.
  pose proof (exec_reachable _ _ _ _ _ _ HR Ra) as HRa. pose proof (exec_reachable _ _ _ _ _ _ HR Rb) as HRb. fold a in HRa. fold b in HRb.
  destruct (account_op_rest E nd1 op1 db fs r1 H1) as (_ & _ & _ & _ & Pa & Fa & _). fold a in Pa, Fa.
  destruct (account_op_rest E nd2 op2 db fs r2 H2) as (_ & _ & _ & _ & Pb & Fb & _). fold b in Pb, Fb.
  destruct (other_identity E nd1 op1 db fs r1 i u r2 j v HR H1 A B N) as [Ba _]. fold a in Ba.
  destruct (other_identity E nd2 op2 db fs r2 j v r1 i u HR H2 B A (not_eq_sym N)) as [Ab _]. fold b in Ab.
  rewrite <- Fa in Wab. rewrite <- Fb in Wba.
  destruct (writes_isolated E nd2 op2 db fs (o_db a) (o_fs a) r2 j j v HR HRa H2 Pa B Ba (proj1 Rb) (proj1 Rab) Wb Wab) as [S1 _].
  destruct (writes_isolated E nd1 op1 db fs (o_db b) (o_fs b) r1 i i u HR HRb H1 Pb A Ab (proj1 Ra) (proj1 Rba) Wa Wba) as [S2 _].
  split; [exact S1|]. split; [exact S2|].
  pose proof (revision_ok E nd1 op1 db fs r1 H1 Wa) as Va. pose proof (revision_ok E nd2 op2 db fs r2 H2 Wb) as Vb.
  pose proof (revision_ok E nd2 op2 (o_db a) (o_fs a) r2 H2 Wab) as Vab. pose proof (revision_ok E nd1 op1 (o_db b) (o_fs b) r1 H1 Wba) as Vba.
  fold a in Va. fold b in Vb. fold ab in Vab. fold ba in Vba. destruct S1 as [S1 _], S2 as [S2 _]. unfold same_answer in *. fold b ab in S1. fold a ba in S2.
  rewrite Vab, Vba, Va, Vb. rewrite S1, S2. destruct (o_res a), (o_res b); reflexivity.
Qed.
Lemma read_after E nd1 nd2 op1 op2 db fs r1 r2 i j u v : reachable E fs db -> In op1 account_ops -> In op2 own_reads ->
  identity_of E db r1 i u -> about E db op2 r2 j v -> i <> j ->
  let a := exec E nd1 op1 db fs r1 in returned a -> same_answer (exec E nd2 op2 db fs r2) (exec E nd2 op2 (o_db a) (o_fs a) r2).
Proof.
  intros HR H1 H2 A B N a Ra. pose proof (exec_reachable _ _ _ _ _ _ HR Ra) as HRa. fold a in HRa.
  assert (Ba : about E (o_db a) op2 r2 j v).
  { assert (NC : ~ concerns E db op1 r1 j).
    { assert (Q : concerns E db op1 r1 j = exists u, identity_of E db r1 j u) by (destruct op1; try reflexivity; exfalso; cbn in H1; intuition discriminate).
      rewrite Q. intros (z & C). destruct (identity_fun _ _ _ _ _ _ _ _ HR A C). congruence. }
    assert (K : account db j v -> account (o_db a) j v) by (intros H; apply (others_untouched E nd1 op1 db fs r1 j v HR H NC)).
    assert (L : resolves_login E db (ru_username (rq_user r2)) j v -> resolves_login E (o_db a) (ru_username (rq_user r2)) j v).
    { unfold resolves_login, resolves_username, resolves_address. tauto. }
    assert (M : identity_of E db r2 j v -> identity_of E (o_db a) r2 j v) by (intros H; now apply (other_identity E nd1 op1 db fs r1 i u r2 j v HR H1 A H N)).
    destruct op2; cbn [about] in *; auto. }
  exact (proj1 (reads_isolated E nd2 op2 db fs (o_db a) (o_fs a) r2 j j v HR HRa H2 B Ba)).
Qed.
