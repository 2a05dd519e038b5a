(** Facts about public keys and the item lists of an account (C30-C34). *)
From Coq Require Import String Ascii ZArith NArith Lia Bool Arith List.
From stdpp Require Import gmap strings.
From RecordUpdate Require Import RecordSet.
From Verif Require Import GoStr Utf8 Codec GoErr Role Name Email Random SpecValue RoleFacts EmailFacts RandomFacts.
From Verif Require Import Types Env Password ApiKey PublicKey Mfa User Json Persist Fs Database System UserFacts DbFacts Inv LoadFacts.
From Verif Require Import SpecDb SpecKey AccountFacts StepFacts.
Import ListNotations.
Import RecordSetNotations.
Open Scope string_scope.
Lemma trim_lead_space w : trim_space (sol w) = sol w -> trim_space (sol (" "%char :: w)) = sol w.
Proof.
  unfold trim_space. rewrite !los_sol. intros H. transitivity (sol (trim_right_l (trim_left_l w))); [|exact H]. do 2 f_equal.
Qed.
#[local] Opaque int64 new_id trim_space new_email new_role.

(** ** Operations on one account *)
Lemma upd_iff E nd op db fs r : reachable E fs db -> In op account_ops -> op <> OpAddAPIKey -> op <> OpDeleteAPIKey ->
  let o := exec E nd op db fs r in
  o_res o = OOk <-> (exists i u u', identity_of E db r i u /\ upd E nd (db_policy db) r u op u') /\ can_write nd fs (db_path db) (db_content (o_db o)).
Proof.
  intros HR Hop N1 N2 o. assert (Cm : commits op = true /\ target op db = db_path db).
  { unfold account_ops in Hop. cbn [In] in Hop. decompose [or] Hop; subst; (split; reflexivity) || contradiction. }
  destruct Cm as [Cm Tg]. split.
  - intros H. unfold o in *. destruct (exec_shape E nd op db fs r) as [_ _ _ N|db1 res Eff C O]; [now destruct (N Cm)|].
    rewrite Tg in C. apply (outcome_ok _ _ O) in H. split; [|now apply (commit_res _ _ _ _ _ _ _ C)].
    unfold account_ops in Hop. cbn [In] in Hop.
    destruct Eff as [| |u0 addrs u P N U Hu Ha|op' i u u' V Up|i u s hk u' V R Hh K A|i u u' r' V D].
    1-3: exfalso; intuition discriminate.
    + exists i, u, u'. split; [now apply (validate_iff _ fs)|exact Up].
    + congruence.
    + congruence.
  - intros [(i & u & u' & V & Up) W]. apply (validate_iff _ fs) in V; [|assumption].
    destruct (effect_exec _ _ _ fs _ _ _ (EffUpd _ _ _ _ _ _ _ _ V Up)) as (res & C & O). unfold o in *. rewrite Tg in C.
    apply (outcome_ok _ _ O). now apply (commit_res _ _ _ _ _ _ _ C).
Qed.
Lemma upd_account E nd op db fs r i u : reachable E fs db -> op <> OpAddAPIKey -> op <> OpDeleteAPIKey -> op <> OpAuthenticate ->
  let o := exec E nd op db fs r in
  In op account_ops -> o_res o = OOk -> identity_of E db r i u -> exists u', account (o_db o) i u' /\ upd E nd (db_policy db) r u op u'.
Proof.
  intros HR N1 N2 N3 o Hop H V. assert (commits op = true) as Cm.
  { unfold account_ops in Hop. cbn [In] in Hop. decompose [or] Hop; subst; reflexivity || contradiction. }
  unfold o in *. destruct (exec_shape E nd op db fs r) as [_ _ _ N|db1 res Eff C O]; [now destruct (N Cm)|].
  apply commit_to_inv in C as [-> _]. apply (validate_iff _ fs) in V; [|assumption].
  unfold account_ops in Hop. cbn [In] in Hop.
  destruct Eff as [| |u0 addrs u1 P N U Hu Ha|op' j v v' V' Up|j v s hk v' V' R Hh K A|j v v' r' V' D].
  1-3: exfalso; intuition discriminate.
  2-3: congruence.
  assert (j = i /\ v = u) as [-> ->] by (split; congruence). exists v'. split; [|exact Up].
  unfold account. change (db_users (set_user db i v' <| db_content ::= bump nd |>)) with (db_users (set_user db i v')).
  rewrite set_user_users. apply list_lookup_insert. apply (validate_at _ _ _ _ _) in V. now apply lookup_lt_Some in V.
Qed.

(** ** Getters (C32) *)
Lemma picked_filter {A} (P : A -> Prop) (f : A -> bool) l : (forall x, f x = true <-> P x) -> picked P l (List.filter f l).
Proof.
  intros H. induction l as [|x l IH]; cbn; [constructor|]. destruct (f x) eqn:F.
  - apply PickTake; [now apply H|exact IH].
  - apply PickSkip; [|exact IH]. rewrite <- H. congruence.
Qed.
Lemma picked_det {A} (P : A -> Prop) l l1 l2 : picked P l l1 -> picked P l l2 -> l1 = l2.
Proof.
  intros H. revert l2. induction H as [|x l l1 Hx H IH|x l l1 Hx H IH]; intros l2 H2; inversion H2; subst; try contradiction; auto. f_equal. auto.
Qed.
Lemma fold_filter {A} (f : A -> bool) (l : list A) (b : Bundle A) :
  fold_left (fun b x => if f x then b_add b x else b) l b = fold_left b_add (List.filter f l) b.
Proof. revert b. induction l as [|x l IH]; intros b; cbn; [reflexivity|]. destruct (f x); apply IH. Qed.
Lemma fold_ext {A B} (f g : B -> A -> B) l b : (forall b x, f b x = g b x) -> fold_left f l b = fold_left g l b.
Proof. intros H. revert b. induction l; intros; cbn; [reflexivity|]. now rewrite H, IHl. Qed.
Lemma bundle_filter {A} (f : A -> bool) (l : list A) :
  fold_left (fun b x => if f x then b_add b x else b) l b_new = {| b_items := List.filter f l; b_size := Z.of_nat (List.length (List.filter f l)) |}.
Proof. rewrite fold_filter, bundle_fold. reflexivity. Qed.

Lemma get_public_keys_spec E nd db fs r i u : reachable E fs db -> identity_of E db r i u ->
  exists l, exec E nd OpGetPublicKeys db fs r = {| o_db := db; o_fs := fs;
      o_req := r <| rq_payload := PPublicKeys {| b_items := l; b_size := Z.of_nat (List.length l) |} |>; o_res := OOk |} /\
    picked (fun k => pk_usage k = rk_usage (rq_key r) /\ pk_disabled k = false) (u_pubkeys u) l.
Proof.
  intros HR V. apply (validate_iff _ fs) in V; [|assumption]. cbn [exec]. unfold db_get_public_keys. rewrite V.
  pose (f := fun k => String.eqb (pk_usage k) (rk_usage (rq_key r)) && negb (pk_disabled k)). exists (List.filter f (u_pubkeys u)). split.
  - rewrite <- bundle_filter. unfold ret. erewrite fold_ext; [reflexivity|]. intros b x. unfold f.
    destruct String.eqb; cbn; [|reflexivity]. destruct pk_disabled; reflexivity.
  - apply picked_filter. intros x. unfold f. rewrite andb_true_iff, String.eqb_eq, negb_true_iff. reflexivity.
Qed.
Lemma get_api_keys_spec E nd db fs r i u : reachable E fs db -> identity_of E db r i u ->
  exists l, exec E nd OpGetAPIKeys db fs r = {| o_db := db; o_fs := fs;
      o_req := r <| rq_payload := PAPIKeys {| b_items := l; b_size := Z.of_nat (List.length l) |} |>; o_res := OOk |} /\
    picked (fun k => ak_usage k = rk_usage (rq_key r) /\ ak_disabled k = false) (u_apikeys u) l.
Proof.
  intros HR V. apply (validate_iff _ fs) in V; [|assumption]. cbn [exec]. unfold db_get_api_keys. rewrite V.
  pose (f := fun k => String.eqb (ak_usage k) (rk_usage (rq_key r)) && negb (ak_disabled k)). exists (List.filter f (u_apikeys u)). split.
  - rewrite <- bundle_filter. unfold ret. erewrite fold_ext; [reflexivity|]. intros b x. unfold f.
    destruct String.eqb; cbn; [|reflexivity]. destruct ak_disabled; reflexivity.
  - apply picked_filter. intros x. unfold f. rewrite andb_true_iff, String.eqb_eq, negb_true_iff. reflexivity.
Qed.
Lemma get_mfa_tokens_spec E nd db fs r i u : reachable E fs db -> identity_of E db r i u ->
  exists l, exec E nd OpGetMfaTokens db fs r = {| o_db := db; o_fs := fs;
      o_req := r <| rq_payload := PMfaTokens {| b_items := l; b_size := Z.of_nat (List.length l) |} |>; o_res := OOk |} /\
    picked (fun t => t_disabled t = false) (u_mfa u) l.
Proof.
  intros HR V. apply (validate_iff _ fs) in V; [|assumption]. cbn [exec]. unfold db_get_mfa_tokens. rewrite V.
  pose (f := fun t => negb (t_disabled t)). exists (List.filter f (u_mfa u)). split.
  - rewrite <- bundle_filter. unfold ret. erewrite fold_ext; [reflexivity|]. intros b x. unfold f. destruct t_disabled; reflexivity.
  - apply picked_filter. intros x. unfold f. rewrite negb_true_iff. reflexivity.
Qed.

(** ** Deletion (C33) *)
Lemma existsb_id {A} (id : A -> string) s l : existsb (fun k => String.eqb (id k) s) l = true <-> exists k, In k l /\ id k = s.
Proof.
  rewrite existsb_exists. split; intros (k & Hk & H); exists k; (split; [exact Hk|]); now apply String.eqb_eq.
Qed.
Lemma picked_without {A} (id : A -> string) s (l : list A) : picked (fun k => id k <> s) l (List.filter (fun k => negb (String.eqb (id k) s)) l).
Proof. apply picked_filter. intros k. rewrite negb_true_iff, String.eqb_neq. reflexivity. Qed.

Lemma delete_public_key_iff E nd db fs r : reachable E fs db -> let o := exec E nd OpDeletePublicKey db fs r in
  o_res o = OOk <-> (exists i u k, identity_of E db r i u /\ In k (u_pubkeys u) /\ pk_id k = rk_id (rq_key r)) /\ can_write nd fs (db_path db) (db_content (o_db o)).
Proof.
  intros HR o. unfold o. rewrite upd_iff by (auto || discriminate || (unfold account_ops; cbn; auto 10)).
  assert (X : (exists i u u', identity_of E db r i u /\ upd E nd (db_policy db) r u OpDeletePublicKey u') <->
    (exists i u k, identity_of E db r i u /\ In k (u_pubkeys u) /\ pk_id k = rk_id (rq_key r))); [|now rewrite X].
  split.
  - intros (i & u & u' & V & Up). inversion Up as [|u1 D| | |]; subst. apply delete_public_key_inv in D as [Ex _].
    apply existsb_id in Ex as (k & Hk & Id). exists i, u, k. auto.
  - intros (i & u & k & V & Hk & Id). exists i, u. eexists. split; [exact V|]. apply UpdDelPk. unfold delete_public_key. cbv zeta.
    rewrite (proj2 (existsb_id pk_id (rk_id (rq_key r)) (u_pubkeys u))) by eauto. reflexivity.
Qed.
Lemma delete_public_key_result E nd db fs r i u : reachable E fs db -> let o := exec E nd OpDeletePublicKey db fs r in
  o_res o = OOk -> identity_of E db r i u ->
  exists u', account (o_db o) i u' /\ picked (fun k => pk_id k <> rk_id (rq_key r)) (u_pubkeys u) (u_pubkeys u') /\
    others_same u u' /\ u_apikeys u' = u_apikeys u /\ u_mfa u' = u_mfa u /\ revised nd u u'.
Proof.
  intros HR o H V. destruct (upd_account E nd OpDeletePublicKey db fs r i u HR) as (u' & Hu' & Up); try discriminate; auto; try (unfold account_ops; cbn; auto 10; fail).
  exists u'. split; [exact Hu'|]. inversion Up as [|u1 D| | |]; subst. apply delete_public_key_inv in D as [_ ->].
  split; [apply picked_without|]. repeat split.
Qed.
Lemma delete_mfa_token_iff E nd db fs r : reachable E fs db -> let o := exec E nd OpDeleteMfaToken db fs r in
  o_res o = OOk <-> (exists i u t, identity_of E db r i u /\ In t (u_mfa u) /\ t_id t = rm_id (rq_mfa r)) /\ can_write nd fs (db_path db) (db_content (o_db o)).
Proof.
  intros HR o. unfold o. rewrite upd_iff by (auto || discriminate || (unfold account_ops; cbn; auto 10)).
  assert (X : (exists i u u', identity_of E db r i u /\ upd E nd (db_policy db) r u OpDeleteMfaToken u') <->
    (exists i u t, identity_of E db r i u /\ In t (u_mfa u) /\ t_id t = rm_id (rq_mfa r))); [|now rewrite X].
  split.
  - intros (i & u & u' & V & Up). inversion Up as [| | | |u1 D]; subst. apply delete_mfa_token_inv in D as [Ex _].
    apply existsb_id in Ex as (k & Hk & Id). exists i, u, k. auto.
  - intros (i & u & k & V & Hk & Id). exists i, u. eexists. split; [exact V|]. apply UpdDelMfa. unfold delete_mfa_token. cbv zeta.
    rewrite (proj2 (existsb_id t_id (rm_id (rq_mfa r)) (u_mfa u))) by eauto. reflexivity.
Qed.
Lemma delete_mfa_token_result E nd db fs r i u : reachable E fs db -> let o := exec E nd OpDeleteMfaToken db fs r in
  o_res o = OOk -> identity_of E db r i u ->
  exists u', account (o_db o) i u' /\ picked (fun t => t_id t <> rm_id (rq_mfa r)) (u_mfa u) (u_mfa u') /\
    others_same u u' /\ u_pubkeys u' = u_pubkeys u /\ u_apikeys u' = u_apikeys u /\ revised nd u u'.
Proof.
  intros HR o H V. destruct (upd_account E nd OpDeleteMfaToken db fs r i u HR) as (u' & Hu' & Up); try discriminate; auto; try (unfold account_ops; cbn; auto 10; fail).
  exists u'. split; [exact Hu'|]. inversion Up as [| | | |u1 D]; subst. apply delete_mfa_token_inv in D as [_ ->].
  split; [apply picked_without|]. repeat split.
Qed.
Lemma delete_api_key_iff E nd db fs r : reachable E fs db -> let o := exec E nd OpDeleteAPIKey db fs r in
  o_res o = OOk <-> (exists i u k, identity_of E db r i u /\ In k (u_apikeys u) /\ ak_id k = rk_id (rq_key r)) /\ can_write nd fs (db_path db) (db_content (o_db o)).
Proof.
  intros HR o. split.
  - intros H. unfold o in *. destruct (exec_shape E nd OpDeleteAPIKey db fs r) as [_ _ _ N|db1 res Eff C O]; [exfalso; now apply N|].
    apply (outcome_ok _ _ O) in H. split; [|now apply (commit_res _ _ _ _ _ _ _ C)].
    inversion Eff as [| | |op' i u u' V Up| |i u u' r' V D]; subst; [inversion Up|]. apply delete_api_key_inv in D as (Ex & _ & _).
    apply existsb_id in Ex as (k & Hk & Id). apply (validate_iff _ fs) in V; [|assumption]. exists i, u, k. auto.
  - intros [(i & u & k & V & Hk & Id) W]. apply (validate_iff _ fs) in V; [|assumption].
    assert (D : exists u' r', delete_api_key nd u r = (inl u', r')).
    { unfold delete_api_key. cbv zeta. rewrite (proj2 (existsb_id ak_id (rk_id (rq_key r)) (u_apikeys u))) by eauto. eauto. }
    destruct D as (u' & r' & D). destruct (effect_exec _ _ _ fs _ _ _ (EffDelKey _ _ _ _ _ _ _ _ V D)) as (res & C & O).
    apply (outcome_ok _ _ O). now apply (commit_res _ _ _ _ _ _ _ C).
Qed.
Lemma delete_api_key_result E nd db fs r i u : reachable E fs db -> let o := exec E nd OpDeleteAPIKey db fs r in
  o_res o = OOk -> identity_of E db r i u ->
  exists u', account (o_db o) i u' /\ picked (fun k => ak_id k <> rk_id (rq_key r)) (u_apikeys u) (u_apikeys u') /\
    others_same u u' /\ u_pubkeys u' = u_pubkeys u /\ u_mfa u' = u_mfa u /\ revised nd u u'.
Proof.
  intros HR o H V. unfold o in *. destruct (exec_shape E nd OpDeleteAPIKey db fs r) as [_ _ _ N|db1 res Eff C O]; [exfalso; now apply N|].
  apply commit_to_inv in C as [-> _]. inversion Eff as [| | |op' j v u' V' Up| |j v u' r' V' D]; subst; [inversion Up|].
  apply (validate_iff _ fs) in V; [|assumption]. assert (j = i /\ v = u) as [-> ->] by (split; congruence).
  exists u'. split.
  { unfold account. change (db_users (set_user db i u' <| ref_apikey ::= delete (rk_prefix (rq_key r')) |> <| db_content ::= bump nd |>)) with (db_users (set_user db i u')).
    rewrite set_user_users. apply list_lookup_insert. eapply lookup_lt_Some, validate_at; eauto. }
  apply delete_api_key_inv in D as (_ & -> & _). split; [apply picked_without|]. repeat split.
Qed.
(** A delete for an item the account does not hold changes nothing. *)
Lemma delete_absent E nd op db fs r : In op [OpDeletePublicKey; OpDeleteAPIKey; OpDeleteMfaToken] -> reachable E fs db ->
  (forall i u, identity_of E db r i u -> match op with
     | OpDeletePublicKey => forall k, In k (u_pubkeys u) -> pk_id k <> rk_id (rq_key r)
     | OpDeleteAPIKey => forall k, In k (u_apikeys u) -> ak_id k <> rk_id (rq_key r)
     | _ => forall t, In t (u_mfa u) -> t_id t <> rm_id (rq_mfa r) end) ->
  let o := exec E nd op db fs r in (exists e, o_res o = OErr e) /\ o_db o = db /\ o_fs o = fs.
Proof.
  intros Hop HR H o. unfold o. clear o. cbn [In] in Hop.
  assert (Nx : forall A (id : A -> string) s l, (forall k, In k l -> id k <> s) -> existsb (fun k => String.eqb (id k) s) l = false).
  { intros A id s l HH. destruct existsb eqn:X; [|reflexivity]. apply existsb_id in X as (k & Hk & Id). now destruct (HH k Hk). }
  destruct Hop as [<-|[<-|[<-|[]]]]; cbn [exec].
  - unfold db_delete_public_key. destruct validate_identity as [[i u]|e] eqn:V; [|cbn; eauto].
    apply (validate_iff _ fs) in V; [|assumption]. unfold delete_public_key. cbv zeta. rewrite (Nx _ pk_id) by (apply (H i u V)). cbn. eauto.
  - unfold db_delete_api_key. destruct validate_identity as [[i u]|e] eqn:V; [|cbn; eauto].
    apply (validate_iff _ fs) in V; [|assumption]. unfold delete_api_key. cbv zeta. rewrite (Nx _ ak_id) by (apply (H i u V)). cbn. eauto.
  - unfold db_delete_mfa_token. destruct validate_identity as [[i u]|e] eqn:V; [|cbn; eauto].
    apply (validate_iff _ fs) in V; [|assumption]. unfold delete_mfa_token. cbv zeta. rewrite (Nx _ t_id) by (apply (H i u V)). cbn. eauto.
Qed.

(** ** Duplicates (C30) *)
Lemma filter_lookup {A} (f : A -> bool) (l : list A) : forall a b x y, (a < b)%nat -> List.filter f l !! a = Some x -> List.filter f l !! b = Some y ->
  exists a' b', (a' < b')%nat /\ l !! a' = Some x /\ l !! b' = Some y.
Proof.
  induction l as [|z l IH]; intros a b x y Lt Ha Hb; [discriminate|]. cbn [List.filter] in Ha, Hb. destruct (f z).
  - destruct b as [|b]; [lia|]. destruct a as [|a].
    + cbn in Ha, Hb. apply elem_of_list_lookup_2, elem_of_list_In, filter_In in Hb as [Hb _].
      apply elem_of_list_In, elem_of_list_lookup in Hb as [c Hc]. exists 0%nat, (S c). split; [lia|]. auto.
    + cbn in Ha, Hb. destruct (IH a b x y) as (a' & b' & L & Ha' & Hb'); auto; [lia|]. exists (S a'), (S b'). split; [lia|]. auto.
  - destruct (IH a b x y) as (a' & b' & L & Ha' & Hb'); auto. exists (S a'), (S b'). split; [lia|]. auto.
Qed.
Lemma ustep_pair E nd db r i u op v k l : ustep E nd db r i u op v -> holds_pair v k l -> holds_pair u k l.
Proof.
  intros St [S (a & b & L & Ha & Hb)]. split; [exact S|]. destruct (ustep_pubkeys _ _ _ _ _ _ _ _ St) as [Eq|[(_ & n & _ & Ex & Eq)|(_ & Eq)]].
  - rewrite Eq in Ha, Hb. eauto.
  - rewrite Eq in Ha, Hb. apply lookup_app_Some in Hb as [Hb|[Hb1 Hb2]].
    + rewrite lookup_app_l in Ha by (apply lookup_lt_Some in Hb; lia). eauto.
    + exfalso. assert (Z : (b - List.length (u_pubkeys u) = 0)%nat).
      { apply lookup_lt_Some in Hb2. cbn in Hb2. lia. }
      rewrite Z in Hb2. injection Hb2 as <-. rewrite lookup_app_l in Ha by lia.
      apply elem_of_list_lookup_2, elem_of_list_In in Ha. apply not_true_iff_false in Ex. apply Ex. apply existsb_exists. exists k. split; [exact Ha|].
      destruct S as [-> ->]. now rewrite !String.eqb_refl.
  - rewrite Eq in Ha, Hb. eapply filter_lookup; eauto.
Qed.
Lemma later_pair E fs db fs' db' i u' k l : later E fs db fs' db' -> account db' i u' -> holds_pair u' k l ->
  exists u, account db i u /\ holds_pair u k l.
Proof.
  intros L. revert i u' k l. refine (later_ind_db E (fun d d' => forall i u' k l, account d' i u' -> holds_pair u' k l -> exists u, account d i u /\ holds_pair u k l) _ _ _ _ _ _ L).
  - eauto.
  - intros nd op d0 d fs0 r IH i u' k l Hu' Hp. destruct (exec_ustep E nd op d fs0 r i u' Hu') as [(u & Hu & St)|(_ & _ & NA)].
    + eapply IH; eauto. eapply ustep_pair; eauto.
    + destruct (na_keys _ _ _ _ NA) as (K & _). destruct Hp as [_ (a & b & _ & Ha & _)]. rewrite K in Ha. destruct a; discriminate.
Qed.
Definition mem_distinct (m : Mem) : Prop := match m with Up d | Stuck d => forall i u k l, account d i u -> ~ holds_pair u k l | Down => True end.
Lemma distinct_steps E w w' : steps E (loads_distinct E) w w' -> mem_distinct (w_mem w) -> mem_distinct (w_mem w').
Proof.
  intros S M. induction S as [w|w1 ev w2 w3 S IH Hev St]; [exact M|]. specialize (IH M).
  destruct St as [nd fp fs m fs' res O N|nd op r fs db|fs m|fs m fs']; cbn [w_mem w_fs] in *; try exact I; try exact IH.
  - unfold after_load. destruct res; try exact IH; try exact I; try congruence. intros i u k l. apply (Hev fs' db i u k l O).
  - assert (Q : forall i u k l, account (o_db (exec E nd op db fs r)) i u -> ~ holds_pair u k l).
    { intros i u k l Hu Hp. destruct (exec_ustep E nd op db fs r i u Hu) as [(u0 & Hu0 & Us)|(_ & _ & NA)].
      - apply (IH i u0 k l Hu0). eapply ustep_pair; eauto.
      - destruct (na_keys _ _ _ _ NA) as (K & _). destruct Hp as [_ (a & b & _ & Ha & _)]. rewrite K in Ha. destruct a; discriminate. }
    unfold after_call. destruct o_res; cbn; auto.
Qed.

(** ** The two encodings of an RSA key (C31) *)
Lemma has_prefix_iff s p : has_prefix s p = true <-> exists r, s = p ++ r.
Proof.
  unfold has_prefix. revert s. induction p as [|a p IH]; intros s.
  - split; [|destruct s; reflexivity]. intros _. now exists s.
  - destruct s as [|b s]; [split; [discriminate|intros (r & ?); discriminate]|].
    change (String.prefix (String a p) (String b s)) with (if ascii_dec a b then String.prefix p s else false). destruct (ascii_dec a b) as [->|N].
    + rewrite IH. split; intros (r & H); exists r; [now rewrite H|]. now injection H.
    + split; [discriminate|]. intros (r & [=]). congruence.
Qed.
Lemma has_suffix_iff s p : has_suffix s p = true <-> exists r, s = r ++ p.
Proof.
  unfold has_suffix. destruct strip_prefix as [r|] eqn:X.
  - apply strip_prefix_spec in X. split; [|reflexivity]. intros _. exists (sol (rev r)). apply los_inj. rewrite los_app, los_sol.
    rewrite <- (rev_involutive (los s)), X, rev_app_distr, rev_involutive. reflexivity.
  - split; [discriminate|]. intros (r & ->). exfalso. apply (proj1 (strip_prefix_None _ _) X (rev (los r))). now rewrite los_app, rev_app_distr.
Qed.
Definition b64_symbol (a : ascii) : bool := is_alnum a || Ascii.eqb a "+" || Ascii.eqb a "/" || Ascii.eqb a "=".
Lemma b64_char_symbol n : (n < 64)%N -> b64_symbol (b64_char n) = true.
Proof. intros H. revert n H. apply (forall_below 64 (fun n => b64_symbol (b64_char n))). vm_compute. reflexivity. Qed.
Lemma b64_symbols l : Forall (fun a => b64_symbol a = true) (b64_encode_l l).
Proof.
  enough (H : forall n l, (List.length l <= n)%nat -> Forall (fun a => b64_symbol a = true) (b64_encode_l l)) by (now apply (H (List.length l))).
  clear l. induction n as [|n IH]; intros l Hl.
  { destruct l; [constructor|cbn in Hl; lia]. }
  assert (M : forall x, (x mod 64 < 64)%N) by (intros; apply N.mod_lt; lia).
  destruct l as [|a [|b [|c t]]]; [constructor| | |].
  - pose proof (Utf8.N_of_ascii_lt a) as Ha. cbn [b64_encode_l]. repeat constructor; apply b64_char_symbol; auto; apply N.div_lt_upper_bound; lia.
  - pose proof (Utf8.N_of_ascii_lt a) as Ha. pose proof (Utf8.N_of_ascii_lt b) as Hb. cbn [b64_encode_l].
    repeat constructor; apply b64_char_symbol; auto; apply N.div_lt_upper_bound; lia.
  - pose proof (Utf8.N_of_ascii_lt a) as Ha. pose proof (Utf8.N_of_ascii_lt b) as Hb. pose proof (Utf8.N_of_ascii_lt c) as Hc.
    cbn [b64_encode_l b64_word app]. repeat (constructor; [apply b64_char_symbol; auto; apply N.div_lt_upper_bound; lia|]). apply IH. cbn in Hl. lia.
Qed.
Lemma b64_ne s : s <> "" -> los (b64_encode s) <> [].
Proof. unfold b64_encode. rewrite los_sol. intros H. destruct (los s) as [|a [|b [|c t]]] eqn:X; try discriminate. apply los_nil_iff in X. congruence. Qed.
(** A word that starts and ends with such a symbol is left alone by TrimSpace. *)
Lemma space_seq_no_symbol p a : In p space_seqs -> In a p -> b64_symbol a = false.
Proof.
  assert (F : forallb (forallb (fun a => negb (b64_symbol a))) space_seqs = true) by (vm_compute; reflexivity).
  intros Hp Ha. rewrite forallb_forall in F. specialize (F p Hp). rewrite forallb_forall in F. apply negb_true_iff. auto.
Qed.
Lemma trim_word s a m b : los s = (a :: m ++ [b])%list \/ (los s = [a] /\ a = b) -> b64_symbol a = true -> b64_symbol b = true -> trim_space s = s.
Proof.
  intros H Ha Hb. apply trim_space_id. split; intros p r Hp Eq.
  - destruct p as [|x p]; [now apply space_seqs_ne in Hp|]. assert (x = a) as ->.
    { destruct H as [H|[H _]]; rewrite H in Eq; now injection Eq. }
    rewrite (space_seq_no_symbol _ a Hp) in Ha; [discriminate|now left].
  - assert (p <> []) as Np by (intros ->; now apply space_seqs_ne in Hp). destruct (exists_last Np) as (q & x & ->).
    assert (x = b) as ->.
    { destruct H as [H|[H ->]]; rewrite H in Eq; rewrite app_assoc in Eq.
      - change (a :: m ++ [b])%list with ((a :: m) ++ [b])%list in Eq. now apply app_inj_tail in Eq as [_ <-].
      - change [b] with ([] ++ [b])%list in Eq. now apply app_inj_tail in Eq as [_ <-]. }
    rewrite (space_seq_no_symbol _ b Hp) in Hb; [discriminate|]. apply in_app_iff. right. now left.
Qed.
Lemma cut_blank_none l : Forall (fun a => b64_symbol a = true) l -> cut_blank l = None.
Proof.
  induction l as [|a l IH]; intros H; [reflexivity|]. inversion H; subst. cbn [cut_blank]. rewrite IH by assumption.
  destruct (Ascii.eqb_spec a " "); [subst; discriminate|]. destruct (Ascii.eqb_spec a "009"); [subst; discriminate|]. reflexivity.
Qed.
Lemma replace_all_none fuel l : ~ In ":"%char l -> replace_all_l fuel (los "SHA256:") [] l = l.
Proof.
  revert l. induction fuel as [|f IH]; intros l H; [reflexivity|]. cbn [replace_all_l]. destruct strip_prefix as [r|] eqn:S.
  - apply strip_prefix_spec in S. exfalso. apply H. rewrite S. apply in_app_iff. left. cbn. auto 10.
  - destruct l as [|a l]; [reflexivity|]. rewrite IH; [reflexivity|]. intros X. apply H. now right.
Qed.
Lemma replace_fp f : ~ In ":"%char (los f) -> replace_all ("SHA256:" ++ f) "SHA256:" "" = f.
Proof.
  intros H. unfold replace_all. change (String.length ("SHA256:" ++ f)) with (S (6 + String.length f)). cbn [replace_all_l].
  assert (S : strip_prefix (los "SHA256:") (los ("SHA256:" ++ f)) = Some (los f)) by (apply strip_prefix_spec, los_app).
  rewrite S. change (los "") with (@nil ascii). cbn [app]. rewrite replace_all_none by assumption. apply sol_los.
Qed.
Lemma spaces_count a b s : (exists x y, los s = (x ++ " "%char :: y)%list /\ ~ In " "%char x /\ ~ In " "%char y) -> s <> a ++ "RSA PUBLIC KEY" ++ b.
Proof.
  intros (x & y & H & Hx & Hy) Eq. assert (C : count_occ ascii_dec (los s) " "%char = 1%nat).
  { rewrite H, count_occ_app. cbn [count_occ]. destruct (ascii_dec " " " "); [|congruence].
    rewrite (proj1 (count_occ_not_In _ _ _) Hx), (proj1 (count_occ_not_In _ _ _) Hy). reflexivity. }
  rewrite Eq, !los_app, !count_occ_app in C. change (count_occ ascii_dec (los "RSA PUBLIC KEY") " "%char) with 2%nat in C. lia.
Qed.
Definition blank_key (nd : Nd) (r : Request) : PublicKey :=
  {| pk_id := random_string 40 (nd_id nd); pk_usage := rk_usage (rq_key r); pk_type := ""; pk_fp := ""; pk_fp_md5 := "";
     pk_comment := rk_comment (rq_key r); pk_payload := rk_payload (rq_key r); pk_openssh := ""; pk_expired := false;
     pk_expired_at := 0; pk_created := nd_clock nd; pk_disabled := false; pk_disabled_at := 0 |}.
Definition flagged (nd : Nd) (r : Request) (p : PublicKey) : PublicKey :=
  if rk_disabled (rq_key r) then p <| pk_disabled := true |> <| pk_disabled_at := nd_clock nd |> else p.
Lemma new_public_key_eq E nd r : new_public_key E nd r =
  match parse_pk E nd (blank_key nd r) with inl p => inl (flagged nd r p) | inr e => inr e end.
Proof. reflexivity. Qed.
Lemma usage_ok u : (u = "ssh" \/ u = "gpg") -> negb (String.eqb u "ssh" || String.eqb u "gpg") = false.
Proof. intros [->| ->]; reflexivity. Qed.
Lemma new_pem E nd r k f : rk_usage (rq_key r) = "ssh" -> pem_form E (rk_payload (rq_key r)) k -> rsa_key k f ->
  exists p, new_public_key E nd r = inl p /\ pk_usage p = "ssh" /\ pk_type p = "ssh-rsa" /\ pk_fp p = f /\ pk_id p = random_string 40 (nd_id nd).
Proof.
  intros U [(a & b & Hs) (bs & P & X)] (T & _ & Sh & NC). rewrite new_public_key_eq.
  assert (Eq : exists p, parse_pk E nd (blank_key nd r) = inl p /\ pk_usage p = "ssh" /\ pk_type p = "ssh-rsa" /\ pk_fp p = f /\ pk_id p = random_string 40 (nd_id nd)).
  { unfold parse_pk. change (pk_usage (blank_key nd r)) with (rk_usage (rq_key r)). change (pk_payload (blank_key nd r)) with (rk_payload (rq_key r)).
    rewrite usage_ok by auto. destruct (String.eqb_spec (rk_payload (rq_key r)) "") as [Z|_].
    { exfalso. rewrite Hs in Z. apply (f_equal String.length) in Z. rewrite <- !length_los, !los_app, !app_length in Z. cbn in Z. lia. }
    rewrite (proj2 (contains_spec _ _)) by eauto. unfold parse_rsa. change (pk_usage (blank_key nd r)) with (rk_usage (rq_key r)).
    change (pk_payload (blank_key nd r)) with (rk_payload (rq_key r)). rewrite U. cbn [String.eqb negb Ascii.eqb Bool.eqb]. rewrite P.
    change (negb ("RSA PUBLIC KEY" =? "RSA PUBLIC KEY")) with false. cbv iota. rewrite X. eexists. split; [reflexivity|].
    split; [exact U|]. split; [exact T|]. split; [|reflexivity]. change (replace_all (sk_sha256 k) "SHA256:" "" = f). rewrite Sh. now apply replace_fp. }
  destruct Eq as (p & -> & Eq). eexists. split; [reflexivity|]. unfold flagged. destruct rk_disabled; exact Eq.
Qed.
Lemma symbols_no_space l : Forall (fun a => b64_symbol a = true) l -> ~ In " "%char l.
Proof. rewrite List.Forall_forall. intros H X. apply H in X. discriminate. Qed.
Lemma new_openssh E nd r k f : rk_usage (rq_key r) = "ssh" \/ rk_usage (rq_key r) = "gpg" -> ssh_form E (rk_payload (rq_key r)) k -> rsa_key k f ->
  exists p, new_public_key E nd r = inl p /\ pk_usage p = rk_usage (rq_key r) /\ pk_type p = "ssh-rsa" /\ pk_fp p = "SHA256:" ++ f /\
    Some (pk_payload p) = sk_pem k /\ pk_id p = random_string 40 (nd_id nd).
Proof.
  intros U (blob & Nb & Hs & Hk) (T & Pm & Sh & NC). rewrite new_public_key_eq.
  pose proof (b64_symbols (los blob)) as Sy. pose proof (b64_ne _ Nb) as Ne. unfold b64_encode in Ne, Hs. rewrite los_sol in Ne. set (w := b64_encode_l (los blob)) in *.
  assert (Hl : los (rk_payload (rq_key r)) = (los "ssh-rsa" ++ " "%char :: w)%list) by (rewrite Hs, los_app, los_sol; reflexivity).
  assert (exists m b, w = (m ++ [b])%list) as (m & z & Hw) by (destruct (exists_last Ne) as (m & b & ->); eauto).
  assert (Hz : b64_symbol z = true) by (rewrite Hw in Sy; apply List.Forall_app in Sy as [_ Sy]; now inversion Sy).
  assert (Tr : trim_space (rk_payload (rq_key r)) = rk_payload (rq_key r)).
  { apply (trim_word _ "s" (los "sh-rsa " ++ m) z); auto. left. rewrite Hl, Hw. cbn. reflexivity. }
  assert (Tw : trim_space (sol (" "%char :: w)) = sol w).
  { assert (Tw' : trim_space (sol w) = sol w).
    { assert (exists a, hd_error w = Some a /\ b64_symbol a = true) as (a & Ha & Sa).
      { destruct w as [|a w']; [congruence|]. exists a. split; [reflexivity|]. now inversion Sy. }
      destruct m as [|a' m].
      - apply (trim_word _ z [] z); auto. right. rewrite los_sol. auto.
      - apply (trim_word _ a' m z); auto; [left; rewrite los_sol; exact Hw|]. rewrite Hw in Ha. injection Ha as ->. exact Sa. }
    now apply trim_lead_space. }
  assert (Eq : exists p, parse_pk E nd (blank_key nd r) = inl p /\ pk_usage p = rk_usage (rq_key r) /\ pk_type p = "ssh-rsa" /\ pk_fp p = "SHA256:" ++ f /\
    Some (pk_payload p) = sk_pem k /\ pk_id p = random_string 40 (nd_id nd)).
  { unfold parse_pk. change (pk_usage (blank_key nd r)) with (rk_usage (rq_key r)). change (pk_payload (blank_key nd r)) with (rk_payload (rq_key r)).
    rewrite usage_ok by auto. destruct (String.eqb_spec (rk_payload (rq_key r)) "") as [Z|_]; [rewrite Z in Hl; discriminate|].
    destruct contains eqn:Cn.
    { apply contains_spec in Cn as (a & b & Eq). exfalso. revert Eq. apply spaces_count. exists (los "ssh-rsa"), w. split; [exact Hl|].
      split; [cbn; intuition discriminate|now apply symbols_no_space]. }
    assert (Pf : has_prefix (rk_payload (rq_key r)) "ssh-rsa " = true).
    { apply has_prefix_iff. exists (sol w). exact Hs. }
    rewrite Pf. unfold parse_openssh. change (pk_payload (blank_key nd r)) with (rk_payload (rq_key r)). rewrite Tr, Hl.
    change (cut_blank (los "ssh-rsa" ++ " "%char :: w)%list) with (Some (los "ssh-rsa", " "%char :: w)). cbv iota beta.
    change (List.length (los "ssh-rsa") <? 20)%nat with true. cbv iota. rewrite Tw, los_sol. rewrite cut_blank_none by assumption. cbv iota beta.
    change (b64_decode_l w) with (b64_decode_l (b64_encode_l (los blob))). rewrite b64_roundtrip_l, sol_los, Hk.
    rewrite T. cbn [String.eqb Ascii.eqb Bool.eqb]. destruct (sk_pem k) as [pem|]; [|congruence].
    eexists. split; [reflexivity|]. split; [reflexivity|]. split; [reflexivity|]. split; [exact Sh|]. split; reflexivity. }
  destruct Eq as (p & -> & Eq). eexists. split; [reflexivity|]. unfold flagged. destruct rk_disabled; exact Eq.
Qed.

(** ** AddPublicKey *)
Lemma add_public_key_ok E nd u r : (exists u', upd E nd r.1 r.2 u OpAddPublicKey u') <->
  exists k, new_public_key E nd r.2 = inl k /\ ~ holds_fp u (pk_type k) (pk_fp k).
Proof.
  assert (Hf : forall k, existsb (fun x => String.eqb (pk_type x) (pk_type k) && String.eqb (pk_fp x) (pk_fp k)) (u_pubkeys u) = true <-> holds_fp u (pk_type k) (pk_fp k)).
  { intros k. rewrite existsb_exists. unfold holds_fp. split; intros (x & Hx & H); exists x; (split; [exact Hx|]).
    - apply andb_true_iff in H as [H1 H2]. apply String.eqb_eq in H1, H2. auto.
    - destruct H as [-> ->]. now rewrite !String.eqb_refl. }
  split.
  - intros (u' & Up). inversion Up as [u1 A| | | |]; subst. apply add_public_key_inv in A as (k & K & Ex & _). exists k. split; [exact K|].
    intros H. apply Hf in H. congruence.
  - intros (k & K & N). eexists. apply UpdAddPk. unfold add_public_key. rewrite K. destruct existsb eqn:Ex; [apply Hf in Ex; contradiction|reflexivity].
Qed.
Lemma add_public_key_iff E nd db fs r : reachable E fs db -> let o := exec E nd OpAddPublicKey db fs r in
  o_res o = OOk <-> (exists i u k, identity_of E db r i u /\ new_public_key E nd r = inl k /\ ~ holds_fp u (pk_type k) (pk_fp k)) /\
    can_write nd fs (db_path db) (db_content (o_db o)).
Proof.
  intros HR o. unfold o. rewrite upd_iff by (auto || discriminate || (unfold account_ops; cbn; auto 10)).
  assert (X : (exists i u u', identity_of E db r i u /\ upd E nd (db_policy db) r u OpAddPublicKey u') <->
    (exists i u k, identity_of E db r i u /\ new_public_key E nd r = inl k /\ ~ holds_fp u (pk_type k) (pk_fp k))); [|now rewrite X].
  split.
  - intros (i & u & u' & V & Up). destruct (proj1 (add_public_key_ok E nd u (db_policy db, r))) as (k & K & N); [exists u'; exact Up|]. exists i, u, k. auto.
  - intros (i & u & k & V & K & N). destruct (proj2 (add_public_key_ok E nd u (db_policy db, r))) as (u' & Up); [exists k; auto|]. exists i, u, u'. auto.
Qed.
Lemma add_public_key_result E nd db fs r i u : reachable E fs db -> let o := exec E nd OpAddPublicKey db fs r in
  o_res o = OOk -> identity_of E db r i u ->
  exists u' k, account (o_db o) i u' /\ new_public_key E nd r = inl k /\ u_pubkeys u' = (u_pubkeys u ++ [k])%list /\
    others_same u u' /\ u_apikeys u' = u_apikeys u /\ u_mfa u' = u_mfa u /\ revised nd u u'.
Proof.
  intros HR o H V. destruct (upd_account E nd OpAddPublicKey db fs r i u HR) as (u' & Hu' & Up); try discriminate; auto; try (unfold account_ops; cbn; auto 10; fail).
  inversion Up as [u1 D| | | |]; subst. apply add_public_key_inv in D as (k & K & _ & ->). eexists _, k. split; [exact Hu'|]. split; [exact K|].
  split; [reflexivity|]. repeat split.
Qed.
Lemma identity_det E fs db r i u j v : reachable E fs db -> identity_of E db r i u -> identity_of E db r j v -> j = i /\ v = u.
Proof. intros HR A B. apply (validate_iff _ fs) in A, B; [|assumption|assumption]. split; congruence. Qed.
Lemma add_fp E nd db fs r i u k : reachable E fs db -> identity_of E db r i u -> new_public_key E nd r = inl k ->
  let o := exec E nd OpAddPublicKey db fs r in
  o_res o = OOk <-> ~ holds_fp u (pk_type k) (pk_fp k) /\ can_write nd fs (db_path db) (db_content (o_db o)).
Proof.
  intros HR V K o. unfold o. rewrite add_public_key_iff by assumption. split.
  - intros [(j & v & k' & V' & K' & N) W]. destruct (identity_det E fs db r i u j v HR V V') as [-> ->]. split; [|exact W]. congruence.
  - intros [N W]. split; [|exact W]. exists i, u, k. auto.
Qed.

(** ** Usage and payload (C34) *)
Lemma new_public_key_shape E nd r p : pem_nonempty E -> new_public_key E nd r = inl p ->
  (pk_usage p = "ssh" \/ pk_usage p = "gpg") /\ pk_usage p = rk_usage (rq_key r) /\ pk_payload p <> "" /\ pk_disabled p = rk_disabled (rq_key r) /\
  pk_expired p = false /\ pk_created p = nd_clock nd.
Proof.
  intros PN. rewrite new_public_key_eq. destruct (parse_pk E nd (blank_key nd r)) as [q|] eqn:X; [|discriminate]. intros [=<-].
  assert (Q : (pk_usage q = "ssh" \/ pk_usage q = "gpg") /\ pk_usage q = rk_usage (rq_key r) /\ pk_payload q <> "" /\ pk_disabled q = false /\
    pk_expired q = false /\ pk_created q = nd_clock nd).
  2:{ unfold flagged. destruct rk_disabled; [|exact Q]. destruct Q as (A & B & C & D & F & G). repeat split; auto. }
  unfold parse_pk in X. change (pk_usage (blank_key nd r)) with (rk_usage (rq_key r)) in X. change (pk_payload (blank_key nd r)) with (rk_payload (rq_key r)) in X.
  assert (U : forall s, negb (String.eqb s "ssh" || String.eqb s "gpg") = false -> s = "ssh" \/ s = "gpg").
  { intros s. destruct (String.eqb_spec s "ssh"), (String.eqb_spec s "gpg"); auto; discriminate. }
  destruct (negb _) eqn:Us; [discriminate|]. apply U in Us. clear U. destruct (String.eqb_spec (rk_payload (rq_key r)) "") as [|Ne]; [discriminate|].
  destruct contains.
  { unfold parse_rsa in X. destruct (negb _); [discriminate|]. destruct e_pem as [[ty bs]|]; [|discriminate]. destruct (negb _); [discriminate|].
    destruct e_pkix; try discriminate. injection X as <-. repeat split; auto. }
  destruct has_prefix.
  { unfold parse_openssh in X. destruct (match cut_blank _ with Some x => x | None => _ end) as [w rest].
    match type of X with (let '(_, _) := ?c in _) = _ => destruct c as [[b64 comment] openssh] end.
    destruct b64_decode_l as [blob|]; [|discriminate]. destruct (e_ssh E (sol blob)) as [k|] eqn:K; [|discriminate]. cbv zeta in X.
    destruct String.eqb; [|discriminate]. destruct (sk_pem k) as [pem|] eqn:P; [|discriminate]. injection X as <-.
    split; [exact Us|]. split; [reflexivity|]. split; [|repeat split]. intros Z. change (pem = "") in Z. subst. now apply (PN _ _ K). }
  destruct contains; [|discriminate].
  unfold parse_pgp in X. cbv zeta in X. destruct has_prefix eqn:Hp; [|discriminate]. cbn [negb] in X. destruct has_suffix; [|discriminate]. cbn [negb] in X.
  destruct e_pgp as [[|ent [|? ?]]|]; try discriminate. destruct (pg_primary ent); [|discriminate]. destruct (pg_names ent); [discriminate|].
  destruct pgp_algo as [[algo ty]|]; [|discriminate]. injection X as <-.
  split; [exact Us|]. split; [reflexivity|]. split; [|repeat split]. apply has_prefix_iff in Hp as (w & Hp). intros Z.
  change (trim_space (rk_payload (rq_key r)) = "") in Z. change (trim_space (rk_payload (rq_key r)) = pgp_begin ++ w) in Hp. rewrite Z in Hp. discriminate.
Qed.
Lemma new_pgp E nd r : rk_usage (rq_key r) = "ssh" \/ rk_usage (rq_key r) = "gpg" -> pgp_form E (rk_payload (rq_key r)) ->
  exists p, new_public_key E nd r = inl p /\ pk_usage p = rk_usage (rq_key r) /\ In (pk_type p) ["rsa"; "dsa"; "ecdh"; "ecdsa"].
Proof.
  intros U ((b & Hb) & N1 & N2 & k & n & ns & Pg & Al). rewrite new_public_key_eq.
  enough (Q : exists p, parse_pk E nd (blank_key nd r) = inl p /\ pk_usage p = rk_usage (rq_key r) /\ In (pk_type p) ["rsa"; "dsa"; "ecdh"; "ecdsa"]).
  { destruct Q as (p & -> & Q). eexists. split; [reflexivity|]. unfold flagged. destruct rk_disabled; exact Q. }
  unfold parse_pk. change (pk_usage (blank_key nd r)) with (rk_usage (rq_key r)). change (pk_payload (blank_key nd r)) with (rk_payload (rq_key r)).
  rewrite usage_ok by auto. destruct (String.eqb_spec (rk_payload (rq_key r)) "") as [Z|_].
  { exfalso. rewrite Z in Hb. assert (trim_space "" = "") as T0 by (apply trim_space_id; split; intros [|? ?] [|? ?] Hp X; try discriminate; now apply space_seqs_ne in Hp).
    rewrite T0 in Hb. discriminate. }
  destruct (contains _ "RSA PUBLIC KEY") eqn:C1; [apply contains_spec in C1 as (x & y & C1); now apply N1 in C1|].
  destruct (has_prefix _ "ssh-rsa ") eqn:C2; [apply has_prefix_iff in C2 as (x & C2); now apply N2 in C2|].
  assert (C3 : contains (rk_payload (rq_key r)) "BEGIN PGP PUBLIC KEY BLOCK" = true).
  { apply contains_spec. destruct (trim_space_spec (rk_payload (rq_key r))) as (_ & x & y & _ & _ & Eq). rewrite Hb in Eq.
    exists (sol (x ++ los "-----")%list), ("-----" ++ b ++ "-----END PGP PUBLIC KEY BLOCK-----" ++ sol y). apply los_inj. rewrite Eq, !los_app, !los_sol.
    change (los "-----BEGIN PGP PUBLIC KEY BLOCK-----") with (los "-----" ++ los "BEGIN PGP PUBLIC KEY BLOCK" ++ los "-----")%list.
    rewrite <- !app_assoc. reflexivity. }
  rewrite C3. unfold parse_pgp. cbv zeta. change (pk_payload (blank_key nd r <| pk_payload := trim_space (pk_payload (blank_key nd r)) |>)) with (trim_space (rk_payload (rq_key r))).
  rewrite (proj2 (has_prefix_iff _ _)) by (eexists; exact Hb). cbn [negb].
  rewrite (proj2 (has_suffix_iff _ _)). 2:{ exists ("-----BEGIN PGP PUBLIC KEY BLOCK-----" ++ b). rewrite Hb. apply los_inj. rewrite !los_app. now rewrite <- app_assoc. }
  cbn [negb]. rewrite Pg. cbn [pg_primary pg_names].
  assert (G : exists a ty, pgp_algo (pg_algo k) = Some (a, ty) /\ In ty ["rsa"; "dsa"; "ecdh"; "ecdsa"]).
  { cbn [In] in Al. decompose [or] Al; try contradiction; match goal with H : _ = pg_algo k |- _ => rewrite <- H end; cbv; eauto 10. }
  destruct G as (a & ty & -> & G). eexists. split; [reflexivity|]. split; [reflexivity|exact G].
Qed.

Lemma add_duplicate E nd db fs r i u k : reachable E fs db -> identity_of E db r i u ->
  new_public_key E nd r = inl k -> holds_fp u (pk_type k) (pk_fp k) ->
  exists e, exec E nd OpAddPublicKey db fs r = {| o_db := db; o_fs := fs; o_req := r; o_res := OErr e |}.
Proof.
  intros HR V K (x & Hx & T & F). apply (validate_iff _ fs) in V; [|assumption]. cbn [exec]. unfold db_add_public_key. rewrite V. unfold add_public_key. rewrite K.
  assert (Ex : existsb (fun x => String.eqb (pk_type x) (pk_type k) && String.eqb (pk_fp x) (pk_fp k)) (u_pubkeys u) = true).
  { apply existsb_exists. exists x. split; [exact Hx|]. now rewrite T, F, !String.eqb_refl. }
  rewrite Ex. eexists. reflexivity.
Qed.
Lemma fp_differ f : f <> "SHA256:" ++ f.
Proof. intros H. apply (f_equal (fun s => List.length (los s))) in H. rewrite los_app, app_length in H. change (List.length (los "SHA256:")) with 7%nat in H. lia. Qed.
Lemma both_stored E nd nd' db fs r r' i u k f : reachable E fs db -> identity_of E db r i u -> rq_user r' = rq_user r ->
  rsa_key k f -> rk_usage (rq_key r) = "ssh" -> rk_usage (rq_key r') = "ssh" ->
  (pem_form E (rk_payload (rq_key r)) k /\ ssh_form E (rk_payload (rq_key r')) k /\ ~ holds_fp u "ssh-rsa" ("SHA256:" ++ f)) \/
  (ssh_form E (rk_payload (rq_key r)) k /\ pem_form E (rk_payload (rq_key r')) k /\ ~ holds_fp u "ssh-rsa" f) ->
  let o := exec E nd OpAddPublicKey db fs r in let o' := exec E nd' OpAddPublicKey (o_db o) (o_fs o) r' in
  o_res o = OOk -> can_write nd' (o_fs o) (db_path (o_db o)) (db_content (o_db o')) -> o_res o' = OOk.
Proof.
  intros HR V Eu K U U' Fm o o' H W. pose proof (exec_reachable E nd OpAddPublicKey db fs r HR (ok_returned _ H)) as HR'. fold o in HR'.
  destruct (add_public_key_result E nd db fs r i u HR H V) as (u' & p & Hu' & Np & Ks & (SI & _) & _). fold o in Hu'.
  assert (V' : identity_of E (o_db o) r' i u').
  { destruct V as [(L1 & Hu & Un) (j & v & (L2 & Hv & Ha) & Id)]. unfold identity_of. rewrite Eu. destruct SI as (S1 & S2 & S3 & _). split.
    - split; [exact L1|]. split; [exact Hu'|]. unfold has_username, same_ci in *. congruence.
    - destruct (exec_account E nd OpAddPublicKey db fs r j v Hv) as (v' & Hv' & Us). fold o in Hv'.
      destruct (decide (j = i)) as [->|Nj].
      + assert (v' = u') as -> by (unfold account in *; congruence). assert (v = u) as -> by (unfold account in *; congruence).
        exists i, u'. split; [|reflexivity]. split; [exact L2|]. split; [exact Hu'|]. unfold has_address in *. now rewrite S3.
      + destruct (extends_exec E nd OpAddPublicKey db fs r) as [_ X]. destruct (X _ _ Hv) as (v2 & Hv2 & (T1 & T2 & T3 & _)). fold o in Hv2.
        assert (v2 = v') as -> by (unfold account in *; congruence). exists j, v'. split; [|congruence]. split; [exact L2|]. split; [exact Hv'|].
        unfold has_address in *. now rewrite T3. }
  destruct Fm as [(P & S & N)|(S & P & N)].
  - destruct (new_pem E nd r k f U P K) as (q & Nq & _ & T & F & _). assert (q = p) as -> by congruence.
    destruct (new_openssh E nd' r' k f (or_introl U') S K) as (q' & Nq' & _ & T' & F' & _).
    apply (add_fp E nd' (o_db o) (o_fs o) r' i u' q' HR' V' Nq'). split; [|exact W]. rewrite T', F'. intros (x & Hx & Tx & Fx). rewrite Ks in Hx.
    apply in_app_iff in Hx as [Hx|[<-|[]]]; [apply N; exists x; auto|]. rewrite F in Fx. now apply fp_differ in Fx.
  - destruct (new_openssh E nd r k f (or_introl U) S K) as (q & Nq & _ & T & F & _). assert (q = p) as -> by congruence.
    destruct (new_pem E nd' r' k f U' P K) as (q' & Nq' & _ & T' & F' & _).
    apply (add_fp E nd' (o_db o) (o_fs o) r' i u' q' HR' V' Nq'). split; [|exact W]. rewrite T', F'. intros (x & Hx & Tx & Fx). rewrite Ks in Hx.
    apply in_app_iff in Hx as [Hx|[<-|[]]]; [apply N; exists x; auto|]. rewrite F in Fx. symmetry in Fx. now apply fp_differ in Fx.
Qed.
