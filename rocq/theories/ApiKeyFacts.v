(** Proofs about API keys (C22-C29). *)
From Coq Require Import String Ascii ZArith NArith Lia Bool Arith List.
From stdpp Require Import gmap strings.
From RecordUpdate Require Import RecordSet.
From Verif Require Import GoStr Utf8 GoErr Role Name Email Random SpecValue RoleFacts EmailFacts RandomFacts.
From Verif Require Import Types Env Password ApiKey PublicKey Mfa User Json Persist Fs Database System UserFacts DbFacts Inv LoadFacts.
From Verif Require Import SpecDb SpecCrypto SpecAuth CryptoFacts AccountFacts StepFacts PasswordFacts.
Import ListNotations.
Import RecordSetNotations.
Open Scope string_scope.
#[local] Opaque int64 new_id trim_space new_email new_role.

Lemma prefix24_iff p s : (24 <= String.length s)%nat -> prefix24 p s <-> p = take 24 s.
Proof.
  intros L. split.
  - intros [Lp [w ->]]. unfold take. rewrite los_app, firstn_app. rewrite <- length_los in Lp. rewrite Lp, Nat.sub_diag, firstn_O, app_nil_r, <- Lp, firstn_all. symmetry. apply sol_los.
  - intros ->. split; [now apply length_take|]. exists (drop 24 s). symmetry. apply take_drop.
Qed.
Lemma prefix24_inj p q s : prefix24 p s -> prefix24 q s -> p = q.
Proof.
  intros Hp Hq. assert (L : (24 <= String.length s)%nat). { destruct Hp as [L [w ->]]. rewrite <- length_los, los_app, app_length, length_los. lia. }
  apply prefix24_iff in Hp, Hq; congruence.
Qed.
(** ** Uniqueness of prefixes *)
Lemma NoDup_nth_map {A B} (f : A -> B) l a b x y : NoDup (map f l) -> l !! a = Some x -> l !! b = Some y -> f x = f y -> a = b.
Proof.
  intros ND Ha Hb E. apply (NoDup_lookup (f <$> l) a b (f x)); [exact ND|now rewrite list_lookup_fmap, Ha|].
  rewrite list_lookup_fmap, Hb. cbn. now rewrite E.
Qed.
Lemma prefixes_unique E fs db i j u v a b k l : reachable E fs db -> account db i u -> account db j v ->
  u_apikeys u !! a = Some k -> u_apikeys v !! b = Some l -> ak_prefix k = ak_prefix l -> i = j /\ a = b.
Proof.
  intros HR Hu Hv Ha Hb Eq. apply inv_reachable in HR as HI.
  assert (Ia : In k (u_apikeys u)) by (apply elem_of_list_In; eapply elem_of_list_lookup_2; eauto).
  assert (Ib : In l (u_apikeys v)) by (apply elem_of_list_In; eapply elem_of_list_lookup_2; eauto).
  pose proof (inv_key _ _ HI _ _ _ Hu Ia) as K1. pose proof (inv_key _ _ HI _ _ _ Hv Ib) as K2.
  assert (i = j) as -> by congruence. split; [reflexivity|]. unfold account in *. assert (u = v) as -> by congruence.
  eapply NoDup_nth_map; eauto. eapply inv_key_nodup; eauto.
Qed.
Lemma prefix_owner E db i j u v k l : Inv E db -> account db i u -> account db j v -> In k (u_apikeys u) -> In l (u_apikeys v) -> ak_prefix k = ak_prefix l -> i = j /\ k = l.
Proof.
  intros HI Hu Hv Ia Ib Eq. pose proof (inv_key _ _ HI _ _ _ Hu Ia) as K1. pose proof (inv_key _ _ HI _ _ _ Hv Ib) as K2.
  assert (i = j) as -> by congruence. split; [reflexivity|]. unfold account in *. assert (u = v) as -> by congruence.
  apply elem_of_list_In, elem_of_list_lookup in Ia as [a Ha]. apply elem_of_list_In, elem_of_list_lookup in Ib as [b Hb].
  assert (a = b) as -> by (eapply NoDup_nth_map; eauto; eapply inv_key_nodup; eauto). congruence.
Qed.
(** ** Lookup *)
Lemma find_prefix p l : NoDup (map ak_prefix l) -> forall k, find (fun k => String.eqb (ak_prefix k) p) l = Some k <-> In k l /\ ak_prefix k = p.
Proof.
  intros ND k. split.
  - intros H. apply find_some in H as [H1 H2]. apply String.eqb_eq in H2. auto.
  - intros [H1 H2]. destruct find as [k'|] eqn:X.
    + apply find_some in X as [X1 X2]. apply String.eqb_eq in X2. f_equal.
      apply elem_of_list_In, elem_of_list_lookup in H1 as [a Ha]. apply elem_of_list_In, elem_of_list_lookup in X1 as [b Hb].
      assert (b = a) as -> by (eapply NoDup_nth_map; eauto; congruence). congruence.
    + eapply find_none in X; eauto. rewrite H2, String.eqb_refl in X. discriminate.
Qed.
Lemma mail_claim_first u : first_address u (mail_claim u).
Proof.
  unfold first_address, mail_claim. assert (find em_is_primary (u_emails u) = None) as ->.
  { induction (u_emails u) as [|e l IH]; [reflexivity|exact IH]. }
  destruct (u_emails u) as [|e l]; [left; auto|right; eauto].
Qed.
Lemma lookup_iff E nd db fs r : reachable E fs db -> let o := exec E nd OpLookupAPIKey db fs r in let s := rk_payload (rq_key r) in
  (o_res o = OOk <-> (72 <= String.length s)%nat /\ exists i u, account db i u /\ key_for E u s) /\
  (o_res o = OOk -> forall i u, account db i u -> key_for E u s -> reports o u) /\
  (o_res o = OOk \/ exists e, o_res o = OErr e).
Proof.
  intros HR o s. apply inv_reachable in HR as HI. unfold o. cbn [exec]. unfold db_lookup_api_key. cbv zeta. fold s.
  destruct (String.eqb s "") eqn:Z.
  { apply String.eqb_eq in Z. rewrite Z. cbn. split; [|split; [discriminate|eauto]]. split; [discriminate|]. intros [H _]. lia. }
  destruct (zlen s <? 72)%Z eqn:L.
  { apply Z.ltb_lt in L. unfold zlen in L. cbn. split; [|split; [discriminate|eauto]]. split; [discriminate|]. intros [H _]. lia. }
  apply Z.ltb_ge in L. unfold zlen in L. assert (L' : (72 <= String.length s)%nat) by lia. clear L.
  assert (KF : forall i u, account db i u -> key_for E u s -> ref_apikey db !! take 24 s = Some i /\
     lookup_api_key E u (r <| rq_key; rk_prefix := take 24 s |>) = None).
  { intros i u Hu (k & Hk & P & M). apply prefix24_iff in P; [|lia]. split; [rewrite <- P; eapply inv_key; eauto|].
    unfold lookup_api_key. change (rk_prefix (rq_key (r <| rq_key; rk_prefix := take 24 s |>))) with (take 24 s).
    change (rk_payload (rq_key (r <| rq_key; rk_prefix := take 24 s |>))) with s.
    rewrite (proj2 (find_prefix (take 24 s) (u_apikeys u) (inv_key_nodup _ _ HI _ _ Hu) k)) by auto. unfold ak_match. now rewrite M. }
  destruct (at_ref db (ref_apikey db !! take 24 s)) as [[i u]|] eqn:A.
  - apply at_ref_Some in A as [A Hu]. destruct lookup_api_key eqn:LK.
    + cbn. split; [|split; [discriminate|eauto]]. split; [discriminate|]. intros (_ & j & v & Hv & K). destruct (KF _ _ Hv K) as [K1 K2].
      assert (j = i) as -> by congruence. unfold account in *. assert (u = v) as -> by congruence. congruence.
    + cbn [ret o_res]. split; [|split; [|auto]].
      * split; [|reflexivity]. intros _. split; [assumption|]. exists i, u. split; [assumption|].
        unfold lookup_api_key in LK. change (rk_prefix (rq_key (r <| rq_key; rk_prefix := take 24 s |>))) with (take 24 s) in LK.
        destruct find as [k|] eqn:F; [|discriminate]. apply find_some in F as [F1 F2]. apply String.eqb_eq in F2.
        unfold ak_match in LK. change (rk_payload (rq_key (r <| rq_key; rk_prefix := take 24 s |>))) with s in LK.
        destruct e_bcmp eqn:M; [|discriminate]. exists k. split; [assumption|]. split; [apply prefix24_iff; [lia|assumption]|assumption].
      * intros _ j v Hv K. destruct (KF _ _ Hv K) as [K1 K2]. assert (j = i) as -> by congruence. unfold account in *. assert (u = v) as -> by congruence.
        split; [reflexivity|]. split; [apply mail_claim_first|reflexivity].
  - cbn. split; [|split; [discriminate|eauto]]. split; [discriminate|]. intros (_ & j & v & Hv & K). destruct (KF _ _ Hv K) as [K1 K2].
    rewrite K1 in A. unfold at_ref in A. unfold account in Hv. rewrite Hv in A. discriminate.
Qed.
(** ** Issuing *)
Lemma alnum_trim s : alnum_string s -> trim_space s = s.
Proof.
  intros H. apply trim_space_id. unfold alnum_string in H. rewrite List.Forall_forall in H.
  assert (F : forallb (fun p => match p with a :: _ => negb (is_alnum a) | [] => false end) space_seqs = true) by reflexivity.
  rewrite forallb_forall in F. split.
  - intros p r Hp E. specialize (F p Hp). destruct p as [|a p]; [discriminate|]. rewrite (H a) in F; [discriminate|]. rewrite E. now left.
  - intros p r Hp E. specialize (F p Hp). destruct p as [|a p]; [discriminate|]. rewrite (H a) in F; [discriminate|]. rewrite E. apply in_app_iff. right. now left.
Qed.
Lemma add_key_effect E nd db r db1 : effect E nd db r OpAddAPIKey db1 -> exists i u u' s hk k,
  validate_identity E db r = inl (i, u) /\ drawn nd s /\ new_password E nd s = inl hk /\ ref_apikey db !! take 24 s = None /\
  new_api_key nd (issued r s (pw_hash hk)) = inl k /\ u' = revise nd (u <| u_apikeys := (u_apikeys u ++ [k])%list |>) /\
  db1 = set_user db i u' <| ref_apikey ::= <[take 24 s := i]> |>.
Proof.
  intros Eff. inversion Eff as [| | |op' i u u' V Up|i u s hk u' V D P F A|]; subst; [inversion Up|].
  apply add_api_key_inv in A as (k & Hk & ->). do 6 eexists. split; [exact V|]. split; [exact D|]. split; [exact P|]. split; [exact F|].
  split; [exact Hk|]. split; reflexivity.
Qed.
Lemma new_api_key_inv nd r k : new_api_key nd r = inl k -> rk_payload (rq_key r) <> "" /\ rk_usage (rq_key r) = "api" /\ rk_comment (rq_key r) <> "" /\
  k = {| ak_id := random_string 40 (nd_id nd); ak_prefix := rk_prefix (rq_key r); ak_usage := rk_usage (rq_key r); ak_comment := rk_comment (rq_key r);
         ak_payload := rk_payload (rq_key r); ak_expired := false; ak_expired_at := 0; ak_created := nd_clock nd;
         ak_disabled := rk_disabled (rq_key r); ak_disabled_at := if rk_disabled (rq_key r) then nd_clock nd else 0%Z |}.
Proof.
  unfold new_api_key. cbv zeta. destruct (String.eqb_spec (rk_payload (rq_key r)) ""); [discriminate|].
  destruct (String.eqb_spec (rk_usage (rq_key r)) ""); [discriminate|]. destruct (String.eqb_spec (rk_usage (rq_key r)) "api"); [|discriminate]. cbn [negb].
  destruct (String.eqb_spec (rk_comment (rq_key r)) ""); [discriminate|]. intros [=<-]. auto.
Qed.
Lemma drawn_spec nd : exists s, drawn nd s /\ alnum_string s /\ (72 <= String.length s <= 95)%nat.
Proof.
  destruct (random_range_spec 72 96 (nd_len nd) (nd_secret nd)) as (s & H & A & L); try lia. exists s. split; [exact H|]. split; [exact A|].
  unfold zlen in L. lia.
Qed.
Lemma issued_key_intro E nd r s hk k : drawn nd s -> new_password E nd s = inl hk -> new_api_key nd (issued r s (pw_hash hk)) = inl k -> issued_key E nd r s k.
Proof.
  intros D P K. destruct (drawn_spec nd) as (s' & D' & A & L). unfold drawn in *. assert (s' = s) as -> by congruence. clear D'.
  apply new_password_iff in P as (h & _ & B & ->). rewrite (alnum_trim s A) in B. apply new_api_key_inv in K as (_ & U & C & ->).
  change (rk_usage (rq_key (issued r s _))) with (rk_usage (rq_key r)) in *. change (rk_comment (rq_key (issued r s _))) with (rk_comment (rq_key r)) in *.
  constructor; auto; try (repeat split; auto; fail).
  change (prefix24 (take 24 s) s). apply prefix24_iff; [lia|reflexivity].
Qed.
Lemma add_key_result E nd db fs r : reachable E fs db -> let o := exec E nd OpAddAPIKey db fs r in o_res o = OOk ->
  exists i u u' s k, identity_of E db r i u /\ account (o_db o) i u' /\ drawn nd s /\ rq_payload (o_req o) = PStr s /\
    issued_key E nd r s k /\ u_apikeys u' = (u_apikeys u ++ [k])%list /\ same_identity u u'.
Proof.
  intros HR o H. unfold o in *. pose proof (exec_shape E nd OpAddAPIKey db fs r) as Sh. destruct Sh as [_ _ _ N|db1 res Eff C O]; [exfalso; now apply N|].
  apply commit_to_inv in C as [-> _]. apply add_key_effect in Eff as (i & u & u' & s & hk & k & V & D & P & F & K & Hu' & ->).
  pose proof (validate_at _ _ _ _ _ V) as Hi. apply (validate_iff _ fs) in V as V'; [|assumption].
  exists i, u, u', s, k. split; [exact V'|]. split.
  { unfold account. change (db_users (set_user db i u' <| ref_apikey ::= <[take 24 s := i]> |> <| db_content ::= bump nd |>)) with (db_users (set_user db i u')).
    rewrite set_user_users. apply list_lookup_insert. eapply lookup_lt_Some; eauto. }
  split; [exact D|]. split.
  { cbn [exec]. unfold db_add_api_key. rewrite V. unfold drawn in D. rewrite D, P, F. cbv zeta. change (r <| rq_payload := PStr s |> <| rq_key; rk_payload := pw_hash hk |> <| rq_key; rk_prefix := take 24 s |>) with (issued r s (pw_hash hk)).
    unfold add_api_key. rewrite K. unfold finish. destruct commit as [[d f] []]; reflexivity. }
  split; [eapply issued_key_intro; eauto|]. rewrite Hu'. split; [reflexivity|repeat split].
Qed.
(** ** Later states *)
Lemma steps_calls E (P : World -> Event -> Prop) (R : Database -> Database -> Prop) :
  (forall w ev, P w ev -> only_calls w ev) -> (forall d, R d d) ->
  (forall nd op d0 d fs r, reachable E fs d -> R d0 d -> P {| w_fs := fs; w_mem := Up d |} (EvCall nd op r) -> R d0 (o_db (exec E nd op d fs r))) ->
  forall fs db fs' db', reachable E fs db -> steps E P {| w_fs := fs; w_mem := Up db |} {| w_fs := fs'; w_mem := Up db' |} ->
  reachable E fs' db' /\ R db db'.
Proof.
  intros HP Rr Rs fs db fs' db' HR S.
  assert (G : forall w w', steps E P w w' -> forall fs db, w = {| w_fs := fs; w_mem := Up db |} -> reachable E fs db ->
    match w_mem w' with Up d => reachable E (w_fs w') d /\ R db d | _ => True end).
  { clear - HP Rr Rs. intros w w' S. induction S as [w|w1 ev w2 w3 S IH Hev St]; intros fs0 db0 -> HR; [cbn; auto|].
    specialize (IH _ _ eq_refl HR). pose proof (HP _ _ Hev) as Hc. destruct St as [nd fp fs m fs' res O N|nd op r fs db|fs m|fs m fs']; cbn in Hc; try contradiction.
    cbn in IH. destruct IH as [HR1 IH]. cbn [w_mem w_fs]. pose proof (Rs _ _ _ _ _ _ HR1 IH Hev) as R1.
    unfold after_call. destruct (o_res (exec E nd op db fs r)) eqn:X; auto; (split; [|exact R1]); apply exec_reachable; auto; unfold returned; rewrite X; split; discriminate. }
  exact (G _ _ S _ _ eq_refl HR).
Qed.
Lemma key_kept E fs db fs' db' i u k : reachable E fs db -> account db i u -> In k (u_apikeys u) ->
  steps E (spares E i (ak_id k)) {| w_fs := fs; w_mem := Up db |} {| w_fs := fs'; w_mem := Up db' |} ->
  reachable E fs' db' /\ exists u', account db' i u' /\ In k (u_apikeys u') /\ same_identity u u'.
Proof.
  intros HR Hu Hk S.
  destruct (steps_calls E (spares E i (ak_id k)) (fun d d' => forall u, account d i u -> In k (u_apikeys u) ->
     exists u', account d' i u' /\ In k (u_apikeys u') /\ same_identity u u')) with (5 := S) as [HR' H]; auto.
  - intros w [] H; try destruct H; exact I.
  - intros d v Hv Hkv. exists v. split; [assumption|]. split; [assumption|apply same_identity_refl].
  - intros nd op d0 d f r HRd IH Hp v Hv Hkv. destruct (IH _ Hv Hkv) as (w & Hw & Hkw & SI).
    destruct (exec_account E nd op d f r i w Hw) as (x & Hx & St). exists x. split; [exact Hx|]. split.
    + destruct (ustep_apikeys _ _ _ _ _ _ _ _ St) as [->|[(_ & s & hk & k' & _ & _ & _ & _ & ->)|(-> & Eq)]]; [assumption|apply in_app_iff; auto|].
      inversion St as [| |op' v' V U| |v' r' V D]; subst; [assumption|inversion U|].
      rewrite Eq. apply filter_In. split; [assumption|]. apply negb_true_iff, String.eqb_neq. intros Id.
      apply (validate_iff _ f) in V; [|assumption]. cbn in Hp. eapply Hp; eauto.
    + eapply same_identity_trans; [exact SI|]. destruct (extends_exec E nd op d f r) as [_ X]. destruct (X _ _ Hw) as (y & Hy & SI').
      unfold account in *. assert (x = y) as -> by congruence. exact SI'.
Qed.
(** ** Deleting *)
Lemma delete_key_result E nd db fs r : reachable E fs db -> let o := exec E nd OpDeleteAPIKey db fs r in o_res o = OOk ->
  exists i u u', identity_of E db r i u /\ account (o_db o) i u' /\ (exists k, In k (u_apikeys u) /\ ak_id k = rk_id (rq_key r)) /\
    u_apikeys u' = List.filter (fun k => negb (String.eqb (ak_id k) (rk_id (rq_key r)))) (u_apikeys u) /\ same_identity u u'.
Proof.
  intros HR o H. unfold o in *. pose proof (exec_shape E nd OpDeleteAPIKey db fs r) as Sh. destruct Sh as [_ _ _ N|db1 res Eff C O]; [exfalso; now apply N|].
  apply commit_to_inv in C as [-> _]. inversion Eff as [| | |op' i u u' V Up| |i u u' r' V D]; subst; [inversion Up|].
  pose proof (validate_at _ _ _ _ _ V) as Hi. apply (validate_iff _ fs) in V; [|assumption]. apply delete_api_key_inv in D as (X & Hu' & _).
  exists i, u, u'. split; [exact V|]. split.
  { unfold account. change (db_users (set_user db i u' <| ref_apikey ::= delete (rk_prefix (rq_key r')) |> <| db_content ::= bump nd |>)) with (db_users (set_user db i u')).
    rewrite set_user_users. apply list_lookup_insert. eapply lookup_lt_Some; eauto. }
  split; [apply existsb_exists in X as (k & Hk & Id); apply String.eqb_eq in Id; eauto|]. rewrite Hu'. split; [reflexivity|repeat split].
Qed.
Definition absent (p : string) (db : Database) : Prop := forall j v l, account db j v -> In l (u_apikeys v) -> ak_prefix l <> p.
Lemma absent_after_delete E nd db fs r i u k : reachable E fs db -> let o := exec E nd OpDeleteAPIKey db fs r in o_res o = OOk ->
  identity_of E db r i u -> In k (u_apikeys u) -> ak_id k = rk_id (rq_key r) -> absent (ak_prefix k) (o_db o).
Proof.
  intros HR o H Hi Hk Id j v l Hv Hl Eq. destruct (delete_key_result E nd db fs r HR H) as (i' & u0 & u' & Hi' & Hu' & _ & Ks & _). fold o in Hu'.
  assert (i' = i /\ u0 = u) as [-> ->].
  { apply (validate_iff _ fs) in Hi, Hi'; [|assumption|assumption]. split; congruence. }
  apply inv_reachable in HR as HI. assert (Hu : account db i u) by (destruct Hi as [(_ & Hu & _) _]; exact Hu).
  destruct (exec_ustep E nd OpDeleteAPIKey db fs r j v Hv) as [(w & Hw & St)|(? & _)]; [|discriminate].
  assert (Hlw : In l (u_apikeys w)).
  { destruct (ustep_apikeys _ _ _ _ _ _ _ _ St) as [E1|[(E1 & _)|(_ & E1)]]; [congruence|discriminate|]. rewrite E1 in Hl. now apply filter_In in Hl as [? _]. }
  destruct (prefix_owner E db j i w u l k HI Hw Hu Hlw Hk Eq) as [-> ->].
  unfold account in *. assert (v = u') as -> by congruence. rewrite Ks in Hl. apply filter_In in Hl as [_ Hl]. rewrite Id, String.eqb_refl in Hl. discriminate.
Qed.
Lemma absent_later E p fs db fs' db' : reachable E fs db -> absent p db ->
  steps E (not_reissued p) {| w_fs := fs; w_mem := Up db |} {| w_fs := fs'; w_mem := Up db' |} -> reachable E fs' db' /\ absent p db'.
Proof.
  intros HR A S. destruct (steps_calls E (not_reissued p) (fun d d' => absent p d -> absent p d')) with (5 := S) as [HR' H]; auto.
  - intros w [] H; try destruct H; exact I.
  - clear. intros nd op d0 d fs r HR IH Hp A j v l Hv Hl. specialize (IH A).
    destruct (exec_ustep E nd op d fs r j v Hv) as [(w & Hw & St)|(_ & _ & NA)].
    + destruct (ustep_apikeys _ _ _ _ _ _ _ _ St) as [E1|[(-> & s & hk & k & D & P & _ & K & E1)|(_ & E1)]].
      * eapply IH; eauto. congruence.
      * rewrite E1 in Hl. apply in_app_iff in Hl as [Hl|[<-|[]]]; [eapply IH; eauto|]. intros Eq. cbn in Hp.
        apply (Hp eq_refl s); [exact D|]. rewrite <- Eq. eapply ik_prefix, issued_key_intro; eauto.
      * rewrite E1 in Hl. apply filter_In in Hl as [Hl _]. eapply IH; eauto.
    + destruct (na_keys _ _ _ _ NA) as (_ & K & _). rewrite K in Hl. destruct Hl.
Qed.
Lemma absent_lookup E nd db fs r p : reachable E fs db -> absent p db -> prefix24 p (rk_payload (rq_key r)) ->
  exists e, o_res (exec E nd OpLookupAPIKey db fs r) = OErr e.
Proof.
  intros HR A P. destruct (lookup_iff E nd db fs r HR) as (I & _ & [O|O]); [exfalso|exact O].
  apply I in O as (_ & i & u & Hu & k & Hk & P' & _). apply (A i u k); auto. eapply prefix24_inj; eauto.
Qed.
Lemma filter_find {A} (f g : A -> bool) l : (forall x, In x l -> f x = true -> g x = true) -> find f (List.filter g l) = find f l.
Proof.
  induction l as [|x l IH]; intros H; [reflexivity|]. cbn. destruct (g x) eqn:G; cbn.
  - destruct (f x); [reflexivity|]. apply IH. intros; apply H; auto. now right.
  - destruct (f x) eqn:F; [rewrite (H x) in G; auto; [discriminate|now left]|]. apply IH. intros; apply H; auto. now right.
Qed.
(** Every other payload is answered as before. *)
Lemma delete_key_others E nd nd' db fs r r' : reachable E fs db -> let o := exec E nd OpDeleteAPIKey db fs r in o_res o = OOk ->
  (forall i u k, identity_of E db r i u -> In k (u_apikeys u) -> ak_id k = rk_id (rq_key r) -> ~ prefix24 (ak_prefix k) (rk_payload (rq_key r'))) ->
  o_res (exec E nd' OpLookupAPIKey (o_db o) (o_fs o) r') = o_res (exec E nd' OpLookupAPIKey db fs r') /\
  o_req (exec E nd' OpLookupAPIKey (o_db o) (o_fs o) r') = o_req (exec E nd' OpLookupAPIKey db fs r').
Proof.
  intros HR o H HN. unfold o in *. pose proof (exec_shape E nd OpDeleteAPIKey db fs r) as Sh. destruct Sh as [_ _ _ N|db1 res Eff C O]; [exfalso; now apply N|].
  apply commit_to_inv in C as [-> _]. inversion Eff as [| | |op' i u u' V Up| |i u u' rr V D]; subst; [inversion Up|].
  pose proof (validate_at _ _ _ _ _ V) as Hi. apply (validate_iff _ fs) in V; [|assumption].
  specialize (HN i u).
  set (o_fs' := o_fs _). clearbody o_fs'. cbn [exec]. unfold db_lookup_api_key. cbv zeta. set (s := rk_payload (rq_key r')) in *.
  destruct (String.eqb s ""); [split; reflexivity|]. destruct (zlen s <? 72)%Z eqn:L; [split; reflexivity|].
  apply Z.ltb_ge in L. unfold zlen in L.
  change (ref_apikey (set_user db i u' <| ref_apikey ::= delete (rk_prefix (rq_key rr)) |> <| db_content ::= bump nd |>)) with (delete (rk_prefix (rq_key rr)) (ref_apikey db)).
  apply delete_api_key_inv in D as (Hex & Hu' & Hr).
  assert (Pr : rk_prefix (rq_key rr) <> take 24 s).
  { destruct (last_prefix_in (rk_id (rq_key r)) (u_apikeys u) (rk_prefix (rq_key r)) Hex) as (k0 & Hk0 & Hid0 & Hl).
    rewrite Hr. change (last_prefix (rk_id (rq_key r)) (u_apikeys u) (rk_prefix (rq_key r)) <> take 24 s). rewrite Hl.
    intros Eq. eapply HN; eauto. apply prefix24_iff; [lia|exact Eq]. }
  rewrite lookup_delete_ne by exact Pr. destruct (ref_apikey db !! take 24 s) as [j|]; [|split; reflexivity].
  unfold at_ref. change (db_users (set_user db i u' <| ref_apikey ::= delete (rk_prefix (rq_key rr)) |> <| db_content ::= bump nd |>)) with (db_users (set_user db i u')).
  rewrite set_user_users. destruct (decide (i = j)) as [<-|NE].
  - rewrite list_lookup_insert by (eapply lookup_lt_Some; eauto). rewrite Hi.
    assert (LK : lookup_api_key E u' (r' <| rq_key; rk_prefix := take 24 s |>) = lookup_api_key E u (r' <| rq_key; rk_prefix := take 24 s |>)).
    { unfold lookup_api_key. assert (u_apikeys u' = List.filter (fun k => negb (String.eqb (ak_id k) (rk_id (rq_key r)))) (u_apikeys u)) as -> by (rewrite Hu'; reflexivity).
      rewrite filter_find; [reflexivity|]. intros k Hk F. apply String.eqb_eq in F. apply negb_true_iff, String.eqb_neq. intros Id.
      eapply HN; eauto. apply prefix24_iff; [lia|exact F]. }
    rewrite LK. clear LK. destruct lookup_api_key; [split; reflexivity|].
    assert (u_username u' = u_username u) as -> by (rewrite Hu'; reflexivity). assert (mail_claim u' = mail_claim u) as -> by (rewrite Hu'; reflexivity).
    split; reflexivity.
  - rewrite list_lookup_insert_ne by assumption. destruct (db_users db !! j) as [v|]; [|split; reflexivity]. destruct lookup_api_key; split; reflexivity.
Qed.
(** ** The index *)
Definition keyed (db : Database) : Prop := keys_exact db /\ forall i u, account db i u -> NoDup (map ak_id (u_apikeys u)).
Lemma NoDup_id_same l k k0 : NoDup (map ak_id l) -> In k l -> In k0 l -> ak_id k = ak_id k0 -> k = k0.
Proof.
  intros ND Hk Hk0 Eq. apply elem_of_list_In, elem_of_list_lookup in Hk as [a Ha]. apply elem_of_list_In, elem_of_list_lookup in Hk0 as [b Hb].
  assert (a = b) as -> by (eapply NoDup_nth_map; eauto). congruence.
Qed.
Lemma keyed_set db i u u' : account db i u -> u_apikeys u' = u_apikeys u -> keyed db -> keyed (set_user db i u').
Proof.
  intros Hu Eq [K1 K2]. split.
  - intros s j Hs. destruct (K1 _ _ Hs) as (v & k & Hv & Hk & P). destruct (decide (j = i)) as [->|N].
    + exists u', k. rewrite set_user_users, list_lookup_insert by (eapply lookup_lt_Some; eauto). unfold account in Hu. assert (u = v) as <- by congruence. rewrite Eq. auto.
    + exists v, k. rewrite set_user_users, list_lookup_insert_ne by congruence. auto.
  - intros j v Hv. destruct (set_user_cases _ _ _ _ _ _ Hu Hv) as [[-> ->]|[N Hv']]; [rewrite Eq; eauto|eauto].
Qed.
Lemma keyed_exec E nd op db fs r : Inv E db -> keyed db -> key_ids_fresh E {| w_fs := fs; w_mem := Up db |} (EvCall nd op r) -> keyed (o_db (exec E nd op db fs r)).
Proof.
  intros HI K HF. destruct (exec_shape E nd op db fs r) as [_ R _ _|db1 res Eff C _].
  - destruct R as [|i u u' res G _ V]; [exact K|]. pose proof (verify_webauthn_uncache E u r) as W. rewrite V in W. apply same_uncached_frame in W as (_ & _ & Ek & _).
    eapply keyed_set; eauto. eapply get_user_at; eauto.
  - apply commit_to_inv in C as [-> _]. change (keyed db1). destruct Eff as [| |u0 addrs u P N Hu Hn Ha|op i u u' V U|i u s hk u' V D P F A|i u u' r' V D]; auto.
    + assert (Ku : u_apikeys u = []).
      { apply new_user_iff in N as (p & e & rs & n & _ & _ & _ & _ & _ & ->). rewrite Hu. reflexivity. }
      destruct K as [K1 K2]. split.
      * intros s j Hs. destruct (K1 _ _ Hs) as (v & k & Hv & Hk & Pk). exists v, k. split; [|auto].
        change (db_users (with_account E db u addrs)) with (db_users db ++ [u])%list. now apply lookup_app_l_Some.
      * intros j v Hv. unfold account in Hv. change (db_users (with_account E db u addrs)) with (db_users db ++ [u])%list in Hv.
        apply lookup_app_Some in Hv as [Hv|[L Hv]]; [eauto|]. destruct (j - List.length (db_users db))%nat; [|discriminate]. injection Hv as <-. rewrite Ku. constructor.
    + apply (keyed_set db i u u'); [exact (validate_at _ _ _ _ _ V)|now apply upd_frame in U as [_ ?]|exact K].
    + pose proof (validate_at _ _ _ _ _ V) as Hi. apply add_api_key_inv in A as (k & Hk & Hu').
      assert (Ku' : u_apikeys u' = (u_apikeys u ++ [k])%list) by (rewrite Hu'; reflexivity).
      assert (Pk : ak_prefix k = take 24 s /\ ak_id k = random_string 40 (nd_id nd)) by (apply new_api_key_inv in Hk as (_ & _ & _ & ->); split; reflexivity).
      destruct Pk as [Pk Ik]. destruct K as [K1 K2]. split.
      * intros p j. change (ref_apikey (set_user db i u' <| ref_apikey ::= <[take 24 s := i]> |>)) with (<[take 24 s := i]> (ref_apikey db)).
        change (db_users (set_user db i u' <| ref_apikey ::= <[take 24 s := i]> |>)) with (db_users (set_user db i u')). rewrite set_user_users.
        destruct (decide (take 24 s = p)) as [<-|NE].
        -- rewrite lookup_insert. intros [=<-]. exists u', k. rewrite list_lookup_insert by (eapply lookup_lt_Some; eauto). rewrite Ku'. split; [reflexivity|]. split; [apply in_app_iff; right; now left|assumption].
        -- rewrite lookup_insert_ne by assumption. intros Hs. destruct (K1 _ _ Hs) as (v & l & Hv & Hl & Pl). destruct (decide (j = i)) as [->|NE'].
           ++ exists u', l. rewrite list_lookup_insert by (eapply lookup_lt_Some; eauto). assert (u = v) as <- by congruence. rewrite Ku'. split; [reflexivity|]. split; [apply in_app_iff; now left|assumption].
           ++ exists v, l. rewrite list_lookup_insert_ne by congruence. auto.
      * intros j v Hv. change (account (set_user db i u') j v) in Hv. destruct (set_user_cases _ _ _ _ _ _ Hi Hv) as [[-> ->]|[NE Hv']]; [|eauto].
        rewrite Ku', map_app. apply NoDup_app. split; [eauto|]. split; [|cbn; apply NoDup_cons; split; [apply not_elem_of_nil|constructor]].
        intros x Hx Hx'. cbn in Hx'. apply elem_of_list_singleton in Hx' as ->. apply elem_of_list_In, in_map_iff in Hx as (l & El & Hl).
        eapply (HF db i u l); eauto. congruence.
    + pose proof (validate_at _ _ _ _ _ V) as Hi. apply delete_api_key_inv in D as (Hex & Hu' & Hr).
      destruct (last_prefix_in (rk_id (rq_key r)) (u_apikeys u) (rk_prefix (rq_key r)) Hex) as (k0 & Hk0 & Hid0 & Hl).
      assert (Pr : rk_prefix (rq_key r') = ak_prefix k0) by (rewrite Hr, <- Hl; reflexivity).
      assert (Ku' : u_apikeys u' = List.filter (fun k => negb (String.eqb (ak_id k) (rk_id (rq_key r)))) (u_apikeys u)) by (rewrite Hu'; reflexivity).
      destruct K as [K1 K2]. split.
      * intros p j. change (ref_apikey (set_user db i u' <| ref_apikey ::= delete (rk_prefix (rq_key r')) |>)) with (delete (rk_prefix (rq_key r')) (ref_apikey db)).
        change (db_users (set_user db i u' <| ref_apikey ::= delete (rk_prefix (rq_key r')) |>)) with (db_users (set_user db i u')). rewrite set_user_users.
        intros [NE Hs]%lookup_delete_Some. destruct (K1 _ _ Hs) as (v & l & Hv & Hlv & Pl). destruct (decide (j = i)) as [->|NE'].
        -- exists u', l. rewrite list_lookup_insert by (eapply lookup_lt_Some; eauto). assert (u = v) as <- by congruence. split; [reflexivity|]. split; [|assumption].
           rewrite Ku'. apply filter_In. split; [assumption|]. apply negb_true_iff, String.eqb_neq. intros Id.
           assert (l = k0) as -> by (eapply NoDup_id_same; eauto; congruence). congruence.
        -- exists v, l. rewrite list_lookup_insert_ne by congruence. auto.
      * intros j v Hv. change (account (set_user db i u') j v) in Hv. destruct (set_user_cases _ _ _ _ _ _ Hi Hv) as [[-> ->]|[NE Hv']]; [|eauto].
        rewrite Ku'. apply NoDup_map_filter. eauto.
Qed.
Definition mem_keyed (m : Mem) : Prop := match m with Up db | Stuck db => keyed db | Down => True end.
Lemma keyed_steps E w w' : mem_inv E (w_mem w) -> mem_keyed (w_mem w) -> steps E (key_ids_fresh E) w w' -> mem_keyed (w_mem w').
Proof.
  intros HI K S. induction S as [|w1 ev w2 w3 S IH Hev St]; [assumption|]. specialize (IH HI K).
  pose proof (inv_steps _ _ _ _ HI S) as HI2. destruct St as [nd fp fs m fs' res O N|nd op r fs db|fs m|fs m fs']; cbn in *; auto.
  - destruct res; cbn; auto. split; [now apply inv_open in O as (_ & _ & ?)|]. intros i u Hu. eapply Hev; eauto.
  - pose proof (keyed_exec E nd op db fs r HI2 IH Hev). unfold after_call. destruct o_res; cbn; auto.
Qed.
Lemma index_exact E fs db s i : reachable_by E (key_ids_fresh E) fs db ->
  ref_apikey db !! s = Some i <-> exists u k, account db i u /\ In k (u_apikeys u) /\ ak_prefix k = s.
Proof.
  intros HR. pose proof (inv_reachable_by _ _ _ _ HR) as HI. destruct HR as (fs0 & S). apply keyed_steps in S as [K _]; [|exact I|exact I]. split.
  - intros (u & k & Hu & Hk & P)%K. exists u, k. auto.
  - intros (u & k & Hu & Hk & <-). eapply inv_key; eauto.
Qed.
(** ** Termination *)
Lemma add_key_hang E nd db fs r : o_res (exec E nd OpAddAPIKey db fs r) = OHang <->
  exists i u s h, validate_identity E db r = inl (i, u) /\ drawn nd s /\ e_bcrypt E (nd_salt nd) s 10 = Some h /\ is_Some (ref_apikey db !! take 24 s).
Proof.
  cbn [exec]. unfold db_add_api_key. destruct validate_identity as [[i u]|e] eqn:V; [|split; [discriminate|intros (?&?&?&?&?&_); discriminate]].
  destruct (drawn_spec nd) as (s & D & A & L). unfold drawn in D. rewrite D.
  pose proof (alnum_trim s A) as T. destruct new_password as [hk|e] eqn:P.
  - apply new_password_iff in P as (h & T' & B & Hh). rewrite T in *. cbv zeta. destruct (ref_apikey db !! take 24 s) eqn:F.
    + split; [|reflexivity]. intros _. exists i, u, s, h. split; [reflexivity|]. split; [exact D|]. split; [exact B|]. rewrite F. eauto.
    + split.
      * intros H. exfalso. revert H. destruct add_api_key; [|discriminate]. unfold finish. destruct commit as [[d f] []]; discriminate.
      * intros (i' & u' & s' & h' & _ & D' & _ & F'). unfold drawn in D'. assert (s' = s) as -> by congruence. rewrite F in F'. destruct F' as [? ?]. discriminate.
  - split; [discriminate|]. intros (i' & u' & s' & h' & _ & D' & B & _). unfold drawn in D'. assert (s' = s) as -> by congruence.
    exfalso. assert (X : new_password E nd s = inl {| pw_purpose := "generic"; pw_algorithm := "bcrypt"; pw_hash := h'; pw_cost := 10; pw_expired := false; pw_expired_at := 0; pw_created := nd_clock nd; pw_disabled := false; pw_disabled_at := 0 |}).
    { apply new_password_iff. exists h'. rewrite T. split; [|split; [exact B|reflexivity]]. intros ->. cbn in L. lia. }
    congruence.
Qed.
Lemma only_add_key_hangs E nd op db fs r : op <> OpAddAPIKey -> o_res (exec E nd op db fs r) <> OHang.
Proof.
  intros N. assert (Fin : forall d f q w, o_res (finish nd d f q w) <> OHang).
  { intros. unfold finish. destruct commit as [[? ?] []]; discriminate. }
  destruct op; cbn [exec]; try congruence.
  - unfold db_add_user. cbv zeta. destruct check_policy; [discriminate|]. destruct new_user_with_roles; [|discriminate]. destruct (ref_username db !! _); [discriminate|]. destruct new_addresses; [apply Fin|discriminate].
  - unfold db_get_users. destruct validate_identity; discriminate.
  - unfold db_get_user. destruct validate_identity as [[]|]; discriminate.
  - unfold db_delete_user. destruct validate_identity; discriminate.
  - change (db_authenticate E db fs r) with (exec E nd OpAuthenticate db fs r). destruct (authenticate_code E nd db fs r) as [[-> _]|[[e ->] _]]; discriminate.
  - apply Fin.
  - unfold db_copy. destruct commit_to as [[? ?] []]; discriminate.
  - unfold db_add_public_key. destruct validate_identity as [[]|]; [|discriminate]. destruct add_public_key; [apply Fin|discriminate].
  - unfold db_get_public_keys. destruct validate_identity as [[]|]; discriminate.
  - unfold db_delete_public_key. destruct validate_identity as [[]|]; [|discriminate]. destruct delete_public_key; [apply Fin|discriminate].
  - unfold db_delete_api_key. destruct validate_identity as [[]|]; [|discriminate]. destruct delete_api_key as [[] ?]; [apply Fin|discriminate].
  - unfold db_get_api_keys. destruct validate_identity as [[]|]; discriminate.
  - unfold db_change_password. destruct validate_identity as [[]|]; [|discriminate]. destruct (negb _); [discriminate|]. destruct change_password; [apply Fin|discriminate].
  - unfold db_identify. destruct get_user as [[]|]; discriminate.
  - unfold db_lookup_api_key. cbv zeta. destruct String.eqb; [discriminate|]. destruct (_ <? _)%Z; [discriminate|]. destruct at_ref as [[]|]; [|discriminate]. destruct lookup_api_key; discriminate.
  - unfold db_add_mfa_token. destruct validate_identity as [[]|]; [|discriminate]. destruct add_mfa_token as [? []]; [apply Fin|discriminate|discriminate].
  - unfold db_get_mfa_tokens. destruct validate_identity as [[]|]; discriminate.
  - unfold db_delete_mfa_token. destruct validate_identity as [[]|]; [|discriminate]. destruct delete_mfa_token; [apply Fin|discriminate].
  - discriminate.
Qed.
