(** Answers do not depend on stored secrets. *)
From Coq Require Import String Ascii ZArith NArith Lia Bool Arith List.
From Coq Require Import ZifyBool ZifyNat ZifyN.
From stdpp Require Import gmap strings.
From RecordUpdate Require Import RecordSet.
From Verif Require Import GoStr Utf8 Codec GoErr Role Name Email Random SpecValue RoleFacts EmailFacts RandomFacts.
From Verif Require Import Types Env Password ApiKey PublicKey Mfa User Json GoTime Persist Fs Database System UserFacts DbFacts Inv LoadFacts.
From Verif Require Import SpecDb AccountFacts StepFacts SpecAuth PasswordFacts ApiKeyFacts MfaFacts SpecPersist TokenFacts TwinFacts SpecReveal.
Import ListNotations.
Import RecordSetNotations.
Open Scope string_scope.
#[local] Opaque int64 new_id trim_space new_email new_role.

(** ** Accounts *)
Definition low (u v : User) : Prop := blank_user u = blank_user v.
Definition with_secret (u : User) (p : list Password) (k : list APIKey) (m : list MfaToken) : User :=
  u <| u_passwords := p |> <| u_apikeys := k |> <| u_mfa := m |>.
Lemma low_inv u v : low u v ->
  map blank_password (u_passwords u) = map blank_password (u_passwords v) /\ map blank_key (u_apikeys u) = map blank_key (u_apikeys v) /\
  map blank_token (u_mfa u) = map blank_token (u_mfa v) /\ v = with_secret u (u_passwords v) (u_apikeys v) (u_mfa v).
Proof. destruct u, v. unfold low, blank_user. cbn. intros [=]. subst. auto. Qed.
Ltac low_as H P K M Ev := pose proof (low_inv _ _ H) as (P & K & M & Ev).
Definition put_pubkeys (l : list PublicKey) (u : User) : User := u <| u_pubkeys := l |>.
Definition put_passwords (l : list Password) (u : User) : User := u <| u_passwords := l |>.
Definition put_keys (l : list APIKey) (u : User) : User := u <| u_apikeys := l |>.
Definition put_tokens (l : list MfaToken) (u : User) : User := u <| u_mfa := l |>.
Lemma low_revise nd u v : low u v -> low (revise nd u) (revise nd v).
Proof. intros L. exact (f_equal (revise nd) L). Qed.
Lemma low_pubkeys nd u v l : low u v -> low (revise nd (put_pubkeys l u)) (revise nd (put_pubkeys l v)).
Proof. intros L. apply low_revise. exact (f_equal (put_pubkeys l) L). Qed.
Lemma low_keys nd u v l l' : low u v -> map blank_key l = map blank_key l' -> low (revise nd (put_keys l u)) (revise nd (put_keys l' v)).
Proof. intros L H. apply low_revise. exact (f_equal2 put_keys H L). Qed.
Lemma low_tokens nd u v l l' : low u v -> map blank_token l = map blank_token l' -> low (revise nd (put_tokens l u)) (revise nd (put_tokens l' v)).
Proof. intros L H. apply low_revise. exact (f_equal2 put_tokens H L). Qed.
Lemma low_passwords nd u v l l' : low u v -> map blank_password l = map blank_password l' -> low (revise nd (put_passwords l u)) (revise nd (put_passwords l' v)).
Proof. intros L H. apply low_revise. exact (f_equal2 put_passwords H L). Qed.
Lemma low_id u v : low u v -> u_id v = u_id u.
Proof. intros L. low_as L P K M Ev. now rewrite Ev. Qed.

Lemma low_add_pk E nd u v r : low u v -> sum_rel low (add_public_key E nd u r) (add_public_key E nd v r).
Proof.
  intros L. low_as L P K M Ev. unfold add_public_key. destruct new_public_key as [k|]; [|reflexivity].
  assert (u_pubkeys v = u_pubkeys u) as -> by (rewrite Ev; reflexivity). destruct existsb; [reflexivity|]. cbn [sum_rel]. exact (low_pubkeys nd u v _ L).
Qed.
Lemma low_del_pk nd u v r : low u v -> sum_rel low (delete_public_key nd u r) (delete_public_key nd v r).
Proof.
  intros L. low_as L P K M Ev. unfold delete_public_key. cbv zeta.
  assert (u_pubkeys v = u_pubkeys u) as -> by (rewrite Ev; reflexivity). destruct existsb; [|reflexivity]. cbn [sum_rel]. exact (low_pubkeys nd u v _ L).
Qed.
(** Functions that do not look at the erased part. *)
Section proj.
  Context {A : Type} (b : A -> A).
  Lemma b_filter (f : A -> bool) : (forall t, f (b t) = f t) -> forall l l', map b l = map b l' -> map b (List.filter f l) = map b (List.filter f l').
  Proof.
    intros K. induction l as [|x l IH]; intros [|y l']; cbn [map]; try discriminate; [reflexivity|]. intros (H & H')%cons_split. cbn [List.filter].
    assert (f x = f y) as -> by (rewrite <- (K x), <- (K y); exact (f_equal f H)). destruct (f y); cbn [map]; [f_equal; [exact H|]|]; auto.
  Qed.
  Lemma b_existsb (f : A -> bool) : (forall t, f (b t) = f t) -> forall l l', map b l = map b l' -> existsb f l = existsb f l'.
  Proof.
    intros K. induction l as [|x l IH]; intros [|y l']; cbn [map]; try discriminate; [reflexivity|]. intros (H & H')%cons_split. cbn [existsb].
    assert (f x = f y) as -> by (rewrite <- (K x), <- (K y); exact (f_equal f H)). now rewrite (IH l').
  Qed.
  Lemma b_forallb (f : A -> bool) : (forall t, f (b t) = f t) -> forall l l', map b l = map b l' -> forallb f l = forallb f l'.
  Proof.
    intros K. induction l as [|x l IH]; intros [|y l']; cbn [map]; try discriminate; [reflexivity|]. intros (H & H')%cons_split. cbn [forallb].
    assert (f x = f y) as -> by (rewrite <- (K x), <- (K y); exact (f_equal f H)). now rewrite (IH l').
  Qed.
  Lemma b_fold {B} (f : B -> A -> B) : (forall s t, f s (b t) = f s t) -> forall l l' s, map b l = map b l' -> fold_left f l s = fold_left f l' s.
  Proof.
    intros K. induction l as [|x l IH]; intros [|y l'] s; cbn [map]; try discriminate; [reflexivity|]. intros (H & H')%cons_split. cbn [fold_left].
    assert (f s x = f s y) as -> by (rewrite <- (K s x), <- (K s y); now rewrite H). now apply IH.
  Qed.
  Lemma b_lookup l l' n : map b l = map b l' -> opt_rel (fun x y => b x = b y) (l !! n) (l' !! n).
  Proof.
    intros H. pose proof (f_equal (fun l => l !! n) H) as X. cbn beta in X. change (map b l) with (b <$> l) in X. change (map b l') with (b <$> l') in X.
    rewrite !list_lookup_fmap in X. destruct (l !! n) as [x|], (l' !! n) as [y|]; cbn in *; try discriminate; [|exact I]. now injection X.
  Qed.
End proj.
Lemma low_add_key nd u v r : low u v -> sum_rel low (add_api_key nd u r) (add_api_key nd v r).
Proof.
  intros L. unfold add_api_key. destruct new_api_key as [k|]; [|reflexivity]. cbn [sum_rel]. apply (low_keys nd u v _ _ L). low_as L P K M Ev. rewrite !map_app. congruence.
Qed.
Lemma low_del_key nd u v r : low u v -> sum_rel low (fst (delete_api_key nd u r)) (fst (delete_api_key nd v r)) /\ snd (delete_api_key nd u r) = snd (delete_api_key nd v r).
Proof.
  intros L. low_as L P K M Ev. unfold delete_api_key, last_prefix. cbv zeta.
  rewrite (b_existsb blank_key (fun k => String.eqb (ak_id k) (rk_id (rq_key r))) ltac:(reflexivity) _ _ K).
  rewrite (b_fold blank_key (fun p k => if String.eqb (ak_id k) (rk_id (rq_key r)) then ak_prefix k else p) ltac:(reflexivity) _ _ _ K).
  destruct existsb; [|split; reflexivity]. cbn [sum_rel fst snd]. split; [|reflexivity]. apply (low_keys nd u v _ _ L).
  exact (b_filter blank_key (fun k => negb (String.eqb (ak_id k) (rk_id (rq_key r)))) ltac:(reflexivity) _ _ K).
Qed.
Lemma low_del_mfa nd u v r : low u v -> sum_rel low (delete_mfa_token nd u r) (delete_mfa_token nd v r).
Proof.
  intros L. low_as L P K M Ev. unfold delete_mfa_token. cbv zeta.
  rewrite (b_existsb blank_token (fun k => String.eqb (t_id k) (rm_id (rq_mfa r))) ltac:(reflexivity) _ _ M). destruct existsb; [|reflexivity]. cbn [sum_rel].
  apply (low_tokens nd u v _ _ L). exact (b_filter blank_token (fun k => negb (String.eqb (t_id k) (rm_id (rq_mfa r)))) ltac:(reflexivity) _ _ M).
Qed.
Lemma low_verify E u v s : low u v -> (accepts E u s <-> accepts E v s) -> verify_password E u s = verify_password E v s.
Proof.
  intros L H. low_as L P K M Ev. rewrite <- !accepts_iff in H. unfold verify_password in *.
  destruct (u_passwords u) as [|p l], (u_passwords v) as [|q l']; cbn [map] in P; try discriminate; [reflexivity|].
  destruct (existsb _ (p :: l)), (existsb _ (q :: l')); try reflexivity; exfalso; [destruct H as [H _]|destruct H as [_ H]]; discriminate (H eq_refl).
Qed.
Lemma keep_low nd k l : forall i l', map blank_password l = map blank_password l' ->
  map blank_password (keep_passwords nd k i l) = map blank_password (keep_passwords nd k i l').
Proof.
  induction l as [|p l IH]; intros i [|q l']; cbn [map]; try discriminate; [reflexivity|]. intros (H & H')%cons_split. cbn [keep_passwords]. cbv zeta.
  assert (blank_password (if pw_disabled p then p else pw_disable nd p) = blank_password (if pw_disabled q then q else pw_disable nd q)) as X.
  { assert (pw_disabled p = pw_disabled q) as -> by exact (f_equal pw_disabled H). destruct (pw_disabled q); [exact H|]. exact (f_equal (pw_disable nd) H). }
  destruct (i >? k)%Z; cbn [map]; rewrite X; [reflexivity|]. f_equal. now apply IH.
Qed.
Lemma low_change E nd u v r keep : low u v -> (accepts E u (ru_old_password (rq_user r)) <-> accepts E v (ru_old_password (rq_user r))) ->
  sum_rel low (change_password E nd u r keep) (change_password E nd v r keep).
Proof.
  intros L A. unfold change_password. rewrite (low_verify E u v _ L A). destruct verify_password; [reflexivity|].
  unfold add_password. destruct new_password as [p|]; [|reflexivity]. cbv zeta. cbn [sum_rel]. apply (low_passwords nd u v _ _ L).
  low_as L P K M Ev. cbn [map]. f_equal. now apply keep_low.
Qed.
Lemma low_lookup E u v r : low u v -> (forall n k k', u_apikeys u !! n = Some k -> u_apikeys v !! n = Some k' ->
    (e_bcmp E (ak_payload k) (rk_payload (rq_key r)) = true <-> e_bcmp E (ak_payload k') (rk_payload (rq_key r)) = true)) ->
  lookup_api_key E u r = lookup_api_key E v r.
Proof.
  intros L. low_as L P K M Ev. clear P M Ev L. unfold lookup_api_key. revert K. generalize (u_apikeys u) (u_apikeys v). induction l as [|k l IH]; intros [|k' l']; cbn [map]; try discriminate; [reflexivity|].
  intros (H & H')%cons_split A. cbn [find]. assert (ak_prefix k = ak_prefix k') as -> by exact (f_equal ak_prefix H). destruct String.eqb.
  - unfold ak_match. destruct (A O k k' eq_refl eq_refl) as [A1 A2]. destruct (e_bcmp E (ak_payload k) _), (e_bcmp E (ak_payload k') _); try reflexivity; [discriminate (A1 eq_refl)|discriminate (A2 eq_refl)].
  - apply (IH l' H'). intros n x y X Y. exact (A (S n) x y X Y).
Qed.
Lemma new_token_secret E nd r r' t : new_mfa_token E nd r = (r', ROk t) -> t_secret t = rm_secret (rq_mfa r) \/ t_secret t = rw_challenge (rq_webauthn r).
Proof.
  unfold new_mfa_token. cbv zeta. destruct (String.eqb_spec (rm_type (rq_mfa r)) "totp") as [Ht|Ht].
  - destruct negb; [discriminate|]. destruct (_ || _); [discriminate|]. destruct (_ || _); [discriminate|]. destruct validate_code; [discriminate|].
    intros H. apply (f_equal snd) in H. cbn [snd] in H. injection H as <-. now left.
  - destruct (String.eqb_spec (rm_type (rq_mfa r)) "u2f") as [Hu|Hu]; [|destruct String.eqb; discriminate].
    destruct String.eqb; [discriminate|]. destruct (String.eqb_spec (rw_challenge (rq_webauthn r)) "") as [|Hc]; [discriminate|]. destruct b64_decode; [|discriminate]. destruct e_register; [|discriminate].
    intros H. apply (f_equal snd) in H. cbn [snd] in H. right. pose proof (fun a b c => u2f_register_ok _ _ _ a b c H) as X. destruct (X eq_refl Hu Hc) as (_ & _ & _ & _ & Y & _). exact Y.
Qed.
Lemma low_dup t l l' : map blank_token l = map blank_token l' -> (forall n a b, l !! n = Some a -> l' !! n = Some b -> (t_secret a = t_secret t <-> t_secret b = t_secret t)) ->
  dup_token t l = dup_token t l'.
Proof.
  revert l'. induction l as [|a l IH]; intros [|b l']; cbn [map]; try discriminate; [reflexivity|]. intros (H & H')%cons_split A. cbn [dup_token].
  assert (String.eqb (t_secret a) (t_secret t) = String.eqb (t_secret b) (t_secret t)) as ->.
  { pose proof (A O a b eq_refl eq_refl) as B. destruct (String.eqb_spec (t_secret a) (t_secret t)), (String.eqb_spec (t_secret b) (t_secret t)); tauto. }
  assert (t_comment a = t_comment b) as -> by exact (f_equal t_comment H).
  rewrite (IH l'); [reflexivity|exact H'|]. intros n x y X Y. exact (A (S n) x y X Y).
Qed.
Lemma low_add_mfa E nd u v r : low u v -> (forall n t t', u_mfa u !! n = Some t -> u_mfa v !! n = Some t' ->
    (t_secret t = rm_secret (rq_mfa r) <-> t_secret t' = rm_secret (rq_mfa r)) /\
    (t_secret t = rw_challenge (rq_webauthn r) <-> t_secret t' = rw_challenge (rq_webauthn r))) ->
  fst (add_mfa_token E nd u r) = fst (add_mfa_token E nd v r) /\ res_rel low (snd (add_mfa_token E nd u r)) (snd (add_mfa_token E nd v r)).
Proof.
  intros L A. low_as L P K M Ev. unfold add_mfa_token. destruct new_mfa_token as [r' [t|e|]] eqn:N; try (split; reflexivity).
  rewrite (low_dup t _ _ M).
  - destruct dup_token; [split; reflexivity|]. cbn [fst snd res_rel]. split; [reflexivity|]. apply (low_tokens nd u v _ _ L). rewrite !map_app. congruence.
  - intros n a b X Y. destruct (new_token_secret _ _ _ _ _ N) as [-> | ->]; apply (A n a b X Y).
Qed.
(** WebAuthn looks at the parameters of the token, not at its secret. *)
Definition put_cache (k : Z * Z) (t : MfaToken) : MfaToken := t <| t_cache := Some k |>.
Lemma low_request E t t' s : blank_token t = blank_token t' ->
  blank_token (fst (webauthn_request E t s)) = blank_token (fst (webauthn_request E t' s)) /\ snd (webauthn_request E t s) = snd (webauthn_request E t' s).
Proof.
  intros H. unfold webauthn_request.
  assert (t_type t' = t_type t) as -> by (symmetry; exact (f_equal t_type H)). assert (t_params t' = t_params t) as Hp by (symmetry; exact (f_equal t_params H)). rewrite Hp.
  assert (t_cache t' = t_cache t) as -> by (symmetry; exact (f_equal t_cache H)).
  destruct negb; [split; [exact H|reflexivity]|]. destruct (t_params t !! "u2f_id") as [uid|]; [|split; [exact H|reflexivity]]. destruct (t_params t !! "key_type") as [kt|]; [|split; [exact H|reflexivity]].
  destruct negb; [split; [exact H|reflexivity]|]. destruct (match t_cache t with Some k => Some k | None => _ end) as [k|]; [|split; [exact H|reflexivity]]. cbv zeta. cbn [fst snd].
  change (t_params (t' <| t_cache := Some k |>)) with (t_params t'). change (t_params (t <| t_cache := Some k |>)) with (t_params t). rewrite Hp.
  split; [|reflexivity]. exact (f_equal (put_cache k) H).
Qed.
Lemma low_verify_tokens E r id l : forall l', map blank_token l = map blank_token l' ->
  map blank_token (fst (verify_tokens E r id l)) = map blank_token (fst (verify_tokens E r id l')) /\ snd (verify_tokens E r id l) = snd (verify_tokens E r id l').
Proof.
  induction l as [|t l IH]; intros [|t' l']; cbn [map]; try discriminate; [split; reflexivity|]. intros (H & H')%cons_split. cbn [verify_tokens].
  assert (t_disabled t' = t_disabled t) as -> by (symmetry; exact (f_equal t_disabled H)).
  assert (t_type t' = t_type t) as -> by (symmetry; exact (f_equal t_type H)). assert (t_params t' = t_params t) as -> by (symmetry; exact (f_equal t_params H)).
  destruct (_ && _).
  - pose proof (low_request E t t' (rw_request (rq_webauthn r)) H) as [W1 W2]. destruct (webauthn_request E t) as [a x], (webauthn_request E t') as [b y]. cbn [fst snd map] in *. subst. split; [congruence|reflexivity].
  - destruct (IH l' H') as [W1 W2]. destruct (verify_tokens E r id l), (verify_tokens E r id l'). cbn [fst snd map] in *. subst. split; [congruence|reflexivity].
Qed.
Lemma low_webauthn E u v r : low u v -> low (fst (verify_webauthn E u r)) (fst (verify_webauthn E v r)) /\ snd (verify_webauthn E u r) = snd (verify_webauthn E v r).
Proof.
  intros L. low_as L P K M Ev. unfold verify_webauthn. destruct unpack_request as [q|]; [|split; [exact L|reflexivity]].
  destruct (low_verify_tokens E r (wq_id q) _ _ M) as [W1 W2]. destruct (verify_tokens E r (wq_id q) (u_mfa u)) as [a x], (verify_tokens E r (wq_id q) (u_mfa v)) as [b y].
  cbn [fst snd] in *. split; [|exact W2]. exact (f_equal2 put_tokens W1 L).
Qed.

(** ** Databases *)
Record faint (db db' : Database) : Prop := {
  fa_users : map blank_user (db_users db) = map blank_user (db_users db');
  fa_version : c_version (db_content db) = c_version (db_content db'); fa_policy : db_policy db = db_policy db';
  fa_revision : c_revision (db_content db) = c_revision (db_content db'); fa_modified : c_modified (db_content db) = c_modified (db_content db');
  fa_name : ref_username db = ref_username db'; fa_email : ref_email db = ref_email db';
  fa_id : ref_id db = ref_id db'; fa_key : ref_apikey db = ref_apikey db';
  fa_path : db_path db = db_path db' }.
Lemma faint_iff db db' : apart db db' <-> faint db db'.
Proof.
  unfold apart. split.
  - intros H. split; [exact (f_equal db_users H)|exact (f_equal (fun d => c_version (db_content d)) H)|exact (f_equal db_policy H)|exact (f_equal (fun d => c_revision (db_content d)) H)|
      exact (f_equal (fun d => c_modified (db_content d)) H)|exact (f_equal ref_username H)|exact (f_equal ref_email H)|exact (f_equal ref_id H)|exact (f_equal ref_apikey H)|exact (f_equal db_path H)].
  - destruct db as [[v p n m l] ? ? ? ? ?], db' as [[v' p' n' m' l'] ? ? ? ? ?]. intros [A B C D F G H I J K]. unfold db_users, db_policy in *. cbn in *. subst.
    match goal with |- blank {| db_content := {| c_version := ?v; c_policy := ?p; c_revision := ?n; c_modified := ?m; c_users := _ |}; ref_email := ?a; ref_username := ?b; ref_id := ?c; ref_apikey := ?d; db_path := ?e |} = _ =>
      exact (f_equal (fun x => {| db_content := {| c_version := v; c_policy := p; c_revision := n; c_modified := m; c_users := x |}; ref_email := a; ref_username := b; ref_id := c; ref_apikey := d; db_path := e |}) A) end.
Qed.
Lemma fa_length db db' : faint db db' -> List.length (db_users db) = List.length (db_users db').
Proof. intros T. pose proof (fa_users _ _ T) as H. apply (f_equal (@List.length _)) in H. now rewrite !map_length in H. Qed.
(** An account found on one side is found on the other, with the same position. *)
Definition both (db db' : Database) (x y : nat * User) : Prop :=
  fst x = fst y /\ low (snd x) (snd y) /\ db_users db !! fst x = Some (snd x) /\ db_users db' !! fst y = Some (snd y).
Lemma fa_at_ref db db' x : faint db db' -> opt_rel (both db db') (at_ref db x) (at_ref db' x).
Proof.
  intros T. destruct x as [i|]; [|exact I]. cbn [at_ref]. pose proof (b_lookup blank_user _ _ i (fa_users _ _ T)) as H.
  destruct (db_users db !! i) eqn:A, (db_users db' !! i) eqn:B; cbn in *; try contradiction; [|exact I]. split; [reflexivity|]. auto.
Qed.
Lemma fa_by_username E db db' s : faint db db' -> opt_rel (both db db') (by_username E db s) (by_username E db' s).
Proof. intros T. unfold by_username. destruct Z.ltb; [exact I|]. rewrite (fa_name _ _ T). now apply fa_at_ref. Qed.
Lemma fa_by_email E db db' s : faint db db' -> opt_rel (both db db') (by_email E db s) (by_email E db' s).
Proof. intros T. unfold by_email. destruct Z.ltb; [exact I|]. rewrite (fa_email _ _ T). now apply fa_at_ref. Qed.
Lemma fa_get_user E db db' s : faint db db' -> opt_rel (both db db') (get_user E db s) (get_user E db' s).
Proof. intros T. unfold get_user. destruct contains; [now apply fa_by_email|now apply fa_by_username]. Qed.
Lemma fa_validate E db db' r : faint db db' -> sum_rel (both db db') (validate_identity E db r) (validate_identity E db' r).
Proof.
  intros T. unfold validate_identity. pose proof (fa_by_username E db db' (ru_username (rq_user r)) T) as A.
  destruct (by_username E db _) as [[i u]|], (by_username E db' _) as [[i' u']|]; cbn [opt_rel] in A; try contradiction; [|reflexivity].
  pose proof (fa_by_email E db db' (ru_email (rq_user r)) T) as B.
  destruct (by_email E db _) as [[j v]|], (by_email E db' _) as [[j' v']|]; cbn [opt_rel] in B; try contradiction; [|reflexivity].
  pose proof (low_id _ _ (proj1 (proj2 A))) as IA. pose proof (low_id _ _ (proj1 (proj2 B))) as IB. cbn [snd] in IA, IB.
  rewrite IA, IB. destruct String.eqb; [exact A|reflexivity].
Qed.

(** The result of a call on each side. *)
Record quiet (o o' : Out) : Prop := {
  qu_res : o_res o = o_res o'; qu_req : o_req o = o_req o'; qu_fs : shape (o_fs o) (o_fs o'); qu_db : faint (o_db o) (o_db o') }.
Lemma ret_quiet db db' fs fs' r res : faint db db' -> shape fs fs' -> quiet (ret db fs r res) (ret db' fs' r res).
Proof. intros N. now split. Qed.
Lemma shape_insert fs fs' p s s' : shape fs fs' -> shape (<[p := File s]> fs) (<[p := File s']> fs').
Proof.
  intros H q. specialize (H q). unfold FS in *. destruct (decide (p = q)) as [->|N]; [now rewrite !lookup_insert|]. rewrite !lookup_insert_ne by assumption. exact H.
Qed.
Lemma all_some {A} (f : A -> bool) l : forallb (opt_all f) (map Some l) = forallb f l.
Proof. induction l as [|x l IH]; [reflexivity|]. cbn [map forallb opt_all]. now rewrite IH. Qed.
Definition user_times (u : User) : bool :=
  forallb password_times (u_passwords u) && forallb pubkey_times (u_pubkeys u) &&
  forallb apikey_times (u_apikeys u) && forallb mfa_times (u_mfa u) && opt_all lockout_times (u_lockout u) &&
  time_ok (u_created u) && time_ok (u_modified u).
Lemma raw_user_times_of u : raw_user_times (to_raw_user u) = user_times u.
Proof. unfold raw_user_times, user_times. cbv zeta. cbn [raw_passwords raw_keys raw_user to_raw_user]. now rewrite !all_some. Qed.
Lemma user_times_blank u : user_times (blank_user u) = user_times u.
Proof.
  unfold user_times. f_equal. f_equal. f_equal. f_equal; [f_equal; [f_equal|]|].
  - exact (b_forallb blank_password password_times ltac:(reflexivity) (map blank_password (u_passwords u)) (u_passwords u) ltac:(now rewrite map_map)).
  - exact (b_forallb blank_key apikey_times ltac:(reflexivity) (map blank_key (u_apikeys u)) (u_apikeys u) ltac:(now rewrite map_map)).
  - exact (b_forallb blank_token mfa_times ltac:(reflexivity) (map blank_token (u_mfa u)) (u_mfa u) ltac:(now rewrite map_map)).
Qed.
Lemma all_users l : forallb (opt_all raw_user_times) (map (fun u => Some (to_raw_user u)) l) = forallb user_times l.
Proof. induction l as [|u l IH]; [reflexivity|]. cbn [map forallb opt_all]. now rewrite IH, raw_user_times_of. Qed.
Lemma marshal_faint db db' : faint db db' ->
  match marshal (db_content db), marshal (db_content db') with Some _, Some _ | None, None => True | _, _ => False end.
Proof.
  intros T. unfold marshal, marshal_raw.
  assert (raw_times (to_raw (db_content db)) = raw_times (to_raw (db_content db'))) as ->; [|now destruct raw_times].
  unfold raw_times. cbn [rc_modified rc_users to_raw]. rewrite !all_users, (fa_modified _ _ T). f_equal. exact (b_forallb blank_user user_times user_times_blank _ _ (fa_users _ _ T)).
Qed.
Lemma faint_bump nd db db' : faint db db' -> faint (db <| db_content ::= bump nd |>) (db' <| db_content ::= bump nd |>).
Proof.
  intros [A B C D F G H I J K]. split; try assumption; [|reflexivity]. cbn. now rewrite D.
Qed.
Lemma commit_faint nd p db db' fs fs' : faint db db' -> shape fs fs' ->
  shape (snd (fst (commit_to nd p db fs))) (snd (fst (commit_to nd p db' fs'))) /\ snd (commit_to nd p db fs) = snd (commit_to nd p db' fs') /\
  faint (fst (fst (commit_to nd p db fs))) (fst (fst (commit_to nd p db' fs'))).
Proof.
  intros N%(faint_bump nd) S. unfold commit_to. cbv zeta. pose proof (marshal_faint _ _ N) as M. revert N M.
  match goal with |- faint ?a ?b -> _ => generalize a b end. intros d d' N M. unfold write_db. destruct (marshal (db_content d)) as [s|], (marshal (db_content d')) as [s'|]; cbn beta iota in M; try (exfalso; exact M); [|cbn [fst snd]; auto].
  unfold write_file. destruct String.eqb; [cbn [fst snd]; auto|]. pose proof (S p) as P. destruct (fs !! p) as [[|]|], (fs' !! p) as [[|]|]; cbn beta iota in P; try (exfalso; exact P);
    [|cbn [fst snd]; auto|]; destruct (nd_write nd); cbn [fst snd]; repeat split; auto using shape_insert; apply N.
Qed.
Lemma finish_quiet nd db db' fs fs' r w : faint db db' -> shape fs fs' -> quiet (finish nd db fs r w) (finish nd db' fs' r w).
Proof.
  intros N S. unfold finish, commit. rewrite <- (fa_path _ _ N). destruct (commit_faint nd (db_path db) db db' fs fs' N S) as (H1 & H2 & H3).
  destruct (commit_to nd (db_path db) db fs) as [[d f] c], (commit_to nd (db_path db) db' fs') as [[d' f'] c']. cbn [fst snd] in *. subst. destruct c'; now apply ret_quiet.
Qed.
Lemma faint_set db db' i u v : faint db db' -> low u v -> faint (set_user db i u) (set_user db' i v).
Proof.
  intros [A B C D F G H I J K] S. split; try assumption.
  change (blank_user <$> <[i := u]> (db_users db) = blank_user <$> <[i := v]> (db_users db')). rewrite !list_fmap_insert. change (blank_user <$> db_users db = blank_user <$> db_users db') in A. now rewrite A, S.
Qed.
Lemma faint_key f db db' : faint db db' -> faint (db <| ref_apikey ::= f |>) (db' <| ref_apikey ::= f |>).
Proof. intros [A B C D F G H I J K]. split; try assumption. exact (f_equal f J). Qed.

(** ** Every call *)
Ltac two_low N S r := match goal with |- context[validate_identity ?E ?db r] => match goal with |- context[validate_identity E ?db' r] =>
  lazymatch db with db' => fail | _ => pose proof (fa_validate E db db' r N) as TV; destruct (validate_identity E db r) as [[i u]|e], (validate_identity E db' r) as [[i' u']|e'];
   cbn [sum_rel] in TV; try contradiction; [destruct TV as (TV1 & TV2 & TV3 & TV4); cbn [fst snd] in TV1, TV2, TV3, TV4; subst i'|subst e'; now apply ret_quiet] end end end.
Ltac stored L := match type of L with sum_rel _ ?x ?y => destruct x, y; cbn [sum_rel] in L; try contradiction; [apply finish_quiet; [apply faint_set|]; assumption|subst; now apply ret_quiet] end.
Lemma add_user_quiet E nd db db' fs fs' r : faint db db' -> shape fs fs' -> quiet (db_add_user E nd db fs r) (db_add_user E nd db' fs' r).
Proof.
  intros N S. unfold db_add_user. cbv zeta. rewrite (fa_policy _ _ N). destruct check_policy; [now apply ret_quiet|]. destruct new_user_with_roles as [u|]; [|now apply ret_quiet].
  rewrite (pick_near db db' _ _ _ _ (fa_id _ _ N)). rewrite (fa_name _ _ N). destruct lookup; [now apply ret_quiet|].
  rewrite (addresses_near E db db' _ (fa_email _ _ N)). destruct new_addresses as [l|]; [|now apply ret_quiet].
  apply finish_quiet; [|exact S]. rewrite (fa_length _ _ N). destruct N as [A B C D F G H I J K]. split; try assumption.
  - match goal with |- context[(fun l => (l ++ [?v])%list)] => change (map blank_user (db_users db ++ [v])%list = map blank_user (db_users db' ++ [v])%list) end. rewrite !map_app. congruence.
  - cbn. now rewrite G.
  - cbn. now rewrite H.
  - cbn. now rewrite I.
Qed.
Lemma get_users_quiet E db db' fs fs' r : faint db db' -> shape fs fs' -> quiet (db_get_users E db fs r) (db_get_users E db' fs' r).
Proof.
  intros N S. unfold db_get_users. two_low N S r. rewrite (b_fold blank_user (fun b u => b_add b (metadata u)) ltac:(reflexivity) _ _ _ (fa_users _ _ N)). now apply ret_quiet.
Qed.
Lemma delete_user_quiet E db db' fs fs' r : faint db db' -> shape fs fs' -> quiet (db_delete_user E db fs r) (db_delete_user E db' fs' r).
Proof. intros N S. unfold db_delete_user. two_low N S r. now apply ret_quiet. Qed.
Lemma get_user_quiet E db db' fs fs' r : faint db db' -> shape fs fs' -> quiet (db_get_user E db fs r) (db_get_user E db' fs' r).
Proof. intros N S. unfold db_get_user. two_low N S r. now apply ret_quiet. Qed.
Lemma copy_quiet nd db db' fs fs' r fp : faint db db' -> shape fs fs' -> quiet (db_copy nd db fs r fp) (db_copy nd db' fs' r fp).
Proof.
  intros N S. unfold db_copy. destruct (commit_faint nd fp db db' fs fs' N S) as (H1 & H2 & H3).
  destruct (commit_to nd fp db fs) as [[d f] c], (commit_to nd fp db' fs') as [[d' f'] c']. cbn [fst snd] in *. subst. destruct c'; now apply ret_quiet.
Qed.
Lemma add_pk_quiet E nd db db' fs fs' r : faint db db' -> shape fs fs' -> quiet (db_add_public_key E nd db fs r) (db_add_public_key E nd db' fs' r).
Proof. intros N S. unfold db_add_public_key. two_low N S r. pose proof (low_add_pk E nd u u' r TV2) as L. stored L. Qed.
Lemma get_pk_quiet E db db' fs fs' r : faint db db' -> shape fs fs' -> quiet (db_get_public_keys E db fs r) (db_get_public_keys E db' fs' r).
Proof.
  intros N S. unfold db_get_public_keys. two_low N S r. assert (u_pubkeys u' = u_pubkeys u) as -> by (symmetry; exact (f_equal u_pubkeys TV2)). now apply ret_quiet.
Qed.
Lemma del_pk_quiet E nd db db' fs fs' r : faint db db' -> shape fs fs' -> quiet (db_delete_public_key E nd db fs r) (db_delete_public_key E nd db' fs' r).
Proof. intros N S. unfold db_delete_public_key. two_low N S r. pose proof (low_del_pk nd u u' r TV2) as L. stored L. Qed.
Lemma add_key_quiet E nd db db' fs fs' r : faint db db' -> shape fs fs' -> quiet (db_add_api_key E nd db fs r) (db_add_api_key E nd db' fs' r).
Proof.
  intros N S. unfold db_add_api_key. two_low N S r. destruct random_range as [s|]; [|now apply ret_quiet]. destruct new_password as [h|]; [|now apply ret_quiet]. cbv zeta.
  rewrite (fa_key _ _ N). destruct (ref_apikey db' !! take 24 s); [now apply ret_quiet|].
  match goal with |- context[add_api_key nd u ?r2] => pose proof (low_add_key nd u u' r2 TV2) as L; destruct (add_api_key nd u r2) as [v|e], (add_api_key nd u' r2) as [v'|e'] end; cbn [sum_rel] in L; try contradiction.
  - apply finish_quiet; [|exact S]. exact (faint_key _ _ _ (faint_set db db' i v v' N L)).
  - subst. now apply ret_quiet.
Qed.
Lemma del_key_quiet E nd db db' fs fs' r : faint db db' -> shape fs fs' -> quiet (db_delete_api_key E nd db fs r) (db_delete_api_key E nd db' fs' r).
Proof.
  intros N S. unfold db_delete_api_key. two_low N S r. destruct (low_del_key nd u u' r TV2) as [L Hr].
  destruct (delete_api_key nd u r) as [[v|e] r1], (delete_api_key nd u' r) as [[v'|e'] r2]; cbn [sum_rel fst snd] in L, Hr; try contradiction; subst.
  - apply finish_quiet; [|exact S]. exact (faint_key _ _ _ (faint_set db db' i v v' N L)).
  - now apply ret_quiet.
Qed.
Lemma del_mfa_quiet E nd db db' fs fs' r : faint db db' -> shape fs fs' -> quiet (db_delete_mfa_token E nd db fs r) (db_delete_mfa_token E nd db' fs' r).
Proof. intros N S. unfold db_delete_mfa_token. two_low N S r. pose proof (low_del_mfa nd u u' r TV2) as L. stored L. Qed.
Lemma low_flags u v r : low u v -> get_flags u r = get_flags v r.
Proof. intros L. low_as L P K M Ev. unfold get_flags. apply (b_fold blank_token); [reflexivity|exact M]. Qed.
Lemma low_challenges u v : low u v -> challenges u = challenges v.
Proof. intros L. low_as L P K M Ev. unfold challenges. destruct (u_mfa u), (u_mfa v); cbn [map] in M; try discriminate; reflexivity. Qed.
Lemma low_claims u v : low u v -> u_username u = u_username v /\ mail_claim u = mail_claim v /\ name_claim u = name_claim v /\ u_roles u = u_roles v.
Proof. intros L. repeat split; [exact (f_equal u_username L)|exact (f_equal mail_claim L)|exact (f_equal name_claim L)|exact (f_equal u_roles L)]. Qed.
Lemma identify_quiet E db db' fs fs' r : faint db db' -> shape fs fs' -> quiet (db_identify E db fs r) (db_identify E db' fs' r).
Proof.
  intros N S. unfold db_identify. pose proof (fa_get_user E db db' (ru_username (rq_user r)) N) as A.
  destruct (get_user E db _) as [[i u]|], (get_user E db' _) as [[i' u']|]; cbn [opt_rel] in A; try contradiction; [|now apply ret_quiet].
  destruct A as (_ & L & _). cbn [snd] in L. destruct (low_claims _ _ L) as (-> & -> & -> & ->). rewrite (low_challenges _ _ L), (low_flags _ _ r L). now apply ret_quiet.
Qed.
Lemma authenticate_quiet E db db' fs fs' r : faint db db' -> shape fs fs' -> agree E r db db' -> quiet (db_authenticate E db fs r) (db_authenticate E db' fs' r).
Proof.
  intros N S G. unfold db_authenticate. cbv zeta. pose proof (fa_get_user E db db' (ru_username (rq_user r)) N) as A.
  destruct (get_user E db _) as [[i u]|], (get_user E db' _) as [[i' u']|]; cbn [opt_rel] in A; try contradiction; [|now apply ret_quiet].
  destruct A as (A1 & A2 & A3 & A4). cbn [fst snd] in A1, A2, A3, A4. subst i'. destruct (G i u u' A3 A4) as (G1 & _).
  destruct negb.
  - rewrite (low_verify E u u' _ A2 G1). destruct verify_password; now apply ret_quiet.
  - destruct negb; [|now apply ret_quiet]. destruct (low_webauthn E u u' r A2) as [W1 W2]. destruct (verify_webauthn E u r) as [w x], (verify_webauthn E u' r) as [w' x'].
    cbn [fst snd] in W1, W2. subst x'. pose proof (faint_set db db' i w w' N W1). destruct x; now apply ret_quiet.
Qed.
Lemma change_quiet E nd db db' fs fs' r : faint db db' -> shape fs fs' -> agree E r db db' -> quiet (db_change_password E nd db fs r) (db_change_password E nd db' fs' r).
Proof.
  intros N S G. unfold db_change_password. two_low N S r. rewrite <- (fa_policy _ _ N). destruct negb; [now apply ret_quiet|].
  destruct (G i u u' TV3 TV4) as (_ & G2 & _). pose proof (low_change E nd u u' r (pp_keep (po_password (db_policy db))) TV2 G2) as L. stored L.
Qed.
Lemma lookup_quiet E db db' fs fs' r : faint db db' -> shape fs fs' -> agree E r db db' -> quiet (db_lookup_api_key E db fs r) (db_lookup_api_key E db' fs' r).
Proof.
  intros N S G. unfold db_lookup_api_key. cbv zeta. destruct String.eqb; [now apply ret_quiet|]. destruct Z.ltb; [now apply ret_quiet|].
  rewrite (fa_key _ _ N). pose proof (fa_at_ref db db' (ref_apikey db' !! take 24 (rk_payload (rq_key r))) N) as A.
  destruct (at_ref db _) as [[i u]|], (at_ref db' _) as [[i' u']|]; cbn [opt_rel] in A; try contradiction; [|now apply ret_quiet].
  destruct A as (A1 & A2 & A3 & A4). cbn [fst snd] in A1, A2, A3, A4. subst i'. destruct (G i u u' A3 A4) as (_ & _ & G3 & _).
  match goal with |- context[lookup_api_key E u ?r2] => rewrite (low_lookup E u u' r2 A2 G3) end. destruct lookup_api_key; [now apply ret_quiet|].
  destruct (low_claims _ _ A2) as (-> & -> & _). now apply ret_quiet.
Qed.
Lemma add_mfa_quiet E nd db db' fs fs' r : faint db db' -> shape fs fs' -> agree E r db db' -> quiet (db_add_mfa_token E nd db fs r) (db_add_mfa_token E nd db' fs' r).
Proof.
  intros N S G. unfold db_add_mfa_token. two_low N S r. destruct (G i u u' TV3 TV4) as (_ & _ & _ & G4). destruct (low_add_mfa E nd u u' r TV2 G4) as [Hr L].
  destruct (add_mfa_token E nd u r) as [r1 [v|e|]], (add_mfa_token E nd u' r) as [r2 [v'|e'|]]; cbn [res_rel fst snd] in L, Hr; try contradiction; subst.
  - apply finish_quiet; [apply faint_set|]; assumption.
  - now apply ret_quiet.
  - now apply ret_quiet.
Qed.
Theorem exec_quiet E nd op db db' fs fs' r : apart db db' -> shape fs fs' -> op <> OpGetAPIKeys -> op <> OpGetMfaTokens -> (compares op -> agree E r db db') ->
  quiet (exec E nd op db fs r) (exec E nd op db' fs' r).
Proof.
  intros N%faint_iff S H1 H2 G. unfold compares in G. destruct op; cbn [exec]; try contradiction.
  - now apply add_user_quiet.
  - now apply get_users_quiet.
  - now apply get_user_quiet.
  - now apply delete_user_quiet.
  - apply authenticate_quiet; auto.
  - unfold db_save. now apply finish_quiet.
  - now apply copy_quiet.
  - now apply add_pk_quiet.
  - now apply get_pk_quiet.
  - now apply del_pk_quiet.
  - now apply add_key_quiet.
  - now apply del_key_quiet.
  - apply change_quiet; auto.
  - now apply identify_quiet.
  - apply lookup_quiet; auto.
  - apply add_mfa_quiet; auto.
  - now apply del_mfa_quiet.
  - now apply ret_quiet.
Qed.
Lemma shape_refl fs : shape fs fs.
Proof. intros p. now destruct (fs !! p) as [[|]|]. Qed.
Lemma blank_user_twice u : blank_user (blank_user u) = blank_user u.
Proof.
  change (put_tokens (map blank_token (map blank_token (u_mfa u))) (put_keys (map blank_key (map blank_key (u_apikeys u))) (put_passwords (map blank_password (map blank_password (u_passwords u))) u)) =
          put_tokens (map blank_token (u_mfa u)) (put_keys (map blank_key (u_apikeys u)) (put_passwords (map blank_password (u_passwords u)) u))).
  rewrite !map_map. reflexivity.
Qed.
Lemma blank_apart db : apart db (blank db).
Proof.
  apply faint_iff. split; try reflexivity. change (map blank_user (db_users db) = map blank_user (map blank_user (db_users db))). rewrite map_map. apply map_ext. intros u. symmetry. apply blank_user_twice.
Qed.
Lemma answers_quiet E l : forall db db' fs fs', apart db db' -> shape fs fs' -> Forall (fun c => ~ hands_out c.1.2 /\ ~ compares c.1.2) l -> answers E db fs l = answers E db' fs' l.
Proof.
  induction l as [|[[nd op] r] l IH]; intros db db' fs fs' A S F; [reflexivity|]. inversion F as [|? ? [F1 F2] F3]; subst. cbn [fst snd] in F1, F2. cbn [answers]. cbv zeta.
  destruct (exec_quiet E nd op db db' fs fs' r A S) as [Q1 Q2 Q3 Q4]; [unfold hands_out in F1; tauto|unfold hands_out in F1; tauto|tauto|].
  rewrite Q1, Q2. f_equal. apply IH; [now apply faint_iff|exact Q3|exact F3].
Qed.
Definition is_dir (n : Node) : bool := match n with Dir => true | File _ => false end.
Lemma shape_by (fs fs' : FS) : map_to_list (is_dir <$> (fs : gmap string Node)) = map_to_list (is_dir <$> (fs' : gmap string Node)) -> shape fs fs'.
Proof.
  intros H. assert (K : is_dir <$> (fs : gmap string Node) = is_dir <$> (fs' : gmap string Node)) by (apply map_to_list_inj; now rewrite H). clear H.
  intros p. apply (f_equal (fun m => m !! p)) in K. cbn beta in K. rewrite !lookup_fmap in K. unfold FS in *.
  destruct (@lookup string Node (gmap string Node) _ p fs) as [[|]|], (@lookup string Node (gmap string Node) _ p fs') as [[|]|]; cbn in K; try discriminate; exact I.
Qed.
(** [agree] by computation. *)
Definition says (E : Env) (u : User) (s : string) : bool := match verify_password E u s with None => true | Some _ => false end.
Definition agree_user (E : Env) (r : Request) (x : User * User) : bool :=
  Bool.eqb (says E x.1 (ru_password (rq_user r))) (says E x.2 (ru_password (rq_user r))) &&
  Bool.eqb (says E x.1 (ru_old_password (rq_user r))) (says E x.2 (ru_old_password (rq_user r))) &&
  forallb (fun k => Bool.eqb (e_bcmp E (ak_payload k.1) (rk_payload (rq_key r))) (e_bcmp E (ak_payload k.2) (rk_payload (rq_key r)))) (combine (u_apikeys x.1) (u_apikeys x.2)) &&
  forallb (fun t => Bool.eqb (String.eqb (t_secret t.1) (rm_secret (rq_mfa r))) (String.eqb (t_secret t.2) (rm_secret (rq_mfa r))) &&
                    Bool.eqb (String.eqb (t_secret t.1) (rw_challenge (rq_webauthn r))) (String.eqb (t_secret t.2) (rw_challenge (rq_webauthn r)))) (combine (u_mfa x.1) (u_mfa x.2)).
Lemma combine_at {A B} (l : list A) (l' : list B) i x y : l !! i = Some x -> l' !! i = Some y -> In (x, y) (combine l l').
Proof.
  revert l' i. induction l as [|a l IH]; intros [|b l'] [|i]; cbn [combine]; try discriminate.
  - intros [=->] [=->]. now left.
  - intros H H'. right. exact (IH l' i H H').
Qed.
Lemma says_iff E u v s : Bool.eqb (says E u s) (says E v s) = true -> (accepts E u s <-> accepts E v s).
Proof.
  rewrite <- !accepts_iff. unfold says. destruct (verify_password E u s), (verify_password E v s); cbn; intros H; try discriminate H; split; intros X; (discriminate X || reflexivity).
Qed.
Lemma eqb_agree a b s : Bool.eqb (String.eqb a s) (String.eqb b s) = true -> (a = s <-> b = s).
Proof. intros H%Bool.eqb_prop. rewrite <- (String.eqb_eq a), <- (String.eqb_eq b). now rewrite H. Qed.
Lemma agree_by E r db db' : forallb (agree_user E r) (combine (db_users db) (db_users db')) = true -> agree E r db db'.
Proof.
  intros H i u v Hu Hv. rewrite forallb_forall in H. specialize (H _ (combine_at _ _ _ _ _ Hu Hv)). unfold agree_user in H. cbn [fst snd] in H.
  apply andb_true_iff in H as [H H4]. apply andb_true_iff in H as [H H3]. apply andb_true_iff in H as [H1 H2]. rewrite forallb_forall in H3, H4.
  split; [now apply says_iff|]. split; [now apply says_iff|]. split.
  - intros n k k' K K'. specialize (H3 _ (combine_at _ _ _ _ _ K K')). apply Bool.eqb_prop in H3. cbn [fst snd] in H3. now rewrite H3.
  - intros n t t' K K'. specialize (H4 _ (combine_at _ _ _ _ _ K K')). cbn [fst snd] in H4. apply andb_true_iff in H4 as [H4 H5]. split; now apply eqb_agree.
Qed.
