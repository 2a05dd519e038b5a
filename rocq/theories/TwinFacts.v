(** Two databases with the same content up to key caches answer every call alike. *)
From Coq Require Import String Ascii ZArith NArith Lia Bool Arith List.
From Coq Require Import ZifyBool ZifyNat ZifyN.
From stdpp Require Import gmap strings.
From RecordUpdate Require Import RecordSet.
From Verif Require Import GoStr Utf8 Codec GoErr Role Name Email Random SpecValue RoleFacts EmailFacts RandomFacts.
From Verif Require Import Types Env Password ApiKey PublicKey Mfa User Json GoTime Persist Fs Database System UserFacts DbFacts Inv LoadFacts.
From Verif Require Import SpecDb AccountFacts StepFacts SpecAuth ApiKeyFacts MfaFacts SpecPersist.
Import ListNotations.
Import RecordSetNotations.
Open Scope string_scope.
#[local] Opaque int64 new_id trim_space new_email new_role.

Notation nc := (set t_cache (fun _ => None)).
(** ** Accounts *)
Definition with_mfa (u : User) (m : list MfaToken) : User := u <| u_mfa := m |>.
Definition same (u v : User) : Prop := no_cache u = no_cache v.
Lemma same_refl u : same u u. Proof. reflexivity. Qed.
Lemma same_inv u v : same u v -> map nc (u_mfa u) = map nc (u_mfa v) /\ v = u <| u_mfa := u_mfa v |>.
Proof. destruct u, v. unfold same, no_cache. cbn. intros [=]. subst. auto. Qed.
Lemma same_intro u l : map nc (u_mfa u) = map nc l -> same u (u <| u_mfa := l |>).
Proof. intros H. exact (f_equal (with_mfa u) H). Qed.
Ltac by_mfa M := match goal with |- same ?a ?b => exact (f_equal (with_mfa a) M) end.
Lemma same_revise nd u v : same u v -> same (revise nd u) (revise nd v).
Proof. intros (M & Ev)%same_inv. rewrite Ev. exact (f_equal (with_mfa (revise nd u)) M). Qed.

Definition sum_rel {A B} (R : A -> A -> Prop) (x y : A + B) : Prop :=
  match x, y with inl a, inl b => R a b | inr a, inr b => a = b | _, _ => False end.
Definition opt_rel {A} (R : A -> A -> Prop) (x y : option A) : Prop :=
  match x, y with Some a, Some b => R a b | None, None => True | _, _ => False end.
Definition res_rel {A} (R : A -> A -> Prop) (x y : Res A) : Prop :=
  match x, y with ROk a, ROk b => R a b | RErr a, RErr b => a = b | RPanic, RPanic => True | _, _ => False end.

Lemma same_verify E u v s : same u v -> verify_password E v s = verify_password E u s.
Proof. intros (_ & ->)%same_inv. reflexivity. Qed.
Lemma same_add_pk E nd u v r : same u v -> sum_rel same (add_public_key E nd u r) (add_public_key E nd v r).
Proof.
  intros S. pose proof (same_inv _ _ S) as (M & Ev). unfold add_public_key. destruct new_public_key as [k|]; [|reflexivity].
  assert (u_pubkeys v = u_pubkeys u) as -> by (rewrite Ev; reflexivity). destruct existsb; [reflexivity|]. cbn. apply same_revise. rewrite Ev. by_mfa M.
Qed.
Lemma same_del_pk nd u v r : same u v -> sum_rel same (delete_public_key nd u r) (delete_public_key nd v r).
Proof.
  intros S. pose proof (same_inv _ _ S) as (M & Ev). unfold delete_public_key. cbv zeta.
  assert (u_pubkeys v = u_pubkeys u) as -> by (rewrite Ev; reflexivity). destruct existsb; [|reflexivity]. cbn. apply same_revise. rewrite Ev. by_mfa M.
Qed.
Lemma same_add_key nd u v r : same u v -> sum_rel same (add_api_key nd u r) (add_api_key nd v r).
Proof.
  intros S. pose proof (same_inv _ _ S) as (M & Ev). unfold add_api_key. destruct new_api_key as [k|]; [|reflexivity].
  assert (u_apikeys v = u_apikeys u) as -> by (rewrite Ev; reflexivity). cbn. apply same_revise. rewrite Ev. by_mfa M.
Qed.
Lemma same_del_key nd u v r : same u v -> sum_rel same (fst (delete_api_key nd u r)) (fst (delete_api_key nd v r)) /\ snd (delete_api_key nd u r) = snd (delete_api_key nd v r).
Proof.
  intros S. pose proof (same_inv _ _ S) as (M & Ev). unfold delete_api_key. cbv zeta.
  assert (u_apikeys v = u_apikeys u) as -> by (rewrite Ev; reflexivity). destruct existsb; [|split; reflexivity]. cbn. split; [|reflexivity]. apply same_revise. rewrite Ev. by_mfa M.
Qed.
Lemma same_change E nd u v r keep : same u v -> sum_rel same (change_password E nd u r keep) (change_password E nd v r keep).
Proof.
  intros S. pose proof (same_inv _ _ S) as (M & Ev). unfold change_password. rewrite (same_verify E u v _ S). destruct verify_password; [reflexivity|].
  unfold add_password. destruct new_password as [p|]; [|reflexivity]. cbv zeta.
  assert (u_passwords v = u_passwords u) as -> by (rewrite Ev; reflexivity). cbn. apply same_revise. rewrite Ev. by_mfa M.
Qed.
Lemma cons_split {A} (a b : A) l l' : a :: l = b :: l' -> a = b /\ l = l'.
Proof. now intros [=]. Qed.
Lemma same_dup t l l' : map nc l = map nc l' -> dup_token t l = dup_token t l'.
Proof.
  revert l'. induction l as [|a l IH]; intros [|b l']; cbn [map]; try discriminate; [reflexivity|]. intros (H & H')%cons_split. cbn [dup_token].
  assert (t_secret a = t_secret b) as -> by exact (f_equal t_secret H). assert (t_comment a = t_comment b) as -> by exact (f_equal t_comment H).
  now rewrite (IH l').
Qed.
Lemma same_add_mfa E nd u v r : same u v -> fst (add_mfa_token E nd u r) = fst (add_mfa_token E nd v r) /\ res_rel same (snd (add_mfa_token E nd u r)) (snd (add_mfa_token E nd v r)).
Proof.
  intros S. pose proof (same_inv _ _ S) as (M & Ev). unfold add_mfa_token. destruct new_mfa_token as [r' [t|e|]]; try (split; reflexivity).
  rewrite (same_dup t _ _ M). destruct dup_token; [split; reflexivity|]. cbn. split; [reflexivity|]. apply same_revise.
  assert (M2 : map nc (u_mfa u ++ [t])%list = map nc (u_mfa v ++ [t])%list) by (rewrite !map_app; congruence).
  rewrite Ev. by_mfa M2.
Qed.
Lemma nc_proj {A} (f : MfaToken -> A) : (forall t, f (nc t) = f t) -> forall l l', map nc l = map nc l' -> map f l = map f l'.
Proof. intros K l l' H. apply (f_equal (map f)) in H. rewrite !map_map in H. rewrite (map_ext _ _ K) in H. rewrite H. apply map_ext. exact K. Qed.
Lemma nc_filter (f : MfaToken -> bool) : (forall t, f (nc t) = f t) -> forall l l', map nc l = map nc l' -> map nc (List.filter f l) = map nc (List.filter f l').
Proof.
  intros K. induction l as [|a l IH]; intros [|b l']; cbn [map]; try discriminate; [reflexivity|]. intros (H & H')%cons_split. cbn [List.filter].
  assert (f a = f b) as -> by (rewrite <- (K a), <- (K b); exact (f_equal f H)). destruct (f b); cbn [map]; [f_equal; [exact H|]|]; auto.
Qed.
Lemma nc_existsb (f : MfaToken -> bool) : (forall t, f (nc t) = f t) -> forall l l', map nc l = map nc l' -> existsb f l = existsb f l'.
Proof.
  intros K. induction l as [|a l IH]; intros [|b l']; cbn [map]; try discriminate; [reflexivity|]. intros (H & H')%cons_split. cbn [existsb].
  assert (f a = f b) as -> by (rewrite <- (K a), <- (K b); exact (f_equal f H)). now rewrite (IH l').
Qed.
Lemma same_del_mfa nd u v r : same u v -> sum_rel same (delete_mfa_token nd u r) (delete_mfa_token nd v r).
Proof.
  intros S. pose proof (same_inv _ _ S) as (M & Ev). unfold delete_mfa_token. cbv zeta.
  rewrite (nc_existsb (fun k => String.eqb (t_id k) (rm_id (rq_mfa r))) ltac:(reflexivity) _ _ M). destruct existsb; [|reflexivity]. cbn. apply same_revise.
  pose proof (nc_filter (fun k => negb (String.eqb (t_id k) (rm_id (rq_mfa r)))) ltac:(reflexivity) _ _ M) as M2.
  rewrite Ev. by_mfa M2.
Qed.
(** WebAuthn: with sound caches the outcome does not depend on them. *)
Lemma cache_choice t : cache_ok t -> (match t_cache t with Some k => Some k | None => derive_key (t_params t) end) = derive_key (t_params t).
Proof. intros C. destruct (t_cache t) as [k|] eqn:K; [|reflexivity]. symmetry. now apply C. Qed.
Lemma nc_eta t t' : nc t = nc t' -> t' = t <| t_cache := t_cache t' |>.
Proof. destruct t, t'. cbn. now intros [=]; subst. Qed.
Lemma same_request E t t' s : cache_ok t -> cache_ok t' -> nc t = nc t' -> snd (webauthn_request E t s) = snd (webauthn_request E t' s).
Proof.
  intros C C' H. unfold webauthn_request. rewrite (cache_choice _ C), (cache_choice _ C').
  assert (t_type t' = t_type t) as -> by (rewrite (nc_eta _ _ H); reflexivity). assert (t_params t' = t_params t) as Hp by (rewrite (nc_eta _ _ H); reflexivity). rewrite Hp.
  destruct negb; [reflexivity|]. destruct (t_params t !! "u2f_id") as [uid|]; [|reflexivity]. destruct (t_params t !! "key_type") as [kt|]; [|reflexivity].
  destruct negb; [reflexivity|]. destruct derive_key as [k|]; [|reflexivity]. cbv zeta. cbn [snd].
  change (t_params (t' <| t_cache := Some k |>)) with (t_params t'). change (t_params (t <| t_cache := Some k |>)) with (t_params t). now rewrite Hp.
Qed.
Lemma same_tokens E r id l : forall l', Forall cache_ok l -> Forall cache_ok l' -> map nc l = map nc l' ->
  snd (verify_tokens E r id l) = snd (verify_tokens E r id l').
Proof.
  induction l as [|t l IH]; intros [|t' l'] C C'; cbn [map]; try discriminate; [reflexivity|]. intros (H & H')%cons_split. cbn [verify_tokens].
  inversion C as [|? ? C1 C2]; subst. inversion C' as [|? ? D1 D2]; subst.
  assert (t_disabled t' = t_disabled t) as -> by (rewrite (nc_eta _ _ H); reflexivity).
  assert (t_type t' = t_type t) as -> by (rewrite (nc_eta _ _ H); reflexivity). assert (t_params t' = t_params t) as -> by (rewrite (nc_eta _ _ H); reflexivity).
  destruct (_ && _).
  - pose proof (same_request E t t' (rw_request (rq_webauthn r)) C1 D1 H) as W. destruct (webauthn_request E t) as [a x], (webauthn_request E t') as [b y]. cbn in *. now subst.
  - specialize (IH l' C2 D2 H'). destruct (verify_tokens E r id l), (verify_tokens E r id l'). exact IH.
Qed.
Lemma uncached_nc l l' : Forall2 (fun t t' => uncache t = uncache t' /\ (cache_ok t -> cache_ok t')) l l' -> map nc l = map nc l'.
Proof. intros H. induction H as [|a b l l' [H1 _] _ IH]; cbn [map]; [reflexivity|]. rewrite IH. f_equal. exact H1. Qed.
Lemma same_webauthn E u v r : same u v -> Forall cache_ok (u_mfa u) -> Forall cache_ok (u_mfa v) ->
  same (fst (verify_webauthn E u r)) (fst (verify_webauthn E v r)) /\ snd (verify_webauthn E u r) = snd (verify_webauthn E v r).
Proof.
  intros S C C'. assert (K : forall w, same (fst (verify_webauthn E w r)) w).
  { intros w. destruct (verify_webauthn_uncache E w r) as (l & -> & H). symmetry. apply same_intro. exact (uncached_nc _ _ H). }
  split.
  - unfold same in *. now rewrite (K u), (K v).
  - unfold verify_webauthn. destruct unpack_request as [q|]; [|reflexivity]. pose proof (same_tokens E r (wq_id q) _ _ C C' (proj1 (same_inv _ _ S))) as T.
    destruct (verify_tokens E r (wq_id q) (u_mfa u)), (verify_tokens E r (wq_id q) (u_mfa v)). exact T.
Qed.

(** ** The file does not depend on the caches *)
Lemma enc_token t : enc_struct mfa_f (nc t) = enc_struct mfa_f t.
Proof. reflexivity. Qed.
Lemma enc_tokens l : enc (list_ (enc_struct mfa_f) (dec_struct mfa_f mfa_z)) (map nc l) = enc (list_ (enc_struct mfa_f) (dec_struct mfa_f mfa_z)) l.
Proof. destruct l as [|t l]; [reflexivity|]. cbn [enc list_at]. do 2 f_equal. rewrite map_map. reflexivity. Qed.
Lemma enc_user u : enc_struct user_f (to_raw_user (no_cache u)) = enc_struct user_f (to_raw_user u).
Proof.
  unfold enc_struct. f_equal. unfold user_f. cbn [flat_map]. cbn [f_codec f_get f_name]. 
  change (u_mfa (raw_user (to_raw_user (no_cache u)))) with (map nc (u_mfa u)). rewrite enc_tokens. reflexivity.
Qed.
Lemma mfa_times_nc l : forallb mfa_times (map nc l) = forallb mfa_times l.
Proof. induction l as [|t l IH]; [reflexivity|]. cbn [map forallb]. rewrite IH. reflexivity. Qed.
Lemma marshal_drop c : marshal (drop_caches c) = marshal c.
Proof.
  unfold marshal, marshal_raw.
  assert (raw_times (to_raw (drop_caches c)) = raw_times (to_raw c)) as ->.
  { unfold raw_times. f_equal. destruct c as [v p n m l]. cbn [drop_caches]. cbn. induction l as [|u l IH]; [reflexivity|]. cbn [map forallb]. f_equal; [|exact IH].
    unfold opt_all, raw_user_times. cbn. rewrite mfa_times_nc. reflexivity. }
  destruct raw_times; [|reflexivity].
  assert (enc_struct content_f (to_raw (drop_caches c)) = enc_struct content_f (to_raw c)) as ->; [|reflexivity].
  assert (forall l, enc (opt_list (enc_struct user_f) (dec_struct user_f raw_z)) (map (fun u => Some (to_raw_user u)) (map no_cache l)) =
             enc (opt_list (enc_struct user_f) (dec_struct user_f raw_z)) (map (fun u => Some (to_raw_user u)) l)) as K.
  { intros l. destruct l as [|u l]; [reflexivity|]. cbn [enc opt_list]. rewrite !map_map. do 2 f_equal. apply map_ext. intros v. apply enc_user. }
  change (enc_struct content_f (to_raw (drop_caches c))) with
    (JObj (flat_map (fun f => match enc (f_codec f) (f_get f (to_raw (drop_caches c))) with Some j => [(f_name f, j)] | None => [] end) content_f)).
  change (enc_struct content_f (to_raw c)) with
    (JObj (flat_map (fun f => match enc (f_codec f) (f_get f (to_raw c)) with Some j => [(f_name f, j)] | None => [] end) content_f)).
  f_equal. unfold content_f. cbn [flat_map]. cbn [f_codec f_get f_name].
  change (rc_users (to_raw (drop_caches c))) with (map (fun u => Some (to_raw_user u)) (map no_cache (c_users c))). rewrite K. reflexivity.
Qed.

(** ** Databases *)
Record near (db db' : Database) : Prop := {
  tw_content : drop_caches (db_content db) = drop_caches (db_content db');
  tw_name : ref_username db = ref_username db'; tw_email : ref_email db = ref_email db';
  tw_id : ref_id db = ref_id db'; tw_key : ref_apikey db = ref_apikey db';
  tw_path : db_path db = db_path db' }.
Definition twin (db db' : Database) : Prop := near db db' /\ caches db /\ caches db'.
Lemma tw_users db db' : near db db' -> map no_cache (db_users db) = map no_cache (db_users db').
Proof. intros T. exact (f_equal c_users (tw_content _ _ T)). Qed.
Lemma tw_policy db db' : near db db' -> db_policy db = db_policy db'.
Proof. intros T. exact (f_equal c_policy (tw_content _ _ T)). Qed.
Lemma tw_length db db' : near db db' -> List.length (db_users db) = List.length (db_users db').
Proof. intros T. pose proof (tw_users _ _ T) as H. apply (f_equal (@List.length _)) in H. now rewrite !map_length in H. Qed.
Lemma tw_at db db' i : near db db' -> opt_rel same (db_users db !! i) (db_users db' !! i).
Proof.
  intros T. pose proof (f_equal (fun l => l !! i) (tw_users _ _ T)) as H. cbn beta in H. change (map no_cache (db_users db)) with (no_cache <$> db_users db) in H. change (map no_cache (db_users db')) with (no_cache <$> db_users db') in H. rewrite !list_lookup_fmap in H.
  destruct (db_users db !! i) as [u|], (db_users db' !! i) as [v|]; cbn in *; try discriminate; [|exact I]. exact (f_equal (from_option id u) H).
Qed.
Definition pair_rel (x y : nat * User) : Prop := fst x = fst y /\ same (snd x) (snd y).
Lemma tw_at_ref db db' x : near db db' -> opt_rel pair_rel (at_ref db x) (at_ref db' x).
Proof.
  intros T. destruct x as [i|]; [|exact I]. cbn [at_ref]. pose proof (tw_at _ _ i T) as H.
  destruct (db_users db !! i), (db_users db' !! i); cbn in *; try contradiction; [split; auto|exact I].
Qed.
Lemma tw_by_username E db db' s : near db db' -> opt_rel pair_rel (by_username E db s) (by_username E db' s).
Proof. intros T. unfold by_username. destruct Z.ltb; [exact I|]. rewrite (tw_name _ _ T). now apply tw_at_ref. Qed.
Lemma tw_by_email E db db' s : near db db' -> opt_rel pair_rel (by_email E db s) (by_email E db' s).
Proof. intros T. unfold by_email. destruct Z.ltb; [exact I|]. rewrite (tw_email _ _ T). now apply tw_at_ref. Qed.
Lemma tw_get_user E db db' s : near db db' -> opt_rel pair_rel (get_user E db s) (get_user E db' s).
Proof. intros T. unfold get_user. destruct contains; [now apply tw_by_email|now apply tw_by_username]. Qed.
Lemma same_id u v : same u v -> u_id v = u_id u.
Proof. intros (_ & ->)%same_inv. reflexivity. Qed.
Lemma tw_validate E db db' r : near db db' -> sum_rel pair_rel (validate_identity E db r) (validate_identity E db' r).
Proof.
  intros T. unfold validate_identity. pose proof (tw_by_username E db db' (ru_username (rq_user r)) T) as A.
  destruct (by_username E db _) as [[i u]|], (by_username E db' _) as [[i' u']|]; cbn in A; try contradiction; [|reflexivity]. destruct A as [A1 A2]. cbn in A1, A2. subst i'.
  pose proof (tw_by_email E db db' (ru_email (rq_user r)) T) as B.
  destruct (by_email E db _) as [[j v]|], (by_email E db' _) as [[j' v']|]; cbn in B; try contradiction; [|reflexivity]. destruct B as [B1 B2]. cbn in B1, B2.
  rewrite (same_id _ _ A2), (same_id _ _ B2). destruct String.eqb; [split; auto|reflexivity].
Qed.

(** The result of a call on each side. *)
Record alike (o o' : Out) : Prop := {
  al_res : o_res o = o_res o'; al_req : seen (o_req o) = seen (o_req o'); al_fs : o_fs o = o_fs o';
  al_db : near (o_db o) (o_db o') }.
Lemma ret_alike db db' fs r res : near db db' -> alike (ret db fs r res) (ret db' fs r res).
Proof. intros N. now split. Qed.
Lemma ret_alike' db db' fs r r' res : near db db' -> seen r = seen r' -> alike (ret db fs r res) (ret db' fs r' res).
Proof. intros N. now split. Qed.
Lemma near_bump nd db db' : near db db' -> near (db <| db_content ::= bump nd |>) (db' <| db_content ::= bump nd |>).
Proof.
  intros N. split; [|apply (tw_name _ _ N)|apply (tw_email _ _ N)|apply (tw_id _ _ N)|apply (tw_key _ _ N)|apply (tw_path _ _ N)].
  exact (f_equal (bump nd) (tw_content _ _ N)).
Qed.
Lemma near_marshal db db' : near db db' -> marshal (db_content db) = marshal (db_content db').
Proof. intros N. rewrite <- (marshal_drop (db_content db)), <- (marshal_drop (db_content db')). now rewrite (tw_content _ _ N). Qed.
Lemma commit_near nd p db db' fs : near db db' ->
  snd (fst (commit_to nd p db fs)) = snd (fst (commit_to nd p db' fs)) /\ snd (commit_to nd p db fs) = snd (commit_to nd p db' fs) /\
  near (fst (fst (commit_to nd p db fs))) (fst (fst (commit_to nd p db' fs))).
Proof.
  intros N%(near_bump nd). unfold commit_to. cbv zeta. rewrite (near_marshal _ _ N). destruct write_db as [fs' res]. cbn [fst snd]. auto.
Qed.
Lemma finish_alike nd db db' fs r w : near db db' -> alike (finish nd db fs r w) (finish nd db' fs r w).
Proof.
  intros N. unfold finish, commit. rewrite <- (tw_path _ _ N). destruct (commit_near nd (db_path db) db db' fs N) as (H1 & H2 & H3).
  destruct (commit_to nd (db_path db) db fs) as [[d f] c], (commit_to nd (db_path db) db' fs) as [[d' f'] c']. cbn in *. subst. destruct c'; now apply ret_alike.
Qed.
Lemma near_set db db' i u v : near db db' -> same u v -> near (set_user db i u) (set_user db' i v).
Proof.
  intros N S. split; [|apply (tw_name _ _ N)|apply (tw_email _ _ N)|apply (tw_id _ _ N)|apply (tw_key _ _ N)|apply (tw_path _ _ N)].
  change (drop_caches (db_content (set_user db i u))) with (set c_users (fun _ => no_cache <$> <[i := u]> (db_users db)) (drop_caches (db_content db))).
  change (drop_caches (db_content (set_user db' i v))) with (set c_users (fun _ => no_cache <$> <[i := v]> (db_users db')) (drop_caches (db_content db'))).
  rewrite (tw_content _ _ N). rewrite !list_fmap_insert. pose proof (tw_users _ _ N) as U. change (no_cache <$> db_users db = no_cache <$> db_users db') in U. rewrite U, S. reflexivity.
Qed.
Lemma near_key f db db' : near db db' -> near (db <| ref_apikey ::= f |>) (db' <| ref_apikey ::= f |>).
Proof. intros [A B C D F G]. split; try assumption. exact (f_equal f F). Qed.

(** ** Every call *)
Ltac two_ids N r := match goal with |- context[validate_identity ?E ?db r] => match goal with |- context[validate_identity E ?db' r] =>
  lazymatch db with db' => fail | _ => pose proof (tw_validate E db db' r N) as TV; destruct (validate_identity E db r) as [[i u]|e], (validate_identity E db' r) as [[i' u']|e'];
   cbn in TV; try contradiction; [destruct TV as [TV1 TV2]; cbn in TV1, TV2; subst i'|subst e'; now apply ret_alike] end end end.
Lemma pick_near db db' nd i n s : ref_id db = ref_id db' -> pick_id db nd i n s = pick_id db' nd i n s.
Proof. intros H. revert i. induction n as [|n IH]; intros i; cbn -[new_id]; [reflexivity|]. rewrite H. destruct lookup; auto. Qed.
Lemma addresses_near E db db' l : ref_email db = ref_email db' -> new_addresses E db l = new_addresses E db' l.
Proof. intros H. induction l as [|e l IH]; cbn; [reflexivity|]. now rewrite H, IH. Qed.
Definition append_to (c : Content) (u : User) : Content := set c_users (fun l => (l ++ [no_cache u])%list) c.
Definition with_users (c : Content) (l : list User) : Content := c <| c_users := l |>.
Lemma drop_append c u : drop_caches (set c_users (fun l => (l ++ [u])%list) c) = append_to (drop_caches c) u.
Proof. exact (f_equal (with_users c) (map_app no_cache (c_users c) [u])). Qed.
Lemma add_user_near E nd db db' fs r : near db db' -> alike (db_add_user E nd db fs r) (db_add_user E nd db' fs r).
Proof.
  intros N. unfold db_add_user. cbv zeta. rewrite (tw_policy _ _ N). destruct check_policy; [now apply ret_alike|]. destruct new_user_with_roles as [u|]; [|now apply ret_alike].
  rewrite (pick_near db db' _ _ _ _ (tw_id _ _ N)). rewrite (tw_name _ _ N). destruct lookup; [now apply ret_alike|].
  rewrite (addresses_near E db db' _ (tw_email _ _ N)). destruct new_addresses as [l|]; [|now apply ret_alike].
  apply finish_alike. rewrite (tw_length _ _ N). pose proof N as [A B C D F G]. split.
  - match goal with |- drop_caches (db_content (set db_content (set c_users (fun l => (l ++ [?v])%list)) _)) = _ =>
      transitivity (append_to (drop_caches (db_content db)) v); [exact (drop_append _ _)|]; transitivity (append_to (drop_caches (db_content db')) v); [now rewrite A|symmetry; exact (drop_append _ _)] end.
  - cbn. now rewrite B.
  - cbn. now rewrite C.
  - cbn. now rewrite D.
  - exact F.
  - exact G.
Qed.
Lemma same_meta u v : same u v -> metadata u = metadata v.
Proof. intros (_ & ->)%same_inv. reflexivity. Qed.
Lemma fold_meta l l' b : map no_cache l = map no_cache l' -> fold_left (fun b u => b_add b (metadata u)) l b = fold_left (fun b u => b_add b (metadata u)) l' b.
Proof.
  revert l' b. induction l as [|u l IH]; intros [|v l'] b; cbn [map]; try discriminate; [reflexivity|]. intros (H & H')%cons_split. cbn [fold_left]. rewrite (same_meta u v H). now apply IH.
Qed.
Lemma get_users_near E db db' fs r : near db db' -> alike (db_get_users E db fs r) (db_get_users E db' fs r).
Proof. intros N. unfold db_get_users. two_ids N r. rewrite (fold_meta _ _ b_new (tw_users _ _ N)). now apply ret_alike. Qed.
Lemma get_user_near E db db' fs r : near db db' -> alike (db_get_user E db fs r) (db_get_user E db' fs r).
Proof. intros N. unfold db_get_user. two_ids N r. now apply ret_alike. Qed.
Lemma delete_user_near E db db' fs r : near db db' -> alike (db_delete_user E db fs r) (db_delete_user E db' fs r).
Proof. intros N. unfold db_delete_user. two_ids N r. now apply ret_alike. Qed.
Lemma copy_near nd db db' fs r fp : near db db' -> alike (db_copy nd db fs r fp) (db_copy nd db' fs r fp).
Proof.
  intros N. unfold db_copy. destruct (commit_near nd fp db db' fs N) as (H1 & H2 & H3).
  destruct (commit_to nd fp db fs) as [[d f] c], (commit_to nd fp db' fs) as [[d' f'] c']. cbn in *. subst. destruct c'; now apply ret_alike.
Qed.
Ltac updated S N := match type of S with sum_rel _ ?x ?y => destruct x, y; cbn in S; try contradiction; [apply finish_alike, near_set; assumption|subst; now apply ret_alike] end.
Lemma add_pk_near E nd db db' fs r : near db db' -> alike (db_add_public_key E nd db fs r) (db_add_public_key E nd db' fs r).
Proof. intros N. unfold db_add_public_key. two_ids N r. pose proof (same_add_pk E nd u u' r TV2) as S. updated S N. Qed.
Lemma get_pk_near E db db' fs r : near db db' -> alike (db_get_public_keys E db fs r) (db_get_public_keys E db' fs r).
Proof. intros N. unfold db_get_public_keys. two_ids N r. assert (u_pubkeys u' = u_pubkeys u) as -> by (rewrite (proj2 (same_inv _ _ TV2)); reflexivity). now apply ret_alike. Qed.
Lemma del_pk_near E nd db db' fs r : near db db' -> alike (db_delete_public_key E nd db fs r) (db_delete_public_key E nd db' fs r).
Proof. intros N. unfold db_delete_public_key. two_ids N r. pose proof (same_del_pk nd u u' r TV2) as S. updated S N. Qed.
Lemma add_key_near E nd db db' fs r : near db db' -> alike (db_add_api_key E nd db fs r) (db_add_api_key E nd db' fs r).
Proof.
  intros N. unfold db_add_api_key. two_ids N r. destruct random_range as [s|]; [|now apply ret_alike]. destruct new_password as [h|]; [|now apply ret_alike]. cbv zeta.
  rewrite (tw_key _ _ N). destruct lookup; [now apply ret_alike|].
  match goal with |- context[add_api_key nd u ?r2] => pose proof (same_add_key nd u u' r2 TV2) as S; destruct (add_api_key nd u r2) as [v|e], (add_api_key nd u' r2) as [v'|e'] end; cbn in S; try contradiction.
  - apply finish_alike. exact (near_key _ _ _ (near_set db db' i v v' N S)).
  - subst. now apply ret_alike.
Qed.
Lemma del_key_near E nd db db' fs r : near db db' -> alike (db_delete_api_key E nd db fs r) (db_delete_api_key E nd db' fs r).
Proof.
  intros N. unfold db_delete_api_key. two_ids N r. destruct (same_del_key nd u u' r TV2) as [S Hr].
  destruct (delete_api_key nd u r) as [[v|e] r1], (delete_api_key nd u' r) as [[v'|e'] r2]; cbn in S, Hr; try contradiction; subst.
  - apply finish_alike. exact (near_key _ _ _ (near_set db db' i v v' N S)).
  - now apply ret_alike.
Qed.
Lemma get_keys_near E db db' fs r : near db db' -> alike (db_get_api_keys E db fs r) (db_get_api_keys E db' fs r).
Proof. intros N. unfold db_get_api_keys. two_ids N r. assert (u_apikeys u' = u_apikeys u) as -> by (rewrite (proj2 (same_inv _ _ TV2)); reflexivity). now apply ret_alike. Qed.
Lemma change_near E nd db db' fs r : near db db' -> alike (db_change_password E nd db fs r) (db_change_password E nd db' fs r).
Proof.
  intros N. unfold db_change_password. two_ids N r. rewrite <- (tw_policy _ _ N). destruct negb; [now apply ret_alike|].
  pose proof (same_change E nd u u' r (pp_keep (po_password (db_policy db))) TV2) as S. updated S N.
Qed.
Lemma add_mfa_near E nd db db' fs r : near db db' -> alike (db_add_mfa_token E nd db fs r) (db_add_mfa_token E nd db' fs r).
Proof.
  intros N. unfold db_add_mfa_token. two_ids N r. destruct (same_add_mfa E nd u u' r TV2) as [Hr S].
  destruct (add_mfa_token E nd u r) as [r1 [v|e|]], (add_mfa_token E nd u' r) as [r2 [v'|e'|]]; cbn in S, Hr; try contradiction; subst.
  - apply finish_alike, near_set; assumption.
  - now apply ret_alike.
  - now apply ret_alike.
Qed.
Lemma del_mfa_near E nd db db' fs r : near db db' -> alike (db_delete_mfa_token E nd db fs r) (db_delete_mfa_token E nd db' fs r).
Proof. intros N. unfold db_delete_mfa_token. two_ids N r. pose proof (same_del_mfa nd u u' r TV2) as S. updated S N. Qed.
Lemma fold_tokens l l' b b' : map nc l = map nc l' -> hide_payload (PMfaTokens b) = hide_payload (PMfaTokens b') ->
  hide_payload (PMfaTokens (fold_left (fun b t => if t_disabled t then b else b_add b t) l b)) =
  hide_payload (PMfaTokens (fold_left (fun b t => if t_disabled t then b else b_add b t) l' b')).
Proof.
  revert l' b b'. induction l as [|t l IH]; intros [|t' l'] b b'; cbn [map]; try discriminate; [auto|]. intros (H & H')%cons_split Hb. cbn [fold_left].
  apply IH; [exact H'|]. assert (t_disabled t = t_disabled t') as -> by exact (f_equal t_disabled H). destruct t_disabled; [exact Hb|].
  cbn in Hb |- *. assert (map nc (b_items b) = map nc (b_items b') /\ b_size b = b_size b') as [H1 H2] by (split; [exact (f_equal (fun p => match p with PMfaTokens b => b_items b | _ => [] end) Hb)|exact (f_equal (fun p => match p with PMfaTokens b => b_size b | _ => 0%Z end) Hb)]).
  unfold b_add. cbn. rewrite !map_app. cbn [map]. rewrite H1, H2. do 3 f_equal. exact (f_equal (fun t => [t]) H).
Qed.
Definition with_payload (r : Request) (p : Payload) : Request := r <| rq_payload := p |>.
Lemma get_mfa_near E db db' fs r : near db db' -> alike (db_get_mfa_tokens E db fs r) (db_get_mfa_tokens E db' fs r).
Proof.
  intros N. unfold db_get_mfa_tokens. two_ids N r. apply ret_alike'; [assumption|].
  exact (f_equal (with_payload r) (fold_tokens _ _ b_new b_new (proj1 (same_inv _ _ TV2)) eq_refl)).
Qed.
Lemma flags_near u v r : same u v -> get_flags u r = get_flags v r.
Proof.
  intros (H & _)%same_inv. unfold get_flags. revert r H. generalize (u_mfa v). induction (u_mfa u) as [|t l IH]; intros [|t' l'] r; cbn [map]; try discriminate; [reflexivity|].
  intros (H & H')%cons_split. cbn [fold_left]. assert (t_disabled t = t_disabled t') as -> by exact (f_equal t_disabled H). assert (t_type t = t_type t') as -> by exact (f_equal t_type H). now apply IH.
Qed.
Ltac two_users N db db' s := match goal with |- context[get_user ?E db s] =>
  pose proof (tw_get_user E db db' s N) as TG; destruct (get_user E db s) as [[i u]|], (get_user E db' s) as [[i' u']|]; cbn in TG; try contradiction;
  [destruct TG as [TG1 TG2]; cbn in TG1, TG2; subst i'|] end.
Lemma identify_near E db db' fs r : near db db' -> alike (db_identify E db fs r) (db_identify E db' fs r).
Proof.
  intros N. unfold db_identify. two_users N db db' (ru_username (rq_user r)); [|now apply ret_alike]. rewrite (flags_near _ _ r TG2).
  pose proof (same_inv _ _ TG2) as (M & Ev).
  assert (challenges u' = challenges u) as -> by (unfold challenges; destruct (u_mfa u), (u_mfa u'); cbn in M; try discriminate; reflexivity).
  assert (u_username u' = u_username u /\ mail_claim u' = mail_claim u /\ name_claim u' = name_claim u /\ u_roles u' = u_roles u) as (-> & -> & -> & ->) by (rewrite Ev; repeat split; reflexivity).
  now apply ret_alike.
Qed.
Lemma lookup_near E db db' fs r : near db db' -> alike (db_lookup_api_key E db fs r) (db_lookup_api_key E db' fs r).
Proof.
  intros N. unfold db_lookup_api_key. cbv zeta. destruct String.eqb; [now apply ret_alike|]. destruct Z.ltb; [now apply ret_alike|].
  rewrite (tw_key _ _ N). match goal with |- context[at_ref db ?x] => pose proof (tw_at_ref db db' x N) as TG; destruct (at_ref db x) as [[i u]|], (at_ref db' x) as [[i' u']|] end;
    cbn in TG; try contradiction; [|now apply ret_alike]. destruct TG as [_ TG2]. cbn in TG2. pose proof (same_inv _ _ TG2) as (M & Ev).
  assert (u_username u' = u_username u /\ mail_claim u' = mail_claim u) as (-> & ->) by (rewrite Ev; repeat split; reflexivity).
  unfold lookup_api_key. assert (u_apikeys u' = u_apikeys u) as -> by (rewrite Ev; reflexivity). destruct find as [k|]; [destruct ak_match|]; now apply ret_alike.
Qed.
Lemma authenticate_near E db db' fs r : twin db db' -> alike (db_authenticate E db fs r) (db_authenticate E db' fs r).
Proof.
  intros (N & C & C'). unfold db_authenticate. cbv zeta.
  assert (K : forall i u, get_user E db (ru_username (rq_user r)) = Some (i, u) -> account db i u).
  { intros i u. unfold get_user, by_email, by_username, at_ref. destruct contains; destruct Z.ltb; try discriminate; destruct lookup as [j|]; try discriminate;
      destruct (db_users db !! j) eqn:Q; try discriminate; intros [= <- <-]; exact Q. }
  assert (K' : forall i u, get_user E db' (ru_username (rq_user r)) = Some (i, u) -> account db' i u).
  { intros i u. unfold get_user, by_email, by_username, at_ref. destruct contains; destruct Z.ltb; try discriminate; destruct lookup as [j|]; try discriminate;
      destruct (db_users db' !! j) eqn:Q; try discriminate; intros [= <- <-]; exact Q. }
  two_users N db db' (ru_username (rq_user r)); [|now apply ret_alike].
  rewrite (same_verify E u u' _ TG2). destruct (negb (String.eqb (ru_password _) "")).
  - destruct verify_password; now apply ret_alike.
  - destruct negb; [|now apply ret_alike].
    destruct (same_webauthn E u u' r TG2 (C _ _ (K _ _ eq_refl)) (C' _ _ (K' _ _ eq_refl))) as [S R].
    destruct (verify_webauthn E u r) as [v res], (verify_webauthn E u' r) as [v' res']. cbn in S, R. subst. destruct res'; apply ret_alike; now apply near_set.
Qed.
Theorem exec_twin E nd op db db' fs r : twin db db' ->
  let o := exec E nd op db fs r in let o' := exec E nd op db' fs r in
  o_res o = o_res o' /\ seen (o_req o) = seen (o_req o') /\ o_fs o = o_fs o' /\ twin (o_db o) (o_db o').
Proof.
  intros T. assert (A : alike (exec E nd op db fs r) (exec E nd op db' fs r)).
  { pose proof (proj1 T) as N. destruct op.
    - exact (add_user_near E nd _ _ fs r N).
    - exact (get_users_near E _ _ fs r N).
    - exact (get_user_near E _ _ fs r N).
    - exact (delete_user_near E _ _ fs r N).
    - exact (authenticate_near E _ _ fs r T).
    - exact (finish_alike nd _ _ fs r (fun e => e) N).
    - exact (copy_near nd _ _ fs r fp N).
    - exact (add_pk_near E nd _ _ fs r N).
    - exact (get_pk_near E _ _ fs r N).
    - exact (del_pk_near E nd _ _ fs r N).
    - exact (add_key_near E nd _ _ fs r N).
    - exact (del_key_near E nd _ _ fs r N).
    - exact (get_keys_near E _ _ fs r N).
    - exact (change_near E nd _ _ fs r N).
    - exact (identify_near E _ _ fs r N).
    - exact (lookup_near E _ _ fs r N).
    - exact (add_mfa_near E nd _ _ fs r N).
    - exact (get_mfa_near E _ _ fs r N).
    - exact (del_mfa_near E nd _ _ fs r N).
    - exact (ret_alike _ _ fs r OOk N). }
  destruct T as (_ & C & C'). split; [exact (al_res _ _ A)|]. split; [exact (al_req _ _ A)|]. split; [exact (al_fs _ _ A)|].
  split; [exact (al_db _ _ A)|]. split; apply exec_caches; assumption.
Qed.
Lemma answers_twin E l : forall db db' fs, twin db db' -> answers E l db fs = answers E l db' fs.
Proof.
  induction l as [|[[nd op] r] l IH]; intros db db' fs T; cbn [answers]; [reflexivity|]. cbv zeta.
  destruct (exec_twin E nd op db db' fs r T) as (H1 & H2 & H3 & H4). rewrite H1, H2, H3. f_equal. rewrite (IH _ _ _ H4). reflexivity.
Qed.
