(** Every database in memory holds values its Go types can hold; what was read from a file is
    valid UTF-8. *)
From Coq Require Import String Ascii ZArith NArith Lia Bool Arith List.
From Coq Require Import ZifyBool ZifyNat ZifyN.
From stdpp Require Import gmap strings.
From RecordUpdate Require Import RecordSet.
From Verif Require Import GoStr Utf8 Codec GoErr Role Name Email Random SpecValue RoleFacts EmailFacts RandomFacts.
From Verif Require Import Types Env Password ApiKey PublicKey Mfa User Json GoTime Persist Fs Database System UserFacts DbFacts Inv LoadFacts.
From Verif Require Import SpecDb AccountFacts StepFacts SpecPersist.
From Verif Require PersistFacts.
Import ListNotations.
Import RecordSetNotations.
Open Scope string_scope.
#[local] Opaque int64 new_id trim_space new_email new_role.

(** ** Lower case *)
Definition fix_chunk (c : chunk) : chunk := match c with Rune _ _ => c | Bad _ => Rune 65533 fffd end.
Lemma chunks_sanitize l : chunks (sanitize_l l) = map fix_chunk (chunks l).
Proof.
  unfold sanitize_l. pose proof (chunks_encoded l) as H. induction H as [|c cs Hc _ IH]; [reflexivity|]. cbn [flat_map map].
  destruct c as [r bs|b]; cbn [chunk_fix fix_chunk].
  - rewrite valid_app by (eapply encoded_valid; eauto). rewrite IH. rewrite <- (app_nil_r bs) at 1. rewrite Hc. reflexivity.
  - rewrite valid_app by (eapply encoded_valid, fffd_encoded). rewrite IH. reflexivity.
Qed.
Lemma lower_sanitize E s : lower E (sanitize s) = lower E s.
Proof.
  unfold lower, to_lower. f_equal. unfold to_lower_l. destruct (ascii_only (los s)) eqn:A.
  - rewrite sanitize_valid by (now apply ascii_valid). now rewrite A.
  - assert (ascii_only (los (sanitize s)) = false) as ->.
    { destruct (ascii_only (los (sanitize s))) eqn:B; [|reflexivity]. unfold sanitize in B. rewrite los_sol in B. exfalso.
      revert A. rewrite <- (chunks_bytes (los s)). unfold sanitize_l in B. induction (chunks (los s)) as [|c cs IH]; [discriminate|].
      cbn [flat_map] in *. unfold ascii_only in *. rewrite forallb_app in B. apply andb_prop in B as [B1 B2]. rewrite forallb_app.
      destruct c as [r bs|b]; [cbn [chunk_fix chunk_bytes] in *|discriminate]. rewrite B1. now apply IH. }
    unfold sanitize. rewrite los_sol, chunks_sanitize. induction (chunks (los s)) as [|c cs IH]; [reflexivity|].
    cbn [map flat_map]. rewrite IH. f_equal. now destruct c.
Qed.

(** ** What a parsed document holds *)
Fixpoint good (j : json) : Prop :=
  match j with
  | JStr s => valid_utf8 s = true
  | JArr l => fold_right (fun j P => good j /\ P) True l
  | JObj m => fold_right (fun kv P => (valid_utf8 (fst kv) = true /\ good (snd kv)) /\ P) True m
  | _ => True
  end.
Lemma good_arr l : good (JArr l) <-> Forall good l.
Proof. cbn [good]. induction l; cbn [fold_right]; split; intros H; [constructor|exact I|constructor; tauto|inversion H; tauto]. Qed.
Lemma good_obj m : good (JObj m) <-> Forall (fun kv => valid_utf8 (fst kv) = true /\ good (snd kv)) m.
Proof. cbn [good]. induction m; cbn [fold_right]; split; intros H; [constructor|exact I|constructor; tauto|inversion H; tauto]. Qed.
Lemma unquote_valid raw : valid_utf8 (unquote raw) = true.
Proof. unfold unquote. rewrite <- (los_sol (unescape raw)). apply sanitize_is_valid. Qed.
Lemma pv_good n :
  (forall l v r, pv n l = Some (v, r) -> good v) /\
  (forall l m r, pmem n l = Some (m, r) -> Forall (fun kv => valid_utf8 (fst kv) = true /\ good (snd kv)) m) /\
  (forall l m r, parr n l = Some (m, r) -> Forall good m).
Proof.
  induction n as [|n (IH1 & IH2 & IH3)]; [repeat split; discriminate|]. repeat split.
  - intros l v r. cbn [pv]. destruct (skip_ws l) as [|a t]; [discriminate|].
    destruct (Ascii.eqb a "{").
    { destruct (skip_ws t) as [|b r1]; [discriminate|]. destruct Ascii.eqb; [intros [=<- <-]; now apply good_obj|].
      destruct (pmem n t) as [[m r2]|] eqn:M; [|discriminate]. intros [=<- <-]. apply good_obj. eauto. }
    destruct (Ascii.eqb a "[").
    { destruct (skip_ws t) as [|b r1]; [discriminate|]. destruct Ascii.eqb; [intros [=<- <-]; now apply good_arr|].
      destruct (parr n t) as [[m r2]|] eqn:M; [|discriminate]. intros [=<- <-]. apply good_arr. eauto. }
    destruct (Ascii.eqb a quote).
    { destruct scan_str as [[raw r1]|]; [|discriminate]. intros [=<- <-]. apply unquote_valid. }
    destruct (Ascii.eqb a "t"); [destruct strip_prefix; [|discriminate]; now intros [=<- <-]|].
    destruct (Ascii.eqb a "f"); [destruct strip_prefix; [|discriminate]; now intros [=<- <-]|].
    destruct (Ascii.eqb a "n"); [destruct strip_prefix; [|discriminate]; now intros [=<- <-]|].
    destruct scan_num as [[x r1]|]; [|discriminate]. now intros [=<- <-].
  - intros l m r. cbn [pmem]. destruct (skip_ws l) as [|a t]; [discriminate|]. destruct Ascii.eqb; [|discriminate].
    destruct scan_str as [[raw r1]|]; [|discriminate]. destruct (skip_ws r1) as [|c r2]; [discriminate|]. destruct Ascii.eqb; [|discriminate].
    destruct (pv n r2) as [[v r3]|] eqn:V; [|discriminate]. destruct (skip_ws r3) as [|d r4]; [discriminate|].
    destruct (Ascii.eqb d "}"); [intros [=<- <-]; constructor; [split; [apply unquote_valid|exact (IH1 _ _ _ V)]|constructor]|].
    destruct (Ascii.eqb d ","); [|discriminate]. destruct (pmem n r4) as [[m' r5]|] eqn:M; [|discriminate]. intros [=<- <-].
    constructor; [split; [apply unquote_valid|exact (IH1 _ _ _ V)]|exact (IH2 _ _ _ M)].
  - intros l m r. cbn [parr]. destruct (pv n l) as [[v r3]|] eqn:V; [|discriminate]. destruct (skip_ws r3) as [|d r4]; [discriminate|].
    destruct (Ascii.eqb d "]"); [intros [=<- <-]; constructor; [exact (IH1 _ _ _ V)|constructor]|].
    destruct (Ascii.eqb d ","); [|discriminate]. destruct (parr n r4) as [[m' r5]|] eqn:M; [|discriminate]. intros [=<- <-].
    constructor; [exact (IH1 _ _ _ V)|exact (IH3 _ _ _ M)].
Qed.
Lemma parse_good l j : parse l = Some j -> good j.
Proof.
  unfold parse. destruct pv as [[v r]|] eqn:V; [|discriminate]. destruct skip_ws; [|discriminate]. destruct (_ <=? _)%N; [|discriminate]. intros [=<-]. exact (proj1 (pv_good _) _ _ _ V).
Qed.

(** ** Decoding *)
Lemma dec_members_good {R} (P : R -> Prop) (fs : list (field R)) :
  (forall f, In f fs -> forall v x r, good v -> dec_val (f_codec f) (f_get f r) v = DOk x -> P r -> P (f_set f x r)) ->
  forall ms r r', Forall (fun kv => valid_utf8 (fst kv) = true /\ good (snd kv)) ms -> P r -> dec_members fs ms r = DOk r' -> P r'.
Proof.
  intros K ms. induction ms as [|[k v] ms IH]; intros r r' G HP; cbn [dec_members]; [now intros [=<-]|].
  inversion G as [|? ? [_ Gv] Gs]; subst. destruct (find_field fs k) as [f|] eqn:F; [|now apply IH].
  apply find_some in F as [F _].
  destruct (dec_val (f_codec f) (f_get f r) v) as [x| |] eqn:D; cbn [dbind]; try discriminate. apply IH; [assumption|]. exact (K _ F _ _ _ Gv D HP).
Qed.
Lemma dec_struct_good {R} (P : R -> Prop) (fs : list (field R)) z j r :
  (forall f, In f fs -> forall v x r, good v -> dec_val (f_codec f) (f_get f r) v = DOk x -> P r -> P (f_set f x r)) ->
  P z -> good j -> dec_struct fs z j = DOk r -> P r.
Proof. intros K Hz G. destruct j; try discriminate. cbn [dec_struct]. apply dec_members_good; [exact K|now apply good_obj|exact Hz]. Qed.
Lemma dlist_good {A} (P : A -> Prop) (f : json -> dres A) l x : (forall j a, good j -> f j = DOk a -> P a) -> Forall good l -> dlist f l = DOk x -> Forall P x.
Proof.
  intros K. revert x. induction l as [|j l IH]; intros x G; cbn [dlist]; [intros [=<-]; constructor|]. inversion G; subst.
  destruct (f j) as [a| |] eqn:F; cbn [dbind]; try discriminate. destruct (dlist f l) as [y| |]; cbn; try discriminate. intros [=<-]. constructor; eauto.
Qed.
Lemma dec_list_good {A} (P : A -> Prop) (e : A -> json) (d : json -> dres A) cur j x :
  (forall j a, good j -> d j = DOk a -> P a) -> good j -> dec_val (list_ e d) cur j = DOk x -> Forall P x.
Proof.
  intros K G. cbn. destruct j; try discriminate; [intros [=<-]; constructor|]. apply good_arr in G. intros D. apply PersistFacts.into_empty_ok in D. revert D. apply dlist_good; [|assumption].
  intros j a Gj. destruct j; try discriminate; now apply K.
Qed.
Lemma dec_opt_list_good {A} (P : A -> Prop) (e : A -> json) (d : json -> dres A) cur j x :
  (forall j a, good j -> d j = DOk a -> P a) -> good j -> dec_val (opt_list e d) cur j = DOk x -> Forall (opt_P P) x.
Proof.
  intros K G. cbn. destruct j; try discriminate; [intros [=<-]; constructor|]. apply good_arr in G. intros D. apply PersistFacts.into_empty_ok in D. revert D. apply dlist_good; [|assumption].
  intros j a Gj. destruct j; try (intros [=<-]; exact I);
    (match goal with |- dmap Some ?t = _ -> _ => destruct t as [y| |] eqn:D end; cbn; try discriminate; intros [=<-]; exact (K _ _ Gj D)).
Qed.
Lemma dec_ptr_good {A} (P : A -> Prop) (z : A) (e : A -> json) (d : A -> json -> dres A) cur j x :
  (forall r j a, P r -> good j -> d r j = DOk a -> P a) -> P z -> opt_P P cur -> good j -> dec_val (ptr z e d) cur j = DOk x -> opt_P P x.
Proof.
  intros K Hz Hc G. unfold dec_val. destruct (PersistFacts.json_eq_null j) as [->|N]; [intros [=<-]; exact I|]. rewrite PersistFacts.not_null_match by assumption.
  cbn [ptr dec]. destruct (d _ j) as [y| |] eqn:D; cbn; try discriminate. intros [=<-]. refine (K _ _ _ _ G D). now destruct cur.
Qed.
Lemma dec_struct_val {A} (z : A) e d cur j x (P : A -> Prop) : (forall r j a, P r -> good j -> d r j = DOk a -> P a) -> P cur -> good j ->
  dec_val (struct_ z e d) cur j = DOk x -> P x.
Proof.
  intros K Hc G. unfold dec_val. destruct (PersistFacts.json_eq_null j) as [->|N]; [now intros [=<-]|]. rewrite PersistFacts.not_null_match by assumption. apply K; assumption.
Qed.
Lemma dec_scalar_val {A} (z : A) e d cur j x (P : A -> Prop) : (forall j a, good j -> d j = DOk a -> P a) -> P cur -> good j -> dec_val (scalar z e d) cur j = DOk x -> P x.
Proof.
  intros K Hc G. unfold dec_val. destruct (PersistFacts.json_eq_null j) as [->|N]; [now intros [=<-]|]. rewrite PersistFacts.not_null_match by assumption. now apply K.
Qed.
Lemma dec_int_typed j z : dec_int j = DOk z -> is_int64 z.
Proof.
  destruct j; try discriminate. cbn. destruct parse_int as [y|]; [|discriminate]. destruct (in_int64 y) eqn:B; [|discriminate].
  intros [=<-]. unfold in_int64 in B. unfold is_int64. lia.
Qed.
Lemma dec_uint_typed b j n : dec_uint b j = DOk n -> (n < b)%N.
Proof.
  destruct j; try discriminate. cbn. destruct digits_val as [y|]; [|discriminate]. destruct (y <? b)%N eqn:B; [|discriminate]. intros [=<-]. lia.
Qed.
Lemma dec_str_good j s : good j -> dec_str j = DOk s -> valid_utf8 s = true.
Proof. destruct j; try discriminate. cbn. now intros H [=<-]. Qed.
Lemma dec_map_good {V} (z : V) (f : json -> dres V) ms m m' : Forall (fun kv => valid_utf8 (fst kv) = true /\ good (snd kv)) ms ->
  (forall k, is_Some (m !! k) -> valid_utf8 k = true) -> dec_map z f ms m = DOk m' -> forall k, is_Some (m' !! k) -> valid_utf8 k = true.
Proof.
  revert m. induction ms as [|[k v] ms IH]; intros m G H; cbn [dec_map]; [now intros [=<-]|]. inversion G as [|? ? [Gk _] Gs]; subst. cbn in Gk.
  match goal with |- dbind ?t _ = _ -> _ => destruct t as [x| |] end; cbn [dbind]; try discriminate. apply IH; [assumption|]. intros k' Hk. destruct (decide (k = k')) as [<-|N]; [assumption|].
  rewrite lookup_insert_ne in Hk by assumption. auto.
Qed.
Lemma dec_map_keys {V} z (e : V -> json) (d : json -> dres V) cur j m : good j -> (forall k, is_Some (cur !! k) -> valid_utf8 k = true) ->
  dec_val (map_ z e d) cur j = DOk m -> forall k, is_Some (m !! k) -> valid_utf8 k = true.
Proof.
  intros G C. cbn. destruct j; try discriminate; [intros [=<-] k [v H]; discriminate|]. apply dec_map_good; [now apply good_obj|assumption].
Qed.
Lemma int_val z e cur j x : is_int64 cur -> good j -> dec_val (scalar z e dec_int) cur j = DOk x -> is_int64 x.
Proof. intros H G D. exact (dec_scalar_val z e dec_int cur j x is_int64 (fun j a _ => dec_int_typed j a) H G D). Qed.
Lemma uint_val z e b cur j x : (cur < b)%N -> good j -> dec_val (scalar z e (dec_uint b)) cur j = DOk x -> (x < b)%N.
Proof. intros H G D. exact (dec_scalar_val z e (dec_uint b) cur j x (fun n => (n < b)%N) (fun j a _ => dec_uint_typed b j a) H G D). Qed.
Lemma str_val z e cur j x : valid_utf8 cur = true -> good j -> dec_val (scalar z e dec_str) cur j = DOk x -> valid_utf8 x = true.
Proof. intros H G D. exact (dec_scalar_val z e dec_str cur j x (fun s => valid_utf8 s = true) dec_str_good H G D). Qed.

Lemma int64_0 : is_int64 0.
Proof. unfold is_int64. lia. Qed.
Ltac zs := repeat match goal with |- is_int64 _ => exact int64_0 | |- (_ < _)%N => reflexivity | |- Forall _ _ => constructor | |- _ /\ _ => split | |- opt_P _ _ => exact I
  | |- forall k : string, _ => intros k [v H]; discriminate | |- valid_utf8 _ = _ => reflexivity
  | |- image_typed _ => split | |- policy_typed _ => unfold policy_typed end.
Ltac fields F := let H := fresh in intros ? H; unfold F in H; cbn [In] in H; decompose [or] H; try contradiction; subst; clear H.
Ltac skip := try (intros v0 x0 r0 _ _ H0; exact H0).
Lemma dec_org_typed z j o : org_typed z -> good j -> dec_struct org_f z j = DOk o -> org_typed o.
Proof. apply dec_struct_good. fields org_f; skip. intros v x r G D H. exact (uint_val _ _ _ _ _ _ H G D). Qed.
Lemma dec_password_typed z j o : password_typed z -> good j -> dec_struct password_f z j = DOk o -> password_typed o.
Proof. apply dec_struct_good. fields password_f; skip. intros v x r G D H. exact (int_val _ _ _ _ _ H G D). Qed.
Lemma dec_mfa_typed z j o : mfa_typed z -> good j -> dec_struct mfa_f z j = DOk o -> mfa_typed o.
Proof.
  apply dec_struct_good.
  fields mfa_f; skip; intros v x r G D (H1 & H2 & H3 & H4 & H5).
  - split; [exact (int_val _ _ _ _ _ H1 G D)|auto].
  - split; [assumption|]. split; [exact (int_val _ _ _ _ _ H2 G D)|auto].
  - repeat (split; [assumption|]). split; [exact (dec_map_keys _ _ _ _ _ _ G H4 D)|assumption].
  - repeat (split; [assumption|]). exact (dec_map_keys _ _ _ _ _ _ G H5 D).
  - split; [assumption|]. split; [assumption|]. split; [exact (uint_val _ _ _ _ _ _ H3 G D)|auto].
Qed.
Lemma mfa_z_typed : mfa_typed mfa_z.
Proof. unfold mfa_typed. cbn [mfa_z t_period t_digits t_counter t_params t_flags]. zs. Qed.
Definition imgcfg_typed (o : ImageConfig) : Prop := is_int64 (ic_width o) /\ is_int64 (ic_height o).
Lemma dec_imgcfg_typed z j o : imgcfg_typed z -> good j -> dec_struct imgcfg_f z j = DOk o -> imgcfg_typed o.
Proof.
  apply (dec_struct_good imgcfg_typed). unfold imgcfg_typed.
  fields imgcfg_f; skip; intros v x r G D (H1 & H2); (split; [|]); try assumption; [exact (int_val _ _ _ _ _ H1 G D)|exact (int_val _ _ _ _ _ H2 G D)].
Qed.
Lemma dec_image_typed z j o : image_typed z -> good j -> dec_struct image_f z j = DOk o -> image_typed o.
Proof. apply dec_struct_good. fields image_f; skip. intros v x r G D H. exact (dec_struct_val _ _ _ _ _ _ imgcfg_typed dec_imgcfg_typed H G D). Qed.
Lemma dec_prefix_valid z j o : valid_utf8 (ak_prefix z) = true -> good j -> dec_struct apikey_f z j = DOk o -> valid_utf8 (ak_prefix o) = true.
Proof. apply (dec_struct_good (fun o => valid_utf8 (ak_prefix o) = true)). fields apikey_f; skip. intros v x r G D H. exact (str_val _ _ _ _ _ H G D). Qed.
Definition ppol_typed (o : PasswordPolicy) : Prop := is_int64 (pp_keep o) /\ is_int64 (pp_min o) /\ is_int64 (pp_max o).
Lemma dec_ppol_typed z j o : ppol_typed z -> good j -> dec_struct ppol_f z j = DOk o -> ppol_typed o.
Proof.
  apply (dec_struct_good ppol_typed). unfold ppol_typed.
  fields ppol_f; skip; intros v x r G D (H1 & H2 & H3); (split; [|split]); try assumption;
    [exact (int_val _ _ _ _ _ H1 G D)|exact (int_val _ _ _ _ _ H2 G D)|exact (int_val _ _ _ _ _ H3 G D)].
Qed.
Definition upol_typed (o : UserPolicy) : Prop := is_int64 (up_min o) /\ is_int64 (up_max o).
Lemma dec_upol_typed z j o : upol_typed z -> good j -> dec_struct upol_f z j = DOk o -> upol_typed o.
Proof.
  apply (dec_struct_good upol_typed). unfold upol_typed.
  fields upol_f; skip; intros v x r G D (H1 & H2); (split; [|]); try assumption; [exact (int_val _ _ _ _ _ H1 G D)|exact (int_val _ _ _ _ _ H2 G D)].
Qed.
Lemma dec_policy_typed z j o : policy_typed z -> good j -> dec_struct policy_f z j = DOk o -> policy_typed o.
Proof.
  apply dec_struct_good.
  fields policy_f; skip; intros v x r G D (H1 & H2 & H3 & H4 & H5).
  - destruct (dec_struct_val _ _ _ _ _ _ ppol_typed dec_ppol_typed (conj H1 (conj H2 H3)) G D) as (? & ? & ?). repeat (split; [assumption|]). assumption.
  - destruct (dec_struct_val _ _ _ _ _ _ upol_typed dec_upol_typed (conj H4 H5) G D) as (? & ?). repeat (split; [assumption|]). assumption.
Qed.

(** ** Stored accounts *)
Definition stored (u : User) : Prop :=
  user_typed u /\ valid_utf8 (u_id u) = true /\ Forall (fun k => valid_utf8 (ak_prefix k) = true) (u_apikeys u) /\
  Forall (fun p => pw_algorithm p <> "") (u_passwords u).
Definition raw_stored (r : RawUser) : Prop :=
  user_typed (raw_user r) /\ valid_utf8 (u_id (raw_user r)) = true /\
  Forall (opt_P (fun k => valid_utf8 (ak_prefix k) = true)) (raw_keys r) /\ Forall (opt_P password_typed) (raw_passwords r).
Lemma dec_user_stored j r : good j -> dec_struct user_f raw_z j = DOk r -> raw_stored r.
Proof.
  apply dec_struct_good.
  - fields user_f; skip; intros v x r0 G D ((T1 & T2 & T3 & T4 & T5 & T6) & I & K & P); unfold raw_stored, user_typed; cbn.
    + repeat (split; [tauto|]). split; [exact (str_val _ _ _ _ _ I G D)|tauto].
    + split; [|tauto]. split; [exact (dec_ptr_good org_typed org_z _ _ _ _ _ dec_org_typed eq_refl T1 G D)|tauto].
    + split; [|tauto]. split; [tauto|]. split; [exact (dec_list_good _ _ _ _ _ _ (fun j a => dec_org_typed org_z j a eq_refl) G D)|tauto].
    + split; [tauto|]. split; [tauto|]. split; [tauto|]. exact (dec_opt_list_good _ _ _ _ _ _ (fun j a => dec_password_typed password_z j a int64_0) G D).
    + split; [tauto|]. split; [tauto|]. split; [|tauto]. exact (dec_opt_list_good _ _ _ _ _ _ (fun j a => dec_prefix_valid apikey_z j a eq_refl) G D).
    + split; [|tauto]. split; [tauto|]. split; [tauto|]. split; [tauto|]. split; [|tauto]. exact (dec_list_good _ _ _ _ _ _ (fun j a => dec_mfa_typed _ j a mfa_z_typed) G D).
    + split; [|tauto]. split; [tauto|]. split; [tauto|]. split; [tauto|]. split; [tauto|]. split; [|tauto].
      exact (dec_ptr_good image_typed image_z _ _ _ _ _ dec_image_typed (conj int64_0 int64_0) T5 G D).
    + split; [|tauto]. split; [tauto|]. split; [tauto|]. split; [tauto|]. split; [tauto|]. split; [tauto|]. exact (int_val _ _ _ _ _ T6 G D).
  - unfold raw_stored, user_typed. cbn. zs; exact I || reflexivity.
Qed.
Definition raw_content_stored (c : RawContent) : Prop :=
  policy_typed (rc_policy c) /\ (rc_revision c < 2 ^ 64)%N /\ Forall (opt_P raw_stored) (rc_users c).
Lemma unmarshal_stored s c : unmarshal s = DOk c -> raw_content_stored c.
Proof.
  unfold unmarshal. destruct (parse (los s)) as [j|] eqn:P; [|discriminate]. apply parse_good in P.
  assert (Z0 : raw_content_stored content_z) by (unfold raw_content_stored; zs).
  assert (G : dec_struct content_f content_z j = DOk c -> raw_content_stored c).
  { apply dec_struct_good; [|exact Z0|exact P]. fields content_f; skip; intros v x r0 G D (T1 & T2 & T3); unfold raw_content_stored; cbn.
    - split; [exact (dec_struct_val _ _ _ _ _ _ policy_typed dec_policy_typed T1 G D)|auto].
    - split; [assumption|]. split; [exact (uint_val _ _ _ _ _ _ T2 G D)|assumption].
    - split; [assumption|]. split; [assumption|]. exact (dec_opt_list_good _ _ _ _ _ _ dec_user_stored G D). }
  destruct j; try exact G. now intros [=<-].
Qed.

(** ** Opening *)
Definition all_stored (db : Database) : Prop :=
  policy_typed (db_policy db) /\ (db_revision db < 2 ^ 64)%N /\ forall i u, account db i u -> stored u.
Lemma fix_algo_ne p : pw_algorithm (fix_algo p) <> "".
Proof. unfold fix_algo. destruct (String.eqb_spec (pw_algorithm p) ""); [discriminate|assumption]. Qed.
Lemma fix_algo_typed p : password_typed p -> password_typed (fix_algo p).
Proof. unfold fix_algo. now destruct String.eqb. Qed.
Lemma opt_P_map {A} (P : A -> Prop) l : Forall (opt_P P) (map Some l) -> Forall P l.
Proof. intros H. rewrite Forall_fmap in H. exact H. Qed.
Lemma loaded_stored r es ps ks : raw_stored r -> raw_passwords r = map Some ps -> raw_keys r = map Some ks ->
  stored (loaded_user r es (map fix_algo ps) ks).
Proof.
  intros ((T1 & T2 & T3 & T4 & T5 & T6) & I & K & P) Ep Ek. rewrite Ep in P. rewrite Ek in K. apply opt_P_map in P. apply opt_P_map in K.
  unfold stored, user_typed, loaded_user. cbn. split; [|split; [assumption|split; [assumption|]]].
  - split; [assumption|]. split; [assumption|]. split; [|auto]. rewrite List.Forall_forall in *. intros q Hq. apply in_map_iff in Hq as (p & <- & Hp). apply fix_algo_typed; auto.
  - apply List.Forall_forall. intros q Hq. apply in_map_iff in Hq as (p & <- & Hp). apply fix_algo_ne.
Qed.
Lemma load_users_stored E l : forall db db', Forall (opt_P raw_stored) l -> all_stored db -> load_users E db l = Loaded db' -> all_stored db'.
Proof.
  induction l as [|x l IH]; intros db db' F S; cbn [load_users]; [now intros [=<-]|]. destruct x as [r|]; [|discriminate].
  inversion F as [|? ? F1 F2]; subst. destruct load_user as [db1| |] eqn:L; try discriminate. apply IH; [assumption|].
  apply load_user_ok in L as (es & ps & ks & _ & Ep & Ek & -> & _). destruct S as (S1 & S2 & S3). split; [exact S1|]. split; [exact S2|].
  intros i u Hu. unfold account in Hu.
  change (db_users _) with (db_users db ++ [loaded_user r es (map fix_algo ps) ks])%list in Hu. apply lookup_app_Some in Hu as [Hu|[_ Hu]]; [now apply (S3 i)|].
  destruct (i - _)%nat; [|discriminate]. injection Hu as <-. now apply loaded_stored.
Qed.
Lemma dflt_typed z d : is_int64 z -> is_int64 d -> is_int64 (dflt z d).
Proof. unfold dflt. now destruct Z.eqb. Qed.
Lemma enforce_typed p : policy_typed p -> policy_typed (enforce_policy p).
Proof.
  intros (H1 & H2 & H3 & H4 & H5). unfold policy_typed, enforce_policy. cbn. repeat split; cbn; try (apply dflt_typed; try assumption; unfold is_int64; lia).
Qed.
Lemma revision_typed n : ((n + 1) mod two64N < 2 ^ 64)%N.
Proof. unfold two64N. apply N.mod_lt. lia. Qed.
Lemma empty_stored fp c : raw_content_stored c -> all_stored (empty_db fp c).
Proof. intros (H1 & H2 & H3). split; [exact H1|]. split; [exact H2|]. intros i u Hu. destruct i; discriminate. Qed.
Lemma bump_raw_stored nd c : raw_content_stored c -> raw_content_stored (bump_raw nd (c <| rc_policy ::= enforce_policy |>)).
Proof. intros (H1 & H2 & H3). split; [now apply enforce_typed|]. split; [apply revision_typed|exact H3]. Qed.
Lemma content_z_stored : raw_content_stored content_z.
Proof. unfold raw_content_stored. zs. Qed.
Lemma open_stored E nd fp fs fs' db : new_database E nd fp fs = (fs', Loaded db) -> all_stored db.
Proof.
  unfold new_database. destruct nd_stat_err; [discriminate|].
  destruct (if String.eqb fp "" then None else fs !! fp) as [[b|]|].
  - destruct read_file as [b'|]; [|discriminate]. unfold load_bytes. destruct unmarshal as [c| |] eqn:U; try discriminate. apply unmarshal_stored in U.
    destruct policy_changed eqn:P.
    + cbv zeta. destruct write_db as [fs2 []]; try discriminate. intros [= <- H].
      pose proof (bump_raw_stored nd c U) as B. eapply load_users_stored; [|apply empty_stored, B|exact H]. exact (proj2 (proj2 U)).
    + intros [= <- H]. eapply load_users_stored; [|apply empty_stored, U|exact H]. exact (proj2 (proj2 U)).
  - discriminate.
  - destruct nd_mkdir_err; [discriminate|]. cbv zeta. destruct write_db as [fs2 []]; try discriminate.
    intros [= <- <-]. apply empty_stored, bump_raw_stored. exact content_z_stored.
Qed.

(** ** Calls *)
Lemma int64_typed z : is_int64 (int64 z).
Proof. Transparent int64. unfold is_int64, int64. Opaque int64. pose proof (Z.mod_pos_bound (z + 2 ^ 63) (2 ^ 64) ltac:(lia)). lia. Qed.
Lemma new_password_typed E nd s p : new_password E nd s = inl p -> password_typed p /\ pw_algorithm p <> "".
Proof. intros (h & _ & _ & ->)%new_password_iff. split; [|discriminate]. unfold password_typed, is_int64. cbn. lia. Qed.
Lemma keep_passwords_all (P : Password -> Prop) nd k l : (forall p, P p -> P (pw_disable nd p)) -> forall i, Forall P l -> Forall P (keep_passwords nd k i l).
Proof.
  intros D. induction l as [|p l IH]; intros i F; cbn [keep_passwords]; [constructor|]. inversion F; subst.
  assert (P (if pw_disabled p then p else pw_disable nd p)) by (destruct pw_disabled; auto).
  destruct (i >? k)%Z; constructor; auto.
Qed.
Lemma mfa_typed_uncache t t' : uncache t = uncache t' -> mfa_typed t -> mfa_typed t'.
Proof. destruct t, t'. unfold uncache, mfa_typed. cbn. intros [=]. subst. auto. Qed.
Lemma new_mfa_typed E nd r r' t : register_typed E -> new_mfa_token E nd r = (r', ROk t) -> mfa_typed t.
Proof.
  intros RT. unfold new_mfa_token. cbv zeta. destruct (String.eqb (rm_type (rq_mfa r)) "totp").
  - destruct negb; [discriminate|]. destruct (_ || _)%bool eqn:P; [discriminate|]. destruct ((_ <? 4)%Z || _)%bool eqn:D; [discriminate|].
    destruct validate_code; [discriminate|]. intros [=_ <-]. unfold mfa_typed. cbn. cbn in D.
    split; [unfold is_int64; lia|]. split; [unfold is_int64; lia|]. split; [reflexivity|]. split; intros k [v H]; discriminate.
  - destruct (String.eqb (rm_type (rq_mfa r)) "u2f"); [|destruct String.eqb; discriminate].
    destruct String.eqb; [discriminate|]. destruct String.eqb; [discriminate|]. destruct b64_decode as [d|]; [|discriminate].
    destruct (e_register E d) as [q|] eqn:Q; [|discriminate]. intros [=_ U]. revert U. unfold u2f_register.
    destruct String.eqb; [discriminate|]. destruct String.eqb; [discriminate|]. destruct negb; [discriminate|]. destruct bad_transport; [discriminate|].
    destruct (wr_att q) as [ao|] eqn:A; [|discriminate]. destruct (ao_auth ao) as [ad|] eqn:B; [|discriminate].
    destruct (RT _ _ _ _ Q A B) as [C F].
    destruct String.eqb; [discriminate|]. destruct (ad_flags ad) as [flags|]; [|discriminate]. destruct (ad_cred ad) as [cd|]; [|discriminate].
    destruct (cd_pubkey cd) as [pk|]; [|discriminate]. destruct (pk !! "key_type") as [v|]; [|discriminate]. destruct (jv_is v 2) as [[]|]; try discriminate.
    destruct (pk !! "algorithm") as [v'|]; [|discriminate]. destruct (jv_is v' (-7)) as [[]|]; try discriminate.
    destruct (match pk !! "curve_type" with Some _ => _ | None => _ end) as [[curve|]|]; try discriminate.
    destruct (coord_of pk "curve_x") as [x|]; [|discriminate]. destruct (coord_of pk "curve_y") as [y|]; [|discriminate].
    intros [=<-]. unfold mfa_typed. cbn [t_period t_digits t_counter t_params t_flags set eta_MfaToken].
    cbn. split; [exact int64_0|]. split; [exact int64_0|]. split; [exact C|]. split; [|intros k; now apply F].
    intros k. rewrite !lookup_insert_is_Some'. rewrite lookup_empty.
    intros H. repeat (destruct H as [<-|H]; [reflexivity|]). destruct H as [? H]; discriminate.
Qed.
Lemma prefix_valid s n : random_range 72 96 n s = None \/ exists x, random_range 72 96 n s = Some x /\ valid_utf8 (take 24 x) = true.
Proof.
  destruct (random_range 72 96 n s) as [x|] eqn:R; [|auto]. right. exists x. split; [reflexivity|]. apply ascii_valid.
  assert (Forall (fun a => is_alnum a = true) (los x)) as F.
  { unfold random_range in R. destruct random_range_len; [|discriminate]. destruct Z.ltb; [discriminate|]. injection R as <-. eapply Forall_impl; [apply gen_chars; discriminate|].
    intros a. apply charset_alnum. }
  unfold take. rewrite los_sol. apply Forall_take with (n := 24%nat) in F. unfold ascii_only. apply forallb_forall. rewrite List.Forall_forall in F.
  intros a Ha. apply F in Ha. revert Ha. destruct a as [[] [] [] [] [] [] [] []]; vm_compute; congruence.
Qed.
Ltac ucase := repeat match goal with
    | H : upd _ _ _ _ _ _ _ |- _ => inversion H; clear H; subst
    | H : add_public_key _ _ _ _ = inl _ |- _ => apply add_public_key_inv in H as (? & ? & ? & ->)
    | H : delete_public_key _ _ _ = inl _ |- _ => apply delete_public_key_inv in H as (? & ->)
    | H : change_password _ _ _ _ _ = inl _ |- _ => apply change_password_inv in H as (? & H)
    | H : add_password _ _ _ _ _ = inl _ |- _ => apply add_password_inv in H as (? & ? & ->)
    | H : add_mfa_token _ _ _ _ = (_, ROk _) |- _ => apply add_mfa_token_inv in H as (? & ? & ? & ->)
    | H : delete_mfa_token _ _ _ = inl _ |- _ => apply delete_mfa_token_inv in H as (? & ->)
    | H : add_api_key _ _ _ = inl _ |- _ => apply add_api_key_inv in H as (? & ? & ->)
    | H : delete_api_key _ _ _ = (inl _, _) |- _ => apply delete_api_key_inv in H as (? & -> & ?)
    end.
Lemma Forall_filter_l {A} (P : A -> Prop) f l : Forall P l -> Forall P (List.filter f l).
Proof. rewrite !List.Forall_forall. intros H x Hx. apply filter_In in Hx. now apply H. Qed.
Lemma stored_revise nd u : stored u -> stored (revise nd u).
Proof. intros ((T1 & T2 & T3 & T4 & T5 & T6) & S). split; [|exact S]. repeat (split; [assumption|]). exact (int64_typed _). Qed.
Lemma ustep_stored E nd db r i u op v : register_typed E -> stored u -> ustep E nd db r i u op v -> stored v.
Proof.
  intros RT S U. destruct U as [op|u' res G V|op u' V U|s hk u' V R H K A|u' r' V D]; [assumption| | | |].
  - destruct (verify_webauthn_uncache E u r) as (l & Hl & H). rewrite V in Hl. cbn in Hl. rewrite Hl. destruct S as ((T1 & T2 & T3 & T4 & T5 & T6) & S).
    split; [|exact S]. split; [assumption|]. split; [assumption|]. split; [assumption|]. split; [|split; assumption]. cbn.
    clear - H T4. induction H as [|t t' ? ? [Ht _] H IH]; inversion T4; subst; constructor; eauto using mfa_typed_uncache.
  - ucase; apply stored_revise; destruct S as ((T1 & T2 & T3 & T4 & T5 & T6) & S2 & S3 & S4); unfold stored, user_typed; cbn; try tauto.
    + match goal with H : new_password _ _ _ = inl _ |- _ => apply new_password_typed in H as [? ?] end.
      split; [|split; [assumption|split; [assumption|]]].
      * split; [assumption|]. split; [assumption|]. split; [|auto]. constructor; [assumption|]. apply keep_passwords_all; auto.
      * constructor; [assumption|]. apply keep_passwords_all; auto.
    + split; [|auto]. split; [assumption|]. split; [assumption|]. split; [assumption|]. split; [|auto]. apply Forall_app. split; [assumption|]. constructor; [|constructor]. eapply new_mfa_typed; eauto.
    + split; [|auto]. split; [assumption|]. split; [assumption|]. split; [assumption|]. split; [|auto]. now apply Forall_filter_l.
  - ucase. apply stored_revise. destruct S as (T & S2 & S3 & S4). split; [exact T|]. split; [exact S2|]. split; [|exact S4]. cbn.
    apply Forall_app. split; [assumption|]. constructor; [|constructor].
    destruct (prefix_valid (nd_secret nd) (nd_len nd)) as [Q|(y & Q & Hy)]; [congruence|]. assert (y = s) as -> by congruence.
    match goal with H : new_api_key _ _ = inl _ |- _ => unfold new_api_key in H; revert H end.
    repeat (match goal with |- context [if ?b then _ else _] => destruct b end; try discriminate); cbv zeta; intros [=<-]; exact Hy.
  - ucase. apply stored_revise. destruct S as (T & S2 & S3 & S4). split; [exact T|]. split; [exact S2|]. split; [|exact S4]. cbn. now apply Forall_filter_l.
Qed.
Lemma new_user_stored E nd db r u0 : 
  new_user_with_roles E nd (ru_username (rq_user r)) (ru_password (rq_user r)) (ru_email (rq_user r)) (ru_full_name (rq_user r)) (ru_roles (rq_user r)) = inl u0 ->
  stored (u0 <| u_id := pick_id db nd 1 10 (u_id u0) |>).
Proof.
  intros N. apply new_user_iff in N as (p & e & rs & n & P & EM & Hrs & Hn & U & ->). apply new_password_typed in P as [P1 P2].
  assert (Hid : forall old, ascii_only (los old) = true -> valid_utf8 (pick_id db nd 1 10 old) = true).
  { intros old Ho. apply ascii_valid. destruct (pick_id_cases db nd 10 1 old) as [Q|(k & _ & Q & _)]; rewrite Q; [exact Ho|apply new_id_ascii]. }
  split; [|split; [|split]]; cbn -[pick_id].
  - repeat split; cbn; try exact I; try constructor; auto; unfold is_int64; lia.
  - apply Hid. apply new_id_ascii.
  - constructor.
  - constructor; [assumption|constructor].
Qed.
Lemma exec_revision E nd op db fs r : (db_revision db < 2 ^ 64)%N -> (db_revision (o_db (exec E nd op db fs r)) < 2 ^ 64)%N.
Proof.
  intros H. destruct (exec_shape E nd op db fs r) as [_ R _ _|db1 res Eff C _]; [now destruct R|].
  apply commit_to_inv in C as [-> _]. apply revision_typed.
Qed.
Lemma exec_stored E nd op db fs r : register_typed E -> all_stored db -> all_stored (o_db (exec E nd op db fs r)).
Proof.
  intros RT (S1 & S2 & S3). split; [now rewrite exec_policy|]. split; [now apply exec_revision|]. intros i v Hv.
  destruct (exec_ustep _ _ _ _ _ _ _ _ Hv) as [(w & Hw & S)|(-> & -> & _)]; [exact (ustep_stored _ _ _ _ _ _ _ _ RT (S3 _ _ Hw) S)|].
  destruct (exec_shape E nd OpAddUser db fs r) as [_ R _ _|db1 res Eff C _].
  - exfalso. assert (He : forall d, recached E db r OpAddUser d -> d = db) by (intros d Hd; now inversion Hd). rewrite (He _ R) in Hv. unfold account in Hv. apply lookup_lt_Some in Hv. lia.
  - apply commit_to_inv in C as [HC _]. rewrite HC in Hv. change (account db1 (List.length (db_users db)) v) in Hv.
    inversion Eff as [| |u0 addrs u P N Hu Hn Ha|op' i u u' V U| |]; subst.
    + assert (X : forall w l, db_users (with_account E db w l) = (db_users db ++ [w])%list) by reflexivity. unfold account in Hv. rewrite X in Hv.
      rewrite list_lookup_middle in Hv by reflexivity. injection Hv as <-. exact (new_user_stored E nd db r u0 N).
    + inversion U.
Qed.
Definition mem_stored (m : Mem) : Prop := match m with Down => True | Up db | Stuck db => all_stored db end.
Lemma stored_reachable E P fs db : register_typed E -> reachable_by E P fs db -> all_stored db.
Proof.
  intros RT (fs0 & S).
  assert (G : forall w w', steps E P w w' -> mem_stored (w_mem w) -> mem_stored (w_mem w')).
  { clear - RT. intros w w' S. induction S as [w|w1 ev w2 w3 S IH Hev St]; [auto|]. intros H. specialize (IH H). destruct St; cbn in *; auto.
    - destruct res; cbn; auto. now apply open_stored in H0.
    - unfold after_call. pose proof (exec_stored E nd op db fs r RT IH). destruct o_res; cbn; auto. }
  exact (G _ _ S I).
Qed.
