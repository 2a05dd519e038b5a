(** Facts on additions followed by deletions (C105). *)
From Coq Require Import String Ascii ZArith NArith Lia Bool Arith List.
From stdpp Require Import gmap strings.
From RecordUpdate Require Import RecordSet.
From Verif Require Import GoStr GoErr Random Types Env Password ApiKey PublicKey Mfa User Json Persist Fs Database System UserFacts DbFacts Inv LoadFacts.
From Verif Require Import SpecDb SpecAuth SpecKey SpecMfa SpecIsolation AccountFacts StepFacts ApiKeyFacts.
Import ListNotations.
Import RecordSetNotations.
Open Scope string_scope.
#[local] Opaque int64 new_id trim_space random_string random_range new_password.

Lemma filter_new {A} (id_of : A -> string) l k id : (forall x, In x l -> id_of x <> id) -> id_of k = id ->
  List.filter (fun x => negb (String.eqb (id_of x) id)) (l ++ [k])%list = l.
Proof.
  intros F K. rewrite List.filter_app. cbn. rewrite K, String.eqb_refl. cbn. rewrite app_nil_r.
  induction l as [|x l IH]; [reflexivity|]. cbn. assert (N : id_of x <> id) by (apply F; now left). apply String.eqb_neq in N. rewrite N. cbn. f_equal. apply IH. intros y Hy. apply F. now right.
Qed.
Lemma exists_new {A} (id_of : A -> string) l k id : id_of k = id -> existsb (fun x => String.eqb (id_of x) id) (l ++ [k])%list = true.
Proof. intros K. rewrite existsb_app. cbn. rewrite K, String.eqb_refl. now rewrite orb_true_r. Qed.
(** The same names still lead to the account after a change that keeps its identity. *)
Lemma validate_after E db d r i u v : validate_identity E db r = inl (i, u) -> db_users d = <[i := v]> (db_users db) -> frame u v ->
  ref_username d = ref_username db -> ref_email d = ref_email db -> validate_identity E d r = inl (i, v).
Proof.
  intros V U F R1 R2. pose proof (validate_at _ _ _ _ _ V) as L. revert V. unfold validate_identity, by_username, by_email, at_ref. rewrite R1, R2, U.
  destruct (zlen _ <? 2)%Z; [discriminate|]. destruct (ref_username db !! _) as [a|]; [|discriminate]. destruct (db_users db !! a) as [x|] eqn:A; [|discriminate].
  destruct (zlen _ <? 6)%Z; [discriminate|]. destruct (ref_email db !! _) as [b|]; [|discriminate]. destruct (db_users db !! b) as [y|] eqn:B; [|discriminate].
  destruct String.eqb eqn:Q; [|discriminate]. intros [= -> ->].
  rewrite list_lookup_insert by (eapply lookup_lt_Some; eauto). destruct F as (Id & _).
  destruct (decide (b = i)) as [->|N].
  - rewrite list_lookup_insert by (eapply lookup_lt_Some; eauto). now rewrite String.eqb_refl.
  - rewrite list_lookup_insert_ne, B by congruence. rewrite Id. now rewrite Q.
Qed.
Lemma finish_db nd db fs r wrap : o_db (finish nd db fs r wrap) = db <| db_content ::= bump nd |>.
Proof.
  unfold finish, commit. destruct (commit_to nd (db_path db) db fs) as [[d f] res] eqn:C. apply commit_to_inv in C as [-> _]. destruct res; reflexivity.
Qed.
Lemma finish_res nd db fs r wrap : o_res (finish nd db fs r wrap) = OOk <-> can_write nd fs (db_path db) (db_content (o_db (finish nd db fs r wrap))).
Proof.
  rewrite finish_db. unfold finish, commit. destruct (commit_to nd (db_path db) db fs) as [[d f] res] eqn:C. pose proof (commit_res _ _ _ _ _ _ _ C) as H.
  apply commit_to_inv in C as [-> _]. rewrite <- H. destruct res; cbn; split; congruence.
Qed.
Lemma mem_undone db i u v v' (d : Database) : account db i u -> db_users d = <[i := v']> (<[i := v]> (db_users db)) ->
  (exists rev time, v' = u <| u_revision := rev |> <| u_modified := time |>) ->
  ref_username d = ref_username db -> ref_email d = ref_email db -> ref_id d = ref_id db -> ref_apikey d = ref_apikey db ->
  db_policy d = db_policy db -> db_path d = db_path db -> c_version (db_content d) = c_version (db_content db) -> undone db d i u.
Proof. intros A U (rv & t & ->) *. rewrite list_insert_insert in U. constructor; eauto. Qed.

Lemma undo_public E nd1 nd2 db fs r r2 i u : reachable E fs db -> identity_of E db r i u -> identity_of E db r2 i u ->
  let a := exec E nd1 OpAddPublicKey db fs r in o_res a = OOk -> added u_pubkeys pk_id db (o_db a) i u (rk_id (rq_key r2)) ->
  let d := exec E nd2 OpDeletePublicKey (o_db a) (o_fs a) r2 in
  undone db (o_db d) i u /\ (o_res d = OOk <-> can_write nd2 (o_fs a) (db_path db) (db_content (o_db d))).
Proof.
  intros HR V V2 a OK Ad. apply (validate_iff _ _ _ _ _ _ HR) in V, V2. pose proof (validate_at _ _ _ _ _ V) as L.
  assert (Q : exists u', o_db a = set_user db i u' <| db_content ::= bump nd1 |> /\ exists k, u' = revise nd1 (u <| u_pubkeys := (u_pubkeys u ++ [k])%list |>)).
  { revert OK. subst a. cbn [exec]. unfold db_add_public_key. rewrite V. destruct add_public_key as [u'|] eqn:X; [|discriminate]. intros _. exists u'. rewrite finish_db. split; [reflexivity|].
    apply add_public_key_inv in X as (k & _ & _ & ->). eauto. }
  destruct Q as (u' & Ha & k & Hu'). set (f := o_fs a). clearbody f. rewrite Ha in *. clear Ha OK. clearbody a.
  destruct Ad as [(w & k' & Hw & Hl & Hid) F].
  assert (w = u') as ->. { change ((<[i := u']> (db_users db)) !! i = Some w) in Hw. rewrite list_lookup_insert in Hw by (eapply lookup_lt_Some; eauto). congruence. }
  assert (k' = k) as ->. { rewrite Hu' in Hl. change ((u_pubkeys u ++ [k])%list = (u_pubkeys u ++ [k'])%list) in Hl. apply app_inj_tail in Hl as [_ H]. congruence. }
  assert (V3 : validate_identity E (set_user db i u' <| db_content ::= bump nd1 |>) r2 = inl (i, u')).
  { eapply validate_after; eauto; try reflexivity. rewrite Hu'. repeat split. }
  cbv zeta. cbn [exec]. unfold db_delete_public_key. rewrite V3. unfold delete_public_key. cbv zeta. rewrite Hl, (exists_new pk_id), (filter_new pk_id) by assumption.
  split.
  - rewrite finish_db. eapply mem_undone; try reflexivity; [exact L|]. rewrite Hu'. destruct u. eexists _, _. reflexivity.
  - rewrite finish_res. reflexivity.
Qed.
Lemma undo_mfa E nd1 nd2 db fs r r2 i u : reachable E fs db -> identity_of E db r i u -> identity_of E db r2 i u ->
  let a := exec E nd1 OpAddMfaToken db fs r in o_res a = OOk -> added u_mfa t_id db (o_db a) i u (rm_id (rq_mfa r2)) ->
  let d := exec E nd2 OpDeleteMfaToken (o_db a) (o_fs a) r2 in
  undone db (o_db d) i u /\ (o_res d = OOk <-> can_write nd2 (o_fs a) (db_path db) (db_content (o_db d))).
Proof.
  intros HR V V2 a OK Ad. apply (validate_iff _ _ _ _ _ _ HR) in V, V2. pose proof (validate_at _ _ _ _ _ V) as L.
  assert (Q : exists u', o_db a = set_user db i u' <| db_content ::= bump nd1 |> /\ exists k, u' = revise nd1 (u <| u_mfa := (u_mfa u ++ [k])%list |>)).
  { revert OK. subst a. cbn [exec]. unfold db_add_mfa_token. rewrite V. destruct add_mfa_token as [r' [u'| |]] eqn:X; try discriminate. intros _. exists u'. rewrite finish_db. split; [reflexivity|].
    apply add_mfa_token_inv in X as (k & _ & _ & ->). eauto. }
  destruct Q as (u' & Ha & k & Hu'). set (f := o_fs a). clearbody f. rewrite Ha in *. clear Ha OK. clearbody a.
  destruct Ad as [(w & k' & Hw & Hl & Hid) F].
  assert (w = u') as ->. { change ((<[i := u']> (db_users db)) !! i = Some w) in Hw. rewrite list_lookup_insert in Hw by (eapply lookup_lt_Some; eauto). congruence. }
  assert (k' = k) as ->. { rewrite Hu' in Hl. change ((u_mfa u ++ [k])%list = (u_mfa u ++ [k'])%list) in Hl. apply app_inj_tail in Hl as [_ H]. congruence. }
  assert (V3 : validate_identity E (set_user db i u' <| db_content ::= bump nd1 |>) r2 = inl (i, u')).
  { eapply validate_after; eauto; try reflexivity. rewrite Hu'. repeat split. }
  cbv zeta. cbn [exec]. unfold db_delete_mfa_token. rewrite V3. unfold delete_mfa_token. cbv zeta. rewrite Hl, (exists_new t_id), (filter_new t_id) by assumption.
  split.
  - rewrite finish_db. eapply mem_undone; try reflexivity; [exact L|]. rewrite Hu'. destruct u. eexists _, _. reflexivity.
  - rewrite finish_res. reflexivity.
Qed.
Lemma last_prefix_new l k id p : ak_id k = id -> last_prefix id (l ++ [k])%list p = ak_prefix k.
Proof. intros K. unfold last_prefix. rewrite fold_left_app. cbn. now rewrite K, String.eqb_refl. Qed.
Lemma undo_key E nd1 nd2 db fs r r2 i u : reachable E fs db -> identity_of E db r i u -> identity_of E db r2 i u ->
  let a := exec E nd1 OpAddAPIKey db fs r in o_res a = OOk -> added u_apikeys ak_id db (o_db a) i u (rk_id (rq_key r2)) ->
  let d := exec E nd2 OpDeleteAPIKey (o_db a) (o_fs a) r2 in
  undone db (o_db d) i u /\ (o_res d = OOk <-> can_write nd2 (o_fs a) (db_path db) (db_content (o_db d))).
Proof.
  intros HR V V2 a OK Ad. apply (validate_iff _ _ _ _ _ _ HR) in V, V2. pose proof (validate_at _ _ _ _ _ V) as L.
  assert (Q : exists u' s k, o_db a = set_user db i u' <| ref_apikey ::= <[s := i]> |> <| db_content ::= bump nd1 |> /\ ref_apikey db !! s = None /\ ak_prefix k = s /\
    u' = revise nd1 (u <| u_apikeys := (u_apikeys u ++ [k])%list |>)).
  { revert OK. subst a. cbn [exec]. unfold db_add_api_key. rewrite V. destruct random_range as [s|]; [|discriminate]. destruct new_password; [|discriminate]. cbv zeta.
    destruct (ref_apikey db !! take 24 s) eqn:N; [discriminate|]. destruct add_api_key as [u'|] eqn:X; [|discriminate]. intros _.
    apply add_api_key_inv in X as (k & K & ->). exists (revise nd1 (u <| u_apikeys := (u_apikeys u ++ [k])%list |>)), (take 24 s), k. rewrite finish_db. split; [reflexivity|]. split; [exact N|]. split; [|reflexivity].
    apply new_api_key_inv in K as (_ & _ & _ & ->). reflexivity. }
  destruct Q as (u' & s & k & Ha & N & Kp & Hu'). set (f := o_fs a). clearbody f. rewrite Ha in *. clear Ha OK. clearbody a.
  destruct Ad as [(w & k' & Hw & Hl & Hid) F].
  assert (w = u') as ->. { change ((<[i := u']> (db_users db)) !! i = Some w) in Hw. rewrite list_lookup_insert in Hw by (eapply lookup_lt_Some; eauto). congruence. }
  assert (k' = k) as ->. { rewrite Hu' in Hl. change ((u_apikeys u ++ [k])%list = (u_apikeys u ++ [k'])%list) in Hl. apply app_inj_tail in Hl as [_ H]. congruence. }
  assert (V3 : validate_identity E (set_user db i u' <| ref_apikey ::= <[s := i]> |> <| db_content ::= bump nd1 |>) r2 = inl (i, u')).
  { eapply validate_after; eauto; try reflexivity. rewrite Hu'. repeat split. }
  cbv zeta. cbn [exec]. unfold db_delete_api_key. rewrite V3. unfold delete_api_key. cbv zeta. rewrite Hl, (exists_new ak_id), (filter_new ak_id), last_prefix_new by assumption.
  split.
  - rewrite finish_db. eapply mem_undone; try reflexivity; [exact L| |].
    + rewrite Hu'. destruct u. eexists _, _. reflexivity.
    + change (delete (ak_prefix k) (<[s := i]> (ref_apikey db)) = ref_apikey db). rewrite Kp. now apply delete_insert.
  - rewrite finish_res. reflexivity.
Qed.
