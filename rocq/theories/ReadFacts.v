(** Lemmas about reading edited files. *)
From Coq Require Import String Ascii ZArith NArith Lia Bool Arith List.
From stdpp Require Import gmap strings.
From RecordUpdate Require Import RecordSet.
From Coq Require Import ZifyBool ZifyNat ZifyN.
From Verif Require Import GoStr Json GoTime Role Name Email Types Env Persist PersistFacts Fs Database SpecLayout LayoutFacts SpecRead.
Import ListNotations.
Import RecordSetNotations.
Open Scope string_scope.

(** ** What is asked of a codec *)
Definition respects {T} (d : bool) (f : json -> dres T) : Prop := forall j k a, edit d j k -> f j = DOk a -> f k = DOk a.
Record tame {T} (d : bool) (c : codec T) : Prop := {
  tm_edit : forall cur, respects d (dec_val c cur);
  tm_again : forall cur v w x y, atom v -> w <> JNull -> dec_val c cur v = DOk x -> dec_val c x w = DOk y -> dec_val c cur w = DOk y }.
Lemma edit_atom d j k : edit d j k -> atom j -> False.
Proof. destruct 1; cbn; auto. Qed.
Lemma edit_null d j k : edit d j k -> j <> JNull /\ k <> JNull.
Proof. destruct 1; split; discriminate. Qed.
Lemma dec_val_some {T} (c : codec T) cur j : j <> JNull -> dec_val c cur j = dec c cur j.
Proof. destruct j; auto. contradiction. Qed.
Lemma tame_scalar {T} b (z : T) e d : (forall j x, d j = DOk x -> atom j) -> tame b (scalar z e d).
Proof.
  intros H. constructor.
  - intros cur j k a Ed. destruct (edit_null _ _ _ Ed) as [N _]. rewrite dec_val_some by assumption. intros D. destruct (edit_atom _ _ _ Ed). exact (H _ _ D).
  - intros cur v w x y _ N _. rewrite !dec_val_some by assumption. exact (fun D => D).
Qed.
Lemma dlist_app {A} (f : json -> dres A) l m : dlist f (l ++ m)%list = dbind (dlist f l) (fun a => dmap (app a) (dlist f m)).
Proof.
  induction l as [|j l IH]; cbn [app dlist].
  - cbn. unfold dmap. now destruct (dlist f m).
  - destruct (f j) as [a| |]; cbn [dbind]; [|reflexivity|reflexivity]. rewrite IH. destruct (dlist f l) as [x| |]; cbn; [|reflexivity|reflexivity].
    destruct (dlist f m); reflexivity.
Qed.
Lemma dlist_edit {A} (f : json -> dres A) l1 x y l2 a : respects false f -> edit false x y ->
  dlist f (l1 ++ x :: l2) = DOk a -> dlist f (l1 ++ y :: l2) = DOk a.
Proof.
  intros R Ed. rewrite !dlist_app. destruct (dlist f l1) as [b| |]; cbn [dbind]; try discriminate. cbn [dlist].
  destruct (f x) as [c| |] eqn:Fx; cbn; try discriminate. rewrite (R _ _ _ Ed Fx). auto.
Qed.
Lemma respects_elem {A} (d : json -> dres A) n : respects false d -> respects false (fun j => match j with JNull => n | _ => d j end).
Proof. intros R j k a Ed. destruct (edit_null _ _ _ Ed). rewrite !not_null_match by assumption. now apply R. Qed.
Lemma tame_slice {A} (f : json -> dres A) e : respects false f ->
  tame false (Codec [] e (fun _ => []) (fun cur j => match j with JArr l => into_empty cur (dlist f l) | _ => DErr end)).
Proof.
  intros R. constructor.
  - intros cur j k a Ed. destruct (edit_null _ _ _ Ed). rewrite !dec_val_some by assumption. cbn [dec].
    inversion Ed; subst; try discriminate. destruct cur; [|discriminate]. cbn [into_empty]. now apply dlist_edit.
  - intros cur v w x y At. destruct v; cbn; contradiction || discriminate.
Qed.
Lemma tame_list {A} n (e : A -> json) d : respects false d -> tame false (list_at n e d).
Proof. intros R. apply tame_slice. now apply respects_elem. Qed.
Lemma tame_opt_list {A} (e : A -> json) d : respects false d -> tame false (opt_list e d).
Proof.
  intros R. apply tame_slice. apply respects_elem with (n := DOk None). intros j k a Ed. unfold dmap.
  destruct (d j) as [b| |] eqn:D; cbn; try discriminate. now rewrite (R _ _ _ Ed D).
Qed.
Definition object_only {A} (d : A -> json -> dres A) : Prop := forall r j a, d r j = DOk a -> atom j -> False.
Lemma tame_ptr {A} (z : A) e d : (forall r, respects false (d r)) -> object_only d -> tame false (ptr z e d).
Proof.
  intros R O. constructor.
  - intros cur j k a Ed. destruct (edit_null _ _ _ Ed). rewrite !dec_val_some by assumption. cbn [ptr dec]. unfold dmap.
    destruct (d _ j) as [b| |] eqn:D; cbn; try discriminate. now rewrite (R _ _ _ _ Ed D).
  - intros cur v w x y At N. assert (v <> JNull) by (intros ->; contradiction). rewrite dec_val_some by assumption. cbn [ptr dec]. unfold dmap.
    destruct (d _ v) as [b| |] eqn:D; try discriminate. destruct (O _ _ _ D At).
Qed.
Lemma tame_struct {A} (z : A) e d : (forall r, respects false (d r)) -> object_only d -> tame false (struct_ z e d).
Proof.
  intros R O. constructor.
  - intros cur j k a Ed. destruct (edit_null _ _ _ Ed). rewrite !dec_val_some by assumption. now apply R.
  - intros cur v w x y At N. assert (v <> JNull) by (intros ->; contradiction). rewrite dec_val_some by assumption.
    intros D. destruct (O _ _ _ D At).
Qed.

(** ** Maps *)
Lemma dec_map_app {V} (z : V) f l m s : dec_map z f (l ++ m)%list s = dbind (dec_map z f l s) (dec_map z f m).
Proof.
  revert s. induction l as [|[k v] l IH]; intros s; cbn [app dec_map]; [reflexivity|].
  match goal with |- dbind ?t _ = _ => destruct t as [x| |] end; cbn [dbind]; [apply IH|reflexivity|reflexivity].
Qed.
Lemma tame_map {V} (z : V) e (f : json -> dres V) : (forall j x, f j = DOk x -> atom j) -> tame true (map_ z e f).
Proof.
  intros H. constructor.
  - intros cur j k a Ed. destruct (edit_null _ _ _ Ed). rewrite !dec_val_some by assumption. cbn [map_ dec].
    inversion Ed as [d m1 x y m2 N|m1 n v m2 U|d m1 n v w m2 A N|d l1 x y l2 E1|d m1 n x y m2 E1]; subst; try discriminate; rewrite !dec_map_app.
    + destruct (dec_map z f m1 cur) as [s| |]; cbn [dbind]; try discriminate. destruct x as [k1 v1], y as [k2 v2]. cbn [dec_map].
      match goal with |- dbind ?t _ = _ -> _ => destruct t as [x1| |] end; cbn [dbind]; try discriminate.
      match goal with |- dbind ?t _ = _ -> _ => destruct t as [x2| |] end; cbn [dbind]; try discriminate.
      rewrite insert_commute; [auto|]. intros ->. apply N. reflexivity.
    + destruct (dec_map z f m1 cur) as [s| |]; cbn [dbind]; try discriminate. cbn [dec_map].
      match goal with |- dbind ?t _ = _ -> _ => destruct t as [x1| |] end; cbn [dbind]; try discriminate.
      match goal with |- dbind ?t _ = _ -> _ => destruct t as [x2| |] end; cbn [dbind]; try discriminate. now rewrite insert_insert.
    + destruct (dec_map z f m1 cur) as [s| |]; cbn [dbind]; try discriminate. cbn [dec_map].
      destruct (edit_null _ _ _ E1). rewrite not_null_match by assumption. destruct (f x) as [x1| |] eqn:Fx; cbn [dbind]; try discriminate.
      destruct (edit_atom _ _ _ E1 (H _ _ Fx)).
  - intros cur v w x y At. destruct v; cbn; contradiction || discriminate.
Qed.

(** ** Structs *)
Definition apart {R} (f g : field R) : Prop :=
  (forall v w r, f_set f v (f_set g w r) = f_set g w (f_set f v r)) /\
  (forall w r, f_get f (f_set g w r) = f_get f r) /\ (forall v r, f_get g (f_set f v r) = f_get g r).
Definition one {R} (f : field R) : Prop :=
  (forall v w r, f_set f v (f_set f w r) = f_set f v r) /\ (forall v r, dec_val (f_codec f) (f_get f (f_set f v r)) = dec_val (f_codec f) v).
Record sound {R} (fs : list (field R)) : Prop := {
  so_names : NoDup (map (fun f => fold_key (f_name f)) fs);
  so_known : Forall (fun f => In (f_name f) member_names) fs;
  so_apart : ForallOrdPairs apart fs;
  so_one : Forall one fs;
  so_tame : Forall (fun f => tame (is_dict (f_name f)) (f_codec f)) fs }.
Lemma find_field_some {R} (fs : list (field R)) k f : find_field fs k = Some f -> In f fs /\ fold_key (f_name f) = fold_key k.
Proof. intros H. apply find_some in H as [H1 H2]. split; [assumption|]. now apply String.eqb_eq. Qed.
Lemma apart_sym {R} (f g : field R) : apart f g -> apart g f.
Proof. intros (H1 & H2 & H3). split; [|split]; [intros; symmetry; apply H1|exact H3|exact H2]. Qed.
Lemma apart_of {R} (fs : list (field R)) f g : ForallOrdPairs apart fs -> In f fs -> In g fs -> f = g \/ apart f g.
Proof.
  intros H F G. destruct (ForallOrdPairs_In H f g F G) as [E|[A|A]]; [now left|now right|right; now apply apart_sym].
Qed.
Lemma dec_members_app {R} (fs : list (field R)) l m r : dec_members fs (l ++ m)%list r = dbind (dec_members fs l r) (dec_members fs m).
Proof.
  revert r. induction l as [|[k v] l IH]; intros r; cbn [app dec_members]; [reflexivity|].
  destruct (find_field fs k) as [f|]; [|apply IH]. destruct (dec_val _ _ v) as [x| |]; cbn [dbind]; [apply IH|reflexivity|reflexivity].
Qed.
Lemma is_dict_fold a b : fold_key a = fold_key b -> is_dict a = is_dict b.
Proof. unfold is_dict. now intros ->. Qed.
Lemma struct_respects {R} (fs : list (field R)) : sound fs -> forall r, respects false (dec_struct fs r).
Proof.
  intros S r j k a Ed.
  inversion Ed as [d m1 x y m2 N|m1 n v m2 U|d m1 n v w m2 A N|d l1 x y l2 E1|d m1 n x y m2 E1]; subst; try discriminate; cbn [dec_struct]; rewrite !dec_members_app;
    destruct (dec_members fs m1 r) as [s| |]; cbn [dbind]; try discriminate.
  - destruct x as [k1 v1], y as [k2 v2]. cbn [dec_members fst] in *. destruct (find_field fs k1) as [f|] eqn:F; [|auto].
    destruct (find_field fs k2) as [g|] eqn:G; [|auto]. apply find_field_some in F as [F1 F2], G as [G1 G2].
    destruct (apart_of fs f g (so_apart _ S) F1 G1) as [->|(P1 & P2 & P3)]; [congruence|].
    destruct (dec_val (f_codec f) (f_get f s) v1) as [a1| |] eqn:D1; cbn [dbind]; try discriminate. rewrite P3.
    destruct (dec_val (f_codec g) (f_get g s) v2) as [a2| |] eqn:D2; cbn [dbind]; try discriminate. rewrite P2, D1. cbn [dbind]. now rewrite P1.
  - cbn [dec_members]. destruct (find_field fs n) as [f|] eqn:F; [|auto]. apply find_field_some in F as [F1 F2].
    destruct (U (f_name f)); [|assumption]. pose proof (so_known _ S) as K. rewrite List.Forall_forall in K. auto.
  - cbn [dec_members]. destruct (find_field fs n) as [f|] eqn:F; [|auto]. apply find_field_some in F as [F1 F2].
    destruct (dec_val (f_codec f) (f_get f s) v) as [x| |] eqn:D1; cbn [dbind]; try discriminate.
    pose proof (so_one _ S) as O. rewrite List.Forall_forall in O. destruct (O f F1) as [O1 O2]. rewrite O2.
    destruct (dec_val (f_codec f) x w) as [y| |] eqn:D2; cbn [dbind]; try discriminate. rewrite O1.
    pose proof (so_tame _ S) as T. rewrite List.Forall_forall in T. rewrite (tm_again _ _ (T f F1) _ _ _ _ _ A N D1 D2). auto.
  - cbn [dec_members]. destruct (find_field fs n) as [f|] eqn:F; [|auto]. apply find_field_some in F as [F1 F2].
    destruct (dec_val (f_codec f) (f_get f s) x) as [u| |] eqn:D1; cbn [dbind]; try discriminate.
    pose proof (so_tame _ S) as T. rewrite List.Forall_forall in T. rewrite <- (is_dict_fold _ _ F2) in E1.
    rewrite (tm_edit _ _ (T f F1) _ _ _ _ E1 D1). auto.
Qed.
Lemma struct_object {R} (fs : list (field R)) : object_only (dec_struct fs).
Proof. intros r j a D A. destruct j; try contradiction; discriminate. Qed.

(** ** The persisted types *)
Lemma atom_str j x : dec_str j = DOk x -> atom j. Proof. destruct j; cbn; discriminate || auto. Qed.
Lemma atom_bool j x : dec_bool j = DOk x -> atom j. Proof. destruct j; cbn; discriminate || auto. Qed.
Lemma atom_int j x : dec_int j = DOk x -> atom j. Proof. destruct j; cbn; discriminate || auto. Qed.
Lemma atom_uint b j x : dec_uint b j = DOk x -> atom j. Proof. destruct j; cbn; discriminate || auto. Qed.
Lemma respects_str : respects false dec_str.
Proof. intros j k a Ed D. destruct (edit_atom _ _ _ Ed (atom_str _ _ D)). Qed.
Create HintDb tame.
Ltac tamef := cbn [f_name f_codec]; first
  [apply tame_scalar; solve [exact atom_str|exact atom_bool|exact atom_int|apply atom_uint|intros [] ?; cbn; discriminate || auto]
  |apply tame_opt_list; solve [auto with tame]|apply tame_list; solve [exact respects_str|auto with tame]
  |apply tame_ptr; solve [auto with tame|apply struct_object]|apply tame_struct; solve [auto with tame|apply struct_object]
  |apply tame_map; solve [exact atom_str|exact atom_bool]].
Lemma known_in n : existsb (String.eqb n) member_names = true -> In n member_names.
Proof. intros H. apply existsb_exists in H as (x & H & E). apply String.eqb_eq in E. now subst. Qed.
Ltac sound_with d :=
  apply struct_respects; constructor;
  [apply distinct_NoDup; vm_compute; reflexivity
  |repeat (first [apply List.Forall_nil|apply List.Forall_cons; [apply known_in; vm_compute; reflexivity|]])
  |repeat (first [apply FOP_nil|apply FOP_cons; [repeat (first [apply List.Forall_nil|apply List.Forall_cons; [split; [intros v w r; d r; reflexivity|split; intros v r; reflexivity]|]])|]])
  |repeat (first [apply List.Forall_nil|apply List.Forall_cons; [split; [intros v w r; d r; reflexivity|intros v r; first [reflexivity|cbn in v; destruct v; reflexivity]]|]])
  |repeat (first [apply List.Forall_nil|apply List.Forall_cons; [tamef|]])].
Ltac plain r := destruct r.
Lemma resp_name r : respects false (dec_struct name_f r). Proof. revert r. sound_with plain. Qed.
Lemma resp_org r : respects false (dec_struct org_f r). Proof. revert r. sound_with plain. Qed.
Lemma resp_loc r : respects false (dec_struct loc_f r). Proof. revert r. sound_with plain. Qed.
Lemma resp_email r : respects false (dec_struct email_f r). Proof. revert r. sound_with plain. Qed.
Lemma resp_password r : respects false (dec_struct password_f r). Proof. revert r. sound_with plain. Qed.
Lemma resp_pubkey r : respects false (dec_struct pubkey_f r). Proof. revert r. sound_with plain. Qed.
Lemma resp_apikey r : respects false (dec_struct apikey_f r). Proof. revert r. sound_with plain. Qed.
Lemma resp_device r : respects false (dec_struct device_f r). Proof. revert r. sound_with plain. Qed.
#[export] Hint Resolve resp_name resp_org resp_loc resp_email resp_password resp_pubkey resp_apikey resp_device : tame.
Lemma resp_mfa r : respects false (dec_struct mfa_f r). Proof. revert r. sound_with plain. Qed.
Lemma resp_lockout r : respects false (dec_struct lockout_f r). Proof. revert r. sound_with plain. Qed.
Lemma resp_imgcfg r : respects false (dec_struct imgcfg_f r). Proof. revert r. sound_with plain. Qed.
#[export] Hint Resolve resp_mfa resp_lockout resp_imgcfg : tame.
Lemma resp_image r : respects false (dec_struct image_f r). Proof. revert r. sound_with plain. Qed.
Lemma resp_role r : respects false (dec_struct role_f r). Proof. revert r. sound_with plain. Qed.
Lemma resp_ppol r : respects false (dec_struct ppol_f r). Proof. revert r. sound_with plain. Qed.
Lemma resp_upol r : respects false (dec_struct upol_f r). Proof. revert r. sound_with plain. Qed.
#[export] Hint Resolve resp_image resp_role resp_ppol resp_upol : tame.
Lemma resp_policy r : respects false (dec_struct policy_f r). Proof. revert r. sound_with plain. Qed.
Ltac nested r := destruct r as [[] ? ? ?].
Lemma resp_user r : respects false (dec_struct user_f r). Proof. revert r. sound_with nested. Qed.
#[export] Hint Resolve resp_policy resp_user : tame.
Lemma resp_content r : respects false (dec_struct content_f r). Proof. revert r. sound_with plain. Qed.

(** ** Files *)
Lemma edited_content j k : edited j k -> forall r a, dec_struct content_f r j = DOk a -> dec_struct content_f r k = DOk a.
Proof. induction 1 as [j|j k l E _ IH]; intros r a D; [assumption|]. apply IH. exact (resp_content r _ _ _ E D). Qed.
Lemma edited_null j k : edited j k -> j = JNull <-> k = JNull.
Proof. induction 1 as [j|j k l E _ IH]; [tauto|]. apply edit_null in E as [N1 N2]. rewrite <- IH. tauto. Qed.
Lemma unmarshal_edited s s' j j' c : parse (los s) = Some j -> parse (los s') = Some j' -> edited j j' -> unmarshal s = DOk c -> unmarshal s' = DOk c.
Proof.
  intros P P' Ed. unfold unmarshal. rewrite P, P'. pose proof (edited_null _ _ Ed) as N. destruct (json_eq_null j) as [->|H].
  - now rewrite (proj1 N eq_refl).
  - assert (H' : j' <> JNull) by tauto. rewrite !not_null_match by assumption. apply edited_content. exact Ed.
Qed.
Lemma swap_edit j k : swap j k -> forall d, edit d j k.
Proof.
  induction 1 as [m1 x y m2 N|l1 x y l2 S IH|m1 n x y m2 S IH]; intros d.
  - now apply ed_swap.
  - now apply ed_elem.
  - now apply ed_member.
Qed.
Lemma swap_sym j k : swap j k -> swap k j.
Proof. induction 1 as [m1 x y m2 N|l1 x y l2 S IH|m1 n x y m2 S IH]; [apply sw_members; congruence|now apply sw_elem|now apply sw_member]. Qed.
Lemma reordered_edited j k : reordered j k -> edited j k.
Proof. induction 1 as [j|j k l S _ IH]; [constructor|]. apply es_more with k; [now apply swap_edit|assumption]. Qed.
Lemma reordered_snoc j k l : reordered j k -> swap k l -> reordered j l.
Proof.
  induction 1 as [j|j k m S R IH]; intros W; [apply ro_more with l; [assumption|constructor]|]. apply ro_more with k; auto.
Qed.
Lemma reordered_sym j k : reordered j k -> reordered k j.
Proof. induction 1 as [j|j k l S _ IH]; [constructor|]. apply reordered_snoc with k; [assumption|now apply swap_sym]. Qed.
Lemma open_edited E nd fp fs fs' db s s' : (fs !! fp = Some (File s)) -> (fs' !! fp = Some (File s')) -> expand E fp = Some fp ->
  (forall c, unmarshal s = DOk c -> unmarshal s' = DOk c) ->
  snd (new_database E nd fp fs) = Loaded db -> snd (new_database E nd fp fs') = Loaded db.
Proof.
  intros F F' X U. unfold new_database, read_file. destruct (nd_stat_err nd); [discriminate|].
  destruct (String.eqb fp "") eqn:Z.
  - destruct (nd_mkdir_err nd); [discriminate|]. unfold write_db. destruct marshal_raw as [t|]; [|discriminate].
    unfold write_file. rewrite Z, ?F, ?F'. destruct (nd_write nd); cbn; auto.
  - rewrite F, F', X, F, F'. destruct (nd_read_err nd); [discriminate|]. unfold load_bytes. destruct (unmarshal s) as [c| |] eqn:Us; try discriminate.
    rewrite (U c eq_refl). destruct (policy_changed (rc_policy c)); [|auto]. cbv zeta. unfold write_db. destruct marshal_raw as [t|]; [|discriminate].
    unfold write_file. rewrite Z, F, F'. destruct (nd_write nd); cbn; auto.
Qed.

(** ** Times *)
Open Scope Z_scope.
Lemma year_start_eq y n : year_start y n -> n = before y.
Proof.
  induction 1 as [|y n k _ IH K1 K2|y n k _ IH K1 K2]; [reflexivity| |]; rewrite before_next in *; destruct (leap_cases y) as [[L E]|[L E]]; rewrite E in *; specialize (K1 L) || specialize (K2 L); lia.
Qed.
Lemma num_digits w l n : List.length l = w -> num l = Some n <-> digits_of w n l.
Proof.
  intros H. unfold num, digits_of. destruct (forallb is_digit l) eqn:F.
  - rewrite forallb_forall, <- List.Forall_forall in F. split; [intros [=<-]; auto|intros (_ & _ & ->); reflexivity].
  - split; [discriminate|]. intros (_ & G & _). rewrite List.Forall_forall in G. apply forallb_forall in G. congruence.
Qed.
Lemma span_dig_inv l x r : span_dig l = (x, r) -> l = (x ++ r)%list /\ Forall (fun a => is_digit a = true) x.
Proof.
  revert x r. induction l as [|a l IH]; intros x r; cbn [span_dig]; [intros [=<- <-]; auto|].
  destruct (is_digit a) eqn:D; [|intros [=<- <-]; auto]. destruct (span_dig l) as [y q]. intros [=<- <-]. destruct (IH _ _ eq_refl) as [-> F]. auto.
Qed.
Definition says_frac (ns : Z) (F : list ascii) : Prop := (ns = 0%Z /\ F = []) \/
   exists x, F = "."%char :: x /\ (1 <= List.length x <= 9)%nat /\ digits_of 9 ns (x ++ repeat "0"%char (9 - List.length x)).
Lemma zeros_digits k : Forall (fun a => is_digit a = true) (repeat "0"%char k).
Proof. apply List.Forall_forall. intros a H. apply repeat_spec in H. now subst. Qed.
Lemma parse_frac_iff l ns : parse_frac l = Some ns <-> exists F, l = (F ++ ["Z"%char])%list /\ says_frac ns F.
Proof.
  split.
  - unfold parse_frac. destruct l as [|a l]; [discriminate|].
    destruct (Ascii.eqb_spec a "Z") as [->|NZ].
    { destruct l; [|discriminate]. intros [=<-]. exists []. split; [reflexivity|left; auto]. }
    destruct (Ascii.eqb_spec a ".") as [->|NP].
    + destruct (span_dig l) as [x r] eqn:S. apply span_dig_inv in S as [-> Fx]. intros H.
      assert (r = ["Z"%char]) as ->.
      { destruct r as [|b r]; [discriminate|]. destruct b as [[] [] [] [] [] [] [] []]; try discriminate. destruct r; [reflexivity|discriminate]. }
      destruct ((1 <=? List.length x)%nat && (List.length x <=? 9)%nat) eqn:L; [|discriminate]. injection H as <-. exists ("."%char :: x). split; [reflexivity|].
      right. exists x. split; [reflexivity|]. split; [lia|]. split; [rewrite app_length, repeat_length; lia|]. split; [|reflexivity].
      apply Forall_app. split; [assumption|apply zeros_digits].
    + intros H. exfalso. destruct a as [[] [] [] [] [] [] [] []]; try discriminate; congruence.
  - intros (F & -> & [[-> ->]|(x & -> & L & (_ & Fx & V))]); [reflexivity|]. cbn [app parse_frac]. apply Forall_app in Fx as [Fx _].
    rewrite (span_dig_app x ["Z"%char] Fx) by (intros a t [= <- <-]; reflexivity).
    replace ((1 <=? List.length x)%nat && (List.length x <=? 9)%nat) with true by lia. now rewrite V.
Qed.
Lemma dec_val_bound l : Forall (fun a => is_digit a = true) l -> forall acc, (dec_val_l l acc < (acc + 1) * 10 ^ N.of_nat (List.length l))%N.
Proof.
  induction 1 as [|a l D _ IH]; intros acc; cbn [dec_val_l List.length]; [rewrite N.pow_0_r; lia|].
  eapply N.lt_le_trans; [apply IH|]. rewrite Nat2N.inj_succ, N.pow_succ_r', N.mul_assoc. apply N.mul_le_mono_r. unfold is_digit in D. lia.
Qed.
Lemma digits_bound w n l : digits_of w n l -> 0 <= n < 10 ^ Z.of_nat w.
Proof.
  intros (L & F & <-). pose proof (dec_val_bound l F 0%N) as B. rewrite L in B. split; [lia|]. apply N2Z.inj_lt in B. rewrite N2Z.inj_mul, N2Z.inj_pow in B. lia.
Qed.
Lemma frac_bound ns F : says_frac ns F -> 0 <= ns < 1000000000.
Proof. intros [[-> _]|(x & _ & L & D)]; [lia|]. exact (digits_bound _ _ _ D). Qed.
Lemma split1 (l : list ascii) : List.length l = 2%nat -> exists a b, l = [a; b].
Proof. destruct l as [|a [|b [|c l]]]; try discriminate. eauto. Qed.
Lemma split2 (l : list ascii) : List.length l = 4%nat -> exists a b c d, l = [a; b; c; d].
Proof. destruct l as [|a [|b [|c [|d [|e l]]]]]; try discriminate. eauto 6. Qed.
Lemma feb_is y f : (is_leap y -> f = 29) -> (~ is_leap y -> f = 28) -> f = feb y.
Proof. intros H1 H2. unfold feb. destruct (leap_cases y) as [[L ->]|[L ->]]; auto. Qed.
Lemma time_parse_iff l t : time_parse l = Some t <-> says_time l t.
Proof.
  split.
  - unfold time_parse. do 19 (destruct l as [|? l]; [discriminate|]).
    match goal with |- (if ?b then _ else _) = _ -> _ => destruct b eqn:S; [|discriminate] end.
    repeat (apply andb_prop in S as [S ?]). repeat match goal with H : Ascii.eqb _ _ = true |- _ => apply Ascii.eqb_eq in H; subst end.
    destruct (num [a; a0; a1; a2]) as [y|] eqn:Ny; [|discriminate]. destruct (num [a4; a5]) as [m|] eqn:Nm; [|discriminate].
    destruct (num [a7; a8]) as [d|] eqn:Nd; [|discriminate]. destruct (num [a10; a11]) as [h|] eqn:Nh; [|discriminate].
    destruct (num [a13; a14]) as [i|] eqn:Ni; [|discriminate]. destruct (num [a16; a17]) as [c|] eqn:Nc; [|discriminate].
    destruct (parse_frac l) as [ns|] eqn:Nf; [|discriminate].
    match goal with |- (if ?b then _ else _) = _ -> _ => destruct b eqn:B; [|discriminate] end. intros [=<-].
    apply (num_digits 4) in Ny; [|reflexivity]. apply (num_digits 2) in Nm, Nd, Nh, Ni, Nc; try reflexivity.
    apply parse_frac_iff in Nf as (F & -> & Fr). pose proof (frac_bound _ _ Fr) as Bf.
    pose proof (digits_bound _ _ _ Nh). pose proof (digits_bound _ _ _ Ni). pose proof (digits_bound _ _ _ Nc).
    exists y, m, d, h, i, c, ns, [a; a0; a1; a2], [a4; a5], [a7; a8], [a10; a11], [a13; a14], [a16; a17], F.
    split; [|split; [reflexivity|repeat (split; [assumption|]); exact Fr]].
    constructor; [|lia]. exists (before y), (feb y). split; [apply year_start_before|]. unfold feb at 1 2.
    split; [destruct (leap_cases y) as [[L ->]|[L ->]]; [reflexivity|contradiction]|].
    split; [destruct (leap_cases y) as [[L ->]|[L ->]]; [contradiction|reflexivity]|]. split; [lia|].
    split; [exists (days_in y m); split; [apply days_in_nth; lia|lia]|]. rewrite <- days_count by lia. unfold ns_day. lia.
  - intros (y & mo & d & h & mi & s & ns & Y & M & D & H & I & S & F & [C1 C2] & -> & Dy & Dm & Dd & Dh & Di & Ds & Fr).
    destruct (split2 Y (proj1 Dy)) as (? & ? & ? & ? & ->). destruct (split1 M (proj1 Dm)) as (? & ? & ->). destruct (split1 D (proj1 Dd)) as (? & ? & ->).
    destruct (split1 H (proj1 Dh)) as (? & ? & ->). destruct (split1 I (proj1 Di)) as (? & ? & ->). destruct (split1 S (proj1 Ds)) as (? & ? & ->).
    cbn [app]. unfold time_parse. rewrite !Ascii.eqb_refl. cbn [andb].
    apply num_digits in Dy, Dm, Dd, Dh, Di, Ds; try reflexivity. rewrite Dy, Dm, Dd, Dh, Di, Ds.
    rewrite (proj2 (parse_frac_iff (F ++ ["Z"%char]) ns)) by eauto.
    destruct C1 as (start & fb & Ys & L1 & L2 & Hm & (len & Nl & Hd) & ->). apply year_start_eq in Ys. subst start. pose proof (feb_is _ _ L1 L2). subst fb.
    rewrite days_in_nth in Nl by lia. injection Nl as <-.
    replace (_ && _ && _ && _ && _ && _ && _) with true by (symmetry; lia). f_equal. rewrite days_count by lia. unfold ns_day. lia.
Qed.
