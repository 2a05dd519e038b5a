(** Lemmas about the meaning of a database file. *)
From Coq Require Import String Ascii ZArith NArith Lia Bool Arith List.
From stdpp Require Import gmap strings.
From RecordUpdate Require Import RecordSet.
From Coq Require Import ZifyBool ZifyNat ZifyN.
From Verif Require Import GoStr Utf8 Json JsonFacts GoTime Role Name Email Types Env Persist PersistFacts SpecPersist SpecLayout LayoutFacts SpecRead ReadFacts SpecWebAuthn WebAuthnJsonFacts SpecMeaning.
Import ListNotations.
Import RecordSetNotations.
Open Scope string_scope.

(** ** Decoding, field by field *)
Fixpoint dfold {T} (f : T -> json -> dres T) (vs : list json) (c : T) : dres T :=
  match vs with [] => DOk c | v :: vs => dbind (f c v) (dfold f vs) end.
Lemma dfold_app {T} (f : T -> json -> dres T) a b c : dfold f (a ++ b)%list c = dbind (dfold f a c) (dfold f b).
Proof. revert c. induction a as [|v a IH]; intros c; [reflexivity|]. cbn. destruct (f c v); cbn; [apply IH|reflexivity|reflexivity]. Qed.
Lemma dfold_snoc {T} (f : T -> json -> dres T) a v c x : dfold f (a ++ [v])%list c = DOk x <-> exists y, dfold f a c = DOk y /\ f y v = DOk x.
Proof.
  rewrite dfold_app. destruct (dfold f a c) as [y| |]; cbn.
  - destruct (f y v) as [w| |] eqn:E; cbn; (split; [intros H|intros (y' & [= <-] & H)]); try congruence; try discriminate. injection H as ->. eauto.
  - split; [discriminate|]. intros (y & H & _). discriminate.
  - split; [discriminate|]. intros (y & H & _). discriminate.
Qed.
Notation runs_to c vs x y := (dfold (dec_val c) vs x = DOk y).

Record lawful {R K} (fs : list (field R)) (rest : R -> K) : Prop := {
  lw_names : distinct (map (fun f => fold_key (f_name f)) fs) = true;
  lw_same : Forall (fun f => forall x r, f_get f (f_set f x r) = x) fs;
  lw_other : ForallOrdPairs (fun f g => indep f g /\ indep g f) fs;
  lw_rest : Forall (fun f => forall x r, rest (f_set f x r) = rest r) fs;
  lw_ext : forall r r', Forall (fun f => f_get f r = f_get f r') fs -> rest r = rest r' -> r = r' }.
Lemma same_field {R} (fs : list (field R)) f g : distinct (map (fun f => fold_key (f_name f)) fs) = true -> In f fs -> In g fs ->
  fold_key (f_name f) = fold_key (f_name g) -> f = g.
Proof.
  intros D. apply distinct_NoDup in D. induction fs as [|h fs IH]; [intros []|]. inversion_clear D as [|? ? D1 D2].
  intros [->|Hf] [->|Hg] E; [reflexivity| | |auto]; destruct D1; [rewrite E|rewrite <- E]; apply elem_of_list_In;
  now apply (in_map (fun f => fold_key (f_name f))).
Qed.
Lemma dec_members_iff {R K} (fs : list (field R)) (rest : R -> K) : lawful fs rest -> forall ms r r', dec_members fs ms r = DOk r' <->
  Forall (fun f => runs_to (f_codec f) (vals ms (f_name f)) (f_get f r) (f_get f r')) fs /\ rest r' = rest r.
Proof.
  intros L ms. induction ms as [|[k v] ms IH]; intros r r'; cbn [dec_members].
  - split.
    + intros [= ->]. split; [|reflexivity]. apply List.Forall_forall. intros f _. reflexivity.
    + intros [F E]. f_equal. apply (lw_ext _ _ L); [|now symmetry]. apply List.Forall_forall. intros f Hf. rewrite List.Forall_forall in F.
      specialize (F f Hf). cbn in F. congruence.
  - destruct (find_field fs k) as [f|] eqn:Fd.
    + unfold find_field in Fd. apply find_some in Fd as [Hf Hk]. apply String.eqb_eq in Hk.
      assert (Vf : vals ((k, v) :: ms) (f_name f) = v :: vals ms (f_name f)) by (rewrite vals_cons, Hk; now rewrite String.eqb_refl).
      assert (Vg : forall g, In g fs -> g = f \/ vals ((k, v) :: ms) (f_name g) = vals ms (f_name g) /\ forall x r, f_get g (f_set f x r) = f_get g r).
      { intros g Hg. destruct (String.eqb_spec (fold_key (f_name g)) (fold_key k)) as [E|E].
        - left. apply (same_field fs _ _ (lw_names _ _ L) Hg Hf). congruence.
        - right. split; [rewrite vals_cons; now destruct (String.eqb_spec (fold_key (f_name g)) (fold_key k))|]. intros x r0.
          destruct (ForallOrdPairs_In (lw_other _ _ L) f g Hf Hg) as [->|[[H _]|[_ H]]]; [congruence|apply H|apply H]. }
      pose proof (lw_same _ _ L) as Sm. pose proof (lw_rest _ _ L) as Rs. rewrite List.Forall_forall in Sm, Rs.
      specialize (Sm f Hf). specialize (Rs f Hf). split.
      * destruct (dec_val (f_codec f) (f_get f r) v) as [x| |] eqn:D; cbn [dbind]; try discriminate. intros H. apply IH in H as [F E].
        rewrite List.Forall_forall in F. split; [|now rewrite E]. apply List.Forall_forall. intros g Hg. specialize (F g Hg). cbn beta in F.
        destruct (Vg g Hg) as [->|[V G]]; [|now rewrite V, <- (G x r)]. rewrite Vf. cbn [dfold]. rewrite D. cbn [dbind]. now rewrite <- (Sm x r) at 1.
      * intros [F E]. rewrite List.Forall_forall in F. pose proof (F f Hf) as Ff. cbn beta in Ff. rewrite Vf in Ff. cbn [dfold] in Ff.
        destruct (dec_val (f_codec f) (f_get f r) v) as [x| |] eqn:D; cbn [dbind] in *; try discriminate. apply IH. split; [|now rewrite Rs].
        apply List.Forall_forall. intros g Hg. destruct (Vg g Hg) as [->|[V G]]; [now rewrite Sm|]. rewrite G, <- V. now apply F.
    + rewrite IH. assert (V : forall g, In g fs -> vals ((k, v) :: ms) (f_name g) = vals ms (f_name g)).
      { intros g Hg. rewrite vals_cons. destruct (String.eqb_spec (fold_key (f_name g)) (fold_key k)) as [E|E]; [|reflexivity].
        unfold find_field in Fd. pose proof (find_none _ _ Fd g Hg) as H. cbn in H. rewrite E, String.eqb_refl in H. discriminate. }
      rewrite !List.Forall_forall. split; intros [F E]; (split; [|exact E]); intros g Hg; specialize (F g Hg); cbn beta in *; [now rewrite V|now rewrite <- V].
Qed.
Lemma dec_members_app {R} (fs : list (field R)) a b r : dec_members fs (a ++ b)%list r = dbind (dec_members fs a r) (dec_members fs b).
Proof.
  revert r. induction a as [|[k v] a IH]; intros r; [reflexivity|]. cbn [dec_members app]. destruct (find_field fs k) as [f|]; [|apply IH].
  destruct (dec_val (f_codec f) (f_get f r) v); cbn [dbind]; [apply IH|reflexivity|reflexivity].
Qed.

(** ** The codecs *)
Lemma scalar_iff {T} (z : T) e d (A : json -> T -> Prop) : (forall v x, v <> JNull -> d v = DOk x <-> A v x) -> (forall x, ~ A JNull x) ->
  forall vs x, runs_to (scalar z e d) vs z x <-> last_of A z vs x.
Proof.
  intros H N vs. induction vs as [|v vs IH] using rev_ind; intros x.
  - split; [intros [= <-]; constructor|]. inversion 1; subst; [reflexivity|now destruct vs|now destruct vs].
  - rewrite dfold_snoc. split.
    + intros (y & Y & D). apply IH in Y. destruct (json_eq_null v) as [->|Nv]; [injection D as <-; now constructor|].
      rewrite dec_val_some in D by assumption. apply H in D; [|assumption]. now apply (LoVal _ _ _ y).
    + inversion 1 as [E|vs' y Y E|vs' y w x' Y D E]; subst.
      * now destruct vs.
      * apply app_inj_tail in E as [-> <-]. exists x. split; [now apply IH|reflexivity].
      * apply app_inj_tail in E as [-> <-]. exists y. split; [now apply IH|]. assert (w <> JNull) by (intros ->; now apply (N x)).
        rewrite dec_val_some by assumption. now apply H.
Qed.
Lemma str_iff vs x : runs_to str vs "" x <-> text vs x.
Proof. apply scalar_iff; [|discriminate]. intros v y _. unfold a_text. destruct v; cbn; split; try discriminate; congruence. Qed.
Lemma bool_iff e vs x : runs_to (scalar false e dec_bool) vs false x <-> flag vs x.
Proof. apply scalar_iff; [|discriminate]. intros v y _. unfold a_flag. destruct v; cbn; split; try discriminate; congruence. Qed.
Lemma time_iff vs x : runs_to time_ vs 0%Z x <-> time vs x.
Proof.
  apply scalar_iff; [|intros y (s & [=] & _)]. intros v y _. unfold a_time. destruct v as [ |b|lit|s|l|m]; cbn; try (split; [discriminate|intros (s' & [=] & _)]).
  split.
  - intros D. exists s. split; [reflexivity|]. apply time_parse_iff. destruct (time_parse (los s)); [congruence|]. now destruct (time_odd (los s)).
  - intros (s' & [= <-] & H). apply time_parse_iff in H. now rewrite H.
Qed.
Lemma digits_val_of l n : digits_val l = Some n <-> exists w, digits_of (S w) (Z.of_N n) l.
Proof.
  unfold digits_val, digits_of. destruct l as [|a l].
  - split; [discriminate|]. intros (w & H & _). discriminate.
  - destruct (forallb is_digit (a :: l)) eqn:F.
    + split.
      * intros [= <-]. exists (List.length l). split; [reflexivity|]. split; [|reflexivity]. apply List.Forall_forall. now apply forallb_forall.
      * intros (w & _ & _ & H). f_equal. lia.
    + split; [discriminate|]. intros (w & _ & H & _). rewrite (proj2 (forallb_forall _ _)) in F; [discriminate|]. now apply List.Forall_forall.
Qed.

Lemma int_iff e vs x : runs_to (scalar 0%Z e dec_int) vs 0%Z x <-> int vs x.
Proof.
  apply scalar_iff; [|intros y (l & w & n & d & [=] & _)]. intros v y _. unfold a_int. destruct v as [ |b|lit|s|l|m]; cbn; try (split; [discriminate|intros (? & ? & ? & ? & [=] & _)]).
  split.
  - destruct (parse_int lit) as [z|] eqn:P; [|discriminate]. destruct (in_int64 z) eqn:I; [|discriminate]. intros [= <-].
    apply in_int64_iff in I. unfold is_int64 in I. unfold parse_int in P. destruct (los lit) as [|a t] eqn:Ll; [discriminate|].
    destruct (Ascii.eqb_spec a "-") as [->|_].
    + destruct (digits_val t) as [n|] eqn:D; [|discriminate]. injection P as <-. apply digits_val_of in D as [w D]. exists lit, w, (Z.of_N n), t. intuition lia.
    + destruct (digits_val (a :: t)) as [n|] eqn:D; [|discriminate]. injection P as <-. apply digits_val_of in D as [w D].
      exists lit, w, (Z.of_N n), (a :: t). rewrite Ll. intuition lia.
  - intros (lit' & w & n & l & [= <-] & D & H & B).
    assert (Hn : n = Z.of_N (Z.to_N n)) by (destruct D as (_ & _ & D); lia). rewrite Hn in D.
    assert (P : parse_int lit = Some y).
    { unfold parse_int. destruct H as [[-> ->]|[-> ->]].
      - destruct l as [|a l]; [destruct D as [D _]; discriminate|]. destruct (Ascii.eqb_spec a "-") as [->|_].
        + destruct D as (_ & D & _). inversion_clear D as [|? ? D1 D2]. discriminate.
        + rewrite (proj2 (digits_val_of (a :: l) (Z.to_N n))) by eauto. cbn [option_map]. f_equal. lia.
      - rewrite Ascii.eqb_refl, (proj2 (digits_val_of l (Z.to_N n))) by eauto. cbn [option_map]. f_equal. lia. }
    rewrite P. rewrite (proj2 (in_int64_iff y)) by exact B. reflexivity.
Qed.
Lemma uint_iff bits vs x : (0 <= bits)%Z -> runs_to (uint (Z.to_N (2 ^ bits))) vs 0%N x <-> last_of (a_uint bits) 0%N vs x.
Proof.
  intros Hb. apply scalar_iff; [|intros y (l & w & [=] & _)]. intros v y _. unfold a_uint. destruct v as [ |b|lit|s|l|m]; cbn; try (split; [discriminate|intros (? & ? & [=] & _)]).
  pose proof (Z.pow_pos_nonneg 2 bits eq_refl Hb). split.
  - destruct (digits_val (los lit)) as [n|] eqn:D; [|discriminate]. destruct (N.ltb_spec n (Z.to_N (2 ^ bits))); [|discriminate]. intros [= <-].
    apply digits_val_of in D as [w D]. exists lit, w. intuition lia.
  - intros (lit' & w & [= <-] & D & B). rewrite (proj2 (digits_val_of (los lit) y)) by eauto. destruct (N.ltb_spec y (Z.to_N (2 ^ bits))); [reflexivity|lia].
Qed.
Lemma slice_iff {A} (f : json -> dres A) e (P : json -> A -> Prop) : (forall v a, f v = DOk a <-> P v a) -> forall vs x,
  runs_to (Codec [] e (fun _ => []) (fun cur j => match j with JArr l => into_empty cur (dlist f l) | _ => DErr end)) vs [] x <-> array_of P vs x.
Proof.
  intros H. assert (L : forall js l, dlist f js = DOk l <-> Forall2 P js l).
  { induction js as [|j js IH]; intros l; cbn [dlist].
    - split; [intros [= <-]; constructor|now inversion 1].
    - split.
      + destruct (f j) as [a| |] eqn:E; cbn; try discriminate. destruct (dlist f js) as [l'| |]; cbn; try discriminate. intros [= <-].
        constructor; [now apply H|now apply IH].
      + inversion_clear 1 as [|? a ? l' Ha Hl]. apply H in Ha. apply IH in Hl. rewrite Ha. cbn. rewrite Hl. reflexivity. }
  intros vs. induction vs as [|v vs IH] using rev_ind; intros x.
  - split; [intros [= <-]; constructor|]. inversion 1; subst; [reflexivity|now destruct vs|now destruct vs].
  - rewrite dfold_snoc. split.
    + intros (y & Y & D). apply IH in Y. destruct v as [ |b|lit|s|l|m]; cbn in D; try discriminate.
      * injection D as <-. now apply (AoNull _ _ y).
      * destruct y; [|discriminate]. cbn [into_empty] in D. constructor; [exact Y|now apply L].
    + inversion 1 as [E|vs' y Y E|vs' js l Y F E]; subst.
      * now destruct vs.
      * apply app_inj_tail in E as [-> <-]. exists y. split; [now apply IH|reflexivity].
      * apply app_inj_tail in E as [-> <-]. exists []. split; [now apply IH|]. cbn. now apply L.
Qed.
Section Struct.
  Context {A : Type} (fs : list (field A)) (z : A) (S : members -> A -> Prop) (HS : forall m a, dec_members fs m z = DOk a <-> S m a).
  Lemma struct_iff v a : dec_struct fs z v = DOk a <-> obj S v a.
  Proof.
    unfold obj. destruct v as [ |b|lit|s|l|m]; cbn; try (split; [discriminate|intros (? & [=] & _)]). rewrite HS.
    split; [intros H; now exists m|now intros (m' & [= <-] & H)].
  Qed.
  Lemma list_iff e vs x : runs_to (list_at DUnmod e (dec_struct fs z)) vs [] x <-> array_of (obj S) vs x.
  Proof.
    apply slice_iff. intros v a. destruct (json_eq_null v) as [->|N]; [split; [discriminate|intros (? & [=] & _)]|].
    rewrite not_null_match by assumption. apply struct_iff.
  Qed.
  Lemma opt_list_iff e vs x : runs_to (opt_list e (dec_struct fs z)) vs [] x <-> array_of (or_null (obj S)) vs x.
  Proof.
    apply slice_iff. intros v a. unfold or_null. destruct (json_eq_null v) as [->|N].
    - split; [intros [= <-]; now left|]. intros [[_ ->]|(? & (? & [=] & _) & _)]; reflexivity.
    - rewrite not_null_match by assumption. unfold dmap. split.
      + destruct (dec_struct fs z v) as [b| |] eqn:D; cbn; try discriminate. intros [= <-]. right. exists b. split; [now apply struct_iff|reflexivity].
      + intros [[? _]|(b & Hb & ->)]; [contradiction|]. apply struct_iff in Hb. rewrite Hb. reflexivity.
  Qed.
  Lemma embedded_iff e vs x : runs_to (struct_ z e (dec_struct fs)) vs z x <-> embedded S vs x.
  Proof.
    unfold embedded. revert x. induction vs as [|v vs IH] using rev_ind; intros x.
    - split.
      + intros [= <-]. exists []. split; [constructor|]. now apply HS.
      + intros (m & J & H). inversion J; subst; [|now destruct vs|now destruct vs]. apply HS in H. exact H.
    - rewrite dfold_snoc. split.
      + intros (y & Y & D). apply IH in Y as (m & J & H). destruct v as [ |b|lit|s|l|n]; cbn in D; try discriminate.
        * injection D as <-. exists m. split; [now constructor|exact H].
        * exists (m ++ n)%list. split; [now constructor|]. apply HS. apply HS in H. rewrite dec_members_app, H. exact D.
      + intros (m & J & H). inversion J as [E|vs' m' J' E|vs' m' n J' E]; subst.
        * now destruct vs.
        * apply app_inj_tail in E as [-> <-]. exists x. split; [apply IH; eauto|reflexivity].
        * apply app_inj_tail in E as [-> <-]. apply HS in H. rewrite dec_members_app in H. destruct (dec_members fs m' z) as [y| |] eqn:D; cbn in H; try discriminate.
          exists y. split; [apply IH; exists m'; split; [assumption|now apply HS]|exact H].
  Qed.
  Definition bound (y : option members) (x : option A) : Prop :=
    match y, x with None, None => True | Some m, Some a => S m a | _, _ => False end.
  Lemma bound_start y x : bound y x -> dec_members fs (default [] y) z = DOk (default z x).
  Proof. destruct y, x; cbn; try tauto. intros H. now apply HS. Qed.
  Lemma pointer_iff e vs x : runs_to (ptr z e (dec_struct fs)) vs None x <-> ptr_vals S vs x.
  Proof.
    assert (M : forall y, merged S vs y -> exists x, runs_to (ptr z e (dec_struct fs)) vs None x /\ bound y x).
    { induction 1 as [|vs y H (x' & IH & T)|vs y m a H (x' & IH & T) Ha].
      - now exists None.
      - exists None. split; [|exact I]. apply dfold_snoc. exists x'. now split.
      - exists (Some a). split; [|exact Ha]. apply dfold_snoc. exists x'. split; [exact IH|]. cbn. apply HS in Ha. rewrite dec_members_app, (bound_start _ _ T) in Ha.
        cbn [dbind] in Ha. destruct x'; cbn in Ha; rewrite Ha; reflexivity. }
    assert (N : forall x, runs_to (ptr z e (dec_struct fs)) vs None x -> exists y, merged S vs y /\ bound y x).
    { clear M x. induction vs as [|v vs IH] using rev_ind; intros x; [intros [= <-]; exists None; split; [constructor|exact I]|].
      rewrite dfold_snoc. intros (c & C & D). destruct (IH c C) as (y & M & T). destruct v as [ |b|lit|s|l|m]; cbn in D; try discriminate.
      - injection D as <-. exists None. split; [econstructor; exact M|exact I].
      - assert (Dc : match c with Some x => x | None => z end = default z c) by now destruct c. rewrite Dc in D. destruct (dec_members fs m (default z c)) as [a| |] eqn:F; try discriminate. injection D as <-.
        assert (G : S (default [] y ++ m)%list a) by (apply HS; now rewrite dec_members_app, (bound_start _ _ T)).
        exists (Some (default [] y ++ m)%list). split; [econstructor; eauto|exact G]. }
    split.
    - intros E. destruct (N _ E) as (y & Y & T). destruct y as [m|], x as [a|]; cbn in T; try tauto; [now apply (PtrTo _ _ m)|now constructor].
    - intros [Y|m a Y Ha]; destruct (M _ Y) as (x' & E & T); rewrite E; destruct x' as [a'|]; cbn in T; try tauto; try reflexivity.
      apply HS in T, Ha. congruence.
  Qed.
End Struct.
Lemma dict_iff {A} (z : A) e d (P : json -> A -> Prop) : (forall v x, v <> JNull -> d v = DOk x <-> P v x) -> (forall x, ~ P JNull x) ->
  forall vs x, runs_to (map_ z e d) vs ∅ x <-> dict P z vs x.
Proof.
  intros H N. set (V := fun v x => (v = JNull /\ x = z) \/ P v x).
  assert (HV : forall v x, match v with JNull => DOk z | _ => d v end = DOk x <-> V v x).
  { intros v x. unfold V. destruct (json_eq_null v) as [->|Nv].
    - split; [intros [= <-]; now left|]. intros [[_ ->]|B]; [reflexivity|destruct (N _ B)].
    - rewrite not_null_match, H by assumption. tauto. }
  set (f := fun (_ : A) v => match match v with JNull => DOk z | _ => d v end with DOk x => Some x | _ => None end).
  assert (HF : forall v x, f z v = Some x <-> V v x).
  { intros v x. rewrite <- HV. unfold f. destruct (match v with JNull => DOk z | _ => d v end); split; congruence. }
  assert (Hm : forall ms m y, dec_map z d ms m = DOk y <-> WebAuthn.rd_entries z f ms m = Some y).
  { induction ms as [|[k v] ms IH]; intros m y; cbn [dec_map WebAuthn.rd_entries].
    - split; congruence.
    - unfold f at 1. destruct (match v with JNull => DOk z | _ => d v end); cbn [dbind]; [apply IH|split; discriminate|split; discriminate]. }
  intros vs x. unfold dict. fold V. revert x. induction vs as [|v vs IH] using rev_ind; intros x.
  - split; [intros [= <-]; exists None; split; [constructor|reflexivity]|]. intros (y & Y & ->). inversion Y; subst; [reflexivity|now destruct vs|now destruct vs].
  - rewrite dfold_snoc. split.
    + intros (c & C & D). apply IH in C as (y & Y & ->). destruct v as [ |b|lit|s|l|ms]; cbn in D; try discriminate.
      * injection D as <-. exists None. split; [econstructor; exact Y|reflexivity].
      * exists (Some x). split; [|reflexivity]. apply Hm in D. apply (entries_iff z f V HF) in D as [F G]. econstructor; eauto.
    + intros (y & Y & ->). inversion Y as [E|vs' w W E|vs' w ms y' W F G E]; subst.
      * now destruct vs.
      * apply app_inj_tail in E as [-> <-]. exists (default ∅ w). split; [apply IH; eauto|reflexivity].
      * apply app_inj_tail in E as [-> <-]. exists (default ∅ w). split; [apply IH; eauto|]. cbn. apply Hm, (entries_iff z f V HF). now split.
Qed.

(** ** The types *)
Ltac law n :=
  constructor;
  [vm_compute; reflexivity
  |repeat (first [apply List.Forall_nil|apply List.Forall_cons; [intros x r; cbn; first [reflexivity|now destruct x]|]])
  |repeat (first [apply FOP_nil|apply FOP_cons; [repeat (first [apply List.Forall_nil|apply List.Forall_cons; [split; intros v r; reflexivity|]])|]])
  |repeat (first [apply List.Forall_nil|apply List.Forall_cons; [intros x r; reflexivity|]])
  |].
Ltac unforall F := repeat match type of F with Forall _ (_ :: _) => let G := fresh "G" in apply Forall_cons_iff in F as [G F]; cbn in G; subst end.
Ltac ext := intros r r' F E; destruct r, r'; unfold name_f, org_f, loc_f, email_f, password_f, pubkey_f, apikey_f, device_f, mfa_f, lockout_f, imgcfg_f, image_f, role_f, ppol_f, upol_f, policy_f, content_f in F;
  unforall F; cbn in E; congruence.
Definition none {R} (r : R) : unit := tt.
Lemma law_name : lawful name_f none. Proof. law tt. ext. Qed.
Lemma law_org : lawful org_f none. Proof. law tt. ext. Qed.
Lemma law_loc : lawful loc_f none. Proof. law tt. ext. Qed.
Lemma law_email : lawful email_f none. Proof. law tt. ext. Qed.
Lemma law_password : lawful password_f none. Proof. law tt. ext. Qed.
Lemma law_pubkey : lawful pubkey_f none. Proof. law tt. ext. Qed.
Lemma law_apikey : lawful apikey_f none. Proof. law tt. ext. Qed.
Lemma law_device : lawful device_f none. Proof. law tt. ext. Qed.
Lemma law_mfa : lawful mfa_f t_cache. Proof. law tt. ext. Qed.
Lemma law_lockout : lawful lockout_f none. Proof. law tt. ext. Qed.
Lemma law_imgcfg : lawful imgcfg_f none. Proof. law tt. ext. Qed.
Lemma law_image : lawful image_f none. Proof. law tt. ext. Qed.
Lemma law_role : lawful role_f none. Proof. law tt. ext. Qed.
Lemma law_ppol : lawful ppol_f none. Proof. law tt. ext. Qed.
Lemma law_upol : lawful upol_f none. Proof. law tt. ext. Qed.
Lemma law_policy : lawful policy_f none. Proof. law tt. ext. Qed.
Lemma law_content : lawful content_f none. Proof. law tt. ext. Qed.
Definition apart (r : RawUser) := (u_emails (raw_user r), u_passwords (raw_user r), u_apikeys (raw_user r)).
Lemma law_user : lawful user_f apart.
Proof. law tt. intros [[] ? ? ?] [[] ? ? ?] F E. unfold user_f in F. unforall F. unfold apart in E. cbn in E. injection E as -> -> ->. reflexivity. Qed.

Lemma aliases_iff vs x : runs_to (list_at (DOk "") JStr dec_str) vs [] x <-> array_of a_text_or_null vs x.
Proof.
  apply slice_iff. intros v a. unfold a_text_or_null, a_text. destruct v; cbn; (split; [try discriminate; intros [= <-]; auto|intros [[H ->]|H]; congruence]).
Qed.
Lemma null_iff vs x : runs_to (scalar tt (fun _ => Some JNull) (fun _ => DErr)) vs tt x <-> Forall (eq JNull) vs.
Proof.
  destruct x. induction vs as [|v vs IH]; [split; [constructor|reflexivity]|]. rewrite Forall_cons_iff. cbn [dfold].
  destruct (json_eq_null v) as [->|N]; [cbn; rewrite IH; tauto|]. rewrite dec_val_some by assumption. cbn. split; [discriminate|]. intros [H _]. congruence.
Qed.
Lemma texts_dict e vs x : runs_to (map_ "" e dec_str) vs ∅ x <-> dict a_text "" vs x.
Proof. apply dict_iff; [|discriminate]. intros v y _. unfold a_text. destruct v; cbn; split; try discriminate; congruence. Qed.
Lemma flags_dict e vs x : runs_to (map_ false e dec_bool) vs ∅ x <-> dict a_flag false vs x.
Proof. apply dict_iff; [|discriminate]. intros v y _. unfold a_flag. destruct v; cbn; split; try discriminate; congruence. Qed.
Lemma uint64_iff vs x : runs_to (uint (2 ^ 64)) vs 0%N x <-> uint64 vs x.
Proof. change (2 ^ 64)%N with (Z.to_N (2 ^ 64)). now apply uint_iff. Qed.
Lemma uint32_iff vs x : runs_to (uint (2 ^ 32)) vs 0%N x <-> uint32 vs x.
Proof. change (2 ^ 32)%N with (Z.to_N (2 ^ 32)). now apply uint_iff. Qed.

Lemma flag1_iff vs x : runs_to Persist.flag vs false x <-> flag vs x. Proof. apply bool_iff. Qed.
Lemma flag2_iff vs x : runs_to flag_all vs false x <-> flag vs x. Proof. apply bool_iff. Qed.
Lemma int1_iff vs x : runs_to int_ vs 0%Z x <-> int vs x. Proof. apply int_iff. Qed.
Lemma int2_iff vs x : runs_to int_all vs 0%Z x <-> int vs x. Proof. apply int_iff. Qed.
#[local] Opaque vals dfold.
Create HintDb meaning.
Ltac one_field := first
  [apply str_iff; assumption|apply flag1_iff; assumption|apply flag2_iff; assumption|apply int1_iff; assumption|apply int2_iff; assumption|apply time_iff; assumption|apply uint64_iff; assumption|apply uint32_iff; assumption
  |eapply aliases_iff; eassumption|eapply texts_dict; eassumption|eapply flags_dict; eassumption|eapply (null_iff _ tt); eassumption
  |eapply list_iff; [solve [eauto with meaning]|eassumption]|eapply opt_list_iff; [solve [eauto with meaning]|eassumption]
  |eapply pointer_iff; [solve [eauto with meaning]|eassumption]|eapply embedded_iff; [solve [eauto with meaning]|eassumption]].
Ltac conj := repeat match goal with |- _ /\ _ => split end.
Ltac unconj H := repeat match type of H with _ /\ _ => let G := fresh "G" in destruct H as [G H] end.
Ltac unforall' F := repeat match type of F with Forall _ (_ :: _) => let G := fresh "G" in apply Forall_cons_iff in F as [G F]; cbn [f_codec f_name f_get] in G end.
Ltac by_fields l fs s := rewrite (dec_members_iff _ _ l); unfold s, fs; split;
  [let F := fresh "F" in intros [F ?]; unforall' F; conj; try one_field
  |let H := fresh "H" in intros H; unconj H; split; [repeat (first [apply List.Forall_nil|apply List.Forall_cons; [cbn [f_codec f_name f_get]; one_field|]])|try reflexivity]].
Lemma m_name m a : dec_members name_f m name_z = DOk a <-> s_name m a. Proof. by_fields law_name name_f s_name. Qed.
Lemma m_org m a : dec_members org_f m org_z = DOk a <-> s_org m a. Proof. by_fields law_org org_f s_org. Qed.
Lemma m_loc m a : dec_members loc_f m loc_z = DOk a <-> s_loc m a. Proof. by_fields law_loc loc_f s_loc. Qed.
Lemma m_email m a : dec_members email_f m email_z = DOk a <-> s_email m a. Proof. by_fields law_email email_f s_email. Qed.
Lemma m_password m a : dec_members password_f m password_z = DOk a <-> s_password m a. Proof. by_fields law_password password_f s_password. Qed.
Lemma m_pubkey m a : dec_members pubkey_f m pubkey_z = DOk a <-> s_pubkey m a. Proof. by_fields law_pubkey pubkey_f s_pubkey. Qed.
Lemma m_apikey m a : dec_members apikey_f m apikey_z = DOk a <-> s_apikey m a. Proof. by_fields law_apikey apikey_f s_apikey. Qed.
Lemma m_device m a : dec_members device_f m device_z = DOk a <-> s_device m a. Proof. by_fields law_device device_f s_device. Qed.
Lemma m_lockout m a : dec_members lockout_f m lockout_z = DOk a <-> s_lockout m a. Proof. by_fields law_lockout lockout_f s_lockout. Qed.
Lemma m_imgcfg m a : dec_members imgcfg_f m imgcfg_z = DOk a <-> s_imgcfg m a. Proof. by_fields law_imgcfg imgcfg_f s_imgcfg. Qed.
Lemma m_role m a : dec_members role_f m role_z = DOk a <-> s_role m a. Proof. by_fields law_role role_f s_role. Qed.
Lemma m_ppol m a : dec_members ppol_f m ppol_z = DOk a <-> s_ppol m a. Proof. by_fields law_ppol ppol_f s_ppol. Qed.
Lemma m_upol m a : dec_members upol_f m upol_z = DOk a <-> s_upol m a. Proof. by_fields law_upol upol_f s_upol. Qed.
#[export] Hint Resolve m_name m_org m_loc m_email m_password m_pubkey m_apikey m_device m_lockout m_imgcfg m_role m_ppol m_upol : meaning.
Lemma m_mfa m a : dec_members mfa_f m mfa_z = DOk a <-> s_mfa m a. Proof. by_fields law_mfa mfa_f s_mfa; assumption. Qed.
Lemma m_image m a : dec_members image_f m image_z = DOk a <-> s_image m a. Proof. by_fields law_image image_f s_image. Qed.
Lemma m_policy m a : dec_members policy_f m policy_z = DOk a <-> s_policy m a. Proof. by_fields law_policy policy_f s_policy. Qed.
#[export] Hint Resolve m_mfa m_image m_policy : meaning.
Lemma m_user m a : dec_members user_f m raw_z = DOk a <-> s_user m a.
Proof. by_fields law_user user_f s_user; unfold apart in *; cbn in *; congruence. Qed.
#[export] Hint Resolve m_user : meaning.
Lemma m_content m a : dec_members content_f m content_z = DOk a <-> s_content m a. Proof. by_fields law_content content_f s_content. Qed.
Lemma unmarshal_iff s c : unmarshal s = DOk c <-> database_text s c.
Proof.
  unfold unmarshal, database_text, message_text. destruct (parse (los s)) as [[ |b|lit|t|l|m]|] eqn:P;
    try (split; [discriminate|intros (m' & [H|[H _]] & _); discriminate]).
  - split.
    + intros [= <-]. exists []. split; [now right|]. now apply m_content.
    + intros (m & [H|[_ ->]] & H'); [discriminate|]. apply m_content in H'. exact H'.
  - cbn [dec_struct]. rewrite m_content. split; [intros H; exists m; split; [now left|exact H]|]. intros (m' & [[= ->]|[H _]] & H'); [exact H'|discriminate].
Qed.
