(** Decoding what was encoded: every codec, every struct, the whole database. *)
From Coq Require Import String Ascii ZArith NArith Lia Bool Arith List.
From Coq Require Import ZifyBool ZifyNat ZifyN.
From stdpp Require Import gmap strings sorting.
From RecordUpdate Require Import RecordSet.
From Verif Require Import GoStr Utf8 Codec Json JsonFacts GoTime GoErr Role Name Email Types Persist SpecPersist.
Import ListNotations.
Import RecordSetNotations.
Open Scope string_scope.

(** What decoding the encoding of [v] gives. *)
Definition codes {T} (c : codec T) (v w : T) : Prop :=
  match enc c v with
  | None => w = zero c
  | Some j => dec_val c (zero c) (san j) = DOk w
  end.
Definition reads_as {A} (e : A -> json) (d : json -> dres A) (a b : A) : Prop := e a <> JNull /\ d (san (e a)) = DOk b.
Lemma san_null j : san j = JNull -> j = JNull.
Proof. destruct j; cbn; congruence. Qed.

Lemma json_eq_null (j : json) : j = JNull \/ j <> JNull.
Proof. destruct j; auto; right; discriminate. Qed.
Lemma codes_some {T} (c : codec T) v w j : enc c v = Some j -> j <> JNull -> dec c (zero c) (san j) = DOk w -> codes c v w.
Proof. intros H1 H2 H3. unfold codes. rewrite H1. destruct j; auto. contradiction. Qed.
Lemma codes_str s : codes str s (sanitize s).
Proof. unfold codes, str. cbn. destruct (String.eqb_spec s "") as [->|H]; reflexivity. Qed.
Lemma codes_flag b : codes flag b b.
Proof. destruct b; reflexivity. Qed.
Lemma codes_flag_all b : codes flag_all b b.
Proof. reflexivity. Qed.

Lemma digits_val_dec n : digits_val (dec_l n) = Some n.
Proof.
  unfold digits_val. destruct (dec_l n) as [|a t] eqn:E; [now apply dec_l_ne in E|].
  rewrite <- E. replace (forallb is_digit (dec_l n)) with true.
  - now rewrite dec_l_val.
  - symmetry. apply forallb_forall. intros x Hx. pose proof (dec_l_digits n) as H. rewrite List.Forall_forall in H. auto.
Qed.
Lemma parse_int_print z : parse_int (sprint_d z) = Some z.
Proof.
  assert (Hpos : forall n, parse_int (sol (dec_l n)) = Some (Z.of_N n)).
  { intros n. unfold parse_int. rewrite los_sol. destruct (dec_l_first n) as (a & t & E & Hd). rewrite E, digit_not_minus by assumption.
    rewrite <- E, digits_val_dec. reflexivity. }
  destruct z as [|p|p]; unfold sprint_d; [rewrite Hpos; reflexivity|rewrite Hpos; cbn; reflexivity|].
  unfold parse_int. rewrite los_sol. change (Ascii.eqb "-" "-") with true. cbv iota. rewrite digits_val_dec. reflexivity.
Qed.
Lemma in_int64_iff z : in_int64 z = true <-> is_int64 z.
Proof. unfold in_int64, is_int64. rewrite andb_true_iff, Z.leb_le, Z.ltb_lt. reflexivity. Qed.
Lemma dec_int_print z : is_int64 z -> dec_int (JNum (sprint_d z)) = DOk z.
Proof. intros H. unfold dec_int. rewrite parse_int_print. apply in_int64_iff in H. now rewrite H. Qed.
Lemma codes_int z : is_int64 z -> codes int_ z z.
Proof. intros H. unfold codes, int_. cbn [scalar enc dec zero]. destruct (Z.eqb_spec z 0) as [->|N]; [reflexivity|]. now apply dec_int_print. Qed.
Lemma codes_int_all z : is_int64 z -> codes int_all z z.
Proof. intros H. unfold codes, int_all. cbn [scalar enc dec zero]. now apply dec_int_print. Qed.
Lemma codes_uint b n : (n < b)%N -> codes (uint b) n n.
Proof.
  intros H. unfold codes, uint. cbn [scalar enc dec zero]. destruct (N.eqb_spec n 0) as [->|N]; [reflexivity|].
  cbn [san dec_val scalar dec dec_uint]. rewrite los_sol, digits_val_dec. apply N.ltb_lt in H. now rewrite H.
Qed.

(** times are printed in ASCII *)
Lemma ascii_digits l : Forall (fun a => is_digit a = true) l -> ascii_only l = true.
Proof.
  intros H. unfold ascii_only. apply forallb_forall. intros x Hx. rewrite List.Forall_forall in H. apply H in Hx.
  unfold is_digit in Hx. unfold is_ascii7. lia.
Qed.
Lemma ascii_only_app a b : ascii_only (a ++ b)%list = ascii_only a && ascii_only b.
Proof. apply forallb_app. Qed.
Lemma ascii_only_cons a b : ascii_only (a :: b)%list = is_ascii7 a && ascii_only b.
Proof. reflexivity. Qed.
Lemma ascii_only_pad w n : ascii_only (pad w n) = true.
Proof.
  unfold pad, sprint_0d. rewrite los_sol, ascii_only_app, (ascii_digits (dec_l _)) by apply dec_l_digits. rewrite andb_true_r.
  apply ascii_digits. apply List.Forall_forall. intros x Hx. apply repeat_spec in Hx. now subst.
Qed.
Lemma ascii_only_in l : (forall x, In x l -> is_ascii7 x = true) -> ascii_only l = true.
Proof. intros H. now apply forallb_forall. Qed.
Lemma drop_zeros_in l x : In x (drop_zeros l) -> In x l.
Proof. induction l as [|a l IH]; cbn; [auto|]. destruct (Ascii.eqb a "0"); [right; auto|auto]. Qed.
Lemma ascii_only_frac n : ascii_only (frac n) = true.
Proof.
  unfold frac. destruct (_ =? 0)%Z; [reflexivity|]. rewrite ascii_only_cons. apply andb_true_intro. split; [reflexivity|].
  apply ascii_only_in. intros x Hx. apply in_rev in Hx. apply drop_zeros_in in Hx. apply in_rev in Hx.
  pose proof (ascii_only_pad 9 n) as H. unfold ascii_only in H. rewrite forallb_forall in H. auto.
Qed.
Lemma ascii_only_time t : ascii_only (time_print t) = true.
Proof.
  unfold time_print. destruct (civil _) as [[y m] d].
  repeat (rewrite ascii_only_app || rewrite ascii_only_cons || rewrite ascii_only_pad || rewrite ascii_only_frac). reflexivity.
Qed.
Lemma ascii_sanitize l : ascii_only l = true -> sanitize (sol l) = sol l.
Proof. intros H. apply sanitize_valid. unfold valid_utf8. rewrite los_sol. now apply ascii_valid. Qed.
Lemma codes_time t : time_ok t = true -> codes time_ t t.
Proof.
  intros H. unfold codes, time_. cbn [scalar enc dec zero san dec_val]. rewrite ascii_sanitize by apply ascii_only_time.
  rewrite los_sol, time_roundtrip by assumption. reflexivity.
Qed.

(** ** Lists, pointers, nested structs *)
Lemma dlist_map {A B} (f : json -> dres B) (e : A -> json) (g : A -> B) l :
  (forall a, In a l -> f (san (e a)) = DOk (g a)) -> dlist f (map san (map e l)) = DOk (map g l).
Proof.
  induction l as [|a l IH]; intros H; [reflexivity|]. cbn [map dlist]. rewrite H by now left. cbn [dbind].
  rewrite IH by (intros; apply H; now right). reflexivity.
Qed.
Lemma into_empty_ok {A} (cur : list A) d x : into_empty cur d = DOk x -> d = DOk x.
Proof. destruct cur; [auto|discriminate]. Qed.
Lemma not_null_match {B} (j : json) (x : dres B) y : j <> JNull -> match j with JNull => x | _ => y end = y.
Proof. destruct j; congruence. Qed.
Lemma codes_list {A} n (e : A -> json) d (g : A -> A) l : (forall a, In a l -> reads_as e d a (g a)) -> codes (list_at n e d) l (map g l).
Proof.
  intros H. destruct l as [|a l]; [reflexivity|].
  apply (codes_some _ _ _ (JArr (map e (a :: l)))); [reflexivity|discriminate|].
  cbn [list_at dec zero san into_empty]. apply dlist_map. intros x Hx. apply H in Hx as [H1 H2].
  rewrite <- H2. apply not_null_match. intros E. now apply san_null in E.
Qed.
Lemma codes_opt_list2 {A B} (e : B -> json) d (h g : A -> B) l : (forall a, In a l -> reads_as e d (h a) (g a)) ->
  codes (opt_list e d) (map (fun a => Some (h a)) l) (map (fun a => Some (g a)) l).
Proof.
  intros H. destruct l as [|a l]; [reflexivity|].
  apply (codes_some _ _ _ (JArr (map (fun a => e (h a)) (a :: l)))); [|discriminate|].
  - cbn [opt_list enc map]. f_equal. f_equal. f_equal. rewrite map_map. reflexivity.
  - cbn [opt_list dec zero san into_empty].
    apply dlist_map with (g := fun x => Some (g x)). intros x Hx. apply H in Hx as [H1 H2].
    rewrite not_null_match by (intros E; now apply san_null in E). now rewrite H2.
Qed.
Lemma codes_opt_list {A} (e : A -> json) d (g : A -> A) l : (forall a, In a l -> reads_as e d a (g a)) ->
  codes (opt_list e d) (map Some l) (map Some (map g l)).
Proof. intros H. rewrite map_map. now apply codes_opt_list2 with (h := id). Qed.
Lemma codes_ptr {A} z (e : A -> json) d (g : A -> A) x : opt_P (fun a => reads_as e (d z) a (g a)) x -> codes (ptr z e d) x (option_map g x).
Proof.
  destruct x as [a|]; [|reflexivity]. intros [H1 H2]. apply (codes_some _ _ _ (e a)); [reflexivity|assumption|].
  cbn [ptr dec zero option_map]. now rewrite H2.
Qed.
Lemma codes_struct {A} (z : A) e d a b : reads_as e (d z) a b -> codes (struct_ z e d) a b.
Proof. intros [H1 H2]. now apply (codes_some _ _ _ (e a)). Qed.
Lemma reads_str s : reads_as JStr dec_str s (sanitize s).
Proof. split; [discriminate|reflexivity]. Qed.
Lemma reads_bool b : reads_as JBool dec_bool b b.
Proof. split; [discriminate|reflexivity]. Qed.

(** ** Maps *)
Lemma dec_map_nodup {V W} z (e : V -> json) (d : json -> dres W) (g : V -> W) l (m : gmap string W) :
  NoDup (map fst l) -> (forall kv, In kv l -> valid_utf8 (fst kv) = true) -> (forall kv, In kv l -> e (snd kv) <> JNull /\ d (san (e (snd kv))) = DOk (g (snd kv))) ->
  (forall kv, In kv l -> m !! fst kv = None) ->
  dec_map z d (map (fun kv => (sanitize (fst kv), san (snd kv))) (map (fun kv => (fst kv, e (snd kv))) l)) m =
  DOk (list_to_map (map (fun kv => (fst kv, g (snd kv))) l) ∪ m).
Proof.
  revert m. induction l as [|[k v] l IH]; intros m Hnd Hv Hd Hm; cbn [map].
  - cbn. now rewrite map_empty_union.
  - cbn [fst snd dec_map]. inversion_clear Hnd as [|? ? Hk Hnd'].
    rewrite (sanitize_valid k) by (apply (Hv (k, v)); now left).
    destruct (Hd (k, v) (or_introl eq_refl)) as [H1 H2]. cbn [snd] in *.
    rewrite not_null_match by (intros E; now apply san_null in E). rewrite H2. cbn [dbind].
    rewrite IH.
    + cbn [list_to_map fold_right fst snd]. f_equal. cbn.
      rewrite <- insert_union_l. rewrite <- insert_union_r; [reflexivity|].
      apply not_elem_of_list_to_map_1. rewrite map_map. cbn [fst]. exact Hk.
    + exact Hnd'.
    + intros kv Hkv. apply Hv. now right.
    + intros kv Hkv. apply Hd. now right.
    + intros kv Hkv. rewrite lookup_insert_ne; [apply Hm; now right|].
      intros ->. apply Hk. apply elem_of_list_In, in_map_iff. exists kv. auto.
Qed.
Lemma codes_map {V} z (e : V -> json) d (g : V -> V) (m : gmap string V) :
  (forall k, is_Some (m !! k) -> valid_utf8 k = true) -> (forall v, reads_as e d v (g v)) -> codes (map_ z e d) m (g <$> m).
Proof.
  intros Hk Hr.
  assert (HP : sorted_keys m ≡ₚ map_to_list m) by apply merge_sort_Permutation.
  assert (Hin : forall kv, In kv (sorted_keys m) -> m !! kv.1 = Some kv.2).
  { intros [k v] H. apply elem_of_list_In in H. rewrite HP in H. now apply elem_of_map_to_list in H. }
  assert (Hnd : NoDup (map fst (sorted_keys m))).
  { change (NoDup (sorted_keys m).*1). rewrite HP. apply NoDup_fst_map_to_list. }
  assert (Hfin : list_to_map (map (fun kv => (kv.1, g kv.2)) (sorted_keys m)) = g <$> m).
  { rewrite <- (list_to_map_to_list (M := gmap string) m) at 2. rewrite <- list_to_map_fmap.
    apply list_to_map_proper.
    - change (NoDup (map fst (map (fun kv => (kv.1, g kv.2)) (sorted_keys m)))). rewrite map_map. exact Hnd.
    - change (prod_map id g <$> map_to_list m) with (map (prod_map id g) (map_to_list m)).
      rewrite <- HP. rewrite (map_ext _ (prod_map id g)) by (intros [??]; reflexivity). reflexivity. }
  destruct (sorted_keys m) as [|kv l] eqn:El.
  - unfold codes, map_. cbn [enc zero]. rewrite El. cbn in Hfin. now rewrite <- Hfin.
  - apply (codes_some _ _ _ (JObj (map (fun kv => (kv.1, e kv.2)) (kv :: l)))); [unfold map_; cbn [enc]; now rewrite El|discriminate|].
    cbn [map_ dec zero san].
    rewrite (dec_map_nodup z e d g (kv :: l) ∅).
    + now rewrite Hfin, map_union_empty.
    + exact Hnd.
    + intros kv' H. apply Hk. apply Hin in H. eauto.
    + intros kv' H. apply Hr.
    + intros. apply lookup_empty.
Qed.

(** ** Structs *)
Definition member (kv : string * json) : string * json := (sanitize (fst kv), san (snd kv)).
Definition enc_field {R} (r : R) (f : field R) : list (string * json) :=
  match enc (f_codec f) (f_get f r) with Some j => [(f_name f, j)] | None => [] end.
Definition put {R} (w : R) (acc : R) (f : field R) : R := f_set f (f_get f w) acc.
Definition indep {R} (f g : field R) : Prop := forall v r, f_get g (f_set f v r) = f_get g r.
Definition set_get {R} (f : field R) : Prop := forall r, f_set f (f_get f r) r = r.
(** member names are distinct even when case is ignored, and in ASCII *)
Fixpoint distinct (l : list string) : bool :=
  match l with [] => true | a :: l => negb (existsb (String.eqb a) l) && distinct l end.
Definition names_good (l : list string) : bool := distinct (map fold_key l) && forallb (fun s => ascii_only (los s)) l.
Record layout {R} (fs : list (field R)) (z : R) : Prop := {
  ly_names : names_good (map f_name fs) = true;
  ly_zero : Forall (fun f => f_get f z = zero (f_codec f)) fs;
  ly_indep : ForallOrdPairs indep fs;
  ly_set : Forall set_get fs }.

Lemma distinct_NoDup l : distinct l = true -> NoDup l.
Proof.
  induction l as [|a l IH]; [constructor|]. cbn. intros H. apply andb_prop in H as [H1 H2]. constructor; [|auto].
  intros Hin. apply elem_of_list_In in Hin. apply negb_true_iff in H1.
  assert (existsb (String.eqb a) l = true); [|congruence]. apply existsb_exists. exists a. split; [assumption|apply String.eqb_refl].
Qed.
Lemma find_field_in {R} (fs : list (field R)) f : names_good (map f_name fs) = true -> In f fs -> find_field fs (sanitize (f_name f)) = Some f.
Proof.
  intros Hn Hin. unfold names_good in Hn. apply andb_prop in Hn as [Hd Ha].
  rewrite sanitize_valid.
  2:{ unfold valid_utf8. apply ascii_valid. rewrite forallb_forall in Ha. apply Ha. now apply in_map. }
  clear Ha. apply distinct_NoDup in Hd. unfold find_field. rewrite map_map in Hd.
  induction fs as [|g fs IH]; [destruct Hin|]. cbn [find]. inversion_clear Hd as [|? ? Hg Hd'].
  destruct Hin as [->|Hin]; [now rewrite String.eqb_refl|].
  destruct (String.eqb_spec (fold_key (f_name g)) (fold_key (f_name f))) as [E|_]; [|now apply IH].
  exfalso. apply Hg. rewrite E. apply elem_of_list_In. now apply (in_map (fun f => fold_key (f_name f))).
Qed.
Lemma names_nodup l : names_good l = true -> NoDup l.
Proof.
  intros H. apply andb_prop in H as [H _]. apply distinct_NoDup in H.
  induction l as [|a l IH]; [constructor|]. inversion_clear H as [|? ? H1 H2]. constructor; [|auto].
  intros Hin. apply H1. apply elem_of_list_In. apply in_map. now apply elem_of_list_In.
Qed.
Lemma dec_members_enc {R} (fs : list (field R)) (Hf : forall f, In f fs -> find_field fs (sanitize (f_name f)) = Some f) r w :
  forall fs' cur, (forall f, In f fs' -> In f fs) ->
  Forall (fun f => codes (f_codec f) (f_get f r) (f_get f w)) fs' ->
  Forall (fun f => f_get f cur = zero (f_codec f)) fs' -> ForallOrdPairs indep fs' -> Forall set_get fs' ->
  dec_members fs (map member (flat_map (enc_field r) fs')) cur = DOk (fold_left (put w) fs' cur).
Proof.
  induction fs' as [|f fs' IH]; intros cur Hsub Hc Hz Hi Hs; [reflexivity|].
  cbn [flat_map fold_left]. inversion_clear Hc as [|? ? Cf Hc']. inversion_clear Hz as [|? ? Zf Hz'].
  inversion_clear Hi as [|? ? If Hi']. inversion_clear Hs as [|? ? Sf Hs'].
  assert (Hput : Forall (fun g => f_get g (f_set f (f_get f w) cur) = zero (f_codec g)) fs').
  { apply List.Forall_forall. intros g Hg. rewrite List.Forall_forall in If, Hz'. rewrite (If g Hg). auto. }
  assert (Hskip : f_get f w = zero (f_codec f) -> put w cur f = cur).
  { intros E. unfold put. rewrite E, <- Zf. apply Sf. }
  unfold enc_field at 1. unfold codes in Cf. destruct (enc (f_codec f) (f_get f r)) as [j|] eqn:Ej.
  - cbn [app map]. unfold member at 1. cbn [fst snd dec_members]. rewrite Hf by (apply Hsub; now left).
    rewrite Zf, Cf. cbn [dbind]. apply IH; auto. intros; apply Hsub; now right.
  - cbn [app]. rewrite Hskip by assumption. apply IH; auto.
    intros; apply Hsub; now right.
Qed.
Lemma struct_reads {R} (fs : list (field R)) z r w : layout fs z ->
  Forall (fun f => codes (f_codec f) (f_get f r) (f_get f w)) fs -> fold_left (put w) fs z = w ->
  reads_as (enc_struct fs) (dec_struct fs z) r w.
Proof.
  intros L Hc Hw. split; [discriminate|]. unfold enc_struct. cbn [san dec_struct].
  change (map (fun kv => (sanitize (fst kv), san (snd kv)))) with (map member).
  change (flat_map _ fs) with (flat_map (enc_field r) fs).
  rewrite (dec_members_enc fs) with (w := w).
  - now rewrite Hw.
  - intros f Hf. apply find_field_in; [apply (ly_names _ _ L)|assumption].
  - auto.
  - assumption.
  - apply (ly_zero _ _ L).
  - apply (ly_indep _ _ L).
  - apply (ly_set _ _ L).
Qed.

(** numbers are written as literals *)
Definition enc_lits {T} (c : codec T) : Prop := forall v j, enc c v = Some j -> lits j.
Lemma lits_struct {R} (fs : list (field R)) : Forall (fun f => enc_lits (f_codec f)) fs -> forall r, lits (enc_struct fs r).
Proof.
  intros H r. unfold enc_struct. apply lits_obj. apply List.Forall_forall. intros kv Hkv.
  apply in_flat_map in Hkv as (f & Hf & Hkv). rewrite List.Forall_forall in H. specialize (H f Hf).
  destruct (enc (f_codec f) (f_get f r)) as [j|] eqn:E; [|destruct Hkv]. destruct Hkv as [<-|[]]. now apply H in E.
Qed.
Lemma lits_codec_str : enc_lits str.
Proof. intros s j. cbn. destruct (String.eqb s ""); [discriminate|]. now intros [=<-]. Qed.
Lemma lits_codec_flag : enc_lits flag.
Proof. intros [] j; cbn; [|discriminate]. now intros [=<-]. Qed.
Lemma lits_codec_flag_all : enc_lits flag_all.
Proof. intros b j; cbn. now intros [=<-]. Qed.
Lemma lits_codec_int : enc_lits int_.
Proof. intros z j; cbn. destruct (_ =? 0)%Z; [discriminate|]. intros [=<-]. apply lit_int. Qed.
Lemma lits_codec_int_all : enc_lits int_all.
Proof. intros z j; cbn. intros [=<-]. apply lit_int. Qed.
Lemma lits_codec_uint b : enc_lits (uint b).
Proof. intros z j; cbn. destruct (_ =? 0)%N; [discriminate|]. intros [=<-]. apply lit_dec. Qed.
Lemma lits_codec_time : enc_lits time_.
Proof. intros z j; cbn. now intros [=<-]. Qed.
Lemma lits_map_arr {A} (e : A -> json) l : (forall a, lits (e a)) -> lits (JArr (map e l)).
Proof. intros H. apply lits_arr. apply List.Forall_forall. intros x Hx. apply in_map_iff in Hx as (a & <- & _). apply H. Qed.
Lemma lits_codec_list {A} n (e : A -> json) d : (forall a, lits (e a)) -> enc_lits (list_at n e d).
Proof. intros H l j. cbn [list_at enc]. destruct l as [|a l]; [discriminate|]. intros [=<-]. exact (lits_map_arr e (a :: l) H). Qed.
Lemma lits_codec_opt_list {A} (e : A -> json) d : (forall a, lits (e a)) -> enc_lits (opt_list e d).
Proof.
  intros H l j. cbn [opt_list enc]. destruct l as [|a l]; [discriminate|]. intros [=<-].
  apply (lits_map_arr (fun x => match x with Some x => e x | None => JNull end) (a :: l)). intros [x|]; [apply H|exact I].
Qed.
Lemma lits_codec_ptr {A} z (e : A -> json) d : (forall a, lits (e a)) -> enc_lits (ptr z e d).
Proof. intros H [a|] j; cbn; [|discriminate]. intros [=<-]. apply H. Qed.
Lemma lits_codec_struct {A} (z : A) e d : (forall a, lits (e a)) -> enc_lits (struct_ z e d).
Proof. intros H a j. cbn. intros [=<-]. apply H. Qed.
Lemma lits_codec_map {V} z (e : V -> json) d : (forall a, lits (e a)) -> enc_lits (map_ z e d).
Proof.
  intros H m j. cbn [map_ enc]. destruct (sorted_keys m) as [|kv l]; [discriminate|]. intros [=<-].
  apply (proj2 (lits_obj (map (fun kv => (kv.1, e kv.2)) (kv :: l)))). apply List.Forall_forall. intros x Hx. apply in_map_iff in Hx as (a & <- & _). apply H.
Qed.
Lemma lits_codec_null (c : codec unit) : (forall v, enc c v = Some JNull) -> enc_lits c.
Proof. intros H v j E. rewrite H in E. now injection E as <-. Qed.

(** ** The persisted types *)
Ltac lay :=
  constructor;
  [vm_compute; reflexivity
  |repeat (first [apply List.Forall_nil|apply List.Forall_cons; [reflexivity|]])
  |repeat (first [apply FOP_nil|apply FOP_cons; [repeat (first [apply List.Forall_nil|apply List.Forall_cons; [intros v r; reflexivity|]])|]])
  |repeat (first [apply List.Forall_nil|apply List.Forall_cons; [intros r; destruct r; reflexivity|]])].
Ltac litf := first [apply lits_codec_str|apply lits_codec_flag|apply lits_codec_flag_all|apply lits_codec_int|apply lits_codec_int_all
  |apply lits_codec_uint|apply lits_codec_time|apply lits_codec_null; reflexivity
  |apply lits_codec_opt_list; solve [auto with lits]|apply lits_codec_list; intros; solve [exact I|auto with lits]|apply lits_codec_ptr; auto with lits
  |apply lits_codec_struct; auto with lits|apply lits_codec_map; intros; exact I].
Ltac litall := intros; apply lits_struct; repeat (first [apply List.Forall_nil|apply List.Forall_cons; [litf|]]).
Ltac each := repeat (first [apply List.Forall_nil|apply List.Forall_cons; [cbn [f_codec f_get]|]]).
Ltac codef := first [apply codes_str|apply codes_flag|apply codes_flag_all|apply codes_time; assumption|apply codes_int; assumption|apply codes_int_all; assumption].

Lemma lay_name : layout name_f name_z. Proof. lay. Qed.
Lemma lay_org : layout org_f org_z. Proof. lay. Qed.
Lemma lay_loc : layout loc_f loc_z. Proof. lay. Qed.
Lemma lay_email : layout email_f email_z. Proof. lay. Qed.
Lemma lay_password : layout password_f password_z. Proof. lay. Qed.
Lemma lay_pubkey : layout pubkey_f pubkey_z. Proof. lay. Qed.
Lemma lay_apikey : layout apikey_f apikey_z. Proof. lay. Qed.
Lemma lay_device : layout device_f device_z. Proof. lay. Qed.
Lemma lay_mfa : layout mfa_f mfa_z. Proof. lay. Qed.
Lemma lay_lockout : layout lockout_f lockout_z. Proof. lay. Qed.
Lemma lay_imgcfg : layout imgcfg_f imgcfg_z. Proof. lay. Qed.
Lemma lay_image : layout image_f image_z. Proof. lay. Qed.
Lemma lay_role : layout role_f role_z. Proof. lay. Qed.
Lemma lay_ppol : layout ppol_f ppol_z. Proof. lay. Qed.
Lemma lay_upol : layout upol_f upol_z. Proof. lay. Qed.
Lemma lay_policy : layout policy_f policy_z. Proof. lay. Qed.
Lemma lay_content : layout content_f content_z. Proof. lay. Qed.
Lemma lay_user : layout user_f raw_z.
Proof.
  constructor;
  [vm_compute; reflexivity
  |repeat (first [apply List.Forall_nil|apply List.Forall_cons; [reflexivity|]])
  |repeat (first [apply FOP_nil|apply FOP_cons; [repeat (first [apply List.Forall_nil|apply List.Forall_cons; [intros v r; reflexivity|]])|]])
  |repeat (first [apply List.Forall_nil|apply List.Forall_cons; [intros [[] ? ? ?]; reflexivity|]])].
Qed.

Create HintDb lits.
Lemma lits_name a : lits (enc_struct name_f a). Proof. litall. Qed.
Lemma lits_org a : lits (enc_struct org_f a). Proof. litall. Qed.
Lemma lits_loc a : lits (enc_struct loc_f a). Proof. litall. Qed.
Lemma lits_email a : lits (enc_struct email_f a). Proof. litall. Qed.
Lemma lits_password a : lits (enc_struct password_f a). Proof. litall. Qed.
Lemma lits_pubkey a : lits (enc_struct pubkey_f a). Proof. litall. Qed.
Lemma lits_apikey a : lits (enc_struct apikey_f a). Proof. litall. Qed.
Lemma lits_device a : lits (enc_struct device_f a). Proof. litall. Qed.
#[export] Hint Resolve lits_name lits_org lits_loc lits_email lits_password lits_pubkey lits_apikey lits_device : lits.
Lemma lits_mfa a : lits (enc_struct mfa_f a). Proof. litall. Qed.
Lemma lits_lockout a : lits (enc_struct lockout_f a). Proof. litall. Qed.
Lemma lits_imgcfg a : lits (enc_struct imgcfg_f a). Proof. litall. Qed.
#[export] Hint Resolve lits_mfa lits_lockout lits_imgcfg : lits.
Lemma lits_image a : lits (enc_struct image_f a). Proof. litall. Qed.
Lemma lits_role a : lits (enc_struct role_f a). Proof. litall. Qed.
Lemma lits_ppol a : lits (enc_struct ppol_f a). Proof. litall. Qed.
Lemma lits_upol a : lits (enc_struct upol_f a). Proof. litall. Qed.
#[export] Hint Resolve lits_image lits_role lits_ppol lits_upol : lits.
Lemma lits_policy a : lits (enc_struct policy_f a). Proof. litall. Qed.
Lemma lits_user a : lits (enc_struct user_f a). Proof. litall. Qed.
#[export] Hint Resolve lits_policy lits_user : lits.
Lemma lits_content a : lits (enc_struct content_f a). Proof. litall. Qed.

(** the files written are not deeply nested *)
Definition enc_depth (k : N) {T} (c : codec T) : Prop := forall v j, enc c v = Some j -> (depth j <= k)%N.
Lemma depth_struct k {R} (fs : list (field R)) : Forall (fun f => enc_depth k (f_codec f)) fs -> forall r, (depth (enc_struct fs r) <= N.succ k)%N.
Proof.
  intros H r. unfold enc_struct. apply depth_obj. apply List.Forall_forall. intros kv Hkv.
  apply in_flat_map in Hkv as (f & Hf & Hkv). rewrite List.Forall_forall in H. specialize (H f Hf).
  destruct (enc (f_codec f) (f_get f r)) as [j|] eqn:E; [|destruct Hkv]. destruct Hkv as [<-|[]]. now apply H in E.
Qed.
Lemma depth_flat k {T} (c : codec T) : (forall v j, enc c v = Some j -> depth j = 0%N) -> enc_depth k c.
Proof. intros H v j E. rewrite (H _ _ E). lia. Qed.
Lemma depth_map_arr k {A} (e : A -> json) l : (forall a, (depth (e a) <= k)%N) -> (depth (JArr (map e l)) <= N.succ k)%N.
Proof. intros H. apply depth_arr. apply List.Forall_forall. intros x Hx. apply in_map_iff in Hx as (a & <- & _). apply H. Qed.
Lemma depth_list k {A} n (e : A -> json) d : (forall a, (depth (e a) <= k)%N) -> enc_depth (N.succ k) (list_at n e d).
Proof. intros H l j. cbn [list_at enc]. destruct l as [|a l]; [discriminate|]. intros [=<-]. exact (depth_map_arr k e (a :: l) H). Qed.
Lemma depth_opt_list k {A} (e : A -> json) d : (forall a, (depth (e a) <= k)%N) -> enc_depth (N.succ k) (opt_list e d).
Proof.
  intros H l j. cbn [opt_list enc]. destruct l as [|a l]; [discriminate|]. intros [=<-].
  apply (depth_map_arr k (fun x => match x with Some x => e x | None => JNull end) (a :: l)). intros [x|]; [apply H|cbn; lia].
Qed.
Lemma depth_ptr k {A} z (e : A -> json) d : (forall a, (depth (e a) <= k)%N) -> enc_depth k (ptr z e d).
Proof. intros H [a|] j; cbn; [|discriminate]. intros [=<-]. apply H. Qed.
Lemma depth_embedded k {A} (z : A) e d : (forall a, (depth (e a) <= k)%N) -> enc_depth k (struct_ z e d).
Proof. intros H a j. cbn. intros [=<-]. apply H. Qed.
Lemma depth_map k {V} z (e : V -> json) d : (forall a, (depth (e a) <= k)%N) -> enc_depth (N.succ k) (map_ z e d).
Proof.
  intros H m j. cbn [map_ enc]. destruct (sorted_keys m) as [|kv l]; [discriminate|]. intros [=<-].
  apply (proj2 (depth_obj (map (fun kv => (kv.1, e kv.2)) (kv :: l)) k)). apply List.Forall_forall. intros x Hx. apply in_map_iff in Hx as (a & <- & _). apply H.
Qed.
Lemma depth_more k l {T} (c : codec T) : enc_depth k c -> (k <= l)%N -> enc_depth l c.
Proof. intros H L v j E. specialize (H v j E). lia. Qed.
Ltac flat := apply depth_flat; intros v j; cbn [f_codec str flag flag_all int_ int_all uint time_ scalar enc];
  repeat (match goal with |- context[if ?b then _ else _] => destruct b end); solve [discriminate|intros [=<-]; reflexivity].
Ltac part := solve [let x := fresh in intros x; first [apply (N.le_refl 0)|eauto with deep]].
Ltac deepf := cbn [f_codec]; first [flat|
  eapply depth_more; [first [apply depth_opt_list; part|apply depth_list; part|apply depth_ptr; part|apply depth_embedded; part|apply depth_map; part]|vm_compute; discriminate]].
Ltac deep k := intros; apply (depth_struct k); repeat (first [apply List.Forall_nil|apply List.Forall_cons; [deepf|]]).
Create HintDb deep.
Lemma deep_name a : (depth (enc_struct name_f a) <= 1)%N. Proof. deep 0%N. Qed.
Lemma deep_org a : (depth (enc_struct org_f a) <= 2)%N. Proof. deep 1%N. Qed.
Lemma deep_loc a : (depth (enc_struct loc_f a) <= 1)%N. Proof. deep 0%N. Qed.
Lemma deep_email a : (depth (enc_struct email_f a) <= 1)%N. Proof. deep 0%N. Qed.
Lemma deep_password a : (depth (enc_struct password_f a) <= 1)%N. Proof. deep 0%N. Qed.
Lemma deep_pubkey a : (depth (enc_struct pubkey_f a) <= 1)%N. Proof. deep 0%N. Qed.
Lemma deep_apikey a : (depth (enc_struct apikey_f a) <= 1)%N. Proof. deep 0%N. Qed.
Lemma deep_device a : (depth (enc_struct device_f a) <= 1)%N. Proof. deep 0%N. Qed.
#[export] Hint Resolve deep_name deep_org deep_loc deep_email deep_password deep_pubkey deep_apikey deep_device : deep.
Lemma deep_mfa a : (depth (enc_struct mfa_f a) <= 2)%N. Proof. deep 1%N. Qed.
Lemma deep_lockout a : (depth (enc_struct lockout_f a) <= 1)%N. Proof. deep 0%N. Qed.
Lemma deep_imgcfg a : (depth (enc_struct imgcfg_f a) <= 1)%N. Proof. deep 0%N. Qed.
#[export] Hint Resolve deep_mfa deep_lockout deep_imgcfg : deep.
Lemma deep_image a : (depth (enc_struct image_f a) <= 2)%N. Proof. deep 1%N. Qed.
Lemma deep_role a : (depth (enc_struct role_f a) <= 1)%N. Proof. deep 0%N. Qed.
Lemma deep_ppol a : (depth (enc_struct ppol_f a) <= 1)%N. Proof. deep 0%N. Qed.
Lemma deep_upol a : (depth (enc_struct upol_f a) <= 1)%N. Proof. deep 0%N. Qed.
#[export] Hint Resolve deep_image deep_role deep_ppol deep_upol : deep.
Lemma deep_policy a : (depth (enc_struct policy_f a) <= 2)%N. Proof. deep 1%N. Qed.
Lemma deep_user a : (depth (enc_struct user_f a) <= 4)%N. Proof. deep 3%N. Qed.
#[export] Hint Resolve deep_policy deep_user : deep.
Lemma deep_content a : (depth (enc_struct content_f a) <= 6)%N. Proof. deep 5%N. Qed.
Lemma shallow_content a : (depth (enc_struct content_f a) <= max_depth)%N.
Proof. eapply N.le_trans; [apply deep_content|]. vm_compute. discriminate. Qed.

Lemma reads_name n : reads_as (enc_struct name_f) (dec_struct name_f name_z) n (clean_name n).
Proof. apply struct_reads; [apply lay_name| |reflexivity]. each; codef. Qed.
Lemma reads_org o : org_typed o -> reads_as (enc_struct org_f) (dec_struct org_f org_z) o (clean_org o).
Proof.
  intros H. apply struct_reads; [apply lay_org| |reflexivity]. each; try codef.
  - now apply codes_uint.
  - apply (codes_list _ JStr dec_str sanitize). intros. apply reads_str.
Qed.
Lemma reads_loc n : reads_as (enc_struct loc_f) (dec_struct loc_f loc_z) n (clean_loc n).
Proof. apply struct_reads; [apply lay_loc| |reflexivity]. each; codef. Qed.
Lemma reads_email n : reads_as (enc_struct email_f) (dec_struct email_f email_z) n (clean_email n).
Proof. apply struct_reads; [apply lay_email| |reflexivity]. each; codef. Qed.
Lemma reads_password p : password_typed p -> password_times p = true -> reads_as (enc_struct password_f) (dec_struct password_f password_z) p (clean_password p).
Proof.
  intros H T. unfold password_times in T. apply andb_prop in T as [T ?]. apply andb_prop in T as [? ?].
  apply struct_reads; [apply lay_password| |reflexivity]. each; codef.
Qed.
Lemma reads_pubkey p : pubkey_times p = true -> reads_as (enc_struct pubkey_f) (dec_struct pubkey_f pubkey_z) p (clean_pubkey p).
Proof.
  intros T. unfold pubkey_times in T. apply andb_prop in T as [T ?]. apply andb_prop in T as [? ?].
  apply struct_reads; [apply lay_pubkey| |reflexivity]. each; codef.
Qed.
Lemma reads_apikey p : apikey_times p = true -> reads_as (enc_struct apikey_f) (dec_struct apikey_f apikey_z) p (clean_apikey p).
Proof.
  intros T. unfold apikey_times in T. apply andb_prop in T as [T ?]. apply andb_prop in T as [? ?].
  apply struct_reads; [apply lay_apikey| |reflexivity]. each; codef.
Qed.
Lemma reads_device n : reads_as (enc_struct device_f) (dec_struct device_f device_z) n (clean_device n).
Proof. apply struct_reads; [apply lay_device| |reflexivity]. each; codef. Qed.
Lemma opt_P_all {A} (P : A -> Prop) x : (forall a, P a) -> opt_P P x.
Proof. destruct x; cbn; auto. Qed.
Lemma fmap_id_bool (m : gmap string bool) : (fun b => b) <$> m = m.
Proof. apply map_fmap_id. Qed.
Lemma reads_mfa t : mfa_typed t -> mfa_times t = true -> reads_as (enc_struct mfa_f) (dec_struct mfa_f mfa_z) t (clean_mfa t).
Proof.
  intros (H1 & H2 & H3 & H4 & H5) T. unfold mfa_times in T. apply andb_prop in T as [T ?]. apply andb_prop in T as [? ?].
  apply struct_reads; [apply lay_mfa| |reflexivity]. each; try codef.
  - apply (codes_ptr _ _ _ clean_device). apply opt_P_all. apply reads_device.
  - apply codes_map; [assumption|apply reads_str].
  - pose proof (codes_map false JBool dec_bool (fun b => b) (t_flags t) H5 reads_bool) as HF. rewrite fmap_id_bool in HF. exact HF.
  - now apply codes_uint.
Qed.
Lemma reads_lockout p : lockout_times p = true -> reads_as (enc_struct lockout_f) (dec_struct lockout_f lockout_z) p p.
Proof.
  intros T. unfold lockout_times in T. apply andb_prop in T as [? ?].
  apply struct_reads; [apply lay_lockout| |destruct p; reflexivity]. each; codef.
Qed.
Lemma reads_imgcfg p : is_int64 (ic_width p) -> is_int64 (ic_height p) -> reads_as (enc_struct imgcfg_f) (dec_struct imgcfg_f imgcfg_z) p p.
Proof. intros H1 H2. apply struct_reads; [apply lay_imgcfg| |destruct p; reflexivity]. each; try codef. reflexivity. Qed.
Lemma reads_image p : image_typed p -> reads_as (enc_struct image_f) (dec_struct image_f image_z) p (clean_image p).
Proof.
  intros [H1 H2]. apply struct_reads; [apply lay_image| |reflexivity]. each; try codef.
  apply codes_struct. now apply reads_imgcfg.
Qed.
Lemma reads_role n : reads_as (enc_struct role_f) (dec_struct role_f role_z) n (clean_role n).
Proof. apply struct_reads; [apply lay_role| |reflexivity]. each; codef. Qed.
Lemma reads_policy p : policy_typed p -> reads_as (enc_struct policy_f) (dec_struct policy_f policy_z) p p.
Proof.
  intros (H1 & H2 & H3 & H4 & H5). apply struct_reads; [apply lay_policy| |destruct p; reflexivity]. each.
  - apply codes_struct. apply struct_reads; [apply lay_ppol| |destruct p as [[] ?]; reflexivity]. each; codef.
  - apply codes_struct. apply struct_reads; [apply lay_upol| |destruct p as [? []]; reflexivity]. each; codef.
Qed.
Lemma forallb_In {A} (f : A -> bool) l a : forallb f l = true -> In a l -> f a = true.
Proof. rewrite forallb_forall. auto. Qed.
Lemma Forall_In {A} (P : A -> Prop) l a : Forall P l -> In a l -> P a.
Proof. rewrite List.Forall_forall. auto. Qed.
Lemma forallb_Some {A} (f : A -> bool) l : forallb (opt_all f) (map Some l) = forallb f l.
Proof. induction l as [|a l IH]; cbn; [reflexivity|]. now rewrite IH. Qed.
Lemma reads_user u : user_typed u -> raw_user_times (to_raw_user u) = true ->
  reads_as (enc_struct user_f) (dec_struct user_f raw_z) (to_raw_user u) (to_raw_user (clean_user u)).
Proof.
  intros (T1 & T2 & T3 & T4 & T5 & T6) T. unfold raw_user_times, to_raw_user in T. cbn [raw_user raw_passwords raw_keys] in T. rewrite !forallb_Some in T.
  repeat (apply andb_prop in T as [T ?]). cbn in *.
  apply struct_reads; [apply lay_user| |reflexivity]. each; try codef.
  - apply (codes_ptr _ _ _ clean_name). apply opt_P_all. apply reads_name.
  - apply (codes_ptr _ _ _ clean_org). cbn. destruct (u_org u); [cbn in *; now apply reads_org|exact I].
  - apply (codes_list _ _ _ clean_name). intros. apply reads_name.
  - apply (codes_list _ _ _ clean_org). intros a Ha. apply reads_org. exact (Forall_In _ _ _ T2 Ha).
  - apply (codes_list _ _ _ clean_loc). intros. apply reads_loc.
  - apply (codes_ptr _ _ _ clean_email). apply opt_P_all. apply reads_email.
  - apply (codes_opt_list _ _ clean_email). intros. apply reads_email.
  - apply (codes_opt_list _ _ clean_password). intros a Ha. apply reads_password; [exact (Forall_In _ _ _ T3 Ha)|eapply forallb_In; eauto].
  - apply (codes_list _ _ _ clean_pubkey). intros a Ha. apply reads_pubkey. eapply forallb_In; eauto.
  - apply (codes_opt_list _ _ clean_apikey). intros a Ha. apply reads_apikey. eapply forallb_In; eauto.
  - apply (codes_list _ _ _ clean_mfa). intros a Ha. apply reads_mfa; [exact (Forall_In _ _ _ T4 Ha)|eapply forallb_In; eauto].
  - pose proof (codes_ptr lockout_z (enc_struct lockout_f) (dec_struct lockout_f) id (u_lockout u)) as HL.
    replace (option_map id (u_lockout u)) with (u_lockout u) in HL by (now destruct (u_lockout u)). apply HL.
    destruct (u_lockout u); [|exact I]. now apply reads_lockout.
  - apply (codes_ptr _ _ _ clean_image). cbn. destruct (u_avatar u); [cbn in *; now apply reads_image|exact I].
  - apply (codes_list _ _ _ clean_role). intros. apply reads_role.
Qed.
Lemma reads_content c : content_typed c -> raw_times (to_raw c) = true ->
  reads_as (enc_struct content_f) (dec_struct content_f content_z) (to_raw c) (to_raw (clean_content c)).
Proof.
  intros (T1 & T2 & T3) T. unfold raw_times, to_raw in T. cbn [rc_modified rc_users] in T.
  apply andb_prop in T as [Tm Tu]. rewrite <- map_map, forallb_Some in Tu.
  apply struct_reads; [apply lay_content| |reflexivity]. each; try codef.
  - apply codes_struct. now apply reads_policy.
  - now apply codes_uint.
  - cbn [to_raw rc_users clean_content c_users]. rewrite map_map. apply codes_opt_list2.
    intros u Hu. apply reads_user; [exact (Forall_In _ _ _ T3 Hu)|]. eapply forallb_In; [exact Tu|]. now apply in_map.
Qed.
(** Reading back what commit writes. *)
Lemma unmarshal_marshal c s : content_typed c -> marshal c = Some s -> unmarshal s = DOk (to_raw (clean_content c)).
Proof.
  intros HT. unfold marshal, marshal_raw. destruct (raw_times (to_raw c)) eqn:T; [|discriminate]. intros E.
  assert (s = sol (print 0 (enc_struct content_f (to_raw c)))) as -> by congruence. clear E.
  unfold unmarshal. rewrite los_sol, parse_print by (apply lits_content || apply shallow_content).
  destruct (reads_content c HT T) as [_ H]. unfold enc_struct in *. cbn [san] in *. exact H.
Qed.
(** A proper prefix is rejected. *)
Lemma unmarshal_truncated c s k : marshal_raw c = Some s -> (k < String.length s)%nat -> unmarshal (take k s) = DErr.
Proof.
  unfold marshal_raw. destruct (raw_times c); [|discriminate]. intros E Hk.
  assert (s = sol (print 0 (enc_struct content_f c))) as -> by congruence. clear E.
  unfold unmarshal, take. rewrite !los_sol. rewrite length_sol in Hk.
  set (l := print 0 (enc_struct content_f c)) in *.
  assert (E : parse (firstn k l) = None); [|now rewrite E].
  eapply parse_truncated with (q := skipn k l).
  - exact (lits_content c).
  - symmetry. apply firstn_skipn.
  - clearbody l. intros E. assert (H := skipn_length k l). rewrite E in H. cbn [List.length] in H. lia.
Qed.
