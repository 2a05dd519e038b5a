(** Member names are matched exactly up to spelling ([spells]). *)
From Coq Require Import String Ascii ZArith NArith Lia Bool Arith List.
From Coq Require Import ZifyBool ZifyNat ZifyN.
From Verif Require Import GoStr Utf8 Json JsonFacts Persist SpecMeaning.
Import ListNotations.
Open Scope string_scope.

Local Ltac Zify.zify_post_hook ::= Z.div_mod_to_equations.
Lemma lower_k a : lower_ascii a = "k"%char <-> a = "k"%char \/ a = "K"%char.
Proof. split; [|intros [->| ->]; reflexivity]. destruct a as [[] [] [] [] [] [] [] []]; vm_compute; auto; discriminate. Qed.
Lemma lower_s a : lower_ascii a = "s"%char <-> a = "s"%char \/ a = "S"%char.
Proof. split; [|intros [->| ->]; reflexivity]. destruct a as [[] [] [] [] [] [] [] []]; vm_compute; auto; discriminate. Qed.
Lemma upper_range a : is_upper a = true <-> (65 <= N_of_ascii a <= 90)%N.
Proof. unfold is_upper. lia. Qed.
Lemma lower_eq a b : lower_ascii a = lower_ascii b <-> a = b \/ twins a b.
Proof.
  assert (Em : forall n, (n < 256)%N -> N_of_ascii (ascii_of_N n) = n) by (intros; now apply N_ascii_embedding).
  split.
  - unfold lower_ascii. destruct (is_upper a) eqn:A; destruct (is_upper b) eqn:B.
    + apply upper_range in A, B. intros H. apply (f_equal N_of_ascii) in H. rewrite !Em in H by lia. left.
      rewrite <- (ascii_N_embedding a), <- (ascii_N_embedding b). f_equal. lia.
    + apply upper_range in A. intros <-. right. exists (N_of_ascii a). split; [exact A|]. left. now rewrite ascii_N_embedding.
    + apply upper_range in B. intros ->. right. exists (N_of_ascii b). split; [exact B|]. right. now rewrite ascii_N_embedding.
    + now left.
  - intros [->|(n & H & [[-> ->]|[-> ->]])]; [reflexivity| |]; unfold lower_ascii, is_upper; rewrite !Em by lia;
      replace ((65 <=? n) && (n <=? 90))%N with true by lia; replace ((65 <=? n + 32) && (n + 32 <=? 90))%N with false by lia; reflexivity.
Qed.
Lemma twins_ascii a b : twins a b -> is_ascii7 b = true.
Proof. intros (n & H & [[_ ->]|[-> _]]); unfold is_ascii7; rewrite N_ascii_embedding by lia; lia. Qed.
Lemma fold_ascii a k : is_ascii7 a = true -> flat_map fold_chunk (chunks (a :: k)) = lower_ascii a :: flat_map fold_chunk (chunks k).
Proof.
  unfold is_ascii7. intros H. cbn [chunks]. rewrite H. cbn [flat_map fold_chunk]. destruct (N.eqb_spec (N_of_ascii a) 8490); [lia|].
  destruct (N.eqb_spec (N_of_ascii a) 383); [lia|]. reflexivity.
Qed.
Lemma fold_kelvin k : flat_map fold_chunk (chunks (bytes [226; 132; 170]%N ++ k)) = "k"%char :: flat_map fold_chunk (chunks k).
Proof. reflexivity. Qed.
Lemma fold_long k : flat_map fold_chunk (chunks (bytes [197; 191]%N ++ k)) = "s"%char :: flat_map fold_chunk (chunks k).
Proof. reflexivity. Qed.
Lemma high_lower (a b : ascii) l n : (128 <= N_of_ascii b)%N -> is_ascii7 a = true -> b :: l = lower_ascii a :: n -> False.
Proof. intros H A [= -> _]. rewrite <- lower_ascii_7 in A. unfold is_ascii7 in A. lia. Qed.
Lemma fold_spells k n : ascii_only n = true -> flat_map fold_chunk (chunks k) = map lower_ascii n -> spells n k.
Proof.
  enough (G : forall m k n, (List.length k <= m)%nat -> ascii_only n = true -> flat_map fold_chunk (chunks k) = map lower_ascii n -> spells n k) by (now apply (G (List.length k))).
  clear k n. induction m as [|m IH]; intros k n L A.
  { destruct k; [|cbn in L; lia]. destruct n; [constructor|discriminate]. }
  destruct k as [|b k]; [destruct n; [constructor|discriminate]|]. cbn [List.length] in L.
  destruct (is_ascii7 b) eqn:B.
  { rewrite fold_ascii by assumption. destruct n as [|a n]; [discriminate|]. cbn [map]. cbn in A. apply andb_prop in A as [_ A]. intros H.
    assert (E : lower_ascii a = lower_ascii b) by congruence. assert (S : spells n k) by (apply IH; [lia|exact A|congruence]).
    apply lower_eq in E as [->|E]; [now constructor|now apply SpCase]. }
  assert (Hb : (128 <= N_of_ascii b)%N) by (unfold is_ascii7 in B; lia).
  destruct n as [|a n].
  { intros H. exfalso. revert H. cbn [chunks map]. rewrite (proj2 (N.ltb_ge _ _) Hb).
    assert (F : forall c l, fold_chunk c <> [] -> flat_map fold_chunk (c :: l) = [] -> False).
    { intros c l Nc. cbn. now destruct (fold_chunk c). }
    assert (Fb : forall l, flat_map fold_chunk (Bad b :: l) = [] -> False) by (intros l; discriminate).
    assert (Fr : forall r x y l, flat_map fold_chunk (Rune r (x :: y) :: l) = [] -> False).
    { intros r x y l. apply F. cbn. destruct (r =? 8490)%N; [discriminate|]. destruct (r =? 383)%N; [discriminate|]. destruct y; discriminate. }
    destruct (in_range b 194 223); [destruct k as [|c k]; [apply Fb|destruct (in_range c 128 191); [apply Fr|apply Fb]]|].
    destruct (in_range b 224 239); [destruct k as [|c [|d k]]; [apply Fb|apply Fb|destruct (second3 b c && in_range d 128 191); [apply Fr|apply Fb]]|].
    destruct (in_range b 240 244); [|apply Fb].
    destruct k as [|c [|d [|e k]]]; [apply Fb|apply Fb|apply Fb|]. destruct (second4 b c && in_range d 128 191 && in_range e 128 191); [apply Fr|apply Fb]. }
  cbn in A. apply andb_prop in A as [Aa A]. cbn [map].
  assert (Fb : forall l, flat_map fold_chunk (Bad b :: l) = lower_ascii a :: map lower_ascii n -> spells (a :: n) (b :: k)).
  { intros l H. destruct (high_lower a b _ _ Hb Aa H). }
  cbn [chunks]. rewrite (proj2 (N.ltb_ge _ _) Hb).
  destruct (in_range b 194 223) eqn:R2.
  { destruct k as [|c k]; [apply Fb|]. destruct (in_range c 128 191) eqn:Rc; [|apply Fb]. apply in_range_spec in R2, Rc.
    cbn [flat_map fold_chunk]. unfold rune2, low6. destruct (N.eqb_spec (N_of_ascii b mod 32 * 64 + N_of_ascii c mod 64) 8490); [lia|].
    destruct (N.eqb_spec (N_of_ascii b mod 32 * 64 + N_of_ascii c mod 64) 383) as [E|E].
    - cbn [app]. intros H. assert (b = ascii_of_N 197) as -> by (apply ascii_is; lia). assert (c = ascii_of_N 191) as -> by (apply ascii_is; lia).
      apply (SpLong a n k); [apply lower_s; congruence|]. apply IH; [cbn in L; lia|exact A|congruence].
    - cbn [app]. intros H. destruct (high_lower a b _ _ Hb Aa H). }
  destruct (in_range b 224 239) eqn:R3.
  { destruct k as [|c [|d k]]; [apply Fb|apply Fb|]. destruct (second3 b c && in_range d 128 191) eqn:Rc; [|apply Fb]. apply andb_prop in Rc as [Rc Rd].
    apply in_range_spec in R3, Rd. unfold second3 in Rc.
    assert (Hc : ((N_of_ascii b = 224 /\ 160 <= N_of_ascii c <= 191) \/ (224 < N_of_ascii b /\ 128 <= N_of_ascii c <= 191))%N).
    { destruct (N.eqb_spec (N_of_ascii b) 224); [apply in_range_spec in Rc; lia|]. destruct (N_of_ascii b =? 237)%N; apply in_range_spec in Rc; lia. }
    cbn [flat_map fold_chunk]. unfold rune3, low6.
    assert (E1 : (N_of_ascii b mod 16 = N_of_ascii b - 224)%N) by lia.
    assert (E2 : (N_of_ascii c mod 64 = N_of_ascii c - 128)%N) by lia.
    assert (E3 : (N_of_ascii d mod 64 = N_of_ascii d - 128)%N) by lia.
    rewrite E1, E2, E3.
    destruct (N.eqb_spec ((N_of_ascii b - 224) * 4096 + (N_of_ascii c - 128) * 64 + (N_of_ascii d - 128)) 8490) as [E|E].
    - cbn [app]. intros H. assert (b = ascii_of_N 226) as -> by (apply ascii_is; lia). assert (c = ascii_of_N 132) as -> by (apply ascii_is; lia).
      assert (d = ascii_of_N 170) as -> by (apply ascii_is; lia).
      apply (SpKelvin a n k); [apply lower_k; congruence|]. apply IH; [cbn in L; lia|exact A|congruence].
    - destruct (N.eqb_spec ((N_of_ascii b - 224) * 4096 + (N_of_ascii c - 128) * 64 + (N_of_ascii d - 128)) 383); [lia|].
      cbn [app]. intros H. destruct (high_lower a b _ _ Hb Aa H). }
  destruct (in_range b 240 244) eqn:R4; [|apply Fb].
  destruct k as [|c [|d [|e k]]]; [apply Fb|apply Fb|apply Fb|]. destruct (second4 b c && in_range d 128 191 && in_range e 128 191) eqn:Rc; [|apply Fb].
  apply andb_prop in Rc as [Rc Re]. apply andb_prop in Rc as [Rc Rd]. apply in_range_spec in R4. unfold second4 in Rc.
  assert (Hc : ((N_of_ascii b = 240 /\ 144 <= N_of_ascii c <= 191) \/ (240 < N_of_ascii b /\ 128 <= N_of_ascii c <= 191))%N).
  { destruct (N.eqb_spec (N_of_ascii b) 240); [apply in_range_spec in Rc; lia|]. destruct (N_of_ascii b =? 244)%N; apply in_range_spec in Rc; lia. }
  assert (Big : (65536 <= rune4 b c d e)%N).
  { unfold rune4, low6. assert (E1 : (N_of_ascii b mod 8 = N_of_ascii b - 240)%N) by lia. assert (E2 : (N_of_ascii c mod 64 = N_of_ascii c - 128)%N) by lia.
    rewrite E1, E2. clear - Hc. generalize (N_of_ascii d mod 64)%N (N_of_ascii e mod 64)%N. intros. lia. }
  cbn [flat_map fold_chunk]. destruct (N.eqb_spec (rune4 b c d e) 8490); [lia|]. destruct (N.eqb_spec (rune4 b c d e) 383); [lia|].
  cbn [app]. intros H. destruct (high_lower a b _ _ Hb Aa H).
Qed.
Lemma spells_fold k n : ascii_only n = true -> spells n k -> flat_map fold_chunk (chunks k) = map lower_ascii n.
Proof.
  intros A S. induction S as [|a n k S IH|a b n k T S IH|a n k H S IH|a n k H S IH]; [reflexivity| | | |]; cbn in A; apply andb_prop in A as [Aa A]; specialize (IH A); cbn [map].
  - now rewrite fold_ascii, IH.
  - rewrite fold_ascii, IH by (eapply twins_ascii; exact T). f_equal. symmetry. apply lower_eq. now right.
  - rewrite fold_kelvin, IH. f_equal. symmetry. now apply lower_k.
  - rewrite fold_long, IH. f_equal. symmetry. now apply lower_s.
Qed.
Lemma fold_key_spells n k : ascii_only (los n) = true -> fold_key n = fold_key k <-> spells (los n) (los k).
Proof.
  intros A. unfold fold_key.
  assert (E : flat_map fold_chunk (chunks (los n)) = map lower_ascii (los n)).
  { apply spells_fold; [exact A|]. clear A. induction (los n); now constructor. }
  rewrite E. split.
  - intros H. apply fold_spells; [exact A|]. apply (f_equal los) in H. rewrite !los_sol in H. now symmetry.
  - intros S. now rewrite (spells_fold _ _ A S).
Qed.
