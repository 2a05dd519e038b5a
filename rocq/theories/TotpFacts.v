(** One-time passwords: the model's codes are those of RFC 4226 and RFC 6238. *)
From Coq Require Import ZifyBool ZifyN ZifyNat.
From Coq Require Import String Ascii ZArith NArith Lia Bool Arith List.
From stdpp Require Import gmap strings.
From RecordUpdate Require Import RecordSet.
From Verif Require Import GoStr Codec GoErr Random GoTime Types Env Mfa SpecDb SpecMfa.
Import ListNotations.
Import RecordSetNotations.
Open Scope string_scope.

(** ** Bytes and digits *)
Lemma be_val_app l a : be_val (l ++ [a])%list = (be_val l * 256 + N_of_ascii a)%N.
Proof. unfold be_val. now rewrite fold_left_app. Qed.
Lemma be_val_spec l : big_endian l (be_val l).
Proof. induction l as [|a l IH] using rev_ind; [constructor|]. rewrite be_val_app. now constructor. Qed.
Lemma big_endian_val l n : big_endian l n -> n = be_val l.
Proof. induction 1 as [|l n a H ->]; [reflexivity|]. now rewrite be_val_app. Qed.
Lemma byte_bound a : (N_of_ascii a < 256)%N.
Proof. apply N_ascii_bounded. Qed.
Lemma snoc_cases {A} (l : list A) n : List.length l = S n -> exists l0 a, l = (l0 ++ [a])%list /\ List.length l0 = n.
Proof.
  intros H. destruct l as [|x l] using rev_ind; [discriminate|]. exists l, x. split; [reflexivity|]. rewrite app_length in H. cbn in H. lia.
Qed.
Lemma big_endian_inj l : forall m n, big_endian l n -> big_endian m n -> List.length l = List.length m -> l = m.
Proof.
  intros m n H H' L. apply big_endian_val in H, H'. subst n. revert m H' L.
  induction l as [|a l IH] using rev_ind; intros m H' L; [destruct m; [reflexivity|discriminate]|].
  rewrite app_length in L. cbn in L. destruct (snoc_cases m (List.length l)) as (m0 & b & -> & L0); [lia|].
  rewrite !be_val_app in H'. pose proof (byte_bound a). pose proof (byte_bound b).
  assert (be_val l = be_val m0 /\ N_of_ascii a = N_of_ascii b) as [E1 E2] by lia.
  rewrite (IH m0 E1) by lia. apply (f_equal ascii_of_N) in E2. rewrite !ascii_N_embedding in E2. now subst.
Qed.
Lemma decimal_val l n : decimal l n <-> Forall (fun a => is_digit a = true) l /\ n = dec_val_l l 0.
Proof.
  assert (D : forall a, is_digit a = true <-> exists d, (d < 10)%N /\ N_of_ascii a = (48 + d)%N).
  { intros a. unfold is_digit. split.
    - intros H1. exists (N_of_ascii a - 48)%N. lia.
    - intros (d & H1 & H2). lia. }
  split.
  - induction 1 as [|l n d a H [F ->] L Hd]; [split; [constructor|reflexivity]|]. split.
    + apply List.Forall_app. split; [assumption|]. constructor; [|constructor]. apply D. eauto.
    + rewrite dec_val_l_app. cbn [dec_val_l]. rewrite Hd. lia.
  - intros [F ->]. induction l as [|a l IH] using rev_ind; [constructor|]. apply List.Forall_app in F as [F Fa]. inversion Fa as [|? ? Ha _]; subst.
    rewrite dec_val_l_app. cbn [dec_val_l]. apply D in Ha as (d & Hd & Ea). rewrite Ea. replace (48 + d - 48)%N with d by lia.
    econstructor; eauto.
Qed.

Lemma decimal_inj l : forall m n, decimal l n -> decimal m n -> List.length l = List.length m -> l = m.
Proof.
  intros m n H. revert m. induction H as [|l n d a H IH Hd Ha]; intros m H' L; [destruct m; [reflexivity|discriminate]|].
  rewrite app_length in L. cbn in L. inversion H' as [|m0 n0 d0 b H0 Hd0 Hb]; subst; [cbn in L; lia|].
  rewrite app_length in L. cbn in L. assert (n0 = n /\ d0 = d) as [-> ->] by lia. rewrite (IH m0) by (assumption || lia).
  rewrite <- Ha in Hb. apply (f_equal ascii_of_N) in Hb. rewrite !ascii_N_embedding in Hb. now subst.
Qed.

(** ** The counter *)
Lemma be64_spec n : (n < 2 ^ 64)%N -> List.length (los (be64 n)) = 8%nat /\ big_endian (los (be64 n)) n.
Proof.
  intros H. unfold be64. rewrite los_sol. split; [reflexivity|].
  assert (V : be_val (map (fun i => ascii_of_N (n / 2 ^ (8 * N.of_nat (7 - i)) mod 256)) (seq 0 8)) = n).
  { cbn [seq map]. unfold be_val. cbn [fold_left].
    rewrite !N_ascii_embedding by (apply N.mod_lt; lia).
    change (8 * N.of_nat (7 - 0))%N with 56%N. change (8 * N.of_nat (7 - 1))%N with 48%N. change (8 * N.of_nat (7 - 2))%N with 40%N.
    change (8 * N.of_nat (7 - 3))%N with 32%N. change (8 * N.of_nat (7 - 4))%N with 24%N. change (8 * N.of_nat (7 - 5))%N with 16%N.
    change (8 * N.of_nat (7 - 6))%N with 8%N. change (8 * N.of_nat (7 - 7))%N with 0%N.
    assert (St : forall k, (n / 2 ^ (k + 8) = n / 2 ^ k / 256)%N).
    { intros k. rewrite N.pow_add_r. change (2 ^ 8)%N with 256%N. symmetry. apply N.div_div; [apply N.pow_nonzero; discriminate|discriminate]. }
    pose proof (St 48%N) as S7. pose proof (St 40%N) as S6. pose proof (St 32%N) as S5. pose proof (St 24%N) as S4.
    pose proof (St 16%N) as S3. pose proof (St 8%N) as S2. pose proof (St 0%N) as S1. clear St.
    change (48 + 8)%N with 56%N in S7. change (40 + 8)%N with 48%N in S6. change (32 + 8)%N with 40%N in S5. change (24 + 8)%N with 32%N in S4.
    change (16 + 8)%N with 24%N in S3. change (8 + 8)%N with 16%N in S2. change (0 + 8)%N with 8%N in S1.
    assert (S0 : (n / 2 ^ 0 = n)%N) by (rewrite N.pow_0_r; apply N.div_1_r).
    assert (B : (n / 2 ^ 56 < 256)%N) by (apply N.div_lt_upper_bound; [discriminate|exact H]).
    set (q7 := (n / 2 ^ 56)%N) in *. set (q6 := (n / 2 ^ 48)%N) in *. set (q5 := (n / 2 ^ 40)%N) in *. set (q4 := (n / 2 ^ 32)%N) in *.
    set (q3 := (n / 2 ^ 24)%N) in *. set (q2 := (n / 2 ^ 16)%N) in *. set (q1 := (n / 2 ^ 8)%N) in *. set (q0 := (n / 2 ^ 0)%N) in *.
    clearbody q7 q6 q5 q4 q3 q2 q1 q0. subst q0.
    pose proof (N.div_mod q6 256). pose proof (N.div_mod q5 256). pose proof (N.div_mod q4 256). pose proof (N.div_mod q3 256).
    pose proof (N.div_mod q2 256). pose proof (N.div_mod q1 256). pose proof (N.div_mod n 256). pose proof (N.mod_small q7 256 B).
    rewrite <- S7, <- S6, <- S5, <- S4, <- S3, <- S2, <- S1 in *. lia. }
  pose proof (be_val_spec (map (fun i => ascii_of_N (n / 2 ^ (8 * N.of_nat (7 - i)) mod 256)) (seq 0 8))) as Sp. now rewrite V in Sp.
Qed.

(** ** Truncation *)
Lemma lor_add a b k : (b < 2 ^ k)%N -> N.lor (N.shiftl a k) b = (a * 2 ^ k + b)%N.
Proof.
  intros H. rewrite N.shiftl_mul_pow2. apply N.bits_inj. intros m. rewrite N.lor_spec.
  destruct (N.lt_ge_cases m k) as [L|L].
  - rewrite N.mul_pow2_bits_low by assumption. rewrite <- (N.mod_pow2_bits_low (a * 2 ^ k + b) k) by assumption.
    rewrite N.add_comm, N.mod_add by (apply N.pow_nonzero; discriminate). now rewrite N.mod_small.
  - rewrite N.mul_pow2_bits_high by assumption.
    assert (N.testbit b m = false) as ->.
    { destruct (N.eq_dec b 0) as [->|Nz]; [apply N.bits_0|]. apply N.bits_above_log2. apply N.log2_lt_pow2; [lia|].
      eapply N.lt_le_trans; [exact H|]. apply N.pow_le_mono_r; [discriminate|assumption]. }
    rewrite orb_false_r. replace (N.testbit (a * 2 ^ k + b) m) with (N.testbit ((a * 2 ^ k + b) / 2 ^ k) (m - k)).
    + rewrite N.div_add_l by (apply N.pow_nonzero; discriminate). now rewrite N.div_small, N.add_0_r.
    + rewrite N.div_pow2_bits. f_equal. lia.
Qed.
Lemma nth_firstn_skipn {A} (l : list A) k d : (k + 4 <= List.length l)%nat ->
  l = (firstn k l ++ [nth k l d; nth (k + 1) l d; nth (k + 2) l d; nth (k + 3) l d] ++ skipn (k + 4) l)%list.
Proof.
  revert k. induction l as [|a l IH]; intros k H; [cbn in H; lia|]. destruct k as [|k].
  - destruct l as [|b [|c [|e l]]]; cbn in H; try lia. reflexivity.
  - cbn [firstn skipn Nat.add nth app]. f_equal. rewrite (IH k) at 1 by (cbn in H; lia). reflexivity.
Qed.
Lemma last_nth {A} (l : list A) d : l <> [] -> exists init, l = (init ++ [nth (List.length l - 1) l d])%list.
Proof.
  intros H. destruct l as [|x l] using rev_ind; [congruence|]. exists l. rewrite app_length. cbn [List.length].
  replace (List.length l + 1 - 1)%nat with (List.length l) by lia. now rewrite app_nth2, Nat.sub_diag by lia.
Qed.
Lemma truncate_spec h : (20 <= String.length h)%nat -> truncation h (truncate h).
Proof.
  intros H. rewrite <- length_los in H. unfold truncate. cbv zeta. rewrite <- length_los.
  set (last := nth (List.length (los h) - 1) (los h) "000"%char).
  assert (Eo : N.land (byte_at h (List.length (los h) - 1)) 15 = (N_of_ascii last mod 16)%N) by (apply (N.land_ones _ 4)).
  rewrite Eo. set (k := N.to_nat (N_of_ascii last mod 16)).
  assert (Hk : (k <= 15)%nat) by (unfold k; pose proof (N.mod_lt (N_of_ascii last) 16); lia).
  assert (Sp := nth_firstn_skipn (los h) k "000"%char ltac:(lia)).
  do 7 eexists. eexists. split; [exact Sp|]. split; [apply last_nth; intros X; rewrite X in H; cbn in H; lia|].
  split; [rewrite firstn_length_le by lia; unfold k; apply N2Nat.id|]. split; [apply be_val_spec|].
  unfold byte_at. set (b0 := nth k _ _). set (b1 := nth (k + 1) _ _). set (b2 := nth (k + 2) _ _). set (b3 := nth (k + 3) _ _).
  pose proof (byte_bound b0). pose proof (byte_bound b1). pose proof (byte_bound b2). pose proof (byte_bound b3).
  change 127%N with (N.ones 7). rewrite N.land_ones.
  rewrite (lor_add (N_of_ascii b2) (N_of_ascii b3) 8) by assumption.
  rewrite (lor_add (N_of_ascii b1) _ 16) by (change (2 ^ 16)%N with 65536%N; change (2 ^ 8)%N with 256%N; lia).
  rewrite (lor_add _ _ 24) by (change (2 ^ 24)%N with 16777216%N; change (2 ^ 16)%N with 65536%N; change (2 ^ 8)%N with 256%N; lia).
  unfold be_val. cbn [fold_left]. change (2 ^ 24)%N with 16777216%N; change (2 ^ 16)%N with 65536%N; change (2 ^ 8)%N with 256%N.
  change (2 ^ 7)%N with 128%N. change (2 ^ 31)%N with 2147483648%N.
  pose proof (N.div_mod (N_of_ascii b0) 128 ltac:(discriminate)) as D. pose proof (N.mod_lt (N_of_ascii b0) 128 ltac:(discriminate)).
  set (q := (N_of_ascii b0 / 128)%N) in *. set (m := (N_of_ascii b0 mod 128)%N) in *. clearbody q m.
  apply (N.mod_unique _ _ q); lia.
Qed.
Lemma truncation_det h v w : truncation h v -> truncation h w -> v = w.
Proof.
  intros (pre & b0 & b1 & b2 & b3 & post & la & n & E1 & (i1 & L1) & P1 & B1 & ->) (pre' & c0 & c1 & c2 & c3 & post' & lb & n' & E2 & (i2 & L2) & P2 & B2 & ->).
  rewrite L1 in L2. apply app_inj_tail in L2 as [_ <-]. rewrite E1 in E2. apply app_inj_1 in E2 as [_ E2]; [|lia].
  injection E2 as -> -> -> -> _. apply big_endian_val in B1, B2. congruence.
Qed.
Lemma code_of_det E a s d T c c' : code_of E a s d T c -> code_of E a s d T c' -> c = c'.
Proof.
  intros (_ & m & v & Lm & Bm & Tv & Lc & Dc) (_ & m' & v' & Lm' & Bm' & Tv' & Lc' & Dc').
  assert (m = m') as <- by (apply los_inj; eapply big_endian_inj; eauto; congruence).
  assert (v = v') as <- by (eapply truncation_det; eauto). apply los_inj. eapply decimal_inj; eauto. congruence.
Qed.

(** ** Codes *)
Lemma known_eqb a : (String.eqb a "sha1" || String.eqb a "sha256" || String.eqb a "sha512") = true <-> known_algorithm a.
Proof. unfold known_algorithm. rewrite !orb_true_iff, !String.eqb_eq. tauto. Qed.
Lemma gen_code_known E s a d ts : known_algorithm a -> hmac_size E -> (1 <= d)%Z -> (ts < 2 ^ 64)%N ->
  exists c, gen_code E s a d ts = inl c /\ code_of E a s (Z.to_nat d) (Z.of_N ts) c.
Proof.
  intros K Hh Hd Ht. unfold gen_code. rewrite (proj2 (known_eqb a) K). eexists. split; [reflexivity|]. split; [assumption|].
  destruct (be64_spec ts Ht) as [L B]. exists (be64 ts), (truncate (e_hmac E a s (be64 ts))). split; [assumption|].
  split; [now rewrite Z.mod_small, N2Z.id by (change (2 ^ 64)%Z with 18446744073709551616%Z; change (2 ^ 64)%N with 18446744073709551616%N in Ht; lia)|].
  split; [apply truncate_spec; now apply Hh|]. rewrite <- (Z_nat_N d). set (w := Z.to_nat d).
  destruct (sprint_0d_spec w (truncate (e_hmac E a s (be64 ts)) mod 10 ^ N.of_nat w)) as (Lw & F & V); [unfold w; lia|apply N.mod_lt; apply N.pow_nonzero; discriminate|].
  split; [now rewrite length_los|]. apply decimal_val. split; [assumption|]. now symmetry.
Qed.
Lemma gen_code_iff E s a d ts c : hmac_size E -> (1 <= d)%Z -> (ts < 2 ^ 64)%N ->
  gen_code E s a d ts = inl c <-> code_of E a s (Z.to_nat d) (Z.of_N ts) c.
Proof.
  intros Hh Hd Ht. split.
  - intros G. assert (K : known_algorithm a).
    { apply known_eqb. unfold gen_code in G. destruct (_ || _); [reflexivity|]. destruct (String.eqb a ""); discriminate. }
    destruct (gen_code_known E s a d ts K Hh Hd Ht) as (c' & G' & C). congruence.
  - intros C. destruct (gen_code_known E s a d ts (proj1 C) Hh Hd Ht) as (c' & G' & C'). rewrite G'. f_equal. eapply code_of_det; eauto.
Qed.
Lemma code_of_mod E a s d T c : code_of E a s d (T mod 2 ^ 64) c <-> code_of E a s d T c.
Proof. unfold code_of. rewrite Z.mod_mod by discriminate. reflexivity. Qed.

(** ** Time steps *)
Lemma in_period_iff t P T : (1 <= P)%Z -> in_period t P T <-> (unix t / P)%Z = T.
Proof.
  intros HP. unfold in_period, unix, epoch_ns, second_ns, unix_epoch.
  pose proof (Z.div_mod t 1000000000 ltac:(discriminate)) as D1. pose proof (Z.mod_pos_bound t 1000000000 ltac:(reflexivity)) as B1.
  set (s := (t / 1000000000)%Z) in *. set (e := (t mod 1000000000)%Z) in *. clearbody s e.
  pose proof (Z.div_mod (s - 62135596800) P ltac:(lia)) as D2. pose proof (Z.mod_pos_bound (s - 62135596800) P ltac:(lia)) as B2.
  set (q := ((s - 62135596800) / P)%Z) in *. set (m := ((s - 62135596800) mod P)%Z) in *. clearbody q m. split.
  - intros [H1 H2]. assert (s = P * q + m + 62135596800)%Z as -> by lia. subst t. nia.
  - intros <-. subst t. nia.
Qed.
Lemma in_period_det t P T T' : (1 <= P)%Z -> in_period t P T -> in_period t P T' -> T = T'.
Proof. intros HP. rewrite !in_period_iff by assumption. congruence. Qed.
Lemma step_val t P T : (1 <= P)%Z -> in_period t P T -> Z.of_N (step t P) = (T mod 2 ^ 64)%Z /\ (step t P < 2 ^ 64)%N.
Proof.
  intros HP H. apply in_period_iff in H; [|assumption]. unfold step. rewrite H. pose proof (Z.mod_pos_bound T (2 ^ 64) ltac:(reflexivity)).
  split; [lia|]. change (2 ^ 64)%N with (Z.to_N (2 ^ 64)). lia.
Qed.
Lemma wadd_val n T d : Z.of_N n = (T mod 2 ^ 64)%Z -> Z.of_N (wadd n d) = ((T + d) mod 2 ^ 64)%Z /\ (wadd n d < 2 ^ 64)%N.
Proof.
  intros H. unfold wadd. rewrite H, Zplus_mod_idemp_l. pose proof (Z.mod_pos_bound (T + d) (2 ^ 64) ltac:(reflexivity)).
  split; [lia|]. change (2 ^ 64)%N with (Z.to_N (2 ^ 64)). lia.
Qed.

Lemma validate_code_iff E p code t T : hmac_size E -> (1 <= t_period p)%Z -> in_period t (t_period p) T ->
  validate_code E p code t = None <->
  let c := trim_space code in within 4 (zlen c) 8 /\ zlen c = t_digits p /\ exists T', (T - 1 <= T' <= T + 1)%Z /\ token_code E p T' c.
Proof.
  intros Hh HP HT. cbv zeta. destruct (step_val _ _ _ HP HT) as [S0 B0].
  destruct (wadd_val _ _ 1 S0) as [S1 B1]. destruct (wadd_val _ _ (-1) S0) as [S2 B2].
  unfold validate_code, token_code. set (c := trim_space code). cbv zeta.
  destruct (String.eqb c "") eqn:Ec.
  { apply String.eqb_eq in Ec. rewrite Ec. split; [discriminate|]. intros ([H _] & _). exfalso. change (zlen "") with 0%Z in H. lia. }
  destruct ((zlen c <? 4)%Z || (zlen c >? 8)%Z) eqn:El.
  { split; [discriminate|]. intros ([H1 H2] & _). lia. }
  destruct (zlen c =? t_digits p)%Z eqn:Ed; cbn [negb].
  2:{ split; [discriminate|]. intros (_ & H & _). lia. }
  assert (Hd : (1 <= t_digits p)%Z) by lia.
  assert (G : forall ts T', (ts < 2 ^ 64)%N -> Z.of_N ts = (T' mod 2 ^ 64)%Z ->
    match gen_code E (t_secret p) (t_algorithm p) (t_digits p) ts with inl c' => String.eqb c' c | inr _ => false end = true <->
    code_of E (t_algorithm p) (t_secret p) (Z.to_nat (t_digits p)) T' c).
  { intros ts T' B S. rewrite <- code_of_mod, <- S, <- gen_code_iff by assumption.
    destruct gen_code as [c'|]; [|split; discriminate]. rewrite String.eqb_eq. split; congruence. }
  cbn [existsb]. rewrite orb_false_r. split.
  - intros H. split; [unfold within; lia|]. split; [lia|].
    match type of H with (if ?b then _ else _) = _ => destruct b eqn:X end; [|discriminate]. apply orb_true_iff in X as [X|X]; [|apply orb_true_iff in X as [X|X]].
    + exists T. split; [lia|]. now apply (G _ T B0 S0).
    + exists (T + 1)%Z. split; [lia|]. now apply (G _ _ B1 S1).
    + exists (T + -1)%Z. split; [lia|]. now apply (G _ _ B2 S2).
  - intros (_ & _ & T' & HT' & C). assert (D : (T' = T)%Z \/ (T' = T + 1)%Z \/ (T' = T + -1)%Z) by lia. destruct D as [->|[->| ->]].
    + rewrite (proj2 (G _ _ B0 S0) C). reflexivity.
    + rewrite (proj2 (G _ _ B1 S1) C), orb_true_r. reflexivity.
    + rewrite (proj2 (G _ _ B2 S2) C), !orb_true_r. reflexivity.
Qed.
Lemma code_of_length E a s d T c : code_of E a s d T c -> zlen c = Z.of_nat d /\ Forall (fun x => is_digit x = true) (los c).
Proof. intros (_ & m & v & _ & _ & _ & L & D). apply decimal_val in D as [D _]. split; [unfold zlen; now rewrite <- length_los, L|assumption]. Qed.
Lemma digits_trim s : Forall (fun x => is_digit x = true) (los s) -> trim_space s = s.
Proof.
  intros F. assert (N : forall p a, In p space_seqs -> In a p -> is_digit a = false).
  { assert (X : forallb (fun p => forallb (fun a => negb (is_digit a)) p) space_seqs = true) by reflexivity.
    intros p a Hp Ha. rewrite forallb_forall in X. specialize (X p Hp). rewrite forallb_forall in X. specialize (X a Ha). now destruct (is_digit a). }
  apply trim_space_id. rewrite List.Forall_forall in F. split; intros p r Hp Eq; (destruct p as [|x p]; [now apply space_seqs_ne in Hp|]).
  - specialize (N _ x Hp (or_introl eq_refl)). rewrite F in N; [discriminate|]. rewrite Eq. now left.
  - specialize (N _ x Hp (or_introl eq_refl)). rewrite F in N; [discriminate|]. rewrite Eq. apply in_app_iff. right. now left.
Qed.
