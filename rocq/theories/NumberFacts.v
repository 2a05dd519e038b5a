(** Lemmas about number literals: [parse_float] rounds correctly. *)
From Coq Require Import String Ascii ZArith NArith Lia Bool Arith List Reals Lra ZifyBool ZifyN ZifyNat.
From Flocq Require Import Core.
From Verif Require Import GoStr Codec Json WebAuthn SpecNumber.
Import ListNotations.
Open Scope string_scope.

(** ** Rounding of a quotient *)
Lemma round_even_near n d : (0 < d)%Z -> round_even n d = ZnearestE (IZR n / IZR d).
Proof.
  intros Hd. assert (Hd' : (0 < IZR d)%R) by now apply IZR_lt. unfold round_even, Znearest. rewrite Zfloor_div by lia. set (q := (n / d)%Z).
  assert (Hx : (IZR n / IZR d - IZR q)%R = (IZR (n - q * d) / IZR d)%R). { rewrite minus_IZR, mult_IZR. field. lra. }
  assert (Hr : (0 <= n - q * d < d)%Z). { pose proof (Z.div_mod n d ltac:(lia)). pose proof (Z.mod_pos_bound n d Hd). unfold q. nia. }
  rewrite Hx. set (r := (n - q * d)%Z) in *.
  assert (C : Rcompare (IZR r / IZR d) (/ 2) = Z.compare (2 * r) d).
  { rewrite <- (Rcompare_mult_r (2 * IZR d)) by lra. replace (IZR r / IZR d * (2 * IZR d))%R with (IZR (2 * r)) by (rewrite mult_IZR; field; lra).
    replace (/ 2 * (2 * IZR d))%R with (IZR d) by field. apply Rcompare_IZR. }
  rewrite C.
  assert (Hc : (2 * r >= d)%Z -> Zceil (IZR n / IZR d) = (q + 1)%Z).
  { intros G. rewrite Zceil_floor_neq; [now rewrite Zfloor_div by lia|]. rewrite Zfloor_div by lia. fold q. intros K.
    assert (IZR r / IZR d = 0)%R by (rewrite <- Hx, K; ring). assert (IZR r = 0)%R by (replace (IZR r) with (IZR r / IZR d * IZR d)%R by (field; lra); rewrite H; ring).
    apply eq_IZR in H0. lia. }
  destruct (Z.compare_spec (2 * r) d) as [E|L|G].
  - replace (2 * r <? d)%Z with false by lia. replace (d <? 2 * r)%Z with false by lia. destruct (Z.even q); cbn [negb]; [reflexivity|]. symmetry. apply Hc. lia.
  - replace (2 * r <? d)%Z with true by lia. reflexivity.
  - replace (2 * r <? d)%Z with false by lia. replace (d <? 2 * r)%Z with true by lia. symmetry. apply Hc. lia.
Qed.
Lemma IZR_pow2 k : (0 <= k)%Z -> IZR (2 ^ k) = bpow radix2 k.
Proof. intros H. now rewrite <- (IZR_Zpower radix2). Qed.
Lemma pow2_le_spec k n d : (0 < d)%Z -> pow2_le k n d = true <-> (bpow radix2 k <= IZR n / IZR d)%R.
Proof.
  intros Hd. assert (Hd' : (0 < IZR d)%R) by now apply IZR_lt. unfold pow2_le.
  assert (A : (bpow radix2 k <= IZR n / IZR d)%R <-> (bpow radix2 k * IZR d <= IZR n)%R).
  { split; intros H.
    - apply (Rmult_le_compat_r (IZR d)) in H; [|lra]. replace (IZR n / IZR d * IZR d)%R with (IZR n) in H by (field; lra). exact H.
    - apply (Rmult_le_reg_r (IZR d)); [lra|]. replace (IZR n / IZR d * IZR d)%R with (IZR n) by (field; lra). exact H. }
  rewrite A. destruct (Z.leb_spec 0 k) as [P|N].
  - rewrite Z.leb_le, <- IZR_pow2, <- mult_IZR by lia. split; [apply IZR_le|apply le_IZR].
  - rewrite Z.leb_le. pose proof (bpow_gt_0 radix2 k) as B. pose proof (bpow_gt_0 radix2 (- k)) as B'. assert (M : (bpow radix2 k * bpow radix2 (- k) = 1)%R) by (rewrite <- bpow_plus; now replace (k + - k)%Z with 0%Z by lia).
    split; intros H.
    + apply IZR_le in H. rewrite mult_IZR, IZR_pow2 in H by lia. apply (Rmult_le_compat_l (bpow radix2 k)) in H; [|lra].
      replace (bpow radix2 k * (IZR n * bpow radix2 (- k)))%R with (IZR n * (bpow radix2 k * bpow radix2 (- k)))%R in H by ring. rewrite M in H. lra.
    + apply le_IZR. rewrite mult_IZR, IZR_pow2 by lia. apply (Rmult_le_reg_l (bpow radix2 k)); [exact B|].
      replace (bpow radix2 k * (IZR n * bpow radix2 (- k)))%R with (IZR n * (bpow radix2 k * bpow radix2 (- k)))%R by ring. rewrite M. lra.
Qed.
(** The binary exponent of a quotient. *)
Lemma quotient_mag n d : (0 < n)%Z -> (0 < d)%Z ->
  let k0 := (Z.log2 n - Z.log2 d)%Z in let k := if pow2_le k0 n d then k0 else (k0 - 1)%Z in
  (bpow radix2 k <= IZR n / IZR d < bpow radix2 (k + 1))%R.
Proof.
  intros Hn Hd k0 k. assert (Hn' : (0 < IZR n)%R) by now apply IZR_lt. assert (Hd' : (0 < IZR d)%R) by now apply IZR_lt.
  destruct (Z.log2_spec n Hn) as [N1 N2], (Z.log2_spec d Hd) as [D1 D2]. pose proof (Z.log2_nonneg n) as Ln. pose proof (Z.log2_nonneg d) as Ld.
  apply IZR_le in N1, D1. apply IZR_lt in N2, D2. rewrite IZR_pow2 in N1, N2, D1, D2 by lia.
  assert (U : (IZR n / IZR d < bpow radix2 (k0 + 1))%R).
  { apply (Rmult_lt_reg_r (IZR d)); [lra|]. replace (IZR n / IZR d * IZR d)%R with (IZR n) by (field; lra).
    apply Rlt_le_trans with (1 := N2). replace (Z.succ (Z.log2 n)) with (k0 + 1 + Z.log2 d)%Z by lia. rewrite bpow_plus. apply Rmult_le_compat_l; [apply bpow_ge_0|exact D1]. }
  assert (L : (bpow radix2 (k0 - 1) <= IZR n / IZR d)%R).
  { apply (Rmult_le_reg_r (IZR d)); [lra|]. replace (IZR n / IZR d * IZR d)%R with (IZR n) by (field; lra).
    apply Rle_trans with (2 := N1). replace (Z.log2 n) with (k0 - 1 + Z.succ (Z.log2 d))%Z by lia. rewrite bpow_plus. apply Rmult_le_compat_l; [apply bpow_ge_0|lra]. }
  subst k. destruct (pow2_le k0 n d) eqn:P.
  - apply pow2_le_spec in P; [|lia]. split; [exact P|exact U].
  - split; [exact L|]. replace (k0 - 1 + 1)%Z with k0 by lia. destruct (Rle_lt_dec (bpow radix2 k0) (IZR n / IZR d)) as [Q|Q]; [|exact Q].
    apply pow2_le_spec in Q; [congruence|lia].
Qed.
Lemma round64_spec n d : (0 < n)%Z -> (0 < d)%Z ->
  match round64 n d with
  | Some (m, e) => nearest64 (IZR n / IZR d) = (IZR m * bpow radix2 e)%R /\ (nearest64 (IZR n / IZR d) < bpow radix2 1024)%R
  | None => (bpow radix2 1024 <= nearest64 (IZR n / IZR d))%R
  end.
Proof.
  intros Hn Hd. pose proof (quotient_mag n d Hn Hd) as K. cbv zeta in K. unfold round64.
  set (k := if pow2_le (Z.log2 n - Z.log2 d) n d then (Z.log2 n - Z.log2 d)%Z else (Z.log2 n - Z.log2 d - 1)%Z) in *.
  set (e := Z.max (k - 52) (-1074)). set (x := (IZR n / IZR d)%R) in *. assert (Hd' : (0 < IZR d)%R) by now apply IZR_lt.
  pose proof (bpow_gt_0 radix2 k) as Bk.
  assert (MG : mag radix2 x = (k + 1)%Z :> Z) by (apply mag_unique_pos; replace (k + 1 - 1)%Z with k by lia; exact K).
  assert (CE : cexp radix2 (FLT_exp (-1074) 53) x = e) by (unfold cexp, FLT_exp; rewrite MG; unfold e; lia).
  set (m := if (0 <=? e)%Z then round_even n (d * 2 ^ e) else round_even (n * 2 ^ (- e)) d).
  assert (ME : m = ZnearestE (x * bpow radix2 (- e))).
  { unfold m. destruct (Z.leb_spec 0 e) as [P|N].
    - assert (0 < 2 ^ e)%Z by (apply Z.pow_pos_nonneg; lia). rewrite round_even_near by nia. f_equal. unfold x. rewrite mult_IZR, IZR_pow2, bpow_opp by lia. field. pose proof (bpow_gt_0 radix2 e). lra.
    - rewrite round_even_near by lia. f_equal. unfold x. rewrite mult_IZR, IZR_pow2 by lia. field. lra. }
  assert (RX : nearest64 x = (IZR m * bpow radix2 e)%R).
  { unfold nearest64, round, scaled_mantissa, F2R. cbn [Fnum Fexp]. now rewrite CE, ME. }
  assert (V : Valid_exp (FLT_exp (-1074) 53)) by (apply FLT_exp_valid; reflexivity).
  assert (LE : forall j, (-1074 <= j)%Z -> (bpow radix2 j <= x)%R -> (bpow radix2 j <= nearest64 x)%R).
  { intros j Hj H. apply round_ge_generic; [exact V|apply valid_rnd_N| |exact H]. apply generic_format_FLT_bpow; [reflexivity|exact Hj]. }
  assert (GE : forall j, (-1074 <= j)%Z -> (x <= bpow radix2 j)%R -> (nearest64 x <= bpow radix2 j)%R).
  { intros j Hj H. apply round_le_generic; [exact V|apply valid_rnd_N| |exact H]. apply generic_format_FLT_bpow; [reflexivity|exact Hj]. }
  destruct ((e + 53 >? 1024)%Z || ((e =? 971)%Z && (m =? 2 ^ 53)%Z)) eqn:O.
  - destruct (Z.gtb_spec (e + 53) 1024) as [G|G].
    + apply LE; [lia|]. apply Rle_trans with (bpow radix2 k); [apply bpow_le; lia|apply K].
    + cbn [orb] in O. rewrite RX. replace m with (2 ^ 53)%Z by lia. replace e with 971%Z by lia. rewrite IZR_pow2 by lia. rewrite <- bpow_plus. apply bpow_le. lia.
  - split; [exact RX|]. destruct (Z.gtb_spec (e + 53) 1024) as [G|G]; [discriminate O|]. cbn [orb] in O.
    destruct (Z.eq_dec e 971) as [E|E].
    + assert (B : (nearest64 x <= bpow radix2 1024)%R). { apply GE; [lia|]. replace 1024%Z with (k + 1)%Z by lia. lra. }
      destruct (Rle_lt_or_eq_dec _ _ B) as [L|Q]; [exact L|exfalso]. rewrite RX, E in Q. replace 1024%Z with (53 + 971)%Z in Q by lia. rewrite bpow_plus in Q.
      apply Rmult_eq_reg_r in Q; [|pose proof (bpow_gt_0 radix2 971); lra]. rewrite <- IZR_pow2 in Q by lia. apply eq_IZR in Q. lia.
    + apply Rle_lt_trans with (bpow radix2 (Z.max (k + 1) (-1074))).
      * apply GE; [lia|]. apply Rle_trans with (bpow radix2 (k + 1)); [lra|]. apply bpow_le. lia.
      * apply bpow_lt. lia.
Qed.

(** ** Literals *)
Lemma decimal_digit_iff a : decimal_digit a <-> is_digit a = true.
Proof. unfold decimal_digit, is_digit. lia. Qed.
Lemma digits_value_val l : Forall decimal_digit l -> digits_value l = Z.of_N (dec_val_l l 0).
Proof.
  unfold digits_value. change 0%Z with (Z.of_N 0) at 1. generalize 0%N. induction l as [|a l IH]; intros n F; [reflexivity|]. inversion F as [|x y Ha F']; subst.
  cbn [fold_left dec_val_l]. rewrite <- IH by exact F'. f_equal. unfold decimal_digit in Ha. lia.
Qed.
Lemma span_digits_all l r : Forall decimal_digit l -> (match r with [] => True | a :: _ => is_digit a = false end) -> span_digits (l ++ r)%list = (l, r).
Proof.
  intros F Hr. induction F as [|a l Ha F IH]; cbn [app].
  - destruct r as [|a r]; [reflexivity|]. cbn. now rewrite Hr.
  - cbn [span_digits]. apply decimal_digit_iff in Ha. now rewrite Ha, IH.
Qed.
Lemma digit_ne a b : decimal_digit a -> is_digit b = false -> Ascii.eqb a b = false.
Proof. intros Ha Hb. apply decimal_digit_iff in Ha. destruct (Ascii.eqb_spec a b); [congruence|reflexivity]. Qed.
Definition exp_value (l : list ascii) : Z :=
  match l with
  | _ :: a :: t => if Ascii.eqb a "-" then (- Z.of_N (dec_val_l t 0))%Z
                   else if Ascii.eqb a "+" then Z.of_N (dec_val_l t 0) else Z.of_N (dec_val_l (a :: t) 0)
  | _ => 0%Z
  end.
Lemma exp_value_spec et e : exponent et e -> exp_value et = e.
Proof.
  intros [|a l z Ha [t N F|t N F|t N F]]; [reflexivity| | |].
  - destruct t as [|b t]; [congruence|]. cbn [exp_value]. inversion F as [|? ? Hb F']; subst. rewrite !digit_ne by (try exact Hb; reflexivity). now rewrite digits_value_val.
  - cbn [exp_value]. cbn. now rewrite digits_value_val.
  - cbn [exp_value]. cbn. now rewrite digits_value_val.
Qed.
Lemma exponent_first et e : exponent et e -> match et with [] => True | a :: _ => is_digit a = false /\ Ascii.eqb a "." = false end.
Proof. intros [|a l z [-> | ->] _]; [exact I|now split|now split]. Qed.
Definition body_parts (l : list ascii) : Z * Z :=
  let '(i, l) := span_digits l in
  let '(f, l) := match l with a :: t => if Ascii.eqb a "." then span_digits t else ([], l) | [] => ([], []) end in
  (Z.of_N (dec_val_l (i ++ f)%list 0), (exp_value l - Z.of_nat (List.length f))%Z).
Lemma num_parts_body l : num_parts l =
  match l with a :: t => if Ascii.eqb a "-" then (true, fst (body_parts t), snd (body_parts t)) else (false, fst (body_parts l), snd (body_parts l))
          | [] => (false, 0%Z, 0%Z) end.
Proof.
  unfold num_parts, body_parts, exp_value. destruct l as [|a t]; [reflexivity|]. destruct (Ascii.eqb a "-").
  - destruct (span_digits t) as [i l]. destruct (match l with [] => ([], []) | a0 :: t0 => if Ascii.eqb a0 "." then span_digits t0 else ([], l) end) as [f l']. reflexivity.
  - destruct (span_digits (a :: t)) as [i l]. destruct (match l with [] => ([], []) | a0 :: t0 => if Ascii.eqb a0 "." then span_digits t0 else ([], l) end) as [f l']. reflexivity.
Qed.
Lemma body_spec i ft f et e : i <> [] -> Forall decimal_digit i -> fraction ft f -> exponent et e ->
  body_parts (i ++ ft ++ et)%list = (digits_value (i ++ f)%list, (e - Z.of_nat (List.length f))%Z).
Proof.
  intros N Fi Ff Fe. pose proof (exponent_first _ _ Fe) as X. unfold body_parts. destruct Ff as [|l Nl Fl].
  - cbn [app]. rewrite span_digits_all; [|exact Fi|destruct et; tauto]. rewrite app_nil_r.
    rewrite (digits_value_val i), <- (exp_value_spec _ _ Fe) by exact Fi.
    destruct et as [|a et]; [now rewrite app_nil_r|]. destruct X as [_ ->]. now rewrite app_nil_r.
  - rewrite span_digits_all; [|exact Fi|reflexivity]. cbn [app]. change (Ascii.eqb "." ".") with true. cbv iota. rewrite span_digits_all; [|exact Fl|destruct et; tauto].
    now rewrite (exp_value_spec _ _ Fe), digits_value_val by (apply Forall_app; now split).
Qed.

Lemma num_parts_spec l v : literal l v -> exists neg D e, num_parts l = (neg, D, e) /\ (0 <= D)%Z /\ v = ((if neg : bool then -1 else 1) * (IZR D * powerRZ 10 e))%R.
Proof.
  intros [l' v' H|l' v' H]; destruct H as [i ft f et e N Fi Ff Fe]; rewrite num_parts_body.
  - destruct (i ++ ft ++ et)%list as [|a t] eqn:E; [destruct i; [congruence|discriminate]|].
    assert (Ascii.eqb a "-" = false) as -> by (destruct i as [|b i]; [congruence|]; injection E as <- _; inversion Fi; subst; now apply digit_ne).
    rewrite <- E, (body_spec i ft f et e) by assumption. exists false, (digits_value (i ++ f)), (e - Z.of_nat (List.length f))%Z. split; [reflexivity|]. split; [|ring].
    rewrite digits_value_val; [lia|]. apply Forall_app. split; [exact Fi|]. now destruct Ff.
  - change (Ascii.eqb "-" "-") with true. cbv iota. rewrite (body_spec i ft f et e) by assumption. exists true, (digits_value (i ++ f)), (e - Z.of_nat (List.length f))%Z.
    split; [reflexivity|]. split; [|ring]. rewrite digits_value_val; [lia|]. apply Forall_app. split; [exact Fi|]. now destruct Ff.
Qed.
Lemma IZR_pow10 k : (0 <= k)%Z -> IZR (10 ^ k) = powerRZ 10 k.
Proof. intros H. rewrite <- (Z2Nat.id k H), <- pow_IZR, <- pow_powerRZ. reflexivity. Qed.
Lemma powerRZ_bpow k : powerRZ 2 k = bpow radix2 k.
Proof. symmetry. apply bpow_powerRZ. Qed.
Lemma nearest64_opp v : nearest64 (- v) = (- nearest64 v)%R.
Proof. apply round_NE_opp. Qed.
Lemma nearest64_pos v : (0 <= v)%R -> (0 <= nearest64 v)%R.
Proof. intros H. unfold nearest64. rewrite <- (round_0 radix2 (FLT_exp (-1074) 53) ZnearestE). apply round_le; [apply FLT_exp_valid; reflexivity|apply valid_rnd_N|exact H]. Qed.
(** What [parse_float] makes of a mantissa and an exponent of two. *)
Definition whole (m e : Z) : option Z :=
  if (0 <=? e)%Z then Some (m * 2 ^ e)%Z else if (m mod 2 ^ (- e) =? 0)%Z then Some (m / 2 ^ (- e))%Z else None.
Lemma whole_spec m e z : whole m e = Some z <-> (IZR m * bpow radix2 e)%R = IZR z.
Proof.
  unfold whole. destruct (Z.leb_spec 0 e) as [P|N].
  - rewrite <- IZR_pow2, <- mult_IZR by exact P. split; [intros [= <-]; reflexivity|intros H; apply eq_IZR in H; congruence].
  - assert (Hp : (0 < 2 ^ (- e))%Z) by (apply Z.pow_pos_nonneg; lia). assert (A : (IZR m * bpow radix2 e)%R = IZR z <-> m = (z * 2 ^ (- e))%Z).
    { pose proof (bpow_gt_0 radix2 e) as B. assert (M : (bpow radix2 e * bpow radix2 (- e) = 1)%R) by (rewrite <- bpow_plus; now replace (e + - e)%Z with 0%Z by lia).
      split; intros H.
      - apply eq_IZR. rewrite mult_IZR, IZR_pow2, <- H by lia. rewrite Rmult_assoc, M. ring.
      - rewrite H, mult_IZR, IZR_pow2 by lia. rewrite Rmult_assoc, (Rmult_comm (bpow radix2 (- e))), M. ring. }
    rewrite A. destruct (Z.eqb_spec (m mod 2 ^ (- e)) 0) as [Q|Q].
    + split; [intros [= <-]|intros ->; now rewrite Z.div_mul by lia]. pose proof (Z.div_mod m (2 ^ (- e)) ltac:(lia)). lia.
    + split; [discriminate|]. intros ->. rewrite Z.mod_mul in Q by lia. congruence.
Qed.
Theorem parse_float_spec lit v : literal (los lit) v ->
  (parse_float lit = None <-> overflows v) /\
  forall z, parse_float lit = Some (Some z) <-> (~ overflows v /\ nearest64 v = IZR z).
Proof.
  intros L. destruct (num_parts_spec _ _ L) as (neg & D & e10 & P & HD & ->). unfold parse_float, overflows. rewrite P, powerRZ_bpow.
  set (w := (IZR D * powerRZ 10 e10)%R).
  assert (S : nearest64 ((if neg then -1 else 1) * w) = ((if neg then -1 else 1) * nearest64 w)%R).
  { destruct neg; [|now rewrite !Rmult_1_l]. replace (-1 * w)%R with (- w)%R by ring. rewrite nearest64_opp. ring. }
  rewrite S. assert (T10 : (0 < powerRZ 10 e10)%R) by (apply powerRZ_lt; lra).
  assert (Hw : (0 <= w)%R) by (apply Rmult_le_pos; [now apply IZR_le|lra]). pose proof (nearest64_pos w Hw) as Hn.
  assert (A : Rabs ((if neg then -1 else 1) * nearest64 w) = nearest64 w).
  { rewrite Rabs_mult, (Rabs_pos_eq (nearest64 w)) by exact Hn. destruct neg; [rewrite Rabs_left by lra|rewrite Rabs_pos_eq by lra]; ring. }
  rewrite A. destruct (Z.eqb_spec D 0) as [Z0|NZ].
  - assert (E0 : nearest64 w = 0%R). { unfold w. rewrite Z0, Rmult_0_l. unfold nearest64. apply round_0. apply valid_rnd_N. }
    rewrite E0. pose proof (bpow_gt_0 radix2 1024) as B. split; [split; [discriminate|lra]|]. intros z. rewrite Rmult_0_r. split.
    + intros [= <-]. split; [lra|reflexivity].
    + intros [_ H]. do 2 f_equal. now apply eq_IZR.
  - set (nd := if (0 <=? e10)%Z then (D * 10 ^ e10, 1)%Z else (D, 10 ^ (- e10))%Z).
    assert (Q : (0 < fst nd)%Z /\ (0 < snd nd)%Z /\ w = (IZR (fst nd) / IZR (snd nd))%R).
    { unfold nd, w. destruct (Z.leb_spec 0 e10) as [G|G]; cbn [fst snd].
      - assert (0 < 10 ^ e10)%Z by (apply Z.pow_pos_nonneg; lia). split; [nia|]. split; [lia|]. rewrite mult_IZR, IZR_pow10 by lia. field.
      - assert (0 < 10 ^ (- e10))%Z by (apply Z.pow_pos_nonneg; lia). split; [lia|]. split; [lia|]. rewrite IZR_pow10 by lia. rewrite powerRZ_neg'. field.
        apply powerRZ_NOR. lra. }
    destruct nd as [n d]. cbn [fst snd] in Q. destruct Q as (Qn & Qd & Qw). pose proof (round64_spec n d Qn Qd) as R. rewrite <- Qw in R.
    destruct (round64 n d) as [[m e]|].
    + destruct R as [R1 R2]. split; [split; [discriminate|lra]|]. intros z. fold (whole m e). rewrite R1. pose proof (whole_spec m e) as W.
      assert (R3 : ~ (bpow radix2 1024 <= IZR m * bpow radix2 e)%R) by lra. clear -W R3. destruct neg.
      * split.
        -- destruct (whole m e) as [y|] eqn:Y; [|discriminate]. intros [= <-]. pose proof (proj1 (W y) eq_refl) as Y'. split; [exact R3|]. rewrite Y', opp_IZR. ring.
        -- intros [_ H]. assert (K : (IZR m * bpow radix2 e)%R = IZR (- z)) by (rewrite opp_IZR; lra). apply W in K. rewrite K. cbn. do 2 f_equal. lia.
      * rewrite Rmult_1_l. rewrite <- W. split.
        -- destruct (whole m e) as [y|]; [|discriminate]. intros [= <-]. now split.
        -- intros [_ ->]. reflexivity.
    + split; [split; [intros _; exact R|reflexivity]|]. intros z. split; [discriminate|]. intros [H _]. contradiction.
Qed.

(** ** Numbers of parsed texts are literals *)
Lemma span_digits_spec l x r : span_digits l = (x, r) -> Forall decimal_digit x.
Proof.
  revert x r. induction l as [|a l IH]; intros x r; cbn [span_digits]; [intros [= <- _]; constructor|]. destruct (is_digit a) eqn:D; [|intros [= <- _]; constructor].
  destruct (span_digits l) as [y r'] eqn:E. intros [= <- _]. constructor; [now apply decimal_digit_iff|eapply IH; reflexivity].
Qed.
Lemma scan_int_spec l x r : scan_int l = Some (x, r) -> x <> [] /\ Forall decimal_digit x.
Proof.
  unfold scan_int. destruct l as [|a l]; [discriminate|]. destruct (Ascii.eqb_spec a "0") as [->|_].
  - intros [= <- _]. split; [discriminate|]. repeat constructor; vm_compute; discriminate.
  - destruct (is_digit a) eqn:D; [|discriminate]. destruct (span_digits (a :: l)) as [y r'] eqn:E. intros [= <- _]. split; [|eapply span_digits_spec, E].
    cbn [span_digits] in E. rewrite D in E. destruct (span_digits l). injection E as <- _. discriminate.
Qed.
Lemma scan_frac_spec l x r : scan_frac l = Some (x, r) -> exists f, fraction x f.
Proof.
  unfold scan_frac. destruct l as [|a l]; [intros [= <- _]; eexists; constructor|]. destruct (Ascii.eqb_spec a ".") as [->|_]; [|intros [= <- _]; eexists; constructor].
  destruct (span_digits l) as [y r'] eqn:E. apply span_digits_spec in E. destruct y as [|b y]; [discriminate|]. intros [= <- _]. exists (b :: y). constructor; [discriminate|exact E].
Qed.
Lemma scan_exp_spec l x r : scan_exp l = Some (x, r) -> exists e, exponent x e.
Proof.
  unfold scan_exp. destruct l as [|a l]; [intros [= <- _]; eexists; constructor|]. destruct (Ascii.eqb a "e" || Ascii.eqb a "E") eqn:A; [|intros [= <- _]; eexists; constructor].
  assert (A' : a = "e"%char \/ a = "E"%char). { destruct (Ascii.eqb_spec a "e"), (Ascii.eqb_spec a "E"); try discriminate; tauto. }
  destruct l as [|b t].
  { cbn. discriminate. }
  destruct (Ascii.eqb b "+" || Ascii.eqb b "-") eqn:B.
  - destruct (span_digits t) as [y r'] eqn:E. apply span_digits_spec in E. destruct y as [|c y]; [discriminate|]. intros [= <- _].
    destruct (Ascii.eqb_spec b "+") as [->|_]; [eexists; apply ExSome; [exact A'|]; cbn; constructor; [discriminate|exact E]|].
    destruct (Ascii.eqb_spec b "-") as [->|_]; [|discriminate]. eexists; apply ExSome; [exact A'|]; cbn; constructor; [discriminate|exact E].
  - destruct (span_digits (b :: t)) as [y r'] eqn:E. apply span_digits_spec in E. destruct y as [|c y]; [discriminate|]. intros [= <- _].
    eexists. apply ExSome; [exact A'|]. cbn. constructor; [discriminate|exact E].
Qed.
Lemma scan_num_literal l x r : scan_num l = Some (x, r) -> exists v, literal x v.
Proof.
  unfold scan_num. destruct (match l with [] => ([], []) | a :: t => if Ascii.eqb a "-" then ([a], t) else ([], l) end) as [sg l1] eqn:S.
  destruct (scan_int l1) as [[i l2]|] eqn:I; [|discriminate]. destruct (scan_frac l2) as [[f l3]|] eqn:F; [|discriminate]. destruct (scan_exp l3) as [[e l4]|] eqn:X; [|discriminate].
  intros [= <- _]. apply scan_int_spec in I as [I1 I2]. apply scan_frac_spec in F as [fd F]. apply scan_exp_spec in X as [ev X].
  assert (U := Literal i f fd e ev I1 I2 F X). assert (Sg : sg = [] \/ sg = ["-"%char]).
  { destruct l as [|a t]; [injection S as <- _; now left|]. destruct (Ascii.eqb_spec a "-") as [->|_]; injection S as <- _; [now right|now left]. }
  destruct Sg as [ -> | -> ]; eexists; [apply LitPos; exact U|apply LitNeg; exact U].
Qed.
