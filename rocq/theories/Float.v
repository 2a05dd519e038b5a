(** The float64 arithmetic of the time step (C42), in the IEEE 754 formalisation of Flocq. *)
From Coq Require Import ZArith Reals Lia Lra.
From Flocq Require Import Core IEEE754.BinarySingleNaN Relative.
Open Scope Z_scope.

Definition prec_pos : Prec_gt_0 53 := eq_refl.
Definition prec_emax : Prec_lt_emax 53 1024 := eq_refl.
(** float64 *)
Definition float64 : Type := binary_float 53 1024.
(** mfa_token.go:461: [float64(z)] rounds to nearest, ties to even. *)
Definition float_of (z : Z) : float64 := @binary_normalize 53 1024 prec_pos prec_emax mode_NE z 0 false.
(** mfa_token.go:461: [/] *)
Definition float_div (x y : float64) : float64 := @Bdiv 53 1024 prec_pos prec_emax mode_NE x y.
(** mfa_token.go:461: [math.Floor] rounds to an integer towards minus infinity. *)
Definition float_floor (x : float64) : float64 := @Bnearbyint 53 1024 prec_emax mode_DN x.
(** mfa_token.go:461: [uint64(f)] drops the fraction; of a value outside the range of uint64 it is
    implementation-defined in Go, here it is the integer itself. *)
Definition float_int (x : float64) : Z := Btrunc x.
(** mfa_token.go:461: [uint64(math.Floor(float64(ts.Unix()) / float64(p.Period)))] *)
Definition float_step (unix period : Z) : Z := float_int (float_floor (float_div (float_of unix) (float_of period))).

(** ** Rounding *)
Notation fexp := (SpecFloat.fexp 53 1024).
Notation RN := (round radix2 fexp (round_mode mode_NE)).
#[local] Existing Instance prec_pos.
#[local] Instance vexp : Valid_exp fexp := FLT_exp_valid _ _.

Lemma int_format z : Z.abs z <= 2 ^ 53 -> generic_format radix2 fexp (IZR z).
Proof.
  intros H. destruct (Z.eq_dec (Z.abs z) (2 ^ 53)) as [E|N].
  - assert (B : generic_format radix2 fexp (bpow radix2 53)) by (apply generic_format_bpow; cbv; discriminate).
    assert (z = 2 ^ 53 \/ z = - 2 ^ 53) as [->| ->] by lia; [exact B|].
    replace (IZR (- 2 ^ 53)) with (- bpow radix2 53)%R by (change (bpow radix2 53) with (IZR (2 ^ 53)); now rewrite opp_IZR). now apply generic_format_opp.
  - apply generic_format_FLT. exists (Float radix2 z 0).
    + unfold F2R. cbn. ring.
    + cbn [Fnum]. change (Zpower radix2 53) with (2 ^ 53). lia.
    + cbn. lia.
Qed.
Lemma small z : Z.abs z <= 2 ^ 53 -> (Rabs (IZR z) < bpow radix2 1024)%R.
Proof.
  intros H. rewrite <- abs_IZR. apply Rle_lt_trans with (bpow radix2 53); [|apply bpow_lt; lia].
  change (bpow radix2 53) with (IZR (2 ^ 53)). now apply IZR_le.
Qed.
Lemma float_of_spec z : Z.abs z <= 2 ^ 53 -> B2R (float_of z) = IZR z /\ is_finite (float_of z) = true.
Proof.
  intros H. pose proof (binary_normalize_correct 53 1024 prec_pos prec_emax mode_NE z 0 false) as C. cbv zeta in C.
  assert (F : F2R (Float radix2 z 0) = IZR z) by (unfold F2R; cbn; ring). rewrite F in C.
  rewrite (round_generic _ _ _ (IZR z) (int_format z H)) in C. rewrite Rlt_bool_true in C by now apply small.
  split; apply C.
Qed.
Lemma quotient_between n d : 0 <= n < 2 ^ 53 -> 1 <= d ->
  (IZR (n / d) <= RN (IZR n / IZR d) < IZR (n / d + 1))%R.
Proof.
  intros Hn Hd. pose proof (Z.div_mod n d ltac:(lia)) as D. pose proof (Z.mod_pos_bound n d ltac:(lia)) as M.
  assert (0 <= n / d <= n). { split; [apply Z.div_pos; lia|]. apply Z.div_le_upper_bound; nia. }
  set (k := n / d) in *. assert (Pd : (0 < IZR d)%R) by (apply IZR_lt; lia).
  assert (Q1 : (IZR k <= IZR n / IZR d)%R).
  { apply Rmult_le_reg_r with (IZR d); [assumption|]. unfold Rdiv. rewrite Rmult_assoc, Rinv_l, Rmult_1_r by lra. rewrite <- mult_IZR. apply IZR_le. nia. }
  assert (Q2 : (IZR n / IZR d <= IZR (k + 1) - / IZR d)%R).
  { apply Rmult_le_reg_r with (IZR d); [assumption|]. unfold Rdiv, Rminus. rewrite Rmult_plus_distr_r, Rmult_assoc, Ropp_mult_distr_l_reverse, Rinv_l, Rmult_1_r by lra.
    rewrite <- mult_IZR, <- opp_IZR, <- plus_IZR. apply IZR_le. nia. }
  assert (Pi : (0 < / IZR d)%R) by now apply Rinv_0_lt_compat.
  split.
  - apply round_ge_generic; [apply vexp|apply valid_rnd_N|apply int_format; lia|assumption].
  - destruct (Z.eq_dec n 0) as [->|Nn].
    { unfold Rdiv. rewrite Rmult_0_l, round_0 by apply valid_rnd_N. apply IZR_lt. lia. }
    apply Rnot_le_lt. intros L.
    assert (Pq : (0 < IZR n / IZR d)%R) by (apply Rdiv_lt_0_compat; [apply IZR_lt; lia|assumption]).
    (* below 1/d the quotient is at least the smallest normal number *)
    destruct (Rle_lt_dec (bpow radix2 (-1022)) (IZR n / IZR d)) as [Lq|Lq].
    + pose proof (relative_error_N_FLT radix2 (-1074) 53 prec_pos (fun x => negb (Z.even x)) (IZR n / IZR d)) as RE.
      specialize (RE ltac:(rewrite Rabs_pos_eq by lra; exact Lq)).
      change (FLT_exp (-1074) 53) with fexp in RE. change (ZnearestE) with (round_mode mode_NE) in RE.
      rewrite (Rabs_pos_eq (IZR n / IZR d)) in RE by lra. rewrite Rabs_pos_eq in RE by lra.
      assert (E1 : (/ IZR d <= / 2 * bpow radix2 (- (53) + 1) * (IZR n / IZR d))%R) by lra.
      replace (/ 2 * bpow radix2 (- (53) + 1))%R with (/ IZR (2 ^ 53))%R in E1.
      2:{ cbn. lra. }
      unfold Rdiv in E1. rewrite <- Rmult_assoc in E1.
      assert (E2 : (1 <= / IZR (2 ^ 53) * IZR n)%R). { apply Rmult_le_reg_r with (/ IZR d)%R; [assumption|]. rewrite Rmult_1_l. exact E1. }
      assert (P53 : (0 < IZR (2 ^ 53))%R) by (apply IZR_lt; lia).
      apply Rmult_le_compat_l with (r := IZR (2 ^ 53)) in E2; [|lra]. rewrite Rmult_1_r, <- Rmult_assoc, Rinv_r, Rmult_1_l in E2 by lra.
      apply le_IZR in E2. lia.
    + (* a subnormal quotient rounds to at most the smallest normal number *)
      assert (B : generic_format radix2 fexp (bpow radix2 (-1022))) by (apply generic_format_bpow; cbv; discriminate).
      assert (L2 : (RN (IZR n / IZR d) <= bpow radix2 (-1022))%R) by (apply round_le_generic; [apply vexp|apply valid_rnd_N|assumption|lra]).
      assert (L3 : (bpow radix2 (-1022) < 1)%R) by (change 1%R with (bpow radix2 0); apply bpow_lt; lia).
      assert (L4 : (1 <= IZR (k + 1))%R) by (apply IZR_le; lia). lra.
Qed.
(** ** The time step *)
Lemma floor_between (x : R) k : (IZR k <= x < IZR (k + 1))%R -> Zfloor x = k.
Proof. intros H. apply Zfloor_imp. exact H. Qed.
Lemma fix0_round (rnd : R -> Z) x : round radix2 (FIX_exp 0) rnd x = IZR (rnd x).
Proof. unfold round, scaled_mantissa, cexp, FIX_exp, F2R. cbn. now rewrite !Rmult_1_r. Qed.
Lemma float_step_exact unix period : 0 <= unix < 2 ^ 53 -> 1 <= period < 2 ^ 53 -> float_step unix period = unix / period.
Proof.
  intros Hu Hp. destruct (float_of_spec unix) as [U1 U2]; [lia|]. destruct (float_of_spec period) as [P1 P2]; [lia|].
  assert (NZ : B2R (float_of period) <> 0%R) by (rewrite P1; apply IZR_neq; lia).
  pose proof (Bdiv_correct 53 1024 prec_pos prec_emax mode_NE (float_of unix) (float_of period) NZ) as C.
  rewrite U1, P1 in C. pose proof (quotient_between unix period Hu ltac:(lia)) as Q.
  assert (K : 0 <= unix / period <= unix). { split; [apply Z.div_pos; lia|]. apply Z.div_le_upper_bound; nia. }
  rewrite Rlt_bool_true in C.
  2:{ rewrite Rabs_pos_eq.
      - eapply Rlt_trans; [apply Q|]. eapply Rle_lt_trans; [|apply (small (unix / period + 1)); lia]. apply Rle_abs.
      - eapply Rle_trans; [|apply Q]. apply IZR_le. lia. }
  destruct C as (C & _). unfold float_step, float_int. apply eq_IZR. rewrite Btrunc_correct by exact prec_emax.
  rewrite fix0_round. f_equal. unfold float_floor. destruct (Bnearbyint_correct 53 1024 prec_emax mode_DN (float_div (float_of unix) (float_of period))) as (F & _).
  rewrite F, fix0_round. unfold float_div at 1. rewrite C. change (round_mode mode_DN) with Zfloor. rewrite (floor_between _ _ Q). apply Ztrunc_IZR.
Qed.
