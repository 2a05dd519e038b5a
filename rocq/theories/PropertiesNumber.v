(** Theorems about the numbers in WebAuthn messages (C97). *)
From Coq Require Import String Ascii ZArith NArith Lia Bool Arith List Reals Lra.
From Flocq Require Import Core.
From Verif Require Import GoStr Codec Json JsonFacts Types Env Persist WebAuthn SpecNumber SpecWebAuthn WebAuthnJsonFacts NumberFacts.
Import ListNotations.
Open Scope string_scope.

(** The numbers of a message are decimal literals, and each is read as the nearest float64: a
    value too large makes the message unreadable, any other value is known as far as it is an integer. *)
Theorem C97_numbers l j lit : parse l = Some j -> In lit (json_nums j) ->
  exists v, literal (los lit) v /\ (parse_float lit = None <-> overflows v) /\
    forall z, parse_float lit = Some (Some z) <-> (~ overflows v /\ nearest64 v = IZR z).
Proof.
  intros P H. apply parse_well in P as [_ P]. rewrite List.Forall_forall in P. destruct (P lit H) as (t & r & S). apply scan_num_literal in S as [v L].
  exists v. split; [exact L|exact (parse_float_spec lit v L)].
Qed.
Print Assumptions C97_numbers.
(** The value of a literal is unique. *)
Theorem C97_value l v v' : literal l v -> literal l v' -> v = v'.
Proof.
  intros A B. apply num_parts_spec in A as (n & D & e & A & _ & ->). apply num_parts_spec in B as (n' & D' & e' & B & _ & ->). rewrite A in B. injection B as -> -> ->. reflexivity.
Qed.
Print Assumptions C97_value.
(** Integers up to 2^53 are read exactly. *)
Theorem C97_integers z : (Z.abs z <= 2 ^ 53)%Z -> literal (los (sprint_d z)) (IZR z) /\ parse_float (sprint_d z) = Some (Some z).
Proof.
  intros Hz.
  assert (L : literal (los (sprint_d z)) (IZR z)).
  { assert (U : forall n, unsigned_literal (dec_l n) (IZR (Z.of_N n))).
    { intros n. assert (F : Forall decimal_digit (dec_l n)) by (apply List.Forall_forall; intros a Ha; apply decimal_digit_iff; pose proof (dec_l_digits n) as G; rewrite List.Forall_forall in G; now apply G).
      pose proof (Literal (dec_l n) [] [] [] 0 ltac:(destruct (dec_l_first n) as (a & t & -> & _); discriminate) F FrNone ExNone) as K.
      rewrite !app_nil_r in K. rewrite digits_value_val, dec_l_val in K by exact F. cbn [List.length Z.of_nat Z.sub Z.opp Z.add powerRZ] in K. now rewrite Rmult_1_r in K. }
    unfold sprint_d. destruct z as [|p|p]; rewrite los_sol.
    - apply LitPos. exact (U 0%N).
    - apply LitPos. exact (U (Npos p)).
    - replace (IZR (Zneg p)) with (- IZR (Z.of_N (Npos p)))%R by (rewrite <- opp_IZR; reflexivity). apply LitNeg. apply U. }
  split; [exact L|]. apply (parse_float_spec _ _ L).
  assert (G : nearest64 (IZR z) = IZR z).
  { apply round_generic; [apply valid_rnd_N|]. destruct (Z.eq_dec (Z.abs z) (2 ^ 53)) as [E|N].
    - destruct (Z.abs_spec z) as [[_ A]|[_ A]]; rewrite A in E.
      + rewrite E. rewrite IZR_pow2 by lia. apply generic_format_FLT_bpow; [reflexivity|lia].
      + replace z with (- (2 ^ 53))%Z by lia. rewrite opp_IZR. apply generic_format_opp. rewrite IZR_pow2 by lia. apply generic_format_FLT_bpow; [reflexivity|lia].
    - apply generic_format_FLT. exists (Float radix2 z 0); cbn; [unfold F2R; cbn; ring|lia|lia]. }
  split; [|exact G]. unfold overflows. rewrite G, powerRZ_bpow, <- abs_IZR. intros H. apply (Rle_not_lt _ _ H). apply Rle_lt_trans with (IZR (2 ^ 53)); [now apply IZR_le|].
  rewrite IZR_pow2 by lia. apply bpow_lt. lia.
Qed.
Print Assumptions C97_integers.
(** 2^53 + 1 is not read exactly. *)
Example C97_ex : parse_float "9007199254740993" = Some (Some 9007199254740992%Z) /\ parse_float "-7" = Some (Some (-7)%Z) /\ parse_float "20e-1" = Some (Some 2%Z) /\
  parse_float "2.5" = Some None /\ parse_float "1e400" = None /\ option_map json_nums (parse (los "[1, {""a"": -2.5E+3}]")) = Some ["1"; "-2.5E+3"].
Proof. vm_compute. auto 10. Qed.
