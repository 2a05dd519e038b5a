(** [time.Time] as nanoseconds since 0001-01-01T00:00:00Z, its JSON form (RFC 3339 with
    nanoseconds, package time: [Time.MarshalJSON], [Time.UnmarshalJSON]) and [Unix].
    All times of the package are in UTC. *)
From Coq Require Import String Ascii ZArith NArith Lia Bool Arith List.
From Verif Require Import GoStr.
Import ListNotations.
Open Scope Z_scope.

(** Proleptic Gregorian calendar.  Days are counted from 0000-03-01 inside 400-year eras. *)
Definition civil (d : Z) : Z * Z * Z :=   (* day 0 is 0001-01-01 *)
  let z := d + 306 in
  let era := z / 146097 in
  let doe := z mod 146097 in
  let yoe := (doe - doe / 1460 + doe / 36524 - doe / 146096) / 365 in
  let doy := doe - (365 * yoe + yoe / 4 - yoe / 100) in
  let mp := (5 * doy + 2) / 153 in
  let day := doy - (153 * mp + 2) / 5 + 1 in
  let month := if mp <? 10 then mp + 3 else mp - 9 in
  (yoe + era * 400 + (if month <=? 2 then 1 else 0), month, day).
Definition days (y m d : Z) : Z :=
  let y' := if m <=? 2 then y - 1 else y in
  let era := y' / 400 in
  let yoe := y' mod 400 in
  let mp := if m >? 2 then m - 3 else m + 9 in
  let doy := (153 * mp + 2) / 5 + d - 1 in
  let doe := yoe * 365 + yoe / 4 - yoe / 100 + doy in
  era * 146097 + doe - 306.
Definition leap (y : Z) : bool := (y mod 4 =? 0) && (negb (y mod 100 =? 0) || (y mod 400 =? 0)).
Definition days_in (y m : Z) : Z :=
  if m =? 2 then (if leap y then 29 else 28)
  else if (m =? 4) || (m =? 6) || (m =? 9) || (m =? 11) then 30 else 31.

Definition ns_day : Z := 86400000000000.
Definition year_of (t : Z) : Z := let '(y, _, _) := civil (t / ns_day) in y.
(** [Time.MarshalJSON] fails outside years 0..9999. *)
Definition time_ok (t : Z) : bool := (0 <=? year_of t) && (year_of t <=? 9999).

Definition pad (w : nat) (n : Z) : list ascii := los (sprint_0d w (Z.to_N n)).
Fixpoint drop_zeros (l : list ascii) : list ascii :=
  match l with a :: t => if Ascii.eqb a "0" then drop_zeros t else l | [] => [] end.
Definition frac (ns : Z) : list ascii :=
  if ns =? 0 then [] else ("."%char :: rev (drop_zeros (rev (pad 9 ns)))).
(** RFC3339Nano *)
Definition time_print (t : Z) : list ascii :=
  let '(y, m, d) := civil (t / ns_day) in
  let r := t mod ns_day in
  let s := r / 1000000000 in
  (pad 4 y ++ "-"%char :: pad 2 m ++ "-"%char :: pad 2 d ++ "T"%char :: pad 2 (s / 3600) ++ ":"%char ::
   pad 2 (s / 60 mod 60) ++ ":"%char :: pad 2 (s mod 60) ++ frac (r mod 1000000000) ++ ["Z"%char])%list.

Definition num (l : list ascii) : option Z :=
  if forallb is_digit l then Some (Z.of_N (dec_val_l l 0)) else None.
Fixpoint span_dig (l : list ascii) : list ascii * list ascii :=
  match l with a :: t => if is_digit a then let (x, r) := span_dig t in (a :: x, r) else ([], l) | [] => ([], []) end.
(** The fraction and the zone; only "Z" is modelled. *)
Definition parse_frac (l : list ascii) : option Z :=
  match l with
  | ["Z"%char] => Some 0
  | "."%char :: t =>
      match span_dig t with
      | (x, ["Z"%char]) =>
          if (1 <=? List.length x)%nat && (List.length x <=? 9)%nat
          then Some (Z.of_N (dec_val_l (x ++ repeat "0"%char (9 - List.length x))%list 0)) else None
      | _ => None
      end
  | _ => None
  end.
(** [Time.UnmarshalJSON] on strings of the form YYYY-MM-DDTHH:MM:SS[.fraction]Z with
    values in range.  [None]: any other string; see [time_odd]. *)
Definition time_parse (l : list ascii) : option Z :=
  match l with
  | y1 :: y2 :: y3 :: y4 :: s1 :: m1 :: m2 :: s2 :: d1 :: d2 :: s3 :: h1 :: h2 :: s4 :: i1 :: i2 :: s5 :: c1 :: c2 :: rest =>
      if Ascii.eqb s1 "-" && Ascii.eqb s2 "-" && Ascii.eqb s3 "T" && Ascii.eqb s4 ":" && Ascii.eqb s5 ":" then
        match num [y1; y2; y3; y4], num [m1; m2], num [d1; d2], num [h1; h2], num [i1; i2], num [c1; c2], parse_frac rest with
        | Some y, Some m, Some d, Some h, Some i, Some c, Some ns =>
            if (1 <=? m) && (m <=? 12) && (1 <=? d) && (d <=? days_in y m) && (h <? 24) && (i <? 60) && (c <? 60) then
              Some (days y m d * ns_day + (h * 3600 + i * 60 + c) * 1000000000 + ns)
            else None
        | _, _, _, _, _, _, _ => None
        end
      else None
  | _ => None
  end.

(** The other strings that [Time.UnmarshalJSON] of some version of Go accepts: a zone offset
    other than "Z", an hour of one digit, a comma before the fraction, a fraction of more than nine
    digits.  Every version rejects a string that is neither parsed nor odd. *)
Definition zone_odd (l : list ascii) : bool :=
  match l with
  | ["Z"%char] => true
  | [s; _; _; c; _; _] => (Ascii.eqb s "+" || Ascii.eqb s "-") && Ascii.eqb c ":"
  | _ => false
  end.
Definition tail_odd (l : list ascii) : bool :=
  match l with
  | a :: t => if Ascii.eqb a "." || Ascii.eqb a "," then let (x, r) := span_dig t in (1 <=? List.length x)%nat && zone_odd r else zone_odd l
  | [] => false
  end.
Definition time_odd (l : list ascii) : bool :=
  match l with
  | y1 :: y2 :: y3 :: y4 :: s1 :: m1 :: m2 :: s2 :: d1 :: d2 :: s3 :: rest =>
      let (hh, rest) := span_dig rest in
      match rest with
      | s4 :: i1 :: i2 :: s5 :: c1 :: c2 :: rest =>
          Ascii.eqb s1 "-" && Ascii.eqb s2 "-" && Ascii.eqb s3 "T" && Ascii.eqb s4 ":" && Ascii.eqb s5 ":" &&
          (1 <=? List.length hh)%nat && (List.length hh <=? 2)%nat &&
          match num [y1; y2; y3; y4], num [m1; m2], num [d1; d2], num hh, num [i1; i2], num [c1; c2] with
          | Some y, Some m, Some d, Some h, Some i, Some c =>
              (1 <=? m) && (m <=? 12) && (1 <=? d) && (d <=? days_in y m) && (h <? 24) && (i <? 60) && (c <? 60) && tail_odd rest
          | _, _, _, _, _, _ => false
          end
      | _ => false
      end
  | _ => false
  end.

(** [Time.Unix]: seconds since 1970-01-01. *)
Definition unix_epoch : Z := 62135596800.
Definition unix (t : Z) : Z := t / 1000000000 - unix_epoch.

Example time_ex : sol (time_print 0) = "0001-01-01T00:00:00Z"%string /\
  sol (time_print ((unix_epoch + 1630000000) * 1000000000 + 120300000)) = "2021-08-26T17:46:40.1203Z"%string.
Proof. split; vm_compute; reflexivity. Qed.

(** ** Round trip *)
From Coq Require Import ZifyBool ZifyNat ZifyN.
Ltac Zify.zify_post_hook ::= Z.div_mod_to_equations.

Definition era_check (doe : Z) : bool :=
  let yoe := (doe - doe / 1460 + doe / 36524 - doe / 146096) / 365 in
  let doy := doe - (365 * yoe + yoe / 4 - yoe / 100) in
  let mp := (5 * doy + 2) / 153 in
  let day := doy - (153 * mp + 2) / 5 + 1 in
  let month := if mp <? 10 then mp + 3 else mp - 9 in
  (0 <=? yoe) && (yoe <? 400) && (1 <=? month) && (month <=? 12) && (1 <=? day) &&
  (day <=? days_in (yoe + (if month <=? 2 then 1 else 0)) month) &&
  ((if month >? 2 then month - 3 else month + 9) =? mp).
(** The first day of year [y] of the era, and the year of a day. *)
Definition year_start (y : Z) : Z := 365 * y + y / 4 - y / 100.
Definition year_at (doe : Z) : Z := (doe - doe / 1460 + doe / 36524 - doe / 146096) / 365.
Lemma year_at_mono x y : 0 <= x <= y -> year_at x <= year_at y.
Proof.
  intros H. unfold year_at. apply Z.div_le_mono; [lia|].
  assert (A : x - x / 1460 <= y - y / 1460) by lia.
  assert (B : forall z, z / 146096 = z / 36524 / 4) by (intros z; rewrite Z.div_div by lia; reflexivity).
  rewrite !B. assert (C : x / 36524 <= y / 36524) by (apply Z.div_le_mono; lia).
  set (b := x / 36524) in *. set (c := y / 36524) in *. clearbody b c. assert (D : b - b / 4 <= c - c / 4) by lia. lia.
Qed.
Lemma year_sweep : forallb (fun n => let y := Z.of_nat n in let next := year_start (y + 1) in
  let last := if y =? 399 then 146097 else next in
  (year_at (year_start y) =? y) && (year_at (last - 1) =? y) && ((last - year_start y =? 365) || (last - year_start y =? 366) && leap (y + 1))) (seq 0 400) = true.
Proof. vm_compute. reflexivity. Qed.
Definition doy_check (doy : Z) : bool :=
  let mp := (5 * doy + 2) / 153 in
  let day := doy - (153 * mp + 2) / 5 + 1 in
  let month := if mp <? 10 then mp + 3 else mp - 9 in
  (1 <=? month) && (month <=? 12) && (1 <=? day) && ((if month >? 2 then month - 3 else month + 9) =? mp) &&
  (day <=? if month =? 2 then (if doy =? 365 then 29 else 28) else if (month =? 4) || (month =? 6) || (month =? 9) || (month =? 11) then 30 else 31).
Lemma doy_sweep : forallb (fun n => doy_check (Z.of_nat n)) (seq 0 366) = true.
Proof. vm_compute. reflexivity. Qed.
(** Every day of an era lies in one of its years. *)
Lemma year_found doe n : 0 <= doe < year_start (Z.of_nat n) -> exists y, 0 <= y < Z.of_nat n /\ year_start y <= doe < year_start (y + 1).
Proof.
  induction n as [|n IH]; intros H; [cbn in H; lia|]. destruct (Z.ltb_spec doe (year_start (Z.of_nat n))) as [L|L].
  - destruct IH as (y & Hy & D); [lia|]. exists y. split; [lia|exact D].
  - exists (Z.of_nat n). split; [lia|]. replace (Z.of_nat n + 1) with (Z.of_nat (S n)) by lia. lia.
Qed.
Lemma era_ok doe : 0 <= doe < 146097 -> era_check doe = true.
Proof.
  intros H. assert (Y : exists y, 0 <= y < 400 /\ year_start y <= doe < (if y =? 399 then 146097 else year_start (y + 1))).
  { destruct (Z.ltb_spec doe 146096) as [L|L].
    - destruct (year_found doe 400) as (y & Hy & D); [exact (conj (proj1 H) L)|]. exists y. split; [exact Hy|]. split; [lia|].
      destruct (Z.eqb_spec y 399) as [->|]; lia.
    - exists 399. split; [lia|]. assert (doe = 146096) as -> by lia. split; [discriminate|reflexivity]. }
  destruct Y as (y & Hy & D). pose proof year_sweep as S. rewrite forallb_forall in S. specialize (S (Z.to_nat y) ltac:(apply in_seq; lia)).
  cbv beta zeta in S. replace (Z.of_nat (Z.to_nat y)) with y in S by lia. set (last := if y =? 399 then 146097 else year_start (y + 1)) in *. clearbody last.
  apply andb_prop in S as [S S3]. apply andb_prop in S as [S1 S2]. apply Z.eqb_eq in S1, S2.
  assert (P : 0 <= year_start y) by (unfold year_start; lia).
  assert (Ya : year_at doe = y).
  { pose proof (year_at_mono (year_start y) doe ltac:(lia)). pose proof (year_at_mono doe (last - 1) ltac:(lia)). lia. }
  unfold era_check. fold (year_at doe). rewrite Ya. cbv zeta. fold (year_start y). set (doy := doe - year_start y).
  assert (R : 0 <= doy < 366 /\ (doy = 365 -> leap (y + 1) = true)) by (apply orb_prop in S3 as [S3|S3]; [split; lia|apply andb_prop in S3 as [S3 S4]; split; [lia|intros _; exact S4]]). clear S1 S2 S3 D. clearbody doy. destruct R as [R Lp].
  pose proof doy_sweep as W. rewrite forallb_forall in W. specialize (W (Z.to_nat doy) ltac:(apply in_seq; lia)). cbv beta in W. rewrite Z2Nat.id in W by lia.
  unfold doy_check in W. cbv zeta in W. set (mp := (5 * doy + 2) / 153) in *. set (day := doy - (153 * mp + 2) / 5 + 1) in *.
  set (month := if mp <? 10 then mp + 3 else mp - 9) in *. clearbody month day mp.
  apply andb_prop in W as [W W5]. apply andb_prop in W as [W W4]. apply andb_prop in W as [W W3]. apply andb_prop in W as [W1 W2].
  rewrite W1, W2, W3, W4. replace (0 <=? y) with true by lia. replace (y <? 400) with true by lia. cbn [andb]. rewrite andb_true_r.
  unfold days_in. destruct (Z.eqb_spec month 2) as [->|Ne]; [|exact W5]. cbn [Z.leb]. change (2 <=? 2) with true. cbv iota.
  destruct (Z.eqb_spec doy 365) as [Eq|_]; [rewrite (Lp Eq); exact W5|]. destruct (leap (y + 1)); lia.
Qed.
Lemma leap_400 y k : leap (y + k * 400) = leap y.
Proof.
  unfold leap. replace ((y + k * 400) mod 4) with (y mod 4) by lia.
  replace ((y + k * 400) mod 100) with (y mod 100) by lia.
  replace ((y + k * 400) mod 400) with (y mod 400) by lia. reflexivity.
Qed.
Lemma days_in_400 y k m : days_in (y + k * 400) m = days_in y m.
Proof. unfold days_in. now rewrite leap_400. Qed.
Lemma civil_days n :
  let '(y, m, d) := civil n in days y m d = n /\ 1 <= m <= 12 /\ 1 <= d <= days_in y m.
Proof.
  unfold civil. set (z := n + 306). cbv zeta.
  pose proof (era_ok (z mod 146097) ltac:(lia)) as E. unfold era_check in E. cbv zeta in E.
  set (doe := z mod 146097) in *. set (era := z / 146097) in *.
  assert (Hz : z = era * 146097 + doe) by lia.
  set (yoe := (doe - doe / 1460 + doe / 36524 - doe / 146096) / 365) in *. clearbody yoe.
  set (doy := doe - (365 * yoe + yoe / 4 - yoe / 100)) in *.
  set (mp := (5 * doy + 2) / 153) in *.
  set (day := doy - (153 * mp + 2) / 5 + 1) in *.
  set (month := if mp <? 10 then mp + 3 else mp - 9) in *. clearbody month.
  apply andb_prop in E as [E E7]. apply andb_prop in E as [E E6]. apply andb_prop in E as [E E5]. apply andb_prop in E as [E E4].
  apply andb_prop in E as [E E3]. apply andb_prop in E as [E1 E2].
  split; [|split; [lia|split; [lia|]]].
  - unfold days. destruct (Z.leb_spec month 2).
    + replace (yoe + era * 400 + 1 - 1) with (yoe + era * 400) by lia.
      replace ((yoe + era * 400) / 400) with era by lia. replace ((yoe + era * 400) mod 400) with yoe by lia.
      apply Z.eqb_eq in E7. rewrite E7. unfold day, doy, z in *. lia.
    + replace (yoe + era * 400 + 0) with (yoe + era * 400) by lia.
      replace ((yoe + era * 400) / 400) with era by lia. replace ((yoe + era * 400) mod 400) with yoe by lia.
      apply Z.eqb_eq in E7. rewrite E7. unfold day, doy, z in *. lia.
  - replace (yoe + era * 400 + (if month <=? 2 then 1 else 0)) with (yoe + (if month <=? 2 then 1 else 0) + era * 400) by lia.
    rewrite days_in_400. lia.
Qed.
Lemma pad_len w n : (1 <= w)%nat -> 0 <= n < 10 ^ Z.of_nat w -> List.length (pad w n) = w /\ Forall (fun a => is_digit a = true) (pad w n) /\ num (pad w n) = Some n.
Proof.
  intros Hw Hn. unfold pad, sprint_0d. rewrite los_sol.
  assert (L : (List.length (dec_l (Z.to_N n)) <= w)%nat).
  { apply dec_l_length; [|assumption]. apply N2Z.inj_lt. rewrite N2Z.inj_pow. rewrite Z2N.id by lia.
    rewrite nat_N_Z. change (Z.of_N 10) with 10. lia. }
  assert (F : Forall (fun a => is_digit a = true) (repeat "0"%char (w - List.length (dec_l (Z.to_N n))) ++ dec_l (Z.to_N n))).
  { apply Forall_app. split; [|apply dec_l_digits]. apply Forall_forall. intros a Ha. apply repeat_spec in Ha. now subst. }
  split; [|split].
  - rewrite app_length, repeat_length. lia.
  - exact F.
  - unfold num. assert (forallb is_digit (repeat "0"%char (w - List.length (dec_l (Z.to_N n))) ++ dec_l (Z.to_N n)) = true) as ->.
    { apply forallb_forall. rewrite Forall_forall in F. exact F. }
    rewrite dec_val_zeros, dec_l_val. f_equal. lia.
Qed.
Lemma drop_zeros_spec l : exists k, l = (repeat "0"%char k ++ drop_zeros l)%list.
Proof.
  induction l as [|a l (k & IH)]; [now exists O|]. cbn [drop_zeros]. destruct (Ascii.eqb_spec a "0") as [->|].
  - exists (S k). cbn [repeat app]. now f_equal.
  - now exists O.
Qed.
Lemma rev_repeat {A} (a : A) k : rev (repeat a k) = repeat a k.
Proof.
  induction k as [|k IH]; [reflexivity|]. cbn [repeat rev]. rewrite IH. clear IH.
  induction k as [|k IH]; [reflexivity|]. cbn [repeat app]. now rewrite IH.
Qed.
Lemma span_dig_app x r : Forall (fun a => is_digit a = true) x -> (forall a t, r = a :: t -> is_digit a = false) -> span_dig (x ++ r) = (x, r).
Proof.
  induction 1 as [|a x Ha Hx IH]; intros Hr; cbn [app span_dig].
  - destruct r as [|a t]; [reflexivity|]. cbn. now rewrite (Hr a t eq_refl).
  - rewrite Ha, IH by assumption. reflexivity.
Qed.
Lemma parse_frac_print ns : 0 <= ns < 1000000000 -> parse_frac (frac ns ++ ["Z"%char])%list = Some ns.
Proof.
  intros H. unfold frac. destruct (Z.eqb_spec ns 0) as [->|Hne]; [reflexivity|].
  destruct (pad_len 9 ns ltac:(lia) ltac:(cbn; lia)) as (L & F & V).
  destruct (drop_zeros_spec (rev (pad 9 ns))) as (k & E).
  set (x := rev (drop_zeros (rev (pad 9 ns)))) in *.
  assert (P : pad 9 ns = (x ++ repeat "0"%char k)%list).
  { apply (f_equal (@rev ascii)) in E. rewrite rev_involutive, rev_app_distr, rev_repeat in E. exact E. }
  assert (Fx : Forall (fun a => is_digit a = true) x) by (rewrite P in F; now apply Forall_app in F).
  assert (Lx : (List.length x + k = 9)%nat) by (rewrite P, app_length, repeat_length in L; exact L).
  cbn [app parse_frac]. 
  rewrite (span_dig_app x ["Z"%char] Fx) by (intros a t [= <- <-]; reflexivity).
  assert (List.length x <> 0)%nat.
  { intros Z0. apply length_zero_iff_nil in Z0. rewrite Z0 in P. cbn [app] in P. rewrite P in V. unfold num in V.
    assert (k = 9)%nat by (rewrite Z0 in Lx; cbn in Lx; lia). subst k. vm_compute in V. congruence. }
  replace ((1 <=? List.length x)%nat && (List.length x <=? 9)%nat) with true by lia.
  replace (9 - List.length x)%nat with k by lia. rewrite <- P. unfold num in V.
  destruct (forallb is_digit (pad 9 ns)); [|discriminate]. congruence.
Qed.
Lemma two (l : list ascii) : List.length l = 2%nat -> exists a b, l = [a; b].
Proof. destruct l as [|a [|b [|]]]; try discriminate. eauto. Qed.
Lemma four (l : list ascii) : List.length l = 4%nat -> exists a b c d, l = [a; b; c; d].
Proof. destruct l as [|a [|b [|c [|d [|]]]]]; try discriminate. eauto 6. Qed.
Lemma time_roundtrip t : time_ok t = true -> time_parse (time_print t) = Some t.
Proof.
  unfold time_ok, year_of, time_print. pose proof (civil_days (t / ns_day)) as C.
  destruct (civil (t / ns_day)) as [[y m] d]. destruct C as (C1 & C2 & C3). intros Hy.
  set (r := t mod ns_day). set (s := r / 1000000000).
  assert (Hr : 0 <= r < ns_day) by (apply Z.mod_pos_bound; reflexivity). unfold ns_day in *.
  assert (Hd : d <= 31) by (unfold days_in in C3; destruct (m =? 2), (leap y), ((m =? 4) || (m =? 6) || (m =? 9) || (m =? 11)); lia).
  assert (Hs : 0 <= s < 86400) by (unfold s; lia).
  destruct (pad_len 4 y ltac:(lia) ltac:(cbn; lia)) as (L1 & _ & V1).
  destruct (pad_len 2 m ltac:(lia) ltac:(cbn; lia)) as (L2 & _ & V2).
  destruct (pad_len 2 d ltac:(lia) ltac:(cbn; lia)) as (L3 & _ & V3).
  destruct (pad_len 2 (s / 3600) ltac:(lia) ltac:(cbn; lia)) as (L4 & _ & V4).
  destruct (pad_len 2 (s / 60 mod 60) ltac:(lia) ltac:(cbn; lia)) as (L5 & _ & V5).
  destruct (pad_len 2 (s mod 60) ltac:(lia) ltac:(cbn; lia)) as (L6 & _ & V6).
  pose proof (parse_frac_print (r mod 1000000000) ltac:(lia)) as VF.
  apply four in L1 as (a1 & a2 & a3 & a4 & E1). apply two in L2 as (b1 & b2 & E2). apply two in L3 as (c1 & c2 & E3).
  apply two in L4 as (e1 & e2 & E4). apply two in L5 as (f1 & f2 & E5). apply two in L6 as (g1 & g2 & E6).
  rewrite E1 in *. rewrite E2 in *. rewrite E3 in *. rewrite E4 in *. rewrite E5 in *. rewrite E6 in *.
  cbn [app]. unfold time_parse. rewrite V1, V2, V3, V4, V5, V6, VF.
  change (Ascii.eqb "-" "-" && Ascii.eqb "-" "-" && Ascii.eqb "T" "T" && Ascii.eqb ":" ":" && Ascii.eqb ":" ":") with true. cbv iota.
  replace ((1 <=? m) && (m <=? 12) && (1 <=? d) && (d <=? days_in y m) && (s / 3600 <? 24) && (s / 60 mod 60 <? 60) && (s mod 60 <? 60)) with true by lia.
  f_equal. rewrite C1. unfold ns_day. unfold s, r. lia.
Qed.
