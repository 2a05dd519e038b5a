(** The 72 byte key of bcrypt. *)
From Coq Require Import String Ascii ZArith NArith Lia Bool Arith List.
From Verif Require Import GoStr Env SpecCrypto.
Import ListNotations.
Open Scope string_scope.

Lemma key72_nth s i d : (i < 72)%nat -> nth i (key72 s) d = nth (i mod S (List.length (los s))) (los s ++ [zero])%list zero.
Proof.
  intros H. unfold key72. cbv zeta. set (l := (los s ++ [zero])%list).
  assert (L : List.length l = S (List.length (los s))) by (unfold l; rewrite app_length; cbn; lia).
  rewrite L. set (f := fun i => nth (i mod S (List.length (los s))) l zero).
  rewrite (nth_indep _ d (f 0%nat)) by (rewrite map_length, seq_length; exact H).
  rewrite map_nth, seq_nth by exact H. reflexivity.
Qed.
Lemma key72_length s : List.length (key72 s) = 72%nat.
Proof. unfold key72. cbv zeta. now rewrite map_length, seq_length. Qed.
Lemma key72_ext s t : (forall i, (i < 72)%nat -> nth i (key72 s) zero = nth i (key72 t) zero) -> key72 s = key72 t.
Proof. intros H. apply (nth_ext _ _ zero zero); rewrite !key72_length; auto. Qed.
(** Within the password and at its terminator. *)
Lemma key72_at s i : (i < 72)%nat -> (i <= List.length (los s))%nat -> nth i (key72 s) zero = nth i (los s) zero.
Proof.
  intros H L. rewrite key72_nth by assumption. rewrite Nat.mod_small by lia.
  destruct (Nat.eq_dec i (List.length (los s))) as [->|N].
  - rewrite app_nth2 by lia. rewrite Nat.sub_diag. cbn. now rewrite nth_overflow by lia.
  - rewrite app_nth1 by lia. reflexivity.
Qed.

Lemma key72_firstn s t : (72 <= List.length (los s))%nat -> (72 <= List.length (los t))%nat ->
  key72 s = key72 t <-> firstn 72 (los s) = firstn 72 (los t).
Proof.
  intros Hs Ht. assert (F : forall s, (72 <= List.length (los s))%nat -> key72 s = firstn 72 (los s)).
  { clear. intros s H. apply (nth_ext _ _ zero zero).
    - rewrite key72_length, firstn_length. lia.
    - intros i Hi. rewrite key72_length in Hi. rewrite key72_at by lia.
      rewrite <- (firstn_skipn 72 (los s)) at 1. rewrite app_nth1; [reflexivity|]. rewrite firstn_length. lia. }
  now rewrite (F s Hs), (F t Ht).
Qed.

Lemma spaces_no_zero p : In p space_seqs -> ~ In zero p.
Proof.
  intros H. assert (F : forallb (fun p => forallb (fun a => negb (Ascii.eqb a zero)) p) space_seqs = true) by reflexivity.
  rewrite forallb_forall in F. specialize (F p H). rewrite forallb_forall in F. intros Hz. specialize (F _ Hz).
  rewrite Ascii.eqb_refl in F. discriminate.
Qed.
Lemma spaces_short p : In p space_seqs -> (1 <= List.length p <= 3)%nat.
Proof.
  intros H. assert (F : forallb (fun p => (1 <=? List.length p)%nat && (List.length p <=? 3)%nat) space_seqs = true) by reflexivity.
  rewrite forallb_forall in F. specialize (F p H). apply andb_true_iff in F as [F1 F2].
  apply Nat.leb_le in F1. apply Nat.leb_le in F2. lia.
Qed.
(** White space in front always changes the key. *)
Lemma key72_leading s p r t : In p space_seqs -> los s = (p ++ r)%list -> no_space_start (los t) -> key72 s <> key72 t.
Proof.
  intros Hp Hs Ht E. pose proof (spaces_short p Hp) as Lp. pose proof (spaces_no_zero p Hp) as Zp.
  assert (Ls : (List.length p <= List.length (los s))%nat) by (rewrite Hs, app_length; lia).
  assert (Pi : forall i, (i < List.length p)%nat -> nth i (key72 s) zero = nth i p zero).
  { intros i Hi. rewrite key72_at by lia. rewrite Hs, app_nth1 by lia. reflexivity. }
  destruct (Nat.lt_ge_cases (List.length (los t)) (List.length p)) as [L|L].
  - apply Zp. specialize (Pi _ L). rewrite E, key72_at, nth_overflow in Pi by lia. rewrite Pi. now apply nth_In.
  - apply (Ht p (skipn (List.length p) (los t)) Hp).
    rewrite <- (firstn_skipn (List.length p) (los t)) at 1. f_equal.
    apply (nth_ext _ _ zero zero); rewrite firstn_length; [lia|]. intros i Hi.
    rewrite <- (Pi i) by lia. rewrite E, key72_at by lia.
    rewrite <- (firstn_skipn (List.length p) (los t)) at 2. rewrite app_nth1; [reflexivity|]. rewrite firstn_length. lia.
Qed.
(** White space behind changes it when it starts within the first 72 bytes. *)
Lemma key72_trailing s t p r : In p space_seqs -> los s = (los t ++ p ++ r)%list ->
  key72 s = key72 t <-> (72 <= List.length (los t))%nat.
Proof.
  intros Hp Hs. pose proof (spaces_short p Hp) as Lp. pose proof (spaces_no_zero p Hp) as Zp.
  assert (Ls : List.length (los s) = (List.length (los t) + List.length p + List.length r)%nat) by (rewrite Hs, !app_length; lia).
  split.
  - intros E. destruct (Nat.lt_ge_cases (List.length (los t)) 72) as [L|L]; [|exact L]. exfalso. apply Zp.
    assert (K : nth (List.length (los t)) (key72 s) zero = nth 0 p zero).
    { rewrite key72_at by lia. rewrite Hs, app_nth2, Nat.sub_diag, app_nth1 by lia. reflexivity. }
    rewrite E, key72_at, nth_overflow in K by lia. rewrite K. apply nth_In. lia.
  - intros L. apply key72_firstn; [lia|exact L|]. rewrite Hs, firstn_app. replace (72 - List.length (los t))%nat with 0%nat by lia.
    now rewrite firstn_O, app_nil_r.
Qed.
(** Exactly when padding is harmless. *)
Lemma key72_trim s : key72 s = key72 (trim_space s) <->
  trim_space s = s \/ (exists w, los s = (los (trim_space s) ++ w)%list) /\ (72 <= String.length (trim_space s))%nat.
Proof.
  destruct (trim_space_spec s) as ([T1 T2] & a & b & (pa & Ha & ->) & (pb & Hb & ->) & E).
  rewrite <- length_los. destruct pa as [|p pa].
  - cbn [concat app] in E. destruct pb as [|q pb].
    + cbn [concat] in E. rewrite app_nil_r in E. apply los_inj in E. split; [auto|]. intros _. now rewrite <- E.
    + cbn [concat] in E. inversion Hb; subst. rewrite (key72_trailing s (trim_space s) q (concat pb)) by assumption. split.
      * intros L. right. split; [|exact L]. eexists. exact E.
      * intros [Ts|[_ L]]; [|exact L]. exfalso. apply (f_equal (@List.length ascii)) in E. rewrite Ts, !app_length in E.
        pose proof (spaces_short q). intuition lia.
  - cbn [concat] in E. inversion Ha; subst. rewrite <- app_assoc in E. split.
    + intros K. exfalso. eapply key72_leading; eauto.
    + intros [Ts|[(w & W) L]]; exfalso.
      * eapply (T1 p); [assumption|]. rewrite Ts. exact E.
      * pose proof (spaces_short p H1) as Lp. rewrite W in E.
        apply (T1 p (skipn (List.length p) (los (trim_space s)))); [assumption|].
        rewrite <- (firstn_skipn (List.length p) (los (trim_space s))) at 1. f_equal.
        apply (f_equal (firstn (List.length p))) in E. rewrite !firstn_app in E.
        replace (List.length p - List.length (los (trim_space s)))%nat with 0%nat in E by lia.
        rewrite Nat.sub_diag, !firstn_O, !app_nil_r, firstn_all in E. exact E.
Qed.
(** Short passwords without zero bytes have different keys. *)
Lemma key72_shorter s t : (String.length t < 72)%nat -> ~ In zero (los t) -> key72 s = key72 t -> (String.length t <= String.length s)%nat.
Proof.
  rewrite <- !length_los. intros L Z K. destruct (Nat.le_gt_cases (List.length (los t)) (List.length (los s))) as [H|H]; [exact H|]. exfalso. apply Z.
  assert (X : nth (List.length (los s)) (los t) zero = zero).
  { rewrite <- key72_at by lia. rewrite <- K. rewrite key72_at by lia. now apply nth_overflow. }
  rewrite <- X. now apply nth_In.
Qed.
Lemma key72_inj s t : (String.length s < 72)%nat -> (String.length t < 72)%nat -> ~ In zero (los s) -> ~ In zero (los t) -> key72 s = key72 t -> s = t.
Proof.
  intros Ls Lt Zs Zt K. pose proof (key72_shorter s t Lt Zt K) as H1. pose proof (key72_shorter t s Ls Zs (eq_sym K)) as H2.
  apply los_inj. rewrite <- !length_los in *. apply (nth_ext _ _ zero zero); [lia|]. intros i Hi. rewrite <- !key72_at by lia. now rewrite K.
Qed.
Lemma trim_space_in a s : In a (los (trim_space s)) -> In a (los s).
Proof. destruct (trim_space_spec s) as (_ & p & q & _ & _ & E). rewrite E. intros H. rewrite !in_app_iff. auto. Qed.
