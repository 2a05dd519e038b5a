(** The texts on which [time_odd] (GoTime.v) holds. *)
From Coq Require Import String Ascii ZArith NArith Lia Bool Arith List.
From Coq Require Import ZifyBool ZifyNat ZifyN.
From Verif Require Import GoStr GoTime SpecLayout SpecRead LayoutFacts ReadFacts SpecJson.
Import ListNotations.
Open Scope Z_scope.

Lemma digits_is x : digits x <-> (1 <= List.length x)%nat /\ Forall (fun a => is_digit a = true) x.
Proof.
  unfold digits. split; intros [A B]; (split; [destruct x; [try contradiction; cbn in A; lia|cbn; try lia; discriminate]|]);
    (eapply Forall_impl; [|exact B]); cbn; intros a; unfold is_digit; lia.
Qed.
Lemma span_dig_sound l x r : span_dig l = (x, r) -> l = (x ++ r)%list /\ Forall (fun a => is_digit a = true) x.
Proof.
  revert x r. induction l as [|a t IH]; intros x r H; cbn in H; [injection H as <- <-; split; [reflexivity|constructor]|].
  destruct (is_digit a) eqn:D; [|injection H as <- <-; split; [reflexivity|constructor]].
  destruct (span_dig t) as [y q]. injection H as <- <-. destruct (IH y q eq_refl) as [-> F]. split; [reflexivity|]. now constructor.
Qed.
Definition zone_text (z : list ascii) : Prop := z = ["Z"%char] \/ exists a b c d e, z = [a; b; c; ":"; d; e]%char /\ In a ["+"; "-"]%char.
Lemma zone_iff l : zone_odd l = true <-> zone_text l.
Proof.
  unfold zone_text. split.
  - intros H. destruct l as [|s [|a [|b [|c [|d [|e [|f l]]]]]]]; try discriminate H.
    + left. destruct s as [[] [] [] [] [] [] [] []]; try discriminate; reflexivity.
    + destruct s as [[] [] [] [] [] [] [] []]; discriminate.
    + destruct s as [[] [] [] [] [] [] [] []]; discriminate.
    + destruct s as [[] [] [] [] [] [] [] []]; discriminate.
    + destruct s as [[] [] [] [] [] [] [] []]; discriminate.
    + right. assert (K : (Ascii.eqb s "+" || Ascii.eqb s "-") && Ascii.eqb c ":" = true) by (destruct s as [[] [] [] [] [] [] [] []]; try discriminate; exact H).
      apply andb_prop in K as [K1 K2]. apply Ascii.eqb_eq in K2. subst c. exists s, a, b, d, e. split; [reflexivity|].
      apply orb_prop in K1 as [K|K]; apply Ascii.eqb_eq in K; subst; cbn; auto.
    + destruct s as [[] [] [] [] [] [] [] []]; discriminate.
  - intros [->|(a & b & c & d & e & -> & [<-|[<-|[]]])]; reflexivity.
Qed.
Definition frac_text (F : list ascii) : Prop := F = [] \/ exists a x, F = a :: x /\ In a ["."; ","]%char /\ digits x.
Lemma zone_first z : zone_text z -> exists a t, z = a :: t /\ is_digit a = false /\ Ascii.eqb a "." || Ascii.eqb a "," = false.
Proof. intros [->|(a & b & c & d & e & -> & [<-|[<-|[]]])]; eexists _, _; (split; [reflexivity|]); split; reflexivity. Qed.
Lemma tail_iff l : tail_odd l = true <-> exists F z, l = (F ++ z)%list /\ frac_text F /\ zone_text z.
Proof.
  unfold tail_odd, frac_text. split.
  - destruct l as [|a t]; [discriminate|]. destruct (Ascii.eqb a "." || Ascii.eqb a ",") eqn:A.
    + destruct (span_dig t) as [x r] eqn:S. intros H. apply andb_prop in H as [L Z]. apply span_dig_sound in S as [-> S]. apply zone_iff in Z.
      exists (a :: x), r. split; [reflexivity|]. split; [|exact Z]. right. exists a, x. split; [reflexivity|].
      split; [apply orb_prop in A as [A|A]; apply Ascii.eqb_eq in A; subst; cbn; auto|]. apply digits_is. split; [lia|exact S].
    + intros H. apply zone_iff in H. exists [], (a :: t). auto.
  - intros (F & z & -> & [->|(a & x & -> & A & D)] & Z); destruct (zone_first z Z) as (b & t & -> & B1 & B2); apply zone_iff in Z.
    + cbn [app]. now rewrite B2.
    + cbn [app]. assert (A' : Ascii.eqb a "." || Ascii.eqb a "," = true) by (destruct A as [<-|[<-|[]]]; reflexivity). rewrite A'.
      apply digits_is in D as [D1 D2]. rewrite span_dig_app by (try exact D2; intros ? ? [= <- <-]; exact B1). rewrite Z. lia.
Qed.
Lemma feb_of y : (is_leap y -> feb y = 29) /\ (~ is_leap y -> feb y = 28).
Proof. unfold feb. destruct (leap_cases y) as [[L ->]|[L ->]]; split; intros; congruence || contradiction. Qed.

Lemma time_odd_iff l : time_odd l = true <-> odd_time l.
Proof.
  split.
  - unfold time_odd. do 11 (destruct l as [|? l]; [discriminate|]). destruct (span_dig l) as [hh rest] eqn:S. apply span_dig_sound in S as [-> S].
    do 6 (destruct rest as [|? rest]; [discriminate|]). intros H. apply andb_prop in H as [H N].
    repeat (apply andb_prop in H as [H ?]). repeat match goal with H : Ascii.eqb _ _ = true |- _ => apply Ascii.eqb_eq in H; subst end.
    destruct (num [a; a0; a1; a2]) as [y|] eqn:Ny; [|discriminate]. destruct (num [a4; a5]) as [m|] eqn:Nm; [|discriminate].
    destruct (num [a7; a8]) as [d|] eqn:Nd; [|discriminate]. destruct (num hh) as [h|] eqn:Nh; [|discriminate].
    destruct (num [a11; a12]) as [i|] eqn:Ni; [|discriminate]. destruct (num [a14; a15]) as [c|] eqn:Nc; [|discriminate].
    apply andb_prop in N as [N T]. apply tail_iff in T as (F & z & -> & F1 & Z1).
    apply (num_digits 4) in Ny; [|reflexivity]. apply (num_digits 2) in Nm, Nd, Ni, Nc; try reflexivity.
    exists y, m, d, h, i, c, [a; a0; a1; a2], [a4; a5], [a7; a8], hh, [a11; a12], [a14; a15], F, z, (feb y), (days_in y m).
    split; [reflexivity|]. split; [exact Ny|]. split; [exact Nm|]. split; [exact Nd|].
    split. { assert (L : (List.length hh = 1 \/ List.length hh = 2)%nat) by lia. destruct L as [L|L]; [left|right]; apply num_digits; assumption. }
    split; [exact Ni|]. split; [exact Nc|]. split; [apply feb_of|]. split; [apply feb_of|]. split; [lia|]. split; [apply days_in_nth; lia|].
    split; [lia|]. split; [lia|]. split; [lia|]. split; [lia|]. split; [exact F1|exact Z1].
  - intros (y & mo & d & h & mi & s & Y & M & D & H & I & S & F & z & fb & len & -> & Dy & Dm & Dd & Dh & Di & Ds & L1 & L2 & Hm & Nl & Hd & Hh & Hi & Hs & HF & HZ).
    destruct (split2 Y (proj1 Dy)) as (? & ? & ? & ? & ->). destruct (split1 M (proj1 Dm)) as (? & ? & ->). destruct (split1 D (proj1 Dd)) as (? & ? & ->).
    destruct (split1 I (proj1 Di)) as (? & ? & ->). destruct (split1 S (proj1 Ds)) as (? & ? & ->).
    cbn [app]. unfold time_odd. rewrite span_dig_app; [|destruct Dh as [Dh|Dh]; apply Dh|intros ? ? [= <- <-]; reflexivity]. rewrite !Ascii.eqb_refl. cbn [andb].
    pose proof (feb_is _ _ L1 L2). subst fb. rewrite days_in_nth in Nl by lia. injection Nl as <-.
    assert (LH : (1 <= List.length H <= 2)%nat) by (destruct Dh as [Dh|Dh]; destruct Dh as (-> & _); lia).
    assert (NH : num H = Some h) by (destruct Dh as [Dh|Dh]; pose proof (proj1 Dh) as L; apply (num_digits _ _ _ L) in Dh; exact Dh).
    apply num_digits in Dy, Dm, Dd, Di, Ds; try reflexivity. rewrite Dy, Dm, Dd, Di, Ds, NH.
    assert (T : tail_odd (F ++ z) = true) by (apply tail_iff; exists F, z; auto). rewrite T. lia.
Qed.
