(** Regular expression matching is decided by derivatives; the email pattern denotes
    the documented grammar (C66). *)
From Coq Require Import String Ascii ZArith NArith Lia Bool Arith List.
From Verif Require Import GoStr GoErr Regex Email SpecValue RoleFacts.
Import ListNotations.
Open Scope string_scope.

Lemma matches_cat_inv r s l : matches (RCat r s) l -> exists u v, l = (u ++ v)%list /\ matches r u /\ matches s v.
Proof. inversion 1; subst; eauto. Qed.
Lemma nullable_spec r : nullable r = true <-> matches r [].
Proof.
  induction r; cbn.
  - split; [discriminate|inversion 1].
  - split; [constructor|reflexivity].
  - split; [discriminate|inversion 1].
  - rewrite andb_true_iff, IHr1, IHr2. split.
    + intros [H1 H2]. change (@nil ascii) with (@nil ascii ++ [])%list. now constructor.
    + intros H. apply matches_cat_inv in H as (u & v & E & H1 & H2).
      symmetry in E. apply app_eq_nil in E as [-> ->]. auto.
  - rewrite orb_true_iff, IHr1, IHr2. split.
    + intros [H|H]; [now apply MAltL|now apply MAltR].
    + inversion 1; subst; auto.
  - split; [constructor|reflexivity].
Qed.
Lemma cat'_spec a b l : matches (cat' a b) l <-> matches (RCat a b) l.
Proof.
  unfold cat'. destruct a; try reflexivity;
    try (destruct b; try reflexivity; split; [inversion 1|]; intros H; apply matches_cat_inv in H as (u & v & _ & _ & H); inversion H).
  - split; [inversion 1|]. intros H. apply matches_cat_inv in H as (u & v & _ & H & _). inversion H.
  - split.
    + intros H. change l with ([] ++ l)%list. constructor; [constructor|assumption].
    + intros H. apply matches_cat_inv in H as (u & v & -> & H1 & H2). inversion H1; subst. exact H2.
Qed.
Lemma alt'_spec a b l : matches (alt' a b) l <-> matches (RAlt a b) l.
Proof.
  unfold alt'. destruct a;
    try (destruct b; try reflexivity; split; [intros H; now apply MAltL|]; inversion 1; subst; [assumption|]; match goal with H : matches RNone _ |- _ => inversion H end).
  split; [intros H; now apply MAltR|]. inversion 1; subst; [|assumption].
  match goal with H : matches RNone _ |- _ => inversion H end.
Qed.
Lemma matches_star_cons r c l : matches (RStar r) (c :: l) ->
  exists u v, l = (u ++ v)%list /\ matches r (c :: u) /\ matches (RStar r) v.
Proof.
  remember (RStar r) as R eqn:HR. remember (c :: l) as w eqn:Hw. intros H. revert c l HR Hw.
  induction H; intros c' l' HR Hw; try discriminate.
  injection HR as ->. destruct u as [|x u].
  - cbn in Hw. subst. eapply IHmatches2; eauto.
  - cbn in Hw. injection Hw as -> <-. eauto.
Qed.
Lemma deriv_spec c r l : matches (deriv c r) l <-> matches r (c :: l).
Proof.
  revert l; induction r as [| |f|a IHa b IHb|a IHa b IHb|a IHa]; intros l; cbn [deriv].
  - split; inversion 1.
  - split; inversion 1.
  - destruct (f c) eqn:E.
    + split; [inversion 1; subst; now constructor|]. inversion 1; subst. constructor.
    + split; [inversion 1|]. inversion 1; subst. congruence.
  - assert (Hc : matches (cat' (deriv c a) b) l <-> exists u v, l = (u ++ v)%list /\ matches a (c :: u) /\ matches b v).
    { rewrite cat'_spec. split.
      - intros H. apply matches_cat_inv in H as (u & v & -> & H1 & H2). apply IHa in H1. eauto.
      - intros (u & v & -> & H1 & H2). constructor; [now apply IHa|assumption]. }
    assert (Hall : matches (RCat a b) (c :: l) <->
              (exists u v, l = (u ++ v)%list /\ matches a (c :: u) /\ matches b v) \/ (nullable a = true /\ matches b (c :: l))).
    { split.
      - intros H. apply matches_cat_inv in H as (u & v & E & H1 & H2). destruct u as [|x u]; cbn in E.
        + subst. right. split; [now apply nullable_spec|assumption].
        + injection E as <- ->. left. eauto.
      - intros [(u & v & -> & H1 & H2)|[H1 H2]].
        + change (c :: u ++ v)%list with ((c :: u) ++ v)%list. now constructor.
        + apply nullable_spec in H1. change (c :: l) with ([] ++ c :: l)%list. now constructor. }
    rewrite Hall. destruct (nullable a).
    + rewrite alt'_spec. split.
      * inversion 1; subst; [left; now apply Hc|right; split; [reflexivity|now apply IHb]].
      * intros [H|[_ H]]; [apply MAltL; now apply Hc|apply MAltR; now apply IHb].
    + rewrite Hc. split; [auto|]. intros [H|[H _]]; [assumption|discriminate].
  - rewrite alt'_spec. split.
    + inversion 1; subst; [apply MAltL; now apply IHa|apply MAltR; now apply IHb].
    + inversion 1; subst; [apply MAltL; now apply IHa|apply MAltR; now apply IHb].
  - rewrite cat'_spec. split.
    + intros H. apply matches_cat_inv in H as (u & v & -> & H1 & H2). apply IHa in H1.
      change (c :: u ++ v)%list with ((c :: u) ++ v)%list. now constructor.
    + intros H. apply matches_star_cons in H as (u & v & -> & H1 & H2). constructor; [now apply IHa|assumption].
Qed.
Lemma rmatch_spec r l : rmatch r l = true <-> matches r l.
Proof.
  revert r; induction l as [|c l IH]; intros r; cbn; [apply nullable_spec|]. rewrite IH. apply deriv_spec.
Qed.

(** Characterisation of the derived forms. *)
Lemma matches_cat r s l : matches (RCat r s) l <-> exists u v, l = (u ++ v)%list /\ matches r u /\ matches s v.
Proof. split; [apply matches_cat_inv|]. intros (u & v & -> & H1 & H2). now constructor. Qed.
Lemma matches_set f l : matches (RSet f) l <-> exists a, l = [a] /\ f a = true.
Proof. split; [inversion 1; subst; eauto|]. intros (a & -> & H). now constructor. Qed.
Lemma matches_opt r l : matches (ROpt r) l <-> l = [] \/ matches r l.
Proof.
  split.
  - inversion 1; subst; [|auto]. match goal with H : matches REps _ |- _ => inversion H end. auto.
  - intros [->|H]; [apply MAltL; constructor|now apply MAltR].
Qed.
Lemma matches_star_set f l : matches (RStar (RSet f)) l <-> Forall (fun a => f a = true) l.
Proof.
  split.
  - remember (RStar (RSet f)) as R eqn:HR. induction 1; try discriminate; [constructor|].
    injection HR as ->. apply matches_set in H as (a & -> & Ha). constructor; [assumption|]. now apply IHmatches2.
  - induction l as [|a l IH]; intros H; [constructor|]. inversion H; subst.
    change (a :: l) with ([a] ++ l)%list. constructor; [now constructor|]. now apply IH.
Qed.
Lemma matches_upto_set n f l : matches (RUpTo n (RSet f)) l <-> (List.length l <= n)%nat /\ Forall (fun a => f a = true) l.
Proof.
  revert l; induction n as [|n IH]; intros l; cbn [RUpTo].
  - split; [inversion 1; subst; cbn; auto|]. intros [H _]. destruct l; [constructor|cbn in H; lia].
  - rewrite matches_opt, matches_cat. split.
    + intros [->|(u & v & -> & H1 & H2)]; [cbn; split; [lia|constructor]|].
      apply matches_set in H1 as (a & -> & Ha). apply IH in H2 as [H2 H3]. cbn. split; [lia|]. now constructor.
    + intros [H1 H2]. destruct l as [|a l]; [auto|]. right. inversion H2; subst. exists [a], l.
      split; [reflexivity|]. split; [now constructor|]. apply IH. split; [cbn in H1; lia|assumption].
Qed.

Lemma is_alnum_spec a : is_alnum a = true <-> ascii_letter_or_digit a.
Proof.
  unfold is_alnum, is_upper, is_lower, is_digit, ascii_letter_or_digit.
  rewrite !orb_true_iff, !andb_true_iff, !N.leb_le. unfold nat_of_ascii. lia.
Qed.
Lemma label_char_spec a : label_char a = true <-> ascii_letter_or_digit a \/ a = "-"%char.
Proof. unfold label_char. rewrite orb_true_iff, is_alnum_spec, Ascii.eqb_eq. tauto. Qed.
Lemma local_char_spec a : local_char a = true <-> local_part_char a.
Proof.
  unfold local_char, local_part_char. rewrite orb_true_iff, is_alnum_spec, existsb_exists. split.
  - intros [H|(x & Hx & E)]; [auto|]. apply Ascii.eqb_eq in E. subst. auto.
  - intros [H|H]; [auto|]. right. exists a. split; [assumption|]. apply Ascii.eqb_refl.
Qed.
Lemma hyphen_not_alnum : ~ ascii_letter_or_digit "-"%char.
Proof. rewrite <- is_alnum_spec. vm_compute. discriminate. Qed.

Lemma label_re_spec w : matches label_re w <-> domain_label w.
Proof.
  unfold label_re, domain_label. rewrite matches_cat. split.
  - intros (u & v & -> & H1 & H2). apply matches_set in H1 as (a & -> & Ha). apply is_alnum_spec in Ha.
    apply matches_opt in H2. destruct H2 as [->|H2].
    + cbn. split; [lia|]. split; [constructor; [auto|constructor]|]. split.
      * intros t [= E]. subst a. now apply hyphen_not_alnum.
      * intros t E. destruct t as [|x [|y t]]; cbn in E; try discriminate. injection E as E. subst a. now apply hyphen_not_alnum.
    + apply matches_cat in H2 as (x & y & -> & H2 & H3). apply matches_upto_set in H2 as [Hl Hf].
      apply matches_set in H3 as (z & -> & Hz). apply is_alnum_spec in Hz.
      cbn [app List.length]. rewrite app_length. cbn [List.length]. split; [lia|]. split.
      * constructor; [auto|]. apply Forall_app. split; [|constructor; [auto|constructor]].
        eapply Forall_impl; [|exact Hf]. intros b Hb. now apply label_char_spec.
      * split; [intros t [= E]; subst a; now apply hyphen_not_alnum|].
        intros t E. change (a :: x ++ [z])%list with ((a :: x) ++ [z])%list in E.
        apply app_inj_tail in E as [_ E]. subst z. now apply hyphen_not_alnum.
  - intros ([Hl1 Hl2] & Hf & Hfirst & Hlast). destruct w as [|a w]; [cbn in Hl1; lia|].
    exists [a], w. split; [reflexivity|]. inversion Hf as [|? ? Ha Hf']; subst.
    assert (Ha' : ascii_letter_or_digit a) by (destruct Ha as [Ha|Ha]; [assumption|subst a; exfalso; now apply (Hfirst w)]).
    split; [apply matches_set; exists a; split; [reflexivity|now apply is_alnum_spec]|].
    apply matches_opt. destruct w as [|b' w']; [auto|]. right.
    destruct (@exists_last ascii (b' :: w')) as (w0 & b & E); [discriminate|]. rewrite E in *. clear E.
    apply matches_cat. exists w0, [b]. split; [reflexivity|]. apply Forall_app in Hf' as [Hf0 Hb]. inversion Hb as [|? ? Hb' _]; subst.
    split.
    + apply matches_upto_set. cbn in Hl2. rewrite app_length in Hl2. cbn in Hl2. split; [lia|].
      eapply Forall_impl; [|exact Hf0]. intros c Hc. now apply label_char_spec.
    + apply matches_set. exists b. split; [reflexivity|]. apply is_alnum_spec.
      destruct Hb' as [Hb'|Hb']; [assumption|subst b]. exfalso. apply (Hlast (a :: w0)). reflexivity.
Qed.

Lemma star_labels l : matches (RStar (RCat (RSet (Ascii.eqb ".")) label_re)) l <->
  exists ws, Forall domain_label ws /\ l = flat_map (fun w => "."%char :: w) ws.
Proof.
  split.
  - remember (RStar _) as R eqn:HR. induction 1; try discriminate.
    + exists []. split; [constructor|reflexivity].
    + injection HR as ->. apply matches_cat in H as (u1 & u2 & -> & H1 & H2).
      apply matches_set in H1 as (a & -> & Ha). apply Ascii.eqb_eq in Ha. subst a.
      apply label_re_spec in H2. destruct (IHmatches2 eq_refl) as (ws & Hws & ->).
      exists (u2 :: ws). split; [now constructor|]. reflexivity.
  - intros (ws & Hws & ->). induction Hws as [|w ws Hw Hws IH]; cbn; [constructor|].
    change ("."%char :: w ++ flat_map (fun w0 => "."%char :: w0) ws)%list
      with ((["."%char] ++ w) ++ flat_map (fun w0 => "."%char :: w0) ws)%list.
    constructor; [|assumption]. constructor; [|now apply label_re_spec].
    constructor. apply Ascii.eqb_refl.
Qed.
Lemma dotted_flat w ws l : dotted (w :: ws) l <-> l = (w ++ flat_map (fun x => "."%char :: x) ws)%list.
Proof.
  revert w l; induction ws as [|x ws IH]; intros w l; cbn.
  - split.
    + inversion 1; subst; [now rewrite app_nil_r|]. match goal with H : dotted [] _ |- _ => inversion H end.
    + intros ->. rewrite app_nil_r. constructor.
  - split.
    + inversion 1; subst. match goal with H : dotted (x :: ws) _ |- _ => apply IH in H; subst end. reflexivity.
    + intros ->. constructor. now apply IH.
Qed.
Lemma domain_label_chars w : domain_label w -> ~ In "@"%char w.
Proof.
  intros (_ & Hf & _) Hin. rewrite Forall_forall in Hf. apply Hf in Hin as [H|H]; [|discriminate].
  apply is_alnum_spec in H. vm_compute in H. discriminate.
Qed.
Lemma local_no_at l : Forall local_part_char l -> ~ In "@"%char l.
Proof.
  intros Hf Hin. rewrite Forall_forall in Hf. apply Hf in Hin. apply local_char_spec in Hin. vm_compute in Hin. discriminate.
Qed.
Lemma dotted_no_at ws l : Forall domain_label ws -> dotted ws l -> ~ In "@"%char l.
Proof.
  intros Hf Hd. induction Hd as [w|w ws l Hd IH]; inversion Hf; subst.
  - now apply domain_label_chars.
  - rewrite in_app_iff. cbn. intros [H|[H|H]]; [now apply (domain_label_chars w)|discriminate|now apply IH].
Qed.

Lemma email_re_spec s : matches email_re (los s) <-> exists domain, email_grammar s domain.
Proof.
  unfold email_re, email_grammar, RPlus. rewrite matches_cat. split.
  - intros (u & v & E & H1 & H2).
    apply matches_cat in H1 as (u1 & u2 & -> & Ha & Hb). apply matches_set in Ha as (a & -> & Ha).
    apply matches_star_set in Hb.
    apply matches_cat in H2 as (c & d & -> & Hc & Hd). apply matches_set in Hc as (c' & -> & Hc). apply Ascii.eqb_eq in Hc. subst c'.
    apply matches_cat in Hd as (w & x & -> & Hw & Hx). apply label_re_spec in Hw. apply star_labels in Hx as (ws & Hws & ->).
    exists (sol (w ++ flat_map (fun w => "."%char :: w) ws)), (a :: u2), (w :: ws).
    split; [discriminate|]. split.
    { constructor; [now apply local_char_spec|]. eapply Forall_impl; [|exact Hb]. intros b Hb'. now apply local_char_spec. }
    split; [now constructor|]. rewrite los_sol. split; [now apply dotted_flat|]. exact E.
  - intros (dom & local & labels & Hne & Hl & Hlab & Hd & E). rewrite E.
    destruct labels as [|w ws]; [inversion Hd|]. apply dotted_flat in Hd. inversion Hlab; subst.
    exists local, ("@"%char :: los dom). split; [reflexivity|]. split.
    + destruct local as [|a local]; [congruence|]. inversion Hl; subst. apply matches_cat. exists [a], local.
      split; [reflexivity|]. split; [constructor; now apply local_char_spec|]. apply matches_star_set.
      eapply Forall_impl; [|eassumption]. intros b Hb'. now apply local_char_spec.
    + apply matches_cat. exists ["@"%char], (los dom). split; [reflexivity|]. split; [constructor; apply Ascii.eqb_refl|].
      rewrite Hd. apply matches_cat. eexists _, _. split; [reflexivity|]. split; [now apply label_re_spec|]. apply star_labels. eauto.
Qed.

(** The domain is determined by the address. *)
Lemma email_grammar_split s d : email_grammar s d -> split "@" s = [sol (firstn (List.length (los s) - S (List.length (los d))) (los s)); d].
Proof.
  intros (local & labels & Hne & Hl & Hlab & Hd & E).
  assert (E' : s = sol local ++ String "@" d).
  { apply los_inj. rewrite los_app. cbn [los]. now rewrite los_sol. }
  rewrite E'. rewrite split_app_l.
  - f_equal. f_equal. rewrite los_app, los_sol, app_length. cbn [los List.length].
    replace (List.length local + S (List.length (los d)) - S (List.length (los d)))%nat with (List.length local) by lia.
    rewrite firstn_app, Nat.sub_diag, firstn_all. cbn. now rewrite app_nil_r.
  - unfold without. rewrite los_sol. now apply local_no_at.
  - unfold without. now apply (dotted_no_at labels).
Qed.

(** C66 *)
Lemma new_email_spec s e :
  new_email s = inl e <-> email_grammar s (em_domain e) /\ em_address e = s /\ em_confirmed e = false.
Proof.
  unfold new_email. destruct (rmatch email_re (los s)) eqn:Em.
  - apply rmatch_spec, email_re_spec in Em as (d & Hd).
    assert (Hs : nth 1 (split "@" s) "" = d) by (now rewrite (email_grammar_split _ _ Hd)).
    split.
    + intros [= <-]. cbn. rewrite Hs. auto.
    + intros (H1 & H2 & H3). destruct e as [a c m]. cbn in *. subst.
      f_equal. f_equal. apply email_grammar_split in H1. now rewrite H1.
  - split; [discriminate|]. intros (H & _ & _). exfalso.
    assert (Hm : rmatch email_re (los s) = true) by (apply rmatch_spec, email_re_spec; eauto). congruence.
Qed.
Lemma new_email_err s : (exists e, new_email s = inr e) <-> forall d, ~ email_grammar s d.
Proof.
  split.
  - intros (e & H) d Hd. assert (Hx : new_email s = inl {| em_address := s; em_confirmed := false; em_domain := d |})
      by (apply new_email_spec; cbn; auto). congruence.
  - intros H. destruct (new_email s) as [e|e] eqn:E; [|eauto].
    apply new_email_spec in E as (E & _). now apply H in E.
Qed.
Lemma new_email_ascii s e : new_email s = inl e -> forallb is_ascii7 (los s) = true.
Proof.
  intros H. apply new_email_spec in H as ((local & labels & _ & Hl & Hlab & Hd & ->) & _ & _).
  rewrite forallb_app. cbn [forallb]. change (is_ascii7 "@") with true. cbn [andb].
  assert (A : forall a, ascii_letter_or_digit a -> is_ascii7 a = true).
  { intros a Ha. unfold ascii_letter_or_digit, nat_of_ascii in Ha. unfold is_ascii7. apply N.ltb_lt. lia. }
  apply andb_true_intro. split.
  - apply forallb_forall. rewrite Forall_forall in Hl. intros a Ha. destruct (Hl a Ha) as [H|H]; [auto|].
    assert (F : forallb is_ascii7 (los ".!#$%&'*+/=?^_`{|}~-") = true) by reflexivity.
    rewrite forallb_forall in F. now apply F.
  - induction Hd as [w|w ws l Hd IH]; inversion Hlab as [|? ? Hw Hws]; subst.
    + destruct Hw as (_ & Hf & _). apply forallb_forall. rewrite Forall_forall in Hf. intros a Ha.
      destruct (Hf a Ha) as [H|H]; [auto|now subst].
    + rewrite forallb_app. cbn [forallb]. rewrite IH by assumption. rewrite andb_true_r.
      destruct Hw as (_ & Hf & _). apply forallb_forall. rewrite Forall_forall in Hf. intros a Ha.
      destruct (Hf a Ha) as [H|H]; [auto|now subst].
Qed.
