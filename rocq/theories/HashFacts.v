(** Facts about the standard hash functions. *)
From Coq Require Import String Ascii ZArith NArith Lia Bool Arith List.
From stdpp Require Import gmap strings.
From Verif Require Import GoStr GoErr Types Env Mfa Hash SpecMfa SpecHash.
Import ListNotations.
Open Scope string_scope.

Lemma be_length k : forall n, List.length (be k n) = k.
Proof. induction k as [|k IH]; intros n; [reflexivity|]. cbn [be]. rewrite app_length, IH. cbn. lia. Qed.
Lemma sha1_length l : List.length (sha1 l) = 20%nat.
Proof. unfold sha1. cbv zeta. now rewrite !app_length, !be_length. Qed.
Lemma digest2_length k s : List.length (digest2 k s) = (8 * k)%nat.
Proof. unfold digest2. rewrite !app_length, !be_length. lia. Qed.
Lemma hash_length a h b d l : hash_function a h b d -> List.length (h l) = d.
Proof. intros []; [apply sha1_length| |]; apply digest2_length. Qed.
Lemma hash_of_function a h b d : hash_function a h b d -> hash_of a = (h, b).
Proof. intros []; reflexivity. Qed.
Lemma hash_known a : known_algorithm a <-> exists h b d, hash_function a h b d.
Proof.
  split.
  - intros [ -> |[ -> | -> ]]; eexists _, _, _; constructor.
  - intros (h & b & d & []); [now left|right; now left|right; now right].
Qed.
Lemma hash_det a h b d h' b' d' : hash_function a h b d -> hash_function a h' b' d' -> h' = h /\ b' = b /\ d' = d.
Proof. intros []; inversion 1; subst; auto. Qed.
Lemma hash_fits a h b d : hash_function a h b d -> (d <= b)%nat.
Proof. intros []; lia. Qed.
Lemma std_hmac_eq a h b d k m : hash_function a h b d -> std_hmac a k m = sol (hmac b h (los k) (los m)).
Proof. intros H. unfold std_hmac. now rewrite (hash_of_function _ _ _ _ H). Qed.
Lemma std_hmac_length a h b d k m : hash_function a h b d -> String.length (std_hmac a k m) = d.
Proof. intros H. rewrite (std_hmac_eq _ _ _ _ _ _ H), <- length_los, los_sol. unfold hmac. exact (hash_length _ _ _ _ _ H). Qed.
Lemma standard_size E : standard E -> hmac_size E.
Proof.
  intros S a k m K. rewrite (S a k m K). apply hash_known in K as (h & b & d & H). rewrite (std_hmac_length _ _ _ _ _ _ H). destruct H; lia.
Qed.

(** ** Keys *)
Lemma repeat_more n k : repeat Ascii.zero (n + k) = (repeat Ascii.zero n ++ repeat Ascii.zero k)%list.
Proof. apply repeat_app. Qed.
Lemma key_zeros b h k n : (List.length k + n <= b)%nat -> hmac_key b h (k ++ repeat Ascii.zero n)%list = hmac_key b h k.
Proof.
  intros L. unfold hmac_key. rewrite app_length, repeat_length. rewrite (proj2 (Nat.ltb_ge _ _)) by lia.
  rewrite (proj2 (Nat.ltb_ge b (List.length k))) by lia.
  rewrite app_length, repeat_length, <- app_assoc, <- repeat_app. do 2 f_equal. lia.
Qed.
Lemma key_digest b h k : (b < List.length k)%nat -> (List.length (h k) <= b)%nat -> hmac_key b h (h k) = hmac_key b h k.
Proof. intros L D. unfold hmac_key. rewrite (proj2 (Nat.ltb_lt _ _) L). now rewrite (proj2 (Nat.ltb_ge b (List.length (h k)))) by lia. Qed.
Lemma same_key_key a h b d s t : hash_function a h b d -> same_key a s t -> hmac_key b h (los s) = hmac_key b h (los t).
Proof.
  intros H K. induction K as [s|h' b' d' s n H' L|h' b' d' s H' L|s t K IH|s t u K1 IH1 K2 IH2].
  - reflexivity.
  - destruct (hash_det _ _ _ _ _ _ _ H H') as (-> & -> & _). rewrite los_app, los_sol, key_zeros; [reflexivity|]. now rewrite length_los.
  - destruct (hash_det _ _ _ _ _ _ _ H H') as (-> & -> & _). rewrite los_sol. symmetry. apply key_digest; [now rewrite length_los|].
    rewrite (hash_length _ _ _ _ _ H). exact (hash_fits _ _ _ _ H).
  - now symmetry.
  - congruence.
Qed.
Lemma same_key_hmac a h b d s t m : hash_function a h b d -> same_key a s t -> std_hmac a s m = std_hmac a t m.
Proof. intros H K. rewrite !(std_hmac_eq _ _ _ _ _ _ H). unfold hmac. now rewrite (same_key_key _ _ _ _ _ _ H K). Qed.
Lemma same_key_code E a s t digits ts : standard E -> same_key a s t -> gen_code E s a digits ts = gen_code E t a digits ts.
Proof.
  intros S K. unfold gen_code.
  destruct (String.eqb a "sha1" || String.eqb a "sha256" || String.eqb a "sha512")%bool eqn:Q; [|reflexivity].
  assert (KA : known_algorithm a).
  { apply orb_true_iff in Q as [Q|Q]; [apply orb_true_iff in Q as [Q|Q]|]; apply String.eqb_eq in Q; subst; [now left|right; now left|right; now right]. }
  destruct (proj1 (hash_known a) KA) as (h & b & d & H). now rewrite !(S a _ _ KA), (same_key_hmac _ _ _ _ _ _ _ H K).
Qed.
Lemma existsb_ext_all {A} (f g : A -> bool) l : (forall x, f x = g x) -> existsb f l = existsb g l.
Proof. intros H. induction l as [|x l IH]; [reflexivity|]. cbn [existsb]. now rewrite H, IH. Qed.
Lemma same_key_validate E p q code t : standard E -> same_device p q -> same_key (t_algorithm p) (t_secret p) (t_secret q) ->
  validate_code E p code t = validate_code E q code t.
Proof.
  intros S [_ Ea Ep Ed] K. unfold validate_code. rewrite Ep, Ed, Ea.
  rewrite (existsb_ext_all _ (fun uts => match gen_code E (t_secret q) (t_algorithm p) (t_digits p) uts with inl c => String.eqb c (trim_space code) | inr _ => false end)); [reflexivity|].
  intros uts. now rewrite (same_key_code E _ _ _ _ _ S K).
Qed.
(** Short secrets are one key only when they differ in zeros at the end. *)
Lemma zeros_prefix n : forall x k m, (x ++ repeat Ascii.zero n = k ++ repeat Ascii.zero m)%list -> (List.length k <= List.length x)%nat ->
  x = (k ++ repeat Ascii.zero (List.length x - List.length k))%list.
Proof.
  intros x. revert n. induction x as [|c x IH]; intros n k m E L.
  - destruct k; [reflexivity|cbn in L; lia].
  - destruct k as [|d k].
    + cbn [app List.length] in *. rewrite Nat.sub_0_r. assert (F : Forall (fun z => z = Ascii.zero) (c :: x)).
      { apply List.Forall_forall. intros z Hz. assert (In z (repeat Ascii.zero m)) as I by (rewrite <- E; exact (in_or_app (c :: x) (repeat Ascii.zero n) z (or_introl Hz))).
        exact (repeat_spec _ _ _ I). }
      clear -F. cbn [repeat]. change (c :: x = repeat Ascii.zero (List.length (c :: x))). induction F as [|y l -> F IHF]; [reflexivity|]. cbn [List.length repeat]. now f_equal.
    + cbn [app] in E. injection E as -> E. cbn [List.length app]. f_equal. rewrite Nat.sub_succ. apply (IH n k m E). cbn in L. lia.
Qed.
Lemma key_short b h k k' : (List.length k <= List.length k' <= b)%nat -> hmac_key b h k = hmac_key b h k' ->
  k' = (k ++ repeat Ascii.zero (List.length k' - List.length k))%list.
Proof.
  intros L. unfold hmac_key. rewrite (proj2 (Nat.ltb_ge b (List.length k))), (proj2 (Nat.ltb_ge b (List.length k'))) by lia.
  intros E. symmetry in E. exact (zeros_prefix _ _ _ _ E (proj1 L)).
Qed.
