(** Lemmas about the layout of the database file. *)
From Coq Require Import String Ascii ZArith NArith Lia Bool Arith List ZifyBool ZifyN ZifyNat.
From stdpp Require Import gmap strings.
From RecordUpdate Require Import RecordSet.
From Verif Require Import GoStr Utf8 Json JsonFacts GoTime Role Name Email Types Persist PersistFacts SpecPersist SpecLayout FileFacts.
Import ListNotations.
Import RecordSetNotations.
Open Scope string_scope.

Definition mb {T} (c : codec T) (n : string) (v : T) : list (string * json) := match enc c v with Some j => [(n, j)] | None => [] end.
Lemma mb_str n s : mb str n s = l_text n s. Proof. now destruct s. Qed.
Lemma mb_flag n b : mb flag n b = l_flag n b. Proof. now destruct b. Qed.
Lemma mb_int n z : mb int_ n z = l_num n z. Proof. unfold mb, l_num, int_. cbn. now destruct (z =? 0)%Z. Qed.
Lemma mb_uint b n z : mb (uint b) n z = l_num n (Z.of_N z).
Proof. unfold mb, l_num, uint. cbn [enc]. replace (Z.of_N z =? 0)%Z with (z =? 0)%N by lia. destruct z as [|p]; reflexivity. Qed.
Lemma mb_time n z : mb time_ n z = l_time n z. Proof. reflexivity. Qed.
Lemma mb_ptr {A} z (e : A -> json) f d n x : (forall a, e a = f a) -> mb (ptr z e d) n x = l_opt n f x.
Proof. intros H. destruct x; [|reflexivity]. unfold mb. cbn. now rewrite H. Qed.
Lemma mb_list {A} w (e : A -> json) f d n x : (forall a, e a = f a) -> mb (list_at w e d) n x = l_many n f x.
Proof. intros H. destruct x; [reflexivity|]. unfold mb, list_at, l_many. cbn [enc]. now rewrite (map_ext e f H). Qed.
Lemma mb_opt_list {A B} (e : A -> json) (g : B -> A) f d n x : (forall a, e (g a) = f a) -> mb (opt_list e d) n (map (fun b => Some (g b)) x) = l_many n f x.
Proof.
  intros H. destruct x as [|a x]; [reflexivity|]. unfold mb, opt_list, l_many. cbn [enc map]. rewrite H, map_map.
  now rewrite (map_ext (fun b => e (g b)) f H).
Qed.
Lemma mb_map {A} z (e : A -> json) d n m : mb (map_ z e d) n m = l_dict n e m.
Proof. unfold mb, map_, l_dict. cbn [enc]. destruct (sorted_keys m); reflexivity. Qed.
Ltac open_struct := unfold enc_struct; cbn [flat_map f_codec f_get f_name]; f_equal.
Ltac plain := rewrite <- ?mb_str, <- ?mb_flag, <- ?mb_time, <- ?mb_int; rewrite ?app_nil_r; reflexivity.
Lemma lay_name_eq x : enc_struct name_f x = l_name x.
Proof. unfold l_name, name_f. open_struct. plain. Qed.
Lemma lay_org_eq x : enc_struct org_f x = l_org x.
Proof. unfold l_org, org_f. open_struct. rewrite <- (mb_uint (2 ^ 64)), <- (mb_list (DOk "") JStr JStr dec_str) by reflexivity. plain. Qed.
Lemma lay_loc_eq x : enc_struct loc_f x = l_loc x.
Proof. unfold l_loc, loc_f. open_struct. plain. Qed.
Lemma lay_email_eq x : enc_struct email_f x = l_email x.
Proof. unfold l_email, email_f. open_struct. plain. Qed.
Lemma lay_password_eq x : enc_struct password_f x = l_password x.
Proof. unfold l_password, password_f. open_struct. plain. Qed.
Lemma lay_pubkey_eq x : enc_struct pubkey_f x = l_pubkey x.
Proof. unfold l_pubkey, pubkey_f. open_struct. plain. Qed.
Lemma lay_apikey_eq x : enc_struct apikey_f x = l_apikey x.
Proof. unfold l_apikey, apikey_f. open_struct. plain. Qed.
Lemma lay_device_eq x : enc_struct device_f x = l_device x.
Proof. unfold l_device, device_f. open_struct. plain. Qed.
Lemma lay_mfa_eq x : enc_struct mfa_f x = l_mfa x.
Proof.
  unfold l_mfa, mfa_f. open_struct. rewrite <- (mb_uint (2 ^ 32)), <- (mb_map "" JStr dec_str), <- (mb_map false JBool dec_bool).
  rewrite <- (mb_ptr device_z (enc_struct device_f) l_device (dec_struct device_f)) by exact lay_device_eq. plain.
Qed.
Lemma lay_lockout_eq x : enc_struct lockout_f x = l_lockout x.
Proof. unfold l_lockout, lockout_f. open_struct. plain. Qed.
Lemma lay_image_eq x : enc_struct image_f x = l_image x.
Proof. unfold l_image, image_f. open_struct. plain. Qed.
Lemma lay_role_eq x : enc_struct role_f x = l_role x.
Proof. unfold l_role, role_f. open_struct. plain. Qed.
Lemma lay_user_eq x : enc_struct user_f (to_raw_user x) = l_user x.
Proof.
  unfold l_user, user_f, to_raw_user. open_struct. cbn [raw_user raw_emails raw_passwords raw_keys].
  rewrite <- !(mb_ptr name_z (enc_struct name_f) l_name (dec_struct name_f)) by exact lay_name_eq.
  rewrite <- !(mb_ptr org_z (enc_struct org_f) l_org (dec_struct org_f)) by exact lay_org_eq.
  rewrite <- !(mb_list DUnmod (enc_struct name_f) l_name (dec_struct name_f name_z)) by exact lay_name_eq.
  rewrite <- !(mb_list DUnmod (enc_struct org_f) l_org (dec_struct org_f org_z)) by exact lay_org_eq.
  rewrite <- !(mb_list DUnmod (enc_struct loc_f) l_loc (dec_struct loc_f loc_z)) by exact lay_loc_eq.
  rewrite <- !(mb_ptr email_z (enc_struct email_f) l_email (dec_struct email_f)) by exact lay_email_eq.
  rewrite <- !(mb_opt_list (enc_struct email_f) id l_email (dec_struct email_f email_z)) by exact lay_email_eq.
  rewrite <- !(mb_opt_list (enc_struct password_f) id l_password (dec_struct password_f password_z)) by exact lay_password_eq.
  rewrite <- !(mb_list DUnmod (enc_struct pubkey_f) l_pubkey (dec_struct pubkey_f pubkey_z)) by exact lay_pubkey_eq.
  rewrite <- !(mb_opt_list (enc_struct apikey_f) id l_apikey (dec_struct apikey_f apikey_z)) by exact lay_apikey_eq.
  rewrite <- !(mb_list DUnmod (enc_struct mfa_f) l_mfa (dec_struct mfa_f mfa_z)) by exact lay_mfa_eq.
  rewrite <- !(mb_ptr lockout_z (enc_struct lockout_f) l_lockout (dec_struct lockout_f)) by exact lay_lockout_eq.
  rewrite <- !(mb_ptr image_z (enc_struct image_f) l_image (dec_struct image_f)) by exact lay_image_eq.
  rewrite <- !(mb_list DUnmod (enc_struct role_f) l_role (dec_struct role_f role_z)) by exact lay_role_eq.
  plain.
Qed.
Lemma lay_content_eq c : enc_struct content_f (to_raw c) = layout c.
Proof.
  unfold layout, content_f, to_raw. open_struct. cbn [rc_version rc_policy rc_revision rc_modified rc_users].
  rewrite <- (mb_uint (2 ^ 64)). rewrite <- (mb_opt_list (enc_struct user_f) to_raw_user l_user (dec_struct user_f raw_z)) by exact lay_user_eq.
  plain.
Qed.

Lemma san_clean j : all_utf8 (json_texts j) -> san j = j.
Proof.
  assert (S : forall s, valid_utf8 s = true -> sanitize s = s) by exact sanitize_valid.
  revert j. fix IH 1. intros [ |b|n|s|l|m] H; cbn [san]; try reflexivity.
  - f_equal. apply S. now inversion H.
  - f_equal. cbn [json_texts] in H. induction l as [|x l IHl]; [reflexivity|]. cbn [flat_map map] in *. apply Forall_app in H as [H1 H2].
    f_equal; [now apply IH|now apply IHl].
  - f_equal. cbn [json_texts] in H. induction m as [|[k x] m IHm]; [reflexivity|]. cbn [flat_map map fst snd] in *.
    apply Forall_app in H as [H1 H2]. inversion H1; subst. f_equal; [f_equal; [now apply S|now apply IH]|now apply IHm].
Qed.

(** ** The calendar *)
Open Scope Z_scope.
Ltac Zify.zify_post_hook ::= Z.div_mod_to_equations.
Lemma leap_iff y : leap y = true <-> is_leap y.
Proof. unfold leap, is_leap. rewrite <- !Z.mod_divide by lia. lia. Qed.
Lemma leap_cases y : (is_leap y /\ leap y = true) \/ (~ is_leap y /\ leap y = false).
Proof. destruct (leap y) eqn:L; [left|right]; rewrite <- leap_iff, L; [now split|]. split; [discriminate|reflexivity]. Qed.
Definition before (y : Z) : Z := 365 * (y - 1) + (y - 1) / 4 - (y - 1) / 100 + (y - 1) / 400.
Lemma before_next y : before (y + 1) = before y + (if leap y then 366 else 365).
Proof.
  unfold before, leap. replace (y + 1 - 1) with y by lia.
  assert (A : y / 4 = (y - 1) / 4 + (if y mod 4 =? 0 then 1 else 0)) by (destruct (Z.eqb_spec (y mod 4) 0); lia).
  assert (B : y / 100 = (y - 1) / 100 + (if y mod 100 =? 0 then 1 else 0)) by (destruct (Z.eqb_spec (y mod 100) 0); lia).
  assert (C : y / 400 = (y - 1) / 400 + (if y mod 400 =? 0 then 1 else 0)) by (destruct (Z.eqb_spec (y mod 400) 0); lia).
  rewrite A, B, C. generalize ((y - 1) / 4) ((y - 1) / 100) ((y - 1) / 400). intros p q r.
  destruct (Z.eqb_spec (y mod 4) 0), (Z.eqb_spec (y mod 100) 0), (Z.eqb_spec (y mod 400) 0); cbn [andb orb negb]; lia.
Qed.
Lemma year_start_before y : year_start y (before y).
Proof.
  assert (U : forall n : nat, year_start (1 + Z.of_nat n) (before (1 + Z.of_nat n))).
  { induction n as [|n IH]; [exact YsOne|]. replace (1 + Z.of_nat (S n)) with (1 + Z.of_nat n + 1) by lia. rewrite before_next.
    apply YsNext; [exact IH| |]; destruct (leap_cases (1 + Z.of_nat n)) as [[L ->]|[L ->]]; intros; try reflexivity; contradiction. }
  assert (D : forall n : nat, year_start (1 - Z.of_nat n) (before (1 - Z.of_nat n))).
  { induction n as [|n IH]; [exact YsOne|]. pose proof (before_next (1 - Z.of_nat (S n))) as E. replace (1 - Z.of_nat (S n) + 1) with (1 - Z.of_nat n) in E by lia.
    replace (before (1 - Z.of_nat (S n))) with (before (1 - Z.of_nat n) - (if leap (1 - Z.of_nat (S n)) then 366 else 365)) by lia.
    apply YsPrev; [now replace (1 - Z.of_nat (S n) + 1) with (1 - Z.of_nat n) by lia| |];
      destruct (leap_cases (1 - Z.of_nat (S n))) as [[L ->]|[L ->]]; intros; try reflexivity; contradiction. }
  destruct (Z.leb_spec 1 y).
  - replace y with (1 + Z.of_nat (Z.to_nat (y - 1))) by lia. apply U.
  - replace y with (1 - Z.of_nat (Z.to_nat (1 - y))) by lia. apply D.
Qed.
Definition feb (y : Z) : Z := if leap y then 29 else 28.
Lemma quarters y : y / 400 * 146097 + (y mod 400 * 365 + y mod 400 / 4 - y mod 400 / 100) = before (y + 1).
Proof.
  unfold before. replace (y + 1 - 1) with y by lia.
  set (q := y / 400). set (r := y mod 400). assert (E : y = q * 400 + r) by (unfold q, r; lia).
  assert (0 <= r < 400) by (unfold r; lia). clearbody q r. subst y.
  assert (A : (q * 400 + r) / 4 = q * 100 + r / 4) by lia. assert (B : (q * 400 + r) / 100 = q * 4 + r / 100) by lia.
  rewrite A, B. lia.
Qed.
Lemma days_count y m d : 1 <= m <= 12 -> days y m d = before y + sumZ (firstn (Z.to_nat (m - 1)) (month_lengths (feb y))) + (d - 1).
Proof.
  intros Hm. unfold days. cbv zeta.
  set (y' := if m <=? 2 then y - 1 else y). set (mp := if m >? 2 then m - 3 else m + 9).
  replace (y' / 400 * 146097 + (y' mod 400 * 365 + y' mod 400 / 4 - y' mod 400 / 100 + ((153 * mp + 2) / 5 + d - 1)) - 306)
    with (before (y' + 1) + (153 * mp + 2) / 5 + d - 1 - 306) by (rewrite <- quarters; lia).
  assert (N : before (y' + 1) = before y + (if m <=? 2 then 0 else 337 + feb y)).
  { unfold y'. destruct (Z.leb_spec m 2); [replace (y - 1 + 1) with y by lia; lia|]. rewrite before_next. unfold feb. destruct (leap y); lia. }
  rewrite N. clear N y'. unfold mp. clear mp. generalize (before y) (feb y). intros b f.
  assert (C : m = 1 \/ m = 2 \/ m = 3 \/ m = 4 \/ m = 5 \/ m = 6 \/ m = 7 \/ m = 8 \/ m = 9 \/ m = 10 \/ m = 11 \/ m = 12) by lia.
  destruct C as [ -> | [ -> | [ -> | [ -> | [ -> | [ -> | [ -> | [ -> | [ -> | [ -> | [ -> | -> ]]]]]]]]]]];
    match goal with |- context [(153 * ?x + 2) / 5] => let v := eval vm_compute in ((153 * x + 2) / 5) in change ((153 * x + 2) / 5) with v end;
    match goal with |- context [Z.to_nat ?x] => let v := eval vm_compute in (Z.to_nat x) in change (Z.to_nat x) with v end;
    match goal with |- context [?a <=? 2] => let v := eval vm_compute in (a <=? 2) in change (a <=? 2) with v end;
    cbv [firstn month_lengths sumZ fold_right]; cbv iota; lia.
Qed.
Lemma days_in_nth y m : 1 <= m <= 12 -> nth_error (month_lengths (feb y)) (Z.to_nat (m - 1)) = Some (days_in y m).
Proof.
  intros Hm. unfold days_in, feb. generalize (leap y). intros l.
  assert (C : m = 1 \/ m = 2 \/ m = 3 \/ m = 4 \/ m = 5 \/ m = 6 \/ m = 7 \/ m = 8 \/ m = 9 \/ m = 10 \/ m = 11 \/ m = 12) by lia.
  destruct C as [ -> | [ -> | [ -> | [ -> | [ -> | [ -> | [ -> | [ -> | [ -> | [ -> | [ -> | -> ]]]]]]]]]]]; destruct l; reflexivity.
Qed.
Lemma pad_digits w n : (1 <= w)%nat -> 0 <= n < 10 ^ Z.of_nat w -> digits_of w n (pad w n).
Proof.
  intros Hw Hn. destruct (pad_len w n Hw Hn) as (L & F & V). split; [exact L|]. split; [exact F|].
  unfold num in V. destruct (forallb is_digit (pad w n)); [congruence|discriminate].
Qed.
Lemma drop_zeros_head l : match drop_zeros l with a :: _ => a <> "0"%char | [] => True end.
Proof. induction l as [|a l IH]; [exact I|]. cbn [drop_zeros]. destruct (Ascii.eqb_spec a "0"); [exact IH|assumption]. Qed.
(** The fraction: nothing for zero, otherwise a point and digits that do not end in 0. *)
Lemma frac_text ns : 0 <= ns < 1000000000 -> (ns = 0 /\ frac ns = []) \/
  exists x k, frac ns = "."%char :: x /\ x <> [] /\ List.last x "0"%char <> "0"%char /\ digits_of 9 ns (x ++ repeat "0"%char k).
Proof.
  intros H. unfold frac. destruct (Z.eqb_spec ns 0) as [->|Hne]; [now left|right].
  pose proof (pad_digits 9 ns ltac:(lia) ltac:(cbn; lia)) as P.
  destruct (drop_zeros_spec (rev (pad 9 ns))) as (k & E). pose proof (drop_zeros_head (rev (pad 9 ns))) as Hd.
  assert (Q : pad 9 ns = (rev (drop_zeros (rev (pad 9 ns))) ++ repeat "0"%char k)%list).
  { rewrite <- (rev_involutive (pad 9 ns)) at 1. rewrite E at 1. now rewrite rev_app_distr, rev_repeat. }
  exists (rev (drop_zeros (rev (pad 9 ns)))), k. split; [reflexivity|].
  destruct (drop_zeros (rev (pad 9 ns))) as [|a l] eqn:D.
  - exfalso. cbn [rev app] in Q. destruct P as (P1 & _ & P3). rewrite Q in P1, P3. rewrite repeat_length in P1. subst k. vm_compute in P3. congruence.
  - cbn [rev]. split; [intros Hn; apply (f_equal (@List.length ascii)) in Hn; rewrite app_length in Hn; cbn in Hn; lia|]. split.
    + now rewrite last_last.
    + cbn [rev] in Q. rewrite <- Q. exact P.
Qed.
Lemma time_text t : in_years t -> exists y mo d h mi s ns Y M D H I S F,
  0 <= y <= 9999 /\ on_clock t y mo d h mi s ns /\
  time_print t = (Y ++ "-" :: M ++ "-" :: D ++ "T" :: H ++ ":" :: I ++ ":" :: S ++ F ++ ["Z"])%char%list /\
  digits_of 4 y Y /\ digits_of 2 mo M /\ digits_of 2 d D /\ digits_of 2 h H /\ digits_of 2 mi I /\ digits_of 2 s S /\
  ((ns = 0 /\ F = []) \/ exists x k, F = "."%char :: x /\ x <> [] /\ List.last x "0"%char <> "0"%char /\ digits_of 9 ns (x ++ repeat "0"%char k)).
Proof.
  rewrite <- time_ok_iff. unfold time_ok, year_of, time_print. pose proof (civil_days (t / ns_day)) as C.
  destruct (civil (t / ns_day)) as [[y m] d]. destruct C as (C1 & C2 & C3). intros Hy.
  set (r := t mod ns_day). set (s := r / 1000000000).
  assert (Hr : 0 <= r < ns_day) by (apply Z.mod_pos_bound; reflexivity). unfold ns_day in *.
  assert (Hd : d <= 31) by (unfold days_in in C3; destruct (m =? 2), (leap y), ((m =? 4) || (m =? 6) || (m =? 9) || (m =? 11)); lia).
  assert (Hs : 0 <= s < 86400) by (unfold s; lia).
  exists y, m, d, (s / 3600), (s / 60 mod 60), (s mod 60), (r mod 1000000000).
  exists (pad 4 y), (pad 2 m), (pad 2 d), (pad 2 (s / 3600)), (pad 2 (s / 60 mod 60)), (pad 2 (s mod 60)), (frac (r mod 1000000000)).
  split; [lia|]. split.
  { constructor; [|lia]. exists (before y), (feb y). split; [apply year_start_before|]. unfold feb at 1 2.
    split; [destruct (leap_cases y) as [[L ->]|[L ->]]; [reflexivity|contradiction]|].
    split; [destruct (leap_cases y) as [[L ->]|[L ->]]; [contradiction|reflexivity]|]. split; [lia|].
    split; [exists (days_in y m); split; [now apply days_in_nth|lia]|]. rewrite <- days_count, C1 by lia. unfold s, r. lia. }
  split; [reflexivity|].
  split; [apply pad_digits; cbn; lia|]. split; [apply pad_digits; cbn; lia|]. split; [apply pad_digits; cbn; lia|]. split; [apply pad_digits; cbn; lia|].
  split; [apply pad_digits; cbn; lia|]. split; [apply pad_digits; cbn; lia|]. apply frac_text. lia.
Qed.

(** ** Maps *)
From stdpp Require Import sorting.
Local Close Scope Z_scope.
Lemma cmp_refl s : String.compare s s = Eq.
Proof. induction s as [|a s IH]; [reflexivity|]. cbn. unfold Ascii.compare. now rewrite N.compare_refl. Qed.
Lemma acmp_trans a b c : Ascii.compare a b = Lt -> Ascii.compare b c = Lt -> Ascii.compare a c = Lt.
Proof. unfold Ascii.compare. rewrite !N.compare_lt_iff. lia. Qed.
Lemma cmp_trans a b c : String.compare a b = Lt -> String.compare b c = Lt -> String.compare a c = Lt.
Proof.
  revert b c. induction a as [|x a IH]; intros [|y b] [|z c]; cbn; try discriminate; try reflexivity; [].
  destruct (Ascii.compare x y) eqn:E1; try discriminate; destruct (Ascii.compare y z) eqn:E2; try discriminate.
  - apply Ascii.compare_eq_iff in E1, E2. subst. unfold Ascii.compare. rewrite N.compare_refl. apply IH.
  - apply Ascii.compare_eq_iff in E1. subst. now rewrite E2.
  - apply Ascii.compare_eq_iff in E2. subst. now rewrite E1.
  - now rewrite (acmp_trans _ _ _ E1 E2).
Qed.
Lemma leb_trans a b c : String.leb a b = true -> String.leb b c = true -> String.leb a c = true.
Proof.
  unfold String.leb. destruct (String.compare a b) eqn:E1; try discriminate; destruct (String.compare b c) eqn:E2; try discriminate; intros _ _.
  - apply String.compare_eq_iff in E1, E2. subst. now rewrite cmp_refl.
  - apply String.compare_eq_iff in E1. subst. now rewrite E2.
  - apply String.compare_eq_iff in E2. subst. now rewrite E1.
  - now rewrite (cmp_trans _ _ _ E1 E2).
Qed.
Lemma sorted_keys_spec {A} (m : gmap string A) : StronglySorted (fun a b => String.leb (fst a) (fst b) = true) (sorted_keys m) /\
  forall k v, In (k, v) (sorted_keys m) <-> m !! k = Some v.
Proof.
  split.
  - assert (Transitive (@key_le A)) by (intros a b c; apply leb_trans).
    assert (Total (@key_le A)) by (intros a b; unfold key_le, str_le; destruct (String.leb_total (fst a) (fst b)); auto).
    exact (StronglySorted_merge_sort (A := string * A) key_le _).
  - intros k v. rewrite <- elem_of_list_In. unfold sorted_keys. rewrite merge_sort_Permutation. apply elem_of_map_to_list.
Qed.
