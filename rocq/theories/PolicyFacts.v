(** The published policies say what a reader of them understands (C87, C88). *)
From Coq Require Import String Ascii ZArith NArith Lia Bool Arith List.
From Coq Require Import ZifyBool ZifyNat ZifyN.
From stdpp Require Import gmap strings.
From Verif Require Import GoStr Utf8 Codec Types Env SpecValue SpecAuth SpecPolicy Persist Fs Database QrFacts PersistFacts.
Import ListNotations.
Open Scope string_scope.

Lemma cut_l_app c l b : ~ In c l -> cut_l c (l ++ c :: b)%list = Some (l, b).
Proof.
  induction l as [|x l IH]; cbn; intros Hn.
  - now rewrite Ascii.eqb_refl.
  - destruct (Ascii.eqb_spec x c) as [->|Hx]; [tauto|]. rewrite IH by tauto. reflexivity.
Qed.
Lemma dec_l_no c n : is_digit c = false -> ~ In c (dec_l n).
Proof. intros H I. pose proof (dec_l_digits n) as F. rewrite List.Forall_forall in F. apply F in I. congruence. Qed.
Lemma read_number_dec n : read_number (dec_l n) = Some n.
Proof. exact (digits_val_dec n). Qed.
Lemma sprint_pos z : (0 <= z)%Z -> sprint_d z = sol (dec_l (Z.to_N z)).
Proof. destruct z; [reflexivity|reflexivity|lia]. Qed.
Lemma read_times_between m n t : (m <= n)%N -> read_times ("{"%char :: dec_l m ++ ","%char :: dec_l n ++ "}"%char :: t)%list = Some (Between m n, t).
Proof.
  intros H. cbn [read_times]. rewrite cut_l_app by (now apply dec_l_no). rewrite cut_l_app by (now apply dec_l_no).
  rewrite !read_number_dec. apply N.leb_le in H. now rewrite H.
Qed.

(** ** Characters *)
Lemma los_in s a : In a (los s) <-> exists i, String.get i s = Some a.
Proof.
  induction s as [|b s IH]; cbn.
  - split; [tauto|]. intros [[|i] H]; discriminate.
  - rewrite IH. split.
    + intros [->|[i H]]; [exists 0%nat; reflexivity|exists (S i); exact H].
    + intros [[|i] H]; [left; now injection H|right; eauto].
Qed.
Lemma ranges_bool rs a : is_char (Cls rs) a <-> existsb (fun r => (N_of_ascii (fst r) <=? N_of_ascii a)%N && (N_of_ascii a <=? N_of_ascii (snd r))%N) rs = true.
Proof.
  cbn. rewrite existsb_exists. split.
  - intros (lo & hi & I & H1 & H2). exists (lo, hi). split; [exact I|]. cbn. apply andb_true_intro. split; now apply N.leb_le.
  - intros ([lo hi] & I & H). apply andb_prop in H as [H1 H2]. cbn in H1, H2. apply N.leb_le in H1, H2. eauto.
Qed.
Definition start_bool (up : bool) (a : ascii) : bool := is_lower a || (up && is_upper a).
Definition char_bool (up na : bool) (a : ascii) : bool := start_bool up a || is_digit a || (na && existsb (Ascii.eqb a) (los "-_.")).
Lemma between_nat lo hi a : (N.to_nat lo <= nat_of_ascii a <= N.to_nat hi)%nat <-> ((lo <=? N_of_ascii a)%N && (N_of_ascii a <=? hi)%N) = true.
Proof. unfold nat_of_ascii. rewrite andb_true_iff, !N.leb_le. lia. Qed.
Lemma start_reflect p a : announced_start p a <-> start_bool (up_upper p) a = true.
Proof.
  unfold announced_start, start_bool, is_lower, is_upper. cbv zeta. rewrite orb_true_iff, <- (between_nat 97 122), andb_true_iff, <- (between_nat 65 90). reflexivity.
Qed.
Lemma char_reflect p a : announced_char p a <-> char_bool (up_upper p) (up_nonalnum p) a = true.
Proof.
  unfold announced_char, char_bool. rewrite !orb_true_iff, <- start_reflect. unfold is_digit. cbv zeta. rewrite <- (between_nat 48 57), andb_true_iff.
  assert (E : In a (los "-_.") <-> existsb (Ascii.eqb a) (los "-_.") = true).
  { rewrite existsb_exists. split; [intros H; exists a; split; [exact H|apply Ascii.eqb_refl]|]. intros (x & Hx & H). apply Ascii.eqb_eq in H. now subst. }
  rewrite E. change (N.to_nat 48) with 48%nat. change (N.to_nat 57) with 57%nat. tauto.
Qed.
Definition class_start (up : bool) : list (ascii * ascii) := ("a"%char, "z"%char) :: (if up then [("A"%char, "Z"%char)] else []).
Definition class_char (up na : bool) : list (ascii * ascii) :=
  (("a"%char, "z"%char) :: (if up then [("A"%char, "Z"%char)] else []) ++ ("0"%char, "9"%char) ::
   (if na then [("-"%char, "-"%char); ("_"%char, "_"%char); ("."%char, "."%char)] else []))%list.
Lemma class_start_ok up a : is_char (Cls (class_start up)) a <-> start_bool up a = true.
Proof.
  rewrite ranges_bool. apply eq_iff_eq_true. revert a. intros a. apply eqb_prop. revert a. apply forall_bytes. destruct up; vm_compute; reflexivity.
Qed.
Lemma class_char_ok up na a : is_char (Cls (class_char up na)) a <-> char_bool up na a = true.
Proof.
  rewrite ranges_bool. apply eq_iff_eq_true. apply eqb_prop. revert a. apply forall_bytes. destruct up, na; vm_compute; reflexivity.
Qed.

(** ** Usernames *)
Lemma read_username p : (1 <= up_min p <= up_max p)%Z ->
  read_pattern (username_regex p) = Some {| pt_ahead := []; pt_body := [(Cls (class_start (up_upper p)), Once);
    (Cls (class_char (up_upper p) (up_nonalnum p)), Between (Z.to_N (up_min p - 1)) (Z.to_N (up_max p - 1)))] |}.
Proof.
  intros H. unfold username_regex. rewrite !sprint_pos by lia. set (m := Z.to_N (up_min p - 1)). set (n := Z.to_N (up_max p - 1)).
  assert (L : (m <= n)%N) by (subst m n; lia). unfold read_pattern.
  assert (T : forall pre, los (pre ++ "]{" ++ sol (dec_l m) ++ "," ++ sol (dec_l n) ++ "}$") =
    (los pre ++ "]"%char :: "{"%char :: dec_l m ++ ","%char :: dec_l n ++ "}"%char :: ["$"%char])%list).
  { intros pre. rewrite !los_app, !los_sol. reflexivity. }
  set (w := (dec_l m ++ ","%char :: dec_l n ++ "}"%char :: ["$"%char])%list) in T.
  assert (W : read_times ("{"%char :: w) = Some (Between m n, ["$"%char])) by (apply read_times_between; exact L).
  assert (O : forall t, read_times ("["%char :: t) = Some (Once, "["%char :: t)) by reflexivity.
  clearbody w. clear L.
  destruct (up_upper p), (up_nonalnum p);
  match goal with |- context [los ("^[" ++ ?a ++ "][" ++ ?b ++ ?r)] =>
    let x := eval vm_compute in ("^[" ++ a ++ "][" ++ b) in change (los ("^[" ++ a ++ "][" ++ b ++ r)) with (los (x ++ r)); rewrite (T x) end;
  cbn -[read_times]; rewrite O; cbn -[read_times]; rewrite W; reflexivity.
Qed.

Lemma username_pattern p : (1 <= up_min p <= up_max p)%Z -> exists P, read_pattern (username_regex p) = Some P /\ forall s, matches_pattern P s <-> announced p s.
Proof.
  intros H. eexists. split; [apply read_username; exact H|]. intros s. unfold matches_pattern, announced. cbn [pt_ahead pt_body matches_pieces].
  assert (Ls : forall l, los s = l -> String.length s = List.length l) by (intros l <-; symmetry; apply length_los). split.
  - intros [_ (l1 & r & E1 & [F1 N1] & l2 & r2 & -> & [F2 N2] & ->)]. cbn [fst snd] in *. destruct l1 as [|a [|b l1]]; try discriminate.
    rewrite app_nil_r in E1. cbn [app] in E1. split; [rewrite (Ls _ E1); cbn [List.length]; lia|]. exists a, l2. split; [exact E1|].
    split; [apply start_reflect, class_start_ok; now inversion F1|]. eapply List.Forall_impl; [|exact F2]. intros x Hx. now apply char_reflect, class_char_ok.
  - intros (B & a & l & E1 & Ha & Hl). split; [intros ps []|]. exists [a], l. split; [exact E1|]. split.
    + split; [|reflexivity]. constructor; [|constructor]. now apply class_start_ok, start_reflect.
    + exists l, []. split; [now rewrite app_nil_r|]. split; [|reflexivity]. unfold matches_piece. cbn [fst snd]. split.
      * eapply List.Forall_impl; [|exact Hl]. intros x Hx. now apply class_char_ok, char_reflect.
      * rewrite (Ls _ E1) in B. cbn [List.length] in B. lia.
Qed.

(** ** Passwords *)
Lemma read_password p : (0 <= pp_min p <= pp_max p)%Z ->
  read_pattern (password_regex p) = Some {|
    pt_ahead := (if pp_upper p then [[(Any, Star); (Cls [("A", "Z")], Once)]] else []) ++
                (if pp_lower p then [[(Any, Star); (Cls [("a", "z")], Once); (Any, Star); (Cls [("a", "z")], Once)]] else []) ++
                (if pp_number p then [[(Any, Star); (Cls [("0", "9")], Once); (Any, Star); (Cls [("0", "9")], Once)]] else []) ++
                (if pp_nonalnum p then [[(Any, Star); (Cls (map (fun a => (a, a)) (los "~!@#$&*")), Once)]] else []);
    pt_body := [(Any, Between (Z.to_N (pp_min p)) (Z.to_N (pp_max p)))] |}%list%char.
Proof.
  intros H. unfold password_regex. rewrite !sprint_pos by lia. set (m := Z.to_N (pp_min p)). set (n := Z.to_N (pp_max p)).
  assert (L : (m <= n)%N) by (subst m n; lia). unfold read_pattern.
  assert (T : forall pre, los (pre ++ ".{" ++ sol (dec_l m) ++ "," ++ sol (dec_l n) ++ "}$") =
    (los pre ++ "."%char :: "{"%char :: dec_l m ++ ","%char :: dec_l n ++ "}"%char :: ["$"%char])%list).
  { intros pre. rewrite !los_app, !los_sol. reflexivity. }
  set (w := (dec_l m ++ ","%char :: dec_l n ++ "}"%char :: ["$"%char])%list) in T.
  assert (W : read_times ("{"%char :: w) = Some (Between m n, ["$"%char])) by (apply read_times_between; exact L).
  clearbody w. clear L.
  destruct (pp_upper p), (pp_lower p), (pp_number p), (pp_nonalnum p);
  match goal with |- context [los ("^" ++ ?a ++ ?b ++ ?c ++ ?d ++ ?r)] =>
    let x := eval vm_compute in ("^" ++ a ++ b ++ c ++ d) in change (los ("^" ++ a ++ b ++ c ++ d ++ r)) with (los (x ++ r)); rewrite (T x) end;
  cbn -[read_times];
  repeat match goal with |- context [read_times (?c :: ?t)] =>
    first [constr_eq c "{"%char; rewrite W | let y := eval hnf in (read_times (c :: t)) in change (read_times (c :: t)) with y]; cbn -[read_times] end; reflexivity.
Qed.

Lemma no_newline_forall l : ~ In "010"%char l <-> Forall (is_char Any) l.
Proof.
  rewrite List.Forall_forall. cbn. split; [intros H x Hx ->; auto|]. intros H I. exact (H _ I eq_refl).
Qed.
Lemma ahead_one rs (P : ascii -> Prop) s : (forall a, is_char (Cls rs) a <-> P a) -> ~ In "010"%char (los s) ->
  ((exists l1 l2, los s = (l1 ++ l2)%list /\ matches_pieces [(Any, Star); (Cls rs, Once)] l1) <-> some_of P s).
Proof.
  intros HP N. cbn [matches_pieces]. split.
  - intros (l1 & l2 & E & x & r & -> & _ & y & r2 & -> & [F L] & ->). cbn [fst snd] in *. destruct y as [|a [|b y]]; try discriminate.
    exists x, a, l2. split; [rewrite E; now rewrite app_nil_r, <- app_assoc|]. apply HP. now inversion F.
  - intros (x & a & y & E & Ha). exists (x ++ [a])%list, y. split; [rewrite E, <- app_assoc; reflexivity|].
    exists x, [a]. split; [reflexivity|]. split.
    + split; [|exact I]. apply no_newline_forall. intros Hx. apply N. rewrite E. apply in_app_iff. now left.
    + exists [a], []. split; [reflexivity|]. split; [|reflexivity]. split; [|reflexivity]. constructor; [|constructor]. now apply HP.
Qed.
Lemma ahead_two rs (P : ascii -> Prop) s : (forall a, is_char (Cls rs) a <-> P a) -> ~ In "010"%char (los s) ->
  ((exists l1 l2, los s = (l1 ++ l2)%list /\ matches_pieces [(Any, Star); (Cls rs, Once); (Any, Star); (Cls rs, Once)] l1) <-> two_of P s).
Proof.
  intros HP N. cbn [matches_pieces]. split.
  - intros (l1 & l2 & E & x & r & -> & _ & y & r2 & -> & [F L] & z & r3 & -> & _ & w & r4 & -> & [F' L'] & ->). cbn [fst snd] in *.
    destruct y as [|a [|? y]]; try discriminate. destruct w as [|b [|? w]]; try discriminate.
    exists x, a, z, b, l2. split; [rewrite E, app_nil_r, <- !app_assoc; reflexivity|]. split; apply HP; [now inversion F|now inversion F'].
  - intros (x & a & y & b & z & E & Ha & Hb). exists (x ++ a :: y ++ [b])%list, z. split; [rewrite E, <- app_assoc; cbn; now rewrite <- app_assoc|].
    assert (Nx : ~ In "010"%char x) by (intros Hx; apply N; rewrite E; apply in_app_iff; now left).
    assert (Ny : ~ In "010"%char y) by (intros Hy; apply N; rewrite E; apply in_app_iff; right; right; apply in_app_iff; now left).
    exists x, (a :: y ++ [b])%list. split; [reflexivity|]. split; [split; [now apply no_newline_forall|exact I]|].
    exists [a], (y ++ [b])%list. split; [reflexivity|]. split; [split; [|reflexivity]; constructor; [now apply HP|constructor]|].
    exists y, [b]. split; [reflexivity|]. split; [split; [now apply no_newline_forall|exact I]|].
    exists [b], []. split; [reflexivity|]. split; [|reflexivity]. split; [|reflexivity]. constructor; [now apply HP|constructor].
Qed.
Lemma cls_bool rs (f : ascii -> bool) :
  (forall a, Bool.eqb (existsb (fun r => (N_of_ascii (fst r) <=? N_of_ascii a)%N && (N_of_ascii a <=? N_of_ascii (snd r))%N) rs) (f a) = true) ->
  forall a, is_char (Cls rs) a <-> f a = true.
Proof. intros H a. rewrite ranges_bool. apply eq_iff_eq_true. apply eqb_prop, H. Qed.
Lemma cls_upper a : is_char (Cls [("A", "Z")]%char) a <-> is_upper a = true.
Proof. revert a. apply cls_bool. intros a. revert a. apply forall_bytes. vm_compute. reflexivity. Qed.
Lemma cls_lower a : is_char (Cls [("a", "z")]%char) a <-> is_lower a = true.
Proof. revert a. apply cls_bool. intros a. revert a. apply forall_bytes. vm_compute. reflexivity. Qed.
Lemma cls_digit a : is_char (Cls [("0", "9")]%char) a <-> is_digit a = true.
Proof. revert a. apply cls_bool. intros a. revert a. apply forall_bytes. vm_compute. reflexivity. Qed.
Lemma cls_special a : is_char (Cls (map (fun a => (a, a)) (los "~!@#$&*"))) a <-> In a (los "~!@#$&*").
Proof.
  rewrite (cls_bool _ (fun a => existsb (Ascii.eqb a) (los "~!@#$&*"))).
  - rewrite existsb_exists. split; [intros (x & Hx & H); apply Ascii.eqb_eq in H; now subst|]. intros H. exists a. split; [exact H|apply Ascii.eqb_refl].
  - intros b. revert b. apply forall_bytes. vm_compute. reflexivity.
Qed.
Lemma in_if {A} (b : bool) (x y : A) : In x (if b then [y] else []) <-> b = true /\ x = y.
Proof. destruct b; cbn; split; [intros [->|[]]; auto|intros [_ ->]; auto|tauto|intros [? _]; discriminate]. Qed.
Lemma password_pattern p : (0 <= pp_min p <= pp_max p)%Z ->
  exists P, read_pattern (password_regex p) = Some P /\ forall s, matches_pattern P s <-> announced_password p s.
Proof.
  intros H. eexists. split; [apply read_password; exact H|]. intros s. unfold matches_pattern, announced_password. cbn [pt_ahead pt_body].
  assert (B : matches_pieces [(Any, Between (Z.to_N (pp_min p)) (Z.to_N (pp_max p)))] (los s) <-> (pp_min p <= zlen s <= pp_max p)%Z /\ ~ In "010"%char (los s)).
  { cbn [matches_pieces]. rewrite no_newline_forall. unfold zlen. rewrite <- length_los. split.
    - intros (l1 & l2 & E & [F L] & ->). cbn [fst snd] in *. rewrite app_nil_r in E. rewrite E. split; [lia|exact F].
    - intros [L F]. exists (los s), []. split; [now rewrite app_nil_r|]. split; [|reflexivity]. split; [exact F|]. cbn [snd]. lia. }
  rewrite B. split.
  - intros [A [L N]]. split; [exact L|]. split; [exact N|].
    split; [intros U; apply (ahead_one _ _ s cls_upper N), A; rewrite !in_app_iff, !in_if; tauto|].
    split; [intros U; apply (ahead_two _ _ s cls_lower N), A; rewrite !in_app_iff, !in_if; tauto|].
    split; [intros U; apply (ahead_two _ _ s cls_digit N), A; rewrite !in_app_iff, !in_if; tauto|].
    intros U. apply (ahead_one _ _ s cls_special N), A. rewrite !in_app_iff, !in_if. tauto.
  - intros (L & N & U & Lo & D & Sp). split; [|auto]. intros ps. rewrite !in_app_iff, !in_if.
    intros [[X ->]|[[X ->]|[[X ->]|[X ->]]]].
    + apply (ahead_one _ _ s cls_upper N), U, X.
    + apply (ahead_two _ _ s cls_lower N), Lo, X.
    + apply (ahead_two _ _ s cls_digit N), D, X.
    + apply (ahead_one _ _ s cls_special N), Sp, X.
Qed.

(** ** Summaries *)
Lemma strip_app pre t : strip pre (pre ++ t) = Some t.
Proof.
  unfold strip, has_prefix, drop. replace (String.prefix pre (pre ++ t)) with true.
  - f_equal. rewrite los_app, skipn_app, length_los, Nat.sub_diag, <- length_los, skipn_all. cbn. apply sol_los.
  - symmetry. induction pre as [|a pre IH]; [destruct t; reflexivity|]. change (String a pre ++ t) with (String a (pre ++ t)).
    unfold String.prefix; fold String.prefix. destruct (ascii_dec a a); [exact IH|congruence].
Qed.
Lemma read_summary_ok what a b rest ws : ~ In " "%char (los what) -> (0 <= a)%Z -> (0 <= b)%Z -> read_words ("character long string" ++ rest) = Some ws ->
  read_summary ("A " ++ what ++ " should be " ++ sprint_d a ++ "-" ++ sprint_d b ++ " character long string" ++ rest) =
  Some {| sm_what := what; sm_min := a; sm_max := b; sm_words := ws |}.
Proof.
  intros Hw Ha Hb Hr. unfold read_summary.
  rewrite strip_app.
  change (what ++ " should be " ++ sprint_d a ++ "-" ++ sprint_d b ++ " character long string" ++ rest)
    with (what ++ String " " ("should be " ++ sprint_d a ++ "-" ++ sprint_d b ++ " character long string" ++ rest)). rewrite cut_app by exact Hw.
  rewrite strip_app.
  replace (sprint_d a ++ "-" ++ sprint_d b ++ " character long string" ++ rest)
    with ((sprint_d a ++ String "-" (sprint_d b)) ++ String " " ("character long string" ++ rest)) by (rewrite str_assoc; reflexivity).
  rewrite !sprint_pos by assumption.
  rewrite cut_app.
  - rewrite cut_app by (rewrite los_sol; now apply dec_l_no). rewrite Hr, !los_sol, !read_number_dec. rewrite !Z2N.id by assumption. reflexivity.
  - rewrite los_app. cbn [list_ascii_of_string]. rewrite !los_sol, in_app_iff. intros [I|[I|I]]; [now apply dec_l_no in I|discriminate|now apply dec_l_no in I].
Qed.
Lemma username_says p : (0 <= up_min p)%Z -> (0 <= up_max p)%Z -> exists ws,
  read_summary (username_summary p) = Some {| sm_what := "username"; sm_min := up_min p; sm_max := up_max p; sm_words := ws |} /\
  forall w, In w ws <-> (w = "lowercase" /\ up_upper p = false) \/ (w = "alpha-numeric" /\ up_nonalnum p = false).
Proof.
  intros Ha Hb. unfold username_summary. cbv zeta. 
  destruct (up_upper p), (up_nonalnum p); cbn [app]; eexists; (split;
    [change ("A username should be " ++ ?t) with ("A " ++ "username" ++ " should be " ++ t); apply read_summary_ok;
      [intros I; cbn in I; intuition discriminate|exact Ha|exact Hb|vm_compute; reflexivity]|]);
    intros w; cbn; intuition (congruence || auto).
Qed.
Lemma password_says p : (0 <= pp_min p)%Z -> (0 <= pp_max p)%Z -> exists ws,
  read_summary (password_summary p) = Some {| sm_what := "password"; sm_min := pp_min p; sm_max := pp_max p; sm_words := ws |} /\
  forall w, In w ws <-> (w = "uppercase" /\ pp_upper p = true) \/ (w = "lowercase" /\ pp_lower p = true) \/
    (w = "numbers" /\ pp_number p = true) \/ (w = "non alpha-numeric" /\ pp_nonalnum p = true).
Proof.
  intros Ha Hb. unfold password_summary. cbv zeta. 
  destruct (pp_upper p), (pp_lower p), (pp_number p), (pp_nonalnum p); cbn [app]; eexists; (split;
    [change ("A password should be " ++ ?t) with ("A " ++ "password" ++ " should be " ++ t); apply read_summary_ok;
      [intros I; cbn in I; intuition discriminate|exact Ha|exact Hb|vm_compute; reflexivity]|]);
    intros w; cbn; intuition (congruence || auto).
Qed.
