(** Go strings as Coq byte strings, and the functions of package [strings]
    (and [fmt]'s [%d]) that /repo calls.  The Go standard library is not part
    of /repo; each definition names the Go function it transcribes and the
    place in /repo that uses it. *)
From Coq Require Import String Ascii ZArith NArith Lia Bool Arith List.
Import ListNotations.
Open Scope string_scope.
Open Scope N_scope.
Open Scope nat_scope.

Arguments N.add : simpl never.
Arguments N.mul : simpl never.
Arguments N.div : simpl never.
Arguments N.modulo : simpl never.
Arguments N.pow : simpl never.

(** Conversions between [string] and [list ascii]. *)
Notation los := list_ascii_of_string.
Notation sol := string_of_list_ascii.

(** [len(s)] as a Go [int] (Z). *)
Definition zlen (s : string) : Z := Z.of_nat (String.length s).

(** [strings.HasPrefix] (public_key.go:123,199). *)
Definition has_prefix (s p : string) : bool := String.prefix p s.

(** If [p] is a prefix of [l], the rest of [l]. *)
Fixpoint strip_prefix (p l : list ascii) : option (list ascii) :=
  match p, l with
  | [], _ => Some l
  | a :: p', b :: l' => if Ascii.eqb a b then strip_prefix p' l' else None
  | _ :: _, [] => None
  end.

(** [strings.HasSuffix] (public_key.go:199). *)
Definition has_suffix (s p : string) : bool :=
  match strip_prefix (rev (los p)) (rev (los s)) with Some _ => true | None => false end.

(** [strings.Contains] (database.go:386, name.go:73, public_key.go:121,125). *)
Fixpoint contains_l (p l : list ascii) : bool :=
  match strip_prefix p l with
  | Some _ => true
  | None => match l with [] => false | _ :: t => contains_l p t end
  end.
Definition contains (s p : string) : bool := contains_l (los p) (los s).

(** [strings.Split] with a one-byte separator (role.go:34, email.go:46,
    name.go:76; all separators used by the code are one ASCII byte). *)
Fixpoint split_l (c : ascii) (l : list ascii) : list (list ascii) :=
  match l with
  | [] => [[]]
  | a :: t =>
      if Ascii.eqb a c then [] :: split_l c t
      else match split_l c t with
           | [] => [[a]]
           | w :: ws => (a :: w) :: ws
           end
  end.
Definition split (c : ascii) (s : string) : list string := map sol (split_l c (los s)).

(** [strings.Join] (role.go:41, mfa_token.go:277, database.go:754,795). *)
Definition join (sep : string) (l : list string) : string := String.concat sep l.

(** The UTF-8 encodings of the code points for which Go's [unicode.IsSpace]
    holds: \t \n \v \f \r ' ' U+0085 U+00A0 U+1680 U+2000..U+200A U+2028
    U+2029 U+202F U+205F U+3000. *)
Definition bytes (l : list N) : list ascii := map ascii_of_N l.
Definition space_seqs : list (list ascii) :=
  map bytes
    [[9];[10];[11];[12];[13];[32];
     [194;133];[194;160];[225;154;128];
     [226;128;128];[226;128;129];[226;128;130];[226;128;131];[226;128;132];
     [226;128;133];[226;128;134];[226;128;135];[226;128;136];[226;128;137];
     [226;128;138];[226;128;168];[226;128;169];[226;128;175];
     [226;129;159];[227;128;128]]%N.

Fixpoint strip_any (seqs : list (list ascii)) (l : list ascii) : option (list ascii) :=
  match seqs with
  | [] => None
  | p :: ps => match strip_prefix p l with Some r => Some r | None => strip_any ps l end
  end.

(** Repeatedly remove a leading sequence; [fuel] bounds the number of removals
    (the length of the input suffices, see [trim_seq_done]). *)
Fixpoint trim_seq (fuel : nat) (seqs : list (list ascii)) (l : list ascii) : list ascii :=
  match fuel with
  | O => l
  | S f => match strip_any seqs l with Some r => trim_seq f seqs r | None => l end
  end.

Definition trim_left_l (l : list ascii) : list ascii :=
  trim_seq (List.length l) space_seqs l.
Definition trim_right_l (l : list ascii) : list ascii :=
  rev (trim_seq (List.length l) (map (@rev ascii) space_seqs) (rev l)).

(** [strings.TrimSpace] (role.go:30, password.go:73, user.go:116, name.go:78-79,
    mfa_token.go:335,355,367,451).  Go trims on the left first, then on the
    right; a code point is white space at either end exactly when its encoding
    is one of [space_seqs] there. *)
Definition trim_space (s : string) : string := sol (trim_right_l (trim_left_l (los s))).

(** [strings.TrimLeft(s, cutset)] for an ASCII cutset (public_key.go:273). *)
Fixpoint trim_left_cut_l (cut l : list ascii) : list ascii :=
  match l with
  | [] => []
  | a :: t => if existsb (Ascii.eqb a) cut then trim_left_cut_l cut t else l
  end.
Definition trim_left_cut (s cut : string) : string := sol (trim_left_cut_l (los cut) (los s)).

(** [strings.ReplaceAll(s, old, new)] for non-empty [old] (public_key.go:271). *)
Fixpoint replace_all_l (fuel : nat) (old new l : list ascii) : list ascii :=
  match fuel with
  | O => l
  | S f =>
      match strip_prefix old l with
      | Some r => new ++ replace_all_l f old new r
      | None => match l with [] => [] | a :: t => a :: replace_all_l f old new t end
      end
  end%list.
Definition replace_all (s old new : string) : string :=
  sol (replace_all_l (String.length s) (los old) (los new) (los s)).

(** Slices [s[:n]] and [s[n:]] (database.go:558,672; callers ensure n <= len). *)
Definition take (n : nat) (s : string) : string := sol (firstn n (los s)).
Definition drop (n : nat) (s : string) : string := sol (skipn n (los s)).

(** ASCII letters. *)
Definition is_upper (a : ascii) : bool := let n := N_of_ascii a in (65 <=? n)%N && (n <=? 90)%N.
Definition is_lower (a : ascii) : bool := let n := N_of_ascii a in (97 <=? n)%N && (n <=? 122)%N.
Definition is_digit (a : ascii) : bool := let n := N_of_ascii a in (48 <=? n)%N && (n <=? 57)%N.
Definition is_alnum (a : ascii) : bool := is_upper a || is_lower a || is_digit a.
Definition is_ascii7 (a : ascii) : bool := (N_of_ascii a <? 128)%N.
Definition lower_ascii (a : ascii) : ascii :=
  if is_upper a then ascii_of_N (N_of_ascii a + 32) else a.

(** Decimal digits of a natural number, as [fmt]'s [%d] prints them. *)
Definition digit (n : N) : ascii := ascii_of_N (48 + n).
Fixpoint dec_fuel (fuel : nat) (n : N) : list ascii :=
  match fuel with
  | O => [digit (n mod 10)]
  | S f => if (n <? 10)%N then [digit n] else (dec_fuel f (n / 10) ++ [digit (n mod 10)])%list
  end.
Definition dec_l (n : N) : list ascii := dec_fuel (N.size_nat n) n.

(** [%d] of a Go [int] (database.go:746,772,780,816, pkg/qr/qr.go:106,109,112). *)
Definition sprint_d (z : Z) : string :=
  match z with
  | Zneg p => sol ("-"%char :: dec_l (Npos p))
  | _ => sol (dec_l (Z.to_N z))
  end.

(** [%0<w>d] of a non-negative value (mfa_token.go:505-506). *)
Definition sprint_0d (w : nat) (n : N) : string :=
  sol (repeat "0"%char (w - List.length (dec_l n)) ++ dec_l n)%list.

(** * Lemmas *)

Lemma los_sol l : los (sol l) = l.
Proof. apply list_ascii_of_string_of_list_ascii. Qed.
Lemma sol_los s : sol (los s) = s.
Proof. apply string_of_list_ascii_of_string. Qed.
Lemma los_inj a b : los a = los b -> a = b.
Proof. intros H. rewrite <- (sol_los a), <- (sol_los b), H. reflexivity. Qed.
Lemma sol_inj a b : sol a = sol b -> a = b.
Proof. intros H. rewrite <- (los_sol a), <- (los_sol b), H. reflexivity. Qed.
Lemma los_app a b : los (a ++ b) = (los a ++ los b)%list.
Proof. induction a as [|c a IH]; cbn; [reflexivity|]. now rewrite IH. Qed.
Lemma sol_app a b : sol (a ++ b)%list = sol a ++ sol b.
Proof. apply los_inj. now rewrite los_app, !los_sol. Qed.
Lemma length_los s : List.length (los s) = String.length s.
Proof. induction s; cbn; congruence. Qed.
Lemma length_sol l : String.length (sol l) = List.length l.
Proof. rewrite <- length_los, los_sol. reflexivity. Qed.
Lemma los_nil_iff s : los s = [] <-> s = "".
Proof. destruct s; cbn; split; congruence. Qed.

Lemma strip_prefix_spec p l r : strip_prefix p l = Some r <-> l = (p ++ r)%list.
Proof.
  revert l; induction p as [|a p IH]; intros [|b l]; cbn; split; intros H; try congruence.
  - destruct (Ascii.eqb_spec a b); [|congruence]. subst. apply IH in H. now subst.
  - destruct (Ascii.eqb_spec a b); injection H as <- ->; [|congruence]. now apply IH.
Qed.
Lemma strip_prefix_None p l : strip_prefix p l = None <-> forall r, l <> (p ++ r)%list.
Proof.
  destruct (strip_prefix p l) eqn:E; split; intros H; try congruence.
  - apply strip_prefix_spec in E. now destruct (H l0).
  - intros r Hr. apply strip_prefix_spec in Hr. congruence.
Qed.

Lemma contains_l_spec p l :
  contains_l p l = true <-> exists a b, l = (a ++ p ++ b)%list.
Proof.
  induction l as [|c l IH]; cbn.
  - destruct (strip_prefix p []) eqn:E.
    + apply strip_prefix_spec in E. split; auto. intros _. exists [], l. exact E.
    + split; [congruence|]. intros (a & b & H). symmetry in H.
      apply app_eq_nil in H as [-> H]. rewrite strip_prefix_None in E. now destruct (E b).
  - destruct (strip_prefix p (c :: l)) eqn:E.
    + apply strip_prefix_spec in E. split; auto. intros _. exists [], l0. exact E.
    + rewrite IH. split; intros (a & b & H).
      * exists (c :: a), b. cbn. now rewrite H.
      * destruct a as [|x a]; cbn in H.
        -- rewrite strip_prefix_None in E. now destruct (E b).
        -- injection H as -> H. eauto.
Qed.
Lemma contains_spec s p : contains s p = true <-> exists a b, s = a ++ p ++ b.
Proof.
  unfold contains. rewrite contains_l_spec. split.
  - intros (a & b & H). exists (sol a), (sol b). apply los_inj.
    now rewrite !los_app, !los_sol.
  - intros (a & b & ->). exists (los a), (los b). now rewrite !los_app.
Qed.
Lemma contains_char s c : contains s (String c EmptyString) = true <-> In c (los s).
Proof.
  unfold contains. cbn. rewrite contains_l_spec. split.
  - intros (a & b & ->). apply in_or_app. right. now left.
  - intros H. apply in_split in H as (a & b & ->). now exists a, b.
Qed.

(** [split] and [join]. *)
Lemma split_l_ne c l : split_l c l <> [].
Proof. destruct l as [|a l]; cbn; [congruence|]. destruct (Ascii.eqb a c); [congruence|]. now destruct (split_l c l). Qed.
Lemma split_l_no_sep c l : ~ In c l -> split_l c l = [l].
Proof.
  induction l as [|a l IH]; cbn; [reflexivity|]. intros H.
  destruct (Ascii.eqb_spec a c); [subst; tauto|]. rewrite IH; tauto.
Qed.
Lemma split_l_app c a l : ~ In c a -> split_l c (a ++ c :: l)%list = a :: split_l c l.
Proof.
  induction a as [|x a IH]; cbn; intros H.
  - now rewrite Ascii.eqb_refl.
  - destruct (Ascii.eqb_spec x c); [subst; tauto|]. rewrite IH by tauto. reflexivity.
Qed.
Lemma split_l_head c l w ws : split_l c l = w :: ws -> ~ In c w.
Proof.
  revert w ws; induction l as [|a l IH]; cbn; intros w ws H.
  - injection H as <- <-. auto.
  - destruct (Ascii.eqb_spec a c).
    + injection H as <- <-. auto.
    + destruct (split_l c l) as [|w' ws'] eqn:E; injection H as <- <-.
      * intros [|[]]; congruence.
      * intros [|Hin]; [congruence|]. now apply (IH _ _ eq_refl).
Qed.
(** One list: [split] has one part exactly when the separator is absent. *)
Lemma split_l_cases c l :
  (~ In c l /\ split_l c l = [l]) \/
  (exists a b, l = (a ++ c :: b)%list /\ ~ In c a /\ split_l c l = a :: split_l c b).
Proof.
  destruct (in_dec ascii_dec c l) as [H|H].
  - right. induction l as [|x l IH]; [destruct H|].
    destruct (ascii_dec x c) as [->|Hne].
    + exists [], l. split; [reflexivity|]. split; [auto|]. cbn. now rewrite Ascii.eqb_refl.
    + destruct IH as (a & b & Hl & Ha & Hs).
      * destruct H; [congruence|assumption].
      * exists (x :: a), b. subst l. split; [reflexivity|]. split; [cbn; intuition congruence|].
        cbn. destruct (Ascii.eqb_spec x c); [congruence|]. now rewrite Hs.
  - left. split; [assumption|]. now apply split_l_no_sep.
Qed.
Fixpoint join_l (c : ascii) (ws : list (list ascii)) : list ascii :=
  match ws with
  | [] => []
  | [w] => w
  | w :: ws' => (w ++ c :: join_l c ws')%list
  end.
Lemma join_split_l c l : join_l c (split_l c l) = l.
Proof.
  induction l as [|a l IH]; cbn; [reflexivity|].
  destruct (Ascii.eqb_spec a c).
  - subst. pose proof (split_l_ne c l). destruct (split_l c l) as [|w ws] eqn:E; [congruence|].
    cbn. cbn in IH. now rewrite IH.
  - destruct (split_l c l) as [|w ws] eqn:E; [now apply split_l_ne in E|].
    destruct ws; cbn in *; now rewrite IH.
Qed.
Lemma los_join c ws : los (join (String c "") ws) = join_l c (map los ws).
Proof.
  unfold join. induction ws as [|w ws IH]; cbn; [reflexivity|].
  destruct ws as [|w' ws]; cbn [map join_l]; [reflexivity|].
  change (map los (w' :: ws)) with (los w' :: map los ws) in IH.
  rewrite los_app. f_equal. cbn [append]. cbn [los]. f_equal. exact IH.
Qed.
Lemma map_los_sol ls : map los (map sol ls) = ls.
Proof. induction ls; cbn; rewrite ?los_sol; congruence. Qed.

(** [trim_space]. *)
Lemma strip_any_spec seqs l r :
  strip_any seqs l = Some r -> exists p, In p seqs /\ l = (p ++ r)%list.
Proof.
  induction seqs as [|p ps IH]; cbn; [congruence|].
  destruct (strip_prefix p l) eqn:E; intros H.
  - injection H as <-. apply strip_prefix_spec in E. eauto.
  - destruct (IH H) as (q & Hq & Hl). eauto.
Qed.
Lemma strip_any_None seqs l :
  strip_any seqs l = None <-> forall p r, In p seqs -> l <> (p ++ r)%list.
Proof.
  induction seqs as [|p ps IH]; cbn; [intuition|].
  destruct (strip_prefix p l) eqn:E.
  - apply strip_prefix_spec in E. split; [congruence|]. intros H. exfalso. eapply H; eauto.
  - rewrite IH. rewrite strip_prefix_None in E. split.
    + intros H q r [<-|Hq]; auto.
    + intros H q r Hq. apply H. auto.
Qed.
Lemma trim_seq_split fuel seqs l :
  exists ps, Forall (fun p => In p seqs) ps /\ l = (concat ps ++ trim_seq fuel seqs l)%list.
Proof.
  revert l; induction fuel as [|f IH]; intros l; cbn.
  - exists []. auto.
  - destruct (strip_any seqs l) as [r|] eqn:E.
    + apply strip_any_spec in E as (p & Hp & ->). destruct (IH r) as (ps & Hps & Hr).
      exists (p :: ps). split; [auto|]. cbn. rewrite <- app_assoc. f_equal. exact Hr.
    + exists []. auto.
Qed.
Lemma trim_seq_done fuel seqs l :
  ~ In [] seqs -> (List.length l <= fuel)%nat -> strip_any seqs (trim_seq fuel seqs l) = None.
Proof.
  intros Hne. revert l; induction fuel as [|f IH]; intros l Hl; cbn.
  - destruct l; [|cbn in Hl; lia]. apply strip_any_None. intros p r Hp H.
    symmetry in H. apply app_eq_nil in H as [-> _]. tauto.
  - destruct (strip_any seqs l) as [r|] eqn:E; [|assumption].
    apply IH. apply strip_any_spec in E as (p & Hp & ->). rewrite app_length in Hl.
    destruct p; [tauto|cbn in Hl; lia].
Qed.
Lemma trim_seq_id fuel seqs l : strip_any seqs l = None -> trim_seq fuel seqs l = l.
Proof. intros H. destruct fuel; cbn; [reflexivity|]. now rewrite H. Qed.

(** No white space sequence at the start / at the end. *)
Definition no_space_start (l : list ascii) : Prop := forall p r, In p space_seqs -> l <> (p ++ r)%list.
Definition no_space_end (l : list ascii) : Prop := forall p r, In p space_seqs -> l <> (r ++ p)%list.
(** A string that [strings.TrimSpace] would leave alone. *)
Definition trimmed (s : string) : Prop := no_space_start (los s) /\ no_space_end (los s).
(** A concatenation of white space characters. *)
Definition all_space (l : list ascii) : Prop := exists ps, Forall (fun p => In p space_seqs) ps /\ l = concat ps.

Lemma space_seqs_ne : ~ In [] space_seqs.
Proof. intros H. cbn in H. repeat (destruct H as [H|H]; [discriminate|]). exact H. Qed.
Lemma rev_space_seqs_ne : ~ In [] (map (@rev ascii) space_seqs).
Proof. intros H. cbn in H. repeat (destruct H as [H|H]; [discriminate|]). exact H. Qed.

Lemma strip_rev_None l :
  strip_any (map (@rev ascii) space_seqs) (rev l) = None <-> no_space_end l.
Proof.
  rewrite strip_any_None. unfold no_space_end. split; intros H p r Hp E.
  - apply (H (rev p) (rev r)); [now apply in_map|]. now rewrite E, rev_app_distr.
  - apply in_map_iff in Hp as (q & <- & Hq). apply (H q (rev r) Hq).
    rewrite <- (rev_involutive l), E, rev_app_distr, rev_involutive. reflexivity.
Qed.

Lemma trim_left_l_start l : no_space_start (trim_left_l l).
Proof. unfold no_space_start. apply (proj1 (strip_any_None _ _)). apply trim_seq_done; [apply space_seqs_ne|lia]. Qed.
Lemma trim_right_l_end l : no_space_end (trim_right_l l).
Proof.
  apply (proj1 (strip_rev_None _)). unfold trim_right_l. rewrite rev_involutive.
  apply trim_seq_done; [apply rev_space_seqs_ne|rewrite rev_length; lia].
Qed.
Lemma concat_rev_map (ps : list (list ascii)) :
  rev (concat ps) = concat (rev (map (@rev ascii) ps)).
Proof.
  induction ps as [|p ps IH]; cbn; [reflexivity|].
  rewrite rev_app_distr, IH, concat_app. cbn. now rewrite app_nil_r.
Qed.
Lemma trim_right_l_split l : exists b, all_space b /\ l = (trim_right_l l ++ b)%list.
Proof.
  unfold trim_right_l.
  destruct (trim_seq_split (List.length l) (map (@rev ascii) space_seqs) (rev l)) as (ps & Hps & H).
  exists (rev (concat ps)). split.
  - rewrite concat_rev_map. exists (rev (map (@rev ascii) ps)). split; [|reflexivity].
    apply Forall_rev. rewrite Forall_map. rewrite Forall_forall in *. intros p Hp.
    specialize (Hps p Hp). apply in_map_iff in Hps as (q & <- & Hq). now rewrite rev_involutive.
  - rewrite <- rev_app_distr, <- H. now rewrite rev_involutive.
Qed.
Lemma trim_left_l_split l : exists a, all_space a /\ l = (a ++ trim_left_l l)%list.
Proof.
  destruct (trim_seq_split (List.length l) space_seqs l) as (ps & Hps & H).
  exists (concat ps). split; [now exists ps|exact H].
Qed.

Lemma no_space_start_prefix l b : no_space_start (l ++ b)%list -> no_space_start l.
Proof. intros H p r Hp E. subst l. apply (H p (r ++ b)%list Hp). now rewrite app_assoc. Qed.

(** What [trim_space] computes: white space removed at both ends, and nothing else. *)
Lemma trim_space_spec s :
  trimmed (trim_space s) /\
  exists a b, all_space a /\ all_space b /\ los s = (a ++ los (trim_space s) ++ b)%list.
Proof.
  unfold trim_space, trimmed. rewrite los_sol.
  destruct (trim_left_l_split (los s)) as (a & Ha & Hl).
  destruct (trim_right_l_split (trim_left_l (los s))) as (b & Hb & Hr).
  split; [split|].
  - pose proof (trim_left_l_start (los s)) as H. rewrite Hr in H. now apply no_space_start_prefix in H.
  - apply trim_right_l_end.
  - exists a, b. rewrite <- Hr. auto.
Qed.
Lemma trim_space_id s : trimmed s -> trim_space s = s.
Proof.
  intros [H1 H2]. unfold trim_space, trim_left_l, trim_right_l.
  rewrite (trim_seq_id _ space_seqs) by (now apply strip_any_None).
  rewrite (trim_seq_id _ (map (@rev ascii) space_seqs)) by (now apply strip_rev_None).
  now rewrite rev_involutive, sol_los.
Qed.
Lemma trim_space_idem s : trim_space (trim_space s) = trim_space s.
Proof. apply trim_space_id, trim_space_spec. Qed.
Lemma trim_space_trimmed_iff s : trim_space s = s <-> trimmed s.
Proof. split; [|apply trim_space_id]. intros <-. apply trim_space_spec. Qed.
Lemma trim_space_length s : (String.length (trim_space s) <= String.length s)%nat.
Proof.
  destruct (trim_space_spec s) as (_ & a & b & _ & _ & H).
  apply (f_equal (@List.length ascii)) in H. rewrite !app_length, !length_los in H. lia.
Qed.

(** Executable test for [trimmed]. *)
Definition trimmedb (s : string) : bool := String.eqb (trim_space s) s.
Lemma trimmedb_spec s : trimmedb s = true <-> trimmed s.
Proof. unfold trimmedb. rewrite String.eqb_eq. apply trim_space_trimmed_iff. Qed.

(** [take]/[drop]. *)
Lemma take_drop n s : take n s ++ drop n s = s.
Proof. unfold take, drop. rewrite <- sol_app, firstn_skipn. apply sol_los. Qed.
Lemma length_take n s : (n <= String.length s)%nat -> String.length (take n s) = n.
Proof. intros H. unfold take. rewrite length_sol, firstn_length, length_los. lia. Qed.

(** Decimal printing. *)
Fixpoint dec_val_l (l : list ascii) (acc : N) : N :=
  match l with [] => acc | a :: t => dec_val_l t (acc * 10 + (N_of_ascii a - 48))%N end.
Lemma dec_val_l_app a b acc : dec_val_l (a ++ b)%list acc = dec_val_l b (dec_val_l a acc).
Proof. revert acc; induction a as [|x a IH]; intros acc; cbn; auto. Qed.
Lemma digit_val n : (n < 10)%N -> N_of_ascii (digit n) = (48 + n)%N.
Proof. intros H. unfold digit. apply N_ascii_embedding. lia. Qed.
Lemma is_digit_digit n : (n < 10)%N -> is_digit (digit n) = true.
Proof. intros H. unfold is_digit. rewrite digit_val by assumption. apply andb_true_intro; split; apply N.leb_le; lia. Qed.
Lemma dec_fuel_digits f n : Forall (fun a => is_digit a = true) (dec_fuel f n).
Proof.
  revert n; induction f as [|f IH]; intros n; cbn.
  - constructor; [|constructor]. apply is_digit_digit. now apply N.mod_lt.
  - destruct (N.ltb_spec n 10).
    + constructor; [|constructor]. now apply is_digit_digit.
    + apply Forall_app. split; [apply IH|]. constructor; [|constructor].
      apply is_digit_digit. now apply N.mod_lt.
Qed.
Lemma dec_fuel_val f n : (n < 2 ^ N.of_nat f)%N \/ (n < 10)%N -> dec_val_l (dec_fuel f n) 0 = n.
Proof.
  revert n; induction f as [|f IH]; intros n H; cbn [dec_fuel].
  - assert (n < 10)%N by (change (2 ^ N.of_nat 0)%N with 1%N in H; lia).
    cbn [dec_val_l]. rewrite N.mod_small by assumption. rewrite digit_val by assumption. lia.
  - destruct (N.ltb_spec n 10).
    + cbn [dec_val_l]. rewrite digit_val by assumption. lia.
    + rewrite dec_val_l_app. rewrite IH.
      * cbn [dec_val_l]. rewrite digit_val by (now apply N.mod_lt).
        pose proof (N.div_mod n 10 ltac:(lia)) as Hdm.
        set (q := (n / 10)%N) in *. set (r := (n mod 10)%N) in *. clearbody q r. lia.
      * left. destruct H as [H|H]; [|lia].
        rewrite Nat2N.inj_succ, N.pow_succ_r' in H.
        apply N.div_lt_upper_bound; [lia|]. lia.
Qed.
Lemma size_nat_size n : N.of_nat (N.size_nat n) = N.size n.
Proof.
  destruct n as [|p]; [reflexivity|]. cbn [N.size_nat N.size].
  induction p as [p IH|p IH|]; cbn [Pos.size_nat Pos.size]; [| |reflexivity];
    rewrite Nat2N.inj_succ, IH; reflexivity.
Qed.
Lemma dec_l_val n : dec_val_l (dec_l n) 0 = n.
Proof. apply dec_fuel_val. left. rewrite size_nat_size. apply N.size_gt. Qed.
Lemma dec_l_digits n : Forall (fun a => is_digit a = true) (dec_l n).
Proof. apply dec_fuel_digits. Qed.
Lemma dec_l_ne n : dec_l n <> [].
Proof. unfold dec_l. destruct (N.size_nat n); cbn; [congruence|]. destruct (n <? 10)%N; [congruence|]. intros H. apply app_eq_nil in H as [_ H]. discriminate. Qed.
Lemma dec_fuel_length f n k :
  (n < 10 ^ N.of_nat k)%N -> (1 <= k)%nat -> (List.length (dec_fuel f n) <= k)%nat.
Proof.
  revert n k; induction f as [|f IH]; intros n k H Hk; cbn [dec_fuel]; [cbn; lia|].
  destruct (N.ltb_spec n 10); [cbn; lia|].
  rewrite app_length; cbn [List.length].
  destruct k as [|k]; [lia|]. destruct k as [|k].
  - change (10 ^ N.of_nat 1)%N with 10%N in H. lia.
  - assert (List.length (dec_fuel f (n / 10)) <= S k)%nat; [|lia].
    apply IH; [|lia]. rewrite Nat2N.inj_succ, N.pow_succ_r' in H.
    apply N.div_lt_upper_bound; lia.
Qed.
Lemma dec_l_length n k : (n < 10 ^ N.of_nat k)%N -> (1 <= k)%nat -> (List.length (dec_l n) <= k)%nat.
Proof. apply dec_fuel_length. Qed.
Lemma dec_val_zeros k l : dec_val_l (repeat "0"%char k ++ l)%list 0 = dec_val_l l 0.
Proof.
  induction k as [|k IH]; cbn [repeat app]; [reflexivity|].
  cbn [dec_val_l]. change (0 * 10 + (N_of_ascii "0" - 48))%N with 0%N. exact IH.
Qed.
Lemma sprint_0d_spec w n :
  (1 <= w)%nat -> (n < 10 ^ N.of_nat w)%N ->
  String.length (sprint_0d w n) = w /\
  Forall (fun a => is_digit a = true) (los (sprint_0d w n)) /\
  dec_val_l (los (sprint_0d w n)) 0 = n.
Proof.
  intros Hw Hn. unfold sprint_0d. rewrite length_sol, los_sol.
  pose proof (dec_l_length n w Hn Hw). split; [|split].
  - rewrite app_length, repeat_length. lia.
  - apply Forall_app. split; [|apply dec_l_digits].
    apply Forall_forall. intros x Hx. apply repeat_spec in Hx. now subst.
  - rewrite dec_val_zeros. apply dec_l_val.
Qed.
