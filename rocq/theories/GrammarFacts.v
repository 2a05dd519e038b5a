(** The parser of [Json.v] and the grammar of [SpecJson.v] agree. *)
From Coq Require Import String Ascii ZArith NArith Lia Bool Arith List.
From Coq Require Import ZifyBool ZifyNat ZifyN.
From Verif Require Import GoStr Utf8 Codec Json JsonFacts SpecJson.
Import ListNotations.
Open Scope N_scope.
Local Ltac Zify.zify_post_hook ::= Z.div_mod_to_equations.

(** * UTF-8 *)
Lemma utf8_encode r ns : utf8 r ns -> bytes ns = encode_rune r /\ scalar r = true.
Proof.
  intros [x X|a b|a b c|a b c d]; unfold encode_rune, scalar, bytes; cbn [map].
  - destruct (N.ltb_spec x 128); [|lia]. split; [reflexivity|lia].
  - destruct (N.ltb_spec (a * 64 + b) 128); [lia|]. destruct (N.ltb_spec (a * 64 + b) 2048); [|lia].
    split; [|lia]. repeat f_equal; lia.
  - destruct (N.ltb_spec (a * 4096 + b * 64 + c) 128); [lia|]. destruct (N.ltb_spec (a * 4096 + b * 64 + c) 2048); [lia|].
    destruct ((a * 4096 + b * 64 + c <? 55296) || (57344 <=? a * 4096 + b * 64 + c) && (a * 4096 + b * 64 + c <? 1114112)) eqn:E; [|lia].
    cbn [negb]. destruct (N.ltb_spec (a * 4096 + b * 64 + c) 65536); [|lia]. split; [|reflexivity]. repeat f_equal; lia.
  - remember (a * 262144 + b * 4096 + c * 64 + d) as x eqn:X.
    destruct (N.ltb_spec x 128); [lia|]. destruct (N.ltb_spec x 2048); [lia|].
    destruct ((x <? 55296) || (57344 <=? x) && (x <? 1114112)) eqn:E; [|lia].
    cbn [negb]. destruct (N.ltb_spec x 65536); [lia|]. split; [|reflexivity].
    assert (x / 262144 = a) by lia. assert (x / 4096 mod 64 = b) by lia. assert (x / 64 mod 64 = c) by lia. assert (x mod 64 = d) by lia. congruence.
Qed.
Lemma scalar_utf8 r : scalar r = true -> exists ns, utf8 r ns.
Proof.
  unfold scalar. intros H. destruct (N.ltb_spec r 128); [eexists; now apply U1|].
  destruct (N.ltb_spec r 2048).
  { exists [192 + r / 64; 128 + r mod 64]. replace r with (r / 64 * 64 + r mod 64) at 1 by lia. apply U2; lia. }
  destruct (N.ltb_spec r 65536).
  { exists [224 + r / 4096; 128 + r / 64 mod 64; 128 + r mod 64]. replace r with (r / 4096 * 4096 + r / 64 mod 64 * 64 + r mod 64) at 1 by lia. apply U3; lia. }
  exists [240 + r / 262144; 128 + r / 4096 mod 64; 128 + r / 64 mod 64; 128 + r mod 64].
  replace r with (r / 262144 * 262144 + r / 4096 mod 64 * 4096 + r / 64 mod 64 * 64 + r mod 64) at 1 by lia. apply U4; lia.
Qed.
Lemma utf8_encoded r ns : utf8 r ns -> encoded r (bytes ns).
Proof. intros H. apply utf8_encode in H as [-> H]. now apply encode_rune_encoded. Qed.
Lemma utf8_form r ns : utf8 r ns -> (r < 128 /\ ns = [r]) \/
  (128 <= r /\ exists a t, ns = a :: t /\ 192 <= a < 256 /\ Forall (fun n => 128 <= n < 192) t).
Proof.
  intros []; [now left|right..]; (split; [lia|]); eexists _, _; (split; [reflexivity|]); (split; [lia|]); repeat constructor; lia.
Qed.

Lemma bytes_of l : bytes (map N_of_ascii l) = l.
Proof. unfold bytes. rewrite map_map. rewrite <- (map_id l) at 2. apply map_ext. intros a. apply ascii_N_embedding. Qed.

(** one step of [chunks] *)
Lemma chunks_step a t :
  (exists r ns rest, a :: t = (bytes ns ++ rest)%list /\ utf8 r ns /\ chunks (a :: t) = Rune r (bytes ns) :: chunks rest) \/
  (128 <= N_of_ascii a /\ no_char (a :: t) /\ chunks (a :: t) = Bad a :: chunks t).
Proof.
  assert (K : forall r l rest, utf8 r (map N_of_ascii l) -> a :: t = (l ++ rest)%list ->
    exists r ns rest, a :: t = (bytes ns ++ rest)%list /\ utf8 r ns /\ chunks (a :: t) = Rune r (bytes ns) :: chunks rest).
  { intros r l rest U E. exists r, (map N_of_ascii l), rest. rewrite bytes_of. split; [exact E|]. split; [exact U|].
    rewrite E. pose proof (utf8_encoded _ _ U) as H. rewrite bytes_of in H. apply H. }
  assert (L : 128 <= N_of_ascii a -> chunks (a :: t) = Bad a :: chunks t ->
    128 <= N_of_ascii a /\ no_char (a :: t) /\ chunks (a :: t) = Bad a :: chunks t).
  { intros A E. split; [exact A|]. split; [|exact E]. intros r ns rest U X. rewrite X, (utf8_encoded _ _ U rest) in E. discriminate. }
  assert (D : (exists r l rest, utf8 r (map N_of_ascii l) /\ a :: t = (l ++ rest)%list) \/ 128 <= N_of_ascii a /\ chunks (a :: t) = Bad a :: chunks t).
  2:{ destruct D as [(r & l & rest & U & E)|[A E]]; [left; eauto|right; auto]. }
  clear K L. cbn [chunks].
  dif. { left. exists (N_of_ascii a), [a], t. split; [apply U1; lia|reflexivity]. }
  dif.
  { destruct t as [|b t2]; [right; split; [lia|reflexivity]|]. dif; [|right; split; [lia|reflexivity]].
    left. exists (rune2 a b), [a; b], t2. split; [|reflexivity]. apply in_range_spec in Heqb0. apply in_range_spec in Heqb1.
    unfold rune2, low6. cbn [map]. replace (N_of_ascii a) with (192 + N_of_ascii a mod 32) at 2 by lia.
    replace (N_of_ascii b) with (128 + N_of_ascii b mod 64) at 2 by lia. apply U2; lia. }
  dif.
  { destruct t as [|b [|c t3]]; try (right; split; [lia|reflexivity]). dif; [|right; split; [lia|reflexivity]].
    apply andb_prop in Heqb2 as [S C]. apply in_range_spec in Heqb1. apply in_range_spec in C. unfold second3 in S.
    assert (B : (N_of_ascii a = 224 /\ 160 <= N_of_ascii b <= 191) \/ (N_of_ascii a = 237 /\ 128 <= N_of_ascii b <= 159) \/
      (N_of_ascii a <> 224 /\ N_of_ascii a <> 237 /\ 128 <= N_of_ascii b <= 191)).
    { destruct (N.eqb_spec (N_of_ascii a) 224); [apply in_range_spec in S; lia|].
      destruct (N.eqb_spec (N_of_ascii a) 237); apply in_range_spec in S; lia. }
    left. exists (rune3 a b c), [a; b; c], t3. split; [|reflexivity]. unfold rune3, low6. cbn [map].
    assert (E1 : exists x, N_of_ascii a = 224 + x) by (exists (N_of_ascii a - 224); lia). destruct E1 as [x E1].
    assert (E2 : exists x, N_of_ascii b = 128 + x) by (exists (N_of_ascii b - 128); lia). destruct E2 as [y E2].
    assert (E3 : exists x, N_of_ascii c = 128 + x) by (exists (N_of_ascii c - 128); lia). destruct E3 as [z E3].
    rewrite E1, E2, E3 in *. replace ((224 + x) mod 16) with x by lia. replace ((128 + y) mod 64) with y by lia. replace ((128 + z) mod 64) with z by lia.
    apply U3; lia. }
  dif.
  { destruct t as [|b [|c [|d t4]]]; try (right; split; [lia|reflexivity]). dif; [|right; split; [lia|reflexivity]].
    apply andb_prop in Heqb3 as [S D]. apply andb_prop in S as [S C]. apply in_range_spec in Heqb2. apply in_range_spec in C. apply in_range_spec in D. unfold second4 in S.
    assert (B : (N_of_ascii a = 240 /\ 144 <= N_of_ascii b <= 191) \/ (N_of_ascii a = 244 /\ 128 <= N_of_ascii b <= 143) \/
      (N_of_ascii a <> 240 /\ N_of_ascii a <> 244 /\ 128 <= N_of_ascii b <= 191)).
    { destruct (N.eqb_spec (N_of_ascii a) 240); [apply in_range_spec in S; lia|].
      destruct (N.eqb_spec (N_of_ascii a) 244); apply in_range_spec in S; lia. }
    left. exists (rune4 a b c d), [a; b; c; d], t4. split; [|reflexivity]. unfold rune4, low6. cbn [map].
    assert (E1 : exists x, N_of_ascii a = 240 + x) by (exists (N_of_ascii a - 240); lia). destruct E1 as [x E1].
    assert (E2 : exists x, N_of_ascii b = 128 + x) by (exists (N_of_ascii b - 128); lia). destruct E2 as [y E2].
    assert (E3 : exists x, N_of_ascii c = 128 + x) by (exists (N_of_ascii c - 128); lia). destruct E3 as [z E3].
    assert (E4 : exists x, N_of_ascii d = 128 + x) by (exists (N_of_ascii d - 128); lia). destruct E4 as [u E4].
    rewrite E1, E2, E3, E4 in *. replace ((240 + x) mod 8) with x by lia. replace ((128 + y) mod 64) with y by lia. replace ((128 + z) mod 64) with z by lia. replace ((128 + u) mod 64) with u by lia.
    apply U4; lia. }
  right. split; [lia|reflexivity].
Qed.

(** * Strings *)
(** what [scan_str] lets through *)
Inductive scanned : list ascii -> Prop :=
| ScNone : scanned []
| ScPlain a w : 32 <= N_of_ascii a -> N_of_ascii a <> 34 -> N_of_ascii a <> 92 -> scanned w -> scanned (a :: w)
| ScShort a n w : In (a, n) shorts -> scanned w -> scanned (backslash :: a :: w)
| ScCode h r w : code h r -> scanned w -> scanned (backslash :: "u"%char :: h ++ w).

Lemma hex_is_val a n : hex_is a n <-> hex_val a = Some n.
Proof.
  split.
  - intros []; unfold hex_val, in_range; rewrite N_of_ascii_of_N by lia; repeat (dif; try lia); f_equal; lia.
  - unfold hex_val, in_range. pose proof (N_of_ascii_lt a) as B.
    dif; [intros [= <-]; rewrite <- (ascii_N_embedding a) at 1; replace (N_of_ascii a) with (48 + (N_of_ascii a - 48)) at 1 by lia; apply HxNum; lia|].
    dif; [intros [= <-]; rewrite <- (ascii_N_embedding a) at 1; replace (N_of_ascii a) with (87 + (N_of_ascii a - 87)) at 1 by lia; apply HxLow; lia|].
    dif; [intros [= <-]; rewrite <- (ascii_N_embedding a) at 1; replace (N_of_ascii a) with (55 + (N_of_ascii a - 55)) at 1 by lia; apply HxUp; lia|discriminate].
Qed.
Lemma code_iff h r : code h r <-> exists a b c d, h = [a; b; c; d] /\ is_hex a && is_hex b && is_hex c && is_hex d = true /\ r = hex4 a b c d.
Proof.
  unfold is_hex, hex4. split.
  - intros [a b c d w x y z A B C D]. apply hex_is_val in A, B, C, D. exists a, b, c, d. now rewrite A, B, C, D.
  - intros (a & b & c & d & -> & H & ->). destruct (hex_val a) eqn:A, (hex_val b) eqn:B, (hex_val c) eqn:C, (hex_val d) eqn:D; try discriminate H.
    constructor; now apply hex_is_val.
Qed.
Lemma code_lt h r : code h r -> r < 65536.
Proof.
  intros [a b c d w x y z A B C D]. assert (L : forall a n, hex_is a n -> n < 16) by (intros ? ? []; lia).
  pose proof (L _ _ A). pose proof (L _ _ B). pose proof (L _ _ C). pose proof (L _ _ D). lia.
Qed.
Lemma eqb_ascii a n : n < 256 -> Ascii.eqb a (ascii_of_N n) = (N_of_ascii a =? n).
Proof.
  intros H. destruct (Ascii.eqb_spec a (ascii_of_N n)) as [->|K]; symmetry.
  - rewrite N_of_ascii_of_N by exact H. apply N.eqb_refl.
  - apply N.eqb_neq. intros <-. apply K. symmetry. apply ascii_N_embedding.
Qed.
Lemma short_iff a : existsb (Ascii.eqb a) [quote; "\"; "/"; "b"; "f"; "n"; "r"; "t"]%char = true <-> exists n, In (a, n) shorts.
Proof.
  rewrite existsb_exists. unfold shorts, backslash. split.
  - intros (x & H & E). apply Ascii.eqb_eq in E. subst x. cbn in H.
    destruct H as [<-|[<-|[<-|[<-|[<-|[<-|[<-|[<-|[]]]]]]]]]; eexists; cbn; tauto.
  - intros (n & H). exists a. split; [|apply Ascii.eqb_refl]. cbn in H.
    destruct H as [[= <- <-]|[[= <- <-]|[[= <- <-]|[[= <- <-]|[[= <- <-]|[[= <- <-]|[[= <- <-]|[[= <- <-]|[]]]]]]]]]; cbn; tauto.
Qed.
Lemma short_escape a n : In (a, n) shorts -> simple_escape a = ascii_of_N n /\ Ascii.eqb a "u" = false /\ n < 128.
Proof.
  unfold shorts. cbn. intros H.
  destruct H as [[= <- <-]|[[= <- <-]|[[= <- <-]|[[= <- <-]|[[= <- <-]|[[= <- <-]|[[= <- <-]|[[= <- <-]|[]]]]]]]]]; repeat split; reflexivity.
Qed.

Lemma scan_sound n : forall l raw r, (List.length l <= n)%nat -> scan_str l = Some (raw, r) -> l = (raw ++ mark :: r)%list /\ scanned raw.
Proof.
  induction n as [|n IH]; intros l raw r L H; destruct l as [|a t]; try discriminate H; [cbn in L; lia|].
  cbn [scan_str] in H. cbn in L. destruct (Ascii.eqb_spec a quote) as [->|Q].
  { injection H as <- <-. split; [reflexivity|constructor]. }
  destruct (N.ltb_spec (N_of_ascii a) 32) as [|G]; [discriminate|].
  destruct (Ascii.eqb_spec a "\") as [->|S].
  { destruct t as [|b t]; [discriminate|]. cbn in L.
    destruct (existsb _ _) eqn:X.
    { apply short_iff in X as (m & X). destruct (scan_str t) as [[w r']|] eqn:E; [|discriminate]. injection H as <- <-.
      apply IH in E as [-> E]; [|lia]. split; [reflexivity|]. now apply (ScShort _ m). }
    destruct (Ascii.eqb_spec b "u") as [->|]; [|discriminate].
    destruct t as [|c1 [|c2 [|c3 [|c4 t]]]]; try discriminate. cbn in L.
    destruct (is_hex c1 && is_hex c2 && is_hex c3 && is_hex c4) eqn:HX; [|discriminate].
    destruct (scan_str t) as [[w r']|] eqn:E; [|discriminate]. injection H as <- <-. apply IH in E as [-> E]; [|lia].
    split; [reflexivity|]. change (c1 :: c2 :: c3 :: c4 :: w) with ([c1; c2; c3; c4] ++ w)%list. apply (ScCode _ (hex4 c1 c2 c3 c4)); [|exact E].
    apply code_iff. now exists c1, c2, c3, c4. }
  destruct (scan_str t) as [[w r']|] eqn:E; [|discriminate]. injection H as <- <-. apply IH in E as [-> E]; [|lia].
  split; [reflexivity|]. constructor; [exact G| | |exact E].
  - intros K. apply Q. rewrite <- (ascii_N_embedding a), K. reflexivity.
  - intros K. apply S. rewrite <- (ascii_N_embedding a), K. reflexivity.
Qed.
Lemma scan_complete raw r : scanned raw -> scan_str (raw ++ mark :: r)%list = Some (raw, r).
Proof.
  induction 1 as [|a w A1 A2 A3 _ IH|a n w A _ IH|h x w A _ IH].
  - reflexivity.
  - cbn [app scan_str]. change quote with (ascii_of_N 34). change "\"%char with (ascii_of_N 92). rewrite !eqb_ascii by lia.
    destruct (N.eqb_spec (N_of_ascii a) 34); [lia|]. destruct (N.ltb_spec (N_of_ascii a) 32); [lia|]. destruct (N.eqb_spec (N_of_ascii a) 92); [lia|].
    now rewrite IH.
  - cbn [app]. unfold backslash. cbn [scan_str]. change (Ascii.eqb (ascii_of_N 92) quote) with false. change (N_of_ascii (ascii_of_N 92) <? 32) with false.
    change (Ascii.eqb (ascii_of_N 92) "\") with true. cbv iota.
    assert (X : exists n, In (a, n) shorts) by eauto. apply short_iff in X. rewrite X. now rewrite IH.
  - apply code_iff in A as (a & b & c & d & -> & X & _). cbn [app]. unfold backslash. cbn [scan_str]. change (Ascii.eqb (ascii_of_N 92) quote) with false.
    change (N_of_ascii (ascii_of_N 92) <? 32) with false. change (Ascii.eqb (ascii_of_N 92) "\") with true.
    change (existsb (Ascii.eqb "u") [quote; "\"; "/"; "b"; "f"; "n"; "r"; "t"]%char) with false. change (Ascii.eqb "u" "u") with true. cbv iota.
    rewrite X. now rewrite IH.
Qed.

Definition cont (a : ascii) : Prop := 128 <= N_of_ascii a < 192.
Lemma unescape_self a t : N_of_ascii a <> 92 -> unescape (a :: t) = a :: unescape t.
Proof.
  intros H. cbn [unescape]. change "\"%char with (ascii_of_N 92). rewrite eqb_ascii by lia.
  destruct (N.eqb_spec (N_of_ascii a) 92); [contradiction|reflexivity].
Qed.
Lemma unescape_short a n t : In (a, n) shorts -> unescape (backslash :: a :: t) = ascii_of_N n :: unescape t.
Proof. intros H. apply short_escape in H as (E & U & _). unfold backslash. cbn [unescape]. change (Ascii.eqb (ascii_of_N 92) "\") with true. cbv iota. now rewrite U, E. Qed.
Lemma surrogate_iff r : is_surrogate r = true <-> high r \/ low r.
Proof. unfold is_surrogate, high, low. lia. Qed.
Lemma surrogate_pair_iff r s x : surrogate_pair r s = Some x <-> high r /\ low s /\ x = 65536 + (r - 55296) * 1024 + (s - 56320).
Proof.
  unfold surrogate_pair, high, low.
  destruct ((55296 <=? r) && (r <? 56320) && (56320 <=? s) && (s <? 57344)) eqn:E; split; try (intros [=]; subst); try lia.
  intros (? & ? & ->). f_equal. lia.
Qed.
Definition escape_head (h : list ascii) (t : list ascii) : list ascii := backslash :: "u"%char :: (h ++ t)%list.
Lemma unescape_code h r t : code h r -> ~ (high r \/ low r) -> unescape (escape_head h t) = (encode_rune r ++ unescape t)%list.
Proof.
  intros C N. apply code_iff in C as (a & b & c & d & -> & _ & ->). unfold escape_head, backslash. cbn [unescape app].
  change (Ascii.eqb (ascii_of_N 92) "\") with true. change (Ascii.eqb "u" "u") with true. cbv iota zeta.
  destruct (is_surrogate _) eqn:E; [apply surrogate_iff in E; contradiction|reflexivity].
Qed.
Lemma unescape_pair h r i s t : code h r -> high r -> code i s -> low s ->
  unescape (escape_head h (escape_head i t)) = (encode_rune (65536 + (r - 55296) * 1024 + (s - 56320)) ++ unescape t)%list.
Proof.
  intros C H D L. apply code_iff in C as (a & b & c & d & -> & _ & ->). apply code_iff in D as (e & f & g & j & -> & _ & ->).
  unfold escape_head, backslash. cbn [app]. cbn [unescape].
  change (Ascii.eqb (ascii_of_N 92) "\") with true. change (Ascii.eqb "u" "u") with true. cbv iota zeta.
  destruct (is_surrogate _) eqn:E; [|assert (K : is_surrogate (hex4 a b c d) = true) by (apply surrogate_iff; now left); congruence].
  cbn [andb]. destruct (surrogate_pair _ _) as [x|] eqn:P.
  - apply surrogate_pair_iff in P as (_ & _ & ->). reflexivity.
  - assert (K : surrogate_pair (hex4 a b c d) (hex4 e f g j) = Some (65536 + (hex4 a b c d - 55296) * 1024 + (hex4 e f g j - 56320))) by (now apply surrogate_pair_iff). congruence.
Qed.
Lemma scanned_u t : scanned (backslash :: "u"%char :: t) -> exists h r t', t = (h ++ t')%list /\ code h r /\ scanned t'.
Proof.
  intros W. inversion W as [|? ? ? ? K ?|? m ? X Y|g x ? X Y]; subst.
  - exfalso. now apply K.
  - apply short_escape in X as (_ & X & _). discriminate.
  - now exists g, x, w.
Qed.
(** a code point whose partner is missing *)
Definition lone (r : N) (t : list ascii) : Prop := ~ (high r /\ exists i s t', t = escape_head i t' /\ code i s /\ low s).
Lemma unescape_lone h r t : code h r -> high r \/ low r -> lone r t -> scanned t -> unescape (escape_head h t) = (fffd ++ unescape t)%list.
Proof.
  intros C S N W. apply code_iff in C as (a & b & c & d & -> & _ & ->). unfold escape_head at 1. unfold backslash. cbn [app]. cbn [unescape].
  change (Ascii.eqb (ascii_of_N 92) "\") with true. change (Ascii.eqb "u" "u") with true. cbv iota zeta.
  destruct (is_surrogate _) eqn:E; [|assert (K : is_surrogate (hex4 a b c d) = true) by (now apply surrogate_iff); congruence].
  destruct t as [|d1 [|d2 [|e1 [|e2 [|e3 [|e4 t']]]]]]; try reflexivity.
  destruct (Ascii.eqb_spec d1 "\") as [->|]; [|reflexivity]. destruct (Ascii.eqb_spec d2 "u") as [->|]; [|reflexivity]. cbn [andb].
  destruct (surrogate_pair _ _) as [x|] eqn:P; [|reflexivity]. exfalso. apply surrogate_pair_iff in P as (H & L & _). apply N. split; [exact H|].
  exists [e1; e2; e3; e4], (hex4 e1 e2 e3 e4), t'. split; [reflexivity|]. split; [|exact L].
  destruct (scanned_u _ W) as (g & y & t2 & X & Y & _). apply code_iff in Y as (f1 & f2 & f3 & f4 & -> & Y & _). injection X as -> -> -> -> _.
  apply code_iff. now exists f1, f2, f3, f4.
Qed.
(** every \u escape is one of the three *)
Lemma code_cases h r t : code h r -> (exists ns, utf8 r ns /\ ~ (high r \/ low r)) \/
  (high r /\ exists i s t', t = escape_head i t' /\ code i s /\ low s) \/ ((high r \/ low r) /\ lone r t).
Proof.
  intros C. destruct (is_surrogate r) eqn:E.
  - right. apply surrogate_iff in E. destruct t as [|d1 [|d2 [|e1 [|e2 [|e3 [|e4 t']]]]]];
      try (right; split; [exact E|]; intros (_ & i & s & t' & X & Y & _); apply code_iff in Y as (? & ? & ? & ? & -> & _); discriminate X).
    destruct (Ascii.eqb_spec d1 backslash) as [->|N1].
    2:{ right. split; [exact E|]. intros (_ & i & s & t2 & X & _). injection X as X _. contradiction. }
    destruct (Ascii.eqb_spec d2 "u") as [->|N2].
    2:{ right. split; [exact E|]. intros (_ & i & s & t2 & X & _). injection X as X _. contradiction. }
    destruct (is_hex e1 && is_hex e2 && is_hex e3 && is_hex e4) eqn:HX.
    2:{ right. split; [exact E|]. intros (_ & i & s & t2 & X & Y & _). apply code_iff in Y as (? & ? & ? & ? & -> & Y & _). injection X as -> -> -> -> _. congruence. }
    destruct (surrogate_pair r (hex4 e1 e2 e3 e4)) as [x|] eqn:P.
    + left. apply surrogate_pair_iff in P as (H & L & _). split; [exact H|]. exists [e1; e2; e3; e4], (hex4 e1 e2 e3 e4), t'. split; [reflexivity|]. split; [|exact L].
      apply code_iff. now exists e1, e2, e3, e4.
    + right. split; [exact E|]. intros (H & i & s & t2 & X & Y & L). apply code_iff in Y as (? & ? & ? & ? & -> & Y & ->). injection X as -> -> -> -> _.
      assert (K : surrogate_pair r (hex4 x x0 x1 x2) = Some (65536 + (r - 55296) * 1024 + (hex4 x x0 x1 x2 - 56320))) by (now apply surrogate_pair_iff). congruence.
  - left. assert (S : scalar r = true). { apply code_lt in C. unfold is_surrogate in E. unfold scalar. lia. }
    apply scalar_utf8 in S as [ns S]. exists ns. split; [exact S|]. intros K. apply surrogate_iff in K. congruence.
Qed.

Lemma not_cont_encode r t a l : (encode_rune r ++ t)%list = a :: l -> ~ cont a.
Proof.
  intros H K. assert (X : exists ns r', utf8 r' ns /\ bytes ns = encode_rune r).
  { destruct (scalar r) eqn:E.
    - apply scalar_utf8 in E as [ns E]. exists ns, r. split; [exact E|]. now apply utf8_encode in E.
    - exists [239; 191; 189], 65533. split; [apply (U3 15 63 61); lia|]. unfold encode_rune. rewrite E. unfold scalar in E.
      destruct (N.ltb_spec r 128); [lia|]. destruct (N.ltb_spec r 2048); [lia|]. reflexivity. }
  destruct X as (ns & r' & U & E). rewrite <- E in H. unfold cont in K. destruct (utf8_form _ _ U) as [[A ->]|(A & b & t' & -> & B & _)]; cbn in H; injection H as <- _.
  - rewrite N_of_ascii_of_N in K; lia.
  - rewrite N_of_ascii_of_N in K; lia.
Qed.
(** escapes do not join stray bytes *)
Lemma unescape_cont cs : forall w rest, scanned w -> Forall cont cs -> unescape w = (cs ++ rest)%list -> exists w', w = (cs ++ w')%list.
Proof.
  induction cs as [|c cs IH]; intros w rest W F H; [now exists w|]. inversion F as [|? ? C F']; subst.
  destruct W as [|a w A1 A2 A3 W|a n w A W|h r w A W].
  - discriminate.
  - rewrite unescape_self in H by exact A3. injection H as -> H. apply IH in H as [w' ->]; [|assumption..]. now exists w'.
  - rewrite (unescape_short _ n) in H by exact A. injection H as <- _. apply short_escape in A as (_ & _ & A). unfold cont in C. rewrite N_of_ascii_of_N in C; lia.
  - exfalso. change (unescape (escape_head h w) = c :: (cs ++ rest)%list) in H. destruct (code_cases h r w A) as [(ns & U & N)|[(P & i & s & t' & -> & D & L)|[S O]]].
    + rewrite (unescape_code h r) in H by assumption. now apply not_cont_encode in H.
    + rewrite (unescape_pair h r i s) in H by assumption. now apply not_cont_encode in H.
    + rewrite (unescape_lone h r) in H by assumption. rewrite fffd_encode in H. now apply not_cont_encode in H.
Qed.

Lemma scanned_plain l w : Forall (fun a => 128 <= N_of_ascii a) l -> scanned w -> scanned (l ++ w)%list.
Proof. induction 1 as [|a l A _ IH]; intros W; [exact W|]. cbn. constructor; [lia..|]. now apply IH. Qed.
Lemma scanned_rest l w : Forall (fun a => 128 <= N_of_ascii a) l -> scanned (l ++ w)%list -> scanned w.
Proof.
  induction 1 as [|a l A _ IH]; intros W; [exact W|]. cbn in W. inversion W; subst; [now apply IH|..]; cbn in A; lia.
Qed.
Lemma utf8_plain r ns : utf8 r ns -> 128 <= r -> Forall (fun a => 128 <= N_of_ascii a) (bytes ns).
Proof.
  intros U R. destruct (utf8_form _ _ U) as [[A _]|(_ & a & t & -> & A & F)]; [lia|]. unfold bytes. cbn. constructor; [rewrite N_of_ascii_of_N; lia|].
  apply Forall_map. eapply Forall_impl; [|exact F]. cbn. intros n B. rewrite N_of_ascii_of_N; lia.
Qed.
Lemma sanitize_rune r ns t : utf8 r ns -> sanitize_l (bytes ns ++ t)%list = (bytes ns ++ sanitize_l t)%list.
Proof. intros U. unfold sanitize_l. rewrite (utf8_encoded _ _ U t). reflexivity. Qed.
Lemma sanitize_encode r t : scalar r = true -> sanitize_l (encode_rune r ++ t)%list = (encode_rune r ++ sanitize_l t)%list.
Proof. intros S. destruct (scalar_utf8 r S) as [ns U]. destruct (utf8_encode _ _ U) as [<- _]. now apply (sanitize_rune r). Qed.
Lemma sanitize_bad a t : no_char (a :: t) -> sanitize_l (a :: t) = (fffd ++ sanitize_l t)%list.
Proof.
  intros N. unfold sanitize_l. destruct (chunks_step a t) as [(r & ns & rest & E & U & _)|(_ & _ & ->)]; [|reflexivity].
  now destruct (N r ns rest U).
Qed.
Lemma no_char_high a t : no_char (a :: t) -> 128 <= N_of_ascii a.
Proof. intros N. destruct (N.ltb_spec (N_of_ascii a) 128) as [H|H]; [|exact H]. destruct (N (N_of_ascii a) [N_of_ascii a] t); [now apply U1|]. cbn. now rewrite ascii_N_embedding. Qed.
Lemma no_char_unescape a w : scanned w -> no_char (a :: w) -> no_char (a :: unescape w).
Proof.
  intros W N r ns rest U E. pose proof (no_char_high _ _ N) as A.
  destruct (utf8_form _ _ U) as [[R ->]|(R & b & t & -> & B & F)]; cbn in E; injection E as -> E.
  - rewrite N_of_ascii_of_N in A; lia.
  - destruct (unescape_cont (map ascii_of_N t) w rest W) as [w' ->]; [|exact E|].
    + apply Forall_map. eapply Forall_impl; [|exact F]. cbn. intros n K. unfold cont. rewrite N_of_ascii_of_N; lia.
    + now apply (N r (b :: t) w' U).
Qed.

Lemma chars_scanned w v : chars w v -> scanned w /\ v = sanitize_l (unescape w).
Proof.
  induction 1 as [|r ns w v U R1 R2 R3 _ [W ->]|a w v N _ [W ->]|a n w v A _ [W ->]|h r ns w v C U _ [W ->]|h i r s ns w v C H D L U _ [W ->]|h r w v C S N _ [W ->]].
  - split; [constructor|reflexivity].
  - destruct (N.ltb_spec r 128) as [B|B].
    + destruct (utf8_form _ _ U) as [[_ ->]|[K _]]; [|lia]. change (bytes [r]) with [ascii_of_N r]. cbn [app]. split; [constructor; rewrite ?N_of_ascii_of_N by lia; assumption|].
      rewrite unescape_self by (rewrite N_of_ascii_of_N; lia). symmetry. apply (sanitize_rune r [r]). now apply U1.
    + pose proof (utf8_plain _ _ U B) as P. split; [now apply scanned_plain|]. rewrite unescape_plains by exact P. symmetry. now apply (sanitize_rune r).
  - pose proof (no_char_high _ _ N) as A. split; [constructor; [lia..|exact W]|]. rewrite unescape_self by lia. symmetry.
    apply sanitize_bad. now apply no_char_unescape.
  - split; [now apply (ScShort _ n)|]. rewrite (unescape_short _ n) by exact A. apply short_escape in A as (_ & _ & A).
    symmetry. apply (sanitize_rune n [n]). now apply U1.
  - split; [now apply (ScCode _ r)|]. change (backslash :: "u"%char :: (h ++ w)%list) with (escape_head h w). pose proof (utf8_encode _ _ U) as [E S].
    rewrite (unescape_code h r); [rewrite E; symmetry; now apply sanitize_encode|exact C|].
    intros K. apply surrogate_iff in K. unfold is_surrogate in K. unfold scalar in S. lia.
  - split; [apply (ScCode _ r); [exact C|]; now apply (ScCode _ s)|]. change (backslash :: _ :: (h ++ _)%list) with (escape_head h (escape_head i w)).
    rewrite (unescape_pair h r i s) by assumption. pose proof (utf8_encode _ _ U) as [E S]. rewrite E. symmetry. now apply sanitize_encode.
  - split; [now apply (ScCode _ r)|]. change (backslash :: "u"%char :: (h ++ w)%list) with (escape_head h w).
    rewrite (unescape_lone h r) by assumption. rewrite fffd_encode. symmetry. now apply sanitize_encode.
Qed.
Lemma scanned_chars n : forall w, (List.length w <= n)%nat -> scanned w -> chars w (sanitize_l (unescape w)).
Proof.
  induction n as [|n IH]; intros w L W; [destruct w; [constructor|cbn in L; lia]|].
  destruct W as [|a w A1 A2 A3 W|a m w A W|h r w A W].
  - constructor.
  - cbn in L. destruct (chunks_step a w) as [(r & ns & rest & E & U & _)|(H & N & _)].
    + destruct (N.ltb_spec r 128) as [B|B].
      * destruct (utf8_form _ _ U) as [[_ ->]|[K _]]; [|lia]. cbn in E. injection E as -> ->. rewrite N_of_ascii_of_N in A1, A2, A3 by lia.
        rewrite unescape_self by (rewrite N_of_ascii_of_N; lia). change (ascii_of_N r :: unescape rest) with (bytes [r] ++ unescape rest)%list.
        rewrite (sanitize_rune r) by exact U. apply (CSelf r [r]); [exact U|assumption..|]. apply IH; [lia|exact W].
      * pose proof (utf8_plain _ _ U B) as P. rewrite E. rewrite unescape_plains by exact P. rewrite (sanitize_rune r) by exact U.
        assert (LE : (List.length rest < List.length (a :: w))%nat).
        { rewrite E, app_length. destruct ns; [now inversion U|]. cbn. lia. }
        cbn in LE. apply (CSelf r); [exact U|lia..|]. apply IH; [lia|]. apply (scanned_rest (bytes ns)); [exact P|]. rewrite <- E. now constructor.
    + rewrite unescape_self by exact A3. rewrite sanitize_bad by (now apply no_char_unescape). apply CStray; [exact N|]. apply IH; [lia|exact W].
  - cbn in L. rewrite (unescape_short _ m) by exact A. pose proof (short_escape _ _ A) as (_ & _ & B). change (ascii_of_N m :: unescape w) with (bytes [m] ++ unescape w)%list.
    rewrite (sanitize_rune m) by (now apply U1). apply CShort; [exact A|]. apply IH; [lia|exact W].
  - change (backslash :: "u"%char :: (h ++ w)%list) with (escape_head h w) in *. assert (LH : List.length h = 4%nat) by (now destruct A).
    unfold escape_head in L. cbn in L. rewrite app_length in L.
    destruct (code_cases h r w A) as [(ns & U & N)|[(P & i & s & t' & -> & D & LO)|[S O]]].
    + rewrite (unescape_code h r) by assumption. pose proof (utf8_encode _ _ U) as [E S]. rewrite sanitize_encode by exact S. rewrite <- E.
      apply (CCode h r); [exact A|exact U|]. apply IH; [lia|exact W].
    + rewrite (unescape_pair h r i s) by assumption. assert (S : scalar (65536 + (r - 55296) * 1024 + (s - 56320)) = true) by (unfold scalar, high, low in *; lia).
      rewrite sanitize_encode by exact S. destruct (scalar_utf8 _ S) as [ns U]. pose proof (utf8_encode _ _ U) as [E _]. rewrite <- E.
      apply (CPair h i r s); [assumption..|]. unfold escape_head in L. cbn in L. rewrite app_length in L. apply IH; [lia|].
      destruct (scanned_u _ W) as (g & y & t2 & X & Y & Z). apply code_iff in Y as (f1 & f2 & f3 & f4 & -> & Y & _).
      apply code_iff in D as (g1 & g2 & g3 & g4 & -> & _). now injection X as -> -> -> -> ->.
    + rewrite (unescape_lone h r) by assumption. rewrite fffd_encode, sanitize_encode by reflexivity. rewrite <- fffd_encode. apply (CLone h r); [assumption..|]. apply IH; [lia|exact W].
Qed.
Lemma string_iff l raw r : scan_str l = Some (raw, r) <-> l = (raw ++ mark :: r)%list /\ chars raw (los (unquote raw)).
Proof.
  unfold unquote. rewrite los_sol. split.
  - intros H. apply (scan_sound (List.length l)) in H as [-> H]; [|reflexivity]. split; [reflexivity|]. now apply (scanned_chars (List.length raw)).
  - intros [-> H]. apply chars_scanned in H as [H _]. now apply scan_complete.
Qed.
Lemma chars_unquote w v : chars w v -> v = los (unquote w).
Proof. intros H. apply chars_scanned in H as [_ ->]. unfold unquote. now rewrite los_sol. Qed.

(** * Numbers *)
Lemma digit_iff a : is_digit a = true <-> 48 <= N_of_ascii a <= 57.
Proof. unfold is_digit. lia. Qed.
Lemma span_sound l x r : span_digits l = (x, r) -> l = (x ++ r)%list /\ Forall (fun a => 48 <= N_of_ascii a <= 57) x.
Proof.
  revert x r. induction l as [|a t IH]; intros x r H; cbn in H; [injection H as <- <-; split; [reflexivity|constructor]|].
  destruct (is_digit a) eqn:D; [|injection H as <- <-; split; [reflexivity|constructor]].
  destruct (span_digits t) as [y q]. injection H as <- <-. destruct (IH y q eq_refl) as [-> F]. split; [reflexivity|]. constructor; [now apply digit_iff|exact F].
Qed.
Lemma span_complete x r : Forall (fun a => 48 <= N_of_ascii a <= 57) x -> (match r with [] => True | a :: _ => is_digit a = false end) -> span_digits (x ++ r)%list = (x, r).
Proof. intros F. apply span_all. eapply Forall_impl; [|exact F]. cbn. intros a. apply digit_iff. Qed.
Lemma eqb_char a b : Ascii.eqb a b = true <-> a = b.
Proof. apply Ascii.eqb_eq. Qed.

Lemma num_sound l x r : scan_num l = Some (x, r) -> l = (x ++ r)%list /\ number x.
Proof.
  unfold scan_num. set (p := match l with a :: t => if Ascii.eqb a "-" then ([a], t) else ([], l) | [] => ([], []) end).
  assert (P : l = (fst p ++ snd p)%list /\ sign (fst p) ["-"%char]).
  { subst p. destruct l as [|a t]; [split; [reflexivity|now left]|]. destruct (Ascii.eqb_spec a "-") as [->|]; (split; [reflexivity|]); [right; exists "-"%char; cbn; auto|now left]. }
  destruct p as [sg l1]. cbn [fst snd] in P. destruct P as [-> SG]. destruct (scan_int l1) as [[i l2]|] eqn:I; [|discriminate].
  destruct (scan_frac l2) as [[f l3]|] eqn:F; [|discriminate]. destruct (scan_exp l3) as [[e l4]|] eqn:X; [|discriminate]. intros [= <- <-].
  assert (I' : l1 = (i ++ l2)%list /\ (i = ["0"%char] \/ digits i /\ forall t, i <> "0"%char :: t)).
  { unfold scan_int in I. destruct l1 as [|a t]; [discriminate|]. destruct (Ascii.eqb_spec a "0") as [->|Z]; [injection I as <- <-; split; [reflexivity|now left]|].
    destruct (is_digit a) eqn:D; [|discriminate]. assert (I2 : span_digits (a :: t) = (i, l2)) by congruence. clear I. rename I2 into I. destruct (span_sound _ _ _ I) as [E G]. split; [exact E|]. right. split.
    - split; [|exact G]. intros ->. cbn in I. rewrite D in I. now destruct (span_digits t).
    - intros t' ->. cbn in E. injection E as E _. contradiction. }
  assert (F' : l2 = (f ++ l3)%list /\ (f = [] \/ exists x, f = "."%char :: x /\ digits x)).
  { unfold scan_frac in F. destruct l2 as [|a t]; [injection F as <- <-; split; [reflexivity|now left]|].
    destruct (Ascii.eqb_spec a ".") as [->|]; [|injection F as <- <-; split; [reflexivity|now left]].
    destruct (span_digits t) as [[|b y] q] eqn:S; [discriminate|]. injection F as <- <-. apply span_sound in S as [-> S]. split; [reflexivity|]. right. eexists. split; [reflexivity|]. now split. }
  assert (X' : l3 = (e ++ l4)%list /\ (e = [] \/ exists a s x, e = a :: (s ++ x)%list /\ In a ["e"; "E"]%char /\ sign s ["+"; "-"]%char /\ digits x)).
  { unfold scan_exp in X. destruct l3 as [|a t]; [injection X as <- <-; split; [reflexivity|now left]|].
    destruct (Ascii.eqb a "e" || Ascii.eqb a "E") eqn:A; [|injection X as <- <-; split; [reflexivity|now left]].
    set (p := match t with b :: t2 => if Ascii.eqb b "+" || Ascii.eqb b "-" then ([b], t2) else ([], t) | [] => ([], []) end) in X.
    assert (P : t = (fst p ++ snd p)%list /\ sign (fst p) ["+"; "-"]%char).
    { subst p. destruct t as [|b t]; [split; [reflexivity|now left]|]. destruct (Ascii.eqb b "+" || Ascii.eqb b "-") eqn:B; (split; [reflexivity|]); [|now left].
      right. exists b. split; [|reflexivity]. apply orb_prop in B as [B|B]; apply eqb_char in B; subst; cbn; auto. }
    destruct p as [s t2]. cbn [fst snd] in P. destruct P as [-> P]. destruct (span_digits t2) as [[|b y] q] eqn:S; [discriminate|]. injection X as <- <-.
    apply span_sound in S as [-> S]. split; [now rewrite <- !app_comm_cons, <- app_assoc|]. right. exists a, s, (b :: y). split; [reflexivity|].
    split; [apply orb_prop in A as [A|A]; apply eqb_char in A; subst; cbn; auto|]. split; [exact P|]. now split. }
  destruct I' as [-> I']. destruct F' as [-> F']. destruct X' as [-> X']. split; [now rewrite <- !app_assoc|]. now exists sg, i, f, e.
Qed.

Definition not_in (s : list ascii) (r : list ascii) : Prop := match r with [] => True | a :: _ => ~ In a s end.
Lemma num_complete x r : number x -> no_num r -> scan_num (x ++ r)%list = Some (x, r).
Proof.
  intros (m & i & f & e & -> & M & I & F & X) N. rewrite <- !app_assoc. unfold scan_num.
  assert (Xs : scan_exp (e ++ r)%list = Some (e, r)).
  { destruct X as [->|(a & s & x & -> & A & S & D & G)]; [now apply scan_exp_none|]. cbn [app]. unfold scan_exp.
    assert (A' : Ascii.eqb a "e" || Ascii.eqb a "E" = true) by (destruct A as [<-|[<-|[]]]; reflexivity). rewrite A'. rewrite <- app_assoc.
    assert (K : match (s ++ x ++ r)%list with b :: t2 => if Ascii.eqb b "+" || Ascii.eqb b "-" then ([b], t2) else ([], (s ++ x ++ r)%list) | [] => ([], []) end = (s, (x ++ r)%list)).
    { destruct S as [->|(b & B & ->)]; [|destruct B as [<-|[<-|[]]]; reflexivity]. cbn [app]. destruct x as [|b x]; [contradiction|]. inversion G as [|? ? B _]; subst. cbn [app].
      assert (B' : Ascii.eqb b "+" || Ascii.eqb b "-" = false); [|now rewrite B'].
      apply orb_false_iff. split; destruct (Ascii.eqb_spec b "+"), (Ascii.eqb_spec b "-"); subst; cbn in B; try reflexivity; lia. }
    rewrite K. rewrite span_complete; [|exact G|destruct r; [exact Logic.I|now apply no_num_inv in N]]. now destruct x. }
  assert (Fs : scan_frac (f ++ e ++ r)%list = Some (f, (e ++ r)%list) /\ (match (f ++ e ++ r)%list with [] => True | a :: _ => is_digit a = false end)).
  { assert (E : match (e ++ r)%list with [] => True | a :: _ => is_digit a = false /\ Ascii.eqb a "." = false end).
    { destruct X as [->|(a & s & x & -> & A & _)]; [destruct r; [exact Logic.I|apply no_num_inv in N; cbn; tauto]|]. cbn. destruct A as [<-|[<-|[]]]; split; reflexivity. }
    destruct F as [->|(x & -> & D & G)].
    - cbn [app]. destruct (e ++ r)%list as [|a t]; [split; [reflexivity|exact Logic.I]|]. destruct E as [E1 E2]. cbn. rewrite E2. split; [reflexivity|exact E1].
    - cbn [app]. split; [|reflexivity]. unfold scan_frac. change (Ascii.eqb "." ".") with true. cbv iota. rewrite span_complete; [|exact G|].
      + now destruct x.
      + destruct (e ++ r)%list; [exact Logic.I|tauto]. }
  destruct Fs as [Fs Fd].
  assert (Is : scan_int (i ++ f ++ e ++ r)%list = Some (i, (f ++ e ++ r)%list) /\ exists a t, i = a :: t /\ Ascii.eqb a "-" = false).
  { destruct I as [->|[[D G] Z]]; [split; [reflexivity|now exists "0"%char, []]|]. destruct i as [|a t]; [contradiction|]. inversion G as [|? ? A _]; subst.
    split; [|exists a, t; split; [reflexivity|apply digit_not_minus; now apply digit_iff]].
    cbn [app]. unfold scan_int. destruct (Ascii.eqb_spec a "0") as [->|]; [now destruct (Z t)|]. apply digit_iff in A as A'. rewrite A'.
    f_equal. change (a :: t ++ f ++ e ++ r)%list with ((a :: t) ++ f ++ e ++ r)%list. now apply span_complete. }
  destruct Is as [Is (a & t & E & A)].
  assert (Ms : match (m ++ i ++ f ++ e ++ r)%list with a :: t => if Ascii.eqb a "-" then ([a], t) else ([], (m ++ i ++ f ++ e ++ r)%list) | [] => ([], []) end = (m, (i ++ f ++ e ++ r)%list)).
  { destruct M as [->|(b & [<-|[]] & ->)]; [|reflexivity]. cbn [app]. rewrite E. cbn [app]. now rewrite A. }
  rewrite Ms, Is, Fs, Xs. reflexivity.
Qed.
Lemma number_first x : number x -> exists a t, x = a :: t /\ (a = "-"%char \/ is_digit a = true).
Proof.
  intros (m & i & f & e & -> & M & I & _). destruct M as [->|(b & [<-|[]] & ->)]; [|eexists _, _; split; [reflexivity|now left]].
  destruct I as [->|[[D G] _]]; [eexists _, _; split; [reflexivity|now right]|]. destruct i as [|a t]; [contradiction|]. inversion G; subst.
  eexists _, _. split; [reflexivity|]. right. now apply digit_iff.
Qed.

(** * Values *)
Lemma ws_iff a : is_ws a = true <-> In (N_of_ascii a) [32; 9; 10; 13].
Proof. unfold is_ws. cbn. lia. Qed.
Lemma skip_sound l : exists w, l = (w ++ skip_ws l)%list /\ space w.
Proof.
  induction l as [|a t (w & E & W)]; [exists []; split; [reflexivity|constructor]|]. cbn. destruct (is_ws a) eqn:A; [|exists []; split; [reflexivity|constructor]].
  exists (a :: w). split; [cbn; now rewrite <- E|]. constructor; [now apply ws_iff|exact W].
Qed.
Lemma skip_space w l : space w -> skip_ws (w ++ l)%list = skip_ws l.
Proof. induction 1 as [|a w A _ IH]; [reflexivity|]. cbn. apply ws_iff in A. now rewrite A. Qed.
Lemma skip_none a t : is_ws a = false -> skip_ws (a :: t) = a :: t.
Proof. intros H. cbn. now rewrite H. Qed.
Lemma strip_sound p l r : strip_prefix p l = Some r -> l = (p ++ r)%list.
Proof. revert l. induction p as [|a p IH]; intros l H; cbn in *; [now injection H as ->|]. destruct l as [|b l]; [discriminate|]. destruct (Ascii.eqb_spec a b) as [->|]; [|discriminate]. f_equal. now apply IH. Qed.
Lemma strip_complete p r : strip_prefix p (p ++ r)%list = Some r.
Proof. induction p as [|a p IH]; [reflexivity|]. cbn. now rewrite Ascii.eqb_refl. Qed.

Ltac flat := repeat first [rewrite <- app_assoc | progress (cbn [app])].
Lemma value_sound n :
  (forall l v r, pv n l = Some (v, r) -> exists w t, l = (w ++ t ++ r)%list /\ space w /\ says v t) /\
  (forall l m r, pmem n l = Some (m, r) -> m <> [] /\ exists t, l = (t ++ "}"%char :: r)%list /\ says_members m t) /\
  (forall l m r, parr n l = Some (m, r) -> m <> [] /\ exists t, l = (t ++ "]"%char :: r)%list /\ says_all m t).
Proof.
  induction n as [|n (IV & IM & IA)]; [repeat split; discriminate|]. split; [|split].
  - intros l v r H. cbn [pv] in H. destruct (skip_sound l) as (w & E & W). destruct (skip_ws l) as [|a t]; [discriminate|]. exists w. rewrite E. clear E.
    destruct (Ascii.eqb_spec a "{") as [->|_].
    { destruct (skip_sound t) as (w' & E & W'). destruct (skip_ws t) as [|b q]; [discriminate|]. destruct (Ascii.eqb_spec b "}") as [->|_].
      - injection H as <- <-. exists ("{"%char :: w' ++ ["}"%char])%list. rewrite E. split; [cbn; now rewrite <- app_assoc|]. split; [exact W|]. apply SObj. now constructor.
      - destruct (pmem n t) as [[m q']|] eqn:P; [|discriminate]. injection H as <- <-. apply IM in P as (_ & x & -> & S).
        exists ("{"%char :: x ++ ["}"%char])%list. split; [cbn; now rewrite <- app_assoc|]. split; [exact W|]. now apply SObj. }
    destruct (Ascii.eqb_spec a "[") as [->|_].
    { destruct (skip_sound t) as (w' & E & W'). destruct (skip_ws t) as [|b q]; [discriminate|]. destruct (Ascii.eqb_spec b "]") as [->|_].
      - injection H as <- <-. exists ("["%char :: w' ++ ["]"%char])%list. rewrite E. split; [cbn; now rewrite <- app_assoc|]. split; [exact W|]. apply SArr. now constructor.
      - destruct (parr n t) as [[m q']|] eqn:P; [|discriminate]. injection H as <- <-. apply IA in P as (_ & x & -> & S).
        exists ("["%char :: x ++ ["]"%char])%list. split; [cbn; now rewrite <- app_assoc|]. split; [exact W|]. now apply SArr. }
    destruct (Ascii.eqb_spec a quote) as [->|_].
    { destruct (scan_str t) as [[raw q]|] eqn:P; [|discriminate]. injection H as <- <-. apply string_iff in P as [-> C].
      exists (mark :: raw ++ [mark])%list. split; [cbn; now rewrite <- app_assoc|]. split; [exact W|]. rewrite <- (sol_los (unquote raw)). now constructor. }
    destruct (Ascii.eqb_spec a "t") as [->|_].
    { destruct (strip_prefix _ t) as [q|] eqn:P; [|discriminate]. injection H as <- <-. apply strip_sound in P as ->. exists (los "true"). split; [reflexivity|]. split; [exact W|constructor]. }
    destruct (Ascii.eqb_spec a "f") as [->|_].
    { destruct (strip_prefix _ t) as [q|] eqn:P; [|discriminate]. injection H as <- <-. apply strip_sound in P as ->. exists (los "false"). split; [reflexivity|]. split; [exact W|constructor]. }
    destruct (Ascii.eqb_spec a "n") as [->|_].
    { destruct (strip_prefix _ t) as [q|] eqn:P; [|discriminate]. injection H as <- <-. apply strip_sound in P as ->. exists (los "null"). split; [reflexivity|]. split; [exact W|constructor]. }
    destruct (scan_num (a :: t)) as [[x q]|] eqn:P; [|discriminate]. injection H as <- <-. apply num_sound in P as [-> P]. exists x. split; [reflexivity|]. split; [exact W|]. now constructor.
  - intros l m r H. cbn [pmem] in H. destruct (skip_sound l) as (w1 & E & W1). destruct (skip_ws l) as [|a t]; [discriminate|]. rewrite E. clear E.
    destruct (Ascii.eqb_spec a quote) as [->|]; [|discriminate]. destruct (scan_str t) as [[raw q]|] eqn:P; [|discriminate]. apply string_iff in P as [-> C].
    destruct (skip_sound q) as (w2 & E2 & W2). destruct (skip_ws q) as [|c q1]; [discriminate|]. rewrite E2. clear E2.
    destruct (Ascii.eqb_spec c ":") as [->|]; [|discriminate]. destruct (pv n q1) as [[v q2]|] eqn:P; [|discriminate]. apply IV in P as (w3 & t & -> & W3 & S).
    destruct (skip_sound q2) as (w4 & E4 & W4). destruct (skip_ws q2) as [|d q3]; [discriminate|]. rewrite E4. clear E4.
    destruct (Ascii.eqb_spec d "}") as [->|_].
    + injection H as <- <-. split; [discriminate|]. rewrite <- (sol_los (unquote raw)).
      eexists. split; [|apply (MOne _ _ w1 raw w2 w3 t w4); assumption]. now flat.
    + destruct (Ascii.eqb_spec d ",") as [->|]; [|discriminate]. destruct (pmem n q3) as [[m' q4]|] eqn:P; [|discriminate]. injection H as <- <-. apply IM in P as (N & x & -> & X).
      split; [discriminate|]. rewrite <- (sol_los (unquote raw)). eexists. split; [|apply (MMore _ _ w1 raw w2 w3 t w4 _ x); assumption].
      now flat.
  - intros l m r H. cbn [parr] in H. destruct (pv n l) as [[v q2]|] eqn:P; [|discriminate]. apply IV in P as (w3 & t & -> & W3 & S).
    destruct (skip_sound q2) as (w4 & E4 & W4). destruct (skip_ws q2) as [|d q3]; [discriminate|]. rewrite E4. clear E4.
    destruct (Ascii.eqb_spec d "]") as [->|_].
    + injection H as <- <-. split; [discriminate|]. eexists. split; [|apply (AOne _ w3 t w4); assumption]. now flat.
    + destruct (Ascii.eqb_spec d ",") as [->|]; [|discriminate]. destruct (parr n q3) as [[m' q4]|] eqn:P; [|discriminate]. injection H as <- <-. apply IA in P as (N & x & -> & X).
      split; [discriminate|]. eexists. split; [|apply (AMore _ w3 t w4 _ x); assumption]. now flat.
Qed.

Scheme says_mind := Induction for says Sort Prop
  with says_all_mind := Induction for says_all Sort Prop
  with says_members_mind := Induction for says_members Sort Prop.
Combined Scheme says_mutind from says_mind, says_all_mind, says_members_mind.

Lemma no_num_space w a t : space w -> num_char a = false -> no_num (w ++ a :: t)%list.
Proof.
  intros W A. destruct W as [|b w B W]; [exact A|]. cbn [app no_num]. apply ws_iff in B. unfold is_ws in B. unfold num_char, is_digit.
  change "."%char with (ascii_of_N 46). change "e"%char with (ascii_of_N 101). change "E"%char with (ascii_of_N 69). rewrite !eqb_ascii by lia. lia.
Qed.
Lemma says_first v t : says v t -> exists a q, t = a :: q /\ is_ws a = false /\ a <> "]"%char /\ a <> "}"%char.
Proof.
  intros [| | |x N|w x C|l x A|m x M]; try (eexists _, _; split; [reflexivity|]; split; [reflexivity|]; split; discriminate).
  destruct (number_first _ N) as (a & q & -> & K). exists a, q. split; [reflexivity|]. destruct K as [->|K]; [split; [reflexivity|]; split; discriminate|].
  apply digit_iff in K. split; [unfold is_ws; lia|]. split; intros ->; cbn in K; lia.
Qed.
Lemma all_first l t : says_all l t -> l <> [] -> exists w a q, t = (w ++ a :: q)%list /\ space w /\ is_ws a = false /\ a <> "]"%char.
Proof.
  intros [w W|v w x w' W S W'|v w x w' l' x' W S W' S' L] N; [contradiction|..]; destruct (says_first _ _ S) as (a & q & -> & A & B & _); exists w, a; eexists; (split; [cbn [app]; reflexivity|]); auto.
Qed.
Lemma members_first l t : says_members l t -> l <> [] -> exists w q, t = (w ++ mark :: q)%list /\ space w.
Proof. intros [w W|k v w1 n w2 w3 x w4 W1|k v w1 n w2 w3 x w4 m' x' W1] N; [contradiction|..]; exists w1; eexists; (split; [reflexivity|assumption]). Qed.

Lemma value_complete :
  (forall v t, says v t -> forall n w r, space w -> no_num r -> (List.length t < n)%nat -> pv n (w ++ t ++ r)%list = Some (v, r)) /\
  (forall l t, says_all l t -> l <> [] -> forall n r, (S (List.length t) < n)%nat -> parr n (t ++ "]"%char :: r)%list = Some (l, r)) /\
  (forall m t, says_members m t -> m <> [] -> forall n r, (S (List.length t) < n)%nat -> pmem n (t ++ "}"%char :: r)%list = Some (m, r)).
Proof.
  apply says_mutind.
  1-3: intros n w r W _ L; destruct n as [|n]; [lia|]; cbn [pv]; rewrite skip_space by exact W; reflexivity.
  - intros t N n w r W R L. destruct n as [|n]; [lia|]. cbn [pv]. rewrite skip_space by exact W. destruct (number_first t N) as (a & q & E & K).
    pose proof (num_complete t r N R) as P. subst t. cbn [app] in *.
    assert (A : is_ws a = false /\ a <> "{"%char /\ a <> "["%char /\ a <> quote /\ a <> "t"%char /\ a <> "f"%char /\ a <> "n"%char).
    { destruct K as [->|K]; [repeat split; discriminate|]. apply digit_iff in K. split; [unfold is_ws; lia|]. repeat split; intros ->; cbn in K; lia. }
    destruct A as (A & A1 & A2 & A3 & A4 & A5 & A6). rewrite skip_none by exact A.
    apply Ascii.eqb_neq in A1, A2, A3, A4, A5, A6. rewrite A1, A2, A3, A4, A5, A6. now rewrite P.
  - intros x v C n w r W _ L. destruct n as [|n]; [lia|]. cbn [pv]. rewrite skip_space by exact W. cbn [app]. rewrite skip_none by reflexivity.
    change (Ascii.eqb mark "{") with false. change (Ascii.eqb mark "[") with false. change (Ascii.eqb mark quote) with true. cbv iota.
    rewrite <- app_assoc. cbn [app]. pose proof (chars_unquote _ _ C) as E. rewrite E in C. rewrite (proj2 (string_iff _ x r)) by (split; [reflexivity|exact C]).
    now rewrite E, sol_los.
  - intros l t A IH n w r W _ L. destruct n as [|n]; [lia|]. cbn [pv]. rewrite skip_space by exact W. cbn [app]. rewrite skip_none by reflexivity.
    change (Ascii.eqb "[" "{") with false. change (Ascii.eqb "[" "[") with true. cbv iota. cbn in L. rewrite app_length in L. cbn in L. rewrite <- app_assoc. cbn [app].
    destruct l as [|v l].
    + inversion A; subst. rewrite skip_space by assumption. rewrite skip_none by reflexivity. reflexivity.
    + destruct (all_first _ _ A) as (w' & a & q & E & W' & B1 & B2); [discriminate|].
      assert (K : skip_ws (t ++ "]"%char :: r)%list = a :: (q ++ "]"%char :: r)%list).
      { rewrite E, <- app_assoc, skip_space by exact W'. cbn [app]. now apply skip_none. }
      rewrite K. apply Ascii.eqb_neq in B2. rewrite B2. rewrite IH; [reflexivity|discriminate|lia].
  - intros l t A IH n w r W _ L. destruct n as [|n]; [lia|]. cbn [pv]. rewrite skip_space by exact W. cbn [app]. rewrite skip_none by reflexivity.
    change (Ascii.eqb "{" "{") with true. cbv iota. cbn in L. rewrite app_length in L. cbn in L. rewrite <- app_assoc. cbn [app].
    destruct l as [|v l].
    + inversion A; subst. rewrite skip_space by assumption. rewrite skip_none by reflexivity. reflexivity.
    + destruct (members_first _ _ A) as (w' & q & E & W'); [discriminate|].
      assert (K : skip_ws (t ++ "}"%char :: r)%list = mark :: (q ++ "}"%char :: r)%list).
      { rewrite E, <- app_assoc, skip_space by exact W'. cbn [app]. now apply skip_none. }
      rewrite K. change (Ascii.eqb mark "}") with false. cbv iota. rewrite IH; [reflexivity|discriminate|lia].
  - contradiction.
  - intros v w t w' W S IS W' _ n r L. destruct n as [|n]; [lia|]. cbn [parr]. rewrite !app_length in L. rewrite <- !app_assoc.
    rewrite IS; [|exact W|now apply no_num_space|lia]. rewrite skip_space by exact W'. rewrite skip_none by reflexivity. reflexivity.
  - intros v w t w' l t' W S IS W' A IA N _ n r L. destruct n as [|n]; [lia|]. cbn [parr]. rewrite !app_length in L. cbn in L. rewrite <- !app_assoc. cbn [app].
    rewrite IS; [|exact W|now apply no_num_space|lia]. rewrite skip_space by exact W'. rewrite skip_none by reflexivity.
    change (Ascii.eqb "," "]") with false. change (Ascii.eqb "," ",") with true. cbv iota. rewrite IA; [reflexivity|exact N|lia].
  - contradiction.
  - intros k v w1 x w2 w3 t w4 W1 C W2 W3 S IS W4 _ n r L. destruct n as [|n]; [lia|]. cbn [pmem].
    repeat (rewrite ?app_length in L; cbn in L). rewrite <- !app_assoc. rewrite skip_space by exact W1. cbn [app]. rewrite skip_none by reflexivity.
    change (Ascii.eqb mark quote) with true. cbv iota. pose proof (chars_unquote _ _ C) as E. rewrite E in C. rewrite <- app_assoc. cbn [app].
    rewrite (proj2 (string_iff _ x _)) by (split; [reflexivity|exact C]). rewrite <- app_assoc. rewrite skip_space by exact W2. cbn [app]. rewrite skip_none by reflexivity.
    change (Ascii.eqb ":" ":") with true. cbv iota. rewrite <- !app_assoc. rewrite IS; [|exact W3|now apply no_num_space|lia].
    rewrite skip_space by exact W4. rewrite skip_none by reflexivity. change (Ascii.eqb "}" "}") with true. cbv iota. now rewrite E, sol_los.
  - intros k v w1 x w2 w3 t w4 m t' W1 C W2 W3 S IS W4 M IM N _ n r L. destruct n as [|n]; [lia|]. cbn [pmem].
    repeat (rewrite ?app_length in L; cbn in L). rewrite <- !app_assoc. rewrite skip_space by exact W1. cbn [app]. rewrite skip_none by reflexivity.
    change (Ascii.eqb mark quote) with true. cbv iota. pose proof (chars_unquote _ _ C) as E. rewrite E in C. rewrite <- app_assoc. cbn [app].
    rewrite (proj2 (string_iff _ x _)) by (split; [reflexivity|exact C]). rewrite <- app_assoc. rewrite skip_space by exact W2. cbn [app]. rewrite skip_none by reflexivity.
    change (Ascii.eqb ":" ":") with true. cbv iota. rewrite <- !app_assoc. rewrite IS; [|exact W3|cbn [app]; now apply no_num_space|lia].
    rewrite skip_space by exact W4. cbn [app]. rewrite skip_none by reflexivity. change (Ascii.eqb "," "}") with false. change (Ascii.eqb "," ",") with true. cbv iota.
    rewrite IM; [now rewrite E, sol_los|exact N|lia].
Qed.

Lemma within_depth : forall n v, within n v <-> (depth v <= N.of_nat n).
Proof.
  induction n as [|n IH]; intros v.
  - split; [intros H; inversion H; cbn; lia|]. destruct v; cbn [depth]; intros H; try lia; constructor.
  - rewrite Nat2N.inj_succ. split.
    + intros H. inversion H; subst; try (cbn; lia).
      * apply depth_arr. apply Forall_forall. intros v I. apply IH. auto.
      * apply depth_obj. apply Forall_forall. intros [k v] I. apply IH. eauto.
    + destruct v as [| | | |l|m]; intros H; try constructor.
      * intros v I. apply IH. apply depth_arr in H. rewrite Forall_forall in H. auto.
      * intros k v I. apply IH. apply depth_obj in H. rewrite Forall_forall in H. apply (H (k, v) I).
Qed.

Lemma parse_iff t v : parse t = Some v <-> json_text t v.
Proof.
  unfold parse, json_text. split.
  - destruct (pv _ t) as [[x r]|] eqn:P; [|discriminate]. destruct (skip_ws r) as [|? ?] eqn:K; [|discriminate]. destruct (N.leb_spec (depth x) max_depth) as [D|]; [|discriminate].
    intros [= <-]. apply (value_sound _) in P as (w & y & -> & W & S). destruct (skip_sound r) as (w' & E & W'). rewrite K, app_nil_r in E. subst r.
    exists w, y, w', (N.to_nat 10000). split; [reflexivity|]. split; [exact W|]. split; [exact S|]. split; [exact W'|]. split; [|apply N2Nat.id]. apply within_depth. now rewrite N2Nat.id.
  - intros (w & x & w' & n & -> & W & S & W' & D & N). apply within_depth in D. rewrite N in D.
    rewrite (proj1 value_complete v x S); [|exact W|destruct W' as [|a w' A W']; [exact I|apply (no_num_space [] a w'); [constructor|]]|rewrite !app_length; lia].
    + rewrite <- (app_nil_r w'), skip_space by exact W'. cbn [skip_ws]. unfold max_depth. destruct (N.leb_spec (depth v) 10000); [reflexivity|lia].
    + apply ws_iff in A. unfold is_ws in A. unfold num_char, is_digit.
      change "."%char with (ascii_of_N 46). change "e"%char with (ascii_of_N 101). change "E"%char with (ascii_of_N 69). rewrite !eqb_ascii by lia. lia.
Qed.
