(** The parser of Json.v reads back what the printer writes, and nothing of a truncated
    document. *)
From Coq Require Import String Ascii ZArith NArith Lia Bool Arith List.
From Coq Require Import ZifyBool ZifyNat ZifyN.
From Verif Require Import GoStr Utf8 Codec Json.
Import ListNotations.
Open Scope string_scope.

(** ** Chunks *)
Definition chunk_shape (c : chunk) : Prop :=
  match c with
  | Bad _ => True
  | Rune r bs =>
      (exists a, bs = [a] /\ r = N_of_ascii a /\ (r < 128)%N) \/
      ((2 <= List.length bs)%nat /\ Forall (fun a => 128 <= N_of_ascii a)%N bs /\
       (r = 8232%N -> bs = bytes [226; 128; 168]%N) /\ (r = 8233%N -> bs = bytes [226; 128; 169]%N))
  end.

Local Ltac Zify.zify_post_hook ::= Z.div_mod_to_equations.
Lemma ascii_is a n : N_of_ascii a = n -> a = ascii_of_N n.
Proof. intros <-. now rewrite ascii_N_embedding. Qed.
Lemma shape2 a b : in_range a 194 223 = true -> in_range b 128 191 = true -> chunk_shape (Rune (rune2 a b) [a; b]).
Proof.
  intros Ha Hb. apply in_range_spec in Ha. apply in_range_spec in Hb. right. unfold rune2, low6.
  repeat split; [cbn; lia|repeat constructor; lia|intros; lia|intros; lia].
Qed.
Lemma shape3 a b c : in_range a 224 239 = true -> second3 a b = true -> in_range c 128 191 = true ->
  chunk_shape (Rune (rune3 a b c) [a; b; c]).
Proof.
  intros Ha Hb Hc. apply in_range_spec in Ha. apply in_range_spec in Hc.
  assert (Hb' : (128 <= N_of_ascii b <= 191)%N).
  { unfold second3 in Hb. destruct (_ =? 224)%N; [apply in_range_spec in Hb; lia|].
    destruct (_ =? 237)%N; apply in_range_spec in Hb; lia. }
  right. unfold rune3, low6.
  assert (E1 : (N_of_ascii a mod 16 = N_of_ascii a - 224)%N) by lia.
  assert (E2 : (N_of_ascii b mod 64 = N_of_ascii b - 128)%N) by lia.
  assert (E3 : (N_of_ascii c mod 64 = N_of_ascii c - 128)%N) by lia.
  rewrite E1, E2, E3.
  repeat split; [cbn; lia|repeat constructor; lia| |]; intros H; unfold bytes; cbn [map]; repeat f_equal; apply ascii_is; lia.
Qed.
Lemma shape4 a b c d : in_range a 240 244 = true -> second4 a b = true -> in_range c 128 191 = true -> in_range d 128 191 = true ->
  chunk_shape (Rune (rune4 a b c d) [a; b; c; d]).
Proof.
  intros Ha Hb Hc Hd. apply in_range_spec in Ha. apply in_range_spec in Hc. apply in_range_spec in Hd.
  unfold second4 in Hb.
  assert (Hb' : ((N_of_ascii a = 240 /\ 144 <= N_of_ascii b <= 191) \/ (240 < N_of_ascii a /\ 128 <= N_of_ascii b <= 191))%N).
  { destruct (N.eqb_spec (N_of_ascii a) 240); [apply in_range_spec in Hb; lia|].
    destruct (_ =? 244)%N; apply in_range_spec in Hb; lia. }
  assert (E1 : (N_of_ascii a mod 8 = N_of_ascii a - 240)%N) by lia.
  assert (E2 : (N_of_ascii b mod 64 = N_of_ascii b - 128)%N) by lia.
  right. unfold rune4, low6. rewrite E1, E2.
  assert (16 <= (N_of_ascii a - 240) * 64 + (N_of_ascii b - 128))%N by lia.
  assert (65536 <= (N_of_ascii a - 240) * 262144 + (N_of_ascii b - 128) * 4096)%N by lia.
  clear E1 E2.
  repeat split; [cbn; lia|repeat constructor; lia| |]; intros; exfalso;
    generalize dependent (N_of_ascii c mod 64)%N; generalize dependent (N_of_ascii d mod 64)%N; intros; lia.
Qed.
Lemma chunks_shape l : Forall chunk_shape (chunks l).
Proof.
  enough (H : forall n l, (List.length l <= n)%nat -> Forall chunk_shape (chunks l)) by (now apply (H (List.length l))).
  clear l. induction n as [|n IH]; intros l Hl.
  - destruct l; [constructor|cbn in Hl; lia].
  - destruct l as [|a t1]; [constructor|]. cbn in Hl. cbn [chunks].
    assert (H1 := IH t1 ltac:(lia)).
    dif. { constructor; [|exact H1]. left. exists a. repeat split. now apply N.ltb_lt. }
    dif.
    { destruct t1 as [|b t2]; [now constructor|]. dif; [|now constructor].
      constructor; [now apply shape2|]. apply IH. cbn in Hl; lia. }
    dif.
    { destruct t1 as [|b [|c t3]]; try (now constructor).
      dif; [|now constructor]. apply andb_prop in Heqb2 as [??].
      constructor; [now apply shape3|]. apply IH. cbn in Hl; lia. }
    dif.
    { destruct t1 as [|b [|c [|d t4]]]; try (now constructor).
      dif; [|now constructor]. apply andb_prop in Heqb3 as [Hx ?]. apply andb_prop in Hx as [??].
      constructor; [now apply shape4|]. apply IH. cbn in Hl; lia. }
    now constructor.
Qed.

(** ** Strings *)
Definition cons_fst (p : list ascii) (x : option (list ascii * list ascii)) : option (list ascii * list ascii) :=
  match x with Some (w, r) => Some (p ++ w, r)%list | None => None end.
Lemma scan_plain a t : (128 <= N_of_ascii a)%N -> scan_str (a :: t) = cons_fst [a] (scan_str t).
Proof.
  intros H. cbn [scan_str].
  destruct (Ascii.eqb_spec a quote); [subst; cbn in H; lia|].
  destruct (N.ltb_spec (N_of_ascii a) 32); [lia|].
  destruct (Ascii.eqb_spec a "\"); [subst; cbn in H; lia|reflexivity].
Qed.
Lemma unescape_plain a t : (128 <= N_of_ascii a)%N -> unescape (a :: t) = a :: unescape t.
Proof. intros H. cbn [unescape]. destruct (Ascii.eqb_spec a "\"); [subst; cbn in H; lia|reflexivity]. Qed.
Lemma scan_plains bs t : Forall (fun a => 128 <= N_of_ascii a)%N bs -> scan_str (bs ++ t)%list = cons_fst bs (scan_str t).
Proof.
  induction 1 as [|a bs Ha _ IH]; cbn [app].
  - cbn. destruct (scan_str t) as [[??]|]; reflexivity.
  - rewrite scan_plain, IH by assumption. destruct (scan_str t) as [[??]|]; reflexivity.
Qed.
Lemma unescape_plains bs t : Forall (fun a => 128 <= N_of_ascii a)%N bs -> unescape (bs ++ t)%list = (bs ++ unescape t)%list.
Proof. induction 1 as [|a bs Ha _ IH]; cbn [app]; [reflexivity|]. now rewrite unescape_plain, IH. Qed.
Lemma scan_ascii a t : (N_of_ascii a < 128)%N -> scan_str (esc_ascii a ++ t)%list = cons_fst (esc_ascii a) (scan_str t).
Proof.
  intros H. destruct a as [[] [] [] [] [] [] [] []]; try (exfalso; revert H; vm_compute; discriminate); clear H;
  match goal with |- context [esc_ascii ?a] => let e := eval vm_compute in (esc_ascii a) in change (esc_ascii a) with e end;
  cbn; destruct (scan_str t) as [[??]|]; reflexivity.
Qed.
Lemma unescape_ascii a t : (N_of_ascii a < 128)%N -> unescape (esc_ascii a ++ t)%list = a :: unescape t.
Proof.
  intros H. destruct a as [[] [] [] [] [] [] [] []]; try (exfalso; revert H; vm_compute; discriminate); reflexivity.
Qed.
Lemma scan_chunk c t : chunk_shape c -> scan_str (esc_chunk c ++ t)%list = cons_fst (esc_chunk c) (scan_str t).
Proof.
  destruct c as [r bs|b]; intros Hc; [|cbn; now destruct (scan_str t) as [[??]|]].
  unfold esc_chunk. destruct (r =? 8232)%N; [cbn; now destruct (scan_str t) as [[??]|]|].
  destruct (r =? 8233)%N; [cbn; now destruct (scan_str t) as [[??]|]|].
  destruct Hc as [(a & -> & -> & Ha)|(Hl & HF & _)]; [now apply scan_ascii|].
  destruct bs as [|x [|y bs]]; try (cbn in Hl; lia). now apply scan_plains.
Qed.
Lemma unescape_chunk c t : chunk_shape c -> unescape (esc_chunk c ++ t)%list = (chunk_fix c ++ unescape t)%list.
Proof.
  destruct c as [r bs|b]; intros Hc; [|reflexivity].
  unfold esc_chunk, chunk_fix. destruct Hc as [(a & -> & -> & Ha)|(Hl & HF & H1 & H2)].
  - destruct (N.eqb_spec (N_of_ascii a) 8232); [lia|]. destruct (N.eqb_spec (N_of_ascii a) 8233); [lia|].
    now rewrite unescape_ascii.
  - destruct (N.eqb_spec r 8232); [rewrite H1 by assumption; reflexivity|].
    destruct (N.eqb_spec r 8233); [rewrite H2 by assumption; reflexivity|].
    destruct bs as [|x [|y bs]]; try (cbn in Hl; lia). now apply unescape_plains.
Qed.
Lemma scan_esc cs r : Forall chunk_shape cs ->
  scan_str (flat_map esc_chunk cs ++ quote :: r)%list = Some (flat_map esc_chunk cs, r).
Proof.
  induction 1 as [|c cs Hc _ IH]; cbn [flat_map]; [reflexivity|].
  now rewrite <- app_assoc, scan_chunk, IH.
Qed.
Lemma unescape_esc cs : Forall chunk_shape cs -> unescape (flat_map esc_chunk cs) = flat_map chunk_fix cs.
Proof. induction 1 as [|c cs Hc _ IH]; cbn [flat_map]; [reflexivity|]. now rewrite unescape_chunk, IH. Qed.
Lemma sanitize_idem s : sanitize (sanitize s) = sanitize s.
Proof. apply sanitize_valid, sanitize_is_valid. Qed.
Lemma unquote_esc s : unquote (flat_map esc_chunk (chunks (los s))) = sanitize s.
Proof.
  unfold unquote. rewrite unescape_esc by apply chunks_shape.
  rewrite <- (sanitize_idem s). unfold sanitize at 1. f_equal. unfold sanitize. now rewrite los_sol.
Qed.
Definition body (s : string) (r : list ascii) : list ascii := (flat_map esc_chunk (chunks (los s)) ++ quote :: r)%list.
Lemma print_str_app s r : (print_str s ++ r)%list = quote :: body s r.
Proof. unfold print_str, body. cbn [app]. now rewrite <- app_assoc. Qed.
Lemma scan_body s r : exists raw, scan_str (body s r) = Some (raw, r) /\ unquote raw = sanitize s.
Proof.
  exists (flat_map esc_chunk (chunks (los s))). split; [|apply unquote_esc]. apply scan_esc, chunks_shape.
Qed.

(** ** Numbers *)
(** a literal: what the parser takes in full from the front of a text in which it is followed by
    something that cannot continue a number *)
Definition num_char (a : ascii) : bool :=
  is_digit a || Ascii.eqb a "." || Ascii.eqb a "e" || Ascii.eqb a "E".
Definition no_num (r : list ascii) : Prop := match r with [] => True | a :: _ => num_char a = false end.
Definition lit (s : string) : Prop :=
  (exists a t, los s = a :: t /\ (is_digit a = true \/ a = "-"%char)) /\
  forall r, no_num r -> scan_num (los s ++ r)%list = Some (los s, r).
Lemma span_all l r : Forall (fun a => is_digit a = true) l -> (match r with [] => True | a :: _ => is_digit a = false end) ->
  span_digits (l ++ r)%list = (l, r).
Proof.
  intros H Hr. induction H as [|a l Ha _ IH]; cbn [app].
  - destruct r as [|a r]; [reflexivity|]. cbn. now rewrite Hr.
  - cbn [span_digits]. now rewrite Ha, IH.
Qed.
Lemma no_num_inv a r : no_num (a :: r) -> is_digit a = false /\ Ascii.eqb a "." = false /\ Ascii.eqb a "e" = false /\ Ascii.eqb a "E" = false.
Proof. cbn. unfold num_char. rewrite !orb_false_iff. tauto. Qed.
Lemma scan_frac_none r : no_num r -> scan_frac r = Some ([], r).
Proof. destruct r as [|a r]; [reflexivity|]. intros H. apply no_num_inv in H as (_ & H & _). cbn. now rewrite H. Qed.
Lemma scan_exp_none r : no_num r -> scan_exp r = Some ([], r).
Proof. destruct r as [|a r]; [reflexivity|]. intros H. apply no_num_inv in H as (_ & _ & H1 & H2). cbn. now rewrite H1, H2. Qed.
Lemma dec_fuel_head f n : (n < 2 ^ N.of_nat f)%N \/ (n < 10)%N -> n <> 0%N ->
  exists a t, dec_fuel f n = a :: t /\ a <> "0"%char /\ is_digit a = true.
Proof.
  assert (Hd : forall m, (m < 10)%N -> m <> 0%N -> digit m <> "0"%char).
  { intros m Hm H0 E. assert (E2 : N_of_ascii (digit m) = 48%N) by (now rewrite E). rewrite digit_val in E2 by assumption. lia. }
  revert n; induction f as [|f IH]; intros n H H0; cbn [dec_fuel].
  - change (2 ^ N.of_nat 0)%N with 1%N in H. assert (n < 10)%N by lia.
    rewrite N.mod_small by assumption. exists (digit n), []. repeat split; [auto|now apply is_digit_digit].
  - destruct (N.ltb_spec n 10).
    + exists (digit n), []. repeat split; [auto|now apply is_digit_digit].
    + destruct (IH (n / 10)%N) as (a & t & E & Ha & Hb).
      * left. destruct H as [H|H]; [|lia]. rewrite Nat2N.inj_succ, N.pow_succ_r' in H. apply N.div_lt_upper_bound; lia.
      * lia.
      * rewrite E. cbn [app]. eauto.
Qed.
Lemma dec_l_head n : n <> 0%N -> exists a t, dec_l n = a :: t /\ a <> "0"%char /\ is_digit a = true.
Proof. apply dec_fuel_head. left. rewrite size_nat_size. apply N.size_gt. Qed.
Lemma scan_int_dec n r : no_num r -> scan_int (dec_l n ++ r)%list = Some (dec_l n, r).
Proof.
  intros Hr. destruct (N.eq_dec n 0) as [->|H0]; [reflexivity|].
  destruct (dec_l_head n H0) as (a & t & E & Ha & Hd).
  assert (Hs : span_digits (dec_l n ++ r)%list = (dec_l n, r)).
  { apply span_all; [apply dec_l_digits|]. destruct r; [exact I|]. now apply no_num_inv in Hr. }
  rewrite E in *. cbn [app] in *. cbn [scan_int]. destruct (Ascii.eqb_spec a "0"); [contradiction|].
  now rewrite Hd, Hs.
Qed.
Lemma digit_not_minus a : is_digit a = true -> Ascii.eqb a "-" = false.
Proof. intros H. destruct (Ascii.eqb_spec a "-"); [subst; discriminate|reflexivity]. Qed.
Lemma dec_l_first n : exists a t, dec_l n = a :: t /\ is_digit a = true.
Proof.
  destruct (dec_l n) as [|a t] eqn:E; [now apply dec_l_ne in E|]. exists a, t. split; [reflexivity|].
  pose proof (dec_l_digits n) as H. rewrite E in H. now inversion H.
Qed.
Lemma lit_dec n : lit (sol (dec_l n)).
Proof.
  split.
  - rewrite los_sol. destruct (dec_l_first n) as (a & t & -> & H). eauto.
  - intros r Hr. rewrite los_sol. unfold scan_num.
    destruct (dec_l_first n) as (a & t & E & Hd).
    replace (match (dec_l n ++ r)%list with a :: t => if Ascii.eqb a "-" then ([a], t) else ([], (dec_l n ++ r)%list) | [] => ([], []) end)
      with (@nil ascii, (dec_l n ++ r)%list) by (rewrite E; cbn [app]; now rewrite digit_not_minus).
    rewrite scan_int_dec, scan_frac_none, scan_exp_none by assumption. cbn [app]. now rewrite !app_nil_r.
Qed.
Lemma lit_int z : lit (sprint_d z).
Proof.
  destruct z as [|p|p]; [apply lit_dec|apply lit_dec|]. unfold sprint_d. split.
  - rewrite los_sol. eauto.
  - intros r Hr. rewrite los_sol. unfold scan_num. cbn [app].
    change (Ascii.eqb "-" "-") with true. cbv iota beta. cbv beta iota.
    rewrite (scan_int_dec (Npos p)), scan_frac_none, scan_exp_none by assumption. cbn [app]. now rewrite !app_nil_r.
Qed.

(** ** Trees *)
Section JsonInd.
  Context (P : json -> Prop) (Hnull : P JNull) (Hbool : forall b, P (JBool b)) (Hnum : forall s, P (JNum s)) (Hstr : forall s, P (JStr s))
    (Harr : forall l, Forall P l -> P (JArr l)) (Hobj : forall m, Forall (fun kv => P (snd kv)) m -> P (JObj m)).
  Fixpoint json_tree_ind (j : json) : P j :=
    match j with
    | JNull => Hnull
    | JBool b => Hbool b
    | JNum s => Hnum s
    | JStr s => Hstr s
    | JArr l => Harr l ((fix go l : Forall P l := match l with [] => Forall_nil _ | x :: t => Forall_cons _ (json_tree_ind x) (go t) end) l)
    | JObj m => Hobj m ((fix go m : Forall (fun kv => P (snd kv)) m := match m with [] => Forall_nil _ | kv :: t => Forall_cons kv (json_tree_ind (snd kv)) (go t) end) m)
    end.
End JsonInd.

(** every string and member name passed through UTF-8 sanitizing *)
Fixpoint san (j : json) : json :=
  match j with
  | JStr s => JStr (sanitize s)
  | JArr l => JArr (map san l)
  | JObj m => JObj (map (fun kv => (sanitize (fst kv), san (snd kv))) m)
  | _ => j
  end.
(** all numbers are literals *)
Fixpoint lits (j : json) : Prop :=
  match j with
  | JNum s => lit s
  | JArr l => (fix go l := match l with [] => True | x :: t => lits x /\ go t end) l
  | JObj m => (fix go m := match m with [] => True | kv :: t => lits (snd kv) /\ go t end) m
  | _ => True
  end.
Lemma lits_arr l : lits (JArr l) <-> Forall lits l.
Proof.
  cbn [lits]. induction l as [|x l IH]; [split; [constructor|exact (fun _ => I)]|].
  rewrite IH. split; [intros [??]; now constructor|intros H; inversion H; auto].
Qed.
Lemma lits_obj m : lits (JObj m) <-> Forall (fun kv => lits (snd kv)) m.
Proof.
  cbn [lits]. induction m as [|x l IH]; [split; [constructor|exact (fun _ => I)]|].
  rewrite IH. split; [intros [??]; now constructor|intros H; inversion H; auto].
Qed.

Definition elems (n : nat) : list json -> list ascii :=
  fix go l := match l with
              | [] => []
              | [x] => (nl (S n) ++ print (S n) x)%list
              | x :: t => (nl (S n) ++ print (S n) x ++ ","%char :: go t)%list
              end.
Definition mems (n : nat) : list (string * json) -> list ascii :=
  fix go m := match m with
              | [] => []
              | [(k, x)] => (nl (S n) ++ print_str k ++ los ": " ++ print (S n) x)%list
              | (k, x) :: t => (nl (S n) ++ print_str k ++ los ": " ++ print (S n) x ++ ","%char :: go t)%list
              end.
Lemma print_arr n x l : print n (JArr (x :: l)) = ("["%char :: elems n (x :: l) ++ nl n ++ ["]"%char])%list.
Proof. reflexivity. Qed.
Lemma print_obj n x l : print n (JObj (x :: l)) = ("{"%char :: mems n (x :: l) ++ nl n ++ ["}"%char])%list.
Proof. reflexivity. Qed.
Lemma elems_cons n x y l : elems n (x :: y :: l) = (nl (S n) ++ print (S n) x ++ ","%char :: elems n (y :: l))%list.
Proof. reflexivity. Qed.
Lemma mems_cons n k x y l : mems n ((k, x) :: y :: l) = (nl (S n) ++ print_str k ++ los ": " ++ print (S n) x ++ ","%char :: mems n (y :: l))%list.
Proof. reflexivity. Qed.

Lemma skip_nl n l : skip_ws (nl n ++ l)%list = skip_ws l.
Proof. unfold nl. cbn [app skip_ws]. change (is_ws "010") with true. cbv iota. induction (2 * n)%nat as [|k IH]; [reflexivity|exact IH]. Qed.
Lemma skip_idem l : skip_ws (skip_ws l) = skip_ws l.
Proof. induction l as [|a l IH]; [reflexivity|]. cbn. destruct (is_ws a) eqn:E; [exact IH|]. cbn. now rewrite E. Qed.
Lemma pv_skip n l : pv n (skip_ws l) = pv n l.
Proof. destruct n; [reflexivity|]. cbn [pv]. now rewrite skip_idem. Qed.
Lemma pmem_skip n l : pmem n (skip_ws l) = pmem n l.
Proof. destruct n; [reflexivity|]. cbn [pmem]. now rewrite skip_idem. Qed.
Lemma pv_eq n l l' : skip_ws l = skip_ws l' -> pv n l = pv n l'.
Proof. intros H. now rewrite <- (pv_skip n l), H, pv_skip. Qed.
Lemma pmem_eq n l l' : skip_ws l = skip_ws l' -> pmem n l = pmem n l'.
Proof. intros H. now rewrite <- (pmem_skip n l), H, pmem_skip. Qed.

Lemma no_num_nl n r : no_num (nl n ++ r)%list.
Proof. reflexivity. Qed.
Lemma print_first k j : lits j -> exists a t, print k j = a :: t /\ is_ws a = false /\ Ascii.eqb a "]" = false.
Proof.
  destruct j as [|[]|s|s|[|]|[|]]; intros H; try (do 2 eexists; split; [reflexivity|split; reflexivity]).
  - destruct H as [(a & t & E & Ha) _]. exists a, t. split; [exact E|].
    destruct Ha as [Ha| ->]; [|split; reflexivity].
    unfold is_digit in Ha. destruct a as [[] [] [] [] [] [] [] []]; try discriminate Ha; split; reflexivity.
Qed.
Lemma skip_print k j r : lits j -> skip_ws (print k j ++ r)%list = (print k j ++ r)%list.
Proof. intros H. destruct (print_first k j H) as (a & t & E & Hw & _). rewrite E. cbn. now rewrite Hw. Qed.

Lemma pv_num n s r : lit s -> no_num r -> pv (S n) (los s ++ r)%list = Some (JNum s, r).
Proof.
  intros [(a & t & E & Ha) Hs] Hr. specialize (Hs r Hr).
  assert (Hf : is_ws a = false /\ Ascii.eqb a "{" = false /\ Ascii.eqb a "[" = false /\ Ascii.eqb a quote = false /\ Ascii.eqb a "t" = false /\ Ascii.eqb a "f" = false /\ Ascii.eqb a "n" = false).
  { destruct Ha as [Ha| ->]; [|repeat split].
    destruct a as [[] [] [] [] [] [] [] []]; try discriminate Ha; repeat split. }
  destruct Hf as (F0 & F1 & F2 & F3 & F4 & F5 & F6).
  rewrite E in *. cbn [app] in *. cbn [pv skip_ws]. rewrite F0, F1, F2, F3, F4, F5, F6, Hs.
  rewrite <- E, sol_los. reflexivity.
Qed.
Lemma pv_str n s r : pv (S n) (print_str s ++ r)%list = Some (JStr (sanitize s), r).
Proof.
  destruct (scan_body s r) as (raw & H1 & H2). rewrite print_str_app.
  cbn [pv skip_ws]. change (is_ws quote) with false. cbv iota.
  change (Ascii.eqb quote "{") with false. change (Ascii.eqb quote "[") with false. change (Ascii.eqb quote quote) with true. cbv iota.
  now rewrite H1, H2.
Qed.

Definition reads (j : json) : Prop := lits j -> forall k n r, no_num r -> (List.length (print k j) < n)%nat -> pv n (print k j ++ r)%list = Some (san j, r).
Lemma reads_elems k x l : Forall reads (x :: l) -> Forall lits (x :: l) -> forall n r,
  (List.length (elems k (x :: l)) < n)%nat ->
  parr n (elems k (x :: l) ++ nl k ++ "]"%char :: r)%list = Some (map san (x :: l), r).
Proof.
  revert x; induction l as [|y l IH]; intros x HR HL n r Hn; inversion_clear HR as [|? ? Hx HR']; inversion_clear HL as [|? ? Lx HL'].
  - destruct n as [|n]; [lia|]. cbn [elems map] in *. rewrite app_length in Hn. cbn [nl List.length] in Hn. cbn [parr].
    rewrite <- app_assoc.
    rewrite (pv_eq n _ (print (S k) x ++ nl k ++ "]"%char :: r)%list) by apply skip_nl.
    rewrite Hx by (try assumption; try apply no_num_nl; lia).
    rewrite skip_nl. cbn [skip_ws]. change (is_ws "]") with false. cbv iota. reflexivity.
  - destruct n as [|n]; [lia|]. rewrite elems_cons in *. rewrite !app_length in Hn. cbn [List.length] in Hn.
    assert (Hnl : (1 <= List.length (nl (S k)))%nat) by (cbn; lia).
    cbn [parr]. rewrite <- !app_assoc. cbn [app].
    rewrite (pv_eq n _ (print (S k) x ++ ","%char :: (elems k (y :: l) ++ nl k ++ "]"%char :: r))%list) by apply skip_nl.
    rewrite Hx by (try assumption; try reflexivity; lia).
    cbn [skip_ws]. change (is_ws ",") with false. cbv iota.
    change (Ascii.eqb "," "]") with false. change (Ascii.eqb "," ",") with true. cbv iota.
    rewrite (IH y HR' HL') by lia. reflexivity.
Qed.
Lemma reads_mems k x l : Forall (fun kv => reads (snd kv)) (x :: l) -> Forall (fun kv => lits (snd kv)) (x :: l) -> forall n r,
  (List.length (mems k (x :: l)) < n)%nat ->
  pmem n (mems k (x :: l) ++ nl k ++ "}"%char :: r)%list = Some (map (fun kv => (sanitize (fst kv), san (snd kv))) (x :: l), r).
Proof.
  revert x; induction l as [|y l IH]; intros [key x] HR HL n r Hn; inversion_clear HR as [|? ? Hx HR']; inversion_clear HL as [|? ? Lx HL']; cbn [snd] in Hx, Lx.
  - destruct n as [|n]; [lia|]. cbn [mems map fst snd] in *. rewrite !app_length in Hn.
    assert (Hnl : (1 <= List.length (nl (S k)))%nat) by (cbn; lia).
    cbn [pmem]. rewrite <- !app_assoc, skip_nl.
    destruct (scan_body key (los ": " ++ print (S k) x ++ nl k ++ "}"%char :: r)%list) as (raw & H1 & H2).
    rewrite print_str_app. cbn [skip_ws]. change (is_ws quote) with false. cbv iota. change (Ascii.eqb quote quote) with true. cbv iota.
    rewrite H1. change (los ": ") with [":"%char; " "%char]. cbn [app skip_ws]. change (is_ws ":") with false. cbv iota. change (Ascii.eqb ":" ":") with true. cbv iota.
    rewrite (pv_eq n _ (print (S k) x ++ nl k ++ "}"%char :: r)%list) by reflexivity.
    rewrite Hx by (try assumption; try apply no_num_nl; lia).
    rewrite skip_nl. cbn [skip_ws]. change (is_ws "}") with false. cbv iota. rewrite H2. reflexivity.
  - destruct n as [|n]; [lia|]. rewrite mems_cons in *. rewrite !app_length in Hn. cbn [List.length] in Hn.
    assert (Hnl : (1 <= List.length (nl (S k)))%nat) by (cbn; lia).
    cbn [pmem]. rewrite <- !app_assoc, skip_nl. cbn [app].
    destruct (scan_body key (los ": " ++ print (S k) x ++ ","%char :: mems k (y :: l) ++ nl k ++ "}"%char :: r)%list) as (raw & H1 & H2).
    rewrite print_str_app. cbn [skip_ws]. change (is_ws quote) with false. cbv iota. change (Ascii.eqb quote quote) with true. cbv iota.
    rewrite H1. change (los ": ") with [":"%char; " "%char]. cbn [app skip_ws]. change (is_ws ":") with false. cbv iota. change (Ascii.eqb ":" ":") with true. cbv iota.
    rewrite (pv_eq n _ (print (S k) x ++ ","%char :: mems k (y :: l) ++ nl k ++ "}"%char :: r)%list) by reflexivity.
    rewrite Hx by (try assumption; try reflexivity; lia).
    cbn [skip_ws]. change (is_ws ",") with false. cbv iota.
    change (Ascii.eqb "," "}") with false. change (Ascii.eqb "," ",") with true. cbv iota.
    rewrite (IH y HR' HL') by lia. rewrite H2. reflexivity.
Qed.
Lemma skip_elems k x l r : lits x -> exists a t, skip_ws (elems k (x :: l) ++ r)%list = a :: t /\ Ascii.eqb a "]" = false.
Proof.
  intros Hx. destruct (print_first (S k) x Hx) as (a & t & E & Hw & Ha).
  destruct l as [|y l]; [cbn [elems]|rewrite elems_cons]; rewrite <- app_assoc, skip_nl, E; cbn [app skip_ws]; rewrite Hw; eauto.
Qed.
Lemma skip_mems k x l r : exists t, skip_ws (mems k (x :: l) ++ r)%list = quote :: t.
Proof.
  destruct x as [key x].
  destruct l as [|y l]; [cbn [mems]|rewrite mems_cons]; rewrite <- app_assoc, skip_nl, <- app_assoc, print_str_app; cbn [skip_ws]; change (is_ws quote) with false; cbv iota; eauto.
Qed.
Lemma pv_reads j : reads j.
Proof.
  induction j as [|b|s|s|l IH|m IH] using json_tree_ind; intros HL k n r Hr Hn; (destruct n as [|n]; [lia|]).
  - reflexivity.
  - destruct b; reflexivity.
  - now apply pv_num.
  - apply pv_str.
  - destruct l as [|x l]; [reflexivity|]. rewrite lits_arr in HL. rewrite print_arr in *.
    cbn [List.length] in Hn. rewrite app_length in Hn. cbn [app]. rewrite <- !app_assoc. cbn [app].
    cbn [pv skip_ws]. change (is_ws "[") with false. cbv iota. change (Ascii.eqb "[" "{") with false. change (Ascii.eqb "[" "[") with true. cbv iota.
    destruct (skip_elems k x l (nl k ++ "]"%char :: r)%list) as (a & t & E & Ea); [now inversion HL|]. rewrite E, Ea.
    rewrite reads_elems by (try assumption; lia). reflexivity.
  - destruct m as [|x l]; [reflexivity|]. rewrite lits_obj in HL. rewrite print_obj in *.
    cbn [List.length] in Hn. rewrite app_length in Hn. cbn [app]. rewrite <- !app_assoc. cbn [app].
    cbn [pv skip_ws]. change (is_ws "{") with false. cbv iota. change (Ascii.eqb "{" "{") with true. cbv iota.
    destruct (skip_mems k x l (nl k ++ "}"%char :: r)%list) as (t & E). rewrite E. change (Ascii.eqb quote "}") with false. cbv iota.
    rewrite reads_mems by (try assumption; lia). reflexivity.
Qed.
Lemma depth_arr l k : (depth (JArr l) <= N.succ k)%N <-> Forall (fun j => (depth j <= k)%N) l.
Proof.
  cbn [depth]. rewrite <- N.succ_le_mono. induction l as [|a l IH]; cbn [fold_right]; [split; [constructor|lia]|].
  rewrite N.max_lub_iff, IH. split; [intros [H1 H2]; now constructor|intros H; now inversion H].
Qed.
Lemma depth_obj m k : (depth (JObj m) <= N.succ k)%N <-> Forall (fun kv => (depth (snd kv) <= k)%N) m.
Proof.
  cbn [depth]. rewrite <- N.succ_le_mono. induction m as [|a m IH]; cbn [fold_right]; [split; [constructor|lia]|].
  rewrite N.max_lub_iff, IH. split; [intros [H1 H2]; now constructor|intros H; now inversion H].
Qed.
Fixpoint depth_san (j : json) {struct j} : depth (san j) = depth j.
Proof.
  destruct j as [| | | |l|m]; try reflexivity; cbn [san depth]; f_equal.
  - induction l as [|a l IH]; [reflexivity|]. cbn [map fold_right]. now rewrite depth_san, IH.
  - induction m as [|[k v] m IH]; [reflexivity|]. cbn [map fold_right snd]. now rewrite depth_san, IH.
Qed.
Lemma parse_print j : lits j -> (depth j <= max_depth)%N -> parse (print 0 j) = Some (san j).
Proof.
  intros H D. unfold parse. pose proof (pv_reads j H 0%nat (S (List.length (print 0 j))) [] I ltac:(lia)) as E.
  rewrite app_nil_r in E. rewrite E. cbn [skip_ws]. rewrite depth_san. apply N.leb_le in D. now rewrite D.
Qed.

(** ** Truncated texts *)
Lemma scan_str_app q : forall n l w r, (List.length l <= n)%nat -> scan_str l = Some (w, r) -> scan_str (l ++ q)%list = Some (w, r ++ q)%list.
Proof.
  induction n as [|n IH]; intros l w r Hl H; (destruct l as [|a t]; [discriminate|]); [cbn in Hl; lia|].
  cbn in Hl. cbn [app scan_str] in *.
  destruct (Ascii.eqb a quote); [now injection H as <- <-|].
  destruct (_ <? 32)%N; [discriminate|]. destruct (Ascii.eqb a "\").
  - destruct t as [|b t]; [discriminate|]. cbn [app]. destruct (existsb _ _).
    + destruct (scan_str t) as [[w' r']|] eqn:E; [|discriminate]. injection H as <- <-.
      rewrite (IH t w' r') by (try assumption; cbn in Hl; lia). reflexivity.
    + destruct (Ascii.eqb b "u"); [|discriminate].
      destruct t as [|c1 [|c2 [|c3 [|c4 t]]]]; try discriminate. cbn [app]. destruct (_ && _); [|discriminate].
      destruct (scan_str t) as [[w' r']|] eqn:E; [|discriminate]. injection H as <- <-.
      rewrite (IH t w' r') by (try assumption; cbn in Hl; lia). reflexivity.
  - destruct (scan_str t) as [[w' r']|] eqn:E; [|discriminate]. injection H as <- <-.
    rewrite (IH t w' r') by (try assumption; cbn in Hl; lia). reflexivity.
Qed.
Lemma strip_prefix_app p q : forall l r, strip_prefix p l = Some r -> strip_prefix p (l ++ q)%list = Some (r ++ q)%list.
Proof.
  induction p as [|a p IH]; intros l r H; cbn in *; [now injection H as <-|].
  destruct l as [|b l]; [discriminate|]. cbn. destruct (Ascii.eqb _ _); [|discriminate]. now apply IH.
Qed.
Lemma skip_ws_app l a t q : skip_ws l = a :: t -> skip_ws (l ++ q)%list = a :: (t ++ q)%list.
Proof.
  induction l as [|b l IH]; [discriminate|]. cbn. destruct (is_ws b); [exact IH|]. intros H. now injection H as -> ->.
Qed.
Lemma span_app l x a r q : span_digits l = (x, a :: r) -> span_digits (l ++ q)%list = (x, a :: r ++ q)%list.
Proof.
  revert x; induction l as [|b l IH]; intros x; cbn; [discriminate|].
  destruct (is_digit b); [|intros H; now injection H as <- -> ->].
  destruct (span_digits l) as [x' r'] eqn:E. intros H. injection H as <- ->. now rewrite (IH x').
Qed.
Lemma scan_int_app l x a r q : scan_int l = Some (x, a :: r) -> scan_int (l ++ q)%list = Some (x, a :: r ++ q)%list.
Proof.
  destruct l as [|b l]; [discriminate|]. cbn [scan_int app]. destruct (Ascii.eqb b "0"); [intros H; now injection H as <- ->|].
  destruct (is_digit b) eqn:Eb; [|discriminate]. intros H. injection H as H. f_equal. now apply (span_app (b :: l)).
Qed.
Lemma scan_frac_app l x a r q : scan_frac l = Some (x, a :: r) -> scan_frac (l ++ q)%list = Some (x, a :: r ++ q)%list.
Proof.
  destruct l as [|b l]; [discriminate|]. cbn [scan_frac app]. destruct (Ascii.eqb b "."); [|intros H; now injection H as <- -> ->].
  destruct (span_digits l) as [x' r'] eqn:E. destruct x' as [|c x']; [discriminate|]. intros H. injection H as <- ->.
  now rewrite (span_app l (c :: x') a r).
Qed.
Lemma scan_exp_app l x a r q : scan_exp l = Some (x, a :: r) -> scan_exp (l ++ q)%list = Some (x, a :: r ++ q)%list.
Proof.
  destruct l as [|b l]; [discriminate|]. cbn [scan_exp app]. destruct (_ || _); [|intros H; now injection H as <- -> ->].
  destruct l as [|c l]; [discriminate|]. cbn [app].
  destruct (Ascii.eqb c "+" || Ascii.eqb c "-").
  - destruct (span_digits l) as [x' r'] eqn:E. destruct x' as [|d x']; [discriminate|]. intros H. injection H as <- ->.
    now rewrite (span_app l (d :: x') a r).
  - destruct (span_digits (c :: l)) as [x' r'] eqn:E. destruct x' as [|d x']; [discriminate|]. intros H. injection H as <- ->.
    pose proof (span_app (c :: l) (d :: x') a r q E) as E2. cbn [app] in E2. now rewrite E2.
Qed.
Lemma scan_num_app l x a r q : scan_num l = Some (x, a :: r) -> scan_num (l ++ q)%list = Some (x, a :: r ++ q)%list.
Proof.
  unfold scan_num. destruct l as [|b l]; [discriminate|]. cbn [app].
  assert (Hgen : forall sg l1, match scan_int l1 with None => None | Some (i, l2) => match scan_frac l2 with None => None | Some (f, l3) => match scan_exp l3 with None => None | Some (e, l4) => Some (sg ++ i ++ f ++ e, l4)%list end end end = Some (x, a :: r) ->
    match scan_int (l1 ++ q)%list with None => None | Some (i, l2) => match scan_frac l2 with None => None | Some (f, l3) => match scan_exp l3 with None => None | Some (e, l4) => Some (sg ++ i ++ f ++ e, l4)%list end end end = Some (x, a :: r ++ q)%list).
  { intros sg l1 H. destruct (scan_int l1) as [[i l2]|] eqn:E1; [|discriminate].
    destruct l2 as [|a2 l2]; [discriminate|]. rewrite (scan_int_app l1 i a2 l2) by assumption.
    destruct (scan_frac (a2 :: l2)) as [[f l3]|] eqn:E2; [|discriminate].
    destruct l3 as [|a3 l3]; [discriminate|]. pose proof (scan_frac_app _ f a3 l3 q E2) as E2'. cbn [app] in E2'. rewrite E2'.
    destruct (scan_exp (a3 :: l3)) as [[e l4]|] eqn:E3; [|discriminate]. injection H as Hx ->.
    pose proof (scan_exp_app _ e a r q E3) as E3'. cbn [app] in E3'. rewrite E3'. now rewrite <- Hx. }
  destruct (Ascii.eqb b "-"); [apply Hgen|]. apply (Hgen [] (b :: l)).
Qed.
Definition not_num (v : json) : Prop := match v with JNum _ => False | _ => True end.
Lemma parse_app q n :
  (forall m l v r, (n <= m)%nat -> pv n l = Some (v, r) -> r <> [] \/ not_num v -> pv m (l ++ q)%list = Some (v, r ++ q)%list) /\
  (forall m l v r, (n <= m)%nat -> pmem n l = Some (v, r) -> pmem m (l ++ q)%list = Some (v, r ++ q)%list) /\
  (forall m l v r, (n <= m)%nat -> parr n l = Some (v, r) -> parr m (l ++ q)%list = Some (v, r ++ q)%list).
Proof.
  induction n as [|n (IHv & IHm & IHa)]; [repeat split; discriminate|].
  split; [|split]; intros m l v r Hm; (destruct m as [|m]; [lia|]); assert (Hm' : (n <= m)%nat) by lia.
  - cbn [pv]. destruct (skip_ws l) as [|a t] eqn:E0; [discriminate|]. rewrite (skip_ws_app _ _ _ q E0).
    destruct (Ascii.eqb a "{").
    { destruct (skip_ws t) as [|b r'] eqn:E1; [discriminate|]. rewrite (skip_ws_app _ _ _ q E1).
      destruct (Ascii.eqb b "}"); [intros H _; now injection H as <- <-|].
      destruct (pmem n t) as [[m' r2]|] eqn:E2; [|discriminate]. rewrite (IHm _ _ _ _ Hm' E2). intros H _; now injection H as <- <-. }
    destruct (Ascii.eqb a "[").
    { destruct (skip_ws t) as [|b r'] eqn:E1; [discriminate|]. rewrite (skip_ws_app _ _ _ q E1).
      destruct (Ascii.eqb b "]"); [intros H _; now injection H as <- <-|].
      destruct (parr n t) as [[m' r2]|] eqn:E2; [|discriminate]. rewrite (IHa _ _ _ _ Hm' E2). intros H _; now injection H as <- <-. }
    destruct (Ascii.eqb a quote).
    { destruct (scan_str t) as [[raw r']|] eqn:E1; [|discriminate]. rewrite (scan_str_app q _ _ _ _ (le_n _) E1). intros H _; now injection H as <- <-. }
    destruct (Ascii.eqb a "t").
    { destruct (strip_prefix _ t) as [r'|] eqn:E1; [|discriminate]. rewrite (strip_prefix_app _ q _ _ E1). intros H _; now injection H as <- <-. }
    destruct (Ascii.eqb a "f").
    { destruct (strip_prefix _ t) as [r'|] eqn:E1; [|discriminate]. rewrite (strip_prefix_app _ q _ _ E1). intros H _; now injection H as <- <-. }
    destruct (Ascii.eqb a "n").
    { destruct (strip_prefix _ t) as [r'|] eqn:E1; [|discriminate]. rewrite (strip_prefix_app _ q _ _ E1). intros H _; now injection H as <- <-. }
    destruct (scan_num (a :: t)) as [[x r']|] eqn:E1; [|discriminate]. intros H Hr. injection H as <- <-.
    destruct Hr as [Hr|[]]. destruct r' as [|b r']; [congruence|].
    pose proof (scan_num_app _ _ _ _ q E1) as E2. cbn [app] in E2. now rewrite E2.
  - cbn [pmem]. destruct (skip_ws l) as [|a t] eqn:E0; [discriminate|]. rewrite (skip_ws_app _ _ _ q E0).
    destruct (Ascii.eqb a quote); [|discriminate].
    destruct (scan_str t) as [[raw r1]|] eqn:E1; [|discriminate]. rewrite (scan_str_app q _ _ _ _ (le_n _) E1).
    destruct (skip_ws r1) as [|c r2] eqn:E2; [discriminate|]. rewrite (skip_ws_app _ _ _ q E2).
    destruct (Ascii.eqb c ":"); [|discriminate].
    destruct (pv n r2) as [[v' r3]|] eqn:E3; [|discriminate].
    destruct (skip_ws r3) as [|d r4] eqn:E4; [discriminate|].
    rewrite (IHv m _ _ _ Hm' E3) by (left; intros ->; discriminate). rewrite (skip_ws_app _ _ _ q E4).
    destruct (Ascii.eqb d "}"); [intros H; now injection H as <- <-|]. destruct (Ascii.eqb d ","); [|discriminate].
    destruct (pmem n r4) as [[m' r5]|] eqn:E5; [|discriminate]. rewrite (IHm _ _ _ _ Hm' E5). intros H; now injection H as <- <-.
  - cbn [parr].
    destruct (pv n l) as [[v' r3]|] eqn:E3; [|discriminate].
    destruct (skip_ws r3) as [|d r4] eqn:E4; [discriminate|].
    rewrite (IHv m _ _ _ Hm' E3) by (left; intros ->; discriminate). rewrite (skip_ws_app _ _ _ q E4).
    destruct (Ascii.eqb d "]"); [intros H; now injection H as <- <-|]. destruct (Ascii.eqb d ","); [|discriminate].
    destruct (parr n r4) as [[m' r5]|] eqn:E5; [|discriminate]. rewrite (IHa _ _ _ _ Hm' E5). intros H; now injection H as <- <-.
Qed.
Lemma pv_object n t v r : pv n ("{"%char :: t) = Some (v, r) -> not_num v.
Proof.
  destruct n as [|n]; [discriminate|]. cbn [pv skip_ws]. change (is_ws "{") with false. cbv iota. change (Ascii.eqb "{" "{") with true. cbv iota.
  destruct (skip_ws t) as [|b r']; [discriminate|]. destruct (Ascii.eqb b "}"); [intros H; now injection H as <- _|].
  destruct (pmem n t) as [[m' r2]|]; [|discriminate]. intros H; now injection H as <- _.
Qed.
(** No proper prefix of a printed object parses. *)
Lemma parse_truncated m p q : lits (JObj m) -> print 0 (JObj m) = (p ++ q)%list -> q <> [] -> parse p = None.
Proof.
  intros HL E Hq. unfold parse. destruct (pv (S (List.length p)) p) as [[v r]|] eqn:Ep; [|reflexivity].
  assert (Hv : not_num v).
  { destruct p as [|a p]; [discriminate Ep|].
    assert (a = "{"%char) as ->; [|now apply pv_object in Ep].
    destruct m as [|x m]; [cbn in E; now injection E|rewrite print_obj in E; now injection E]. }
  assert (Hle : (S (List.length p) <= S (List.length (p ++ q)))%nat) by (rewrite app_length; lia).
  pose proof (proj1 (parse_app q _) (S (List.length (p ++ q))) _ _ _ Hle Ep (or_intror Hv)) as E2.
  pose proof (pv_reads (JObj m) HL 0%nat (S (List.length (p ++ q))) [] I) as E3. rewrite app_nil_r, E in E3.
  rewrite E3 in E2 by lia. injection E2 as _ Er. symmetry in Er. apply app_eq_nil in Er as [_ ->]. contradiction.
Qed.
