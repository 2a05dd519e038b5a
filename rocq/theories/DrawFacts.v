(** Randomness kept by identifiers (C111); the number of accepted passcodes (C112). *)
From Coq Require Import String Ascii ZArith NArith Lia Bool Arith List.
From Coq Require Import ZifyBool ZifyNat ZifyN.
From stdpp Require Import gmap strings.
From Verif Require Import GoStr Utf8 Codec GoErr Random SpecValue RandomFacts GoTime Types Env Mfa SpecDb SpecMfa TotpFacts SpecDraw.
Import ListNotations.
Open Scope string_scope.

(** ** Random strings *)
Lemma pick_inj cs x y : NoDup (los cs) -> cs <> "" -> pick cs x = pick cs y <-> (x mod N.of_nat (String.length cs) = y mod N.of_nat (String.length cs))%N.
Proof.
  intros ND NE. assert (String.length cs <> 0)%nat as L by (destruct cs; cbn; congruence). unfold pick. split; [|now intros ->]. intros H.
  pose proof (N.mod_lt x (N.of_nat (String.length cs)) ltac:(lia)). pose proof (N.mod_lt y (N.of_nat (String.length cs)) ltac:(lia)).
  apply NoDup_ListNoDup in ND.
  apply (proj1 (List.NoDup_nth (los cs) "000"%char) ND) in H; [lia|rewrite length_los; lia|rewrite length_los; lia].
Qed.
Lemma map_seq_inj {A} (f g : nat -> A) n : map f (seq 0 n) = map g (seq 0 n) <-> forall i, (i < n)%nat -> f i = g i.
Proof.
  split.
  - intros H i Hi. apply (f_equal (fun l => nth i l (f i))) in H.
    rewrite (nth_indep _ (f i) (f 0%nat)) in H by (now rewrite map_length, seq_length). rewrite map_nth, seq_nth in H by assumption.
    rewrite (nth_indep _ (f i) (g 0%nat)) in H by (now rewrite map_length, seq_length). rewrite map_nth, seq_nth in H by assumption. exact H.
  - intros H. apply map_ext_in. intros i Hi. apply in_seq in Hi. apply H. lia.
Qed.
Lemma gen_inj cs n d d' : NoDup (los cs) -> cs <> "" ->
  gen cs n d = gen cs n d' <-> forall i, (i < n)%nat -> (d i mod N.of_nat (String.length cs) = d' i mod N.of_nat (String.length cs))%N.
Proof.
  intros ND NE. unfold gen. rewrite <- (map_seq_inj (fun i => (d i mod N.of_nat (String.length cs))%N) (fun i => (d' i mod N.of_nat (String.length cs))%N)). split.
  - intros H. apply sol_inj in H. rewrite map_seq_inj in H. apply map_seq_inj. intros i Hi. apply pick_inj; auto.
  - intros H. f_equal. rewrite map_seq_inj in H. apply map_seq_inj. intros i Hi. apply pick_inj; auto.
Qed.
Definition nodupb (l : list ascii) : bool := Nat.eqb (List.length (nodup ascii_dec l)) (List.length l).
Lemma charset_nodup : NoDup (los charset) /\ NoDup (los charset36).
Proof. split; apply (bool_decide_unpack _); vm_compute; exact I. Qed.

(** ** UUIDs *)
Lemma version_bits a b : set_version a = set_version b <-> (N_of_ascii a mod 16 = N_of_ascii b mod 16)%N.
Proof.
  assert (K : forall a, N_of_ascii (set_version a) = (64 + N_of_ascii a mod 16)%N).
  { intros x. destruct x as [[] [] [] [] [] [] [] []]; reflexivity. }
  split.
  - intros H. apply (f_equal N_of_ascii) in H. rewrite !K in H. lia.
  - intros H. rewrite <- (ascii_N_embedding (set_version a)), <- (ascii_N_embedding (set_version b)). now rewrite !K, H.
Qed.
Lemma variant_bits a b : set_variant a = set_variant b <-> (N_of_ascii a mod 64 = N_of_ascii b mod 64)%N.
Proof.
  assert (K : forall a, N_of_ascii (set_variant a) = (128 + N_of_ascii a mod 64)%N).
  { intros x. destruct x as [[] [] [] [] [] [] [] []]; reflexivity. }
  split.
  - intros H. apply (f_equal N_of_ascii) in H. rewrite !K in H. lia.
  - intros H. rewrite <- (ascii_N_embedding (set_variant a)), <- (ascii_N_embedding (set_variant b)). now rewrite !K, H.
Qed.
Definition no_dash (l : list ascii) : list ascii := List.filter (fun a => negb (Ascii.eqb a "-"%char)) l.
Lemma no_dash_hex l : no_dash (hex_encode_l l) = hex_encode_l l.
Proof.
  pose proof (hex_encode_lower l) as H. revert H. generalize (hex_encode_l l). clear l. induction l as [|a l IH]; [reflexivity|]. intros H. inversion H as [|? ? H1 H2]; subst.
  cbn [no_dash List.filter]. destruct (Ascii.eqb_spec a "-"%char) as [->|]; cbn [negb]; [exfalso; unfold hex_lower in H1; cbn in H1; intuition discriminate|]. f_equal. exact (IH H2).
Qed.
Lemma uuid_bytes_16 r : exists b0 b1 b2 b3 b4 b5 b6 b7 b8 b9 b10 b11 b12 b13 b14 b15, uuid_bytes r = [b0; b1; b2; b3; b4; b5; b6; b7; b8; b9; b10; b11; b12; b13; b14; b15].
Proof. unfold uuid_bytes. cbn [seq map]. repeat eexists. Qed.
Lemma no_dash_app l l' : no_dash (l ++ "-"%char :: l')%list = (no_dash l ++ no_dash l')%list.
Proof. unfold no_dash. now rewrite List.filter_app. Qed.
Lemma no_dash_uuid r : no_dash (los (uuid_string (uuid_bytes r))) = hex_encode_l (uuid_bytes r).
Proof.
  unfold uuid_string. cbv zeta. rewrite los_sol, !no_dash_app, !no_dash_hex.
  destruct (uuid_bytes_16 r) as (b0 & b1 & b2 & b3 & b4 & b5 & b6 & b7 & b8 & b9 & b10 & b11 & b12 & b13 & b14 & b15 & ->).
  cbn [firstn skipn]. unfold hex_encode_l. rewrite <- !flat_map_app. reflexivity.
Qed.
Lemma new_id_inj r r' : new_id r = new_id r' <-> forall i, (i < 16)%nat -> kept i (r i) = kept i (r' i).
Proof.
  assert (K : uuid_bytes r = uuid_bytes r' <-> forall i, (i < 16)%nat -> kept i (r i) = kept i (r' i)).
  { unfold uuid_bytes. rewrite map_seq_inj. unfold kept. split; intros H i Hi; specialize (H i Hi).
    - destruct (Nat.eqb i 6); [now apply version_bits|]. destruct (Nat.eqb i 8); [now apply variant_bits|]. now rewrite H.
    - destruct (Nat.eqb i 6); [now apply version_bits|]. destruct (Nat.eqb i 8); [now apply variant_bits|]. rewrite <- (ascii_N_embedding (r i)), <- (ascii_N_embedding (r' i)). now rewrite H. }
  rewrite <- K. unfold new_id. split; [|now intros ->]. intros H. apply (f_equal (fun s => no_dash (los s))) in H. cbn beta in H. rewrite !no_dash_uuid in H.
  apply (f_equal hex_decode_l) in H. rewrite !hex_roundtrip in H. exact (f_equal (from_option id []) H).
Qed.
(** Every canonical version 4 UUID is a possible result. *)
Definition hexv (a : ascii) : N := match hex_val a with Some n => n | None => 0%N end.
Definition byte_of (x y : ascii) : ascii := ascii_of_N (16 * hexv x + hexv y).
Lemma byte_of_ok x y : hex_lower x -> hex_lower y -> hex_byte (byte_of x y) = [x; y].
Proof.
  intros Hx Hy. assert (K : forallb (fun x => forallb (fun y => match hex_byte (byte_of x y) with [a; b] => Ascii.eqb a x && Ascii.eqb b y | _ => false end) (los "0123456789abcdef")) (los "0123456789abcdef") = true) by (vm_compute; reflexivity).
  rewrite forallb_forall in K. specialize (K x Hx). rewrite forallb_forall in K. specialize (K y Hy).
  destruct (hex_byte (byte_of x y)) as [|a [|b [|]]]; try discriminate. apply andb_true_iff in K as [K1 K2]. apply Ascii.eqb_eq in K1, K2. congruence.
Qed.
Lemma byte_of_version y : hex_lower y -> set_version (byte_of "4" y) = byte_of "4" y.
Proof.
  intros Hy. assert (K : forallb (fun y => Ascii.eqb (set_version (byte_of "4" y)) (byte_of "4" y)) (los "0123456789abcdef") = true) by (vm_compute; reflexivity).
  rewrite forallb_forall in K. now apply Ascii.eqb_eq, K.
Qed.
Lemma byte_of_variant v y : In v (los "89ab") -> hex_lower y -> set_variant (byte_of v y) = byte_of v y.
Proof.
  intros Hv Hy. assert (K : forallb (fun v => forallb (fun y => Ascii.eqb (set_variant (byte_of v y)) (byte_of v y)) (los "0123456789abcdef")) (los "89ab") = true) by (vm_compute; reflexivity).
  rewrite forallb_forall in K. specialize (K v Hv). rewrite forallb_forall in K. now apply Ascii.eqb_eq, K.
Qed.
Lemma new_id_onto s : canonical_v4 s -> exists r, new_id r = s.
Proof.
  intros (g1 & g2 & g3 & g4 & g5 & v & Es & L1 & L2 & L3 & L4 & L5 & F & Hv).
  destruct g1 as [|c0 [|c1 [|c2 [|c3 [|c4 [|c5 [|c6 [|c7 [|]]]]]]]]]; try discriminate L1.
  destruct g2 as [|c8 [|c9 [|c10 [|c11 [|]]]]]; try discriminate L2. destruct g3 as [|c12 [|c13 [|c14 [|]]]]; try discriminate L3. destruct g4 as [|c15 [|c16 [|c17 [|]]]]; try discriminate L4.
  destruct g5 as [|d0 [|d1 [|d2 [|d3 [|d4 [|d5 [|d6 [|d7 [|d8 [|d9 [|d10 [|d11 [|]]]]]]]]]]]]]; try discriminate L5. clear L1 L2 L3 L4 L5.
  cbn [app] in F. repeat match goal with H : Forall _ (_ :: _) |- _ => inversion_clear H end. 
  assert (hex_lower "4"%char) by (clear; unfold hex_lower; cbn; tauto).
  assert (hex_lower v) by (clear - Hv; cbn in Hv; unfold hex_lower; destruct Hv as [<-|[<-|[<-|[<-|[]]]]]; cbn; tauto).
  exists (fun i => nth i [byte_of c0 c1; byte_of c2 c3; byte_of c4 c5; byte_of c6 c7; byte_of c8 c9; byte_of c10 c11; byte_of "4" c12; byte_of c13 c14;
                          byte_of v c15; byte_of c16 c17; byte_of d0 d1; byte_of d2 d3; byte_of d4 d5; byte_of d6 d7; byte_of d8 d9; byte_of d10 d11] "000"%char).
  apply los_inj. rewrite Es. unfold new_id, uuid_bytes. cbn [seq map Nat.eqb nth]. rewrite byte_of_version, byte_of_variant by assumption.
  unfold uuid_string. cbv zeta. rewrite los_sol. cbn [firstn skipn]. unfold hex_encode_l. cbn [flat_map]. rewrite !byte_of_ok by assumption. reflexivity.
Qed.

(** ** Passcodes *)
Lemma digit_in a : In a (los "0123456789") <-> is_digit a = true.
Proof.
  split.
  - intros H. assert (K : forallb is_digit (los "0123456789") = true) by reflexivity. rewrite forallb_forall in K. now apply K.
  - destruct a as [[] [] [] [] [] [] [] []]; cbn; intros H; (discriminate H || tauto).
Qed.
Lemma in_digit_strings n s : In s (digit_strings n) <-> String.length s = n /\ Forall (fun a => is_digit a = true) (los s).
Proof.
  revert s. induction n as [|n IH]; intros s.
  - cbn [digit_strings]. split; [intros [<-|[]]; split; [reflexivity|constructor]|]. intros [L _]. destruct s; [now left|discriminate].
  - cbn [digit_strings]. rewrite in_flat_map. split.
    + intros (d & Hd & (x & <- & Hx)%in_map_iff). apply IH in Hx as [L F]. split; [cbn; lia|]. change (los (String d x)) with (d :: los x). constructor; [now apply digit_in|exact F].
    + intros [L F]. destruct s as [|d x]; [discriminate|]. change (los (String d x)) with (d :: los x) in F. inversion F as [|? ? F1 F2]; subst.
      exists d. split; [now apply digit_in|]. apply in_map, IH. split; [cbn in L; lia|exact F2].
Qed.
Lemma digit_strings_length n : List.length (digit_strings n) = (10 ^ n)%nat.
Proof.
  induction n as [|n IH]; [reflexivity|]. cbn [digit_strings]. change (los "0123456789") with ["0"; "1"; "2"; "3"; "4"; "5"; "6"; "7"; "8"; "9"]%char. cbn [flat_map].
  rewrite !app_length, !map_length, IH. cbn [List.length Nat.pow]. lia.
Qed.
Lemma digit_strings_nodup n : List.NoDup (digit_strings n).
Proof.
  induction n as [|n IH]; [repeat constructor; intros []|]. cbn [digit_strings].
  assert (D : List.NoDup (los "0123456789")) by (apply NoDup_ListNoDup, (bool_decide_unpack _); vm_compute; exact I).
  induction D as [|d l Hd _ IHl]; [constructor|]. cbn [flat_map]. apply NoDup_ListNoDup, NoDup_app. split; [|split].
  - apply NoDup_ListNoDup. apply FinFun.Injective_map_NoDup; [|exact IH]. intros x y [=]. assumption.
  - intros x Hx Hy. apply elem_of_list_In in Hx, Hy. apply in_map_iff in Hx as (x' & <- & _). apply in_flat_map in Hy as (d' & Hd' & (y' & [=] & _)%in_map_iff). subst. contradiction.
  - now apply NoDup_ListNoDup.
Qed.
Lemma code_of_exists E a s d T : known_algorithm a -> hmac_size E -> (1 <= d)%Z -> exists c, code_of E a s (Z.to_nat d) T c.
Proof.
  intros K Hh Hd. destruct (gen_code_known E s a d (Z.to_N (T mod 2 ^ 64)) K Hh Hd ltac:(pose proof (Z.mod_pos_bound T (2 ^ 64)); lia)) as (c & _ & C).
  exists c. rewrite Z2N.id in C by (apply Z.mod_pos_bound; lia). exact (proj1 (code_of_mod _ _ _ _ _ _) C).
Qed.
Definition accepted (E : Env) (p : MfaToken) (t : Z) (c : string) : bool := match validate_code E p c t with None => true | Some _ => false end.
Lemma accepted_count E p t : hmac_size E -> totp_token p ->
  (1 <= List.length (List.filter (accepted E p t) (digit_strings (Z.to_nat (t_digits p)))) <= 3)%nat.
Proof.
  intros Hh [_ KA KP KD]. unfold within in *. assert (HT : in_period t (t_period p) (unix t / t_period p)) by (apply in_period_iff; [lia|reflexivity]).
  set (T := (unix t / t_period p)%Z) in *. clearbody T.
  destruct (code_of_exists E (t_algorithm p) (t_secret p) (t_digits p) (T - 1) KA Hh ltac:(lia)) as (c1 & C1).
  destruct (code_of_exists E (t_algorithm p) (t_secret p) (t_digits p) T KA Hh ltac:(lia)) as (c2 & C2).
  destruct (code_of_exists E (t_algorithm p) (t_secret p) (t_digits p) (T + 1) KA Hh ltac:(lia)) as (c3 & C3).
  assert (IF : forall c, In c (digit_strings (Z.to_nat (t_digits p))) -> accepted E p t c = true <-> exists T', (T - 1 <= T' <= T + 1)%Z /\ token_code E p T' c).
  { intros c [L F]%in_digit_strings. unfold accepted. pose proof (validate_code_iff E p c t T Hh ltac:(lia) HT) as V. cbv zeta in V. rewrite (digits_trim c F) in V.
    unfold within in V. assert (zlen c = t_digits p) as Z by (unfold zlen; lia). destruct (validate_code E p c t); split; intros X; try discriminate; [|now apply V|reflexivity].
    assert (Some g = None) by (apply V; split; [lia|]; split; [exact Z|exact X]). discriminate. }
  split.
  - assert (In c2 (List.filter (accepted E p t) (digit_strings (Z.to_nat (t_digits p))))) as I.
    { destruct (code_of_length _ _ _ _ _ _ C2) as [L F]. assert (In c2 (digit_strings (Z.to_nat (t_digits p)))) as D by (apply in_digit_strings; split; [unfold zlen in L; lia|exact F]).
      apply filter_In. split; [exact D|]. apply IF; [exact D|]. exists T. split; [lia|exact C2]. }
    destruct (List.filter _ _); [destruct I|cbn; lia].
  - apply (List.NoDup_incl_length (l' := [c1; c2; c3])); [apply List.NoDup_filter, digit_strings_nodup|].
    intros c [D A]%filter_In. apply IF in A as (T' & HT' & C); [|exact D]. unfold token_code in C.
    assert (T' = (T - 1)%Z \/ T' = T \/ T' = (T + 1)%Z) as [->|[->| ->]] by lia.
    + left. exact (code_of_det _ _ _ _ _ _ _ C1 C).
    + right. left. exact (code_of_det _ _ _ _ _ _ _ C2 C).
    + right. right. left. exact (code_of_det _ _ _ _ _ _ _ C3 C).
Qed.
Lemma accepted_digits E p t c : hmac_size E -> totp_token p -> validate_code E p c t = None -> In (trim_space c) (digit_strings (Z.to_nat (t_digits p))) /\ accepted E p t (trim_space c) = true.
Proof.
  intros Hh [_ KA KP KD] V. unfold within in *. assert (HT : in_period t (t_period p) (unix t / t_period p)) by (apply in_period_iff; [lia|reflexivity]).
  apply (validate_code_iff E p c t _ Hh ltac:(lia) HT) in V. cbv zeta in V. destruct V as (V1 & V2 & T' & V3 & V4). destruct (code_of_length _ _ _ _ _ _ V4) as [L F].
  split; [apply in_digit_strings; split; [unfold zlen in L; lia|exact F]|]. unfold accepted.
  assert (validate_code E p (trim_space c) t = None) as ->; [|reflexivity]. apply (validate_code_iff E p _ t _ Hh ltac:(lia) HT). cbv zeta. rewrite (digits_trim _ F). eauto.
Qed.
