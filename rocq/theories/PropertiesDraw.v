(** Theorems about identifiers (C111) and passcodes (C112). *)
From Coq Require Import String Ascii ZArith NArith Lia Bool Arith List.
From stdpp Require Import gmap strings.
From RecordUpdate Require Import RecordSet.
From Verif Require Import GoStr Codec GoErr Random GoTime Types Env Mfa Database SpecValue SpecDb SpecMfa SpecDraw DrawFacts Examples PropertiesMfa.
Import ListNotations.
Import RecordSetNotations.
Open Scope string_scope.

(** C111 *)
(** Two draws give the same user id only if they agree in all 122 bits that are not fixed. *)
Theorem C111_uuid r r' : new_id r = new_id r' <-> forall i, (i < 16)%nat -> kept i (r i) = kept i (r' i).
Proof. exact (new_id_inj r r'). Qed.
Print Assumptions C111_uuid.
Theorem C111_uuid_onto s : canonical_v4 s -> exists r, new_id r = s.
Proof. exact (new_id_onto s). Qed.
Print Assumptions C111_uuid_onto.
(** The strings used as ids and keys keep the draw of every character. *)
Theorem C111_random_string n d d' : (1 <= n)%Z ->
  random_string n d = random_string n d' <-> forall i, (Z.of_nat i < n)%Z -> (d i mod 62 = d' i mod 62)%N.
Proof.
  intros Hn. unfold random_string. replace (n <? 1)%Z with false by lia.
  rewrite (gen_inj charset (Z.to_nat n) d d' (proj1 charset_nodup) ltac:(discriminate)). change (N.of_nat (String.length charset)) with 62%N.
  split; intros H i Hi; apply H; lia.
Qed.
Print Assumptions C111_random_string.
Theorem C111_random_range a b ld ld' d d' : (0 <= a < b)%Z ->
  random_range a b ld d = random_range a b ld' d' <->
  (Z.of_N ld mod (b - a) = Z.of_N ld' mod (b - a))%Z /\ forall i, (Z.of_nat i < a + Z.of_N ld mod (b - a))%Z -> (d i mod 62 = d' i mod 62)%N.
Proof.
  intros H. unfold random_range, random_range_len. replace (a >? b)%Z with false by lia. replace (b - a <=? 0)%Z with false by lia.
  pose proof (Z.mod_pos_bound (Z.of_N ld) (b - a) ltac:(lia)) as B. pose proof (Z.mod_pos_bound (Z.of_N ld') (b - a) ltac:(lia)) as B'.
  set (x := (Z.of_N ld mod (b - a))%Z) in *. set (x' := (Z.of_N ld' mod (b - a))%Z) in *. clearbody x x'.
  replace (x + a <? 0)%Z with false by lia. replace (x' + a <? 0)%Z with false by lia.
  pose proof (gen_inj charset (Z.to_nat (x + a)) d d' (proj1 charset_nodup) ltac:(discriminate)) as G. change (N.of_nat (String.length charset)) with 62%N in G.
  split.
  - intros E. assert (gen charset (Z.to_nat (x + a)) d = gen charset (Z.to_nat (x' + a)) d') as F by exact (f_equal (from_option id "") E).
    assert (x = x') as <-.
    { apply (f_equal String.length) in F. rewrite !RandomFacts.gen_length in F. lia. }
    split; [reflexivity|]. intros i Hi. apply G; [exact F|lia].
  - intros [<- K]. f_equal. apply G. intros i Hi. apply K. lia.
Qed.
Print Assumptions C111_random_range.
Theorem C111_new_random_string n d d' : (1 <= n)%Z ->
  new_random_string n d = new_random_string n d' <-> forall i, (Z.of_nat i < n)%Z -> (d i mod 36 = d' i mod 36)%N.
Proof.
  intros Hn. unfold new_random_string. replace (n =? 0)%Z with false by lia.
  rewrite (gen_inj charset36 (Z.to_nat n) d d' (proj2 charset_nodup) ltac:(discriminate)). change (N.of_nat (String.length charset36)) with 36%N.
  split; intros H i Hi; apply H; lia.
Qed.
Print Assumptions C111_new_random_string.
Example C111_ex : new_id (fun i => ascii_of_nat i) <> new_id (fun i => ascii_of_nat (2 * i)) /\
  new_id (fun i => ascii_of_nat i) = new_id (fun i => ascii_of_nat (if Nat.eqb i 6 then 246 else i)) /\
  (forall i, (i < 16)%nat -> kept i (ascii_of_nat i) = kept i (ascii_of_nat (if Nat.eqb i 6 then 246 else i))) /\
  random_range 72 96 3 (fun i => N.of_nat i) <> random_range 72 96 3 (fun i => if (i =? 74)%nat then 0%N else N.of_nat i) /\
  random_range 72 96 3 (fun i => N.of_nat i) = random_range 72 96 27 (fun i => if (i =? 75)%nat then 0%N else N.of_nat i).
Proof.
  split; [vm_compute; discriminate|]. split; [vm_compute; reflexivity|]. split; [|split; vm_compute; [discriminate|reflexivity]].
  intros i Hi. do 16 (destruct i as [|i]; [reflexivity|]). lia.
Qed.

(** C112 *)
(** Of the [10^d] passcodes at least one and at most three are accepted at any time, and nothing else is. *)
Theorem C112_accepted E p t : hmac_size E -> totp_token p ->
  (1 <= List.length (List.filter (fun c => match validate_code E p c t with None => true | Some _ => false end) (digit_strings (Z.to_nat (t_digits p)))) <= 3)%nat /\
  (forall c, validate_code E p c t = None -> In (trim_space c) (digit_strings (Z.to_nat (t_digits p))) /\ validate_code E p (trim_space c) t = None).
Proof.
  intros Hh Hp. split; [exact (accepted_count E p t Hh Hp)|]. intros c V. destruct (accepted_digits E p t c Hh Hp V) as [D A]. split; [exact D|].
  unfold accepted in A. destruct (validate_code E p (trim_space c) t); [discriminate|reflexivity].
Qed.
Print Assumptions C112_accepted.
Theorem C112_passcodes n : List.length (digit_strings n) = (10 ^ n)%nat /\ List.NoDup (digit_strings n) /\
  forall s, In s (digit_strings n) <-> String.length s = n /\ Forall (fun a => is_digit a = true) (los s).
Proof. split; [exact (digit_strings_length n)|]. split; [exact (digit_strings_nodup n)|exact (in_digit_strings n)]. Qed.
Print Assumptions C112_passcodes.
Definition taken (c : string) : bool := match validate_code toy (a_token 4) c a_time with None => true | Some _ => false end.
Example C112_ex : hmac_size toy /\ totp_token (a_token 4) /\ map taken ["0995"; "5427"; "8211"; "0996"; "54270"] = [true; true; true; false; false].
Proof. split; [exact toy_hmac|]. split; [split; [reflexivity|now left|split; discriminate|split; discriminate]|]. vm_compute. reflexivity. Qed.
(** There is no other: all ten thousand tried, once, when this definition is compiled. *)
Definition taken_codes : list string := Eval vm_compute in List.filter taken (digit_strings 4).
Example C112_ex_all : taken_codes = ["0995"; "5427"; "8211"].
Proof. reflexivity. Qed.
