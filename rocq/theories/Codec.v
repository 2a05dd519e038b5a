(** Hexadecimal, base64, base32 and URL query escaping, as in Go's
    [encoding/hex], [encoding/base64], [encoding/base32] and [net/url]. *)
From Coq Require Import String Ascii ZArith NArith Lia Bool Arith List.
From Coq Require Import ZifyBool ZifyNat ZifyN.
From Verif Require Import GoStr Utf8.
Import ListNotations.
Open Scope N_scope.

(** ** Hexadecimal ([fmt]'s [%x] on bytes: mfa_token.go:545; [hex.EncodeToString]:
    public_key.go:218; UUID printing: uuid.go:25) *)
Definition hex_digit (n : N) : ascii :=
  if n <? 10 then ascii_of_N (48 + n) else ascii_of_N (87 + n).
Definition hex_digit_up (n : N) : ascii :=
  if n <? 10 then ascii_of_N (48 + n) else ascii_of_N (55 + n).
Definition hex_byte (a : ascii) : list ascii :=
  [hex_digit (N_of_ascii a / 16); hex_digit (N_of_ascii a mod 16)].
Definition hex_encode_l (l : list ascii) : list ascii := flat_map hex_byte l.
Definition hex_encode (s : string) : string := sol (hex_encode_l (los s)).
Definition hex_val (a : ascii) : option N :=
  let n := N_of_ascii a in
  if in_range a 48 57 then Some (n - 48)
  else if in_range a 97 102 then Some (n - 87)
  else if in_range a 65 70 then Some (n - 55)
  else None.
Fixpoint hex_decode_l (l : list ascii) : option (list ascii) :=
  match l with
  | [] => Some []
  | a :: b :: t =>
      match hex_val a, hex_val b, hex_decode_l t with
      | Some x, Some y, Some r => Some (ascii_of_N (x * 16 + y) :: r)
      | _, _, _ => None
      end
  | _ => None
  end.

(** ** base64, standard alphabet with padding (mfa_token.go:155,319,338,358,370,519,
    webauthn.go:107, public_key.go:152, pkg/qr/qr.go:116) *)
Definition b64_char (n : N) : ascii :=
  if n <? 26 then ascii_of_N (65 + n)
  else if n <? 52 then ascii_of_N (71 + n)
  else if n <? 62 then ascii_of_N (n - 4)
  else if n =? 62 then "+"%char else "/"%char.
Definition b64_val (a : ascii) : option N :=
  let n := N_of_ascii a in
  if in_range a 65 90 then Some (n - 65)
  else if in_range a 97 122 then Some (n - 71)
  else if in_range a 48 57 then Some (n + 4)
  else if Ascii.eqb a "+" then Some 62
  else if Ascii.eqb a "/" then Some 63
  else None.
Definition b64_word (v : N) : list ascii :=
  [b64_char (v / 262144); b64_char ((v / 4096) mod 64); b64_char ((v / 64) mod 64); b64_char (v mod 64)].
Fixpoint b64_encode_l (l : list ascii) : list ascii :=
  match l with
  | [] => []
  | [a] => let v := N_of_ascii a * 65536 in
           [b64_char (v / 262144); b64_char ((v / 4096) mod 64); "="; "="]%char
  | [a; b] => let v := N_of_ascii a * 65536 + N_of_ascii b * 256 in
           [b64_char (v / 262144); b64_char ((v / 4096) mod 64); b64_char ((v / 64) mod 64); "="%char]
  | a :: b :: c :: t =>
      (b64_word (N_of_ascii a * 65536 + N_of_ascii b * 256 + N_of_ascii c) ++ b64_encode_l t)%list
  end.
Definition b64_encode (s : string) : string := sol (b64_encode_l (los s)).

Definition not_newline (a : ascii) : bool := negb (Ascii.eqb a "010" || Ascii.eqb a "013").
(** Quanta of four characters; padding only in the last one.  As in Go's
    non-strict [StdEncoding], unused trailing bits may be non-zero. *)
Fixpoint b64_quanta (l : list ascii) : option (list ascii) :=
  match l with
  | [] => Some []
  | a :: b :: c :: d :: t =>
      match b64_val a, b64_val b with
      | Some x, Some y =>
          match b64_val c with
          | Some z =>
              match b64_val d with
              | Some w =>
                  let v := x * 262144 + y * 4096 + z * 64 + w in
                  match b64_quanta t with
                  | Some r => Some (ascii_of_N (v / 65536) :: ascii_of_N ((v / 256) mod 256) :: ascii_of_N (v mod 256) :: r)
                  | None => None
                  end
              | None =>
                  if Ascii.eqb d "=" then
                    match t with
                    | [] => let v := x * 262144 + y * 4096 + z * 64 in
                            Some [ascii_of_N (v / 65536); ascii_of_N ((v / 256) mod 256)]
                    | _ => None
                    end
                  else None
              end
          | None =>
              if Ascii.eqb c "=" && Ascii.eqb d "=" then
                match t with
                | [] => Some [ascii_of_N ((x * 262144 + y * 4096) / 65536)]
                | _ => None
                end
              else None
          end
      | _, _ => None
      end
  | _ => None
  end.
(** [base64.StdEncoding.DecodeString]: carriage returns and newlines are skipped
    everywhere. *)
Definition b64_decode_l (l : list ascii) : option (list ascii) := b64_quanta (filter not_newline l).
Definition b64_decode (s : string) : option string := option_map sol (b64_decode_l (los s)).

(** ** base32, standard alphabet without padding (pkg/qr/qr.go:97-98), as the
    regrouping of the bit string from groups of 8 to groups of 5. *)
Fixpoint nbits (k : nat) (n : N) : list bool :=
  match k with O => [] | S k' => N.testbit n (N.of_nat k') :: nbits k' n end.
Fixpoint bits_val (l : list bool) (acc : N) : N :=
  match l with [] => acc | b :: t => bits_val t (2 * acc + (if b then 1 else 0)) end.
Definition bits_of (l : list ascii) : list bool := flat_map (fun a => nbits 8 (N_of_ascii a)) l.
Definition b32_char (n : N) : ascii :=
  if n <? 26 then ascii_of_N (65 + n) else ascii_of_N (24 + n).
Definition b32_val (a : ascii) : option N :=
  let n := N_of_ascii a in
  if in_range a 65 90 then Some (n - 65)
  else if in_range a 50 55 then Some (n - 24)
  else None.
(** Groups of five bits, the last one padded with zero bits. *)
Fixpoint group5 (fuel : nat) (l : list bool) : list (list bool) :=
  match fuel with
  | O => []
  | S f => match l with
           | [] => []
           | _ => firstn 5 (l ++ [false; false; false; false]) :: group5 f (skipn 5 l)
           end
  end%list.
Definition b32_encode_l (l : list ascii) : list ascii :=
  map (fun g => b32_char (bits_val g 0)) (group5 (List.length (bits_of l)) (bits_of l)).
Definition b32_encode (s : string) : string := sol (b32_encode_l (los s)).

(** ** URL query escaping (pkg/qr/qr.go:96,100) *)
Definition query_safe (a : ascii) : bool :=
  is_alnum a || Ascii.eqb a "-" || Ascii.eqb a "_" || Ascii.eqb a "." || Ascii.eqb a "~".
Definition query_escape_char (a : ascii) : list ascii :=
  if query_safe a then [a]
  else if Ascii.eqb a " " then ["+"%char]
  else ["%"%char; hex_digit_up (N_of_ascii a / 16); hex_digit_up (N_of_ascii a mod 16)].
Definition query_escape_l (l : list ascii) : list ascii := flat_map query_escape_char l.
Definition query_escape (s : string) : string := sol (query_escape_l (los s)).

(** * Lemmas *)
Local Ltac Zify.zify_post_hook ::= Z.div_mod_to_equations.

Definition all_bytes : list ascii := map ascii_of_nat (seq 0 256).
Lemma all_bytes_in a : In a all_bytes.
Proof.
  unfold all_bytes. apply in_map_iff. exists (nat_of_ascii a). split; [apply ascii_nat_embedding|].
  apply in_seq. pose proof (nat_ascii_bounded a). lia.
Qed.
Lemma forall_bytes (P : ascii -> bool) : forallb P all_bytes = true -> forall a, P a = true.
Proof. intros H a. rewrite forallb_forall in H. apply H, all_bytes_in. Qed.
Definition all_below (k : nat) : list N := map N.of_nat (seq 0 k).
Lemma forall_below k (P : N -> bool) : forallb P (all_below k) = true -> forall n, n < N.of_nat k -> P n = true.
Proof.
  intros H n Hn. rewrite forallb_forall in H. apply H. unfold all_below. apply in_map_iff.
  exists (N.to_nat n). split; [lia|]. apply in_seq. lia.
Qed.

Definition opt_eqb (x : option N) (n : N) : bool := match x with Some m => m =? n | None => false end.
Lemma opt_eqb_eq x n : opt_eqb x n = true -> x = Some n.
Proof. destruct x; cbn; [|discriminate]. intros H. apply N.eqb_eq in H. congruence. Qed.
Lemma hex_val_digit n : n < 16 -> hex_val (hex_digit n) = Some n.
Proof. intros H. apply opt_eqb_eq. apply (forall_below 16 (fun n => opt_eqb (hex_val (hex_digit n)) n)); [vm_compute; reflexivity|exact H]. Qed.
Lemma hex_val_digit_up n : n < 16 -> hex_val (hex_digit_up n) = Some n.
Proof. intros H. apply opt_eqb_eq. apply (forall_below 16 (fun n => opt_eqb (hex_val (hex_digit_up n)) n)); [vm_compute; reflexivity|exact H]. Qed.
Lemma hex_roundtrip l : hex_decode_l (hex_encode_l l) = Some l.
Proof.
  induction l as [|a l IH]; cbn [hex_encode_l flat_map hex_byte app hex_decode_l]; [reflexivity|].
  fold (hex_encode_l l). rewrite IH. pose proof (N_of_ascii_lt a).
  rewrite !hex_val_digit by lia. repeat f_equal.
  rewrite <- (ascii_N_embedding a) at 3. f_equal. lia.
Qed.
Lemma hex_encode_inj a b : hex_encode a = hex_encode b -> a = b.
Proof.
  unfold hex_encode. intros H. apply sol_inj in H. apply los_inj.
  pose proof (hex_roundtrip (los a)) as Ha. rewrite H, hex_roundtrip in Ha. congruence.
Qed.
Lemma hex_encode_length s : String.length (hex_encode s) = (2 * String.length s)%nat.
Proof.
  unfold hex_encode. rewrite length_sol, <- length_los. unfold hex_encode_l.
  induction (los s) as [|a l IH]; cbn; [reflexivity|]. rewrite IH. lia.
Qed.

Lemma b64_val_char n : n < 64 -> b64_val (b64_char n) = Some n.
Proof. intros H. apply opt_eqb_eq. apply (forall_below 64 (fun n => opt_eqb (b64_val (b64_char n)) n)); [vm_compute; reflexivity|exact H]. Qed.
Lemma b64_char_nn n : n < 64 -> not_newline (b64_char n) = true.
Proof. intros H. apply (forall_below 64 (fun n => not_newline (b64_char n))); [vm_compute; reflexivity|exact H]. Qed.
Lemma ascii_N_eq a n : N_of_ascii a = n -> ascii_of_N n = a.
Proof. intros <-. apply ascii_N_embedding. Qed.

Lemma b64_val_pad : b64_val "=" = None. Proof. reflexivity. Qed.
Lemma b64_roundtrip_l l : b64_decode_l (b64_encode_l l) = Some l.
Proof.
  unfold b64_decode_l.
  enough (H : forall n l, (List.length l <= n)%nat -> b64_quanta (filter not_newline (b64_encode_l l)) = Some l) by (now apply (H (List.length l))).
  clear l. induction n as [|n IH]; intros l Hl.
  { destruct l; [reflexivity|cbn in Hl; lia]. }
  destruct l as [|a [|b [|c t]]]; [reflexivity| | |].
  - pose proof (N_of_ascii_lt a) as Ha. cbn [b64_encode_l filter].
    rewrite !b64_char_nn by lia. cbn -[b64_val b64_char N.div N.modulo N.mul].
    rewrite !b64_val_char by lia. rewrite b64_val_pad. do 2 f_equal.
    apply ascii_N_eq. lia.
  - pose proof (N_of_ascii_lt a) as Ha. pose proof (N_of_ascii_lt b) as Hb. cbn [b64_encode_l filter].
    rewrite !b64_char_nn by lia. cbn -[b64_val b64_char N.div N.modulo N.mul].
    rewrite !b64_val_char by lia. rewrite b64_val_pad. cbn [Ascii.eqb Bool.eqb].
    repeat f_equal; apply ascii_N_eq; lia.
  - pose proof (N_of_ascii_lt a) as Ha. pose proof (N_of_ascii_lt b) as Hb. pose proof (N_of_ascii_lt c) as Hc.
    cbn [b64_encode_l b64_word app filter].
    rewrite !b64_char_nn by lia. cbn [b64_quanta].
    rewrite !b64_val_char by lia. rewrite IH by (cbn in Hl; lia).
    repeat f_equal; apply ascii_N_eq; lia.
Qed.
Lemma b64_roundtrip s : b64_decode (b64_encode s) = Some s.
Proof.
  unfold b64_decode, b64_encode. rewrite los_sol, b64_roundtrip_l. cbn. now rewrite sol_los.
Qed.

(** Query escaping: inverse and alphabet. *)
Fixpoint query_unescape_l (l : list ascii) : option (list ascii) :=
  match l with
  | [] => Some []
  | a :: t =>
      if Ascii.eqb a "%" then
        match t with
        | x :: y :: t' =>
            match hex_val x, hex_val y, query_unescape_l t' with
            | Some u, Some v, Some r => Some (ascii_of_N (u * 16 + v) :: r)
            | _, _, _ => None
            end
        | _ => None
        end
      else match query_unescape_l t with
           | Some r => Some ((if Ascii.eqb a "+" then " "%char else a) :: r)
           | None => None
           end
  end.
(** [url.QueryUnescape], used only in specifications. *)
Definition query_unescape (s : string) : option string := option_map sol (query_unescape_l (los s)).

Lemma query_safe_not a : query_safe a = true -> Ascii.eqb a "%" = false /\ Ascii.eqb a "+" = false.
Proof.
  intros H. assert (K : implb (query_safe a) (negb (Ascii.eqb a "%") && negb (Ascii.eqb a "+")) = true).
  { revert a H. intros a _. revert a. apply forall_bytes. vm_compute. reflexivity. }
  rewrite H in K. cbn in K. apply andb_prop in K as [K1 K2]. apply negb_true_iff in K1, K2. auto.
Qed.
Lemma query_roundtrip_l l : query_unescape_l (query_escape_l l) = Some l.
Proof.
  induction l as [|a l IH]; [reflexivity|]. cbn [query_escape_l flat_map]. fold (query_escape_l l).
  unfold query_escape_char. destruct (query_safe a) eqn:Hs.
  - apply query_safe_not in Hs as [H1 H2]. cbn [app query_unescape_l]. now rewrite H1, IH, H2.
  - destruct (Ascii.eqb_spec a " ") as [->|Hne].
    + cbn [app query_unescape_l]. rewrite IH. reflexivity.
    + cbn [app query_unescape_l]. change (Ascii.eqb "%" "%") with true. cbv iota.
      pose proof (N_of_ascii_lt a). rewrite !hex_val_digit_up by lia. rewrite IH.
      repeat f_equal. apply ascii_N_eq. lia.
Qed.
Lemma query_roundtrip s : query_unescape (query_escape s) = Some s.
Proof. unfold query_unescape, query_escape. rewrite los_sol, query_roundtrip_l. cbn. now rewrite sol_los. Qed.
(** Escaped text contains only letters, digits and [-_.~+%]. *)
Definition query_char (a : ascii) : bool := query_safe a || Ascii.eqb a "+" || Ascii.eqb a "%".
Lemma hex_up_safe n : n < 16 -> query_char (hex_digit_up n) = true.
Proof. intros H. apply (forall_below 16 (fun n => query_char (hex_digit_up n))); [vm_compute; reflexivity|exact H]. Qed.
Lemma query_escape_chars l : Forall (fun a => query_char a = true) (query_escape_l l).
Proof.
  induction l as [|a l IH]; [constructor|]. cbn [query_escape_l flat_map]. apply Forall_app. split; [|exact IH].
  unfold query_escape_char. pose proof (N_of_ascii_lt a).
  destruct (query_safe a) eqn:Hs; [constructor; [unfold query_char; now rewrite Hs|constructor]|].
  destruct (Ascii.eqb a " "); repeat constructor; apply hex_up_safe; lia.
Qed.

(** Base32: inverse and alphabet. *)
Fixpoint b32_bits (l : list ascii) : option (list bool) :=
  match l with
  | [] => Some []
  | a :: t => match b32_val a, b32_bits t with
              | Some v, Some r => Some (nbits 5 v ++ r)%list
              | _, _ => None
              end
  end.
Fixpoint group8 (fuel : nat) (l : list bool) : list ascii :=
  match fuel with
  | O => []
  | S f => if (List.length l <? 8)%nat then []
           else ascii_of_N (bits_val (firstn 8 l) 0) :: group8 f (skipn 8 l)
  end.
(** Unpadded base32 decoding (specification only): complete groups of 8 bits. *)
Definition b32_decode_l (l : list ascii) : option (list ascii) :=
  match b32_bits l with Some b => Some (group8 (List.length b) b) | None => None end.
Definition b32_decode (s : string) : option string := option_map sol (b32_decode_l (los s)).

Lemma nbits5_val a b c d e : nbits 5 (bits_val [a; b; c; d; e] 0) = [a; b; c; d; e].
Proof. destruct a, b, c, d, e; reflexivity. Qed.
Lemma b32_val_char5 a b c d e :
  b32_val (b32_char (bits_val [a; b; c; d; e] 0)) = Some (bits_val [a; b; c; d; e] 0).
Proof. destruct a, b, c, d, e; reflexivity. Qed.
Lemma byte_bits a : ascii_of_N (bits_val (nbits 8 (N_of_ascii a)) 0) = a.
Proof. destruct a as [[] [] [] [] [] [] [] []]; reflexivity. Qed.

Lemma group5_bits fuel l : (List.length l <= fuel)%nat ->
  exists pad, (List.length pad < 5)%nat /\
    b32_bits (map (fun g => b32_char (bits_val g 0)) (group5 fuel l)) = Some (l ++ pad)%list.
Proof.
  revert l; induction fuel as [|f IH]; intros l Hl.
  - destruct l; [|cbn in Hl; lia]. exists []. cbn. split; [lia|reflexivity].
  - destruct l as [|a l]; [exists []; cbn; split; [lia|reflexivity]|].
    cbn [group5 map b32_bits].
    destruct l as [|b [|c [|d [|e l]]]];
      cbn -[b32_val b32_char bits_val nbits group5];
      rewrite b32_val_char5, nbits5_val.
    + exists [false; false; false; false]. split; [cbn; lia|]. destruct f; reflexivity.
    + exists [false; false; false]. split; [cbn; lia|]. destruct f; reflexivity.
    + exists [false; false]. split; [cbn; lia|]. destruct f; reflexivity.
    + exists [false]. split; [cbn; lia|]. destruct f; reflexivity.
    + destruct (IH l) as (pad & Hp & E); [cbn in Hl; lia|]. exists pad. split; [exact Hp|].
      rewrite E. reflexivity.
Qed.
Lemma bits_of_length l : List.length (bits_of l) = (8 * List.length l)%nat.
Proof. induction l as [|a l IH]; [reflexivity|]. unfold bits_of in *. cbn [flat_map]. rewrite app_length, IH. cbn [nbits List.length]. lia. Qed.
Lemma group8_bits l pad fuel : (List.length pad < 8)%nat -> (List.length l < fuel)%nat ->
  group8 fuel (bits_of l ++ pad)%list = l.
Proof.
  intros Hp. revert fuel; induction l as [|a l IH]; intros fuel Hf; (destruct fuel as [|f]; [cbn in Hf; lia|]).
  - cbn [group8 bits_of flat_map app]. destruct (Nat.ltb_spec (List.length pad) 8); [reflexivity|lia].
  - cbn [group8]. destruct (Nat.ltb_spec (List.length (bits_of (a :: l) ++ pad)) 8) as [Hlt|_].
    + rewrite app_length, bits_of_length in Hlt. cbn [List.length] in Hlt. lia.
    + change (bits_of (a :: l) ++ pad)%list with (nbits 8 (N_of_ascii a) ++ (bits_of l ++ pad))%list.
      change (firstn 8 (nbits 8 (N_of_ascii a) ++ (bits_of l ++ pad))%list) with (nbits 8 (N_of_ascii a)).
      change (skipn 8 (nbits 8 (N_of_ascii a) ++ (bits_of l ++ pad))%list) with (bits_of l ++ pad)%list.
      rewrite byte_bits, IH; [reflexivity|cbn in Hf; lia].
Qed.
Lemma b32_roundtrip s : b32_decode (b32_encode s) = Some s.
Proof.
  unfold b32_decode, b32_encode, b32_decode_l, b32_encode_l. rewrite los_sol.
  destruct (group5_bits (List.length (bits_of (los s))) (bits_of (los s)) (le_n _)) as (pad & Hp & E).
  rewrite E. cbn [option_map]. f_equal. transitivity (sol (los s)); [|apply sol_los]. f_equal.
  destruct (los s) as [|a l] eqn:El.
  - cbn in E. injection E as <-. reflexivity.
  - apply group8_bits; [lia|]. rewrite app_length, bits_of_length. cbn [List.length]. lia.
Qed.
Lemma b32_char_alnum n : n < 32 -> is_alnum (b32_char n) = true.
Proof. intros H. apply (forall_below 32 (fun n => is_alnum (b32_char n))); [vm_compute; reflexivity|exact H]. Qed.
Lemma group5_len fuel l : Forall (fun g => List.length g <= 5)%nat (group5 fuel l).
Proof.
  revert l; induction fuel as [|f IH]; intros l; cbn [group5]; [constructor|].
  destruct l as [|a l]; [constructor|]. constructor; [|apply IH].
  rewrite firstn_length. lia.
Qed.
Lemma bits_val_bound l acc : bits_val l acc < (acc + 1) * 2 ^ N.of_nat (List.length l).
Proof.
  revert acc; induction l as [|b l IH]; intros acc; cbn [bits_val List.length].
  - change (2 ^ N.of_nat 0) with 1. lia.
  - specialize (IH (2 * acc + (if b then 1 else 0))). rewrite Nat2N.inj_succ, N.pow_succ_r'.
    set (p := 2 ^ _) in *. destruct b; nia.
Qed.
Lemma b32_chars l : Forall (fun a => is_alnum a = true) (b32_encode_l l).
Proof.
  unfold b32_encode_l. apply Forall_map.
  eapply Forall_impl; [|apply group5_len]. intros g Hg. apply b32_char_alnum.
  pose proof (bits_val_bound g 0) as Hb.
  apply N.lt_le_trans with (1 := Hb). change 32 with ((0 + 1) * 2 ^ 5).
  apply N.mul_le_mono_l, N.pow_le_mono_r; [discriminate|]. cbn beta in Hg. lia.
Qed.
