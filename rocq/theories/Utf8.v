(** UTF-8 as Go's [unicode/utf8] decodes it, and [strings.ToLower]. *)
From Coq Require Import String Ascii ZArith NArith Lia Bool Arith List.
From Coq Require Import ZifyBool ZifyNat ZifyN.
From Verif Require Import GoStr.
Import ListNotations.
Open Scope N_scope.

(** One decoded element of a byte string: a code point with its bytes, or one
    byte that does not start a valid encoding ([utf8.DecodeRune] returns
    [RuneError] with width 1). *)
Inductive chunk := Rune (r : N) (bs : list ascii) | Bad (b : ascii).

Definition in_range (a : ascii) (lo hi : N) : bool :=
  let n := N_of_ascii a in (lo <=? n) && (n <=? hi).
Definition low6 (a : ascii) : N := N_of_ascii a mod 64.

(** Admissible range of the second byte of a three or four byte encoding. *)
Definition second3 (a b : ascii) : bool :=
  let n := N_of_ascii a in
  if n =? 224 then in_range b 160 191
  else if n =? 237 then in_range b 128 159
  else in_range b 128 191.
Definition second4 (a b : ascii) : bool :=
  let n := N_of_ascii a in
  if n =? 240 then in_range b 144 191
  else if n =? 244 then in_range b 128 143
  else in_range b 128 191.

Definition rune2 (a b : ascii) : N := (N_of_ascii a mod 32) * 64 + low6 b.
Definition rune3 (a b c : ascii) : N := (N_of_ascii a mod 16) * 4096 + low6 b * 64 + low6 c.
Definition rune4 (a b c d : ascii) : N :=
  (N_of_ascii a mod 8) * 262144 + low6 b * 4096 + low6 c * 64 + low6 d.

(** Iterated [utf8.DecodeRuneInString]. *)
Fixpoint chunks (l : list ascii) : list chunk :=
  match l with
  | [] => []
  | a :: t1 =>
      if N_of_ascii a <? 128 then Rune (N_of_ascii a) [a] :: chunks t1
      else if in_range a 194 223 then
        match t1 with
        | b :: t2 => if in_range b 128 191 then Rune (rune2 a b) [a; b] :: chunks t2
                     else Bad a :: chunks t1
        | _ => Bad a :: chunks t1
        end
      else if in_range a 224 239 then
        match t1 with
        | b :: c :: t3 =>
            if second3 a b && in_range c 128 191
            then Rune (rune3 a b c) [a; b; c] :: chunks t3
            else Bad a :: chunks t1
        | _ => Bad a :: chunks t1
        end
      else if in_range a 240 244 then
        match t1 with
        | b :: c :: d :: t4 =>
            if second4 a b && in_range c 128 191 && in_range d 128 191
            then Rune (rune4 a b c d) [a; b; c; d] :: chunks t4
            else Bad a :: chunks t1
        | _ => Bad a :: chunks t1
        end
      else Bad a :: chunks t1
  end.

(** U+FFFD in UTF-8. *)
Definition fffd : list ascii := bytes [239; 191; 189].
Definition chunk_bytes (c : chunk) : list ascii := match c with Rune _ bs => bs | Bad b => [b] end.
Definition chunk_fix (c : chunk) : list ascii := match c with Rune _ bs => bs | Bad _ => fffd end.
Definition is_rune (c : chunk) : bool := match c with Rune _ _ => true | Bad _ => false end.

(** [utf8.ValidString]. *)
Definition valid_utf8_l (l : list ascii) : bool := forallb is_rune (chunks l).
Definition valid_utf8 (s : string) : bool := valid_utf8_l (los s).

(** Replacement of every undecodable byte by U+FFFD, as [encoding/json] does. *)
Definition sanitize_l (l : list ascii) : list ascii := flat_map chunk_fix (chunks l).
Definition sanitize (s : string) : string := sol (sanitize_l (los s)).

(** [utf8.EncodeRune]: surrogates and out of range values encode U+FFFD. *)
Definition scalar (r : N) : bool := (r <? 55296) || ((57344 <=? r) && (r <? 1114112)).
Definition encode_rune (r : N) : list ascii :=
  if r <? 128 then bytes [r]
  else if r <? 2048 then bytes [192 + r / 64; 128 + r mod 64]
  else if negb (scalar r) then fffd
  else if r <? 65536 then bytes [224 + r / 4096; 128 + (r / 64) mod 64; 128 + r mod 64]
  else bytes [240 + r / 262144; 128 + (r / 4096) mod 64; 128 + (r / 64) mod 64; 128 + r mod 64].

(** [strings.ToLower] (database.go:162,172,274,281,394,407,421, mfa_token.go:118,
    pkg/qr/qr.go:78): ASCII strings are lowered bytewise; other strings go
    through [strings.Map(unicode.ToLower, s)], which decodes, maps each code
    point and re-encodes (undecodable bytes become U+FFFD).  The Unicode case
    table beyond ASCII is the parameter [lr]. *)
Definition ascii_only (l : list ascii) : bool := forallb is_ascii7 l.
Definition lower_chunk (lr : N -> N) (c : chunk) : list ascii :=
  match c with
  | Rune r _ => encode_rune (if r <? 128 then N_of_ascii (lower_ascii (ascii_of_N r)) else lr r)
  | Bad _ => encode_rune (lr 65533)
  end.
Definition to_lower_l (lr : N -> N) (l : list ascii) : list ascii :=
  if ascii_only l then map lower_ascii l else flat_map (lower_chunk lr) (chunks l).
Definition to_lower (lr : N -> N) (s : string) : string := sol (to_lower_l lr (los s)).

(** * Lemmas *)

Ltac dif := match goal with |- context [if ?b then _ else _] => destruct b eqn:? end.

Lemma chunks_bytes l : flat_map chunk_bytes (chunks l) = l.
Proof.
  enough (H : forall n l, (List.length l <= n)%nat -> flat_map chunk_bytes (chunks l) = l) by (now apply (H (List.length l))).
  clear l. induction n as [|n IH]; intros l Hl.
  - destruct l; [reflexivity|cbn in Hl; lia].
  - destruct l as [|a t1]; [reflexivity|]. cbn in Hl. cbn [chunks].
    assert (H1 : flat_map chunk_bytes (chunks t1) = t1) by (apply IH; lia).
    dif; [cbn; now rewrite H1|]. dif.
    { destruct t1 as [|b t2]; [reflexivity|]. dif; [|cbn [flat_map chunk_bytes]; now rewrite H1].
      cbn [flat_map chunk_bytes app]. rewrite IH; [reflexivity|cbn in Hl; lia]. }
    dif.
    { destruct t1 as [|b [|c t3]]; try (cbn [flat_map chunk_bytes]; now rewrite H1).
      dif; [|cbn [flat_map chunk_bytes]; now rewrite H1].
      cbn [flat_map chunk_bytes app]. rewrite IH; [reflexivity|cbn in Hl; lia]. }
    dif.
    { destruct t1 as [|b [|c [|d t4]]]; try (cbn [flat_map chunk_bytes]; now rewrite H1).
      dif; [|cbn [flat_map chunk_bytes]; now rewrite H1].
      cbn [flat_map chunk_bytes app]. rewrite IH; [reflexivity|cbn in Hl; lia]. }
    cbn [flat_map chunk_bytes]; now rewrite H1.
Qed.

Lemma in_range_spec a lo hi : in_range a lo hi = true <-> lo <= N_of_ascii a <= hi.
Proof. unfold in_range. rewrite andb_true_iff, !N.leb_le. reflexivity. Qed.

(** A self-contained encoded code point. *)
Definition encoded (r : N) (bs : list ascii) : Prop :=
  forall rest, chunks (bs ++ rest)%list = Rune r bs :: chunks rest.

Lemma encoded1 a : N_of_ascii a < 128 -> encoded (N_of_ascii a) [a].
Proof. intros H rest. cbn. apply N.ltb_lt in H. now rewrite H. Qed.
Lemma encoded2 a b :
  in_range a 194 223 = true -> in_range b 128 191 = true -> encoded (rune2 a b) [a; b].
Proof.
  intros Ha Hb rest. cbn [app chunks]. rewrite Ha, Hb.
  apply in_range_spec in Ha. destruct (N.ltb_spec (N_of_ascii a) 128); [lia|reflexivity].
Qed.
Lemma encoded3 a b c :
  in_range a 224 239 = true -> second3 a b = true -> in_range c 128 191 = true ->
  encoded (rune3 a b c) [a; b; c].
Proof.
  intros Ha Hb Hc rest. cbn [app chunks]. rewrite Ha, Hb, Hc.
  apply in_range_spec in Ha. destruct (N.ltb_spec (N_of_ascii a) 128); [lia|].
  destruct (in_range a 194 223) eqn:E; [|reflexivity]. apply in_range_spec in E; lia.
Qed.
Lemma encoded4 a b c d :
  in_range a 240 244 = true -> second4 a b = true -> in_range c 128 191 = true ->
  in_range d 128 191 = true -> encoded (rune4 a b c d) [a; b; c; d].
Proof.
  intros Ha Hb Hc Hd rest. cbn [app chunks]. rewrite Ha, Hb, Hc, Hd.
  apply in_range_spec in Ha. destruct (N.ltb_spec (N_of_ascii a) 128); [lia|].
  destruct (in_range a 194 223) eqn:E; [apply in_range_spec in E; lia|].
  destruct (in_range a 224 239) eqn:E2; [apply in_range_spec in E2; lia|]. reflexivity.
Qed.

Lemma chunks_encoded l : Forall (fun c => match c with Rune r bs => encoded r bs | Bad b => 128 <= N_of_ascii b end) (chunks l).
Proof.
  enough (H : forall n l, (List.length l <= n)%nat -> Forall (fun c => match c with Rune r bs => encoded r bs | Bad b => 128 <= N_of_ascii b end) (chunks l)) by (now apply (H (List.length l))).
  clear l. induction n as [|n IH]; intros l Hl.
  - destruct l; [constructor|cbn in Hl; lia].
  - destruct l as [|a t1]; [constructor|]. cbn in Hl. cbn [chunks].
    assert (H1 := IH t1 ltac:(lia)).
    dif; [constructor; [now apply encoded1, N.ltb_lt|exact H1]|].
    assert (Hge : 128 <= N_of_ascii a) by (now apply N.ltb_ge).
    dif.
    { destruct t1 as [|b t2]; [now constructor|]. dif; [|now constructor].
      constructor; [now apply encoded2|]. apply IH. cbn in Hl; lia. }
    dif.
    { destruct t1 as [|b [|c t3]]; try (now constructor).
      dif; [|now constructor]. apply andb_prop in Heqb2 as [??].
      constructor; [now apply encoded3|]. apply IH. cbn in Hl; lia. }
    dif.
    { destruct t1 as [|b [|c [|d t4]]]; try (now constructor).
      dif; [|now constructor]. apply andb_prop in Heqb3 as [Hx ?]. apply andb_prop in Hx as [??].
      constructor; [now apply encoded4|]. apply IH. cbn in Hl; lia. }
    now constructor.
Qed.

Lemma encoded_ne r bs : encoded r bs -> bs <> [].
Proof. intros H ->. specialize (H []). cbn in H. discriminate. Qed.

Lemma N_of_ascii_of_N n : n < 256 -> N_of_ascii (ascii_of_N n) = n.
Proof. apply N_ascii_embedding. Qed.
Lemma N_of_ascii_lt a : N_of_ascii a < 256.
Proof. apply N_ascii_bounded. Qed.

Local Ltac Zify.zify_post_hook ::= Z.div_mod_to_equations.

Lemma encode_rune_encoded r : scalar r = true -> encoded r (encode_rune r).
Proof.
  intros Hs. pose proof Hs as Hr. unfold scalar in Hr.
  apply orb_prop in Hr. rewrite andb_true_iff in Hr.
  rewrite !N.ltb_lt, N.leb_le in Hr.
  unfold encode_rune, bytes. cbn [map].
  destruct (N.ltb_spec r 128).
  { intros rest. cbn [app chunks]. rewrite N_of_ascii_of_N by lia.
    destruct (N.ltb_spec r 128); [reflexivity|lia]. }
  destruct (N.ltb_spec r 2048).
  { assert (E : r = rune2 (ascii_of_N (192 + r / 64)) (ascii_of_N (128 + r mod 64))).
    { unfold rune2, low6. rewrite !N_of_ascii_of_N by lia. lia. }
    rewrite E at 1. apply encoded2; apply in_range_spec; rewrite N_of_ascii_of_N; lia. }
  rewrite Hs. cbn [negb].
  destruct (N.ltb_spec r 65536).
  { assert (E : r = rune3 (ascii_of_N (224 + r / 4096)) (ascii_of_N (128 + (r / 64) mod 64)) (ascii_of_N (128 + r mod 64))).
    { unfold rune3, low6. rewrite !N_of_ascii_of_N by lia. lia. }
    rewrite E at 1. apply encoded3; [apply in_range_spec; rewrite N_of_ascii_of_N; lia| |apply in_range_spec; rewrite N_of_ascii_of_N; lia].
    unfold second3. rewrite N_of_ascii_of_N by lia.
    destruct (N.eqb_spec (224 + r / 4096) 224); [apply in_range_spec; rewrite N_of_ascii_of_N; lia|].
    destruct (N.eqb_spec (224 + r / 4096) 237); apply in_range_spec; rewrite N_of_ascii_of_N; lia. }
  assert (E : r = rune4 (ascii_of_N (240 + r / 262144)) (ascii_of_N (128 + (r / 4096) mod 64)) (ascii_of_N (128 + (r / 64) mod 64)) (ascii_of_N (128 + r mod 64))).
  { unfold rune4, low6. rewrite !N_of_ascii_of_N by lia. lia. }
  rewrite E at 1. apply encoded4; [apply in_range_spec; rewrite N_of_ascii_of_N; lia| |apply in_range_spec; rewrite N_of_ascii_of_N; lia|apply in_range_spec; rewrite N_of_ascii_of_N; lia].
  unfold second4. rewrite N_of_ascii_of_N by lia.
  destruct (N.eqb_spec (240 + r / 262144) 240); [apply in_range_spec; rewrite N_of_ascii_of_N; lia|].
  destruct (N.eqb_spec (240 + r / 262144) 244); apply in_range_spec; rewrite N_of_ascii_of_N; lia.
Qed.

Lemma fffd_encode : fffd = encode_rune 65533. Proof. reflexivity. Qed.
Lemma fffd_encoded : encoded 65533 fffd.
Proof. rewrite fffd_encode. now apply encode_rune_encoded. Qed.

(** Every output of [encode_rune] is a valid encoding. *)
Lemma encode_rune_valid r : exists r', encoded r' (encode_rune r).
Proof.
  destruct (scalar r) eqn:E; [exists r; now apply encode_rune_encoded|].
  exists 65533. unfold encode_rune. rewrite E.
  pose proof E as E'. unfold scalar in E'. apply orb_false_iff in E' as [E1 _]. apply N.ltb_ge in E1.
  destruct (N.ltb_spec r 128); [lia|]. destruct (N.ltb_spec r 2048); [lia|]. cbn [negb]. apply fffd_encoded.
Qed.

Lemma chunks_app_encoded cs l :
  Forall (fun c => match c with Rune r bs => encoded r bs | Bad _ => False end) cs ->
  chunks (flat_map chunk_bytes cs ++ l)%list = (cs ++ chunks l)%list.
Proof.
  induction 1 as [|c cs Hc _ IH]; cbn; [reflexivity|].
  destruct c as [r bs|]; [|contradiction]. cbn. rewrite <- app_assoc, Hc. now rewrite IH.
Qed.
Lemma valid_chunks l : valid_utf8_l l = true ->
  Forall (fun c => match c with Rune r bs => encoded r bs | Bad _ => False end) (chunks l).
Proof.
  intros H. unfold valid_utf8_l in H. rewrite forallb_forall in H.
  pose proof (chunks_encoded l) as HE. rewrite Forall_forall in *.
  intros c Hc. specialize (H c Hc). specialize (HE c Hc). destruct c; [assumption|discriminate].
Qed.
Lemma valid_app a b : valid_utf8_l a = true -> chunks (a ++ b)%list = (chunks a ++ chunks b)%list.
Proof. intros H. rewrite <- (chunks_bytes a) at 1. apply chunks_app_encoded. now apply valid_chunks. Qed.
Lemma valid_utf8_l_app a b : valid_utf8_l a = true -> valid_utf8_l b = true -> valid_utf8_l (a ++ b)%list = true.
Proof.
  intros Ha Hb. unfold valid_utf8_l in *. rewrite valid_app by assumption.
  rewrite forallb_app, Ha, Hb. reflexivity.
Qed.
Lemma valid_utf8_app a b : valid_utf8 a = true -> valid_utf8 b = true -> valid_utf8 (a ++ b) = true.
Proof. unfold valid_utf8. rewrite los_app. apply valid_utf8_l_app. Qed.
Lemma sanitize_valid s : valid_utf8 s = true -> sanitize s = s.
Proof.
  unfold valid_utf8, sanitize, valid_utf8_l, sanitize_l. intros H. rewrite <- (sol_los s) at 2. f_equal.
  rewrite <- (chunks_bytes (los s)) at 2. rewrite forallb_forall in H.
  induction (chunks (los s)) as [|c cs IH]; cbn; [reflexivity|].
  rewrite IH by (intros; apply H; now right). specialize (H c (or_introl eq_refl)).
  destruct c; [reflexivity|discriminate].
Qed.
Lemma valid_flat_map {A} (f : A -> list ascii) l :
  (forall x, valid_utf8_l (f x) = true) -> valid_utf8_l (flat_map f l) = true.
Proof. intros H. induction l as [|x l IH]; cbn; [reflexivity|]. now apply valid_utf8_l_app. Qed.
Lemma encoded_valid r bs : encoded r bs -> valid_utf8_l bs = true.
Proof. intros H. unfold valid_utf8_l. rewrite <- (app_nil_r bs), H. reflexivity. Qed.
Lemma sanitize_is_valid s : valid_utf8 (sanitize s) = true.
Proof.
  unfold valid_utf8, sanitize. rewrite los_sol. unfold sanitize_l.
  pose proof (chunks_encoded (los s)) as HE.
  induction HE as [|c cs Hc _ IH]; cbn; [reflexivity|].
  apply valid_utf8_l_app; [|exact IH]. destruct c; cbn; [now apply encoded_valid in Hc|reflexivity].
Qed.

Lemma ascii_chunks l : ascii_only l = true -> chunks l = map (fun a => Rune (N_of_ascii a) [a]) l.
Proof.
  induction l as [|a l IH]; cbn; [reflexivity|]. intros H. apply andb_prop in H as [Ha Hl].
  unfold is_ascii7 in Ha. rewrite Ha. now rewrite IH.
Qed.
Lemma ascii_valid l : ascii_only l = true -> valid_utf8_l l = true.
Proof. intros H. unfold valid_utf8_l. rewrite ascii_chunks by assumption. apply forallb_forall. intros c Hc. apply in_map_iff in Hc as (a & <- & _). reflexivity. Qed.

Lemma lower_ascii_idem a : lower_ascii (lower_ascii a) = lower_ascii a.
Proof. destruct a as [[] [] [] [] [] [] [] []]; reflexivity. Qed.
Lemma lower_ascii_7 a : is_ascii7 (lower_ascii a) = is_ascii7 a.
Proof. destruct a as [[] [] [] [] [] [] [] []]; reflexivity. Qed.
Lemma to_lower_ascii lr s : ascii_only (los s) = true -> to_lower lr s = sol (map lower_ascii (los s)).
Proof. intros H. unfold to_lower, to_lower_l. now rewrite H. Qed.
Lemma to_lower_ascii_length lr s : ascii_only (los s) = true -> String.length (to_lower lr s) = String.length s.
Proof. intros H. rewrite to_lower_ascii by assumption. rewrite length_sol, map_length. apply length_los. Qed.
Lemma to_lower_ascii_idem lr s : ascii_only (los s) = true -> to_lower lr (to_lower lr s) = to_lower lr s.
Proof.
  intros H. assert (H2 : ascii_only (los (to_lower lr s)) = true).
  { rewrite to_lower_ascii, los_sol by assumption. unfold ascii_only in *. rewrite forallb_forall in *.
    intros x Hx. apply in_map_iff in Hx as (y & <- & Hy). rewrite lower_ascii_7. auto. }
  rewrite (to_lower_ascii lr _ H2). rewrite to_lower_ascii, los_sol by assumption.
  rewrite map_map. f_equal. apply map_ext. apply lower_ascii_idem.
Qed.
Lemma to_lower_nil lr : to_lower lr "" = ""%string.
Proof. reflexivity. Qed.
Lemma to_lower_valid lr s : valid_utf8 (to_lower lr s) = true.
Proof.
  unfold valid_utf8, to_lower. rewrite los_sol. unfold to_lower_l.
  destruct (ascii_only (los s)) eqn:E.
  - apply ascii_valid. unfold ascii_only in *. rewrite forallb_forall in *.
    intros x Hx. apply in_map_iff in Hx as (y & <- & Hy). rewrite lower_ascii_7. auto.
  - apply valid_flat_map. intros [r bs|b]; cbn [lower_chunk].
    + destruct (encode_rune_valid (if r <? 128 then N_of_ascii (lower_ascii (ascii_of_N r)) else lr r)) as (r' & H).
      now apply encoded_valid in H.
    + destruct (encode_rune_valid (lr 65533)) as (r' & H). now apply encoded_valid in H.
Qed.
