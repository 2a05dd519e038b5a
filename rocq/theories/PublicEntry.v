(** Proofs about public key entries (C123). *)
From Coq Require Import String Ascii ZArith NArith Lia Bool Arith List.
From stdpp Require Import gmap strings.
From RecordUpdate Require Import RecordSet.
From Verif Require Import GoStr Utf8 Codec GoErr Random Types Env PublicKey Fs Database System SpecDb SpecKey SpecMfa SpecRefuse SpecPublic.
From Verif Require Import DbFacts AccountFacts StepFacts PublicKeyFacts WebAuthnFacts TokenFacts RefuseFacts.
Import ListNotations.
Import RecordSetNotations.
Open Scope string_scope.
#[local] Opaque trim_space.

(** ** Texts *)
Lemma leading_iff cut l l' : trim_left_cut_l cut l = l' <-> without_leading cut l l'.
Proof.
  split.
  - intros H. subst l'. induction l as [|a l IH]; [constructor|]. cbn [trim_left_cut_l]. destruct (existsb (Ascii.eqb a) cut) eqn:X.
    + apply existsb_exists in X as (b & Hb & Eb). apply Ascii.eqb_eq in Eb as <-. now apply WlDrop.
    + apply WlKeep. intros H. assert (existsb (Ascii.eqb a) cut = true) by (apply existsb_exists; exists a; split; [exact H|apply Ascii.eqb_refl]). congruence.
  - intros H. induction H as [|a l l' H _ IH|a l H]; [reflexivity| |]; cbn [trim_left_cut_l].
    + assert (existsb (Ascii.eqb a) cut = true) as -> by (apply existsb_exists; exists a; split; [exact H|apply Ascii.eqb_refl]). exact IH.
    + destruct (existsb (Ascii.eqb a) cut) eqn:X; [|reflexivity]. apply existsb_exists in X as (b & Hb & Eb). apply Ascii.eqb_eq in Eb as <-. contradiction.
Qed.
Lemma leading_text s cut s' : trim_left_cut s cut = s' <-> without_leading (los cut) (los s) (los s').
Proof. unfold trim_left_cut. rewrite <- leading_iff. split; [intros <-; now rewrite los_sol|intros ->; apply sol_los]. Qed.
Lemma text_iff p fuel l l' : p <> [] -> (List.length l <= fuel)%nat -> replace_all_l fuel p [] l = l' <-> without_text p l l'.
Proof.
  intros Np L. split.
  - intros <-. revert l L. induction fuel as [|f IH]; intros l L; [destruct l; [constructor|cbn in L; lia]|]. cbn [replace_all_l]. destruct (strip_prefix p l) as [r|] eqn:X.
    + apply strip_prefix_spec in X. subst l. cbn [app]. apply WtDrop. apply IH. rewrite app_length in L. destruct p; [contradiction|cbn in L; lia].
    + destruct l as [|a l]; [constructor|]. apply WtKeep; [|apply IH; cbn in L; lia]. intros t Ht. apply strip_prefix_spec in Ht. congruence.
  - intros H. revert fuel L. induction H as [|l l' H IH|a l l' N H IH]; intros f L.
    + destruct f; [reflexivity|]. cbn [replace_all_l]. destruct (strip_prefix p []) as [r|] eqn:X; [|reflexivity]. apply strip_prefix_spec in X. destruct p; [contradiction|discriminate].
    + destruct f as [|f]; [destruct p; [contradiction|cbn in L; lia]|]. cbn [replace_all_l]. assert (X : strip_prefix p (p ++ l)%list = Some l) by now apply strip_prefix_spec.
      rewrite X. cbn [app]. apply IH. rewrite app_length in L. destruct p; [contradiction|cbn in L; lia].
    + destruct f as [|f]; [cbn in L; lia|]. cbn [replace_all_l]. destruct (strip_prefix p (a :: l)) as [r|] eqn:X; [apply strip_prefix_spec in X; destruct (N r X)|].
      f_equal. apply IH. cbn in L. lia.
Qed.
Lemma text_text s p s' : p <> "" -> replace_all s p "" = s' <-> without_text (los p) (los s) (los s').
Proof.
  intros Np. unfold replace_all. rewrite <- (text_iff (los p) (String.length s) (los s) (los s')).
  - change (los "") with (@nil ascii). split; [intros <-; now rewrite los_sol|intros ->; apply sol_los].
  - destruct p; [contradiction|discriminate].
  - rewrite length_los. lia.
Qed.
Lemma hex_digit_at d : (d < 16)%N -> lower_hex !! N.to_nat d = Some (hex_digit d).
Proof. intros H. destruct d as [|p]; [reflexivity|]. do 4 (try destruct p as [p|p|]); try reflexivity; lia. Qed.
Lemma lower_hex_at d a : lower_hex !! N.to_nat d = Some a -> (d < 16)%N /\ a = hex_digit d.
Proof.
  intros H. assert (L : (d < 16)%N). { apply lookup_lt_Some in H. change (List.length lower_hex) with 16%nat in H. lia. }
  split; [exact L|]. rewrite (hex_digit_at d L) in H. now injection H.
Qed.
Lemma numeral_nil n : numeral16 [] n -> n = 0%N.
Proof. intros H. inversion H as [|l n0 d a _ _ X]; [reflexivity|]. destruct l; discriminate. Qed.
Lemma numeral_snoc l a n : numeral16 (l ++ [a])%list n -> exists n0 d, numeral16 l n0 /\ (d < 16)%N /\ a = hex_digit d /\ n = (n0 * 16 + d)%N.
Proof.
  intros H. inversion H as [X|l0 n0 d a0 N0 D X Y]; [destruct l; discriminate|]. apply app_inj_tail in X as [-> ->]. apply lower_hex_at in D as [D1 D2]. eauto 8.
Qed.
Lemma hex_zero d : (d < 16)%N -> "0"%char = hex_digit d -> d = 0%N.
Proof. intros L H. destruct d as [|p]; [reflexivity|exfalso]. do 4 (try destruct p as [p|p|]); try discriminate H; lia. Qed.
Lemma hex_fuel_numeral f : forall n, (n < 16 ^ N.of_nat f)%N -> (0 < f)%nat -> shortest16 (hex_fuel f n) n.
Proof.
  induction f as [|f IH]; intros n L Z; [lia|]. cbn [hex_fuel]. destruct (N.ltb_spec n 16) as [H|H].
  - split; [|exists (hex_digit n), []; auto]. change [hex_digit n] with ([] ++ [hex_digit n])%list. replace n with (0 * 16 + n)%N at 2 by lia. constructor; [constructor|now apply hex_digit_at].
  - assert (Q : (n / 16 < 16 ^ N.of_nat f)%N). { apply N.div_lt_upper_bound; [lia|]. replace (N.of_nat (S f)) with (N.succ (N.of_nat f)) in L by lia. rewrite N.pow_succ_r' in L. lia. }
    assert (Zf : (0 < f)%nat). { destruct f; [|lia]. cbn in Q. pose proof (N.div_le_lower_bound n 16 1). lia. }
    destruct (IH _ Q Zf) as (Nm & a & t & Ht & Hz). split.
    + rewrite (N.div_mod n 16) at 3 by lia. rewrite N.mul_comm. constructor; [exact Nm|]. apply hex_digit_at. apply N.mod_lt. lia.
    + exists a, (t ++ [hex_digit (n mod 16)])%list. rewrite Ht. split; [reflexivity|]. intros Ha. exfalso. specialize (Hz Ha). subst.
      rewrite Ht in Nm. apply (numeral_snoc [] "0"%char) in Nm as (n0 & d & N0 & D & Hd & Hn). apply numeral_nil in N0. apply hex_zero in Hd; [|exact D].
      pose proof (N.div_le_lower_bound n 16 1 ltac:(lia) ltac:(lia)). lia.
Qed.
Lemma numeral_pos l n : shortest16 l n -> (exists b t, l = (b :: t)%list /\ b <> "0"%char) -> (0 < n)%N.
Proof.
  intros [H _]. induction H as [|l n d a H IH D]; intros (b & t & X & Nb); [discriminate|]. destruct l as [|c l].
  - cbn in X. injection X as -> _. apply lower_hex_at in D as [D ->]. destruct d; [|lia]. destruct Nb. reflexivity.
  - cbn in X. injection X as -> <-. assert (0 < n)%N by (apply IH; eauto). lia.
Qed.
Lemma numeral_fuel l n : shortest16 l n -> forall f, (n < 16 ^ N.of_nat f)%N -> (0 < f)%nat -> hex_fuel f n = l.
Proof.
  intros [H (a & t & Hl & Hz)]. revert a t Hl Hz. induction H as [|l n d x H IH D]; intros a t Hl Hz f L Z; [discriminate|]. destruct f as [|f]; [lia|]. apply lower_hex_at in D as [D ->]. cbn [hex_fuel].
  destruct l as [|c l].
  - apply numeral_nil in H. subst n. replace (0 * 16 + d)%N with d by lia. destruct (N.ltb_spec d 16); [reflexivity|lia].
  - cbn in Hl. injection Hl as -> <-. assert (Na : a <> "0"%char) by (intros X; specialize (Hz X); destruct l; discriminate).
    assert (P : (0 < n)%N). { apply (numeral_pos (a :: l) n); [|eauto]. split; [exact H|]. exists a, l. split; [reflexivity|]. intros X. contradiction. }
    destruct (N.ltb_spec (n * 16 + d) 16) as [X|X]; [lia|]. assert ((n * 16 + d) / 16 = n)%N as -> by (symmetry; apply (N.div_unique _ 16 n d); lia).
    assert ((n * 16 + d) mod 16 = d)%N as -> by (symmetry; apply (N.mod_unique _ 16 n d); lia).
    replace (N.of_nat (S f)) with (N.succ (N.of_nat f)) in L by lia. rewrite N.pow_succ_r' in L.
    rewrite (IH a l eq_refl); [reflexivity| | |]; [intros Y; contradiction|lia|]. destruct f; [cbn in L; lia|lia].
Qed.
Lemma size_16 n : (n < 16 ^ N.of_nat (S (N.size_nat n)))%N.
Proof.
  assert (H : (n < 2 ^ N.of_nat (N.size_nat n))%N).
  { destruct n as [|p]; [reflexivity|]. cbn [N.size_nat]. induction p as [p IH|p IH|]; [| |reflexivity]; cbn [Pos.size_nat];
      replace (N.of_nat (S (Pos.size_nat p))) with (N.succ (N.of_nat (Pos.size_nat p))) by lia; rewrite N.pow_succ_r'; lia. }
  eapply N.lt_le_trans; [exact H|]. etransitivity; [apply (N.pow_le_mono_l 2 16); lia|]. apply N.pow_le_mono_r; lia.
Qed.
Lemma format_hex_iff n s : s = format_hex n <-> shortest16 (los s) n.
Proof.
  unfold format_hex. split.
  - intros ->. rewrite los_sol. apply hex_fuel_numeral; [apply size_16|lia].
  - intros H. rewrite (numeral_fuel _ _ H); [symmetry; apply sol_los|apply size_16|lia].
Qed.
(** ** Words *)
Definition blank_split (l x y : list ascii) : Prop := l = (x ++ y)%list /\ Forall (fun a => ~ blank_char a) x /\ (y = [] \/ exists a u, y = a :: u /\ blank_char a).
Lemma split_iff l : forall x y, blank_split l x y <-> match cut_blank l with None => x = l /\ y = [] | Some (x', y') => x = x' /\ y = y' end.
Proof.
  unfold blank_split. induction l as [|c l IH]; intros x y; cbn [cut_blank].
  - split; [intros (X & _); destruct x, y; try discriminate; auto|intros [-> ->]; split; [reflexivity|]; split; [constructor|now left]].
  - assert (B : (Ascii.eqb c " " || Ascii.eqb c "009") = true <-> blank_char c).
    { unfold blank_char. rewrite orb_true_iff, !Ascii.eqb_eq. reflexivity. }
    destruct (_ || _).
    + assert (Bc : blank_char c) by now apply B. split.
      * intros (X & F & Y). destruct x as [|d x]; [auto|]. injection X as <- X. inversion F; contradiction.
      * intros [-> ->]. split; [reflexivity|]. split; [constructor|]. right. eauto.
    + assert (Bc : ~ blank_char c) by (intros H; apply B in H; discriminate). destruct (cut_blank l) as [[x' y']|] eqn:C; rewrite ?C in IH.
      * split.
        -- intros (X & F & Y). destruct x as [|d x]; [exfalso; cbn in X; destruct Y as [->|(a & u & -> & Ba)]; [discriminate|injection X as <- _; contradiction]|].
           injection X as <- X. inversion F; subst. destruct (proj1 (IH x y)) as [-> ->]; [split; [reflexivity|split; assumption]|]; auto.
        -- intros [-> ->]. destruct (proj2 (IH x' y') (conj eq_refl eq_refl)) as (X & F & Y). split; [cbn; now rewrite X|]. split; [now constructor|exact Y].
      * split.
        -- intros (X & F & Y). destruct x as [|d x]; [exfalso; cbn in X; destruct Y as [->|(a & u & -> & Ba)]; [discriminate|injection X as <- _; contradiction]|].
           injection X as <- X. inversion F; subst. destruct (proj1 (IH x y)) as [P Q]; [split; [reflexivity|split; assumption]|]. split; [now f_equal|exact Q].
        -- intros [-> ->]. destruct (proj2 (IH l []) (conj eq_refl eq_refl)) as (X & F & Y). split; [now rewrite app_nil_r|]. split; [now constructor|now left].
Qed.
Lemma line_iff s word rest : ssh_line s word rest <-> exists t, trim_space s = "ssh-rsa" ++ t /\ blank_split (los (trim_space t)) (los word) (los rest).
Proof.
  unfold ssh_line, blank_split. split; intros (t & A & B & C & D); exists t; (split; [exact A|]).
  - split; [now rewrite B, los_app|]. split; [exact C|]. destruct D as [->|D]; [now left|now right].
  - split; [apply los_inj; now rewrite los_app|]. split; [exact C|]. destruct D as [D|D]; [left; now apply los_inj|now right].
Qed.
(** ** Entries *)
Lemma flagged_entry nd r p : pk_usage p = rk_usage (rq_key r) -> pk_expired p = false -> pk_expired_at p = 0%Z -> pk_created p = nd_clock nd -> pk_disabled p = false -> pk_disabled_at p = 0%Z ->
  flagged nd r p = entry_of nd r (pk_id p) (pk_type p) (pk_fp p) (pk_fp_md5 p) (pk_comment p) (pk_payload p) (pk_openssh p).
Proof. intros H1 H2 H3 H4 H5 H6. destruct p. cbn in *. subst. unfold flagged, entry_of, set. cbn. now destruct rk_disabled. Qed.
Lemma pem_iff E nd r k : rsa_payload (rk_payload (rq_key r)) ->
  (exists p, parse_rsa E (blank_key nd r) = inl p /\ k = flagged nd r p) <-> says_pem E nd r k.
Proof.
  intros R. unfold says_pem. cbv zeta. unfold parse_rsa. change (pk_usage (blank_key nd r)) with (rk_usage (rq_key r)). change (pk_payload (blank_key nd r)) with (rk_payload (rq_key r)).
  set (s := rk_payload (rq_key r)) in *. split.
  - destruct (String.eqb_spec (rk_usage (rq_key r)) "ssh") as [U|U]; cbn [negb]; [|intros (? & ? & _); discriminate].
    destruct (e_pem E (trim_space s)) as [[ty b]|] eqn:P; [|intros (? & ? & _); discriminate]. destruct (String.eqb_spec ty "RSA PUBLIC KEY") as [->|]; cbn [negb]; [|intros (? & ? & _); discriminate].
    destruct (e_pkix E b) as [| |x] eqn:X; [intros (? & ? & _); discriminate|intros (? & ? & _); discriminate|]. intros (p & Hp & ->). injection Hp as <-.
    split; [exact R|]. split; [exact U|]. exists b, x, (replace_all (sk_sha256 x) "SHA256:" ""), (trim_left_cut (sk_authorized x) (sk_type x ++ " ")).
    split; [reflexivity|]. split; [exact X|]. split; [now apply text_text|]. split; [now apply leading_text|]. apply flagged_entry; reflexivity.
  - intros (_ & U & b & x & fp & line & P & X & T & L & ->). rewrite U, P. cbn [negb]. change (String.eqb "ssh" "ssh") with true. change (String.eqb "RSA PUBLIC KEY" "RSA PUBLIC KEY") with true. cbn [negb]. rewrite X.
    eexists. split; [reflexivity|]. apply text_text in T; [|discriminate]. apply leading_text in L. subst fp line. symmetry. apply flagged_entry; reflexivity.
Qed.
Lemma ssh_iff E nd r k : ssh_payload (rk_payload (rq_key r)) -> In (rk_usage (rq_key r)) ["ssh"; "gpg"] ->
  (exists p, parse_openssh E (blank_key nd r) = inl p /\ k = flagged nd r p) <-> says_ssh E nd r k.
Proof.
  intros (R & b0 & Hs) U. unfold says_ssh. cbv zeta. unfold parse_openssh. change (pk_payload (blank_key nd r)) with (rk_payload (rq_key r)). 
  set (s := rk_payload (rq_key r)) in *. destruct (ssh_trim s b0 Hs) as (t & Ht & Hr). rewrite Ht.
  assert (C : (match cut_blank (los "ssh-rsa" ++ t)%list with Some x => x | None => ((los "ssh-rsa" ++ t)%list, []) end) = (los "ssh-rsa", t)) by (destruct Hr as [->|[u ->]]; reflexivity).
  rewrite C. clear C. change (List.length (los "ssh-rsa") <? 20)%nat with true. cbv iota. set (body := los (trim_space (sol t))).
  assert (Sp : exists word rest, blank_split body (los word) (los rest) /\
    (match cut_blank body with Some ([], _) | None => (body, "", sol body) | Some (x, y) => (x, trim_space (sol y), sol x) end) = (los word, trim_space rest, word)).
  { destruct (cut_blank body) as [[[|c x] y]|] eqn:K.
    - exfalso. apply cut_head in K as (a & u & K & X). eapply trim_no_blank; eauto.
    - exists (sol (c :: x)), (sol y). rewrite !los_sol. split; [apply split_iff; rewrite K; auto|reflexivity].
    - exists (sol body), "". rewrite los_sol. split; [apply split_iff; rewrite K; auto|reflexivity]. }
  destruct Sp as (word & rest & Sp & ->). 
  assert (L : forall w v, ssh_line s w v <-> w = word /\ v = rest).
  { intros w v. rewrite line_iff. apply split_iff in Sp as Sp'. split.
    - intros (t' & T' & B). assert (t' = sol t) as ->. { apply los_inj. rewrite los_sol. apply (f_equal los) in T'. rewrite Ht, los_app in T'. now apply app_inv_head in T'. }
      fold body in B. apply split_iff in B. destruct (cut_blank body) as [[x y]|]; destruct B as [B1 B2], Sp' as [S1 S2]; split; apply los_inj; congruence.
    - intros [-> ->]. exists (sol t). split; [apply los_inj; now rewrite Ht, los_app, los_sol|exact Sp]. }
  split.
  - intros (p & Hp & ->). destruct (b64_decode_l (los word)) as [blob|] eqn:D; [|discriminate]. destruct (e_ssh E (sol blob)) as [x|] eqn:X; [|discriminate]. cbv zeta in Hp.
    destruct (String.eqb_spec (sk_type x) "ssh-rsa") as [T|]; [|discriminate]. destruct (sk_pem x) as [pem|] eqn:Pm; [|discriminate]. injection Hp as <-.
    split; [split; eauto|]. split; [exact U|]. exists word, rest, (sol blob), x, pem. split; [now apply L|]. split; [unfold b64_decode; now rewrite D|]. split; [exact X|]. split; [exact T|]. split; [exact Pm|].
    rewrite flagged_entry by reflexivity. cbn. now rewrite T.
  - intros (_ & _ & w & v & b & x & pem & Ln & D & X & T & Pm & ->). apply L in Ln as [-> ->]. unfold b64_decode in D. destruct (b64_decode_l (los word)) as [blob|]; [|discriminate]. cbn in D. injection D as <-.
    rewrite X. cbv zeta. rewrite T, Pm. change (String.eqb "ssh-rsa" "ssh-rsa") with true. cbv iota. eexists. split; [reflexivity|]. rewrite flagged_entry by reflexivity. cbn. reflexivity.
Qed.
Lemma pgp_algo_in n a t : pgp_algo n = Some (a, t) <-> In (n, a, t) pgp_names.
Proof.
  unfold pgp_algo, pgp_names. split.
  - destruct (_ || _) eqn:A; [intros [=<- <-]; assert (n = 1 \/ n = 2 \/ n = 3)%N as [->|[->| ->]] by lia; cbn; auto 10|].
    destruct (N.eqb_spec n 17) as [->|]; [intros [=<- <-]; cbn; auto 10|]. destruct (N.eqb_spec n 18) as [->|]; [intros [=<- <-]; cbn; auto 10|].
    destruct (N.eqb_spec n 19) as [->|]; [intros [=<- <-]; cbn; auto 10|]. discriminate.
  - intros H. cbn [In] in H. repeat destruct H as [H|H]; [injection H as <- <- <-; reflexivity ..|destruct H].
Qed.
Lemma pgp_iff E nd r k : pgp_payload (rk_payload (rq_key r)) -> In (rk_usage (rq_key r)) ["ssh"; "gpg"] ->
  (exists p, parse_pgp E nd (blank_key nd r) = inl p /\ k = flagged nd r p) <-> says_pgp E nd r k.
Proof.
  intros R U. unfold says_pgp. cbv zeta. unfold parse_pgp. cbv zeta. set (s := rk_payload (rq_key r)) in *.
  change (pk_payload (blank_key nd r <| pk_payload := trim_space (pk_payload (blank_key nd r)) |>)) with (trim_space s).
  change (pk_comment (blank_key nd r <| pk_payload := trim_space (pk_payload (blank_key nd r)) |>)) with (rk_comment (rq_key r)). split.
  - intros (p & Hp & ->). destruct (has_prefix (trim_space s) pgp_begin) eqn:B; [|discriminate]. cbn [negb] in Hp. destruct (has_suffix (trim_space s) pgp_end) eqn:F; [|discriminate]. cbn [negb] in Hp.
    destruct (e_pgp E (trim_space s)) as [[|x [|? ?]]|] eqn:P; try discriminate. destruct (pg_primary x) as [key|] eqn:K; [|discriminate]. destruct (pg_names x) as [|n ns] eqn:Nm; [discriminate|].
    destruct (pgp_algo (pg_algo key)) as [[algo ty]|] eqn:A; [|discriminate]. injection Hp as <-.
    split; [exact R|]. split; [exact U|]. split; [now apply has_prefix_iff|]. split; [now apply has_suffix_iff|].
    exists x, key, (nth (nd_pick nd mod List.length (n :: ns)) (n :: ns) n), algo, ty, (format_hex (pg_id key)), (hex_encode (pg_fp key)).
    split; [reflexivity|]. split; [exact K|]. split.
    { rewrite Nm. assert (L : (nd_pick nd mod List.length (n :: ns) < List.length (n :: ns))%nat) by (apply Nat.mod_upper_bound; discriminate).
      apply lookup_lt_is_Some_2 in L as [v Hv]. rewrite Hv. f_equal. symmetry. now apply nth_lookup_Some. }
    split; [now apply pgp_algo_in|]. split; [now apply format_hex_iff|]. split; [unfold hex_encode; rewrite los_sol; apply hex_of_encode|].
    rewrite flagged_entry by reflexivity. reflexivity.
  - intros (_ & _ & B & F & x & key & name & algo & ty & id & fp & P & K & Nm & A & I & H & ->). apply has_prefix_iff in B. apply has_suffix_iff in F. unfold pgp_begin, pgp_end. rewrite B, F, P. cbn [negb].
    rewrite K. destruct (pg_names x) as [|n ns]; [discriminate|]. apply pgp_algo_in in A. rewrite A. apply format_hex_iff in I. apply hex_of_det in H.
    eexists. split; [reflexivity|]. rewrite flagged_entry by reflexivity. cbn [pk_id pk_type pk_fp pk_fp_md5 pk_comment pk_payload pk_openssh].
    assert (fp = hex_encode (pg_fp key)) as -> by (apply los_inj; unfold hex_encode; now rewrite los_sol).
    assert (Hn : nth (nd_pick nd mod List.length (n :: ns)) (n :: ns) n = name) by now apply nth_lookup_Some. subst id.
    rewrite Hn. reflexivity.
Qed.
Lemma new_key_iff E nd r k : new_public_key E nd r = inl k <-> says E nd r k.
Proof.
  rewrite new_public_key_eq. unfold says.
  assert (X : (match parse_pk E nd (blank_key nd r) with inl p => inl (flagged nd r p) | inr e => inr e end) = inl k <-> exists p, parse_pk E nd (blank_key nd r) = inl p /\ k = flagged nd r p).
  { destruct (parse_pk E nd (blank_key nd r)) as [q|er]; split; [intros [=<-]; eauto|intros (p & [=<-] & ->); reflexivity|discriminate|intros (? & ? & _); discriminate]. }
  rewrite X. clear X. unfold parse_pk. change (pk_usage (blank_key nd r)) with (rk_usage (rq_key r)). change (pk_payload (blank_key nd r)) with (rk_payload (rq_key r)).
  pose proof (rsa_contains (rk_payload (rq_key r))) as RC. pose proof (has_prefix_iff (rk_payload (rq_key r)) "ssh-rsa ") as SC. pose proof (contains_spec (rk_payload (rq_key r)) "BEGIN PGP PUBLIC KEY BLOCK") as PC.
  set (s := rk_payload (rq_key r)) in *.
  assert (Dead : forall e : goerr, (exists p, @inr PublicKey goerr e = inl p /\ k = flagged nd r p) <-> False) by (intros e; split; [intros (? & ? & _); discriminate|contradiction]).
  assert (UU : (String.eqb (rk_usage (rq_key r)) "ssh" || String.eqb (rk_usage (rq_key r)) "gpg") = true <-> In (rk_usage (rq_key r)) ["ssh"; "gpg"]).
  { rewrite orb_true_iff, !String.eqb_eq. cbn. split; [intros [H|H]; auto|intros [H|[H|[]]]; auto]. }
  destruct (String.eqb (rk_usage (rq_key r)) "ssh" || String.eqb (rk_usage (rq_key r)) "gpg"); cbn [negb].
  2:{ assert (N : ~ In (rk_usage (rq_key r)) ["ssh"; "gpg"]) by (intros H; apply UU in H; discriminate). rewrite Dead. split; [contradiction|].
      intros [(_ & Y & _)|[(_ & Y & _)|(_ & Y & _)]]; apply N; auto. rewrite Y. now left. }
  assert (U : In (rk_usage (rq_key r)) ["ssh"; "gpg"]) by now apply UU. clear UU.
  assert (Ne : says_pem E nd r k \/ says_ssh E nd r k \/ says_pgp E nd r k -> s <> "").
  { intros [((a & b & Y) & _)|[((_ & b & Y) & _)|((_ & _ & a & b & Y) & _)]] Z; fold s in Y; rewrite Z in Y; try discriminate; destruct a; discriminate. }
  destruct (String.eqb_spec s "") as [Z|Nz]; [rewrite Dead; split; [contradiction|]; intros Y; now apply Ne in Y|].
  destruct (contains s "RSA PUBLIC KEY").
  { assert (R : rsa_payload s) by now apply RC. rewrite (pem_iff E nd r k R). split; [auto|]. intros [Y|[((Y & _) & _)|((Y & _) & _)]]; [exact Y|contradiction|contradiction]. }
  assert (R : ~ rsa_payload s) by (intros R; apply RC in R; discriminate).
  destruct (has_prefix s "ssh-rsa ").
  { assert (Sh : exists b, s = "ssh-rsa " ++ b) by now apply SC. rewrite (ssh_iff E nd r k (conj R Sh) U). split; [auto|]. intros [(Y & _)|[Y|((_ & Y & _) & _)]]; [contradiction|exact Y|contradiction]. }
  assert (Sh : ~ exists b, s = "ssh-rsa " ++ b) by (intros Sh; apply SC in Sh; discriminate).
  destruct (contains s "BEGIN PGP PUBLIC KEY BLOCK").
  { assert (G : contains_text s "BEGIN PGP PUBLIC KEY BLOCK") by now apply PC. rewrite (pgp_iff E nd r k (conj R (conj Sh G)) U). split; [auto|]. intros [(Y & _)|[((_ & Y) & _)|Y]]; [contradiction|contradiction|exact Y]. }
  assert (G : ~ contains_text s "BEGIN PGP PUBLIC KEY BLOCK") by (intros G; apply PC in G; discriminate).
  rewrite Dead. split; [contradiction|]. intros [(Y & _)|[((_ & Y) & _)|((_ & _ & Y) & _)]]; contradiction.
Qed.
(** ** Where entries come from *)
Lemma ustep_add E nd db r i u v : ustep E nd db r i u OpAddPublicKey v -> v = u \/ validate_identity E db r = inl (i, u).
Proof. intros H. inversion H; subst; auto. Qed.
Lemma entry_origin E fs db fs' db' i u' k : reachable E fs db -> later E fs db fs' db' -> account db' i u' -> In k (u_pubkeys u') ->
  (exists u, account db i u /\ In k (u_pubkeys u)) \/
  exists fs1 db1 nd r u, later E fs db fs1 db1 /\ identity_of E db1 r i u /\ says E nd r k /\ ~ holds_fp u (pk_type k) (pk_fp k).
Proof.
  intros HR S.
  assert (G : forall w w', steps E only_calls w w' -> w = {| w_fs := fs; w_mem := Up db |} ->
    match w_mem w' with Down => True | Up d | Stuck d => forall i v k, account d i v -> In k (u_pubkeys v) ->
      (exists u, account db i u /\ In k (u_pubkeys u)) \/
      exists fs1 db1 nd r u, later E fs db fs1 db1 /\ identity_of E db1 r i u /\ says E nd r k /\ ~ holds_fp u (pk_type k) (pk_fp k) end).
  { clear - HR. intros w w' S. induction S as [w|w1 ev w2 w3 S IH Hev St]; intros ->; [cbn; intros; left; eauto|]. specialize (IH eq_refl).
    destruct St as [nd fp fs0 m fs1 res O N|nd op r fs0 d|fs0 m|fs0 m fs1]; cbn in Hev; try contradiction. cbn [w_mem] in *.
    assert (G : forall i v k, account (o_db (exec E nd op d fs0 r)) i v -> In k (u_pubkeys v) -> (exists u, account db i u /\ In k (u_pubkeys u)) \/
      exists fs1 db1 nd r u, later E fs db fs1 db1 /\ identity_of E db1 r i u /\ says E nd r k /\ ~ holds_fp u (pk_type k) (pk_fp k)).
    { intros i v k Hv Hk. destruct (exec_ustep E nd op d fs0 r i v Hv) as [(u & Hu & St)|(_ & _ & NA)].
      2:{ destruct (na_keys _ _ _ _ NA) as (K & _). rewrite K in Hk. destruct Hk. }
      destruct (ustep_pubkeys _ _ _ _ _ _ _ _ St) as [Eq|[(-> & n & Nk & Ex & Eq)|(_ & Eq)]].
      - rewrite Eq in Hk. eauto.
      - rewrite Eq in Hk. apply in_app_iff in Hk as [Hk|[<-|[]]]; [eauto|]. right. exists fs0, d, nd, r, u. split; [exact S|].
        apply ustep_add in St as [->|V]; [apply (f_equal (@List.length _)) in Eq; rewrite app_length in Eq; cbn in Eq; lia|].
        split; [apply (validate_iff _ fs0); [exact (later_reachable _ _ _ _ _ HR S)|exact V]|]. split; [now apply new_key_iff|].
        intros (x & Hx & T & F). apply not_true_iff_false in Ex. apply Ex. apply existsb_exists. exists x. split; [exact Hx|]. now rewrite T, F, !String.eqb_refl.
      - rewrite Eq in Hk. apply filter_In in Hk as [Hk _]. eauto. }
    unfold after_call. destruct o_res; auto. }
  specialize (G _ _ S eq_refl). cbn in G. apply G.
Qed.
Lemma leading_word cut s a t : los s = a :: t -> ~ In a (los cut) -> without_leading (los cut) (los (cut ++ s)) (los s).
Proof.
  intros Hs N. rewrite los_app. assert (H : forall l, incl l (los cut) -> without_leading (los cut) (l ++ los s)%list (los s)).
  { induction l as [|b l IH]; intros I; cbn [app].
    - rewrite Hs. now apply WlKeep.
    - apply WlDrop; [apply I; now left|]. apply IH. intros x X. apply I. now right. }
  apply H. apply incl_refl.
Qed.
Lemma leading_det cut l x y : without_leading cut l x -> without_leading cut l y -> x = y.
Proof. intros H. revert y. induction H as [|a l l' I H IH|a l N]; intros y Y; inversion Y; subst; auto; contradiction. Qed.
