(** Random strings and identifiers (C67, C68), errors (C72), credit cards (C74). *)
From Coq Require Import String Ascii ZArith NArith Lia Bool Arith List.
From Coq Require Import ZifyBool ZifyNat ZifyN.
From Verif Require Import GoStr Utf8 Codec GoErr Random CreditCard SpecValue.
Import ListNotations.
Open Scope string_scope.

Lemma pick_in cs d : cs <> "" -> In (pick cs d) (los cs).
Proof.
  intros H. unfold pick. apply nth_In. rewrite length_los.
  assert (String.length cs <> 0)%nat by (destruct cs; cbn; congruence).
  pose proof (N.mod_lt d (N.of_nat (String.length cs))). lia.
Qed.
Lemma gen_length cs n d : String.length (gen cs n d) = n.
Proof. unfold gen. now rewrite length_sol, map_length, seq_length. Qed.
Lemma gen_chars cs n d : cs <> "" -> Forall (fun a => In a (los cs)) (los (gen cs n d)).
Proof. intros H. unfold gen. rewrite los_sol. apply Forall_map, Forall_forall. intros i _. now apply pick_in. Qed.
(** Every string over the alphabet is a possible result. *)
Lemma pick_onto cs a : In a (los cs) -> exists d, pick cs d = a.
Proof.
  intros H. apply (In_nth _ _ "000"%char) in H as (i & Hi & E). exists (N.of_nat i). unfold pick.
  rewrite length_los in Hi. rewrite N.mod_small by lia. rewrite Nat2N.id. exact E.
Qed.
Lemma gen_onto cs s : Forall (fun a => In a (los cs)) (los s) -> exists d, gen cs (String.length s) d = s.
Proof.
  intros H.
  assert (G : forall l, Forall (fun a => In a (los cs)) l -> exists d, forall k, (k < List.length l)%nat -> pick cs (d k) = nth k l "000"%char).
  { induction 1 as [|a l Ha Hl (d & IH)].
    - exists (fun _ => 0%N). cbn. lia.
    - destruct (pick_onto cs a Ha) as (x & Hx). exists (fun k => match k with O => x | S k' => d k' end).
      intros [|k] Hk; cbn in *; [assumption|]. apply IH. lia. }
  destruct (G _ H) as (d & Hd). exists d. unfold gen. apply los_inj. rewrite los_sol.
  apply (nth_ext _ _ "000"%char "000"%char).
  - now rewrite map_length, seq_length, length_los.
  - intros k Hk. rewrite map_length, seq_length in Hk.
    rewrite nth_indep with (d' := pick cs (d 0%nat)) by (rewrite map_length, seq_length; assumption).
    rewrite (map_nth (fun i => pick cs (d i))). rewrite seq_nth by assumption. apply Hd. now rewrite length_los.
Qed.

Lemma charset_alnum a : In a (los charset) <-> is_alnum a = true.
Proof.
  assert (H : forall a, Bool.eqb (existsb (Ascii.eqb a) (los charset)) (is_alnum a) = true).
  { apply forall_bytes. vm_compute. reflexivity. }
  specialize (H a). apply eqb_prop in H. rewrite <- H, existsb_exists. split.
  - intros Hin. exists a. split; [assumption|]. apply Ascii.eqb_refl.
  - intros (x & Hx & E). apply Ascii.eqb_eq in E. now subst.
Qed.
(** C67 *)
Lemma random_string_spec i d :
  String.length (random_string i d) = Z.to_nat (if (i <? 1)%Z then 40 else i)%Z /\ alnum_string (random_string i d).
Proof.
  unfold random_string, alnum_string. split; [apply gen_length|].
  eapply Forall_impl; [|apply gen_chars; discriminate]. intros a Ha. now apply charset_alnum.
Qed.
Lemma new_random_string_spec n d :
  String.length (new_random_string n d) = Z.to_nat (if (n =? 0)%Z then 32 else n)%Z /\
  Forall (fun a => is_alnum a = true /\ is_upper a = false) (los (new_random_string n d)).
Proof.
  unfold new_random_string. split; [apply gen_length|].
  eapply Forall_impl; [|apply gen_chars; discriminate]. intros a Ha.
  assert (H : forall a, implb (existsb (Ascii.eqb a) (los charset36)) (is_alnum a && negb (is_upper a)) = true).
  { apply forall_bytes. vm_compute. reflexivity. }
  specialize (H a). replace (existsb (Ascii.eqb a) (los charset36)) with true in H.
  - cbn in H. apply andb_prop in H as [H1 H2]. split; [exact H1|]. now destruct (is_upper a).
  - symmetry. apply existsb_exists. exists a. split; [exact Ha|apply Ascii.eqb_refl].
Qed.
Lemma random_range_spec a b ld d :
  (0 <= a)%Z -> (0 <= b)%Z -> a <> b ->
  exists s, random_range a b ld d = Some s /\ alnum_string s /\ (Z.min a b <= zlen s < Z.max a b)%Z.
Proof.
  intros Ha Hb Hab. unfold random_range, random_range_len.
  destruct (Z.gtb_spec a b) as [Hgt|Hle].
  - pose proof (Z.mod_pos_bound (Z.of_N ld) (a - b) ltac:(lia)) as Hm.
    destruct (Z.ltb_spec (Z.of_N ld mod (a - b) + b) 0); [lia|].
    eexists. split; [reflexivity|]. split.
    + eapply Forall_impl; [|apply gen_chars; discriminate]. intros x Hx. now apply charset_alnum.
    + unfold zlen. rewrite gen_length. lia.
  - destruct (Z.leb_spec (b - a) 0); [lia|].
    pose proof (Z.mod_pos_bound (Z.of_N ld) (b - a) ltac:(lia)) as Hm.
    destruct (Z.ltb_spec (Z.of_N ld mod (b - a) + a) 0); [lia|].
    eexists. split; [reflexivity|]. split.
    + eapply Forall_impl; [|apply gen_chars; discriminate]. intros x Hx. now apply charset_alnum.
    + unfold zlen. rewrite gen_length. lia.
Qed.
(** Equal bounds panic. *)
Lemma random_range_panic a ld d : random_range a a ld d = None.
Proof.
  unfold random_range, random_range_len. destruct (Z.gtb_spec a a); [lia|].
  destruct (Z.leb_spec (a - a) 0); [reflexivity|lia].
Qed.

(** ** UUIDs (C68) *)
Lemma set_version_spec a : (N_of_ascii (set_version a) / 16 = 4)%N.
Proof. apply N.eqb_eq. revert a. apply forall_bytes. vm_compute. reflexivity. Qed.
Lemma set_variant_spec a : (8 <= N_of_ascii (set_variant a) / 16 <= 11)%N.
Proof.
  assert (H : ((8 <=? N_of_ascii (set_variant a) / 16) && (N_of_ascii (set_variant a) / 16 <=? 11))%N = true).
  { revert a. apply forall_bytes. vm_compute. reflexivity. }
  lia.
Qed.
Lemma hex_digit_lower n : (n < 16)%N -> hex_lower (hex_digit n).
Proof.
  intros H. assert (K : existsb (Ascii.eqb (hex_digit n)) (los "0123456789abcdef") = true).
  { revert H. revert n. apply (forall_below 16). vm_compute. reflexivity. }
  apply existsb_exists in K as (x & Hx & E). apply Ascii.eqb_eq in E. unfold hex_lower. now rewrite E.
Qed.
Lemma hex_encode_lower l : Forall hex_lower (hex_encode_l l).
Proof.
  induction l as [|a l IH]; [constructor|]. cbn [hex_encode_l flat_map]. apply Forall_app. split; [|exact IH].
  unfold hex_byte. pose proof (N_of_ascii_lt a).
  assert (N_of_ascii a / 16 < 16)%N by (apply N.div_lt_upper_bound; lia).
  pose proof (N.mod_lt (N_of_ascii a) 16 ltac:(lia)).
  constructor; [now apply hex_digit_lower|]. constructor; [now apply hex_digit_lower|]. constructor.
Qed.
Lemma version_digit a : hex_digit (N_of_ascii (set_version a) / 16) = "4"%char.
Proof. rewrite set_version_spec. reflexivity. Qed.
Lemma variant_digit a : In (hex_digit (N_of_ascii (set_variant a) / 16)) (los "89ab").
Proof.
  pose proof (set_variant_spec a) as H. set (n := (_ / 16)%N) in *. clearbody n.
  assert (n = 8 \/ n = 9 \/ n = 10 \/ n = 11)%N as [->|[->|[->| ->]]] by lia; cbn; tauto.
Qed.
Lemma new_id_canonical rnd : canonical_v4 (new_id rnd).
Proof.
  unfold new_id, uuid_string, uuid_bytes. cbn [seq map Nat.eqb firstn skipn].
  set (b0 := rnd 0%nat). set (b1 := rnd 1%nat). set (b2 := rnd 2%nat). set (b3 := rnd 3%nat). set (b4 := rnd 4%nat). set (b5 := rnd 5%nat).
  set (b7 := rnd 7%nat). set (b9 := rnd 9%nat). set (b10 := rnd 10%nat). set (b11 := rnd 11%nat). set (b12 := rnd 12%nat).
  set (b13 := rnd 13%nat). set (b14 := rnd 14%nat). set (b15 := rnd 15%nat).
  set (v6 := set_version (rnd 6%nat)). set (v8 := set_variant (rnd 8%nat)).
  exists (hex_encode_l [b0;b1;b2;b3]), (hex_encode_l [b4;b5]),
    (hex_digit (N_of_ascii v6 mod 16) :: hex_encode_l [b7]),
    (hex_digit (N_of_ascii v8 mod 16) :: hex_encode_l [b9]),
    (hex_encode_l [b10;b11;b12;b13;b14;b15]), (hex_digit (N_of_ascii v8 / 16)).
  rewrite los_sol. split.
  { rewrite <- (version_digit (rnd 6%nat)). fold v6. reflexivity. }
  do 5 (split; [reflexivity|]). split.
  - pose proof (N.mod_lt (N_of_ascii v6) 16 ltac:(lia)) as H6. pose proof (N.mod_lt (N_of_ascii v8) 16 ltac:(lia)) as H8.
    apply Forall_app; split; [apply hex_encode_lower|]. apply Forall_app; split; [apply hex_encode_lower|].
    apply Forall_app; split; [constructor; [now apply hex_digit_lower|apply hex_encode_lower]|].
    apply Forall_app; split; [constructor; [now apply hex_digit_lower|apply hex_encode_lower]|]. apply hex_encode_lower.
  - apply variant_digit.
Qed.
Lemma new_id_length rnd : String.length (new_id rnd) = 36%nat.
Proof.
  destruct (new_id_canonical rnd) as (g1 & g2 & g3 & g4 & g5 & v & E & L1 & L2 & L3 & L4 & L5 & _).
  rewrite <- length_los, E. repeat (rewrite app_length; cbn [List.length]). lia.
Qed.
Lemma new_id_chars rnd : Forall (fun a => hex_lower a \/ a = "-"%char) (los (new_id rnd)).
Proof.
  destruct (new_id_canonical rnd) as (g1 & g2 & g3 & g4 & g5 & v & E & _ & _ & _ & _ & _ & Hf & Hv).
  rewrite E. rewrite !Forall_app in Hf. destruct Hf as (H1 & H2 & H3 & H4 & H5).
  assert (W : forall g, Forall hex_lower g -> Forall (fun a => hex_lower a \/ a = "-"%char) g).
  { intros g Hg. eapply Forall_impl; [|exact Hg]. auto. }
  repeat (apply Forall_app; split; [auto|]; repeat (constructor; [|])); auto.
  - left. cbn. tauto.
  - left. unfold hex_lower. cbn in *. intuition.
Qed.
(** Lower-casing leaves an identifier alone (getUserByID, database.go:393-400). *)
Lemma new_id_lower lr rnd : to_lower lr (new_id rnd) = new_id rnd.
Proof.
  pose proof (new_id_chars rnd) as H.
  assert (C : forall a, hex_lower a \/ a = "-"%char -> is_ascii7 a = true /\ lower_ascii a = a).
  { intros a Ha. assert (In a (los "0123456789abcdef-")).
    { unfold hex_lower in Ha. change (los "0123456789abcdef-") with (los "0123456789abcdef" ++ ["-"%char])%list.
      apply in_or_app. cbn [In]. intuition. }
    assert (F : forallb (fun a => is_ascii7 a && Ascii.eqb (lower_ascii a) a) (los "0123456789abcdef-") = true) by reflexivity.
    rewrite forallb_forall in F. specialize (F _ H0). apply andb_prop in F as [F1 F2]. apply Ascii.eqb_eq in F2. auto. }
  rewrite to_lower_ascii.
  - transitivity (sol (los (new_id rnd))); [|apply sol_los]. f_equal.
    induction H as [|a l Ha Hl IH]; cbn; [reflexivity|]. rewrite IH. f_equal. now apply C.
  - unfold ascii_only. apply forallb_forall. rewrite Forall_forall in H. intros a Ha. now apply C, H.
Qed.
Lemma new_id_ascii rnd : ascii_only (los (new_id rnd)) = true.
Proof.
  pose proof (new_id_chars rnd) as H. apply forallb_forall. rewrite Forall_forall in H. intros a Ha. specialize (H a Ha).
  assert (In a (los "0123456789abcdef-")).
  { unfold hex_lower in H. change (los "0123456789abcdef-") with (los "0123456789abcdef" ++ ["-"%char])%list.
    apply in_or_app. cbn [In]. intuition. }
  assert (F : forallb is_ascii7 (los "0123456789abcdef-") = true) by reflexivity.
  rewrite forallb_forall in F. now apply F.
Qed.

(** ** Errors (C72) *)
Lemma with_args_nil t args : with_args t args = None <-> In ANil args /\ forall e, ~ In (AErr e) args.
Proof.
  unfold with_args. destruct (existsb is_nil_arg args) eqn:E1; destruct (existsb is_err_arg args) eqn:E2; cbn.
  - split; [discriminate|]. intros [_ H]. apply existsb_exists in E2 as (x & Hx & Ex). destruct x; try discriminate. now apply H in Hx.
  - split; [|reflexivity]. intros _. apply existsb_exists in E1 as (x & Hx & Ex). destruct x; try discriminate. split; [assumption|].
    intros e He. assert (existsb is_err_arg args = true) by (apply existsb_exists; exists (AErr e); auto). congruence.
  - split; [discriminate|]. intros [H _]. assert (existsb is_nil_arg args = true) by (apply existsb_exists; exists ANil; auto). congruence.
  - split; [discriminate|]. intros [H _]. assert (existsb is_nil_arg args = true) by (apply existsb_exists; exists ANil; auto). congruence.
Qed.
Lemma with_args_is t args e t' : with_args t args = Some e -> (errors_is e t' = true <-> t' = t).
Proof.
  unfold with_args. destruct (_ && _); [discriminate|]. intros [= <-]. cbn. rewrite String.eqb_eq. split; congruence.
Qed.

(** ** Credit cards (C74) *)
Lemma add_association_ok {R} (cc : Card R) s cc' :
  add_association cc s = (cc', None) <->
  In s supported_associations /\
  exists a, cc' = {| cc_issuer := cc_issuer cc; cc_assoc := Some a; cc_rest := cc_rest cc |} /\ as_name a = s /\ In a associations.
Proof.
  unfold add_association. destruct (find _ associations) as [a|] eqn:E.
  - apply find_some in E as [Hin Es]. apply String.eqb_eq in Es. split.
    + intros [= <-]. split; [|eauto]. subst s. unfold associations in Hin. cbn in Hin |- *.
      intuition (subst; cbn; tauto).
    + intros (_ & a' & -> & Hn & Hin'). assert (a' = a) as ->; [|reflexivity].
      unfold associations in *. cbn in Hin, Hin'. rewrite Es in Hn.
      intuition (subst; cbn in *; congruence).
  - split; [discriminate|]. intros (_ & a & _ & Hn & Hin). exfalso.
    apply (find_none _ _ E) in Hin. rewrite Hn, String.eqb_refl in Hin. discriminate.
Qed.
Lemma add_association_complete {R} (cc : Card R) s : In s supported_associations -> exists cc', add_association cc s = (cc', None).
Proof. unfold add_association. cbn. intros [<-|[<-|[<-|[<-|[<-|[]]]]]]; cbn; eauto. Qed.
Lemma add_association_err {R} (cc cc' : Card R) s e : add_association cc s = (cc', Some e) -> cc' = cc.
Proof. unfold add_association. destruct (find _ _); [discriminate|]. now intros [= <-]. Qed.
Lemma add_issuer_none {R} low (cc : Card R) s : add_issuer issuers low cc s = (cc, Some (EWith ErrCreditCardUnsupportedIssuer [AStr s])).
Proof. reflexivity. Qed.
(** For an arbitrary issuer table: the first issuer with that name or alias. *)
Lemma add_issuer_spec {R} tbl low (cc cc' : Card R) s :
  add_issuer tbl low cc s = (cc', None) ->
  exists i, In i tbl /\ issuer_match low s i = true /\ cc' = {| cc_issuer := Some i; cc_assoc := cc_assoc cc; cc_rest := cc_rest cc |}.
Proof.
  unfold add_issuer. destruct (find _ tbl) as [i|] eqn:E; [|discriminate]. intros [= <-].
  apply find_some in E as [H1 H2]. eauto.
Qed.
Lemma errors_is_spec e t : errors_is e t = true <-> e = EStd t \/ exists args, e = EWith t args.
Proof.
  destruct e as [t'|t' args|t']; cbn; rewrite ?String.eqb_eq; split.
  - intros ->. now left.
  - intros [[= ->]|[? [=]]]. reflexivity.
  - intros ->. right. eauto.
  - intros [[=]|[? [= -> _]]]. reflexivity.
  - discriminate.
  - intros [[=]|[? [=]]].
Qed.
