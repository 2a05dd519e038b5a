(** QR enrolment URIs (C69, C70). *)
From Coq Require Import String Ascii ZArith NArith Lia Bool Arith List.
From Coq Require Import ZifyBool ZifyNat ZifyN.
From Verif Require Import GoStr Utf8 Codec Qr SpecValue.
Import ListNotations.
Open Scope string_scope.

(** ** Validation (C70) *)
Lemma qr_validate_spec low c :
  match qr_validate low c with
  | (c', None) => valid_code low c /\ built low c c'
  | (_, Some _) => ~ valid_code low c
  end.
Proof.
  destruct c as [ty sec al lb iss per dg ct tx en]. unfold qr_validate, valid_code, built.
  cbn [qr_label qr_secret qr_digits qr_period qr_type qr_counter qr_algorithm qr_issuer set_params].
  destruct (String.eqb_spec lb ""); [tauto|].
  destruct (String.eqb_spec sec "") as [->|]; [cbn; lia|].
  destruct (Z.ltb_spec (zlen sec) 6); [lia|].
  destruct (negb (dg =? 0)%Z && ((dg <? 4)%Z || (dg >? 8)%Z)) eqn:Ed; [lia|].
  destruct (negb (per =? 0)%Z && ((per <? 30)%Z || (per >? 180)%Z)) eqn:Ep; [lia|].
  destruct (String.eqb_spec ty "totp") as [->|Ht].
  - destruct (String.eqb_spec (low al) "sha1") as [E|]; [cbn; rewrite E; cbn; intuition lia|].
    destruct (String.eqb_spec (low al) "sha256") as [E|]; [cbn; rewrite E; cbn; intuition lia|].
    destruct (String.eqb_spec (low al) "sha512") as [E|]; [cbn; rewrite E; cbn; intuition lia|].
    destruct (String.eqb_spec (low al) "") as [E|]; [cbn; rewrite E; cbn; intuition lia|].
    cbn. intuition congruence.
  - destruct (String.eqb_spec ty "hotp") as [->|Hh]; [|intuition].
    destruct (Z.ltb_spec ct 1); [intuition (try congruence; lia)|].
    destruct (String.eqb_spec (low al) "sha1") as [E|]; [cbn; rewrite E; cbn; intuition lia|].
    destruct (String.eqb_spec (low al) "sha256") as [E|]; [cbn; rewrite E; cbn; intuition lia|].
    destruct (String.eqb_spec (low al) "sha512") as [E|]; [cbn; rewrite E; cbn; intuition lia|].
    destruct (String.eqb_spec (low al) "") as [E|]; [cbn; rewrite E; cbn; intuition lia|].
    cbn. intuition congruence.
Qed.
Lemma qr_build_ok_iff low c : (exists c', qr_build low c = (c', None)) <-> valid_code low c.
Proof.
  unfold qr_build. pose proof (qr_validate_spec low c) as H.
  destruct (qr_validate low c) as [c1 [e|]]; split; intros K; try tauto.
  - destruct K. discriminate.
  - eauto.
Qed.
Lemma qr_build_fields low c c' : qr_build low c = (c', None) -> built low c c' /\ qr_text c' = qr_uri c' /\ qr_encoded c' = b64_encode (qr_text c').
Proof.
  unfold qr_build. pose proof (qr_validate_spec low c) as H.
  destruct (qr_validate low c) as [c1 [e|]]; [discriminate|]. intros [= <-]. split; [exact (proj2 H)|]. split; reflexivity.
Qed.

(** ** The URI (C69) *)
Lemma sprint_d_number z : (0 <= z)%Z -> number (sprint_d z) z.
Proof.
  intros H. assert (sprint_d z = sol (dec_l (Z.to_N z))) as -> by (destruct z; [reflexivity|reflexivity|lia]).
  unfold number. rewrite los_sol. split; [|split].
  - intros E. apply los_nil_iff in E. rewrite los_sol in E. now apply dec_l_ne in E.
  - apply dec_l_digits.
  - rewrite dec_l_val. lia.
Qed.
Lemma cut_app c a b : ~ In c (los a) -> cut c (a ++ String c b) = Some (a, b).
Proof.
  intros H. unfold cut. rewrite los_app. cbn [list_ascii_of_string].
  assert (G : forall l, ~ In c l -> cut_l c (l ++ c :: los b)%list = Some (l, los b)).
  { induction l as [|x l IH]; cbn; intros Hn.
    - now rewrite Ascii.eqb_refl.
    - destruct (Ascii.eqb_spec x c) as [->|Hx]; [tauto|]. rewrite IH by tauto. reflexivity. }
  rewrite G by exact H. now rewrite !sol_los.
Qed.
Lemma cut_complete c s a b : cut c s = Some (a, b) -> s = a ++ String c b /\ ~ In c (los a).
Proof.
  unfold cut. destruct (cut_l c (los s)) as [[x y]|] eqn:E; [|discriminate]. intros [= <- <-]. rewrite los_sol.
  assert (G : forall l x y, cut_l c l = Some (x, y) -> l = (x ++ c :: y)%list /\ ~ In c x).
  { induction l as [|z l IH]; cbn; intros x' y'; [discriminate|].
    destruct (Ascii.eqb_spec z c) as [->|Hz].
    - intros [= <- <-]. split; [reflexivity|auto].
    - destruct (cut_l c l) as [[u v]|]; [|discriminate]. intros [= <- <-]. destruct (IH _ _ eq_refl) as [-> Hn].
      split; [reflexivity|]. cbn. intuition. }
  destruct (G _ _ _ E) as [El Hn]. split; [|exact Hn]. apply los_inj. rewrite los_app, los_sol, El. cbn. now rewrite los_sol.
Qed.
Definition param (k v : string) : string := k ++ "=" ++ v.
Definition clean (s : string) : Prop := without "&" s /\ without "=" s.
Lemma read_params_spec ps :
  Forall (fun kv => without "=" (fst kv)) ps -> read_params (map (fun kv => param (fst kv) (snd kv)) ps) = Some ps.
Proof.
  induction 1 as [|[k v] ps Hk Hps IH]; [reflexivity|]. cbn [map read_params fst snd]. rewrite IH.
  unfold param. change (k ++ "=" ++ v) with (k ++ String "=" v). now rewrite cut_app.
Qed.
Lemma split_join_params ws : ws <> [] -> Forall (without "&") ws -> split "&" (String.concat "&" ws) = ws.
Proof.
  induction ws as [|w ws IH]; intros Hne Hf; [congruence|]. inversion Hf as [|? ? Hw Hws]; subst.
  destruct ws as [|w' ws'].
  - cbn. unfold split. rewrite split_l_no_sep by exact Hw. cbn. now rewrite sol_los.
  - change (String.concat "&" (w :: w' :: ws')) with (w ++ String "&" (String.concat "&" (w' :: ws'))).
    unfold split in *. rewrite los_app. cbn [list_ascii_of_string]. rewrite split_l_app by exact Hw.
    cbn [map]. rewrite sol_los. f_equal. apply IH; [discriminate|assumption].
Qed.

(** The parameters of the URI in order. *)
Definition params_of (c : Code) : list (string * string) :=
  [("secret", b32_encode (qr_secret c))]
  ++ (if String.eqb (qr_issuer c) "" then [] else [("issuer", query_escape (qr_issuer c))])
  ++ (if String.eqb (qr_algorithm c) "" then [] else [("algorithm", qr_algorithm c)])
  ++ (if (qr_digits c >? 0)%Z then [("digits", sprint_d (qr_digits c))] else [])
  ++ (if (qr_counter c >? 0)%Z then [("counter", sprint_d (qr_counter c))] else [])
  ++ (if (qr_period c >? 0)%Z then [("period", sprint_d (qr_period c))] else []).
Lemma str_assoc a b c : (a ++ b) ++ c = a ++ b ++ c.
Proof. induction a; cbn; congruence. Qed.
Lemma str_nil a : a ++ "" = a.
Proof. induction a; cbn; congruence. Qed.
Fixpoint amp (ws : list string) : string := match ws with [] => "" | w :: t => "&" ++ w ++ amp t end.
Lemma concat_amp w ws : String.concat "&" (w :: ws) = w ++ amp ws.
Proof.
  revert w. induction ws as [|w' ws IH]; intros w.
  - cbn. now rewrite str_nil.
  - change (String.concat "&" (w :: w' :: ws)) with (w ++ "&" ++ String.concat "&" (w' :: ws)). rewrite IH. reflexivity.
Qed.
Lemma amp_app a b : amp (a ++ b)%list = amp a ++ amp b.
Proof. induction a as [|w a IH]; cbn; [reflexivity|]. now rewrite IH, str_assoc. Qed.
Lemma qr_uri_shape c :
  qr_uri c = "otpauth://" ++ qr_type c ++ "/" ++ query_escape (qr_label c) ++ "?" ++
             String.concat "&" (map (fun kv => param (fst kv) (snd kv)) (params_of c)).
Proof.
  unfold qr_uri, params_of. cbn [app map fst snd]. rewrite concat_amp. rewrite !map_app, !amp_app.
  rewrite !str_assoc.
  unfold param.
  destruct (String.eqb (qr_issuer c) ""), (String.eqb (qr_algorithm c) ""), (qr_digits c >? 0)%Z, (qr_counter c >? 0)%Z, (qr_period c >? 0)%Z;
    cbn; rewrite ?str_assoc; cbn; rewrite ?str_assoc; cbn; rewrite ?str_nil; reflexivity.
Qed.
Definition safe_text (s : string) : Prop := without "&" s /\ without "=" s /\ without "?" s /\ without "/" s.
Lemma query_escape_safe s : safe_text (query_escape s).
Proof.
  unfold safe_text, without, query_escape. rewrite los_sol. pose proof (query_escape_chars (los s)) as H.
  rewrite Forall_forall in H. repeat split; intros K; apply H in K; discriminate.
Qed.
Lemma alnum_safe l : Forall (fun a => is_alnum a = true) l -> safe_text (sol l).
Proof. intros H. unfold safe_text, without. rewrite los_sol. rewrite Forall_forall in H. repeat split; intros K; apply H in K; discriminate. Qed.
Lemma b32_safe s : safe_text (b32_encode s).
Proof. apply alnum_safe, b32_chars. Qed.
Lemma number_safe s n : number s n -> safe_text s.
Proof.
  intros (_ & H & _). rewrite <- (sol_los s). apply alnum_safe. eapply Forall_impl; [|exact H].
  intros a Ha. cbn beta in *. unfold is_alnum. rewrite Ha. apply orb_true_r.
Qed.
(** The parsed URI of a code whose type and algorithm contain no reserved character. *)
Lemma read_uri_qr c :
  without "/" (qr_type c) -> without "&" (qr_algorithm c) -> (0 <= qr_digits c)%Z -> (0 <= qr_counter c)%Z -> (0 <= qr_period c)%Z ->
  read_uri (qr_uri c) = Some {| o_type := qr_type c; o_label := query_escape (qr_label c); o_params := params_of c |}.
Proof.
  intros Ht Ha _ _ _. rewrite qr_uri_shape. unfold read_uri.
  assert (E : strip_prefix (los "otpauth://") (los ("otpauth://" ++ qr_type c ++ "/" ++ query_escape (qr_label c) ++ "?" ++
             String.concat "&" (map (fun kv => param (fst kv) (snd kv)) (params_of c)))) =
             Some (los (qr_type c ++ "/" ++ query_escape (qr_label c) ++ "?" ++
             String.concat "&" (map (fun kv => param (fst kv) (snd kv)) (params_of c))))).
  { apply strip_prefix_spec. now rewrite los_app. }
  rewrite E, sol_los.
  change ("/" ++ query_escape (qr_label c) ++ "?" ++ String.concat "&" (map (fun kv => param (fst kv) (snd kv)) (params_of c)))
    with (String "/" (query_escape (qr_label c) ++ String "?" (String.concat "&" (map (fun kv => param (fst kv) (snd kv)) (params_of c))))).
  rewrite cut_app by exact Ht. rewrite cut_app by apply query_escape_safe.
  assert (P : Forall (fun kv => without "=" (fst kv) /\ without "&" (fst kv) /\ without "&" (snd kv)) (params_of c)).
  { unfold params_of.
    assert (K : forall k v, In k ["secret"; "issuer"; "algorithm"; "digits"; "counter"; "period"] -> without "&" v ->
      without "=" (fst (k, v)) /\ without "&" (fst (k, v)) /\ without "&" (snd (k, v))).
    { intros k v Hk Hv. cbn [fst snd]. unfold without. split; [|split; [|exact Hv]];
        repeat (destruct Hk as [<-|Hk]; [cbn; intuition discriminate|]); destruct Hk. }
    repeat (apply Forall_app; split).
    - constructor; [|constructor]. apply K; [cbn; tauto|]. apply b32_safe.
    - destruct (String.eqb _ _); constructor; [|constructor]. apply K; [cbn; tauto|]. apply query_escape_safe.
    - destruct (String.eqb _ _); constructor; [|constructor]. apply K; [cbn; tauto|]. exact Ha.
    - destruct (Z.gtb_spec (qr_digits c) 0); constructor; [|constructor]. apply K; [cbn; tauto|].
      apply (number_safe _ _ (sprint_d_number (qr_digits c) ltac:(lia))).
    - destruct (Z.gtb_spec (qr_counter c) 0); constructor; [|constructor]. apply K; [cbn; tauto|].
      apply (number_safe _ _ (sprint_d_number (qr_counter c) ltac:(lia))).
    - destruct (Z.gtb_spec (qr_period c) 0); constructor; [|constructor]. apply K; [cbn; tauto|].
      apply (number_safe _ _ (sprint_d_number (qr_period c) ltac:(lia))). }
  rewrite split_join_params.
  - rewrite read_params_spec; [reflexivity|]. eapply Forall_impl; [|exact P]. intros kv Hkv. apply Hkv.
  - unfold params_of. discriminate.
  - apply Forall_map. eapply Forall_impl; [|exact P]. intros [k v] (Hk1 & Hk2 & Hv). cbn [fst snd] in *.
    unfold param, without. rewrite !los_app. rewrite !in_app_iff. intros [K|[K|K]]; [now apply Hk2| |now apply Hv].
    cbn in K. intuition discriminate.
Qed.
Lemma qr_roundtrip low c c' :
  qr_build low c = (c', None) ->
  (exists o, read_uri (qr_get c') = Some o /\ uri_says c' o) /\ b64_decode (qr_get_encoded c') = Some (qr_get c').
Proof.
  intros E. assert (V : valid_code low c) by (apply qr_build_ok_iff; eauto).
  destruct (qr_build_fields _ _ _ E) as (B & Tx & En). unfold qr_get, qr_get_encoded. split.
  2:{ rewrite En. apply b64_roundtrip. }
  destruct V as (V1 & V2 & V3 & V4 & V5 & V6). destruct B as (B1 & B2 & B3 & B4 & B5 & B6 & B7 & B8).
  assert (Hd : (4 <= qr_digits c' <= 8)%Z) by (rewrite B7; destruct (Z.eqb_spec (qr_digits c) 0); lia).
  assert (Hp : (30 <= qr_period c' <= 180)%Z) by (rewrite B8; destruct (Z.eqb_spec (qr_period c) 0); lia).
  assert (Ht : without "/" (qr_type c')).
  { rewrite B1. destruct V5 as [->|[-> _]]; intros K; cbn in K; intuition discriminate. }
  assert (Ha : without "&" (qr_algorithm c')).
  { rewrite B6. intros K. repeat (destruct V6 as [V6|V6]; [rewrite <- V6 in K; cbn in K; intuition discriminate|]). destruct V6. }
  eexists. split.
  { rewrite Tx. unfold read_uri. fold (read_uri (qr_uri c')).
    assert (G : read_uri (qr_uri c') = Some {| o_type := qr_type c'; o_label := query_escape (qr_label c'); o_params := params_of c' |}).
    { destruct (Z.leb_spec 0 (qr_counter c')).
      - apply read_uri_qr; auto; lia.
      - set (c2 := {| qr_type := qr_type c'; qr_secret := qr_secret c'; qr_algorithm := qr_algorithm c'; qr_label := qr_label c';
          qr_issuer := qr_issuer c'; qr_period := qr_period c'; qr_digits := qr_digits c'; qr_counter := 0; qr_text := ""; qr_encoded := "" |}).
        assert (qr_uri c' = qr_uri c2 /\ params_of c' = params_of c2) as [-> ->].
        { unfold qr_uri, params_of, c2. cbn [qr_type qr_secret qr_algorithm qr_label qr_issuer qr_period qr_digits qr_counter].
          replace (qr_counter c' >? 0)%Z with false by lia. split; reflexivity. }
        apply (read_uri_qr c2); cbn; auto; lia. }
    exact G. }
  unfold uri_says. cbn [o_type o_label o_params]. split; [reflexivity|]. split; [apply query_roundtrip|].
  pose proof (sprint_d_number (qr_digits c') ltac:(lia)) as Nd. pose proof (sprint_d_number (qr_period c') ltac:(lia)) as Np.
  unfold params_of. replace (qr_digits c' >? 0)%Z with true by lia. replace (qr_period c' >? 0)%Z with true by lia.
  replace (1 <=? qr_counter c')%Z with (qr_counter c' >? 0)%Z by lia.
  assert (S : b32_decode (b32_encode (qr_secret c')) = Some (qr_secret c')) by apply b32_roundtrip.
  assert (I : query_unescape (query_escape (qr_issuer c')) = Some (qr_issuer c')) by apply query_roundtrip.
  destruct (Z.gtb_spec (qr_counter c') 0) as [Hc|Hc]; [pose proof (sprint_d_number (qr_counter c') ltac:(lia)) as Nc|];
    destruct (String.eqb (qr_issuer c') ""), (String.eqb (qr_algorithm c') ""); cbn [app map fst lookup_param];
    (split; [repeat constructor; cbn; intuition discriminate|]);
    (split; [cbn; intuition|]);
    unfold lookup_param; cbn; repeat split; eauto.
Qed.
