(** Facts about [Tag.v]. *)
From Coq Require Import String Ascii ZArith NArith Lia Bool Arith List.
From Coq Require Import ZifyBool ZifyNat ZifyN.
From Verif Require Import GoStr Tag SpecTag.
Import ListNotations.
Open Scope string_scope.

Lemma starts_spec p l : starts p l = true <-> exists t, l = (p ++ t)%list.
Proof.
  revert l. induction p as [|a p IH]; intros l; cbn.
  - split; [intros _; now exists l|reflexivity].
  - destruct l as [|b l]; [split; [discriminate|intros (t & [=])]|].
    rewrite andb_true_iff, IH. destruct (Ascii.eqb_spec a b) as [->|N].
    + split; [intros (_ & t & ->); now exists t|intros (t & [=->]); split; [reflexivity|now exists t]].
    + split; [intros ([=] & _)|intros (t & [=]); congruence].
Qed.
Lemma replace_spec old new : old <> [] -> forall n l, List.length l <= n -> replaced old new l (replace_l n old new l).
Proof.
  intros Ho n. induction n as [|n IH]; intros l Hl.
  - destruct l; [constructor|cbn in Hl; lia].
  - destruct l as [|a t]; [constructor|]. cbn [replace_l].
    destruct (starts old (a :: t)) eqn:S.
    + apply starts_spec in S as (r & E). rewrite E. rewrite skipn_app, skipn_all, Nat.sub_diag. cbn [skipn app].
      apply RepHit, IH. assert (List.length (a :: t) = List.length (old ++ r)) by now rewrite E.
      rewrite app_length in H. cbn in H, Hl. destruct old; [congruence|cbn in H; lia].
    + apply RepMiss; [|apply IH; cbn in Hl; lia]. intros r E. assert (starts old (a :: t) = true); [|congruence].
      apply starts_spec. now exists r.
Qed.
Lemma replaced_fun old new l r : replaced old new l r -> old <> [] -> forall r', replaced old new l r' -> r = r'.
Proof.
  intros H Ho. induction H as [|l r H IH|a l r Hm H IH]; intros r' H'.
  - inversion H' as [|l0 r0 H0 E|]; subst; [reflexivity|]. destruct old; [congruence|discriminate].
  - remember (old ++ l)%list as x eqn:Ex. destruct H' as [|l0 r0 H0|a l0 r0 Hm H0].
    + destruct old; [congruence|discriminate].
    + apply app_inv_head in Ex as ->. f_equal. now apply IH.
    + now apply Hm in Ex.
  - remember (a :: l)%list as x eqn:Ex. destruct H' as [|l0 r0 H0|b l0 r0 Hm' H0].
    + discriminate.
    + now destruct (Hm l0).
    + injection Ex as -> ->. f_equal. now apply IH.
Qed.

Lemma replace_all_spec s old new r : old <> "" -> replaced_by old new s r <-> r = replace_all s old new.
Proof.
  intros Ho. assert (Ho' : los old <> []) by (destruct old; [congruence|discriminate]).
  assert (H : replaced_by old new s (replace_all s old new)).
  { unfold replaced_by, replace_all. rewrite los_sol. apply replace_spec; [exact Ho'|]. now rewrite length_los. }
  split; [|intros ->; exact H]. intros H1. apply los_inj. exact (replaced_fun _ _ _ _ H1 Ho' _ H).
Qed.
Lemma expected_spec snake o name w :
  expected snake o name w <-> w = field_to_tag snake name ++ (if to_no_empty o then "" else ",omitempty").
Proof.
  unfold field_to_tag. split.
  - intros [a b Ha Hb]. apply replace_all_spec in Ha; [|discriminate]. apply replace_all_spec in Hb; [|discriminate]. now subst.
  - intros ->. apply Expected with (a := replace_all (snake name) "_md_5" "_md5"); apply replace_all_spec; (discriminate || reflexivity).
Qed.
Lemma exported_spec s : exported s = true <-> capital s.
Proof.
  unfold capital. destruct s as [|a t]; cbn.
  - split; [discriminate|intros (a & t & [=] & _)].
  - unfold upper_byte. split.
    + intros H. exists a, t. split; [reflexivity|lia].
    + intros (b & u & [=<- <-] & H). lia.
Qed.

(** ** One field *)
Definition visited (f : SField) (tags : list string) (t : string) : Prop :=
  exists pre post, tags = (pre ++ t :: post)%list /\ (forall p, In p pre -> sf_tag f p <> "-") /\ sf_tag f t <> "-".
Lemma visited_nil f t : ~ visited f [] t.
Proof. intros (pre & post & E & _). destruct pre; discriminate. Qed.
Lemma visited_cons f a tags t : visited f (a :: tags) t <-> sf_tag f a <> "-" /\ (t = a \/ visited f tags t).
Proof.
  split.
  - intros ([|p pre] & post & E & Hp & Ht); cbn in E; injection E as -> ->; [split; [exact Ht|now left]|].
    split; [apply Hp; now left|right]. exists pre, post. split; [reflexivity|]. split; [|exact Ht]. intros q Hq. apply Hp. now right.
  - intros (Ha & [->|(pre & post & -> & Hp & Ht)]).
    + exists [], tags. split; [reflexivity|]. split; [now intros p []|exact Ha].
    + exists (a :: pre), post. split; [reflexivity|]. split; [|exact Ht]. intros q [<-|Hq]; [exact Ha|now apply Hp].
Qed.
Lemma visited_seen f t : visited f required_tags t <-> seen f t.
Proof.
  unfold required_tags, seen. rewrite !visited_cons. pose proof (visited_nil f t). tauto.
Qed.
Definition lacks (o : TagOpts) (f : SField) (t : string) : Prop := sf_tag f t = "" /\ to_no_present o = false.
Definition differs (o : TagOpts) (f : SField) (t want : string) : Prop := sf_tag f t <> want /\ to_no_mismatch o = false /\ ~ lacks o f t.
Lemma check_tags_out o sname f want tags m :
  In m (fst (check_tags o sname f want tags)) <->
  exists t, visited f tags t /\ ((lacks o f t /\ m = missing_text sname f t) \/ (differs o f t want /\ m = wrong_text sname f t want)).
Proof.
  induction tags as [|a tags IH].
  - cbn. split; [tauto|]. intros (t & H & _). now apply visited_nil in H.
  - assert (R : forall P : string -> Prop, (exists t, visited f (a :: tags) t /\ P t) <-> (sf_tag f a <> "-" /\ (P a \/ exists t, visited f tags t /\ P t))).
    { intros P. split.
      - intros (t & V & Q). apply visited_cons in V as (Ha & [->|V]); [tauto|]. split; [exact Ha|right; now exists t].
      - intros (Ha & [Q|(t & V & Q)]); [exists a|exists t]; (split; [apply visited_cons; tauto|exact Q]). }
    rewrite R. clear R.
    set (X := exists t, visited f tags t /\ ((lacks o f t /\ m = missing_text sname f t) \/ (differs o f t want /\ m = wrong_text sname f t want))) in *.
    clearbody X. unfold differs, lacks. cbn [check_tags]. cbv zeta. destruct (check_tags o sname f want tags) as [out sug]. cbn [fst] in IH.
    destruct (String.eqb_spec (sf_tag f a) "-") as [H0|H0]; [cbn; tauto|].
    destruct (String.eqb_spec (sf_tag f a) "") as [H1|H1], (to_no_present o); cbn [negb andb];
      try (destruct (String.eqb_spec (sf_tag f a) want) as [H2|H2], (to_no_mismatch o); cbn [negb andb]); cbn [fst In];
      fold (missing_text sname f a); fold (wrong_text sname f a want); intuition congruence.
Qed.
Definition suggestion (f : SField) (want : string) : string :=
  sf_name f ++ " " ++ replace_all (sf_type f) "identity." "" ++ " " ++ make_tags required_tags want.
Lemma check_tags_sug o sname f want :
  (seen f "yaml" /\ lacks o f "yaml" /\ snd (check_tags o sname f want required_tags) = [suggestion f want]) \/
  (~ (seen f "yaml" /\ lacks o f "yaml") /\ snd (check_tags o sname f want required_tags) = []).
Proof.
  assert (S : seen f "yaml" <-> (sf_tag f "json" <> "-" /\ sf_tag f "xml" <> "-" /\ sf_tag f "yaml" <> "-")).
  { unfold seen. intuition discriminate. }
  rewrite S. clear S. unfold required_tags, lacks. cbn [check_tags]. cbv zeta.
  set (j := sf_tag f "json"). set (x := sf_tag f "xml"). set (y := sf_tag f "yaml").
  assert (Y : forall b : bool, (y =? "")%string && b = false -> b = negb (to_no_present o) -> ~ (y = "" /\ to_no_present o = false)).
  { intros b H ->. destruct (String.eqb_spec y ""), (to_no_present o); cbn in H; intuition congruence. }
  repeat match goal with |- context [if ?b then _ else _] => lazymatch b with context [if _ then _ else _] => fail | _ => destruct b eqn:? end end; cbn [snd];
  repeat match goal with H : (_ =? _)%string = true |- _ => apply String.eqb_eq in H | H : (_ =? _)%string = false |- _ => apply String.eqb_neq in H end;
  try (right; split; [|reflexivity]; solve [tauto|intros (_ & H); eapply Y in H; eauto]).
  all: left; split; [tauto|]; split; [|reflexivity].
  all: repeat match goal with H : andb _ _ = true |- _ => apply andb_prop in H as [? ?] end;
       repeat match goal with H : (_ =? _)%string = true |- _ => apply String.eqb_eq in H | H : negb _ = true |- _ => apply negb_true_iff in H end; tauto.
Qed.

(** ** All fields *)
Definition want (snake : string -> string) (o : TagOpts) (f : SField) : string :=
  field_to_tag snake (sf_name f) ++ (if to_no_empty o then "" else ",omitempty").
Lemma check_fields_out snake o sname l m : In m (fst (check_fields snake o sname l)) <-> complaint snake o sname l m.
Proof.
  assert (C : complaint snake o sname l m <-> exists f, In f l /\ exported (sf_name f) = true /\ In m (fst (check_tags o sname f (want snake o f) required_tags))).
  { split.
    - intros [f t Hf (Hc & Hs & Hl)|f t w Hf (Hc & Hs & He & Hw & Hm & Hn)]; exists f; (split; [exact Hf|]; split; [now apply exported_spec|]);
        apply check_tags_out; exists t; (split; [now apply visited_seen|]); [left; split; [exact Hl|reflexivity]|right].
      apply expected_spec in He as ->. split; [|reflexivity]. split; [exact Hw|]. split; [exact Hm|]. intros L. apply Hn. split; [exact Hc|]. split; [exact Hs|exact L].
    - intros (f & Hf & Hx & Hm). apply exported_spec in Hx. apply check_tags_out in Hm as (t & V & [(L & ->)|((D1 & D2 & D3) & ->)]); apply visited_seen in V.
      + apply Missing; [exact Hf|]. split; [exact Hx|]. split; [exact V|exact L].
      + apply Wrong; [exact Hf|]. split; [exact Hx|]. split; [exact V|]. split; [now apply expected_spec|]. split; [exact D1|]. split; [exact D2|]. intros (_ & _ & L). now apply D3. }
  rewrite C. clear C. induction l as [|f l IH]; cbn [check_fields].
  - cbn. split; [tauto|]. intros (f & [] & _).
  - destruct (check_fields snake o sname l) as [out sug]. cbn [fst] in IH. cbv zeta. fold (want snake o f).
    destruct (exported (sf_name f)) eqn:X.
    + destruct (check_tags o sname f (want snake o f) required_tags) as [out1 sug1] eqn:T. cbn [fst]. rewrite in_app_iff, IH. split.
      * intros [H|(g & Hg & Q)]; [exists f|exists g]; (split; [cbn; tauto|]); [split; [exact X|now rewrite T]|exact Q].
      * intros (g & [<-|Hg] & Q); [left; rewrite T in Q; apply Q|right; now exists g].
    + cbn [fst]. rewrite IH. split; [intros (g & Hg & Q); exists g; split; [now right|exact Q]|].
      intros (g & [<-|Hg] & Q1 & Q2); [congruence|now exists g].
Qed.
Lemma check_fields_sug snake o sname l s :
  In s (snd (check_fields snake o sname l)) <-> exists f, In f l /\ missing o f "yaml" /\ s = suggestion f (want snake o f).
Proof.
  induction l as [|f l IH]; cbn [check_fields].
  - cbn. split; [tauto|]. intros (f & [] & _).
  - destruct (check_fields snake o sname l) as [out sug]. cbn [snd] in IH. cbv zeta. fold (want snake o f).
    assert (R : (exists g, In g (f :: l) /\ missing o g "yaml" /\ s = suggestion g (want snake o g)) <->
                (missing o f "yaml" /\ s = suggestion f (want snake o f)) \/ (exists g, In g l /\ missing o g "yaml" /\ s = suggestion g (want snake o g))).
    { split; [intros (g & [<-|Hg] & Q); [now left|right; now exists g]|intros [Q|(g & Hg & Q)]; [exists f|exists g]; (split; [cbn; tauto|exact Q])]. }
    rewrite R. clear R. rewrite <- IH. unfold missing. rewrite <- exported_spec. fold (lacks o f "yaml").
    destruct (exported (sf_name f)) eqn:X.
    + pose proof (check_tags_sug o sname f (want snake o f)) as S. destruct (check_tags o sname f (want snake o f) required_tags) as [out1 sug1].
      cbn [snd] in *. rewrite in_app_iff. destruct S as [(S1 & S2 & ->)|(S1 & ->)]; cbn [In]; intuition congruence.
    + cbn [snd]. intuition congruence.
Qed.

(** ** Following the suggestion *)
Lemma scan_value_plain w r : Forall (fun a => N_of_ascii a <> 34%N /\ N_of_ascii a <> 92%N) w -> scan_value (w ++ """"%char :: r) = Some (w, r).
Proof.
  induction 1 as [|a w [H1 H2] _ IH]; [reflexivity|]. cbn [app scan_value].
  destruct (N.eqb_spec (N_of_ascii a) 34); [congruence|]. destruct (N.eqb_spec (N_of_ascii a) 92); [congruence|]. now rewrite IH.
Qed.
Definition tags_body (w : string) : string := "json:""" ++ w ++ """ xml:""" ++ w ++ """ yaml:""" ++ w ++ """".
Lemma make_tags_body w : make_tags required_tags w = "`" ++ tags_body w ++ "`".
Proof.
  unfold make_tags, tags_body, required_tags, join. cbn [map String.concat].
  apply los_inj. rewrite !los_app. cbn [los app]. rewrite <- ?app_assoc. cbn [app]. reflexivity.
Qed.
Lemma tag_scan_hit n k key w r :
  scan_key (skip_blanks (k ++ ":"%char :: """"%char :: w ++ """"%char :: r)) = (key, ":"%char :: """"%char :: w ++ """"%char :: r) -> key <> [] ->
  Forall (fun a => N_of_ascii a <> 34%N /\ N_of_ascii a <> 92%N) w ->
  forall key', tag_scan (S n) (k ++ ":"%char :: """"%char :: w ++ """"%char :: r) key' = if String.eqb (sol key) (sol key') then w else tag_scan n r key'.
Proof.
  intros E K P key'. cbn [tag_scan]. rewrite E. destruct key as [|a key]; [congruence|]. cbn [N_of_ascii]. change (N_of_ascii ":" =? 58)%N with true.
  change (N_of_ascii """" =? 34)%N with true. cbn [andb]. now rewrite scan_value_plain.
Qed.
Lemma tags_body_get w t : plain w -> In t required_tags -> tag_get (tags_body w) t = w.
Proof.
  unfold plain. intros P. unfold tag_get. remember (S (String.length (tags_body w))) as n eqn:En.
  assert (Hn : (3 <= n)%nat). { subst n. unfold tags_body. cbn. lia. } clear En.
  destruct n as [|[|[|n]]]; try lia. clear Hn.
  assert (B : los (tags_body w) = (los "json" ++ ":"%char :: """"%char :: los w ++ """"%char :: (los " xml" ++ ":"%char :: """"%char :: los w ++ """"%char :: (los " yaml" ++ ":"%char :: """"%char :: los w ++ """"%char :: [])))%list).
  { unfold tags_body. rewrite !los_app. cbn [los app]. reflexivity. }
  rewrite B. intros [<-|[<-|[<-|[]]]].
  - rewrite (tag_scan_hit _ _ (los "json")); [|reflexivity|discriminate|exact P]. cbn. apply sol_los.
  - rewrite (tag_scan_hit _ _ (los "json")); [|reflexivity|discriminate|exact P]. cbn [String.eqb sol los Ascii.eqb Bool.eqb].
    rewrite (tag_scan_hit _ _ (los "xml")); [|reflexivity|discriminate|exact P]. cbn. apply sol_los.
  - rewrite (tag_scan_hit _ _ (los "json")); [|reflexivity|discriminate|exact P]. cbn [String.eqb sol los Ascii.eqb Bool.eqb].
    rewrite (tag_scan_hit _ _ (los "xml")); [|reflexivity|discriminate|exact P]. cbn [String.eqb sol los Ascii.eqb Bool.eqb].
    rewrite (tag_scan_hit _ _ (los "yaml")); [|reflexivity|discriminate|exact P]. cbn. apply sol_los.
Qed.
