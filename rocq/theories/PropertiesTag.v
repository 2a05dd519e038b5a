(** Theorems about the struct tag check (C98). *)
From Coq Require Import String Ascii ZArith NArith Lia Bool Arith List.
From Verif Require Import GoStr Tag SpecTag TagFacts.
Import ListNotations.
Open Scope string_scope.

(** A struct passes exactly when the check is switched off or nothing is wrong with any field. *)
Theorem C98_accepts snake quote name fields o msgs :
  tag_compliance snake quote (ResElem "struct" name fields) o = TagOk msgs <->
  msgs = [] /\ (to_disabled (options o) = true \/ forall m, ~ complaint snake (options o) name fields m).
Proof.
  unfold tag_compliance. fold opts_z. change (match o with Some o => o | None => opts_z end) with (options o). generalize (options o). intros p.
  destruct (to_disabled p); [split; [intros [=<-]; auto|now intros (-> & _)]|]. cbn [String.eqb negb Ascii.eqb Bool.eqb].
  destruct (check_fields snake p name fields) as [out sug] eqn:C.
  assert (O : forall m, In m out <-> complaint snake p name fields m) by (intros m; rewrite <- check_fields_out, C; reflexivity).
  assert (S : sug <> [] -> out <> []).
  { intros Hs. destruct sug as [|s sug]; [congruence|]. assert (Hi : In s (snd (check_fields snake p name fields))) by (rewrite C; now left).
    apply check_fields_sug in Hi as (f & Hf & Hm & _). assert (Q : In (missing_text name f "yaml") out) by (apply O; now apply Missing).
    intros ->. exact Q. }
  destruct out as [|m out].
  - destruct sug as [|s sug]; [|now destruct (S ltac:(discriminate))]. split; [intros [=<-]; split; [reflexivity|right; intros m Hm; now apply O in Hm]|now intros (-> & _)].
  - split; [destruct sug; discriminate|]. intros (_ & [H|H]); [discriminate|]. exfalso. apply (H m), O. now left.
Qed.
Print Assumptions C98_accepts.

(** When it does not pass, the messages are exactly the complaints, followed by one suggestion if
    some field lacks its last tag. *)
Theorem C98_reports snake quote name fields o msgs e :
  tag_compliance snake quote (ResElem "struct" name fields) o = TagErr msgs e ->
  e = "struct " ++ quote name ++ " is not compliant" /\
  exists msgs0 tail, msgs = (msgs0 ++ tail)%list /\ (forall m, In m msgs0 <-> complaint snake (options o) name fields m) /\
    ((tail = [] /\ forall f, In f fields -> ~ missing (options o) f "yaml") \/
     (exists lines, tail = [("suggested struct changes to " ++ name ++ ":" ++ newline ++ join newline lines)%string] /\ lines <> [] /\
        forall s, In s lines <-> exists f body, In f fields /\ missing (options o) f "yaml" /\ suggested snake (options o) f body s)).
Proof.
  unfold tag_compliance. fold opts_z. change (match o with Some o => o | None => opts_z end) with (options o). generalize (options o). intros p.
  destruct (to_disabled p); [discriminate|]. cbn [String.eqb negb Ascii.eqb Bool.eqb].
  destruct (check_fields snake p name fields) as [out sug] eqn:C. intros H.
  assert (O : forall m, In m out <-> complaint snake p name fields m) by (intros m; rewrite <- check_fields_out, C; reflexivity).
  assert (S : forall s, In s sug <-> exists f body, In f fields /\ missing p f "yaml" /\ suggested snake p f body s).
  { intros s. transitivity (In s (snd (check_fields snake p name fields))); [now rewrite C|]. rewrite check_fields_sug. split.
    - intros (f & Hf & Hm & ->). exists f, (tags_body (want snake p f)). split; [exact Hf|]. split; [exact Hm|]. unfold suggestion. rewrite make_tags_body.
      apply (Suggested snake p f (replace_all (sf_type f) "identity." "") (want snake p f)); [now apply replace_all_spec|now apply expected_spec|reflexivity].
    - intros (f & body & Hf & Hm & Hs). exists f. split; [exact Hf|]. split; [exact Hm|]. destruct Hs as [ty w body Ht He Eb].
      apply replace_all_spec in Ht; [|discriminate]. apply expected_spec in He. subst. unfold suggestion. now rewrite make_tags_body. }
  destruct sug as [|s0 sug].
  - destruct out as [|m0 out]; [discriminate|]. injection H as <- <-. split; [reflexivity|]. exists (m0 :: out), []. rewrite app_nil_r. split; [reflexivity|]. split; [exact O|].
    left. split; [reflexivity|]. intros f Hf Hm. apply (proj2 (S (suggestion f (want snake p f)))). exists f, (tags_body (want snake p f)). split; [exact Hf|]. split; [exact Hm|].
    unfold suggestion. rewrite make_tags_body.
    apply (Suggested snake p f (replace_all (sf_type f) "identity." "") (want snake p f)); [now apply replace_all_spec|now apply expected_spec|reflexivity].
  - destruct (out ++ _)%list eqn:Eo in H; [destruct out; discriminate|]. injection H as <- <-. split; [reflexivity|].
    exists out, [("suggested struct changes to " ++ name ++ ":" ++ newline ++ join newline (s0 :: sug))%string].
    split; [now rewrite <- Eo|]. split; [exact O|]. right. exists (s0 :: sug). split; [reflexivity|]. split; [discriminate|exact S].
Qed.
Print Assumptions C98_reports.

(** Following the suggestion ends the complaints about the field. *)
Theorem C98_suggestion snake o f g body s want :
  suggested snake o f body s -> expected snake o (sf_name f) want -> plain want -> want <> "" ->
  sf_name g = sf_name f -> (forall t, sf_tag g t = tag_get body t) -> forall sname m, ~ complaint snake o sname [g] m.
Proof.
  intros S E P N Hg Ht sname m C. destruct S as [ty w body _ Ew ->]. apply expected_spec in E, Ew. rewrite <- E in Ew. subst w.
  fold (tags_body want) in Ht.
  assert (T : forall t, In t required_tags -> sf_tag g t = want) by (intros t It; rewrite Ht; now apply tags_body_get).
  assert (I : forall t, seen g t -> In t required_tags) by (unfold seen, required_tags; cbn; intuition).
  destruct C as [f0 t [<-|[]] (_ & Hs & He & _)|f0 t w [<-|[]] (_ & Hs & He & Hw & _)].
  - rewrite (T _ (I _ Hs)) in He. congruence.
  - apply expected_spec in He. rewrite Hg, <- E in He. rewrite (T _ (I _ Hs)) in Hw. congruence.
Qed.
Print Assumptions C98_suggestion.

(** Everything that is not a struct: nil and types without an element type make it panic. *)
Theorem C98_others snake quote r o : to_disabled (options o) = false ->
  (tag_compliance snake quote r o = TagPanic <-> r = ResNil \/ r = ResFlat) /\
  (forall kind name fields, r = ResElem kind name fields -> kind <> "struct" ->
     tag_compliance snake quote r o = TagErr [] ("resource kind " ++ quote kind ++ " is unsupported")).
Proof.
  intros D. unfold tag_compliance. fold opts_z. change (match o with Some o => o | None => opts_z end) with (options o). rewrite D. split.
  - destruct r as [| |kind name fields]; [tauto|tauto|]. split; [|intros [[=]|[=]]]. destruct (negb _); [discriminate|].
    destruct (check_fields snake (options o) name fields) as [out sug]. destruct sug, out; discriminate.
  - intros kind name fields -> K. destruct (String.eqb_spec kind "struct"); [congruence|reflexivity].
Qed.
Print Assumptions C98_others.

(** A field name in ASCII is checked exactly when Go exports it. *)
Theorem C98_exported a t : (N_of_ascii a < 128)%N -> capital (String a t) <-> (65 <= N_of_ascii a <= 90)%N.
Proof. intros H. unfold capital. split; [intros (b & u & [=<- <-] & Q); lia|intros Q; exists a, t; split; [reflexivity|now left]]. Qed.
Print Assumptions C98_exported.

(** Fields that Go does not export can be checked too: the first byte of a name is taken for its
    first character.  The name here is "ä" followed by "x", a lower case letter. *)
Definition lower_name : string := sol [ascii_of_N 195; ascii_of_N 164; "x"%char].
Theorem C98_exported_refuted : exists snake quote f msgs e,
  sf_name f = lower_name /\ tag_compliance snake quote (ResElem "struct" "T" [f]) None = TagErr msgs e.
Proof.
  exists (fun s => s), (fun s => s), {| sf_name := lower_name; sf_type := "int"; sf_tag := fun _ => "" |}. eexists. eexists. split; [reflexivity|].
  vm_compute. reflexivity.
Qed.
Print Assumptions C98_exported_refuted.

(** A struct with a missing tag, a wrong tag and a hidden field. *)
Example C98_ex :
  let f1 := {| sf_name := "ID"; sf_type := "*identity.User"; sf_tag := tag_get "json:""id,omitempty"" xml:""id""" |} in
  let f2 := {| sf_name := "Key"; sf_type := "string"; sf_tag := tag_get "json:""-""" |} in
  let f3 := {| sf_name := "cache"; sf_type := "string"; sf_tag := tag_get "" |} in
  let snake := fun s => if String.eqb s "ID" then "id" else "key" in
  tag_compliance snake (fun s => s) (ResElem "struct" "Item" [f1; f2; f3]) None =
  TagErr ["tag ""xml"" mismatch found in Item.ID (*identity.User): id (actual) vs. id,omitempty (expected)";
          "tag ""yaml"" not found in Item.ID (*identity.User)";
          "suggested struct changes to Item:" ++ newline ++ "ID *User `json:""id,omitempty"" xml:""id,omitempty"" yaml:""id,omitempty""`"]
    "struct Item is not compliant" /\
  tag_compliance snake (fun s => s) (ResElem "struct" "Item" [f2; f3]) None = TagOk [] /\
  field_to_tag (fun s => s) "fingerprint_md_5_open_ssh" = "fingerprint_md5_openssh".
Proof. vm_compute. split; [reflexivity|]. split; reflexivity. Qed.
