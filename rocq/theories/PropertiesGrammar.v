(** Theorems about the texts that are read as JSON (C113). *)
From Coq Require Import String Ascii ZArith NArith Lia Bool Arith List.
From Coq Require Import ZifyBool ZifyNat ZifyN.
From stdpp Require Import gmap strings.
From Verif Require Import GoStr Utf8 Json JsonFacts GoTime Types Env Persist Fs Database System SpecDb SpecPersist SpecLayout SpecRead ReadFacts LayoutFacts SpecWebAuthn SpecMeaning MeaningFacts PropertiesLayout SpecJson GrammarFacts OddTimeFacts.
Import ListNotations.
Open Scope string_scope.

(** C113 *)
(** The reader accepts exactly the JSON texts, and reads what they say. *)
Theorem C113_reads t v : parse t = Some v <-> json_text t v.
Proof. exact (parse_iff t v). Qed.
Print Assumptions C113_reads.
(** A text says at most one thing. *)
Theorem C113_one t v v' : json_text t v -> json_text t v' -> v = v'.
Proof. rewrite <- !parse_iff. congruence. Qed.
Print Assumptions C113_one.
(** A database file is a JSON text of an object (or of null) whose members mean the database. *)
Theorem C113_file s c : unmarshal s = DOk c <-> exists v m, json_text (los s) v /\ (v = JObj m \/ v = JNull /\ m = []) /\ s_content m c.
Proof.
  rewrite unmarshal_iff. unfold database_text, message_text. split.
  - intros (m & [P|[P ->]] & S); (eexists _, _; split; [apply parse_iff; exact P|]; split; [|exact S]); [now left|now right].
  - intros (v & m & P & K & S). apply parse_iff in P. exists m. split; [|exact S]. destruct K as [->|[-> ->]]; [now left|now right].
Qed.
Print Assumptions C113_file.
(** What a successful call writes is a JSON text. *)
Theorem C113_written E nd op db fs r : writes op -> o_res (exec E nd op db fs r) = OOk -> exists s v,
  o_fs (exec E nd op db fs r) = <[written_path op db := File s]> fs /\ json_text (los s) v.
Proof. intros W O. destruct (C93_file E nd op db fs r W O) as (s & F & P). apply parse_iff in P. eauto. Qed.
Print Assumptions C113_written.
(** A text of an object that was cut short says nothing. *)
Theorem C113_cut p q m v : json_text (p ++ q)%list (JObj m) -> json_text p v -> space q /\ v = JObj m.
Proof.
  intros A B. apply parse_iff in A, B. unfold parse in A, B.
  destruct (pv (S (List.length p)) p) as [[x r]|] eqn:P; [|discriminate]. destruct (skip_ws r) as [|? ?] eqn:K; [|discriminate]. destruct (depth x <=? max_depth)%N; [|discriminate].
  injection B as ->. destruct (pv (S (List.length (p ++ q))) (p ++ q)) as [[y r']|] eqn:P'; [|discriminate].
  destruct (skip_ws r') as [|? ?] eqn:K'; [|discriminate]. destruct (depth y <=? max_depth)%N; [|discriminate]. injection A as ->.
  assert (V : not_num v).
  { destruct v; try exact I. exfalso. destruct (proj1 (value_sound _) _ _ _ P) as (w & t & E & W & S). destruct (proj1 (value_sound _) _ _ _ P') as (w' & t' & E' & W' & S').
    inversion S as [| | |? N| | |]; subst. inversion S'; subst. destruct (number_first t N) as (a & u & -> & D).
    assert (A : is_ws a = false) by (destruct D as [->|D]; [reflexivity|apply digit_iff in D; unfold is_ws; lia]).
    assert (X : skip_ws ((w ++ (a :: u) ++ r) ++ q)%list = a :: (u ++ r ++ q)%list) by (rewrite <- !app_assoc, skip_space by exact W; cbn; now rewrite A).
    rewrite E', skip_space in X by exact W'. cbn in X. injection X as X _. subst a. destruct D as [D|D]; discriminate. }
  assert (L : (S (List.length p) <= S (List.length (p ++ q)))%nat) by (rewrite app_length; lia).
  rewrite (proj1 (parse_app q _) _ _ _ _ L P (or_intror V)) in P'. injection P' as -> <-. split; [|reflexivity].
  destruct (skip_sound (r ++ q)) as (w & E & W). rewrite K', app_nil_r in E. rewrite <- E in W. apply Forall_app in W. apply W.
Qed.
Print Assumptions C113_cut.
(** A text is refused as a time exactly if it is neither a time nor one of those not modelled. *)
Theorem C113_times cur s : dec_val time_ cur (JStr s) = DErr <-> (forall t, ~ says_time (los s) t) /\ ~ odd_time (los s).
Proof.
  cbn. rewrite <- time_odd_iff. split.
  - destruct (time_parse (los s)) as [t|] eqn:P; [discriminate|]. destruct (time_odd (los s)); [discriminate|]. intros _. split; [|discriminate].
    intros t H. apply time_parse_iff in H. congruence.
  - intros [H K]. destruct (time_parse (los s)) as [t|] eqn:P; [apply time_parse_iff in P; now destruct (H t)|]. now destruct (time_odd (los s)).
Qed.
Print Assumptions C113_times.

(** a stray byte, a short escape, two surrogates, a lone one *)
Definition tricky : list ascii := (los " [-0.5E+7 , { ""a"" : """ ++ bytes [195]%N ++ los "\n\" ++ los "uD83D\" ++ los "ude00\" ++ los "ud83d"" } , [ ] ] ")%list.
Example C113_ex : json_text tricky (JArr [JNum "-0.5E+7"; JObj [("a", JStr (sol (bytes [239; 191; 189; 10; 240; 159; 152; 128; 239; 191; 189]%N)))]; JArr []]) /\
  (forall v, ~ json_text (los "[1,]") v) /\ (forall v, ~ json_text (los "[01]") v) /\ (forall v, ~ json_text (los "{""a"":1") v) /\ (forall v, ~ json_text (los "nul") v) /\
  (forall v, ~ json_text (bytes [34; 9; 34]%N) v).
Proof.
  split; [apply parse_iff; vm_compute; reflexivity|]. repeat split; intros v H; apply parse_iff in H; vm_compute in H; discriminate.
Qed.
Example C113_ex_cut : json_text (los "{""a"":1}" ++ los " ")%list (JObj [("a", JNum "1")]) /\ json_text (los "{""a"":1}") (JObj [("a", JNum "1")]).
Proof. split; apply parse_iff; vm_compute; reflexivity. Qed.
Example C113_ex_times : odd_time (los "2021-01-01T1:00:00,5+02:00") /\ (forall t, ~ says_time (los "2021-02-29T01:00:00Z") t) /\ ~ odd_time (los "2021-02-29T01:00:00Z").
Proof.
  split; [apply time_odd_iff; vm_compute; reflexivity|]. split; [intros t H; apply time_parse_iff in H; vm_compute in H; discriminate|].
  intros H. apply time_odd_iff in H. vm_compute in H. discriminate.
Qed.
