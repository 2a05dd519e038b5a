(** Theorems about reading database files that were not written by the package (C106). *)
From Coq Require Import String Ascii ZArith NArith Lia Bool Arith List.
From stdpp Require Import gmap strings.
From RecordUpdate Require Import RecordSet.
From Verif Require Import GoStr Json GoTime Types Env Persist PersistFacts Fs Database SpecLayout SpecRead ReadFacts Examples.
Import ListNotations.
Import RecordSetNotations.
Open Scope string_scope.

(** C106 *)
(** Reordering members, at any depth, changes nothing. *)
Theorem C106_order s s' j j' c : parse (los s) = Some j -> parse (los s') = Some j' -> reordered j j' ->
  unmarshal s = DOk c <-> unmarshal s' = DOk c.
Proof.
  intros P P' R. split; intros U.
  - exact (unmarshal_edited s s' j j' c P P' (reordered_edited _ _ R) U).
  - exact (unmarshal_edited s' s j' j c P' P (reordered_edited _ _ (reordered_sym _ _ R)) U).
Qed.
Print Assumptions C106_order.
(** Nor does leaving out members of unknown names and values that are given again. *)
Theorem C106_edits s s' j j' c : parse (los s) = Some j -> parse (los s') = Some j' -> edited j j' ->
  unmarshal s = DOk c -> unmarshal s' = DOk c.
Proof. exact (unmarshal_edited s s' j j' c). Qed.
Print Assumptions C106_edits.
(** So such files open as the same database. *)
Theorem C106_opened E nd fp fs s s' j j' db : has_prefix fp "~" = false -> parse (los s) = Some j -> parse (los s') = Some j' -> edited j j' ->
  snd (new_database E nd fp (<[fp := File s]> fs)) = Loaded db -> snd (new_database E nd fp (<[fp := File s']> fs)) = Loaded db.
Proof.
  intros H P P' Ed. apply (open_edited E nd fp _ _ db s s'); [apply lookup_insert|apply lookup_insert|unfold expand; now rewrite H|].
  intros c. exact (unmarshal_edited s s' j j' c P P' Ed).
Qed.
Print Assumptions C106_opened.
(** Of two objects for one field the last does not win: they are merged. *)
Theorem C106_last_refuted : exists s s' m1 k v w m2 c c', parse (los s) = Some (JObj (m1 ++ (k, v) :: (k, w) :: m2)) /\
  parse (los s') = Some (JObj (m1 ++ (k, w) :: m2)) /\ w <> JNull /\ unmarshal s = DOk c /\ unmarshal s' = DOk c' /\
  pp_min (po_password (rc_policy c)) = 3%Z /\ pp_min (po_password (rc_policy c')) = 0%Z.
Proof.
  exists "{""policy"":{""password"":{""min_length"":3}},""policy"":{""user"":{""min_length"":4}}}", "{""policy"":{""user"":{""min_length"":4}}}".
  exists [], "policy", (JObj [("password", JObj [("min_length", JNum "3")])]), (JObj [("user", JObj [("min_length", JNum "4")])]), [].
  exists (content_z <| rc_policy := Build_Policy (ppol_z <| pp_min := 3%Z |>) (upol_z <| up_min := 4%Z |>) |>).
  exists (content_z <| rc_policy := Build_Policy ppol_z (upol_z <| up_min := 4%Z |>) |>).
  split; [vm_compute; reflexivity|]. split; [vm_compute; reflexivity|]. split; [discriminate|].
  split; [vm_compute; reflexivity|]. split; [vm_compute; reflexivity|]. split; vm_compute; reflexivity.
Qed.
Print Assumptions C106_last_refuted.
(** A time is read exactly if it is a date and a time of day, and then as that instant. *)
Theorem C106_times t cur v : dec_val time_ cur v = DOk t <-> v = JNull /\ t = cur \/ exists s, v = JStr s /\ says_time (los s) t.
Proof.
  split.
  - destruct v; try discriminate; cbn; [now intros [=<-]; left|]. intros D. right. exists s. split; [reflexivity|]. apply time_parse_iff.
    destruct (time_parse (los s)) as [x|]; [congruence|]. now destruct time_odd.
  - intros [[-> ->]|(s & -> & H)]; [reflexivity|]. apply time_parse_iff in H. cbn. now rewrite H.
Qed.
Print Assumptions C106_times.
(** What commit writes is nested at most six levels deep, far below the limit of the reader. *)
Theorem C106_shallow c s j : marshal c = Some s -> parse (los s) = Some j -> (depth j <= 6)%N.
Proof.
  unfold marshal, marshal_raw. destruct raw_times; [|discriminate]. intros M. assert (s = sol (print 0 (enc_struct content_f (to_raw c)))) as -> by congruence.
  rewrite los_sol, JsonFacts.parse_print by (apply lits_content || apply shallow_content). intros P.
  assert (j = JsonFacts.san (enc_struct content_f (to_raw c))) as -> by congruence. rewrite JsonFacts.depth_san. apply deep_content.
Qed.
Print Assumptions C106_shallow.

Definition sloppy := "{ ""Users"": [null, {""title"":""x"", ""username"":""jane"", ""colour"": [1]}], ""version"":""1"", ""version"":""2"", ""revision"":5}".
Definition tidy := "{""version"":""2"",""revision"":5,""Users"":[null,{""username"":""jane"",""title"":""x""}]}".
Definition sloppy_user := JObj [("title", JStr "x"); ("username", JStr "jane"); ("colour", JArr [JNum "1"])].
Definition tidy_user := JObj [("username", JStr "jane"); ("title", JStr "x")].
Lemma colour_unknown : unknown "colour".
Proof. intros n H. repeat (destruct H as [<-|H]; [vm_compute; discriminate|]). destruct H. Qed.
Example C106_ex : parse (los sloppy) = Some (JObj [("Users", JArr [JNull; sloppy_user]); ("version", JStr "1"); ("version", JStr "2"); ("revision", JNum "5")]) /\
  edited (JObj [("Users", JArr [JNull; sloppy_user]); ("version", JStr "1"); ("version", JStr "2"); ("revision", JNum "5")])
         (JObj [("version", JStr "2"); ("revision", JNum "5"); ("Users", JArr [JNull; tidy_user])]) /\
  parse (los tidy) = Some (JObj [("version", JStr "2"); ("revision", JNum "5"); ("Users", JArr [JNull; tidy_user])]) /\
  exists c, unmarshal sloppy = DOk c /\ unmarshal tidy = DOk c /\ rc_version c = "2" /\ List.length (rc_users c) = 2%nat.
Proof.
  split; [vm_compute; reflexivity|]. split.
  { eapply es_more; [exact (ed_again false [("Users", JArr [JNull; sloppy_user])] "version" (JStr "1") (JStr "2") [("revision", JNum "5")] I ltac:(discriminate))|].
    eapply es_more; [apply (ed_swap false [] ("Users", JArr [JNull; sloppy_user]) ("version", JStr "2") [("revision", JNum "5")]); vm_compute; discriminate|].
    eapply es_more; [apply (ed_swap false [("version", JStr "2")] ("Users", JArr [JNull; sloppy_user]) ("revision", JNum "5") []); vm_compute; discriminate|].
    eapply es_more; [apply (ed_member false [("version", JStr "2"); ("revision", JNum "5")] "Users" (JArr [JNull; sloppy_user]) (JArr [JNull; JObj [("title", JStr "x"); ("username", JStr "jane")]]) [])|].
    { change (is_dict "Users") with false. apply (ed_elem false [JNull] sloppy_user (JObj [("title", JStr "x"); ("username", JStr "jane")]) []).
      exact (ed_drop [("title", JStr "x"); ("username", JStr "jane")] "colour" (JArr [JNum "1"]) [] colour_unknown). }
    eapply es_more; [apply (ed_member false [("version", JStr "2"); ("revision", JNum "5")] "Users" (JArr [JNull; JObj [("title", JStr "x"); ("username", JStr "jane")]]) (JArr [JNull; tidy_user]) [])|constructor].
    change (is_dict "Users") with false. apply (ed_elem false [JNull] (JObj [("title", JStr "x"); ("username", JStr "jane")]) tidy_user []).
    apply (ed_swap false [] ("title", JStr "x") ("username", JStr "jane") []). vm_compute. discriminate. }
  split; [vm_compute; reflexivity|].
  exists (match unmarshal tidy with DOk c => c | _ => content_z end). split; [vm_compute; reflexivity|]. split; [vm_compute; reflexivity|]. split; vm_compute; reflexivity.
Qed.
(** The hypotheses of [C106_opened] hold: the same happens when the file is opened. *)
Example C106_ex_opened :
  match snd (new_database toy (draws 0) "u.json" (<["u.json" := File "{""revision"":1,""colour"":[],""users"":[],""revision"":5}"]> ∅)) with
  | Loaded db => c_revision (db_content db) = 6%N | _ => False end.
Proof. vm_compute. reflexivity. Qed.
