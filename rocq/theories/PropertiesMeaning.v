(** Theorems about the meaning of a database file (C107). *)
From Coq Require Import String Ascii ZArith NArith Lia Bool Arith List.
From stdpp Require Import gmap strings.
From RecordUpdate Require Import RecordSet.
From Verif Require Import GoStr Utf8 Json GoTime Types Env Persist Fs Database SpecPersist SpecLayout SpecRead SpecWebAuthn WebAuthnJsonFacts SpecMeaning MeaningFacts SpellFacts ReopenFacts OpenFacts Examples.
Import ListNotations.
Import RecordSetNotations.
Open Scope string_scope.

(** C107 *)
(** A file is read as [c] exactly if that is what its text means. *)
Theorem C107_meaning s c : unmarshal s = DOk c <-> database_text s c.
Proof. exact (unmarshal_iff s c). Qed.
Print Assumptions C107_meaning.
(** A text has at most one meaning. *)
Theorem C107_one s c c' : database_text s c -> database_text s c' -> c = c'.
Proof. rewrite <- !unmarshal_iff. congruence. Qed.
Print Assumptions C107_one.
(** The values of a field are those of the members that spell its name. *)
Theorem C107_names m n v : Forall (fun a => N_of_ascii a < 128)%N (los n) -> In v (vals m n) <-> exists k, In (k, v) m /\ spells (los n) (los k).
Proof.
  intros A. assert (B : ascii_only (los n) = true) by (apply forallb_forall; intros a Ha; apply N.ltb_lt; rewrite List.Forall_forall in A; auto).
  unfold vals. rewrite in_map_iff. split.
  - intros ([k w] & <- & H). apply filter_In in H as [H E]. apply String.eqb_eq in E. exists k. split; [exact H|]. now apply fold_key_spells.
  - intros (k & H & S). exists (k, v). split; [reflexivity|]. apply filter_In. split; [exact H|]. apply String.eqb_eq. now apply fold_key_spells.
Qed.
Print Assumptions C107_names.
(** A database that was opened has the accounts its file means. *)
Theorem C107_opened E nd fp fs fs' db b : plain_path fp -> fs !! fp = Some (File b) -> new_database E nd fp fs = (fs', Loaded db) ->
  exists c us, database_text b c /\ Forall2 decodes (rc_users c) us /\ consistent E us /\ db_users db = map with_algorithm us.
Proof.
  intros P Hb H. destruct (ReopenFacts.plain_prefix fp P) as [P1 P2]. destruct (open_sound _ _ _ _ _ _ H) as (_ & _ & G). destruct G as (b' & c & us & R & U & G); [exact P1|now rewrite Hb|].
  assert (b' = b) as ->. { unfold read_file, expand in R. rewrite P2 in R. destruct (nd_read_err nd); [discriminate|]. rewrite Hb in R. congruence. }
  exists c, us. split; [now apply unmarshal_iff|exact G].
Qed.
Print Assumptions C107_opened.
(** And every file that means a consistent set of accounts opens. *)
Theorem C107_opens E nd fp fs b c us : plain_path fp -> readable nd -> fs !! fp = Some (File b) -> database_text b c -> limits_set (rc_policy c) ->
  Forall2 decodes (rc_users c) us ->
  (consistent E us -> exists db, new_database E nd fp fs = (fs, Loaded db) /\ db_users db = map with_algorithm us) /\
  (~ consistent E us -> exists e, new_database E nd fp fs = (fs, LErr e)).
Proof. intros P R F D. apply unmarshal_iff in D. exact (open_complete E nd fp fs b c us P R F D). Qed.
Print Assumptions C107_opens.

Definition odd_text := "{""REVI" ++ sol (bytes [197; 191]%N) ++ "ION"":7,""Version"":""1"",""policy"":{""user"":{""min_length"":2}},""policy"":{""user"":{""max_length"":-9}}}".
Definition odd_content := content_z <| rc_version := "1" |> <| rc_revision := 7%N |> <| rc_policy; po_user := Build_UserPolicy 2 (-9) false false |>.
Example C107_ex : database_text odd_text odd_content /\ (forall c, ~ database_text "{""revision"":18446744073709551616}" c) /\
  (forall c, ~ database_text "{""revision"":-1}" c) /\ (forall c, ~ database_text "{""policy"":{""user"":{""min_length"":1e2}}}" c) /\
  (forall c, ~ database_text "{""last_modified"":""2021-02-30T00:00:00Z""}" c).
Proof. split; [apply unmarshal_iff; vm_compute; reflexivity|]. repeat split; intros c H; apply unmarshal_iff in H; vm_compute in H; discriminate. Qed.
