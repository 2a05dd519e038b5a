(** Theorems about what the database file looks like (C93). *)
From Coq Require Import String Ascii ZArith NArith Lia Bool Arith List.
From stdpp Require Import gmap strings sorting.
From RecordUpdate Require Import RecordSet.
From Verif Require Import GoStr Utf8 Json JsonFacts GoTime Types Persist Fs Database System SpecPersist SpecLayout LayoutFacts FileFacts DbFacts AccountFacts StepFacts ReopenFacts SpecDb Examples PropertiesPersist.
Import ListNotations.
Open Scope string_scope.

(** C93 *)
(** The text written is JSON with exactly the members of [layout]; bytes that are not UTF-8 are replaced. *)
Theorem C93_layout c s : marshal c = Some s ->
  exists j, parse (los s) = Some j /\ j = san (layout c) /\ (all_utf8 (json_texts (layout c)) -> j = layout c).
Proof.
  intros H. exists (san (layout c)). split; [|split; [reflexivity|apply san_clean]]. rewrite <- lay_content_eq. unfold marshal, marshal_raw in H.
  destruct (raw_times (to_raw c)); [|discriminate]. assert (s = sol (print 0 (enc_struct content_f (to_raw c)))) as -> by congruence.
  rewrite los_sol. apply parse_print; [apply PersistFacts.lits_content|apply PersistFacts.shallow_content].
Qed.
Print Assumptions C93_layout.
(** The times in it are the calendar date and the time of day of the stored instants. *)
Theorem C93_times t : in_years t -> exists y mo d h mi s ns Y M D H I S F,
  (0 <= y <= 9999)%Z /\ on_clock t y mo d h mi s ns /\
  time_print t = (Y ++ "-" :: M ++ "-" :: D ++ "T" :: H ++ ":" :: I ++ ":" :: S ++ F ++ ["Z"])%char%list /\
  digits_of 4 y Y /\ digits_of 2 mo M /\ digits_of 2 d D /\ digits_of 2 h H /\ digits_of 2 mi I /\ digits_of 2 s S /\
  ((ns = 0%Z /\ F = []) \/ exists x k, F = "."%char :: x /\ x <> [] /\ List.last x "0"%char <> "0"%char /\ digits_of 9 ns (x ++ repeat "0"%char k)).
Proof. exact (time_text t). Qed.
Print Assumptions C93_times.
(** The members of an object for a map are its entries, in ascending order of the names. *)
Theorem C93_maps {A} (m : gmap string A) : StronglySorted (fun a b => String.leb (fst a) (fst b) = true) (sorted_keys m) /\
  forall k v, In (k, v) (sorted_keys m) <-> m !! k = Some v.
Proof. exact (sorted_keys_spec m). Qed.
Print Assumptions C93_maps.
(** Every successful call that writes leaves a file with the accounts in memory. *)
Theorem C93_file E nd op db fs r : writes op -> o_res (exec E nd op db fs r) = OOk -> exists s,
  o_fs (exec E nd op db fs r) = <[written_path op db := File s]> fs /\
  parse (los s) = Some (san (layout (db_content (o_db (exec E nd op db fs r))))).
Proof.
  intros W O. destruct (exec_shape E nd op db fs r) as [_ _ _ N|db1 res Eff C Oc]; [exfalso; apply commits_writes in W; exact (N W O)|].
  apply (outcome_ok _ _ Oc) in O. subst res. apply commit_to_inv in C as [Hd Wd]. rewrite target_written in Wd.
  apply write_db_ok in Wd as (_ & _ & _ & s & M & F). exists s. split; [exact F|]. rewrite Hd.
  destruct (C93_layout _ _ M) as (j & P & -> & _). exact P.
Qed.
Print Assumptions C93_file.
Example C93_ex : exists s, marshal (db_content two.2) = Some s /\ all_utf8 (json_texts (layout (db_content two.2))) /\
  in_years (c_modified (db_content two.2)) /\ writes OpAddUser /\ o_res bob_out = OOk.
Proof.
  eexists. split; [vm_compute; reflexivity|]. split; [apply utf8_by; vm_compute; reflexivity|].
  split; [apply time_ok_iff; vm_compute; reflexivity|]. split; [intros H; cbn in H; intuition discriminate|vm_compute; reflexivity].
Qed.
