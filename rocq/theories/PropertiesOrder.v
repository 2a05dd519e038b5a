(** C104: the times kept in a database are in order. *)
From Coq Require Import String Ascii ZArith NArith Lia Bool Arith List Sorting.Sorted.
From stdpp Require Import gmap strings.
From RecordUpdate Require Import RecordSet.
From Verif Require Import GoStr Codec GoErr Types Env Json Persist Fs Database System UserFacts DbFacts Inv SpecDb SpecPersist SpecOrder.
From Verif Require Import AccountFacts LoadFacts ReloadFacts OrderFacts Examples PropertiesPassword PropertiesMfa.
Import ListNotations.
Import RecordSetNotations.
Open Scope string_scope.

(** ** C104: the times of an account, of its items and of the database are in order as long as
    the clock does not go back *)
(** Any call keeps the order if the clock is not behind the last change of the database, whether
    the call succeeds, fails or crashes the process. *)
Theorem C104_call : forall E nd op db fs r, db_in_order db -> (last_change db <= nd_clock nd)%Z ->
  db_in_order (o_db (exec E nd op db fs r)) /\ (last_change (o_db (exec E nd op db fs r)) <= nd_clock nd)%Z.
Proof.
  intros E nd op db fs r D L. split; [now apply in_order_exec|]. destruct (last_change_exec E nd op db fs r) as [->| ->]; lia.
Qed.
Print Assumptions C104_call.
(** So it holds of every database that was created by opening a path without a file, after any
    calls with such a clock. *)
Theorem C104_history : forall E nd fp fs fs' db w db', fs !! fp = None -> new_database E nd fp fs = (fs', Loaded db) ->
  steps E on_time {| w_fs := fs'; w_mem := Up db |} w -> w_mem w = Up db' -> db_in_order db'.
Proof.
  intros E nd fp fs fs' db w db' A O S H. apply (on_time_steps _ _ _ S db db' eq_refl H).
  assert (N : db_users db = []) by (eapply absent_empty; eauto).
  constructor.
  - intros i u Hu. unfold account in Hu. rewrite N in Hu. discriminate.
  - rewrite N. constructor.
Qed.
Print Assumptions C104_history.
(** Saving and reopening the file keeps it. *)
Theorem C104_reopen : forall E nd P fs0 fs fp db s db', register_typed E -> reachable_by E P fs0 db -> ids_unique db ->
  marshal (db_content db) = Some s -> fs !! fp = Some (File s) -> fp <> "" -> has_prefix fp "~" = false ->
  new_database E nd fp fs = (fs, Loaded db') -> db_in_order db -> db_in_order db' /\ last_change db' = last_change db.
Proof.
  intros E nd P fs0 fs fp db s db' RT HR U M F Ne T O D.
  assert (R : nd_stat_err nd = false /\ nd_read_err nd = false) by (eapply open_readable; eauto). destruct R as [R1 R2].
  destruct (reload E nd P fs0 fs fp db s RT HR U M F Ne T R1 R2) as (db2 & O2 & C & _). assert (db2 = db') as -> by congruence.
  split; [|unfold last_change; rewrite C; reflexivity]. now apply (clean_in_order db).
Qed.
Print Assumptions C104_reopen.
(** With a clock that goes back it fails: a key can be older than the account it belongs to. *)
Fixpoint ticking (E : Env) (w : FS * Database) (l : list (Nd * Op * Request)) : bool :=
  match l with
  | [] => true
  | c :: l => (last_change w.2 <=? nd_clock c.1.1)%Z && ticking E (run1 E w c) l
  end.
Lemma run_ticking E l : forall w w0, run_alive E w l = true -> ticking E w l = true -> steps E on_time w0 (world w) -> steps E on_time w0 (world (run E w l)).
Proof.
  induction l as [|c l IH]; intros w w0 A T S; [exact S|]. cbn [run_alive] in A. apply andb_true_iff in A as [A1 A2]. cbn [ticking] in T. apply andb_true_iff in T as [T1 T2].
  change (run E w (c :: l)) with (run E (run1 E w c) l). apply IH; [assumption|assumption|].
  apply Z.leb_le in T1.
  eapply StCons with (ev := EvCall c.1.1 c.1.2 c.2); [exact S|intros db [= <-]; exact T1|].
  destruct w as [fs db], c as [[nd op] r]. cbn [fst snd] in *. unfold world. cbn [fst snd run1].
  replace {| w_fs := o_fs (exec E nd op db fs r); w_mem := Up (o_db (exec E nd op db fs r)) |}
    with {| w_fs := o_fs (exec E nd op db fs r); w_mem := after_call (exec E nd op db fs r) |}; [constructor|].
  unfold after_call. destruct o_res; try discriminate; reflexivity.
Qed.
Lemma start_in_order l : run_alive toy start l = true -> ticking toy start l = true -> db_in_order (run toy start l).2.
Proof.
  intros A T. refine (C104_history toy (draws 0) "db.json" ∅ start_fs start_db (world (run toy start l)) _ eq_refl start_open _ eq_refl).
  apply run_ticking; [exact A|exact T|constructor].
Qed.
Definition key_for_jane (usage : string) : Request := who "Jane" "Jane@Example.com" <| rq_key; rk_usage := usage |> <| rq_key; rk_comment := "laptop" |>.
Theorem C104_any_clock_refuted : exists E nd op db fs r, db_in_order db /\ ~ db_in_order (o_db (exec E nd op db fs r)).
Proof.
  exists toy, (draws 0), OpAddAPIKey, two.2, two.1, (key_for_jane "api"). split; [apply start_in_order; vm_compute; reflexivity|].
  intros [A _]. specialize (A 0%nat). unfold account in A.
  assert (X : exists u, db_users (o_db (exec toy (draws 0) OpAddAPIKey two.2 two.1 (key_for_jane "api"))) !! 0%nat = Some u /\ (u_modified u <? u_created u)%Z = true).
  { eexists. split; vm_compute; reflexivity. }
  destruct X as (u & Hu & X). destruct (A u Hu) as [Y _ _ _ _ _ _ _ _]. lia.
Qed.
Print Assumptions C104_any_clock_refuted.
(** Three items of two accounts, among them a token that is disabled from its start and a changed
    password: the old one is disabled when the new one is made. *)
Notation items := [(draws 50, OpAddAPIKey, key_for_jane "api"); (draws 60, OpChangePassword, change "Jane" "Jane@Example.com" "secret-pw-1" "secret-pw-9");
  (draws 90, OpAddAPIKey, key_for_jane "api" <| rq_key; rk_disabled := true |>)].
Notation three := (run toy start (two_calls ++ items)%list).
Example C104_ex : db_in_order three.2 /\
  map (fun u => ((u_created u, u_modified u), map (fun p => (pw_created p, pw_disabled p, pw_disabled_at p)) (u_passwords u), map (fun k => (ak_created k, ak_disabled k)) (u_apikeys u))) (db_users three.2) =
  let t k := (63776000000000000000 + k)%Z in
  [((t 1, t 90), [(t 60, false, 0); (t 1, true, t 60)], [(t 50, false); (t 90, true)]); ((t 40, t 40), [(t 40, false, 0)], [])]%Z.
Proof. split; [apply start_in_order; vm_compute; reflexivity|vm_compute; reflexivity]. Qed.
