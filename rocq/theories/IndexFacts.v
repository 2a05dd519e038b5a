(** The indexes are determined by the accounts. *)
From Coq Require Import String Ascii ZArith NArith Lia Bool Arith List.
From stdpp Require Import gmap strings.
From RecordUpdate Require Import RecordSet.
From Verif Require Import GoStr GoErr Email Types Env Persist Fs Database System SpecDb SpecKey SpecPersist SpecIndex Inv LoadFacts AccountFacts StepFacts ApiKeyFacts ReloadFacts ReopenFacts.
Import ListNotations.
Import RecordSetNotations.
Open Scope string_scope.

Lemma insert_keys i l : forall (m : gmap string nat) s j, fold_left (fun m s => <[s := i]> m) l m !! s = Some j <-> (In s l /\ j = i) \/ (~ In s l /\ m !! s = Some j).
Proof.
  induction l as [|x l IH]; intros m s j; cbn [fold_left In]; [tauto|]. rewrite IH. destruct (decide (x = s)) as [->|N].
  - rewrite lookup_insert. destruct (in_dec string_dec s l); intuition congruence.
  - rewrite lookup_insert_ne by exact N. tauto.
Qed.
Lemma index_from_lookup f l : forall i m,
  (forall a b u v s, l !! a = Some u -> l !! b = Some v -> In s (f u) -> In s (f v) -> a = b) ->
  forall s j, index_from f i l m !! s = Some j <->
    (exists a u, l !! a = Some u /\ In s (f u) /\ j = (i + a)%nat) \/ ((forall a u, l !! a = Some u -> ~ In s (f u)) /\ m !! s = Some j).
Proof.
  induction l as [|u l IH]; intros i m U s j; cbn [index_from].
  - split; [intros H; right; split; [intros a v Hv; rewrite lookup_nil in Hv; discriminate|exact H]|]. intros [(a & v & Hv & _)|[_ H]]; [rewrite lookup_nil in Hv; discriminate|exact H].
  - rewrite IH by (intros a b x y t Ha Hb I1 I2; apply eq_add_S; exact (U (S a) (S b) x y t Ha Hb I1 I2)). rewrite insert_keys. split.
    + intros [(a & v & Hv & Hs & ->)|[N [[Hs ->]|[N2 H]]]].
      * left. exists (S a), v. split; [exact Hv|]. split; [exact Hs|lia].
      * left. exists 0%nat, u. split; [reflexivity|]. split; [exact Hs|lia].
      * right. split; [|exact H]. intros [|a] v Hv; [injection Hv as <-; exact N2|exact (N a v Hv)].
    + intros [([|a] & v & Hv & Hs & ->)|[N H]].
      * injection Hv as <-. right. split; [|left; split; [exact Hs|lia]]. intros a w Hw Hw2. pose proof (U 0%nat (S a) u w s eq_refl Hw Hs Hw2). discriminate.
      * left. exists a, v. split; [exact Hv|]. split; [exact Hs|lia].
      * right. split; [intros a v Hv; exact (N (S a) v Hv)|]. right. split; [exact (N 0%nat u eq_refl)|exact H].
Qed.
Lemma index_by_is f l (m : gmap string nat) : (forall s i, m !! s = Some i <-> exists u, l !! i = Some u /\ In s (f u)) -> m = index_by f l.
Proof.
  intros H. apply map_eq. intros s. apply option_eq. intros i. unfold index_by. rewrite index_from_lookup.
  - rewrite H, lookup_empty. split.
    + intros (u & Hu & Hs). left. exists i, u. auto.
    + intros [(a & u & Hu & Hs & ->)|[_ X]]; [exists u; auto|discriminate].
  - intros a b u v t Ha Hb Hu Hv. assert (A : m !! t = Some a) by (apply H; eauto). assert (B : m !! t = Some b) by (apply H; eauto). congruence.
Qed.
Lemma inv_rebuilt E db : Inv E db -> ids_unique db -> keys_exact db -> db = rebuilt E (db_content db) (db_path db).
Proof.
  intros HI U K. unfold rebuilt. destruct db as [c re ru ri rk p]. cbn [db_content db_path] in *. f_equal; apply index_by_is; intros s i.
  - exact (inv_email _ _ HI s i).
  - rewrite (inv_name _ _ HI s i). cbn [In]. split; intros (u & Hu & Hs); exists u; (split; [exact Hu|]); tauto.
  - split.
    + intros H. destruct (inv_id_dom _ _ HI s i H) as (u & Hu & Hs). exists u. split; [exact Hu|]. now left.
    + intros (u & Hu & [Hs|[]]). destruct (inv_id_cod _ _ HI i u Hu) as [j Hj]. rewrite Hs in Hj. destruct (inv_id_dom _ _ HI s j Hj) as (v & Hv & Hvs).
      assert (j = i) as <- by (eapply U; eauto; congruence). exact Hj.
  - split.
    + intros H. destruct (K s i H) as (u & k & Hu & Hk & Hs). exists u. split; [exact Hu|]. rewrite <- Hs. now apply in_map.
    + intros (u & Hu & Hs). apply in_map_iff in Hs as (k & <- & Hk). exact (inv_key _ _ HI i u k Hu Hk).
Qed.
Lemma fresh_rebuilt E fs db : reachable_by E (fresh_draws E) fs db -> db = rebuilt E (db_content db) (db_path db).
Proof.
  intros HR. apply inv_rebuilt.
  - exact (inv_reachable_by _ _ _ _ HR).
  - destruct HR as (fs0 & S). apply (ids_steps E (fresh_draws E) _ _ (fun w ev H => proj1 H)) in S; [exact S|exact I|exact I].
  - intros x i Hx. apply (index_exact E fs db x i) in Hx; [|eapply reachable_mono; [|exact HR]; intros w ev Hw; exact (proj2 Hw)]. destruct Hx as (u & k & ? & ? & ?). exists u, k. auto.
Qed.
Lemma open_rebuilt E nd fp fs fs' db : new_database E nd fp fs = (fs', Loaded db) -> db = rebuilt E (db_content db) (db_path db).
Proof. intros O. destruct (inv_open _ _ _ _ _ _ O) as (A & B & C). now apply inv_rebuilt. Qed.
Lemma index_from_map f g l : (forall u, f (g u) = f u) -> forall i m, index_from f i (map g l) m = index_from f i l m.
Proof. intros H. induction l as [|u l IH]; intros i m; cbn [map index_from]; [reflexivity|]. now rewrite H, IH. Qed.
Lemma rebuilt_drop E c p : rebuilt E (drop_caches c) p = rebuilt E c p <| db_content ::= drop_caches |>.
Proof.
  unfold rebuilt, index_by, drop_caches, set. destruct c as [v po re mo us]. cbn [c_users].
  rewrite !index_from_map; [reflexivity|intros []; reflexivity..].
Qed.
Lemma whole_restart E nd op r fs db fs1 db1 nd2 :
  register_typed E -> reachable_by E (fresh_draws E) fs db -> fresh_draws E {| w_fs := fs; w_mem := Up db |} (EvCall nd op r) ->
  writes op -> written_path op db = db_path db -> o_res (exec E nd op db fs r) = OOk ->
  steps E read_calls {| w_fs := o_fs (exec E nd op db fs r); w_mem := Up (o_db (exec E nd op db fs r)) |} {| w_fs := fs1; w_mem := Up db1 |} ->
  plain_path (db_path db) -> readable nd2 -> all_utf8 (content_texts (db_content db1)) ->
  new_database E nd2 (db_path db) fs1 = (fs1, Loaded (db1 <| db_content ::= drop_caches |>)).
Proof.
  intros RT HR Fr W T O S Pl Rd V. destruct (write_saved E nd op db fs r W T O) as [Sv Hp].
  destruct (reads_saved E _ _ _ _ Sv S) as [V1 Hp1]. rewrite Hp in Hp1.
  assert (HR1 : reachable_by E (fresh_draws E) fs1 db1).
  { destruct HR as (fs0 & S0). exists fs0. eapply steps_trans; [|eapply steps_mono; [apply read_fresh|exact S]].
    eapply exec_steps; [exact S0|exact Fr|now apply ok_returned]. }
  destruct (reopen E (fresh_draws E) nd2 fs1 db1 (fun _ _ H => H) RT HR1 V1 ltac:(now rewrite Hp1) Rd) as (db2 & H1 & H2 & H3 & _).
  rewrite Hp1 in H1, H3. rewrite H1. f_equal. f_equal. rewrite (open_rebuilt _ _ _ _ _ _ H1), H2, H3, (ReloadFacts.keep_content _ V), rebuilt_drop.
  rewrite (fresh_rebuilt E fs1 db1 HR1) at 2. now rewrite Hp1.
Qed.
