(** Theorems about issued API keys (C126). *)
From Coq Require Import String Ascii ZArith NArith Lia Bool Arith List.
From stdpp Require Import gmap strings.
From RecordUpdate Require Import RecordSet.
From Verif Require Import GoStr Codec GoErr Random Types Env ApiKey Fs Database System SpecDb SpecKey SpecAuth SpecPersist SpecOutage SpecLedger SpecGrant Examples.
From Verif Require Import AccountFacts ApiKeyFacts GrantFacts PropertiesPersist PropertiesLedger PropertiesApiKey.
Import ListNotations.
Import RecordSetNotations.
Open Scope string_scope.

(** C126: the API keys returned are, in order, the entries that stand for the keys issued to the account,
    not as disabled, and not deleted since. *)
Theorem C126_returned E fs db l nd r e : register_typed E -> granted E fs db l -> In e l -> purse_named E e r -> rk_usage (rq_key r) = "api" ->
  exists ks, exec E nd OpGetAPIKeys db fs r = {| o_db := db; o_fs := fs; o_req := r <| rq_payload := PAPIKeys {| b_items := ks; b_size := Z.of_nat (List.length ks) |} |>; o_res := OOk |} /\
    Forall2 (stands_for E) (in_force (pu_grants e)) ks.
Proof. intros RT R He N U. destruct (purse_returned E fs db l nd r e RT R He N) as (ks & X & K & _). exists ks. split; [exact X|exact (K U)]. Qed.
Print Assumptions C126_returned.
(** Asked for any other use, the call returns an empty list. *)
Theorem C126_other E fs db l nd r e : register_typed E -> granted E fs db l -> In e l -> purse_named E e r -> rk_usage (rq_key r) <> "api" ->
  exec E nd OpGetAPIKeys db fs r = {| o_db := db; o_fs := fs; o_req := r <| rq_payload := PAPIKeys {| b_items := []; b_size := 0%Z |} |>; o_res := OOk |}.
Proof. intros RT R He N U. destruct (purse_returned E fs db l nd r e RT R He N) as (ks & X & _ & K). rewrite (K U) in X. exact X. Qed.
Print Assumptions C126_other.
(** One entry stands for a key. *)
Theorem C126_one E x k k' : stands_for E x k -> stands_for E x k' -> k = k'.
Proof.
  intros [_ A1 A2 A3 [A4 _] [A5 _] [A6 A7] (A8 & A9 & A10)] [_ B1 B2 B3 [B4 _] [B5 _] [B6 B7] (B8 & B9 & B10)].
  assert (P : ak_prefix k = ak_prefix k') by exact (prefix24_inj _ _ _ A1 B1).
  destruct k, k'; cbn in *. congruence.
Qed.
Print Assumptions C126_one.
(** So every field returned depends on the keys issued, and the times and draws of their calls, alone. *)
Theorem C126_determined E fs db fs' db' l nd nd' r e : register_typed E -> granted E fs db l -> granted E fs' db' l -> In e l -> purse_named E e r ->
  o_req (exec E nd OpGetAPIKeys db fs r) = o_req (exec E nd' OpGetAPIKeys db' fs' r).
Proof.
  intros RT R R' He N. destruct (String.eqb_spec (rk_usage (rq_key r)) "api") as [U|U].
  - destruct (C126_returned E fs db l nd r e RT R He N U) as (ks & X & F), (C126_returned E fs' db' l nd' r e RT R' He N U) as (ks' & X' & F').
    rewrite X, X'. cbn [o_req]. assert (ks' = ks) as ->; [|reflexivity]. clear - F F'. revert ks' F'. induction F as [|x k l ks H F IH]; intros ks' F'; inversion F' as [|? k' ? ks0 H' F0]; subst; [reflexivity|].
    f_equal; [exact (C126_one _ _ _ _ H' H)|auto].
  - rewrite (C126_other E fs db l nd r e RT R He N U), (C126_other E fs' db' l nd' r e RT R' He N U). reflexivity.
Qed.
Print Assumptions C126_determined.
Theorem C126_reachable E fs db l : granted E fs db l -> reachable E fs db.
Proof. exact (granted_reachable E fs db l). Qed.
Print Assumptions C126_reachable.

(** Two keys for Jane, the second issued as disabled, and one for Bob. *)
Definition off_key : Request := jane_key <| rq_key; rk_disabled := true |>.
Definition grant_calls : list (Nd * Op * Request) := two_calls ++ [(draws 9, OpAddAPIKey, jane_key); (draws 99, OpAddAPIKey, bob_key); (draws 50, OpAddAPIKey, off_key)].
Definition grant_end : FS * Database := run toy start grant_calls.
Definition jane_grant : Grant := {| gr_nd := draws 9; gr_req := jane_key; gr_secret := secret jane_out |}.
Definition bob_grant : Grant := {| gr_nd := draws 99; gr_req := bob_key; gr_secret := secret bob_out |}.
Definition off_grant : Grant :=
  {| gr_nd := draws 50; gr_req := off_key; gr_secret := secret (exec toy (draws 50) OpAddAPIKey (o_db bob_out) (o_fs bob_out) off_key) |}.
Definition grant_ex : list Purse :=
  [{| pu_name := "Jane"; pu_mail := "Jane@Example.com"; pu_grants := [jane_grant; off_grant] |}; {| pu_name := "bob"; pu_mail := "bob@example.com"; pu_grants := [bob_grant] |}].
Lemma grant_ex_is : ledger_of (issue toy) start grant_calls [] = grant_ex.
Proof. vm_compute. reflexivity. Qed.
Lemma grant_granted : granted toy grant_end.1 grant_end.2 grant_ex.
Proof.
  assert (A : all_return start grant_calls = true) by (vm_compute; reflexivity).
  pose proof (run_traced (issue toy) [] grant_calls start [] (TrNew toy (issue toy) [] (draws 0) "db.json" ∅ _ _ (or_intror eq_refl) start_open) A) as R.
  rewrite grant_ex_is in R. exact R.
Qed.
(** The first one is deleted. *)
Definition grant_drop : list (Nd * Op * Request) := [(draws 60, OpDeleteAPIKey, kill jane_key jane_id)].
Definition grant_less : FS * Database := run toy grant_end grant_drop.
Definition grant_after : list Purse :=
  [{| pu_name := "Jane"; pu_mail := "Jane@Example.com"; pu_grants := [off_grant] |}; {| pu_name := "bob"; pu_mail := "bob@example.com"; pu_grants := [bob_grant] |}].
Lemma grant_after_is : ledger_of (issue toy) grant_end grant_drop grant_ex = grant_after.
Proof. vm_compute. reflexivity. Qed.
Lemma grant_less_granted : granted toy grant_less.1 grant_less.2 grant_after.
Proof.
  assert (A : all_return grant_end grant_drop = true) by (vm_compute; reflexivity).
  pose proof (run_traced (issue toy) [] grant_drop grant_end grant_ex grant_granted A) as R. rewrite grant_after_is in R. exact R.
Qed.
Example C126_ex : register_typed toy /\ granted toy grant_end.1 grant_end.2 grant_ex /\ granted toy grant_less.1 grant_less.2 grant_after /\
  (exists e, In e grant_ex /\ purse_named toy e jane_key /\ rk_usage (rq_key jane_key) = "api" /\ in_force (pu_grants e) = [jane_grant]) /\
  (exists e, In e grant_after /\ purse_named toy e jane_key /\ in_force (pu_grants e) = []) /\ exists k, stands_for toy jane_grant k.
Proof.
  assert (N : forall g, purse_named toy {| pu_name := "Jane"; pu_mail := "Jane@Example.com"; pu_grants := g |} jane_key)
    by (intros g; unfold purse_named, same_ci; repeat split; try (vm_compute; lia); vm_compute; reflexivity).
  assert (I : exists e, In e grant_ex /\ purse_named toy e jane_key /\ rk_usage (rq_key jane_key) = "api" /\ in_force (pu_grants e) = [jane_grant])
    by (eexists; split; [left; reflexivity|]; split; [apply N|]; split; reflexivity).
  split; [exact toy_typed|]. split; [exact grant_granted|]. split; [exact grant_less_granted|]. split; [exact I|]. split.
  { eexists. split; [left; reflexivity|]. split; [apply N|reflexivity]. }
  destruct I as (e & He & Ne & Ue & Fe). destruct (C126_returned toy _ _ _ (draws 70) jane_key e toy_typed grant_granted He Ne Ue) as (ks & _ & F).
  rewrite Fe in F. inversion F; subst. eauto.
Qed.
