(** Theorems about who is listed and how (C125). *)
From Coq Require Import String Ascii ZArith NArith Lia Bool Arith List.
From stdpp Require Import gmap strings.
From RecordUpdate Require Import RecordSet.
From Verif Require Import GoStr Codec GoErr Role Name Random Types Env Fs Database System SpecDb SpecMfa SpecPersist SpecOutage SpecLedger SpecCensus Examples.
From Verif Require Import AccountFacts CensusFacts PropertiesPersist PropertiesLedger PropertiesPublicKey PropertiesPublic.
Import ListNotations.
Import RecordSetNotations.
Open Scope string_scope.

(** C125: [GetUsers] lists every account that was made, in order, as its request described it, with the
    times at which it was made and last changed and the number of its changes. *)
Theorem C125_listed E fs db l nd r e : register_typed E -> counted E fs db l -> In e l -> line_named E e r ->
  exists b, exec E nd OpGetUsers db fs r = {| o_db := db; o_fs := fs; o_req := r <| rq_payload := PUsers b |>; o_res := OOk |} /\
    Forall2 lists l (b_items b) /\ b_size b = Z.of_nat (List.length l).
Proof. exact (census E fs db l nd r e). Qed.
Print Assumptions C125_listed.
(** [IdentifyUser] answers with the name, address, full name and roles of that request, for good. *)
Theorem C125_claims E fs db l nd r e : register_typed E -> counted E fs db l -> In e l -> line_called E e (ru_username (rq_user r)) ->
  let q := rq_user (o_req (exec E nd OpIdentify db fs r)) in
  ru_username q = ln_name e /\ ru_email q = ln_mail e /\ full_text e (ru_full_name q) /\
  forall c, In c (ru_roles q) <-> exists s ro, In s (ru_roles (rq_user (ln_req e))) /\ role_text s ro /\ shows_role ro c.
Proof. exact (census_claims E fs db l nd r e). Qed.
Print Assumptions C125_claims.
Theorem C125_reachable E fs db l : counted E fs db l -> reachable E fs db.
Proof. exact (counted_reachable E fs db l). Qed.
Print Assumptions C125_reachable.

(** Two accounts; one of them adds a key, is refused to add it again and deletes it. *)
Definition census_calls : list (Nd * Op * Request) :=
  two_calls ++ [(draws 9, OpAddPublicKey, pem_req); (draws 20, OpAddPublicKey, pem_req); (draws 60, OpDeletePublicKey, jane <| rq_key; rk_id := entry_id |>)].
Definition census_end : FS * Database := run toy start census_calls.
Definition two_since (n : nat) : Z := match nth_error two_calls n with Some (nd, _, _) => nd_clock nd | None => 0%Z end.
Definition census_ex : list Line :=
  [{| ln_req := jane_req; ln_since := two_since 0; ln_last := nd_clock (draws 60); ln_changes := 2 |};
   {| ln_req := bob_req; ln_since := two_since 1; ln_last := two_since 1; ln_changes := 0 |}].
Lemma census_ex_is : ledger_of (count toy) start census_calls [] = census_ex.
Proof. vm_compute. reflexivity. Qed.
Lemma census_counted : counted toy census_end.1 census_end.2 census_ex.
Proof.
  assert (A : all_return start census_calls = true) by (vm_compute; reflexivity).
  pose proof (run_traced (count toy) [] census_calls start [] (TrNew toy (count toy) [] (draws 0) "db.json" ∅ _ _ (or_intror eq_refl) start_open) A) as R.
  rewrite census_ex_is in R. exact R.
Qed.
Example C125_ex : register_typed toy /\ counted toy census_end.1 census_end.2 census_ex /\
  (exists e, In e census_ex /\ line_named toy e jane /\ line_called toy e "jane@EXAMPLE.com" /\ ln_changes e = 2%nat) /\
  (exists b, rq_payload (o_req (exec toy (draws 70) OpGetUsers census_end.2 census_end.1 jane)) = PUsers b /\ map md_revision (b_items b) = [2; 0]%Z).
Proof.
  split; [exact toy_typed|]. split; [exact census_counted|]. split.
  { eexists. split; [left; reflexivity|]. split; [unfold line_named, same_ci; repeat split; try (vm_compute; lia); vm_compute; reflexivity|]. split; [|reflexivity].
    left. unfold same_ci. split; [cbn; tauto|]. split; [vm_compute; lia|vm_compute; reflexivity]. }
  eexists. split; vm_compute; reflexivity.
Qed.
