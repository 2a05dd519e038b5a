(** Theorems about stored public keys (C124). *)
From Coq Require Import String Ascii ZArith NArith Lia Bool Arith List.
From stdpp Require Import gmap strings.
From RecordUpdate Require Import RecordSet.
From Verif Require Import GoStr Codec GoErr Random Types Env PublicKey Fs Database System SpecDb SpecKey SpecPersist SpecOutage SpecLedger SpecShelf SpecPublic SpecKeyring Examples.
From Verif Require Import AccountFacts PublicEntry KeyringFacts PropertiesPersist PropertiesLedger PropertiesPublicKey PropertiesPublic.
Import ListNotations.
Import RecordSetNotations.
Open Scope string_scope.

(** C124: the keys returned for a use are, in order, the entries said by the texts that were handed in
    for that use, not as disabled, and not deleted since. *)
Theorem C124_returned E fs db l nd r e : register_typed E -> handed_in E fs db l -> In e l -> keyring_named E e r ->
  exists ks, exec E nd OpGetPublicKeys db fs r = {| o_db := db; o_fs := fs; o_req := r <| rq_payload := PPublicKeys {| b_items := ks; b_size := Z.of_nat (List.length ks) |} |>; o_res := OOk |} /\
    Forall2 (entry E) (for_use (rk_usage (rq_key r)) (ky_texts e)) ks.
Proof. exact (keyring_returned E fs db l nd r e). Qed.
Print Assumptions C124_returned.
(** So every field returned depends on the texts, and the times and draws of their calls, alone. *)
Theorem C124_determined E fs db fs' db' l nd nd' r e : register_typed E -> handed_in E fs db l -> handed_in E fs' db' l -> In e l -> keyring_named E e r ->
  o_req (exec E nd OpGetPublicKeys db fs r) = o_req (exec E nd' OpGetPublicKeys db' fs' r).
Proof.
  intros RT R R' He N. destruct (C124_returned E fs db l nd r e RT R He N) as (ks & X & F), (C124_returned E fs' db' l nd' r e RT R' He N) as (ks' & X' & F').
  rewrite X, X'. cbn [o_req]. assert (ks' = ks) as ->; [|reflexivity]. clear - F F'. revert ks' F'. induction F as [|x k l ks H F IH]; intros ks' F'; inversion F' as [|? k' ? ks0 H' F0]; subst; [reflexivity|].
  f_equal; [exact (C123_one _ _ _ _ _ H H')|auto].
Qed.
Print Assumptions C124_determined.
(** A text is accepted exactly if it says an entry, no text that was handed in and not deleted says a key
    with its type and fingerprint, and the file can be written. *)
Theorem C124_accepted E fs db l nd r e : register_typed E -> handed_in E fs db l -> In e l -> keyring_named E e r -> let o := exec E nd OpAddPublicKey db fs r in
  o_res o = OOk <-> (exists k, says E nd r k /\ Forall (other_key E k) (ky_texts e)) /\ can_write nd fs (db_path db) (db_content (o_db o)).
Proof. exact (keyring_accepts E fs db l nd r e). Qed.
Print Assumptions C124_accepted.
Theorem C124_reachable E fs db l : handed_in E fs db l -> reachable E fs db.
Proof. exact (handed_reachable E fs db l). Qed.
Print Assumptions C124_reachable.

(** A PEM text, and the line of the same key under another use and as disabled. *)
Definition off_req : Request := line_req <| rq_key; rk_disabled := true |>.
Definition keyring_calls : list (Nd * Op * Request) := two_calls ++ [(draws 9, OpAddPublicKey, pem_req); (draws 50, OpAddPublicKey, off_req)].
Definition keyring_end : FS * Database := run toy start keyring_calls.
Definition first_text : Text := {| tx_nd := draws 9; tx_req := pem_req |}.
Definition second_text : Text := {| tx_nd := draws 50; tx_req := off_req |}.
Definition keyring_ex : list Keyring :=
  [{| ky_name := "Jane"; ky_mail := "Jane@Example.com"; ky_texts := [first_text; second_text] |}; {| ky_name := "bob"; ky_mail := "bob@example.com"; ky_texts := [] |}].
Lemma keyring_ex_is : ledger_of (hand_in toy) start keyring_calls [] = keyring_ex.
Proof. vm_compute. reflexivity. Qed.
Lemma keyring_handed : handed_in toy keyring_end.1 keyring_end.2 keyring_ex.
Proof.
  assert (A : all_return start keyring_calls = true) by (vm_compute; reflexivity).
  pose proof (run_traced (hand_in toy) [] keyring_calls start [] (TrNew toy (hand_in toy) [] (draws 0) "db.json" ∅ _ _ (or_intror eq_refl) start_open) A) as R.
  rewrite keyring_ex_is in R. exact R.
Qed.
(** The first one is deleted. *)
Definition keyring_drop : list (Nd * Op * Request) := [(draws 60, OpDeletePublicKey, jane <| rq_key; rk_id := entry_id |>)].
Definition keyring_less : FS * Database := run toy keyring_end keyring_drop.
Definition keyring_after : list Keyring :=
  [{| ky_name := "Jane"; ky_mail := "Jane@Example.com"; ky_texts := [second_text] |}; {| ky_name := "bob"; ky_mail := "bob@example.com"; ky_texts := [] |}].
Lemma keyring_after_is : ledger_of (hand_in toy) keyring_end keyring_drop keyring_ex = keyring_after.
Proof. vm_compute. reflexivity. Qed.
Lemma keyring_less_handed : handed_in toy keyring_less.1 keyring_less.2 keyring_after.
Proof.
  assert (A : all_return keyring_end keyring_drop = true) by (vm_compute; reflexivity).
  pose proof (run_traced (hand_in toy) [] keyring_drop keyring_end keyring_ex keyring_handed A) as R. rewrite keyring_after_is in R. exact R.
Qed.
Example C124_ex : register_typed toy /\ handed_in toy keyring_end.1 keyring_end.2 keyring_ex /\ handed_in toy keyring_less.1 keyring_less.2 keyring_after /\
  (exists e, In e keyring_ex /\ keyring_named toy e pem_req /\ for_use "ssh" (ky_texts e) = [first_text] /\ for_use "gpg" (ky_texts e) = []) /\
  o_res (exec toy (draws 70) OpAddPublicKey keyring_end.2 keyring_end.1 pem_req) <> OOk /\ o_res (exec toy (draws 70) OpAddPublicKey keyring_less.2 keyring_less.1 pem_req) = OOk /\
  o_res (exec toy (draws 70) OpAddPublicKey keyring_less.2 keyring_less.1 line_req) <> OOk.
Proof.
  split; [exact toy_typed|]. split; [exact keyring_handed|]. split; [exact keyring_less_handed|]. split.
  { eexists. split; [left; reflexivity|]. split; [unfold keyring_named, same_ci; repeat split; try (vm_compute; lia); vm_compute; reflexivity|]. split; reflexivity. }
  split; [vm_compute; discriminate|]. split; [vm_compute; reflexivity|]. vm_compute. discriminate.
Qed.
