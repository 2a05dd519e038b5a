(** Theorems about what accounts hold (C119). *)
From Coq Require Import String Ascii ZArith NArith Lia Bool Arith List.
From stdpp Require Import gmap strings.
From RecordUpdate Require Import RecordSet.
From Verif Require Import GoStr GoErr Email Random Types Env Persist Fs Database System SpecDb SpecCrypto SpecAuth SpecPersist SpecDefect SpecLedger SpecShelf.
From Verif Require Import AccountFacts DbFacts LedgerFacts ShelfFacts Examples PropertiesPassword PropertiesApiKey PropertiesPublicKey PropertiesMfa PropertiesPersist PropertiesLedger.
Import ListNotations.
Import RecordSetNotations.
Open Scope string_scope.

(** C119 *)
(** The public keys listed for a usage are those added for it, in order, without the deleted and the
    disabled ones. *)
Theorem C119_public_keys E fs db l nd r e : register_typed E -> stocked E fs db l -> In e l -> names_both E e r ->
  exists ks, exec E nd OpGetPublicKeys db fs r = {| o_db := db; o_fs := fs; o_req := r <| rq_payload := PPublicKeys {| b_items := ks; b_size := Z.of_nat (List.length ks) |} |>; o_res := OOk |} /\
    map pk_id ks = in_use (rk_usage (rq_key r)) (sh_pubs e).
Proof. exact (listed_pubs E fs db l nd r e). Qed.
Print Assumptions C119_public_keys.
Theorem C119_api_keys E fs db l nd r e : register_typed E -> stocked E fs db l -> In e l -> names_both E e r ->
  exists ks, exec E nd OpGetAPIKeys db fs r = {| o_db := db; o_fs := fs; o_req := r <| rq_payload := PAPIKeys {| b_items := ks; b_size := Z.of_nat (List.length ks) |} |>; o_res := OOk |} /\
    map ak_id ks = in_use (rk_usage (rq_key r)) (sh_keys e).
Proof. exact (listed_keys E fs db l nd r e). Qed.
Print Assumptions C119_api_keys.
Theorem C119_tokens E fs db l nd r e : register_typed E -> stocked E fs db l -> In e l -> names_both E e r ->
  exists ts, exec E nd OpGetMfaTokens db fs r = {| o_db := db; o_fs := fs; o_req := r <| rq_payload := PMfaTokens {| b_items := ts; b_size := Z.of_nat (List.length ts) |} |>; o_res := OOk |} /\
    map t_id ts = in_use_any (sh_tokens e).
Proof. exact (listed_tokens E fs db l nd r e). Qed.
Print Assumptions C119_tokens.
(** What is held can be deleted, and nothing else. *)
Theorem C119_deletes E fs db l nd r e : register_typed E -> stocked E fs db l -> In e l -> names_both E e r ->
  (o_res (exec E nd OpDeletePublicKey db fs r) = OOk <-> In (rk_id (rq_key r)) (map it_id (sh_pubs e)) /\ can_write nd fs (db_path db) (db_content (o_db (exec E nd OpDeletePublicKey db fs r)))) /\
  (o_res (exec E nd OpDeleteAPIKey db fs r) = OOk <-> In (rk_id (rq_key r)) (map it_id (sh_keys e)) /\ can_write nd fs (db_path db) (db_content (o_db (exec E nd OpDeleteAPIKey db fs r)))) /\
  (o_res (exec E nd OpDeleteMfaToken db fs r) = OOk <-> In (rm_id (rq_mfa r)) (map it_id (sh_tokens e)) /\ can_write nd fs (db_path db) (db_content (o_db (exec E nd OpDeleteMfaToken db fs r)))).
Proof. exact (deletes E fs db l nd r e). Qed.
Print Assumptions C119_deletes.
(** A second factor is asked for exactly while one is held (even if disabled). *)
Theorem C119_asked E fs db l nd r e : register_typed E -> stocked E fs db l -> In e l -> names_login E e (ru_username (rq_user r)) ->
  let q := o_req (exec E nd OpIdentify db fs r) in
  ru_username (rq_user q) = sh_name e /\ ru_email (rq_user q) = sh_mail e /\
  ru_challenges (rq_user q) = match sh_tokens e with [] => ["password"] | _ => ["password"; "mfa"] end.
Proof. exact (asked E fs db l nd r e). Qed.
Print Assumptions C119_asked.
(** These histories are among those of the other theorems. *)
Theorem C119_reachable E fs db l : stocked E fs db l -> reachable E fs db.
Proof. exact (stocked_reachable E fs db l). Qed.
Print Assumptions C119_reachable.

(** Two accounts; one adds two public keys and a disabled second factor and deletes the first key. *)
Definition shelf_calls : list (Nd * Op * Request) :=
  two_calls ++ [(draws 9, OpAddPublicKey, key_of jane "ssh" pem_text); (draws 50, OpAddPublicKey, key_of jane "ssh" ssh_text);
                (draws 9, OpAddMfaToken, totp_req <| rq_mfa; rm_disabled := true |>); (draws 99, OpAddAPIKey, bob_key);
                (draws 60, OpDeletePublicKey, kill jane (drawn_id (draws 9)))].
Definition shelf_end : FS * Database := run toy start shelf_calls.
Definition shelf_ex : list Shelf :=
  [{| sh_name := "Jane"; sh_mail := "Jane@Example.com"; sh_pubs := [{| it_id := drawn_id (draws 50); it_kind := "ssh"; it_off := false |}]; sh_keys := [];
      sh_tokens := [{| it_id := drawn_id (draws 9); it_kind := "totp"; it_off := true |}] |};
   {| sh_name := "bob"; sh_mail := "bob@example.com"; sh_pubs := []; sh_keys := [{| it_id := drawn_id (draws 99); it_kind := "api"; it_off := false |}]; sh_tokens := [] |}].
Lemma shelf_ex_is : ledger_of (stock toy) start shelf_calls [] = shelf_ex.
Proof. vm_compute. reflexivity. Qed.
Lemma shelf_stocked : stocked toy shelf_end.1 shelf_end.2 shelf_ex.
Proof.
  assert (A : all_return start shelf_calls = true) by (vm_compute; reflexivity).
  pose proof (run_traced (stock toy) [] shelf_calls start [] (TrNew toy (stock toy) [] (draws 0) "db.json" ∅ _ _ (or_intror eq_refl) start_open) A) as R.
  rewrite shelf_ex_is in R. exact R.
Qed.
Example C119_ex : register_typed toy /\ stocked toy shelf_end.1 shelf_end.2 shelf_ex /\
  (exists e, In e shelf_ex /\ names_both toy e (key_of jane "ssh" "") /\ in_use "ssh" (sh_pubs e) = [drawn_id (draws 50)] /\ in_use_any (sh_tokens e) = []) /\
  (exists e, In e shelf_ex /\ names_login toy e "JANE" /\ sh_tokens e <> []) /\
  ru_challenges (rq_user (o_req (exec toy (draws 0) OpIdentify shelf_end.2 shelf_end.1 (who "JANE" "")))) = ["password"; "mfa"].
Proof.
  split; [exact toy_typed|]. split; [exact shelf_stocked|]. split.
  { eexists. split; [left; reflexivity|]. split; [|split; reflexivity]. unfold names_both, same_ci. repeat split; try (vm_compute; lia); vm_compute; reflexivity. }
  split; [|vm_compute; reflexivity]. eexists. split; [left; reflexivity|]. split; [|discriminate]. right. split; [cbn; intuition discriminate|]. split; [vm_compute; lia|vm_compute; reflexivity].
Qed.
