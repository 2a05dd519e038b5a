(** Theorems about public keys and the item lists of an account (C30-C34). *)
From Coq Require Import String Ascii ZArith NArith Lia Bool Arith List.
From stdpp Require Import gmap strings.
From RecordUpdate Require Import RecordSet.
From Verif Require Import GoStr Codec GoErr Random Types Env PublicKey Fs Database System SpecDb SpecKey Examples LoadFacts AccountFacts StepFacts PublicKeyFacts.
Import ListNotations.
Import RecordSetNotations.
Open Scope string_scope.

(** Requests and states of the examples. *)
Definition key_of (r : Request) (usage payload : string) : Request := r <| rq_key; rk_usage := usage |> <| rq_key; rk_payload := payload |>.
Definition jane : Request := who "jane" "jane@example.com".
Definition pem_text : string := "-----BEGIN RSA PUBLIC KEY-----".
Definition ssh_text : string := "ssh-rsa QUJD".
Notation pem_out := (exec toy (draws 9) OpAddPublicKey two.2 two.1 (key_of jane "ssh" pem_text)).
Notation ssh_out := (exec toy (draws 50) OpAddPublicKey (o_db pem_out) (o_fs pem_out) (key_of jane "ssh" ssh_text)).
Lemma pem_ok : o_res pem_out = OOk. Proof. vm_compute. reflexivity. Qed.
Lemma ssh_ok : o_res ssh_out = OOk. Proof. vm_compute. reflexivity. Qed.
Lemma pem_reachable : reachable toy (o_fs pem_out) (o_db pem_out).
Proof. exact (exec_reachable _ _ _ _ _ _ two_reachable (ok_returned _ pem_ok)). Qed.
Lemma ssh_reachable : reachable toy (o_fs ssh_out) (o_db ssh_out).
Proof. exact (exec_reachable _ _ _ _ _ _ pem_reachable (ok_returned _ ssh_ok)). Qed.

(** C30: a pair of entries with the same type and fingerprint was there when the database was opened. *)
Theorem C30_no_new_duplicates E fs db fs' db' i u' k l : later E fs db fs' db' -> account db' i u' -> holds_pair u' k l ->
  exists u, account db i u /\ holds_pair u k l.
Proof. exact (later_pair E fs db fs' db' i u' k l). Qed.
Print Assumptions C30_no_new_duplicates.
Theorem C30_no_duplicates E fs db i u k l : reachable_by E (loads_distinct E) fs db -> account db i u -> ~ holds_pair u k l.
Proof. intros [fs0 S] Hu. exact (distinct_steps E _ _ S I i u k l Hu). Qed.
Print Assumptions C30_no_duplicates.
(** A key whose type and fingerprint the account already holds is refused. *)
Theorem C30_duplicate_refused E nd db fs r i u k : reachable E fs db -> identity_of E db r i u ->
  new_public_key E nd r = inl k -> holds_fp u (pk_type k) (pk_fp k) ->
  exists e, exec E nd OpAddPublicKey db fs r = {| o_db := db; o_fs := fs; o_req := r; o_res := OErr e |}.
Proof. exact (add_duplicate E nd db fs r i u k). Qed.
Print Assumptions C30_duplicate_refused.
Example C30_ex : reachable toy (o_fs ssh_out) (o_db ssh_out) /\
  o_res (exec toy (draws 60) OpAddPublicKey (o_db ssh_out) (o_fs ssh_out) (key_of jane "ssh" ssh_text)) <> OOk.
Proof. split; [exact ssh_reachable|]. vm_compute. discriminate. Qed.
Lemma loaded_inj a b c d : (a : FS, Loaded b) = (c, Loaded d) -> d = b. Proof. congruence. Qed.
Example C30_reachable_ex : reachable_by toy (loads_distinct toy) start.1 start.2.
Proof.
  exists ∅. eapply StCons with (ev := EvOpen (draws 0) "db.json"); [apply StNil| |].
  - intros fs db i u k l O Hu. change (w_fs {| w_fs := ∅; w_mem := Down |}) with (∅ : FS) in O. rewrite start_open in O.
    apply loaded_inj in O as ->. exfalso. assert (N : db_users start_db = []) by (vm_compute; reflexivity).
    unfold account in Hu. rewrite N in Hu. destruct i; cbn in Hu; congruence.
  - change {| w_fs := start.1; w_mem := Up start.2 |} with {| w_fs := start_fs; w_mem := after_load Down (Loaded start_db) |}. constructor; [exact start_open|discriminate].
Qed.

(** C31: the PEM path looks for the bare fingerprint, the OpenSSH path for the one with "SHA256:". *)
Theorem C31_pem_upload E nd db fs r i u k f : reachable E fs db -> identity_of E db r i u ->
  rk_usage (rq_key r) = "ssh" -> pem_form E (rk_payload (rq_key r)) k -> rsa_key k f ->
  let o := exec E nd OpAddPublicKey db fs r in
  (o_res o = OOk <-> ~ holds_fp u "ssh-rsa" f /\ can_write nd fs (db_path db) (db_content (o_db o))) /\
  (o_res o = OOk -> exists u', account (o_db o) i u' /\ holds_fp u' "ssh-rsa" f).
Proof.
  intros HR V U P K o. destruct (new_pem E nd r k f U P K) as (p & Np & _ & T & F & _). split.
  - unfold o. rewrite (add_fp E nd db fs r i u p HR V Np). now rewrite T, F.
  - intros H. destruct (add_public_key_result E nd db fs r i u HR H V) as (u' & p' & Hu' & Np' & Ks & _). exists u'. split; [exact Hu'|].
    exists p. rewrite Ks, T, F. split; [|auto]. apply in_app_iff. right. left. congruence.
Qed.
Print Assumptions C31_pem_upload.
Theorem C31_openssh_upload E nd db fs r i u k f : reachable E fs db -> identity_of E db r i u ->
  rk_usage (rq_key r) = "ssh" \/ rk_usage (rq_key r) = "gpg" -> ssh_form E (rk_payload (rq_key r)) k -> rsa_key k f ->
  let o := exec E nd OpAddPublicKey db fs r in
  (o_res o = OOk <-> ~ holds_fp u "ssh-rsa" ("SHA256:" ++ f) /\ can_write nd fs (db_path db) (db_content (o_db o))) /\
  (o_res o = OOk -> exists u', account (o_db o) i u' /\ holds_fp u' "ssh-rsa" ("SHA256:" ++ f)).
Proof.
  intros HR V U P K o. destruct (new_openssh E nd r k f U P K) as (p & Np & _ & T & F & _). split.
  - unfold o. rewrite (add_fp E nd db fs r i u p HR V Np). now rewrite T, F.
  - intros H. destruct (add_public_key_result E nd db fs r i u HR H V) as (u' & p' & Hu' & Np' & Ks & _). exists u'. split; [exact Hu'|].
    exists p. rewrite Ks, T, F. split; [|auto]. apply in_app_iff. right. left. congruence.
Qed.
Print Assumptions C31_openssh_upload.
(** So both encodings of one key can be stored, whichever comes first. *)
Theorem C31_both_stored E nd nd' db fs r r' i u k f : reachable E fs db -> identity_of E db r i u -> rq_user r' = rq_user r ->
  rsa_key k f -> rk_usage (rq_key r) = "ssh" -> rk_usage (rq_key r') = "ssh" ->
  (pem_form E (rk_payload (rq_key r)) k /\ ssh_form E (rk_payload (rq_key r')) k /\ ~ holds_fp u "ssh-rsa" ("SHA256:" ++ f)) \/
  (ssh_form E (rk_payload (rq_key r)) k /\ pem_form E (rk_payload (rq_key r')) k /\ ~ holds_fp u "ssh-rsa" f) ->
  let o := exec E nd OpAddPublicKey db fs r in let o' := exec E nd' OpAddPublicKey (o_db o) (o_fs o) r' in
  o_res o = OOk -> can_write nd' (o_fs o) (db_path (o_db o)) (db_content (o_db o')) -> o_res o' = OOk.
Proof. exact (both_stored E nd nd' db fs r r' i u k f). Qed.
Print Assumptions C31_both_stored.
Theorem C31_recognised_refuted : exists E nd nd' fs db r r' k f, reachable E fs db /\ rsa_key k f /\
  pem_form E (rk_payload (rq_key r)) k /\ ssh_form E (rk_payload (rq_key r')) k /\
  let o := exec E nd OpAddPublicKey db fs r in o_res o = OOk /\ o_res (exec E nd' OpAddPublicKey (o_db o) (o_fs o) r') = OOk.
Proof.
  exists toy, (draws 9), (draws 50), two.1, two.2, (key_of jane "ssh" pem_text), (key_of jane "ssh" ssh_text), toy_key, "abc".
  split; [exact two_reachable|]. split; [repeat split; try discriminate; cbn; intuition discriminate|].
  split; [split; [exists "-----BEGIN ", "-----"; reflexivity|eexists; split; reflexivity]|].
  split; [exists "ABC"; repeat split; discriminate|]. split; [exact pem_ok|exact ssh_ok].
Qed.
Print Assumptions C31_recognised_refuted.
Example C31_ex : pem_form toy pem_text toy_key /\ ssh_form toy ssh_text toy_key /\ rsa_key toy_key "abc" /\ o_res pem_out = OOk /\ o_res ssh_out = OOk /\
  map (fun k => (pk_type k, pk_fp k)) (flat_map u_pubkeys (db_users (o_db ssh_out))) = [("ssh-rsa", "abc"); ("ssh-rsa", "SHA256:abc")] /\
  o_res (exec toy (draws 60) OpAddPublicKey (o_db pem_out) (o_fs pem_out) (key_of jane "ssh" pem_text)) <> OOk.
Proof.
  split; [split; [exists "-----BEGIN ", "-----"; reflexivity|eexists; split; reflexivity]|]. split; [exists "ABC"; repeat split; discriminate|].
  split; [repeat split; try discriminate; cbn; intuition discriminate|]. split; [exact pem_ok|]. split; [exact ssh_ok|]. split; [vm_compute; reflexivity|].
  vm_compute. discriminate.
Qed.

(** C32 *)
Theorem C32_get_public_keys E nd db fs r i u : reachable E fs db -> identity_of E db r i u ->
  exists l, exec E nd OpGetPublicKeys db fs r = {| o_db := db; o_fs := fs;
      o_req := r <| rq_payload := PPublicKeys {| b_items := l; b_size := Z.of_nat (List.length l) |} |>; o_res := OOk |} /\
    picked (fun k => pk_usage k = rk_usage (rq_key r) /\ pk_disabled k = false) (u_pubkeys u) l.
Proof. exact (get_public_keys_spec E nd db fs r i u). Qed.
Print Assumptions C32_get_public_keys.
Theorem C32_get_api_keys E nd db fs r i u : reachable E fs db -> identity_of E db r i u ->
  exists l, exec E nd OpGetAPIKeys db fs r = {| o_db := db; o_fs := fs;
      o_req := r <| rq_payload := PAPIKeys {| b_items := l; b_size := Z.of_nat (List.length l) |} |>; o_res := OOk |} /\
    picked (fun k => ak_usage k = rk_usage (rq_key r) /\ ak_disabled k = false) (u_apikeys u) l.
Proof. exact (get_api_keys_spec E nd db fs r i u). Qed.
Print Assumptions C32_get_api_keys.
Theorem C32_get_mfa_tokens E nd db fs r i u : reachable E fs db -> identity_of E db r i u ->
  exists l, exec E nd OpGetMfaTokens db fs r = {| o_db := db; o_fs := fs;
      o_req := r <| rq_payload := PMfaTokens {| b_items := l; b_size := Z.of_nat (List.length l) |} |>; o_res := OOk |} /\
    picked (fun t => t_disabled t = false) (u_mfa u) l.
Proof. exact (get_mfa_tokens_spec E nd db fs r i u). Qed.
Print Assumptions C32_get_mfa_tokens.
(** [picked] determines the list. *)
Theorem C32_picked_determines {A} (P : A -> Prop) l l1 l2 : picked P l l1 -> picked P l l2 -> l1 = l2.
Proof. exact (picked_det P l l1 l2). Qed.
Print Assumptions C32_picked_determines.
Example C32_ex : (exists u, identity_of toy (o_db ssh_out) (key_of jane "ssh" "") 0%nat u) /\
  exists b, rq_payload (o_req (exec toy (draws 60) OpGetPublicKeys (o_db ssh_out) (o_fs ssh_out) (key_of jane "ssh" ""))) = PPublicKeys b /\
    map pk_fp (b_items b) = ["abc"; "SHA256:abc"] /\ b_size b = 2%Z.
Proof. split; [apply (identity_at toy (o_fs ssh_out)); [exact ssh_reachable|vm_compute; reflexivity]|]. eexists. split; [vm_compute; reflexivity|]. auto. Qed.

(** C33 *)
Theorem C33_delete_public_key E nd db fs r : reachable E fs db -> let o := exec E nd OpDeletePublicKey db fs r in
  (o_res o = OOk <-> (exists i u k, identity_of E db r i u /\ In k (u_pubkeys u) /\ pk_id k = rk_id (rq_key r)) /\ can_write nd fs (db_path db) (db_content (o_db o))) /\
  (o_res o = OOk -> forall i u, identity_of E db r i u ->
    exists u', account (o_db o) i u' /\ picked (fun k => pk_id k <> rk_id (rq_key r)) (u_pubkeys u) (u_pubkeys u') /\
      others_same u u' /\ u_apikeys u' = u_apikeys u /\ u_mfa u' = u_mfa u /\ revised nd u u').
Proof. intros HR o. split; [exact (delete_public_key_iff E nd db fs r HR)|]. intros H i u V. exact (delete_public_key_result E nd db fs r i u HR H V). Qed.
Print Assumptions C33_delete_public_key.
Theorem C33_delete_api_key E nd db fs r : reachable E fs db -> let o := exec E nd OpDeleteAPIKey db fs r in
  (o_res o = OOk <-> (exists i u k, identity_of E db r i u /\ In k (u_apikeys u) /\ ak_id k = rk_id (rq_key r)) /\ can_write nd fs (db_path db) (db_content (o_db o))) /\
  (o_res o = OOk -> forall i u, identity_of E db r i u ->
    exists u', account (o_db o) i u' /\ picked (fun k => ak_id k <> rk_id (rq_key r)) (u_apikeys u) (u_apikeys u') /\
      others_same u u' /\ u_pubkeys u' = u_pubkeys u /\ u_mfa u' = u_mfa u /\ revised nd u u').
Proof. intros HR o. split; [exact (delete_api_key_iff E nd db fs r HR)|]. intros H i u V. exact (delete_api_key_result E nd db fs r i u HR H V). Qed.
Print Assumptions C33_delete_api_key.
Theorem C33_delete_mfa_token E nd db fs r : reachable E fs db -> let o := exec E nd OpDeleteMfaToken db fs r in
  (o_res o = OOk <-> (exists i u t, identity_of E db r i u /\ In t (u_mfa u) /\ t_id t = rm_id (rq_mfa r)) /\ can_write nd fs (db_path db) (db_content (o_db o))) /\
  (o_res o = OOk -> forall i u, identity_of E db r i u ->
    exists u', account (o_db o) i u' /\ picked (fun t => t_id t <> rm_id (rq_mfa r)) (u_mfa u) (u_mfa u') /\
      others_same u u' /\ u_pubkeys u' = u_pubkeys u /\ u_apikeys u' = u_apikeys u /\ revised nd u u').
Proof. intros HR o. split; [exact (delete_mfa_token_iff E nd db fs r HR)|]. intros H i u V. exact (delete_mfa_token_result E nd db fs r i u HR H V). Qed.
Print Assumptions C33_delete_mfa_token.
Theorem C33_unknown_id E nd op db fs r : In op [OpDeletePublicKey; OpDeleteAPIKey; OpDeleteMfaToken] -> reachable E fs db ->
  (forall i u, identity_of E db r i u -> match op with
     | OpDeletePublicKey => forall k, In k (u_pubkeys u) -> pk_id k <> rk_id (rq_key r)
     | OpDeleteAPIKey => forall k, In k (u_apikeys u) -> ak_id k <> rk_id (rq_key r)
     | _ => forall t, In t (u_mfa u) -> t_id t <> rm_id (rq_mfa r) end) ->
  let o := exec E nd op db fs r in (exists e, o_res o = OErr e) /\ o_db o = db /\ o_fs o = fs.
Proof. exact (delete_absent E nd op db fs r). Qed.
Print Assumptions C33_unknown_id.
Example C33_ex : let r := jane <| rq_key; rk_id := random_string 40 (nd_id (draws 9)) |> in
  reachable toy (o_fs ssh_out) (o_db ssh_out) /\ o_res (exec toy (draws 60) OpDeletePublicKey (o_db ssh_out) (o_fs ssh_out) r) = OOk /\
  o_res (exec toy (draws 60) OpDeletePublicKey (o_db ssh_out) (o_fs ssh_out) (r <| rq_key; rk_id := "zz" |>)) <> OOk.
Proof. split; [exact ssh_reachable|]. split; vm_compute; [reflexivity|discriminate]. Qed.

(** C34 *)
Theorem C34_stored_key_shape E nd db fs r i u : reachable E fs db -> pem_nonempty E -> let o := exec E nd OpAddPublicKey db fs r in
  o_res o = OOk -> identity_of E db r i u ->
  exists u' k, account (o_db o) i u' /\ u_pubkeys u' = (u_pubkeys u ++ [k])%list /\
    (pk_usage k = "ssh" \/ pk_usage k = "gpg") /\ pk_usage k = rk_usage (rq_key r) /\ pk_payload k <> "" /\
    pk_disabled k = rk_disabled (rq_key r) /\ pk_expired k = false /\ pk_created k = nd_clock nd.
Proof.
  intros HR PN o H V. destruct (add_public_key_result E nd db fs r i u HR H V) as (u' & k & Hu' & K & Ks & _). exists u', k. split; [exact Hu'|].
  split; [exact Ks|]. exact (new_public_key_shape E nd r k PN K).
Qed.
Print Assumptions C34_stored_key_shape.
(** An SSH key is accepted under usage gpg and a PGP key under usage ssh. *)
Theorem C34_ssh_as_gpg E nd db fs r i u k f : reachable E fs db -> identity_of E db r i u -> rk_usage (rq_key r) = "gpg" ->
  ssh_form E (rk_payload (rq_key r)) k -> rsa_key k f -> ~ holds_fp u "ssh-rsa" ("SHA256:" ++ f) ->
  let o := exec E nd OpAddPublicKey db fs r in can_write nd fs (db_path db) (db_content (o_db o)) ->
  o_res o = OOk /\ exists u' p, account (o_db o) i u' /\ In p (u_pubkeys u') /\ pk_usage p = "gpg" /\ pk_type p = "ssh-rsa".
Proof.
  intros HR V U P K N o W. destruct (C31_openssh_upload E nd db fs r i u k f HR V (or_intror U) P K) as [[_ Ok] _]. specialize (Ok (conj N W)).
  split; [exact Ok|]. destruct (new_openssh E nd r k f (or_intror U) P K) as (p & Np & Us & T & _).
  destruct (add_public_key_result E nd db fs r i u HR Ok V) as (u' & p' & Hu' & Np' & Ks & _). assert (p' = p) as -> by congruence. exists u', p. split; [exact Hu'|].
  split; [rewrite Ks; apply in_app_iff; right; now left|]. split; [congruence|exact T].
Qed.
Print Assumptions C34_ssh_as_gpg.
Theorem C34_pgp_as_ssh E nd db fs r i u : reachable E fs db -> identity_of E db r i u -> rk_usage (rq_key r) = "ssh" ->
  pgp_form E (rk_payload (rq_key r)) -> u_pubkeys u = [] ->
  let o := exec E nd OpAddPublicKey db fs r in can_write nd fs (db_path db) (db_content (o_db o)) ->
  o_res o = OOk /\ exists u' p, account (o_db o) i u' /\ u_pubkeys u' = [p] /\ pk_usage p = "ssh" /\ In (pk_type p) ["rsa"; "dsa"; "ecdh"; "ecdsa"].
Proof.
  intros HR V U P N o W. destruct (new_pgp E nd r (or_introl U) P) as (p & Np & Us & T).
  assert (Ok : o_res o = OOk).
  { apply (add_fp E nd db fs r i u p HR V Np). split; [|exact W]. intros (x & Hx & _). rewrite N in Hx. destruct Hx. }
  split; [exact Ok|]. destruct (add_public_key_result E nd db fs r i u HR Ok V) as (u' & p' & Hu' & Np' & Ks & _). assert (p' = p) as -> by congruence.
  exists u', p. split; [exact Hu'|]. rewrite N in Ks. split; [exact Ks|]. split; [congruence|exact T].
Qed.
Print Assumptions C34_pgp_as_ssh.
Lemma stored_as_gpg E nd fs db r i u k f : reachable E fs db -> o_res (exec E nd OpAddPublicKey db fs r) = OOk -> identity_of E db r i u ->
  rk_usage (rq_key r) = "gpg" -> ssh_form E (rk_payload (rq_key r)) k -> rsa_key k f ->
  exists u' p, account (o_db (exec E nd OpAddPublicKey db fs r)) i u' /\ In p (u_pubkeys u') /\ pk_usage p = "gpg" /\ pk_type p = "ssh-rsa".
Proof.
  intros HR Ok V U P K. destruct (new_openssh E nd r k f (or_intror U) P K) as (p & Np & Us & T & _).
  destruct (add_public_key_result E nd db fs r i u HR Ok V) as (u' & p' & Hu' & Np' & Ks & _). assert (p' = p) as -> by congruence. exists u', p. split; [exact Hu'|].
  split; [rewrite Ks; apply in_app_iff; right; now left|]. split; [congruence|exact T].
Qed.
Lemma toy_ssh : ssh_form toy ssh_text toy_key. Proof. exists "ABC"; repeat split; discriminate. Qed.
Lemma toy_rsa : rsa_key toy_key "abc". Proof. repeat split; try discriminate; cbn; intuition discriminate. Qed.
Theorem C34_usage_matches_refuted : exists E nd fs db r i u k, reachable E fs db /\ o_res (exec E nd OpAddPublicKey db fs r) = OOk /\
  account (o_db (exec E nd OpAddPublicKey db fs r)) i u /\ In k (u_pubkeys u) /\ pk_usage k = "gpg" /\ pk_type k = "ssh-rsa".
Proof.
  destruct (identity_at toy two.1 two.2 (key_of jane "gpg" ssh_text) 0%nat two_reachable) as [u V]; [vm_compute; reflexivity|].
  assert (Ok : o_res (exec toy (draws 9) OpAddPublicKey two.2 two.1 (key_of jane "gpg" ssh_text)) = OOk) by (vm_compute; reflexivity).
  destruct (stored_as_gpg toy (draws 9) two.1 two.2 (key_of jane "gpg" ssh_text) 0%nat u toy_key "abc" two_reachable Ok V eq_refl toy_ssh toy_rsa) as (u' & p & H).
  exists toy, (draws 9), two.1, two.2, (key_of jane "gpg" ssh_text), 0%nat, u', p. split; [exact two_reachable|]. split; [exact Ok|exact H].
Qed.
Print Assumptions C34_usage_matches_refuted.
Example C34_ex : pem_nonempty toy /\ reachable toy two.1 two.2 /\ o_res pem_out = OOk.
Proof. split; [intros b k [=<-]; discriminate|]. split; [exact two_reachable|exact pem_ok]. Qed.
(** A PGP form exists: an environment that reads one. *)
Definition pgp_env : Env := {|
  e_lr := e_lr toy; e_bcrypt := e_bcrypt toy; e_bcmp := e_bcmp toy; e_hmac := e_hmac toy; e_sha256 := e_sha256 toy; e_ecdsa := e_ecdsa toy;
  e_ssh := e_ssh toy; e_pem := e_pem toy; e_pkix := e_pkix toy;
  e_pgp := fun _ => Some [{| pg_primary := Some {| pg_id := 1; pg_fp := "f"; pg_algo := 1; pg_created := "" |}; pg_names := ["jane"] |}];
  e_register := e_register toy; e_authreq := e_authreq toy; e_client := e_client toy; e_home := e_home toy |}.
Example C34_pgp_ex : pgp_form pgp_env "-----BEGIN PGP PUBLIC KEY BLOCK-----x-----END PGP PUBLIC KEY BLOCK-----".
Proof.
  split; [exists "x"; reflexivity|]. split.
  { intros a b Eq. assert (contains "-----BEGIN PGP PUBLIC KEY BLOCK-----x-----END PGP PUBLIC KEY BLOCK-----" "RSA PUBLIC KEY" = true) by (apply contains_spec; eauto). discriminate. }
  split; [discriminate|]. eexists _, _, _. split; [reflexivity|]. cbn. auto.
Qed.
