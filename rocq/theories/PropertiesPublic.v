(** Theorems about the entries that public keys are stored as (C123). *)
From Coq Require Import String Ascii ZArith NArith Lia Bool Arith List.
From stdpp Require Import gmap strings.
From RecordUpdate Require Import RecordSet.
From Verif Require Import GoStr Codec GoErr Random Types Env PublicKey Fs Database System SpecDb SpecKey SpecMfa SpecRefuse SpecPublic Examples LoadFacts
  AccountFacts StepFacts PublicKeyFacts PublicEntry PropertiesPublicKey.
Import ListNotations.
Import RecordSetNotations.
Open Scope string_scope.

(** C123: [NewPublicKey] makes an entry exactly when the text says one, and makes that one. *)
Theorem C123_entry E nd r k : new_public_key E nd r = inl k <-> says E nd r k.
Proof. exact (new_key_iff E nd r k). Qed.
Print Assumptions C123_entry.
Theorem C123_one E nd r k k' : says E nd r k -> says E nd r k' -> k' = k.
Proof. rewrite <- !C123_entry. congruence. Qed.
Print Assumptions C123_one.
(** [AddPublicKey] appends that entry to the keys of the named account and changes nothing else of it
    but its revision and the time of its last change. *)
Theorem C123_added E nd db fs r : reachable E fs db -> let o := exec E nd OpAddPublicKey db fs r in
  (o_res o = OOk <-> (exists i u k, identity_of E db r i u /\ says E nd r k /\ ~ holds_fp u (pk_type k) (pk_fp k)) /\
    can_write nd fs (db_path db) (db_content (o_db o))) /\
  (o_res o = OOk -> forall i u, identity_of E db r i u -> exists u' k, account (o_db o) i u' /\ says E nd r k /\
    u_pubkeys u' = (u_pubkeys u ++ [k])%list /\ others_same u u' /\ u_apikeys u' = u_apikeys u /\ u_mfa u' = u_mfa u /\ revised nd u u').
Proof.
  intros HR o. split.
  - unfold o. rewrite add_public_key_iff by assumption. split; intros [(i & u & k & V & K & N) W]; (split; [|exact W]); exists i, u, k; split; auto; split; auto; now apply C123_entry.
  - intros H i u V. destruct (add_public_key_result E nd db fs r i u HR H V) as (u' & k & Hu' & K & R). exists u', k. split; [exact Hu'|]. split; [now apply C123_entry|exact R].
Qed.
Print Assumptions C123_added.
(** Every key of an account was there when the history began, or is what the text of some call of it
    said, made in the name of that account while it had no such key. *)
Theorem C123_origin E fs db fs' db' i u' k : reachable E fs db -> later E fs db fs' db' -> account db' i u' -> In k (u_pubkeys u') ->
  (exists u, account db i u /\ In k (u_pubkeys u)) \/
  exists fs1 db1 nd r u, later E fs db fs1 db1 /\ identity_of E db1 r i u /\ says E nd r k /\ ~ holds_fp u (pk_type k) (pk_fp k).
Proof. exact (entry_origin E fs db fs' db' i u' k). Qed.
Print Assumptions C123_origin.
(** The OpenSSH form kept with a PEM key is the encoded blob, provided that it starts with a character
    which is not in the name of the key's type. *)
Theorem C123_line E nd r k b x line a t : says E nd r k -> rsa_payload (rk_payload (rq_key r)) ->
  e_pem E (trim_space (rk_payload (rq_key r))) = Some ("RSA PUBLIC KEY", b) -> e_pkix E b = PkixKey x ->
  sk_authorized x = sk_type x ++ " " ++ line -> los line = a :: t -> ~ In a (los (sk_type x ++ " ")) ->
  pk_openssh k = line /\ pk_type k = sk_type x /\ pk_fp_md5 k = sk_md5 x /\ pk_payload k = rk_payload (rq_key r) /\ pk_comment k = rk_comment (rq_key r).
Proof.
  intros [S|[((S & _) & _)|((S & _) & _)]] R P X A L N; [|contradiction|contradiction]. destruct S as (_ & _ & b' & x' & fp & line' & P' & X' & _ & Wl & ->).
  rewrite P in P'. injection P' as <-. rewrite X in X'. injection X' as <-. split; [|repeat split]. cbn. apply los_inj.
  rewrite A in Wl. replace (sk_type x ++ " " ++ line) with ((sk_type x ++ " ") ++ line) in Wl.
  - exact (leading_det _ _ _ _ Wl (leading_word _ _ _ _ L N)).
  - apply los_inj. rewrite !los_app. now rewrite <- app_assoc.
Qed.
Print Assumptions C123_line.

(** A PEM text, a line with a comment and a PGP block. *)
Definition pem_req : Request := key_of jane "ssh" pem_text.
Definition line_req : Request := key_of jane "gpg" ("ssh-rsa  QUJD" ++ String "009" "jane at home ").
Definition pgp_req : Request := key_of jane "gpg" (" -----BEGIN PGP PUBLIC KEY BLOCK-----x-----END PGP PUBLIC KEY BLOCK-----") <| rq_key; rk_comment := "mine" |> <| rq_key; rk_disabled := true |>.
Definition entry_id : string := random_string 40 (nd_id (draws 9)).
Example C123_ex : says toy (draws 9) pem_req (entry_of (draws 9) pem_req entry_id "ssh-rsa" "abc" "aa" "" pem_text "QUJD") /\
  says toy (draws 9) line_req (entry_of (draws 9) line_req entry_id "ssh-rsa" "SHA256:abc" "aa" "jane at home" "pem" "QUJD") /\
  says pgp_env (draws 9) pgp_req (entry_of (draws 9) pgp_req "1" "rsa" "66" "" "mine (jane, algo RSA, created )"
    "-----BEGIN PGP PUBLIC KEY BLOCK-----x-----END PGP PUBLIC KEY BLOCK-----" "").
Proof. rewrite <- !C123_entry. split; [|split]; vm_compute; reflexivity. Qed.
Example C123_added_ex : reachable toy two.1 two.2 /\ o_res (exec toy (draws 9) OpAddPublicKey two.2 two.1 pem_req) = OOk /\
  o_res (exec toy (draws 50) OpAddPublicKey (o_db pem_out) (o_fs pem_out) line_req) = OOk.
Proof. split; [exact two_reachable|]. split; vm_compute; reflexivity. Qed.
Example C123_origin_ex : exists u, later toy two.1 two.2 (o_fs pem_out) (o_db pem_out) /\ account (o_db pem_out) 0 u /\
  In (entry_of (draws 9) pem_req entry_id "ssh-rsa" "abc" "aa" "" pem_text "QUJD") (u_pubkeys u).
Proof.
  assert (H : option_map u_pubkeys (db_users (o_db pem_out) !! 0%nat) = Some [entry_of (draws 9) pem_req entry_id "ssh-rsa" "abc" "aa" "" pem_text "QUJD"]) by (vm_compute; reflexivity).
  destruct (db_users (o_db pem_out) !! 0%nat) as [u|] eqn:Hu; [|discriminate]. exists u. split; [|split].
  - eapply StCons with (ev := EvCall (draws 9) OpAddPublicKey pem_req); [apply StNil|exact I|].
    assert (Eq : {| w_fs := o_fs pem_out; w_mem := Up (o_db pem_out) |} = {| w_fs := o_fs pem_out; w_mem := after_call pem_out |}) by (unfold after_call; now rewrite pem_ok).
    rewrite Eq. apply StCall.
  - exact Hu.
  - cbn [option_map] in H. apply (inj Some) in H. rewrite H. now left.
Qed.
Example C123_line_ex : exists a t, e_pem toy (trim_space pem_text) = Some ("RSA PUBLIC KEY", trim_space pem_text) /\ e_pkix toy (trim_space pem_text) = PkixKey toy_key /\
  sk_authorized toy_key = sk_type toy_key ++ " " ++ "QUJD" /\ los "QUJD" = a :: t /\ ~ In a (los (sk_type toy_key ++ " ")).
Proof. exists "Q"%char, (los "UJD"). do 4 (split; [reflexivity|]). intros H. cbn in H. repeat (destruct H as [H|H]; [discriminate|]). exact H. Qed.
