(** Theorems about registered second factors (C122). *)
From Coq Require Import String Ascii ZArith NArith Lia Bool Arith List.
From stdpp Require Import gmap strings.
From RecordUpdate Require Import RecordSet.
From Verif Require Import GoStr Codec GoErr Random SpecValue Types Env Mfa Fs Database System SpecDb SpecAuth SpecMfa SpecRegister SpecPersist SpecOutage SpecLedger SpecRing Examples.
From Verif Require Import AccountFacts RingFacts PropertiesMfa PropertiesPersist PropertiesLedger.
Import ListNotations.
Import RecordSetNotations.
Open Scope string_scope.

(** C122: a login with a WebAuthn message succeeds exactly if the message answers the request's
    challenge and is signed with the key of the first registration of its credential that is not
    deleted and was not made as disabled. *)
Theorem C122_login E fs db l nd r : register_typed E -> enrolled E fs db l -> ru_password (rq_user r) = "" -> rw_request (rq_webauthn r) <> "" ->
  o_res (exec E nd OpAuthenticate db fs r) = OOk <->
  exists e q site x y, In e l /\ ring_called E e (ru_username (rq_user r)) /\ assertion E r q /\ first_enrols E e (wq_id q) site x y /\ answers E r q site x y.
Proof. exact (ring_login E fs db l nd r). Qed.
Print Assumptions C122_login.
(** So it depends on nothing else in memory or on disk. *)
Theorem C122_determined E fs db fs' db' l nd nd' r : register_typed E -> enrolled E fs db l -> enrolled E fs' db' l -> ru_password (rq_user r) = "" -> rw_request (rq_webauthn r) <> "" ->
  o_res (exec E nd OpAuthenticate db fs r) = OOk <-> o_res (exec E nd' OpAuthenticate db' fs' r) = OOk.
Proof. intros RT R R' Hp Hw. rewrite (C122_login E fs db l nd r RT R Hp Hw), (C122_login E fs' db' l nd' r RT R' Hp Hw). reflexivity. Qed.
Print Assumptions C122_determined.
(** The tokens handed out are those of the registrations not deleted and not made as disabled, in
    order, and a passcode is valid for one exactly if it is a code of the registered secret for the
    step before, at or after the time. *)
Theorem C122_codes E fs db l nd r e : register_typed E -> hmac_size E -> enrolled E fs db l -> In e l -> ring_named E e r ->
  exists ts, exec E nd OpGetMfaTokens db fs r = {| o_db := db; o_fs := fs; o_req := r <| rq_payload := PMfaTokens {| b_items := ts; b_size := Z.of_nat (List.length ts) |} |>; o_res := OOk |} /\
    Forall2 (fun f t => t_id t = fa_id f /\ t_type t = rm_type (rq_mfa (fa_req f)) /\ t_comment t = rm_comment (rq_mfa (fa_req f)) /\
               (t_type t = "totp" -> forall now code, validate_code E t code now = None <-> passcode_of E (fa_req f) now code)) (usable (ri_factors e)) ts.
Proof. exact (ring_codes E fs db l nd r e). Qed.
Print Assumptions C122_codes.
(** A registration is accepted exactly if it is in order, shares neither secret nor comment with one
    not deleted, and can be saved. *)
Theorem C122_registers E fs db l nd r e : register_typed E -> hmac_size E -> enrolled E fs db l -> In e l -> ring_named E e r -> let o := exec E nd OpAddMfaToken db fs r in
  o_res o = OOk <-> can_enrol E (nd_clock nd) r /\ Forall (unlike r) (ri_factors e) /\ can_write nd fs (db_path db) (db_content (o_db o)).
Proof. exact (ring_registers E fs db l nd r e). Qed.
Print Assumptions C122_registers.
(** These histories are among those of the other theorems. *)
Theorem C122_reachable E fs db l : enrolled E fs db l -> reachable E fs db.
Proof. exact (enrolled_reachable E fs db l). Qed.
Print Assumptions C122_reachable.

(** Two accounts; one registers a secret and a key. *)
Definition ring_calls : list (Nd * Op * Request) := two_calls ++ [(draws 9, OpAddMfaToken, totp_req); (draws 50, OpAddMfaToken, u2f_req)].
Definition ring_end : FS * Database := run toy start ring_calls.
Definition phone : Factor := {| fa_id := random_string 40 (nd_id (draws 9)); fa_req := totp_req |}.
Definition stick : Factor := {| fa_id := random_string 40 (nd_id (draws 50)); fa_req := u2f_req |}.
Definition ring_ex : list Ring :=
  [{| ri_name := "Jane"; ri_mail := "Jane@Example.com"; ri_factors := [phone; stick] |}; {| ri_name := "bob"; ri_mail := "bob@example.com"; ri_factors := [] |}].
Lemma ring_ex_is : ledger_of (enrol toy) start ring_calls [] = ring_ex.
Proof. vm_compute. reflexivity. Qed.
Lemma ring_enrolled : enrolled toy ring_end.1 ring_end.2 ring_ex.
Proof.
  assert (A : all_return start ring_calls = true) by (vm_compute; reflexivity).
  pose proof (run_traced (enrol toy) [] ring_calls start [] (TrNew toy (enrol toy) [] (draws 0) "db.json" ∅ _ _ (or_intror eq_refl) start_open) A) as R.
  rewrite ring_ex_is in R. exact R.
Qed.
(** The key is deleted. *)
Definition ring_drop : list (Nd * Op * Request) := [(draws 60, OpDeleteMfaToken, jane <| rq_mfa; rm_id := fa_id stick |>)].
Definition ring_less : FS * Database := run toy ring_end ring_drop.
Definition ring_after : list Ring :=
  [{| ri_name := "Jane"; ri_mail := "Jane@Example.com"; ri_factors := [phone] |}; {| ri_name := "bob"; ri_mail := "bob@example.com"; ri_factors := [] |}].
Lemma ring_after_is : ledger_of (enrol toy) ring_end ring_drop ring_ex = ring_after.
Proof. vm_compute. reflexivity. Qed.
Lemma ring_less_enrolled : enrolled toy ring_less.1 ring_less.2 ring_after.
Proof.
  assert (A : all_return ring_end ring_drop = true) by (vm_compute; reflexivity).
  pose proof (run_traced (enrol toy) [] ring_drop ring_end ring_ex ring_enrolled A) as R. rewrite ring_after_is in R. exact R.
Qed.
Example C122_ex : register_typed toy /\ hmac_size toy /\ enrolled toy ring_end.1 ring_end.2 ring_ex /\ o_res (exec toy (draws 60) OpAuthenticate ring_end.2 ring_end.1 login_req) = OOk /\
  enrolled toy ring_less.1 ring_less.2 ring_after /\ o_res (exec toy (draws 60) OpAuthenticate ring_less.2 ring_less.1 login_req) <> OOk.
Proof.
  split; [exact toy_typed|]. split; [exact toy_hmac|]. split; [exact ring_enrolled|]. split; [vm_compute; reflexivity|]. split; [exact ring_less_enrolled|]. vm_compute. discriminate.
Qed.
(** The same secret again is refused, another one is accepted. *)
Example C122_ex_again : exists e, In e ring_ex /\ ring_named toy e totp_req /\ usable (ri_factors e) = [phone; stick] /\
  o_res (exec toy (draws 9) OpAddMfaToken ring_end.2 ring_end.1 (totp_req <| rq_mfa; rm_comment := "other" |>)) <> OOk /\
  o_res (exec toy (draws 60) OpAddMfaToken ring_end.2 ring_end.1 (u2f_req <| rq_mfa; rm_comment := "other" |> <| rq_webauthn; rw_challenge := "y" |>)) = OOk.
Proof.
  eexists. split; [left; reflexivity|]. split; [unfold ring_named, same_ci; repeat split; try (vm_compute; lia); vm_compute; reflexivity|]. split; [reflexivity|].
  split; vm_compute; [discriminate|reflexivity].
Qed.
