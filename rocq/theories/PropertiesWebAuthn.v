(** Theorems about the JSON form of the WebAuthn messages (C94-C96). *)
From Coq Require Import String Ascii ZArith NArith Lia Bool Arith List.
From stdpp Require Import gmap strings.
From RecordUpdate Require Import RecordSet.
From Verif Require Import GoStr Utf8 Codec Json GoErr Types Env Mfa Persist Fs Database Method System SpecDb SpecAuth SpecMfa SpecPersist SpecMethod SpecLayout Examples.
From Verif Require Import WebAuthn SpecWebAuthn WebAuthnJsonFacts AccountFacts StepFacts TokenUse ReopenFacts PropertiesMfa PropertiesPersist PropertiesMethod.
Import ListNotations.
Import RecordSetNotations.
Open Scope string_scope.

(** An environment with these decoders and messages for it. *)
Definition jtoy : Env := {|
  e_lr := e_lr toy; e_bcrypt := e_bcrypt toy; e_bcmp := e_bcmp toy; e_hmac := e_hmac toy; e_sha256 := e_sha256 toy; e_ecdsa := e_ecdsa toy;
  e_ssh := e_ssh toy; e_pem := e_pem toy; e_pkix := e_pkix toy; e_pgp := e_pgp toy;
  e_register := decode_register; e_authreq := decode_authreq; e_client := decode_client; e_home := e_home toy |}.
Lemma jtoy_json : json_env jtoy.
Proof. split; [|split]; reflexivity. Qed.
(** JSON with ' for the double quote *)
Definition q2 (s : string) : string := sol (map (fun a => if Ascii.eqb a "'" then """"%char else a) (los s)).
Definition client_text (type origin : string) : string :=
  q2 ("{'type': '" ++ type ++ "', 'challenge': 'chal', 'origin': '" ++ origin ++ "', 'crossOrigin': false}").
Definition register_text (origin : string) : string :=
  q2 ("{'id': 'cred', 'type': 'public-key', 'transports': ['usb', 'nfc'], 'success': true, 'attestationObject': {'fmt': 'none', 'attStmt': {}, 'authData': {'rpIdHash': '" ++
      hex_encode (zeros 32) ++ "', 'flags': {'UP': true, 'AT': true}, 'signatureCounter': 7, 'credentialData': {'aaguid': '', 'credentialId': 'cred', 'publicKey': {" ++
      "'key_type': 2, 'algorithm': -7, 'curve_type': 1.0, 'curve_x': '" ++ b64_encode (zeros 32) ++ "', 'curve_y': '" ++ b64_encode (zeros 32) ++
      "'}}}}, 'clientData': " ++ client_text "webauthn.create" origin ++ ", 'device': {'name': 'n', 'type': 't'}}").
Definition login_text (client : string) : string :=
  q2 ("{'id': 'cred', 'type': 'public-key', 'auth_data_encoded': '" ++ b64_encode toy_auth ++ "', 'client_data_encoded': '" ++ b64_encode client ++
      "', 'signature_encoded': '" ++ b64_encode (toy_auth ++ client) ++ "'}").

(** C94 *)
Theorem C94_registration s q : decode_register s = Some q <-> message_text registration s q.
Proof. exact (decode_iff register_m register_z registration register_iff s q). Qed.
Print Assumptions C94_registration.
Theorem C94_request s q : decode_authreq s = Some q <-> message_text request s q.
Proof. exact (decode_iff authreq_m authreq_z request authreq_iff s q). Qed.
Print Assumptions C94_request.
Theorem C94_client s c : decode_client s = Some c <-> message_text client_data s c.
Proof. exact (decode_iff client_m client_z client_data client_iff s c). Qed.
Print Assumptions C94_client.
(** A message has at most one meaning. *)
Theorem C94_unique s q q' c c' g g' :
  (message_text registration s q -> message_text registration s q' -> q = q') /\
  (message_text request s g -> message_text request s g' -> g = g') /\
  (message_text client_data s c -> message_text client_data s c' -> c = c').
Proof.
  split; [|split]; intros A B.
  - apply C94_registration in A, B. congruence.
  - apply C94_request in A, B. congruence.
  - apply C94_client in A, B. congruence.
Qed.
Print Assumptions C94_unique.
(** Names are matched without regard to case and the last member counts. *)
Example C94_ex :
  decode_client (client_text "webauthn.get" "https://example.com") = Some {| cl_challenge := "chal"; cl_cross := false; cl_type := "webauthn.get" |} /\
  decode_client (q2 "{'TYPE': 'x', 'Challenge': 'old', 'challengE': 'new', 'type': null, 'extra': [1]}") = Some {| cl_challenge := "new"; cl_cross := false; cl_type := "x" |} /\
  decode_client (q2 "{'challenge': 5}") = None /\ decode_client "null" = Some client_z /\ decode_client "[]" = None /\
  exists q, decode_register (register_text "https://example.com") = Some q /\ wr_transports q = ["usb"; "nfc"] /\ wr_att q <> None.
Proof.
  split; [vm_compute; reflexivity|]. split; [vm_compute; reflexivity|]. split; [vm_compute; reflexivity|]. split; [vm_compute; reflexivity|]. split; [vm_compute; reflexivity|].
  eexists. split; [vm_compute; reflexivity|]. split; [reflexivity|discriminate].
Qed.

(** C95 *)
Theorem C95_typed E : json_env E -> register_typed E.
Proof. exact (json_env_typed E). Qed.
Print Assumptions C95_typed.
(** All texts and names of a parsed message are UTF-8. *)
Theorem C95_utf8 l j : parse l = Some j -> all_utf8 (json_texts j).
Proof. intros H. apply parse_well in H as [H _]. exact H. Qed.
Print Assumptions C95_utf8.
(** So the theorems on restarts hold of the program with its real decoders. *)
Theorem C95_survives E nd op r fs db fs1 db1 nd2 :
  json_env E -> reachable_by E (fresh_draws E) fs db -> fresh_draws E {| w_fs := fs; w_mem := Up db |} (EvCall nd op r) ->
  writes op -> written_path op db = db_path db -> o_res (exec E nd op db fs r) = OOk ->
  steps E read_calls {| w_fs := o_fs (exec E nd op db fs r); w_mem := Up (o_db (exec E nd op db fs r)) |} {| w_fs := fs1; w_mem := Up db1 |} ->
  plain_path (db_path db) -> readable nd2 ->
  exists db2, new_database E nd2 (db_path db) fs1 = (fs1, Loaded db2) /\ db_content db2 = clean_content (db_content db1) /\
    (all_utf8 (content_texts (db_content db1)) -> db_content db2 = drop_caches (db_content db1) /\ forall l fs', answers E l db2 fs' = answers E l db1 fs').
Proof. intros J. exact (C51_survives E nd op r fs db fs1 db1 nd2 (json_env_typed E J)). Qed.
Print Assumptions C95_survives.
Theorem C95_live_survives E nd op r fs0 fs db nd2 : json_env E -> mixed E tame fs0 db -> writes op -> written_path op db = db_path db ->
  let o := exec E nd op db fs r in
  o_res o = OOk -> (forall i j u v, account (o_db o) i u -> account (o_db o) j v -> u_id u = u_id v -> i = j) ->
  plain_path (db_path db) -> readable nd2 ->
  exists db2, new_database E nd2 (db_path db) (o_fs o) = (o_fs o, Loaded db2) /\ db_content db2 = clean_content (db_content (o_db o)).
Proof. intros J. exact (C80_survives E nd op r fs0 fs db nd2 (json_env_typed E J)). Qed.
Print Assumptions C95_live_survives.
Notation jone := (run jtoy start [(draws 1, OpAddUser, jane_req)]).
Lemma jtoy_open : new_database jtoy (draws 0) "db.json" ∅ = (start_fs, Loaded start_db).
Proof. vm_compute. reflexivity. Qed.
Lemma jone_fresh : reachable_by jtoy (fresh_draws jtoy) jone.1 jone.2.
Proof.
  assert (S : steps jtoy (fresh_draws jtoy) {| w_fs := ∅; w_mem := Down |} (world start)).
  { eapply StCons with (ev := EvOpen (draws 0) "db.json"); [apply StNil| |].
    - split; [exact I|]. intros fs db i u H Hu. change (w_fs {| w_fs := ∅; w_mem := Down |}) with (∅ : FS) in H. rewrite jtoy_open in H. apply (f_equal snd), loaded_inj in H. rewrite <- H in Hu. vm_compute in Hu. discriminate.
    - change (world start) with {| w_fs := start_fs; w_mem := after_load Down (Loaded start_db) |}. constructor; [exact jtoy_open|discriminate]. }
  exists ∅. eapply (exec_steps jtoy (fresh_draws jtoy) (draws 1) OpAddUser start.2 start.1 jane_req); [exact S| |split; vm_compute; discriminate].
  split; [|exact I]. exists 0%nat. split; [lia|]. intros i u Hu. exfalso. vm_compute in Hu. discriminate.
Qed.
(** An account registers a key with a JSON message; after a restart it is still there. *)
Example C95_ex : let r := jane <| rq_mfa; rm_type := "u2f" |> <| rq_mfa; rm_comment := "key" |> <| rq_webauthn; rw_register := b64_encode (register_text "https://good.example") |> <| rq_webauthn; rw_challenge := "x" |> in
  let o := exec jtoy (draws 50) OpAddMfaToken jone.2 jone.1 r in
  json_env jtoy /\ reachable_by jtoy (fresh_draws jtoy) jone.1 jone.2 /\ o_res o = OOk /\
  (exists j, parse (los (register_text "https://good.example")) = Some j /\ List.length (json_texts j) = 45%nat) /\
  exists db2, new_database jtoy (draws 70) "db.json" (o_fs o) = (o_fs o, Loaded db2) /\ map t_type (flat_map u_mfa (db_users db2)) = ["u2f"].
Proof.
  cbv zeta. split; [exact jtoy_json|]. split; [exact jone_fresh|]. split; [vm_compute; reflexivity|].
  split; [eexists; split; [vm_compute; reflexivity|vm_compute; reflexivity]|].
  eexists. split; [vm_compute; reflexivity|reflexivity].
Qed.

(** ** C96 *)
Definition jl : list (Nd * Op * Request) := [(draws 1, OpAddUser, jane_req); (draws 20, OpAddUser, bob_req)].
Definition reg_req (origin : string) : Request :=
  jane <| rq_mfa; rm_type := "u2f" |> <| rq_mfa; rm_comment := "key" |> <| rq_webauthn; rw_register := b64_encode (register_text origin) |> <| rq_webauthn; rw_challenge := "x" |>.
Definition sign_req (client : string) : Request := jane <| rq_webauthn; rw_request := b64_encode (login_text client) |> <| rq_webauthn; rw_challenge := "chal" |>.
Notation jw := (run jtoy start jl).
Lemma jw_reachable : reachable jtoy jw.1 jw.2.
Proof.
  exists ∅. apply (run_steps jtoy any_event jl start); [exact (fun _ _ _ => I)|vm_compute; reflexivity|].
  eapply StCons with (ev := EvOpen (draws 0) "db.json"); [apply StNil|exact I|].
  change (world start) with {| w_fs := start_fs; w_mem := after_load Down (Loaded start_db) |}. constructor; [vm_compute; reflexivity|discriminate].
Qed.
Notation reg_out := (exec jtoy (draws 50) OpAddMfaToken jw.2 jw.1 (reg_req "https://good.example")).
Notation sign_out origin := (exec jtoy (draws 60) OpAuthenticate (o_db reg_out) (o_fs reg_out) (sign_req (client_text "webauthn.get" origin))).
Lemma reg_ok : o_res reg_out = OOk. Proof. vm_compute. reflexivity. Qed.
Lemma reg_reachable : reachable jtoy (o_fs reg_out) (o_db reg_out).
Proof. exact (exec_reachable _ _ _ _ _ _ jw_reachable (ok_returned _ reg_ok)). Qed.

Ltac one_text := constructor;
  [match goal with |- Forall _ ?l => let v := eval vm_compute in l in change l with v end; constructor; [right; eexists; reflexivity|constructor]|vm_compute; reflexivity].

(** A login by assertion, on the level of texts. *)
Theorem C96_login E nd db fs r : json_env E -> reachable E fs db -> ru_password (rq_user r) = "" -> rw_request (rq_webauthn r) <> "" ->
  o_res (exec E nd OpAuthenticate db fs r) = OOk ->
  exists message q client m, b64_decode (rw_request (rq_webauthn r)) = Some message /\ message_text request message q /\
    b64_decode (wq_client q) = Some client /\ parse (los client) = Some (JObj m) /\
    text_of m "type" "webauthn.get" /\ flag_of m "crossOrigin" false /\ text_of m "challenge" (rw_challenge (rq_webauthn r)) /\
    exists i u p key auth sig, resolves_login E db (ru_username (rq_user r)) i u /\ first_candidate u (wq_id q) p /\ p256_key p key /\
      b64_decode (wq_auth q) = Some auth /\ b64_decode (wq_sig q) = Some sig /\ e_ecdsa E key (auth ++ e_sha256 E client) sig = true.
Proof.
  intros (Jr & Ja & Jc) HR Hp Hw H. apply (C43_webauthn_login E nd db fs r HR Hp Hw) in H as (i & u & q & p & Hu & (d & Hd & Hq) & Hf & Hv).
  destruct (pv_data _ _ _ _ Hv) as (client & cd & auth & sig & key & D1 & D2 & D3 & D4 & D5 & D6 & D7 & D8 & _ & D10).
  rewrite Ja in Hq. apply C94_request in Hq. rewrite Jc in D2. apply C94_client in D2 as (m & [P|[_ ->]] & C1 & C2 & _ & C4).
  - exists d, q, client, m. rewrite D6 in C4. rewrite D7 in C2. rewrite D8 in C1. split; [exact Hd|]. split; [exact Hq|]. split; [exact D1|]. split; [exact P|]. split; [exact C4|].
    split; [exact C2|]. split; [exact C1|]. exists i, u, p, key, auth, sig. auto 10.
  - exfalso. destruct C4 as [_ C4]. cbn in C4. congruence.
Qed.
Print Assumptions C96_login.
(** The origin plays no part: whoever can have another client data text with the same challenge,
    type and crossOrigin signed is let in, whatever origin it names. *)
Theorem C96_origin_unchecked E r q q' p c c' m m' : json_env E -> proves E r q p ->
  b64_decode (wq_client q) = Some c -> parse (los c) = Some (JObj m) ->
  b64_decode (wq_client q') = Some c' -> parse (los c') = Some (JObj m') ->
  (forall n, In n ["challenge"; "crossOrigin"; "type"] -> vals m' n = vals m n) -> is_text m' "origin" ->
  wq_id q' = wq_id q -> wq_auth q' = wq_auth q -> trim_space (wq_client q') <> "" -> trim_space (wq_sig q') <> "" ->
  (forall key auth, p256_key p key -> b64_decode (wq_auth q) = Some auth -> exists sig, b64_decode (wq_sig q') = Some sig /\ e_ecdsa E key (auth ++ e_sha256 E c') sig = true) ->
  proves E r q' p.
Proof.
  intros (_ & _ & Jc) [V1 V2 V3 V4 V5 V6 V7 (c0 & cd & auth & sig & key & D1 & D2 & D3 & D4 & D5 & D6 & D7 & D8 & D9 & D10)] Hc Hm Hc' Hm' Hv Ho Hi Ha N1 N2 S.
  rewrite Hc in D1. injection D1 as <-. destruct (S key auth D5 D3) as (sig' & S1 & S2).
  constructor; try assumption; try congruence. exists c', cd, auth, sig', key. split; [exact Hc'|]. split; [|rewrite Ha; auto 10].
  rewrite Jc in *. apply C94_client in D2 as (m0 & [P|[P _]] & C1 & C2 & _ & C4); [|congruence]. assert (m0 = m) as -> by congruence.
  apply C94_client. exists m'. split; [now left|]. split; [|split; [|split]].
  - destruct C1. constructor; rewrite Hv by (cbn; tauto); assumption.
  - destruct C2. constructor; rewrite Hv by (cbn; tauto); assumption.
  - exact Ho.
  - destruct C4. constructor; rewrite Hv by (cbn; tauto); assumption.
Qed.
Print Assumptions C96_origin_unchecked.
(** An assertion made for another site than the one of the registration is accepted. *)
Theorem C96_origin_refuted : exists E nd nd' fs db rr r d dm cm text client m,
  json_env E /\ reachable E fs db /\ ru_password (rq_user r) = "" /\
  (* the registration names one origin *)
  b64_decode (rw_register (rq_webauthn rr)) = Some d /\ parse (los d) = Some (JObj dm) /\ vals dm "clientData" = [JObj cm] /\ text_of cm "origin" "https://good.example" /\
  let o := exec E nd OpAddMfaToken db fs rr in
  o_res o = OOk /\
  (* the assertion another *)
  b64_decode (rw_request (rq_webauthn r)) = Some text /\ option_map wq_client (decode_authreq text) = Some (b64_encode client) /\
  parse (los client) = Some (JObj m) /\ text_of m "origin" "https://evil.example" /\
  o_res (exec E nd' OpAuthenticate (o_db o) (o_fs o) r) = OOk.
Proof.
  exists jtoy, (draws 50), (draws 60), jw.1, jw.2, (reg_req "https://good.example"), (sign_req (client_text "webauthn.get" "https://evil.example")).
  eexists _, _, _, _, (client_text "webauthn.get" "https://evil.example"), _. split; [exact jtoy_json|]. split; [exact jw_reachable|]. split; [reflexivity|].
  split; [vm_compute; reflexivity|]. split; [vm_compute; reflexivity|]. split; [vm_compute; reflexivity|].
  split; [one_text|]. cbv zeta. split; [exact reg_ok|].
  split; [vm_compute; reflexivity|]. split; [vm_compute; reflexivity|]. split; [vm_compute; reflexivity|].
  split; [one_text|]. vm_compute. reflexivity.
Qed.
Print Assumptions C96_origin_refuted.
(** At registration nothing the browser reports about the ceremony is looked at: neither challenge
    nor origin nor type of the client data. *)
Theorem C96_registration_unbound E nd r x d d' m m' q : json_env E -> rm_type (rq_mfa r) = "u2f" ->
  b64_decode (rw_register (rq_webauthn r)) = Some d -> parse (los d) = Some (JObj m) -> registration m q ->
  x <> "" -> rw_register (rq_webauthn r) <> "" -> b64_decode x = Some d' -> parse (los d') = Some (JObj m') ->
  (forall n, In n ["id"; "type"; "transports"; "attestationObject"] -> vals m' n = vals m n) ->
  is_flag m' "success" -> is_obj client_ok m' "clientData" -> is_obj device_ok m' "device" ->
  snd (new_mfa_token E nd (r <| rq_webauthn; rw_register := x |>)) = snd (new_mfa_token E nd r).
Proof.
  intros (Jr & _ & _) Ht Hd Hm Hq Nx Nr Hd' Hm' Hv H1 H2 H3.
  assert (A : e_register E d = Some q) by (rewrite Jr; apply C94_registration; exists m; split; [now left|exact Hq]).
  assert (B : e_register E d' = Some q).
  { rewrite Jr. apply C94_registration. exists m'. split; [now left|]. destruct Hq as (Q1 & Q2 & Q3 & _ & Q5 & _ & _). split; [|split; [|split; [|split; [|split; [|split]]]]]; try assumption.
    - destruct Q1. constructor; rewrite Hv by (cbn; tauto); assumption.
    - destruct Q2. constructor; rewrite Hv by (cbn; tauto); assumption.
    - rewrite Hv by (cbn; tauto). exact Q3.
    - rewrite Hv by (cbn; tauto). exact Q5. }
  unfold new_mfa_token. cbn. rewrite Ht. cbn. apply String.eqb_neq in Nx, Nr. rewrite Nx, Nr. destruct (String.eqb (rw_challenge (rq_webauthn r)) ""); [reflexivity|].
  rewrite Hd, Hd', A, B. reflexivity.
Qed.
Print Assumptions C96_registration_unbound.
Example C96_ex : json_env jtoy /\ reachable jtoy (o_fs reg_out) (o_db reg_out) /\ o_res (sign_out "https://good.example") = OOk /\
  o_res (exec jtoy (draws 60) OpAuthenticate (o_db reg_out) (o_fs reg_out) (sign_req (client_text "webauthn.create" "https://good.example"))) <> OOk /\
  o_res (exec jtoy (draws 60) OpAuthenticate (o_db reg_out) (o_fs reg_out) (sign_req (client_text "webauthn.get', 'crossOrigin': true, 'x': '" "https://good.example"))) = OOk.
Proof.
  split; [exact jtoy_json|]. split; [exact reg_reachable|]. split; [vm_compute; reflexivity|]. split; [vm_compute; discriminate|]. vm_compute. reflexivity.
Qed.
