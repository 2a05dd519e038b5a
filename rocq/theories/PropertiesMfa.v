(** Theorems about second factors (C35-C41, C43-C49). *)
From Coq Require Import String Ascii ZArith NArith Lia Bool Arith List ZifyBool ZifyN ZifyNat.
From stdpp Require Import gmap strings.
From RecordUpdate Require Import RecordSet.
From Verif Require Import GoStr Codec GoErr GoTime Random Types Env Mfa Fs Database System SpecDb SpecAuth SpecKey SpecMfa Examples.
From Verif Require Import LoadFacts AccountFacts StepFacts TotpFacts MfaFacts WebAuthnFacts TokenFacts TokenUse.
Import ListNotations.
Import RecordSetNotations.
Open Scope string_scope.

(** Requests and states of the examples. *)
Definition jane : Request := who "jane" "jane@example.com".
Definition code_at (ts : N) : string := match gen_code toy "sec" "sha1" 6 ts with inl c => c | inr _ => "" end.
Definition totp_req : Request :=
  jane <| rq_mfa; rm_type := "totp" |> <| rq_mfa; rm_secret := "sec" |> <| rq_mfa; rm_comment := "phone" |> <| rq_mfa; rm_period := 30%Z |>
       <| rq_mfa; rm_passcode := code_at 54680106 |>.
Definition u2f_req : Request :=
  jane <| rq_mfa; rm_type := "u2f" |> <| rq_mfa; rm_comment := "key" |> <| rq_webauthn; rw_register := b64_encode "reg" |> <| rq_webauthn; rw_challenge := "x" |>.
Definition login_req : Request := jane <| rq_webauthn; rw_request := b64_encode "msg" |> <| rq_webauthn; rw_challenge := "chal" |>.
Notation totp_out := (exec toy (draws 9) OpAddMfaToken two.2 two.1 totp_req).
Notation u2f_out := (exec toy (draws 50) OpAddMfaToken (o_db totp_out) (o_fs totp_out) u2f_req).
Notation login_out := (exec toy (draws 60) OpAuthenticate (o_db u2f_out) (o_fs u2f_out) login_req).
Lemma totp_ok : o_res totp_out = OOk. Proof. vm_compute. reflexivity. Qed.
Lemma u2f_ok : o_res u2f_out = OOk. Proof. vm_compute. reflexivity. Qed.
Lemma login_ok : o_res login_out = OOk. Proof. vm_compute. reflexivity. Qed.
Lemma totp_reachable : reachable toy (o_fs totp_out) (o_db totp_out).
Proof. exact (exec_reachable _ _ _ _ _ _ two_reachable (ok_returned _ totp_ok)). Qed.
Lemma u2f_reachable : reachable toy (o_fs u2f_out) (o_db u2f_out).
Proof. exact (exec_reachable _ _ _ _ _ _ totp_reachable (ok_returned _ u2f_ok)). Qed.
Lemma login_reachable : reachable toy (o_fs login_out) (o_db login_out).
Proof. exact (exec_reachable _ _ _ _ _ _ u2f_reachable (ok_returned _ login_ok)). Qed.
Lemma toy_hmac : hmac_size toy.
Proof. intros a k m _. cbn [e_hmac toy]. rewrite <- length_los, los_sol, app_length. cbn. lia. Qed.
Definition a_token (digits : Z) : MfaToken := {| t_id := ""; t_type := "totp"; t_algorithm := "sha1"; t_comment := ""; t_secret := "sec"; t_period := 30; t_digits := digits;
  t_expired := false; t_expired_at := 0; t_created := 0; t_disabled := false; t_disabled_at := 0; t_device := None; t_params := ∅; t_flags := ∅; t_counter := 0; t_cache := None |}.
Definition a_time : Z := 63776000000000000009.

(** C35: the code for a counter exists, has as many decimal digits as asked, and is the dynamic
    truncation of the HMAC of the counter modulo a power of ten ([code_of]). *)
Theorem C35_code E secret algorithm digits ts : known_algorithm algorithm -> hmac_size E -> (1 <= digits <= 9)%Z -> (ts < 2 ^ 64)%N ->
  exists c, gen_code E secret algorithm digits ts = inl c /\ zlen c = digits /\
    exists m v, List.length (los m) = 8%nat /\ big_endian (los m) ts /\ truncation (e_hmac E algorithm secret m) v /\
      decimal (los c) (v mod 10 ^ Z.to_N digits).
Proof.
  intros K Hh Hd Ht. destruct (gen_code_known E secret algorithm digits ts K Hh ltac:(lia) Ht) as (c & G & C). exists c. split; [exact G|].
  pose proof (code_of_length _ _ _ _ _ _ C) as [L _]. split; [lia|]. destruct C as (_ & m & v & Lm & Bm & T & _ & D). exists m, v.
  rewrite Z.mod_small, N2Z.id in Bm by (change (2 ^ 64)%Z with (Z.of_N (2 ^ 64)); lia).
  replace (N.of_nat (Z.to_nat digits)) with (Z.to_N digits) in D by lia. auto.
Qed.
Print Assumptions C35_code.
(** The description determines the code, and other algorithms give none. *)
Theorem C35_code_iff E secret algorithm digits ts c : hmac_size E -> (1 <= digits <= 9)%Z -> (ts < 2 ^ 64)%N ->
  gen_code E secret algorithm digits ts = inl c <-> code_of E algorithm secret (Z.to_nat digits) (Z.of_N ts) c.
Proof. intros Hh Hd. apply gen_code_iff; [exact Hh|lia]. Qed.
Print Assumptions C35_code_iff.
Theorem C35_code_unique E algorithm secret digits T c c' :
  code_of E algorithm secret digits T c -> code_of E algorithm secret digits T c' -> c = c'.
Proof. exact (code_of_det E algorithm secret digits T c c'). Qed.
Print Assumptions C35_code_unique.
Example C35_ex : known_algorithm "sha1" /\ hmac_size toy /\ gen_code toy "sec" "sha1" 6 1 = inl "777216" /\ gen_code toy "sec" "md5" 6 1 <> inl "777216".
Proof. split; [now left|]. split; [exact toy_hmac|]. split; vm_compute; [reflexivity|discriminate]. Qed.

(** C36 *)
Theorem C36_window E p code t T : hmac_size E -> (1 <= t_period p)%Z -> in_period t (t_period p) T ->
  validate_code E p code t = None <->
  let c := trim_space code in within 4 (zlen c) 8 /\ zlen c = t_digits p /\
    (token_code E p (T - 1) c \/ token_code E p T c \/ token_code E p (T + 1) c).
Proof.
  intros Hh HP HT. rewrite (validate_code_iff E p code t T Hh HP HT). cbv zeta. split; intros (A & B & C); (split; [exact A|split; [exact B|]]).
  - destruct C as (T' & HT' & C). assert (T' = (T - 1)%Z \/ T' = T \/ T' = (T + 1)%Z) as [->|[->| ->]] by lia; auto.
  - destruct C as [C|[C|C]]; eexists; (split; [|exact C]); lia.
Qed.
Print Assumptions C36_window.
(** Every time lies in one period. *)
Theorem C36_one_period t P : (1 <= P)%Z -> exists T, in_period t P T /\ forall T', in_period t P T' -> T' = T.
Proof.
  intros HP. exists (unix t / P)%Z. assert (H : in_period t P (unix t / P)) by now apply in_period_iff. split; [exact H|].
  intros T' H'. exact (in_period_det t P T' _ HP H' H).
Qed.
Print Assumptions C36_one_period.
Example C36_ex : in_period a_time 30 54680106 /\ validate_code toy (a_token 6) (" " ++ code_at 54680105 ++ " ") a_time = None /\
  validate_code toy (a_token 6) (code_at 54680107) a_time = None /\ validate_code toy (a_token 6) (code_at 54680108) a_time <> None.
Proof. split; [unfold in_period, epoch_ns, second_ns, a_time; lia|]. repeat split; vm_compute; (reflexivity || discriminate). Qed.

(** C37 *)
Theorem C37_full_period E p t T t' c : hmac_size E -> (1 <= t_period p)%Z -> within 4 (t_digits p) 8 ->
  in_period t (t_period p) T -> token_code E p T c -> (Z.abs (t' - t) <= t_period p * second_ns)%Z -> validate_code E p c t' = None.
Proof.
  intros Hh HP HD HT HC Ht. destruct (C36_one_period t' (t_period p) HP) as (T' & HT' & _).
  apply (validate_code_iff E p c t' T' Hh HP HT'). cbv zeta. destruct (code_of_length _ _ _ _ _ _ HC) as [L D]. rewrite (digits_trim c D).
  unfold within in *. split; [lia|]. split; [lia|]. exists T. split; [|exact HC].
  unfold in_period, epoch_ns, second_ns in *. set (P := t_period p) in *. clearbody P. nia.
Qed.
Print Assumptions C37_full_period.
(** Further away it is accepted only if it happens to be one of the three codes of the window. *)
Theorem C37_elsewhere E p T c t' T' : hmac_size E -> (1 <= t_period p)%Z -> within 4 (t_digits p) 8 ->
  token_code E p T c -> in_period t' (t_period p) T' -> (2 <= Z.abs (T' - T))%Z ->
  validate_code E p c t' = None <-> exists T2, (T' - 1 <= T2 <= T' + 1)%Z /\ T2 <> T /\ token_code E p T2 c.
Proof.
  intros Hh HP HD HC HT' Hd. rewrite (validate_code_iff E p c t' T' Hh HP HT'). cbv zeta. destruct (code_of_length _ _ _ _ _ _ HC) as [L D]. rewrite (digits_trim c D).
  unfold within in *. split.
  - intros (_ & _ & T2 & H2 & C2). exists T2. split; [exact H2|]. split; [lia|exact C2].
  - intros (T2 & H2 & _ & C2). split; [lia|]. split; [lia|]. eauto.
Qed.
Print Assumptions C37_elsewhere.
Example C37_ex : exists c, token_code toy (a_token 6) 54680106 c /\ in_period a_time 30 54680106 /\ within 4 (t_digits (a_token 6)) 8 /\
  validate_code toy (a_token 6) c (a_time - 30 * second_ns) = None /\ validate_code toy (a_token 6) c (a_time + 30 * second_ns) = None /\
  validate_code toy (a_token 6) c (a_time + 60 * second_ns) <> None.
Proof.
  exists (code_at 54680106). split.
  { apply (gen_code_iff toy "sec" "sha1" 6 54680106); [exact toy_hmac|lia|lia|vm_compute; reflexivity]. }
  split; [unfold in_period, epoch_ns, second_ns, a_time; lia|]. split; [cbv; split; discriminate|]. repeat split; vm_compute; (reflexivity || discriminate).
Qed.

(** C38 *)
Theorem C38_new_token E nd r t : snd (new_mfa_token E nd r) = ROk t -> (totp_token t \/ u2f_token t) /\ token_entry nd r t.
Proof. exact (new_token_ok E nd r t). Qed.
Print Assumptions C38_new_token.
(** A token of a later state was there at the start or is within the limits. *)
Theorem C38_stored E fs db fs' db' i u' t : later E fs db fs' db' -> account db' i u' -> In t (u_mfa u') ->
  (exists u p, account db i u /\ In p (u_mfa u) /\ same_token p t) \/ totp_token t \/ u2f_token t.
Proof. exact (later_wf E fs db fs' db' i u' t). Qed.
Print Assumptions C38_stored.
Theorem C38_added E nd db fs r i u : reachable E fs db -> let o := exec E nd OpAddMfaToken db fs r in o_res o = OOk -> identity_of E db r i u ->
  exists u' t, account (o_db o) i u' /\ u_mfa u' = (u_mfa u ++ [t])%list /\ (totp_token t \/ u2f_token t) /\ token_entry nd r t /\
    others_same u u' /\ u_apikeys u' = u_apikeys u /\ u_pubkeys u' = u_pubkeys u /\ revised nd u u'.
Proof.
  intros HR o H V. destruct (add_mfa_result E nd db fs r i u HR H V) as (u' & t & Hu' & N & M & R). exists u', t. apply new_token_ok in N as [N1 N2]. tauto.
Qed.
Print Assumptions C38_added.
Example C38_ex : exists u, account (o_db u2f_out) 0 u /\ map t_type (u_mfa u) = ["totp"; "u2f"].
Proof. eexists. split; vm_compute; reflexivity. Qed.

(** C39 *)
Theorem C39_no_new_clash E fs db fs' db' i u' k l : later E fs db fs' db' -> account db' i u' -> holds_clash u' k l ->
  exists u, account db i u /\ holds_clash u k l.
Proof. exact (later_clash E fs db fs' db' i u' k l). Qed.
Print Assumptions C39_no_new_clash.
Theorem C39_no_clash E fs db i u k l : reachable_by E (loads_no_clash E) fs db -> account db i u -> ~ holds_clash u k l.
Proof. intros [fs0 S] Hu. exact (no_clash_steps E _ _ S I i u k l Hu). Qed.
Print Assumptions C39_no_clash.
Theorem C39_refused E nd db fs r i u t : reachable E fs db -> identity_of E db r i u -> snd (new_mfa_token E nd r) = ROk t ->
  ~ distinct_from u (t_secret t) (t_comment t) -> let o := exec E nd OpAddMfaToken db fs r in
  o_db o = db /\ o_fs o = fs /\ exists e, o_res o = OErr e.
Proof. exact (add_clash_refused E nd db fs r i u t). Qed.
Print Assumptions C39_refused.
Example C39_ex : reachable toy (o_fs totp_out) (o_db totp_out) /\
  o_res (exec toy (draws 9) OpAddMfaToken (o_db totp_out) (o_fs totp_out) (totp_req <| rq_mfa; rm_comment := "new" |>)) <> OOk /\
  o_res (exec toy (draws 9) OpAddMfaToken (o_db totp_out) (o_fs totp_out) (totp_req <| rq_mfa; rm_secret := "new" |>)) <> OOk /\
  o_res (exec toy (draws 9) OpAddMfaToken (o_db totp_out) (o_fs totp_out) (totp_req <| rq_mfa; rm_secret := "new" |> <| rq_mfa; rm_comment := "new" |>)) = OOk.
Proof. split; [exact totp_reachable|]. repeat split; vm_compute; (reflexivity || discriminate). Qed.

(** C40: a passcode is accepted again at every time of the same period, whatever was validated
    before, also by the token of a later state. *)
Theorem C40_accepted_again E p q code t t' T : hmac_size E -> (1 <= t_period p)%Z -> same_token p q ->
  in_period t (t_period p) T -> in_period t' (t_period p) T -> validate_code E p code t = None -> validate_code E q code t' = None.
Proof.
  intros Hh HP S HT HT' H. assert (Ep : t_period q = t_period p) by exact (eq_sym (f_equal t_period S)).
  assert (Ed : t_digits q = t_digits p) by exact (eq_sym (f_equal t_digits S)). assert (Ea : t_algorithm q = t_algorithm p) by exact (eq_sym (f_equal t_algorithm S)).
  assert (Es : t_secret q = t_secret p) by exact (eq_sym (f_equal t_secret S)).
  apply (C36_window E p code t T Hh HP HT) in H. apply (C36_window E q code t' T Hh); [lia|congruence|]. unfold token_code in *. now rewrite Ed, Ea, Es.
Qed.
Print Assumptions C40_accepted_again.
Theorem C40_any_number E p code t T times : hmac_size E -> (1 <= t_period p)%Z -> in_period t (t_period p) T ->
  validate_code E p code t = None -> Forall (fun t' => in_period t' (t_period p) T) times -> Forall (fun t' => validate_code E p code t' = None) times.
Proof. intros Hh HP HT H F. induction F as [|t' l Ht' F IH]; constructor; [|exact IH]. exact (C40_accepted_again E p p code t t' T Hh HP eq_refl HT Ht' H). Qed.
Print Assumptions C40_any_number.
(** The passcode that registered a token is accepted by it afterwards. *)
Theorem C40_once_refuted : exists E fs db i u p code t t', hmac_size E /\ reachable E fs db /\ account db i u /\ In p (u_mfa u) /\ (t < t')%Z /\
  validate_code E p code t = None /\ validate_code E p code t' = None.
Proof.
  exists toy, (o_fs totp_out), (o_db totp_out), 0%nat. eexists. eexists. exists (code_at 54680106), a_time, (a_time + second_ns)%Z.
  split; [exact toy_hmac|]. split; [exact totp_reachable|]. split; [vm_compute; reflexivity|]. split; [left; reflexivity|].
  split; [unfold second_ns; lia|]. split; vm_compute; reflexivity.
Qed.
Print Assumptions C40_once_refuted.
Example C40_ex : in_period a_time 30 54680106 /\ validate_code toy (a_token 6) (code_at 54680106) a_time = None.
Proof. split; [unfold in_period, epoch_ns, second_ns, a_time; lia|]. vm_compute. reflexivity. Qed.

(** C41 *)
Theorem C41_registration E nd db fs r : reachable E fs db -> hmac_size E -> rm_type (rq_mfa r) = "totp" -> let o := exec E nd OpAddMfaToken db fs r in
  o_res o = OOk <->
  (exists i u a d, identity_of E db r i u /\ registers_totp E (nd_clock nd) r a d /\ distinct_from u (rm_secret (rq_mfa r)) (rm_comment (rq_mfa r))) /\
  can_write nd fs (db_path db) (db_content (o_db o)).
Proof. exact (totp_add_iff E nd db fs r). Qed.
Print Assumptions C41_registration.
Theorem C41_token E nd r t : hmac_size E -> rm_type (rq_mfa r) = "totp" -> snd (new_mfa_token E nd r) = ROk t ->
  exists a d, registers_totp E (nd_clock nd) r a d /\ totp_entry nd r a d t.
Proof.
  intros Hh Ty N. apply (totp_iff E nd r t Hh Ty) in N as (a & d & R & ->). exists a, d. split; [exact R|]. now apply totp_of_entry.
Qed.
Print Assumptions C41_token.
(** So the code of the coming period is refused although the token accepts it from then on. *)
Example C41_ex : reachable toy two.1 two.2 /\ hmac_size toy /\ nd_clock (draws 9) = a_time /\ in_period a_time 30 54680106 /\
  map (fun ts => match o_res (exec toy (draws 9) OpAddMfaToken two.2 two.1 (totp_req <| rq_mfa; rm_passcode := code_at ts |>)) with OOk => true | _ => false end)
    [54680103; 54680104; 54680105; 54680106; 54680107]%N = [false; true; true; true; false].
Proof.
  split; [exact two_reachable|]. split; [exact toy_hmac|]. split; [vm_compute; reflexivity|]. split; [unfold in_period, epoch_ns, second_ns, a_time; lia|].
  vm_compute. reflexivity.
Qed.

(** C43 *)
Theorem C43_webauthn_login E nd db fs r : reachable E fs db -> ru_password (rq_user r) = "" -> rw_request (rq_webauthn r) <> "" ->
  o_res (exec E nd OpAuthenticate db fs r) = OOk <->
  exists i u q p, resolves_login E db (ru_username (rq_user r)) i u /\ assertion E r q /\ first_candidate u (wq_id q) p /\ proves E r q p.
Proof. exact (authenticate_webauthn E nd db fs r). Qed.
Print Assumptions C43_webauthn_login.
Example C43_ex : reachable toy (o_fs u2f_out) (o_db u2f_out) /\ o_res login_out = OOk /\
  o_res (exec toy (draws 60) OpAuthenticate (o_db u2f_out) (o_fs u2f_out) (login_req <| rq_webauthn; rw_challenge := "other" |>)) <> OOk.
Proof. split; [exact u2f_reachable|]. split; [exact login_ok|]. vm_compute. discriminate. Qed.

(** C44 *)
Theorem C44_authenticate_keeps_tokens E nd db fs r i u : account db i u -> exists u', account (o_db (exec E nd OpAuthenticate db fs r)) i u' /\
  same_identity u u' /\ Forall2 same_token (u_mfa u) (u_mfa u') /\ u_passwords u' = u_passwords u /\ u_revision u' = u_revision u.
Proof. exact (authenticate_tokens E nd db fs r i u). Qed.
Print Assumptions C44_authenticate_keeps_tokens.
(** A message accepted once is accepted in every state in which the account has the same tokens. *)
Theorem C44_replay_elsewhere E nd nd' db fs db' fs' r : reachable E fs db -> reachable E fs' db' -> ru_password (rq_user r) = "" -> rw_request (rq_webauthn r) <> "" ->
  (forall i u, resolves_login E db (ru_username (rq_user r)) i u ->
     exists u', resolves_login E db' (ru_username (rq_user r)) i u' /\ Forall2 same_token (u_mfa u) (u_mfa u')) ->
  o_res (exec E nd OpAuthenticate db fs r) = OOk -> o_res (exec E nd' OpAuthenticate db' fs' r) = OOk.
Proof. exact (replay E nd nd' db fs db' fs' r). Qed.
Print Assumptions C44_replay_elsewhere.
Theorem C44_replay E nd db fs r nds : reachable E fs db -> ru_password (rq_user r) = "" -> rw_request (rq_webauthn r) <> "" ->
  o_res (exec E nd OpAuthenticate db fs r) = OOk -> always_accepted E r nds fs db.
Proof.
  intros HR Hp Hw. revert nd fs db HR. induction nds as [|nd1 nds IH]; intros nd fs db HR H; cbn [always_accepted]; [exact I|]. cbv zeta.
  assert (A : o_res (exec E nd1 OpAuthenticate db fs r) = OOk).
  { eapply replay; [exact HR|exact HR|exact Hp|exact Hw| |exact H]. intros i u Hu. exists u. split; [exact Hu|apply Forall2_same_refl]. }
  split; [exact A|].
  assert (HR' : reachable E (o_fs (exec E nd1 OpAuthenticate db fs r)) (o_db (exec E nd1 OpAuthenticate db fs r))) by (apply exec_reachable; [exact HR|now apply ok_returned]).
  apply (IH nd1); [exact HR'|]. eapply replay; [exact HR|exact HR'|exact Hp|exact Hw| |exact A].
  intros i u Hu. destruct (authenticate_tokens E nd1 db fs r i u (resolves_account _ _ _ _ _ Hu)) as (u' & Hu' & Si & F & _). exists u'.
  split; [eapply same_identity_login; eauto|exact F].
Qed.
Print Assumptions C44_replay.
Theorem C44_no_replay_refuted : exists E nd nd' fs db r, reachable E fs db /\ ru_password (rq_user r) = "" /\
  let o := exec E nd OpAuthenticate db fs r in o_res o = OOk /\ o_res (exec E nd' OpAuthenticate (o_db o) (o_fs o) r) = OOk.
Proof.
  exists toy, (draws 60), (draws 61), (o_fs u2f_out), (o_db u2f_out), login_req. split; [exact u2f_reachable|]. split; [reflexivity|]. split; [exact login_ok|].
  vm_compute. reflexivity.
Qed.
Print Assumptions C44_no_replay_refuted.
Example C44_ex : reachable toy (o_fs u2f_out) (o_db u2f_out) /\ ru_password (rq_user login_req) = "" /\ rw_request (rq_webauthn login_req) <> "" /\ o_res login_out = OOk /\
  map (fun u => map t_type (u_mfa u)) (db_users (o_db login_out)) = [["totp"; "u2f"]; []] /\ always_accepted toy login_req [draws 61; draws 62; draws 63] (o_fs u2f_out) (o_db u2f_out).
Proof.
  split; [exact u2f_reachable|]. split; [reflexivity|]. split; [discriminate|]. split; [exact login_ok|]. split; [vm_compute; reflexivity|].
  apply (C44_replay toy (draws 60)); [exact u2f_reachable|reflexivity|discriminate|exact login_ok].
Qed.

(** C45 *)
Theorem C45_panics_iff E nd db fs r : reachable E fs db -> let o := exec E nd OpAddMfaToken db fs r in
  o_res o = OPanic <-> exists i u pk, identity_of E db r i u /\ carries_key E r pk /\ panicking pk.
Proof. exact (add_mfa_panic_iff E nd db fs r). Qed.
Print Assumptions C45_panics_iff.
Theorem C45_well_typed E nd db fs r : reachable E fs db -> (forall pk, carries_key E r pk -> well_typed pk) ->
  let o := exec E nd OpAddMfaToken db fs r in o_res o <> OPanic.
Proof.
  intros HR W o P. apply (add_mfa_panic_iff E nd db fs r HR) in P as (i & u & pk & _ & K & Q). exact (well_typed_no_panic pk (W pk K) Q).
Qed.
Print Assumptions C45_well_typed.
Theorem C45_panic_harmless E nd db fs r : let o := exec E nd OpAddMfaToken db fs r in o_res o = OPanic -> o_db o = db /\ o_fs o = fs.
Proof. exact (panic_frame E nd db fs r). Qed.
Print Assumptions C45_panic_harmless.
Theorem C45_rejected_refuted : exists E nd fs db r, reachable E fs db /\ o_res (exec E nd OpAddMfaToken db fs r) = OPanic.
Proof.
  exists toy, (draws 9), two.1, two.2, (u2f_req <| rq_webauthn; rw_register := b64_encode "bad" |>). split; [exact two_reachable|]. vm_compute. reflexivity.
Qed.
Print Assumptions C45_rejected_refuted.
(** The sound registration of the examples is taken, the one with a wrongly typed key panics, and a request that is not base64 is refused. *)
Example C45_ex : reachable toy two.1 two.2 /\ o_res u2f_out = OOk /\
  o_res (exec toy (draws 9) OpAddMfaToken two.2 two.1 (u2f_req <| rq_webauthn; rw_register := b64_encode "bad" |>)) = OPanic /\
  o_db (exec toy (draws 9) OpAddMfaToken two.2 two.1 (u2f_req <| rq_webauthn; rw_register := b64_encode "bad" |>)) = two.2 /\
  exists e, o_res (exec toy (draws 9) OpAddMfaToken two.2 two.1 (u2f_req <| rq_webauthn; rw_register := "!" |>)) = OErr e.
Proof.
  split; [exact two_reachable|]. split; [vm_compute; reflexivity|]. split; [vm_compute; reflexivity|]. split; [vm_compute; reflexivity|].
  eexists. vm_compute. reflexivity.
Qed.

(** C46 *)
Theorem C46_auth_data b rp f c rest : los b = (rp ++ [f] ++ c ++ rest)%list -> List.length rp = 32%nat -> List.length c = 4%nat ->
  exists u, unpack_auth_data b = Some u /\ hex_of rp (los (up_rpid u)) /\ big_endian c (up_counter u) /\
    (forall k i, In (k, i) named_flags -> up_flags u !! k = Some (bit f i)) /\
    (forall k, ~ In k (map fst named_flags) -> up_flags u !! k = None).
Proof. exact (unpack_spec b rp f c rest). Qed.
Print Assumptions C46_auth_data.
Theorem C46_too_short b : unpack_auth_data b = None <-> (List.length (los b) < 37)%nat.
Proof. exact (unpack_None b). Qed.
Print Assumptions C46_too_short.
(** Every longer input has the form of the first theorem. *)
Theorem C46_form (l : list ascii) : (37 <= List.length l)%nat -> exists rp f c rest, l = (rp ++ [f] ++ c ++ rest)%list /\ List.length rp = 32%nat /\ List.length c = 4%nat.
Proof. intros H. destruct (auth_data_split l H) as (rp & f & c0 & c1 & c2 & c3 & rest & E & L). exists rp, f, [c0; c1; c2; c3], rest. auto. Qed.
Print Assumptions C46_form.
Example C46_ex : exists u, unpack_auth_data toy_auth = Some u /\ up_flags u !! "UP" = Some true /\ up_flags u !! "UV" = Some false /\ up_counter u = 0%N.
Proof. eexists. repeat split; vm_compute; reflexivity. Qed.

(** C47 *)
Theorem C47_key p key : derive_key (t_params p) = Some key <-> p256_key p key.
Proof. exact (p256_iff p key). Qed.
Print Assumptions C47_key.
Theorem C47_key_unique p k k' : p256_key p k -> p256_key p k' -> k = k'.
Proof. exact (p256_det p k k'). Qed.
Print Assumptions C47_key_unique.
(** The cached key of every token of a reachable state is the one its parameters describe. *)
Theorem C47_cache E fs db i u t key : reachable E fs db -> account db i u -> In t (u_mfa u) -> t_cache t = Some key -> p256_key t key.
Proof. intros HR Hu Ht Hc. apply p256_iff. pose proof (reachable_caches E fs db HR i u Hu) as F. rewrite List.Forall_forall in F. exact (F t Ht key Hc). Qed.
Print Assumptions C47_cache.
Example C47_ex : exists u t key, account (o_db login_out) 0 u /\ In t (u_mfa u) /\ t_cache t = Some key.
Proof. eexists _, _, _. split; [vm_compute; reflexivity|]. split; [right; left; reflexivity|]. reflexivity. Qed.

(** C48 *)
Theorem C48_unknown E nd db fs r : reachable E fs db -> (forall i u, ~ resolves_login E db (ru_username (rq_user r)) i u) ->
  exec E nd OpIdentify db fs r = {| o_db := db; o_fs := fs;
    o_req := r <| rq_user; ru_username := "nobody" |> <| rq_user; ru_email := "nobody@localhost" |> <| rq_user; ru_challenges := ["password"] |>; o_res := OOk |}.
Proof. exact (identify_unknown E nd db fs r). Qed.
Print Assumptions C48_unknown.
Theorem C48_known E nd db fs r i u : reachable E fs db -> resolves_login E db (ru_username (rq_user r)) i u ->
  let o := exec E nd OpIdentify db fs r in
  o_res o = OOk /\ o_db o = db /\ o_fs o = fs /\ rq_code (o_req o) = 200%Z /\
  ru_username (rq_user (o_req o)) = u_username u /\ first_address u (ru_email (rq_user (o_req o))) /\
  shows_name u (ru_full_name (rq_user (o_req o))) /\ Forall2 shows_role (u_roles u) (ru_roles (rq_user (o_req o))).
Proof.
  intros HR V o. unfold o. destruct (identify_known E nd db fs r i u HR V) as (mail & name & roles & flags & -> & H1 & H2 & H3 & _). repeat (split; [reflexivity|]). cbn. auto.
Qed.
Print Assumptions C48_known.
Theorem C48_never_fails E nd db fs r : let o := exec E nd OpIdentify db fs r in o_res o = OOk /\ o_db o = db /\ o_fs o = fs.
Proof. cbn [exec]. unfold db_identify. destruct get_user as [[i u]|]; repeat split. Qed.
Print Assumptions C48_never_fails.
Example C48_ex : let r := who "JANE@example.com" "" in (exists u, resolves_login toy two.2 (ru_username (rq_user r)) 0%nat u) /\
  let q := rq_user (o_req (exec toy (draws 9) OpIdentify two.2 two.1 r)) in
  ru_username q = "Jane" /\ ru_email q = "Jane@Example.com" /\ ru_roles q = ["corp/admin"; "viewer"] /\
  ru_username (rq_user (o_req (exec toy (draws 9) OpIdentify two.2 two.1 (who "eve" "")))) = "nobody".
Proof. split; [eapply (resolves_at toy two.1); [exact two_reachable|vm_compute; reflexivity]|]. repeat split; vm_compute; reflexivity. Qed.

(** C49 *)
Theorem C49_challenge E nd db fs r i u : reachable E fs db -> resolves_login E db (ru_username (rq_user r)) i u ->
  let q := o_req (exec E nd OpIdentify db fs r) in
  (u_mfa u = [] /\ ru_challenges (rq_user q) = ["password"]) \/ (u_mfa u <> [] /\ ru_challenges (rq_user q) = ["password"; "mfa"]).
Proof.
  intros HR V q. unfold q. destruct (identify_known E nd db fs r i u HR V) as (mail & name & roles & flags & -> & _). cbn. exact (challenges_spec u).
Qed.
Print Assumptions C49_challenge.
Theorem C49_flags E nd db fs r i u : reachable E fs db -> resolves_login E db (ru_username (rq_user r)) i u ->
  let f := rq_flags r in let f' := rq_flags (o_req (exec E nd OpIdentify db fs r)) in
  rf_enabled f' = rf_enabled f /\ (rf_enabled f = false -> f' = f) /\
  (rf_enabled f = true ->
    raised (rf_configured f) (rf_configured f') (exists t, In t (u_mfa u) /\ t_disabled t = false) /\
    raised (rf_app f) (rf_app f') (enabled_token u "totp") /\ raised (rf_universal f) (rf_universal f') (enabled_token u "u2f")).
Proof.
  intros HR V f f'. unfold f, f'. destruct (identify_known E nd db fs r i u HR V) as (mail & name & roles & flags & -> & _ & _ & _ & F). exact F.
Qed.
Print Assumptions C49_flags.
Notation off_out := (exec toy (draws 9) OpAddMfaToken two.2 two.1 (totp_req <| rq_mfa; rm_disabled := true |>)).
Lemma off_ok : o_res off_out = OOk. Proof. vm_compute. reflexivity. Qed.
(** With only a disabled token the challenge is issued and the flag stays down. *)
Theorem C49_usable_refuted : exists E nd fs db r i u, reachable E fs db /\ resolves_login E db (ru_username (rq_user r)) i u /\
  (forall t, In t (u_mfa u) -> t_disabled t = true) /\ rf_enabled (rq_flags r) = true /\
  let q := o_req (exec E nd OpIdentify db fs r) in In "mfa" (ru_challenges (rq_user q)) /\ rf_configured (rq_flags q) = false.
Proof.
  exists toy, (draws 60), (o_fs off_out), (o_db off_out), (jane <| rq_flags; rf_enabled := true |>).
  assert (HR : reachable toy (o_fs off_out) (o_db off_out)) by exact (exec_reachable _ _ _ _ _ _ two_reachable (ok_returned _ off_ok)).
  eexists _, _. split; [exact HR|]. split; [apply (get_user_resolves _ (o_fs off_out)); [exact HR|vm_compute; reflexivity]|].
  split; [intros t [<-|[]]; reflexivity|]. split; [reflexivity|]. split; vm_compute; [right; left; reflexivity|reflexivity].
Qed.
Print Assumptions C49_usable_refuted.
Example C49_ex : (exists u, resolves_login toy (o_db u2f_out) "jane" 0%nat u) /\
  let q := o_req (exec toy (draws 60) OpIdentify (o_db u2f_out) (o_fs u2f_out) (jane <| rq_flags; rf_enabled := true |>)) in
  ru_challenges (rq_user q) = ["password"; "mfa"] /\ rf_configured (rq_flags q) = true /\ rf_app (rq_flags q) = true /\ rf_universal (rq_flags q) = true.
Proof. split; [eapply (resolves_at toy (o_fs u2f_out)); [exact u2f_reachable|vm_compute; reflexivity]|]. repeat split; vm_compute; reflexivity. Qed.
