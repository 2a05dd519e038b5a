(** Theorems about what registration stores (C99). *)
From Coq Require Import String Ascii ZArith NArith Lia Bool Arith List.
From stdpp Require Import gmap strings.
From RecordUpdate Require Import RecordSet.
From Verif Require Import GoStr Codec GoErr Json Random Types Env Mfa Fs Database System SpecDb SpecAuth SpecKey SpecMfa WebAuthn SpecWebAuthn SpecRegister Examples.
From Verif Require Import AccountFacts StepFacts WebAuthnFacts TokenFacts RegisterFacts PropertiesMfa PropertiesWebAuthn.
Import ListNotations.
Import RecordSetNotations.
Open Scope string_scope.

(** C99 *)
(** Both directions: which messages are accepted and, field by field, what is made of them. *)
Theorem C99_new_token E nd r t : rm_type (rq_mfa r) = "u2f" ->
  snd (new_mfa_token E nd r) = ROk t <-> exists q a curve x y, registers_u2f E r q a curve x y /\ u2f_entry nd r q a curve x y t.
Proof.
  intros Ty. rewrite u2f_iff by exact Ty.
  split; intros (q & a & c & x & y & R & T); exists q, a, c, x, y; (split; [exact R|]); pose proof (ru_public _ _ _ _ _ _ _ R) as Tq; now apply (u2f_of_entry nd r q a c x y t Ty Tq).
Qed.
Print Assumptions C99_new_token.
Theorem C99_totp E nd r t : hmac_size E -> rm_type (rq_mfa r) = "totp" ->
  snd (new_mfa_token E nd r) = ROk t <-> exists a d, registers_totp E (nd_clock nd) r a d /\ totp_complete nd r a d t.
Proof.
  intros Hh Ty. rewrite totp_iff by assumption. split; intros (a & d & R & T); exists a, d; (split; [exact R|]); now apply (totp_of_complete nd r a d t Ty).
Qed.
Print Assumptions C99_totp.
(** A request describes at most one token. *)
Theorem C99_unique E r q a c x y q' a' c' x' y' : registers_u2f E r q a c x y -> registers_u2f E r q' a' c' x' y' -> q' = q /\ a' = a /\ c' = c /\ x' = x /\ y' = y.
Proof.
  intros [_ _ _ (d & D1 & D2) _ _ _ A _ [_ _ C X Y]] [_ _ _ (d' & D1' & D2') _ _ _ A' _ [_ _ C' X' Y']].
  assert (q' = q) as -> by congruence. assert (a' = a) as -> by (destruct a, a'; unfold attests in *; cbn in *; congruence).
  unfold int_field, coordinate in *. split; [reflexivity|]. split; [reflexivity|]. split; [destruct C as [[? ?]|[? ?]], C' as [[? ?]|[? ?]]; congruence|].
  split; [destruct X as [[? ?]|?], X' as [[? ?]|?]; congruence|]. destruct Y as [[? ?]|?], Y' as [[? ?]|?]; congruence.
Qed.
Print Assumptions C99_unique.
(** The whole call. *)
Theorem C99_add_iff E nd db fs r : reachable E fs db -> rm_type (rq_mfa r) = "u2f" -> let o := exec E nd OpAddMfaToken db fs r in
  o_res o = OOk <->
  (exists i u q a c x y, identity_of E db r i u /\ registers_u2f E r q a c x y /\ distinct_from u (rw_challenge (rq_webauthn r)) (rm_comment (rq_mfa r))) /\
  can_write nd fs (db_path db) (db_content (o_db o)).
Proof.
  intros HR Ty o. unfold o. rewrite add_mfa_iff by assumption.
  match goal with |- ?A /\ _ <-> ?B /\ _ => assert (X : A <-> B); [|now rewrite X] end. split.
  - intros (i & u & t & V & N & D). apply u2f_iff in N as (q & a & c & x & y & R & ->); [|exact Ty]. exists i, u, q, a, c, x, y. auto.
  - intros (i & u & q & a & c & x & y & V & R & D). exists i, u, (u2f_of nd r q a c x y). split; [exact V|]. split; [|exact D]. apply u2f_iff; eauto 10.
Qed.
Print Assumptions C99_add_iff.
Theorem C99_stored E nd db fs r i u : reachable E fs db -> rm_type (rq_mfa r) = "u2f" -> let o := exec E nd OpAddMfaToken db fs r in
  o_res o = OOk -> identity_of E db r i u ->
  exists u' t q a c x y, account (o_db o) i u' /\ u_mfa u' = (u_mfa u ++ [t])%list /\ registers_u2f E r q a c x y /\ u2f_entry nd r q a c x y t.
Proof.
  intros HR Ty o H V. destruct (add_mfa_result E nd db fs r i u HR H V) as (u' & t & Hu' & N & M & _).
  apply C99_new_token in N as (q & a & c & x & y & R & T); [|exact Ty]. exists u', t, q, a, c, x, y. auto.
Qed.
Print Assumptions C99_stored.
(** The key that later assertions are checked with is the attested one ... *)
Theorem C99_key nd r q a c x y t key : u2f_entry nd r q a c x y t ->
  p256_key t key <-> exists bx by_ nx ny, b64_decode x = Some bx /\ b64_decode y = Some by_ /\ String.length bx = 32%nat /\ String.length by_ = 32%nat /\
    big_endian (los bx) nx /\ big_endian (los by_) ny /\ key = (Z.of_N nx, Z.of_N ny).
Proof.
  intros T. pose proof (ue_params _ _ _ _ _ _ _ _ T) as P. unfold p256_key. split.
  - intros (_ & x' & y' & bx & by_ & nx & ny & Px & Py & R). apply P in Px, Py. cbn in Px, Py.
    assert (x' = x) as -> by (destruct Px as [Px|[Px|[Px|[Px|[Px|[Px|[Px|[Px|[Px|[]]]]]]]]]]; try discriminate; congruence).
    assert (y' = y) as -> by (destruct Py as [Py|[Py|[Py|[Py|[Py|[Py|[Py|[Py|[Py|[]]]]]]]]]]; try discriminate; congruence).
    exists bx, by_, nx, ny. exact R.
  - intros (bx & by_ & nx & ny & R). split; [apply P; cbn; tauto|]. exists x, y, bx, by_, nx, ny.
    split; [apply P; cbn; tauto|]. split; [apply P; cbn; tauto|]. exact R.
Qed.
Print Assumptions C99_key.
(** ... if there is one: the length and coding of the coordinates are not checked when the token
    is registered, and a token without a key proves nothing, ever. *)
Definition coordinate_ok (s : string) : Prop := exists b, b64_decode s = Some b /\ String.length b = 32%nat.
Theorem C99_unusable E nd r q a c x y t r' q' : u2f_entry nd r q a c x y t -> ~ (coordinate_ok x /\ coordinate_ok y) -> ~ proves E r' q' t.
Proof.
  intros T N V. destruct (pv_data _ _ _ _ V) as (_ & _ & _ & _ & key & _ & _ & _ & _ & K & _).
  apply (C99_key _ _ _ _ _ _ _ _ key T) in K as (bx & by_ & nx & ny & K1 & K2 & K3 & K4 & _). apply N. split; [exists bx|exists by_]; auto.
Qed.
Print Assumptions C99_unusable.
(** A registration without coordinates. *)
Definition bare_text : string :=
  q2 ("{'id': 'cred', 'type': 'public-key', 'attestationObject': {'authData': {'rpIdHash': 'h', 'flags': {}, 'credentialData': {'publicKey': {'key_type': 2, 'algorithm': -7}}}}}").
Definition bare_req : Request :=
  jane <| rq_mfa; rm_type := "u2f" |> <| rq_mfa; rm_comment := "key" |> <| rq_webauthn; rw_register := b64_encode bare_text |> <| rq_webauthn; rw_challenge := "x" |>.
Notation bare_out := (exec jtoy (draws 50) OpAddMfaToken jw.2 jw.1 bare_req).
Lemma bare_ok : o_res bare_out = OOk. Proof. vm_compute. reflexivity. Qed.
(** "A registration that is accepted can be used to log in" is false. *)
Theorem C99_usable_refuted : exists E nd fs db r, json_env E /\ reachable E fs db /\ rm_type (rq_mfa r) = "u2f" /\
  let o := exec E nd OpAddMfaToken db fs r in o_res o = OOk /\
  forall nd' r', ru_password (rq_user r') = "" -> rw_request (rq_webauthn r') <> "" -> o_res (exec E nd' OpAuthenticate (o_db o) (o_fs o) r') <> OOk.
Proof.
  exists jtoy, (draws 50), jw.1, jw.2, bare_req. split; [exact jtoy_json|]. split; [exact jw_reachable|]. split; [reflexivity|]. cbv zeta. split; [exact bare_ok|].
  intros nd' r' Hp Hw H. apply C43_webauthn_login in H as (i & u & q & p & Hu & _ & (l1 & l2 & Hm & _) & V); [|exact (exec_reachable _ _ _ _ _ _ jw_reachable (ok_returned _ bare_ok))|exact Hp|exact Hw].
  destruct (pv_data _ _ _ _ V) as (_ & _ & _ & _ & key & _ & _ & _ & _ & K & _). apply p256_iff in K.
  assert (A : account (o_db bare_out) i u) by (destruct Hu as [(_ & _ & A & _)|(_ & _ & A & _)]; exact A). apply elem_of_list_lookup_2, elem_of_list_In in A.
  assert (F : forallb (fun u => forallb (fun t => match derive_key (t_params t) with None => true | Some _ => false end) (u_mfa u)) (db_users (o_db bare_out)) = true) by (vm_compute; reflexivity).
  rewrite forallb_forall in F. specialize (F u A). rewrite forallb_forall in F. specialize (F p). rewrite K in F. discriminate F. rewrite Hm. apply in_elt.
Qed.
Print Assumptions C99_usable_refuted.
Example C99_ex : reachable jtoy jw.1 jw.2 /\ o_res reg_out = OOk /\ o_res bare_out = OOk /\
  (exists u t, account (o_db reg_out) 0 u /\ u_mfa u = [t] /\ t_counter t = 7%N /\ t_flags t !! "UP" = Some true /\ param t "u2f_transports" "usb,nfc" /\ p256_key t (0%Z, 0%Z)) /\
  exists u t, account (o_db bare_out) 0 u /\ u_mfa u = [t] /\ param t "curve_xcoord" "" /\ param t "curve_type" "".
Proof.
  split; [exact jw_reachable|]. split; [exact reg_ok|]. split; [exact bare_ok|]. split.
  - eexists _, _. split; [vm_compute; reflexivity|]. split; [reflexivity|]. split; [reflexivity|]. split; [vm_compute; reflexivity|]. split; [vm_compute; reflexivity|]. apply p256_iff. vm_compute. reflexivity.
  - eexists _, _. split; [vm_compute; reflexivity|]. split; [reflexivity|]. split; vm_compute; reflexivity.
Qed.
