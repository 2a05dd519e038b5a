(** Facts about the tokens made by NewMfaToken (C99). *)
From Coq Require Import String Ascii ZArith NArith Lia Bool Arith List ZifyBool ZifyN ZifyNat.
From stdpp Require Import gmap strings.
From RecordUpdate Require Import RecordSet.
From Verif Require Import GoStr Utf8 Codec GoErr GoTime Role Name Email Random SpecValue RoleFacts EmailFacts RandomFacts.
From Verif Require Import Types Env Password ApiKey PublicKey Mfa User Json Persist Fs Database System UserFacts DbFacts Inv LoadFacts.
From Verif Require Import SpecDb SpecAuth SpecKey SpecMfa AccountFacts StepFacts ApiKeyFacts PublicKeyFacts TotpFacts MfaFacts WebAuthnFacts TokenFacts.
From Verif Require Import SpecRegister.
Import ListNotations.
Import RecordSetNotations.
Open Scope string_scope.
#[local] Opaque int64 new_id trim_space new_email new_role random_string.

Lemma jv_is_true v z : jv_is v z = Some true <-> v = VNum (Some z).
Proof. unfold jv_is. destruct v as [[n|]| |]; try (split; discriminate). split; [intros [=H]; apply Z.eqb_eq in H as ->; reflexivity|intros [=->]; now rewrite Z.eqb_refl]. Qed.
Lemma coord_of_iff pk k s : coord_of pk k = Some s <-> coordinate pk k s.
Proof.
  unfold coord_of, coordinate. destruct (pk !! k) as [[]|]; split; intros H; try discriminate.
  all: try (destruct H as [[? _]|?]; discriminate).
  - injection H as ->. auto.
  - destruct H as [[? _]|H]; congruence.
  - injection H as <-. auto.
  - destruct H as [[_ ->]|]; [reflexivity|discriminate].
Qed.
Definition u2f_of (nd : Nd) (r : Request) (q : RegisterRequest) (a : Attested) (curve x y : string) : MfaToken :=
  base_token nd r <| t_secret := rw_challenge (rq_webauthn r) |> <| t_flags := at_flags a |> <| t_counter := at_counter a |>
    <| t_params := <["rp_id_hash" := at_site a]> (<["u2f_id" := wr_id q]> (<["u2f_type" := wr_type q]>
         (<["u2f_transports" := join "," (wr_transports q)]> (<["key_type" := "ec2"]> (<["key_algo" := "es256"]>
         (<["curve_type" := curve]> (<["curve_xcoord" := x]> (<["curve_ycoord" := y]> ∅)))))))) |>.
Lemma u2f_iff E nd r t : rm_type (rq_mfa r) = "u2f" ->
  snd (new_mfa_token E nd r) = ROk t <-> exists q a c x y, registers_u2f E r q a c x y /\ t = u2f_of nd r q a c x y.
Proof.
  intros Ty. unfold new_mfa_token. cbv zeta. fold (base_token nd r). rewrite Ty. cbn [String.eqb Ascii.eqb Bool.eqb].
  set (w := rq_webauthn r). change (String.eqb "u2f" "totp") with false. change (String.eqb "u2f" "u2f") with true. cbv iota.
  split.
  - destruct (String.eqb_spec (rw_register w) "") as [|N1]; [discriminate|]. destruct (String.eqb_spec (rw_challenge w) "") as [|N2]; [discriminate|].
    destruct (b64_decode (rw_register w)) as [d|] eqn:Ed; [|discriminate]. destruct (e_register E d) as [q|] eqn:Eq; [|discriminate]. cbn [snd].
    unfold u2f_register.
    destruct (String.eqb_spec (wr_id q) "") as [|Nid]; [discriminate|]. destruct (String.eqb (wr_type q) ""); [discriminate|].
    destruct (String.eqb_spec (wr_type q) "public-key") as [Tq|]; cbn [negb]; [|discriminate].
    destruct (bad_transport (wr_transports q)) eqn:Tr; [discriminate|]. apply bad_transport_None in Tr.
    destruct (wr_att q) as [ao|] eqn:Ha; [|discriminate]. destruct (ao_auth ao) as [ad|] eqn:Hb; [|discriminate].
    destruct (String.eqb_spec (ad_rpid ad) "") as [|Nrp]; [discriminate|]. destruct (ad_flags ad) as [fl|] eqn:Hf; [|discriminate].
    destruct (ad_cred ad) as [cd|] eqn:Hc; [|discriminate]. destruct (cd_pubkey cd) as [pk|] eqn:Hk; [|discriminate].
    destruct (pk !! "key_type") as [v|] eqn:K1; [|discriminate]. destruct (jv_is v 2) as [[]|] eqn:J1; try discriminate. apply jv_is_true in J1 as ->.
    destruct (pk !! "algorithm") as [v|] eqn:K2; [|discriminate]. destruct (jv_is v (-7)) as [[]|] eqn:J2; try discriminate. apply jv_is_true in J2 as ->.
    match goal with |- context [match ?x with Some _ => _ | None => RPanic end] => destruct x as [[curve|]|] eqn:Cv; try discriminate end.
    destruct (coord_of pk "curve_x") as [x|] eqn:X; [|discriminate]. destruct (coord_of pk "curve_y") as [y|] eqn:Y; [|discriminate].
    apply coord_of_iff in X, Y. intros [=<-].
    exists q, {| at_site := ad_rpid ad; at_flags := fl; at_counter := ad_counter ad; at_key := pk |}, curve, x, y. split; [|reflexivity].
    constructor; auto; [exists d; auto| |].
    + unfold attests. rewrite Ha. cbn. destruct ao as [oa]; cbn in *; subst oa. destruct ad; cbn in *; subst. destruct cd; cbn in *; subst. reflexivity.
    + constructor; cbn; auto. destruct (pk !! "curve_type") as [v|] eqn:K3; [|left; split; congruence]. right.
      destruct (jv_is v 1) as [[]|] eqn:J3; try discriminate. apply jv_is_true in J3 as ->. split; [exact K3|congruence].
  - intros (q & a & c & x & y & [R1 R2 R3 (d & R4 & R5) R6 R7 R8 R9 R10 [K1 K2 K3 K4 K5]] & ->). fold w in R2, R3, R4.
    rewrite (proj2 (String.eqb_neq _ _) R2), (proj2 (String.eqb_neq _ _) R3), R4, R5. cbn [snd]. unfold u2f_register.
    rewrite (proj2 (String.eqb_neq _ _) R6), R7. cbn [String.eqb Ascii.eqb Bool.eqb negb].
    apply bad_transport_None in R8. rewrite R8. unfold attests in R9. rewrite R9. cbn [ao_auth ad_rpid ad_flags ad_cred cd_pubkey ad_counter].
    rewrite (proj2 (String.eqb_neq _ _) R10). unfold int_field in *. rewrite K1, K2. cbn [jv_is]. rewrite !Z.eqb_refl.
    apply coord_of_iff in K4, K5. rewrite K4, K5. unfold u2f_of. rewrite R7.
    destruct K3 as [[K3 ->]|[K3 ->]]; rewrite K3; cbn [jv_is]; rewrite ?Z.eqb_refl; reflexivity.
Qed.
Lemma u2f_of_entry nd r q a c x y t : rm_type (rq_mfa r) = "u2f" -> wr_type q = "public-key" ->
  t = u2f_of nd r q a c x y <-> u2f_entry nd r q a c x y t.
Proof.
  intros Ty Tq. set (L := [("rp_id_hash", at_site a); ("u2f_id", wr_id q); ("u2f_type", wr_type q); ("u2f_transports", join "," (wr_transports q));
    ("key_type", "ec2"); ("key_algo", "es256"); ("curve_type", c); ("curve_xcoord", x); ("curve_ycoord", y)]).
  assert (P : forall k v, (list_to_map L : gmap string string) !! k = Some v <-> In (k, v)
    [("u2f_id", wr_id q); ("u2f_type", "public-key"); ("u2f_transports", join "," (wr_transports q)); ("rp_id_hash", at_site a);
     ("key_type", "ec2"); ("key_algo", "es256"); ("curve_type", c); ("curve_xcoord", x); ("curve_ycoord", y)]).
  { intros k v. rewrite <- elem_of_list_to_map by (cbn; apply (bool_decide_unpack _); vm_compute; exact I). rewrite elem_of_list_In. unfold L. rewrite Tq. cbn [In]. tauto. }
  split.
  - intros ->. constructor; first [reflexivity | exact P | cbn; auto 10].
  - intros [H1 H2 H3 H4 H5 H6 H7 (H8 & H9 & H10) (H11 & H12) (D1 & D2 & D3 & D4 & D5)]. destruct t; cbn in *. subst.
    unfold u2f_of, base_token, set. cbn. rewrite Ty. f_equal. apply map_eq. intros k. apply option_eq. intros v. unfold param in H7. cbn in H7. rewrite H7.
    symmetry. exact (P k v).
Qed.
Lemma totp_of_complete nd r a d t : rm_type (rq_mfa r) = "totp" -> t = totp_of nd r a d <-> totp_complete nd r a d t.
Proof.
  intros Ty. split.
  - intros ->. constructor; first [reflexivity | cbn; constructor; auto; fail | cbn; auto 10].
  - intros [H1 H2 [E1 E2 E3 E4 E5] (H3 & H4 & H5) (H6 & H7) (D1 & D2 & D3 & D4 & D5)]. destruct t; cbn in *. subst.
    unfold totp_of, base_token, set. cbn. now rewrite Ty.
Qed.
