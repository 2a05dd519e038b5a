(** Facts about WebAuthn assertions and registrations (C43-C47). *)
From Coq Require Import String Ascii ZArith NArith Lia Bool Arith List ZifyBool ZifyN ZifyNat.
From stdpp Require Import gmap strings.
From RecordUpdate Require Import RecordSet.
From Verif Require Import GoStr Utf8 Codec GoErr Role Name Email Random SpecValue RoleFacts EmailFacts RandomFacts.
From Verif Require Import Types Env Password ApiKey PublicKey Mfa User Json Persist Fs Database System UserFacts DbFacts Inv LoadFacts.
From Verif Require Import SpecDb SpecAuth SpecKey SpecMfa AccountFacts StepFacts PublicKeyFacts TotpFacts MfaFacts.
Import ListNotations.
Import RecordSetNotations.
Open Scope string_scope.
#[local] Opaque int64 new_id trim_space new_email new_role.

(** ** Authenticator data (C46) *)
Lemma hex_digit_lookup n : (n < 16)%N -> lower_hex !! N.to_nat n = Some (hex_digit n).
Proof.
  intros H. assert (G : forallb (fun k => match lower_hex !! k with Some a => Ascii.eqb a (hex_digit (N.of_nat k)) | None => false end) (seq 0 16) = true) by reflexivity.
  rewrite forallb_forall in G. specialize (G (N.to_nat n)). rewrite in_seq in G. specialize (G ltac:(lia)).
  destruct (lower_hex !! N.to_nat n); [|discriminate]. apply Ascii.eqb_eq in G. rewrite N2Nat.id in G. now rewrite G.
Qed.
Lemma hex_of_encode l : hex_of l (hex_encode_l l).
Proof.
  induction l as [|a l IH]; [constructor|]. change (hex_encode_l (a :: l)) with (hex_digit (N_of_ascii a / 16) :: hex_digit (N_of_ascii a mod 16) :: hex_encode_l l).
  pose proof (byte_bound a). unfold nat_of_ascii. constructor; [| |exact IH].
  - unfold nat_of_ascii. replace (N.to_nat (N_of_ascii a) / 16)%nat with (N.to_nat (N_of_ascii a / 16)) by (rewrite N2Nat.inj_div; reflexivity). apply hex_digit_lookup. apply N.div_lt_upper_bound; lia.
  - unfold nat_of_ascii. replace (N.to_nat (N_of_ascii a) mod 16)%nat with (N.to_nat (N_of_ascii a mod 16)) by (rewrite N2Nat.inj_mod; reflexivity). apply hex_digit_lookup. apply N.mod_lt. lia.
Qed.
Lemma hex_of_det l s : hex_of l s -> s = hex_encode_l l.
Proof.
  intros H. induction H as [|a l x y s Hx Hy H IH]; [reflexivity|]. pose proof (hex_of_encode (a :: l)) as G.
  change (hex_encode_l (a :: l)) with (hex_digit (N_of_ascii a / 16) :: hex_digit (N_of_ascii a mod 16) :: hex_encode_l l) in *.
  inversion G as [|? ? ? ? ? G1 G2 G3]; subst. congruence.
Qed.
Lemma land_bit n i : (N.land n (2 ^ i) =? 2 ^ i)%N = N.testbit n i.
Proof.
  destruct (N.testbit n i) eqn:B.
  - apply N.eqb_eq. apply N.bits_inj. intros k. rewrite N.land_spec, N.pow2_bits_eqb. destruct (N.eqb_spec i k) as [->|]; [now rewrite B|apply andb_false_r].
  - apply N.eqb_neq. intros H. apply (f_equal (fun x => N.testbit x i)) in H. rewrite N.land_spec, N.pow2_bits_true, B in H. discriminate.
Qed.
Lemma auth_data_split (l : list ascii) : (37 <= List.length l)%nat ->
  exists rp f c0 c1 c2 c3 rest, l = (rp ++ [f] ++ [c0; c1; c2; c3] ++ rest)%list /\ List.length rp = 32%nat.
Proof.
  intros H. exists (firstn 32 l). destruct (skipn 32 l) as [|f [|c0 [|c1 [|c2 [|c3 rest]]]]] eqn:S;
    try (apply (f_equal (@List.length _)) in S; rewrite skipn_length in S; cbn in S; lia).
  exists f, c0, c1, c2, c3, rest. split; [|rewrite firstn_length; lia]. rewrite <- (firstn_skipn 32 l) at 1. now rewrite S.
Qed.
Lemma unpack_None b : unpack_auth_data b = None <-> (List.length (los b) < 37)%nat.
Proof. unfold unpack_auth_data. cbv zeta. destruct Nat.ltb eqn:L; [apply Nat.ltb_lt in L|apply Nat.ltb_ge in L]; split; (congruence || lia || discriminate). Qed.
Lemma unpack_spec b rp f c rest : los b = (rp ++ [f] ++ c ++ rest)%list -> List.length rp = 32%nat -> List.length c = 4%nat ->
  exists u, unpack_auth_data b = Some u /\ hex_of rp (los (up_rpid u)) /\ big_endian c (up_counter u) /\
    (forall k i, In (k, i) named_flags -> up_flags u !! k = Some (bit f i)) /\
    (forall k, ~ In k (map fst named_flags) -> up_flags u !! k = None).
Proof.
  intros H L1 L2. unfold unpack_auth_data. cbv zeta. assert ((List.length (los b) <? 37)%nat = false) as ->.
  { apply Nat.ltb_ge. rewrite H, !app_length. cbn. lia. }
  eexists. split; [reflexivity|]. cbn [up_rpid up_flags up_counter]. split; [|split; [|split]].
  - unfold hex_encode. rewrite los_sol, los_sol, H, <- L1, take_app. apply hex_of_encode.
  - assert (firstn 4 (skipn 33 (los b)) = c) as ->; [|apply be_val_spec]. rewrite H.
    change (rp ++ [f] ++ c ++ rest)%list with (rp ++ (f :: c ++ rest))%list. replace (f :: c ++ rest)%list with ([f] ++ (c ++ rest))%list by reflexivity.
    rewrite app_assoc. replace 33%nat with (List.length (rp ++ [f])%list) by (rewrite app_length; cbn; lia).
    rewrite drop_app. rewrite <- L2. apply take_app.
  - assert (B : byte_at b 32 = N_of_ascii f) by (unfold byte_at; rewrite H, app_nth2 by lia; rewrite L1; reflexivity).
    intros k i Hk. unfold bit. rewrite B, <- land_bit. unfold named_flags in Hk. cbn [In] in Hk. unfold flag_bits. cbn [fold_left fst snd].
    decompose [or] Hk; try contradiction; match goal with X : (_, _) = (_, _) |- _ => injection X as <- <- end;
      repeat (rewrite lookup_insert || rewrite lookup_insert_ne by discriminate); reflexivity.
  - intros k Hk. unfold named_flags in Hk. cbn [map fst In] in Hk. unfold flag_bits. cbn [fold_left fst snd].
    repeat rewrite lookup_insert_ne by (intros <-; apply Hk; auto 10). apply lookup_empty.
Qed.

(** ** Keys (C47) *)
Lemma coord_iff m k l : coord m k = Some l <-> exists v, m !! k = Some v /\ b64_decode v = Some (sol l) /\ List.length l = 32%nat.
Proof.
  unfold coord, b64_decode. destruct (m !! k) as [v|]; [|split; [discriminate|intros (v & ? & _); discriminate]].
  destruct (b64_decode_l (los v)) as [b|] eqn:D.
  - destruct Nat.eqb eqn:N; [apply Nat.eqb_eq in N|apply Nat.eqb_neq in N]; split.
    + intros [=<-]. exists v. rewrite D. auto.
    + intros (v' & [=<-] & H & L). rewrite D in H. cbn in H. injection H as H. apply sol_inj in H. now rewrite H.
    + discriminate.
    + intros (v' & [=<-] & H & L). rewrite D in H. cbn in H. injection H as H. apply sol_inj in H. congruence.
  - split; [discriminate|]. intros (v' & [=<-] & H & _). rewrite D in H. discriminate.
Qed.
Lemma p256_iff p key : derive_key (t_params p) = Some key <-> p256_key p key.
Proof.
  unfold derive_key, p256_key, param. split.
  - destruct (coord _ "curve_xcoord") as [x|] eqn:X; [|discriminate]. destruct (coord _ "curve_ycoord") as [y|] eqn:Y; [|discriminate].
    destruct (t_params p !! "key_algo") as [a|]; [|discriminate]. destruct (String.eqb_spec a "es256") as [->|]; [|discriminate]. intros [=<-].
    apply coord_iff in X as (vx & Hx & Dx & Lx). apply coord_iff in Y as (vy & Hy & Dy & Ly). split; [reflexivity|].
    exists vx, vy, (sol x), (sol y), (be_val x), (be_val y). rewrite !length_sol, !los_sol. repeat split; auto using be_val_spec.
  - intros (A & x & y & bx & by_ & nx & ny & Hx & Hy & Dx & Dy & Lx & Ly & Bx & By & ->).
    assert (coord (t_params p) "curve_xcoord" = Some (los bx)) as -> by (apply coord_iff; exists x; rewrite sol_los, length_los; auto).
    assert (coord (t_params p) "curve_ycoord" = Some (los by_)) as -> by (apply coord_iff; exists y; rewrite sol_los, length_los; auto).
    rewrite A, String.eqb_refl. apply big_endian_val in Bx, By. now subst.
Qed.
Lemma p256_det p k k' : p256_key p k -> p256_key p k' -> k = k'.
Proof. rewrite <- !p256_iff. congruence. Qed.

(** ** Assertions (C43) *)
Lemma blank_iff s : blank s = false <-> trim_space s <> "".
Proof. unfold blank. apply String.eqb_neq. Qed.
Lemma webauthn_iff E p s ch : cache_ok p -> t_type p = "u2f" ->
  snd (webauthn_request E p s) = Some ch <->
  exists d q, b64_decode s = Some d /\ e_authreq E d = Some q /\ param p "u2f_id" (wq_id q) /\ param p "key_type" "ec2" /\
    trim_space (wq_client q) <> "" /\ trim_space (wq_sig q) <> "" /\ trim_space (wq_auth q) <> "" /\
    exists client cd auth sig key, b64_decode (wq_client q) = Some client /\ e_client E client = Some cd /\
      b64_decode (wq_auth q) = Some auth /\ b64_decode (wq_sig q) = Some sig /\ p256_key p key /\
      cl_type cd = "webauthn.get" /\ cl_cross cd = false /\ cl_challenge cd = ch /\
      (exists rp flags c0 c1 c2 c3 rest h, los auth = (rp ++ [flags] ++ [c0; c1; c2; c3] ++ rest)%list /\ List.length rp = 32%nat /\
         bit flags 0 = true /\ param p "rp_id_hash" h /\ hex_of rp (los h)) /\
      e_ecdsa E key (auth ++ e_sha256 E client) sig = true.
Proof.
  intros C T. unfold webauthn_request. rewrite T, String.eqb_refl. cbn [negb].
  assert (K : (match t_cache p with Some k => Some k | None => derive_key (t_params p) end) = derive_key (t_params p)).
  { destruct (t_cache p) as [k|] eqn:Ck; [|reflexivity]. symmetry. now apply C. }
  rewrite K. clear K. split.
  - destruct (t_params p !! "u2f_id") as [uid|] eqn:U; [|discriminate]. destruct (t_params p !! "key_type") as [kt|] eqn:Kt; [|discriminate].
    destruct (String.eqb_spec kt "ec2") as [->|]; cbn [negb]; [|discriminate].
    destruct (derive_key (t_params p)) as [key|] eqn:Dk; [|discriminate]. cbn [snd t_params set].
    destruct (b64_decode s) as [d|] eqn:Ds; [|discriminate]. destruct (e_authreq E d) as [q|] eqn:Eq; [|discriminate].
    destruct (String.eqb_spec uid (wq_id q)) as [->|]; cbn [negb]; [|discriminate].
    destruct (blank (wq_client q)) eqn:B1; [discriminate|]. destruct (b64_decode (wq_client q)) as [client|] eqn:Dc; [|discriminate].
    destruct (e_client E client) as [cd|] eqn:Ec; [|discriminate].
    destruct (blank (wq_sig q)) eqn:B2; [discriminate|]. destruct (b64_decode (wq_sig q)) as [sig|] eqn:Dg; [|discriminate].
    destruct (blank (wq_auth q)) eqn:B3; [discriminate|]. destruct (b64_decode (wq_auth q)) as [auth|] eqn:Da; [|discriminate].
    destruct (unpack_auth_data auth) as [ad|] eqn:Un; [|discriminate].
    destruct (String.eqb_spec (cl_type cd) "webauthn.get") as [Ty|]; cbn [negb]; [|discriminate].
    destruct (cl_cross cd) eqn:Cr; [discriminate|].
    destruct (String.eqb_spec (up_rpid ad) (default "" (t_params p !! "rp_id_hash"))) as [Rp|]; cbn [negb]; [|discriminate].
    destruct (default false (up_flags ad !! "UP")) eqn:Up; cbn [negb]; [|discriminate].
    destruct (String.eqb_spec (default "" (t_params p !! "key_algo")) "es256") as [Al|]; cbn [negb]; [|discriminate].
    destruct e_ecdsa eqn:Sg; [|discriminate]. intros [=<-]. exists d, q. repeat (split; [assumption || reflexivity || now apply blank_iff|]).
    exists client, cd, auth, sig, key. repeat (split; [assumption || reflexivity || now apply p256_iff|]). split; [|assumption].
    assert (L : (37 <= List.length (los auth))%nat).
    { destruct (Nat.le_gt_cases 37 (List.length (los auth))); [assumption|]. apply unpack_None in H. congruence. }
    destruct (auth_data_split _ L) as (rp & f & c0 & c1 & c2 & c3 & rest & Hs & Lr).
    destruct (unpack_spec auth rp f [c0; c1; c2; c3] rest Hs Lr eq_refl) as (u & Hu & Hx & _ & Fl & _). rewrite Un in Hu. injection Hu as ->.
    rewrite (Fl "UP" 0%N) in Up by (left; reflexivity). cbn [default from_option id] in Up.
    destruct (t_params p !! "rp_id_hash") as [h|] eqn:Hh; cbn [default from_option id] in Rp.
    + exists rp, f, c0, c1, c2, c3, rest, h. subst h. repeat (split; [assumption|]). exact Hx.
    + exfalso. rewrite Rp in Hx. apply hex_of_det in Hx. destruct rp; [discriminate|]. discriminate.
  - intros (d & q & Ds & Eq & U & Kt & B1 & B2 & B3 & client & cd & auth & sig & key & Dc & Ec & Da & Dg & Dk & Ty & Cr & Ch & Au & Sg).
    destruct Au as (rp & f & c0 & c1 & c2 & c3 & rest & h & Hs & Lr & Bt & Hh & Hx). unfold param in *.
    pose proof Dk as Dk'. apply p256_iff in Dk'. destruct Dk as [Al _]. unfold param in Al.
    rewrite U, Kt, Dk', String.eqb_refl. cbn [negb snd t_params set].
    rewrite Ds, Eq, String.eqb_refl. cbn [negb]. rewrite (proj2 (blank_iff _) B1), Dc, Ec, (proj2 (blank_iff _) B2), Dg, (proj2 (blank_iff _) B3), Da.
    destruct (unpack_spec auth rp f [c0; c1; c2; c3] rest Hs Lr eq_refl) as (u & Hu & Hx' & _ & Fl & _). rewrite Hu, Ty, String.eqb_refl, Cr. cbn [negb].
    rewrite Hh, Al. cbn [default from_option id]. rewrite (Fl "UP" 0%N) by (left; reflexivity). rewrite Bt. cbn [default from_option id negb].
    apply hex_of_det in Hx, Hx'. assert (up_rpid u = h) as -> by (apply los_inj; congruence). rewrite !String.eqb_refl. cbn [negb]. now rewrite Sg, Ch.
Qed.

(** The first enabled token with the requested credential decides. *)
Lemma candidate_iff id t : negb (t_disabled t) && String.eqb (t_type t) "u2f" &&
    match t_params t !! "u2f_id" with Some x => String.eqb id x | None => false end = true <-> candidate id t.
Proof.
  unfold candidate, param. rewrite !andb_true_iff, negb_true_iff, String.eqb_eq.
  destruct (t_params t !! "u2f_id") as [x|]; [rewrite String.eqb_eq|]; split; intuition (congruence || discriminate).
Qed.
Lemma verify_tokens_iff E r id l : Forall cache_ok l ->
  snd (verify_tokens E r id l) = None <->
  exists l1 p l2, l = (l1 ++ p :: l2)%list /\ candidate id p /\ Forall (fun x => ~ candidate id x) l1 /\
    snd (webauthn_request E p (rw_request (rq_webauthn r))) = Some (rw_challenge (rq_webauthn r)).
Proof.
  induction l as [|t l IH]; intros F.
  - cbn. split; [discriminate|]. intros (l1 & p & l2 & H & _). destruct l1; discriminate.
  - inversion F as [|? ? F1 F2]; subst. cbn [verify_tokens]. destruct (_ && _) eqn:B.
    + apply candidate_iff in B. destruct webauthn_request as [t' res] eqn:W. cbn [snd]. split.
      * intros H. exists [], t, l. split; [reflexivity|]. split; [exact B|]. split; [constructor|]. rewrite W. cbn [snd].
        destruct res as [ch|]; [|discriminate]. destruct (String.eqb_spec ch (rw_challenge (rq_webauthn r))); congruence.
      * intros (l1 & p & l2 & Hl & Hp & Hn & Hw). destruct l1 as [|x l1].
        -- injection Hl as <- <-. rewrite W in Hw. cbn [snd] in Hw. rewrite Hw, String.eqb_refl. reflexivity.
        -- injection Hl as <- ->. inversion Hn; subst. contradiction.
    + specialize (IH F2). destruct (verify_tokens E r id l) as [l' res]. cbn [snd] in *. rewrite IH. clear IH.
      assert (Nt : ~ candidate id t) by (rewrite <- candidate_iff; congruence). split.
      * intros (l1 & p & l2 & -> & Hp & Hn & Hw). exists (t :: l1), p, l2. split; [reflexivity|]. split; [exact Hp|]. split; [now constructor|exact Hw].
      * intros (l1 & p & l2 & Hl & Hp & Hn & Hw). destruct l1 as [|x l1]; [injection Hl as <- <-; contradiction|].
        injection Hl as <- ->. inversion Hn; subst. exists l1, p, l2. auto.
Qed.
Lemma verify_webauthn_iff E u r : Forall cache_ok (u_mfa u) ->
  snd (verify_webauthn E u r) = None <-> exists q p, assertion E r q /\ first_candidate u (wq_id q) p /\ proves E r q p.
Proof.
  intros F. unfold verify_webauthn, unpack_request, assertion. split.
  - destruct (b64_decode _) as [d|] eqn:Ds; [|discriminate]. destruct (e_authreq E d) as [q|] eqn:Eq; [|discriminate].
    intros H. assert (H' : snd (verify_tokens E r (wq_id q) (u_mfa u)) = None) by (destruct verify_tokens; exact H). clear H.
    apply verify_tokens_iff in H' as (l1 & p & l2 & Hl & Hp & Hn & Hw); [|assumption].
    assert (Cp : cache_ok p) by (rewrite List.Forall_forall in F; apply F; rewrite Hl; apply in_elt).
    apply webauthn_iff in Hw as (d' & q' & Ds' & Eq' & U & Kt & B1 & B2 & B3 & R); [|assumption|apply Hp].
    assert (d' = d) as -> by congruence. assert (q' = q) as -> by congruence. exists q, p. split; [eauto|]. split; [exists l1, l2; auto|].
    destruct Hp as (P1 & P2 & P3). constructor; auto.
  - intros (q & p & (d & Ds & Eq) & (l1 & l2 & Hl & Hp & Hn) & [P1 P2 P3 P4 P5 P6 P7 R]). rewrite Ds, Eq.
    assert (H' : snd (verify_tokens E r (wq_id q) (u_mfa u)) = None); [|destruct verify_tokens; exact H'].
    assert (Cp : cache_ok p) by (rewrite List.Forall_forall in F; apply F; rewrite Hl; apply in_elt).
    apply verify_tokens_iff; [assumption|]. exists l1, p, l2. repeat (split; [assumption|]). apply webauthn_iff; [assumption|assumption|].
    exists d, q. repeat (split; [assumption|]). exact R.
Qed.
Lemma authenticate_webauthn E nd db fs r : reachable E fs db -> ru_password (rq_user r) = "" -> rw_request (rq_webauthn r) <> "" ->
  o_res (exec E nd OpAuthenticate db fs r) = OOk <->
  exists i u q p, resolves_login E db (ru_username (rq_user r)) i u /\ assertion E r q /\ first_candidate u (wq_id q) p /\ proves E r q p.
Proof.
  intros HR Hp Hq. cbn [exec]. unfold db_authenticate. cbv zeta. rewrite Hp. apply String.eqb_neq in Hq. rewrite Hq. cbn [negb].
  change (String.eqb "" "") with true. cbn [negb]. destruct get_user as [[i u]|] eqn:G.
  - assert (F : Forall cache_ok (u_mfa u)) by (apply (reachable_caches _ _ _ HR i); exact (get_user_at _ _ _ _ _ G)).
    pose proof (verify_webauthn_iff E u r F) as W. destruct verify_webauthn as [u' res]. cbn [snd] in W.
    assert (X : o_res (match res with Some e => ret (set_user db i u') fs (r <| rq_code := 400%Z |>) (OErr (EWith ErrAuthFailed [AErr e]))
        | None => ret (set_user db i u') fs (r <| rq_code := 200%Z |>) OOk end) = OOk <-> res = None) by (destruct res; split; (discriminate || reflexivity)).
    rewrite X, W. split.
    + intros (q & p & H). exists i, u, q, p. split; [now apply (get_user_resolves _ fs)|exact H].
    + intros (j & v & q & p & Hv & H). apply (get_user_resolves _ fs) in Hv; [|assumption]. assert (u = v) as -> by congruence. eauto.
  - split; [discriminate|]. intros (j & v & q & p & Hv & _). apply (get_user_resolves _ fs) in Hv; [|assumption]. congruence.
Qed.
