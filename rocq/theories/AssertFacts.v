(** Facts about the errors of WebAuthnRequest (C115). *)
From Coq Require Import String Ascii ZArith NArith Lia Bool Arith List ZifyBool ZifyN ZifyNat.
From stdpp Require Import gmap strings.
From RecordUpdate Require Import RecordSet.
From Verif Require Import GoStr Codec GoErr Types Env Mfa LoadFacts SpecMfa WebAuthnFacts Assert SpecAssert.
Import ListNotations.
Import RecordSetNotations.
Open Scope string_scope.
#[local] Opaque trim_space.

(** ** Lists of checks *)
Definition verdict {A} (l : list (Prop * goerr)) (r : A + goerr) : Prop := match r with inl _ => Forall fst l | inr e => first_failure l e end.
Lemma v_ok {A} (c : Prop) e l (r : A + goerr) : c -> verdict l r -> verdict ((c, e) :: l) r.
Proof.
  intros H. destruct r as [a|e']; cbn [verdict]; [now constructor|]. intros (l1 & c' & l2 & -> & F & N).
  exists ((c, e) :: l1), c', l2. split; [reflexivity|]. split; [now constructor|exact N].
Qed.
Lemma v_bad {A} (c : Prop) e l : ~ c -> verdict (A := A) ((c, e) :: l) (inr e).
Proof. intros H. exists [], c, l. repeat split; auto. Qed.
Lemma v_nil {A} (a : A) : verdict [] (inl a).
Proof. constructor. Qed.
Lemma failure_not_all l e : first_failure l e -> ~ Forall fst l.
Proof. intros (l1 & c & l2 & -> & _ & N) F. apply Forall_app in F as [_ F]. inversion F; subst. auto. Qed.
Lemma failure_det l e e' : first_failure l e -> first_failure l e' -> e = e'.
Proof.
  intros (l1 & c & l2 & -> & F & N) (l1' & c' & l2' & H & F' & N'). revert l1' H F'.
  induction l1 as [|[d x] l1 IH]; intros [|[d' x'] l1'] H F'; cbn in H.
  - now injection H.
  - injection H as -> -> _. inversion F'; subst. contradiction.
  - injection H as -> -> _. inversion F; subst. contradiction.
  - injection H as -> -> H. inversion F; inversion F'; subst. eauto.
Qed.
Lemma verdict_all {A} l (r : A + goerr) : verdict l r -> (exists a, r = inl a) <-> Forall fst l.
Proof.
  destruct r as [a|e]; cbn [verdict]; intros H; [split; eauto|].
  split; [intros [? ?]; discriminate|]. intros F. exfalso. eapply failure_not_all; eauto.
Qed.
Lemma verdict_err {A} l (r : A + goerr) e : verdict l r -> r = inr e <-> first_failure l e.
Proof.
  destruct r as [a|e']; cbn [verdict]; intros H.
  - split; [discriminate|]. intros F. exfalso. eapply failure_not_all; eauto.
  - split; [now intros [= ->]|]. intros F. now rewrite (failure_det _ _ _ H F).
Qed.

(** ** Agreement with the request of Mfa.v *)
Definition forget {A} (r : A + goerr) : option A := match r with inl a => Some a | inr _ => None end.
Lemma coordinate_coord params ltr k : k = "curve_" ++ ltr ++ "coord" -> (exists v, params !! k = Some v) ->
  forget (coordinate params ltr) = match coord params k with Some l => Some (Z.of_N (be_val l)) | None => None end.
Proof.
  intros -> [v Hv]. unfold coordinate, coord. rewrite Hv. cbn [default from_option id]. unfold b64_decode.
  destruct (b64_decode_l (los v)) as [l|]; [|reflexivity]. cbn. rewrite length_sol, los_sol. now destruct Nat.eqb.
Qed.
Lemma derive_agrees params : forget (derive params) = derive_key params.
Proof.
  unfold derive, derive_key, missing.
  destruct (params !! "curve_xcoord") as [x|] eqn:X; [|unfold coord; now rewrite X].
  destruct (params !! "curve_ycoord") as [y|] eqn:Y; [|unfold coord at 2; rewrite Y; now destruct coord].
  destruct (params !! "key_algo") as [a|] eqn:Al; [|now destruct coord, coord].
  pose proof (coordinate_coord params "x" _ eq_refl (ex_intro _ _ X)) as Hx. pose proof (coordinate_coord params "y" _ eq_refl (ex_intro _ _ Y)) as Hy.
  change ("curve_" ++ "x" ++ "coord") with "curve_xcoord" in Hx. change ("curve_" ++ "y" ++ "coord") with "curve_ycoord" in Hy.
  destruct (coord params "curve_xcoord") as [lx|], (coordinate params "x") as [zx|]; try discriminate Hx; [|reflexivity].
  destruct (coord params "curve_ycoord") as [ly|], (coordinate params "y") as [zy|]; try discriminate Hy; [|reflexivity].
  injection Hx as ->. injection Hy as ->. cbn [default from_option id]. now destruct String.eqb.
Qed.
Lemma request_agrees E p s :
  webauthn_request E p s = (fst (web_authn_request E p s), option_map cl_challenge (forget (snd (web_authn_request E p s)))).
Proof.
  unfold webauthn_request, web_authn_request. destruct (String.eqb (t_type p) "u2f"); cbn [negb]; [|reflexivity]. unfold missing.
  destruct (t_params p !! "u2f_id") as [uid|] eqn:U; [|reflexivity]. destruct (t_params p !! "key_type") as [kt|] eqn:Kt; [|reflexivity].
  cbn [default from_option id]. destruct (String.eqb kt "ec2"); cbn [negb]; [|reflexivity].
  assert (K : (match t_cache p with Some k => Some k | None => derive_key (t_params p) end) =
              forget (match t_cache p with Some k => inl k | None => derive (t_params p) end)).
  { destruct (t_cache p); [reflexivity|]. symmetry. apply derive_agrees. }
  rewrite K. clear K. destruct (match t_cache p with Some k => inl k | None => derive (t_params p) end) as [key|e]; [|reflexivity].
  cbn [forget fst snd]. f_equal. destruct (b64_decode s) as [d|]; [|reflexivity]. destruct (e_authreq E d) as [r|]; [|reflexivity].
  unfold judge. cbn [t_params set]. rewrite U. cbn [default from_option id].
  destruct (String.eqb uid (wq_id r)); cbn [negb]; [|reflexivity].
  destruct (blank (wq_client r)); [reflexivity|]. destruct (b64_decode (wq_client r)) as [c|]; [|reflexivity]. destruct (e_client E c) as [cd|]; [|reflexivity].
  destruct (blank (wq_sig r)); [reflexivity|]. destruct (b64_decode (wq_sig r)) as [sig|]; [|reflexivity].
  destruct (blank (wq_auth r)); [reflexivity|]. destruct (b64_decode (wq_auth r)) as [a|]; [|reflexivity].
  destruct (unpack_auth_data a) as [ad|]; [|reflexivity].
  destruct (String.eqb (cl_type cd) _); cbn [negb]; [|reflexivity]. destruct (cl_cross cd); [reflexivity|].
  destruct (String.eqb (up_rpid ad) _); cbn [negb]; [|reflexivity]. destruct (default false _); cbn [negb]; [|reflexivity].
  destruct (String.eqb _ "es256"); cbn [negb]; [|reflexivity]. now destruct e_ecdsa.
Qed.

(** ** The checks *)
Lemma says_det E s q q' : says E s q -> says E s q' -> q = q'.
Proof. intros (d & D & Q) (d' & D' & Q'). congruence. Qed.
Lemma client_det E s c c' : client_text E s c -> client_text E s c' -> c = c'.
Proof. intros (q & S & Q) (q' & S' & Q'). rewrite (says_det _ _ _ _ S S') in Q. congruence. Qed.
Lemma cd_det E s c c' : client_says E s c -> client_says E s c' -> c = c'.
Proof. intros (q & S & Q) (q' & S' & Q'). rewrite (client_det _ _ _ _ S S') in Q. congruence. Qed.
Lemma sig_det E s c c' : signature E s c -> signature E s c' -> c = c'.
Proof. intros (q & S & Q) (q' & S' & Q'). rewrite (says_det _ _ _ _ S S') in Q. congruence. Qed.
Lemma auth_det E s c c' : auth_bytes E s c -> auth_bytes E s c' -> c = c'.
Proof. intros (q & S & Q) (q' & S' & Q'). rewrite (says_det _ _ _ _ S S') in Q. congruence. Qed.
Lemma unpacked E s a u rp f : auth_bytes E s a -> unpack_auth_data a = Some u -> auth_says E s rp f ->
  hex_of rp (los (up_rpid u)) /\ up_flags u !! "UP" = Some (bit f 0).
Proof.
  intros A U (a' & c & rest & A' & H & L & L'). rewrite <- (auth_det _ _ _ _ A A') in H.
  destruct (unpack_spec a rp f c rest H L L') as (u' & U' & Hx & _ & Fl & _). rewrite U in U'. injection U' as <-.
  split; [exact Hx|]. apply Fl. now left.
Qed.
Lemma unpacked_some E s a u : auth_bytes E s a -> unpack_auth_data a = Some u -> exists rp f, auth_says E s rp f.
Proof.
  intros A U. assert (L : (37 <= List.length (los a))%nat).
  { destruct (Nat.le_gt_cases 37 (List.length (los a))) as [|H]; [assumption|]. apply unpack_None in H. congruence. }
  destruct (auth_data_split _ L) as (rp & f & c0 & c1 & c2 & c3 & rest & Hs & Lr). exists rp, f, a, [c0; c1; c2; c3], rest. auto.
Qed.
Lemma no_data E s a : auth_bytes E s a -> unpack_auth_data a = None -> ~ exists rp f, auth_says E s rp f.
Proof.
  intros A U (rp & f & a' & c & rest & A' & H & L & L'). rewrite <- (auth_det _ _ _ _ A A') in H. apply unpack_None in U.
  rewrite H, !app_length in U. cbn in U. lia.
Qed.

Lemma message_verdict E p p' key s : t_params p' = t_params p -> verification_key p key -> (forall k, verification_key p k -> k = key) ->
  (exists uid, param p "u2f_id" uid) ->
  verdict (message_checks E p s)
    (match b64_decode s with
     | None => inr (EWith ErrWebAuthnParse [AErr ext_err])
     | Some d => match e_authreq E d with
                 | None => inr (EWith ErrWebAuthnParse [AErr ext_err])
                 | Some r => judge E p' key r
                 end
     end).
Proof.
  intros Pp Vk Ku [uid U]. unfold message_checks.
  destruct (b64_decode s) as [d|] eqn:D; [|apply v_bad; intros [? ?]; discriminate]. apply v_ok; [eauto|].
  destruct (e_authreq E d) as [q|] eqn:Q; [|apply v_bad; intros (q & d' & ? & ?); congruence]. assert (S : says E s q) by (exists d; auto). apply v_ok; [eauto|].
  unfold judge. rewrite Pp. unfold param in U. rewrite U. cbn [default from_option id].
  destruct (String.eqb_spec uid (wq_id q)) as [->|Ne]; cbn [negb].
  2:{ apply v_bad. intros (q' & S' & H). rewrite (says_det _ _ _ _ S' S) in H. unfold param in H. congruence. }
  apply v_ok; [exists q; auto|].
  destruct (blank (wq_client q)) eqn:B1.
  { apply v_bad. intros (q' & S' & H). rewrite (says_det _ _ _ _ S' S) in H. apply blank_iff in H. congruence. }
  apply blank_iff in B1. apply v_ok; [exists q; auto|].
  destruct (b64_decode (wq_client q)) as [client|] eqn:Dc.
  2:{ apply v_bad. intros (c & q' & S' & H). rewrite (says_det _ _ _ _ S' S) in H. congruence. }
  assert (Ct : client_text E s client) by (exists q; auto). apply v_ok; [exists client; auto|].
  destruct (e_client E client) as [cd|] eqn:Ec.
  2:{ apply v_bad. intros (c & q' & S' & H). rewrite (client_det _ _ _ _ S' Ct) in H. congruence. }
  assert (Cs : client_says E s cd) by (exists client; auto). apply v_ok; [exists cd; auto|].
  destruct (blank (wq_sig q)) eqn:B2.
  { apply v_bad. intros (q' & S' & H). rewrite (says_det _ _ _ _ S' S) in H. apply blank_iff in H. congruence. }
  apply blank_iff in B2. apply v_ok; [exists q; auto|].
  destruct (b64_decode (wq_sig q)) as [sig|] eqn:Dg.
  2:{ apply v_bad. intros (c & q' & S' & H). rewrite (says_det _ _ _ _ S' S) in H. congruence. }
  assert (Sg : signature E s sig) by (exists q; auto). apply v_ok; [exists sig; auto|].
  destruct (blank (wq_auth q)) eqn:B3.
  { apply v_bad. intros (q' & S' & H). rewrite (says_det _ _ _ _ S' S) in H. apply blank_iff in H. congruence. }
  apply blank_iff in B3. apply v_ok; [exists q; auto|].
  destruct (b64_decode (wq_auth q)) as [a|] eqn:Da.
  2:{ apply v_bad. intros (c & q' & S' & H). rewrite (says_det _ _ _ _ S' S) in H. congruence. }
  assert (Ab : auth_bytes E s a) by (exists q; auto). apply v_ok; [exists a; auto|].
  destruct (unpack_auth_data a) as [u|] eqn:Un; [|apply v_bad; now apply (no_data E s a)].
  destruct (unpacked_some E s a u Ab Un) as (rp & f & As). apply v_ok; [eauto|].
  destruct (unpacked E s a u rp f Ab Un As) as [Hx Up].
  destruct (String.eqb_spec (cl_type cd) "webauthn.get") as [Ty|Ne]; cbn [negb].
  2:{ apply v_bad. intros (c & C & H). rewrite (cd_det _ _ _ _ C Cs) in H. auto. }
  apply v_ok; [exists cd; auto|].
  destruct (cl_cross cd) eqn:Cr.
  { apply v_bad. intros (c & C & H). rewrite (cd_det _ _ _ _ C Cs) in H. congruence. }
  apply v_ok; [exists cd; auto|].
  destruct (String.eqb_spec (up_rpid u) (default "" (t_params p !! "rp_id_hash"))) as [Rp|Ne]; cbn [negb].
  2:{ apply v_bad. intros (rp' & f' & h & As' & Ph & Hh). destruct (unpacked E s a u rp' f' Ab Un As') as [Hx' _].
      apply Ne. unfold param in Ph. rewrite Ph. cbn [default from_option id]. apply los_inj. apply hex_of_det in Hh, Hx'. congruence. }
  apply v_ok.
  { destruct (t_params p !! "rp_id_hash") as [h|] eqn:Hh; cbn [default from_option id] in Rp.
    - subst h. exists rp, f, (up_rpid u). auto.
    - exfalso. rewrite Rp in Hx. apply hex_of_det in Hx. destruct As as (? & ? & ? & _ & _ & L & _). destruct rp; discriminate. }
  rewrite Up. cbn [default from_option id]. destruct (bit f 0) eqn:Bt; cbn [negb].
  2:{ apply v_bad. intros (rp' & f' & As' & H). destruct (unpacked E s a u rp' f' Ab Un As') as [_ Up']. congruence. }
  apply v_ok; [eauto|].
  destruct (String.eqb_spec (default "" (t_params p !! "key_algo")) "es256") as [Al|Ne]; cbn [negb].
  2:{ apply v_bad. unfold param. intros H. rewrite H in Ne. auto. }
  apply v_ok.
  { unfold param. destruct (t_params p !! "key_algo") as [al|]; cbn [default from_option id] in Al; [now subst|discriminate]. }
  destruct (e_ecdsa E key _ sig) eqn:Ve.
  - apply v_ok; [|apply v_nil]. exists key, a, client, sig. auto.
  - apply v_bad. intros (k & a' & c' & g' & K & A' & C' & G' & H). rewrite (Ku _ K), (auth_det _ _ _ _ A' Ab), (client_det _ _ _ _ C' Ct), (sig_det _ _ _ _ G' Sg) in H. congruence.
Qed.

Lemma decodes_det p k b b' : decodes p k b -> decodes p k b' -> b = b'.
Proof. intros (v & V & D) (v' & V' & D'). unfold param in *. congruence. Qed.
(** The checks of the key, when it is not known. *)
Lemma key_verdict {A} p (k : Z * Z -> A + goerr) rest : t_cache p = None ->
  (forall key, p256_key p key -> verdict rest (k key)) ->
  verdict (key_checks p ++ rest) (match derive (t_params p) with inr e => inr e | inl key => k key end).
Proof.
  intros Nc K. assert (W : forall c : Prop, without_key p c <-> c) by (intros c; unfold without_key; tauto).
  pose proof (derive_agrees (t_params p)) as Ag. unfold derive in *. cbn [missing key_checks app] in *.
  destruct (t_params p !! "curve_xcoord") as [x|] eqn:X; [|apply v_bad; rewrite W; intros [v V]; unfold param in V; congruence].
  apply v_ok; [apply W; exists x; exact X|].
  destruct (t_params p !! "curve_ycoord") as [y|] eqn:Y; [|apply v_bad; rewrite W; intros [v V]; unfold param in V; congruence].
  apply v_ok; [apply W; exists y; exact Y|].
  destruct (t_params p !! "key_algo") as [al|] eqn:Al; [|apply v_bad; rewrite W; intros [v V]; unfold param in V; congruence].
  apply v_ok; [apply W; exists al; exact Al|].
  unfold coordinate in *. change ("curve_" ++ "x" ++ "coord") with "curve_xcoord" in *. change ("curve_" ++ "y" ++ "coord") with "curve_ycoord" in *.
  rewrite X, Y in *. cbn [default from_option id] in *.
  destruct (b64_decode x) as [bx|] eqn:Dx; [|apply v_bad; rewrite W; intros (b & v & V & D); unfold param in V; congruence].
  assert (Hx : decodes p "curve_xcoord" bx) by (exists x; auto). apply v_ok; [apply W; eauto|].
  destruct (Nat.eqb_spec (String.length bx) 32) as [Lx|Lx]; [|apply v_bad; rewrite W; intros (b & D & L); rewrite (decodes_det _ _ _ _ D Hx) in L; auto].
  apply v_ok; [apply W; eauto|].
  destruct (b64_decode y) as [b_y|] eqn:Dy; [|apply v_bad; rewrite W; intros (b & v & V & D); unfold param in V; congruence].
  assert (Hy : decodes p "curve_ycoord" b_y) by (exists y; auto). apply v_ok; [apply W; eauto|].
  destruct (Nat.eqb_spec (String.length b_y) 32) as [Ly|Ly]; [|apply v_bad; rewrite W; intros (b & D & L); rewrite (decodes_det _ _ _ _ D Hy) in L; auto].
  apply v_ok; [apply W; eauto|].
  destruct (String.eqb_spec al "es256") as [->|Ne].
  - apply v_ok; [apply W; exact Al|]. apply K. apply p256_iff. now rewrite <- Ag.
  - apply v_bad. rewrite W. unfold param. congruence.
Qed.
Lemma cached_verdict {A} p (r : A + goerr) key rest : t_cache p = Some key -> verdict rest r -> verdict (key_checks p ++ rest) r.
Proof.
  intros C V. assert (W : forall c, without_key p c) by (intros c H; congruence). unfold key_checks. cbn [app]. repeat (apply v_ok; [apply W|]). exact V.
Qed.
Lemma request_verdict E p s : verdict (assertion_checks E p s) (snd (web_authn_request E p s)).
Proof.
  unfold assertion_checks, token_checks, web_authn_request. cbn [app].
  destruct (String.eqb_spec (t_type p) "u2f") as [T|T]; cbn [negb]; [|now apply v_bad]. apply v_ok; [exact T|]. cbn [missing].
  destruct (t_params p !! "u2f_id") as [uid|] eqn:U; [|apply v_bad; intros [v V]; unfold param in V; congruence]. apply v_ok; [exists uid; exact U|].
  destruct (t_params p !! "key_type") as [kt|] eqn:Kt; [|apply v_bad; intros [v V]; unfold param in V; congruence]. apply v_ok; [exists kt; exact Kt|].
  cbn [default from_option id]. destruct (String.eqb_spec kt "ec2") as [->|Ne]; cbn [negb]; [|apply v_bad; unfold param; congruence]. apply v_ok; [exact Kt|].
  destruct (t_cache p) as [key|] eqn:C.
  - apply (cached_verdict _ _ key); [exact C|]. cbn [snd]. apply message_verdict; [reflexivity|now left| |eauto].
    intros k [Hk|[Hk _]]; congruence.
  - pose proof (key_verdict p (fun key => match b64_decode s with
     | None => inr (EWith ErrWebAuthnParse [AErr ext_err])
     | Some d => match e_authreq E d with
                 | None => inr (EWith ErrWebAuthnParse [AErr ext_err])
                 | Some r => judge E (p <| t_cache := Some key |>) key r
                 end
     end) (message_checks E p s) C) as V. destruct (derive (t_params p)) as [key|e]; apply V; intros k Hk; (apply message_verdict; [reflexivity|right; auto| |eauto]);
     intros k' [Hk'|[_ Hk']]; (congruence || eapply p256_det; eauto).
Qed.

(** The client data of a message that is accepted is that of the message. *)
Lemma judge_says E p key d q s cd : b64_decode s = Some d -> e_authreq E d = Some q -> judge E p key q = inl cd -> client_says E s cd.
Proof.
  intros D Q. unfold judge. destruct negb; [discriminate|]. destruct blank; [discriminate|].
  destruct (b64_decode (wq_client q)) as [c|] eqn:Dc; [|discriminate]. destruct (e_client E c) as [cd'|] eqn:Ec; [|discriminate].
  intros H. exists c. split; [exists q; split; [exists d; auto|exact Dc]|]. rewrite Ec. f_equal.
  destruct (blank (wq_sig q)); [discriminate|]. destruct (b64_decode (wq_sig q)) as [sig|]; [|discriminate].
  destruct (blank (wq_auth q)); [discriminate|]. destruct (b64_decode (wq_auth q)) as [a|]; [|discriminate].
  destruct (unpack_auth_data a) as [ad|]; [|discriminate].
  destruct negb; [discriminate|]. destruct (cl_cross cd'); [discriminate|]. destruct negb; [discriminate|]. destruct negb; [discriminate|]. destruct negb; [discriminate|].
  destruct e_ecdsa; [|discriminate]. now injection H.
Qed.
Lemma request_says E p s cd : snd (web_authn_request E p s) = inl cd -> client_says E s cd.
Proof.
  unfold web_authn_request. destruct negb; [discriminate|]. destruct missing; [discriminate|]. destruct negb; [discriminate|].
  destruct (match t_cache p with Some k => inl k | None => derive (t_params p) end) as [key|]; [|discriminate]. cbn [snd].
  destruct (b64_decode s) as [d|] eqn:D; [|discriminate]. destruct (e_authreq E d) as [q|] eqn:Q; [|discriminate]. now apply judge_says with (d := d) (q := q).
Qed.
(** The token afterwards. *)
Lemma request_token E p s :
  fst (web_authn_request E p s) = p \/
  exists key, verification_key p key /\ fst (web_authn_request E p s) = p <| t_cache := Some key |>.
Proof.
  unfold web_authn_request. destruct negb; [now left|]. destruct missing; [now left|]. destruct negb; [now left|].
  destruct (t_cache p) as [key|] eqn:C.
  - right. exists key. split; [now left|reflexivity].
  - pose proof (derive_agrees (t_params p)) as Ag. destruct (derive (t_params p)) as [key|]; [|now left]. right. exists key. split; [|reflexivity].
    right. split; [exact C|]. apply p256_iff. now rewrite <- Ag.
Qed.
Lemma request_token_iff E p s : let p' := fst (web_authn_request E p s) in
  (p' = p \/ exists key, verification_key p key /\ p' = p <| t_cache := Some key |>) /\
  (Forall fst (token_checks p ++ key_checks p) <-> exists key, verification_key p key /\ Forall fst (token_checks p) /\ p' = p <| t_cache := Some key |>).
Proof.
  intros p'. split; [apply request_token|]. unfold p', web_authn_request. split.
  - intros F. apply Forall_app in F as [F G]. pose proof F as F'. unfold token_checks in F. repeat rewrite Forall_cons in F. cbn [fst] in F. destruct F as (T & [uid U] & _ & Kt & _).
    unfold param in *. rewrite T, String.eqb_refl. cbn [negb missing]. rewrite U, Kt. cbn [default from_option id]. rewrite String.eqb_refl. cbn [negb].
    destruct (t_cache p) as [key|] eqn:C; [exists key; split; [now left|auto]|].
    pose proof (key_verdict (A := Z * Z) p inl [] C (fun _ _ => v_nil _)) as V. rewrite app_nil_r in V. apply verdict_all in V. destruct V as [_ V]. destruct (V G) as [key K].
    pose proof (derive_agrees (t_params p)) as Ag. destruct (derive (t_params p)) as [key'|]; [|discriminate]. exists key'. split; [|auto].
    right. split; [exact C|]. apply p256_iff. now rewrite <- Ag.
  - intros (key & K & F & H). apply Forall_app. split; [exact F|]. destruct K as [C|[C K]].
    + assert (W : forall c, without_key p c) by (intros c H'; congruence). repeat constructor; apply W.
    + destruct K as (A & x & y & bx & b_y & nx & ny & X & Y & Dx & Dy & Lx & Ly & _). unfold key_checks, without_key, has_param, decodes. repeat constructor; cbn [fst]; intros _; eauto 8.
Qed.
Lemma registered_errors E t s e : (t_type t = "u2f" /\ has_param t "u2f_id" /\ param t "key_type" "ec2" /\ param t "key_algo" "es256" /\ has_param t "curve_xcoord" /\ has_param t "curve_ycoord") ->
  first_failure (assertion_checks E t s) e ->
  e <> failed "unsupported token type" /\ e <> failed "u2f_id not found" /\ e <> failed "key_type not found" /\ e <> failed "unsupported key type" /\
  e <> failed "curve_xcoord not found" /\ e <> failed "curve_ycoord not found" /\ e <> failed "key_algo not found" /\
  (forall a, e <> EWith ErrWebAuthnRegisterPublicKeyAlgorithmUnsupported a) /\ e <> failed "failed signature verification due to unsupported algo".
Proof.
  intros (T & U & K & A & X & Y) (l1 & c & l2 & H & _ & N).
  assert (I : In (c, e) (assertion_checks E t s)) by (rewrite H; apply in_elt). clear H.
  assert (has_param t "key_type") by (eexists; exact K). assert (has_param t "key_algo") by (eexists; exact A).
  unfold assertion_checks, token_checks, key_checks, message_checks in I. cbn [app In] in I.
  repeat (destruct I as [I|I]; [injection I as <- <-; first [exfalso; apply N; first [assumption | intros _; assumption] | repeat split; try intros ?; discriminate]|]). contradiction.
Qed.
