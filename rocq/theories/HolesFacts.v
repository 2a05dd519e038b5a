From Coq Require Import String Ascii ZArith NArith Lia Bool Arith List.
From stdpp Require Import gmap strings.
From RecordUpdate Require Import RecordSet.
From Verif Require Import GoStr Codec Json GoTime GoErr Role Name Email Random Types Env Password ApiKey PublicKey Mfa User Persist Fs Database Holes SpecHoles.
Import ListNotations.
Import RecordSetNotations.
Open Scope string_scope.

(** ** Loops *)
Lemma scan_panic {A} (f : A -> bool) (P : A -> Prop) l : (forall x, f x = true <-> P x) -> scan f l = RPanic <-> nil_before P l.
Proof.
  intros HP. induction l as [|[x|] l IH]; simpl.
  - split; [discriminate|]. intros (pre & post & H & _). destruct pre; discriminate H.
  - destruct (f x) eqn:Hx.
    + split; [discriminate|]. intros (pre & post & H & HF). destruct pre as [|y pre]; [discriminate H|].
      injection H as -> H. inversion HF as [|? ? Hy HF']; subst. exfalso. apply Hy, HP, Hx.
    + rewrite IH. split; intros (pre & post & H & HF).
      * exists (x :: pre), post. split; [simpl; now rewrite H|]. constructor; [|exact HF]. intros Hp. apply HP in Hp. congruence.
      * destruct pre as [|y pre]; [discriminate H|]. injection H as -> H. inversion HF; subst. exists pre, post. split; [reflexivity|assumption].
  - split; [|reflexivity]. intros _. exists [], l. split; [reflexivity|constructor].
Qed.
Lemma scan_no_err {A} (f : A -> bool) l e : scan f l <> RErr e.
Proof. induction l as [|[x|] l IH]; simpl; try discriminate. destruct (f x); [discriminate|exact IH]. Qed.
Lemma scan_some {A} (f : A -> bool) l : scan f (map Some l) = ROk (find f l).
Proof. induction l as [|x l IH]; simpl; [reflexivity|]. now destruct (f x). Qed.
Lemma walk_panic {A B} (f : B -> A -> B) l b : walk f l b = RPanic <-> In None l.
Proof.
  revert b; induction l as [|[x|] l IH]; simpl; intros b.
  - split; [discriminate|tauto].
  - rewrite IH. split; [now right|]. intros [H|H]; [discriminate H|exact H].
  - split; [now left|reflexivity].
Qed.
Lemma walk_no_err {A B} (f : B -> A -> B) l b e : walk f l b <> RErr e.
Proof. revert b; induction l as [|[x|] l IH]; simpl; intros b; try discriminate. apply IH. Qed.
Lemma walk_some {A B} (f : B -> A -> B) l b : walk f (map Some l) b = ROk (fold_left f l b).
Proof. revert b; induction l as [|x l IH]; simpl; intros b; [reflexivity|]. apply IH. Qed.
Lemma goes_panic {A} (x : Res A) k : (forall a, k a <> HPanic) -> goes x k = HPanic <-> x = RPanic.
Proof. intros Hk. destruct x; simpl; split; try discriminate; try reflexivity. intros H. destruct (Hk _ H). Qed.
Lemma named_panic E h r wrap k :
  match validate_identity E (hd_db h) r with inr e => HErr (wrap e) | inl (i, _) => k (lists_at h i) end = HPanic <->
  exists i, names_account E h r i /\ k (lists_at h i) = HPanic.
Proof.
  unfold names_account. destruct (validate_identity E (hd_db h) r) as [[i u]|e]; split.
  - intros H. exists i. split; [now exists u|exact H].
  - intros (j & (v & Hv) & Hk). injection Hv as <- <-. exact Hk.
  - discriminate.
  - intros (j & (v & Hv) & _). discriminate Hv.
Qed.
Lemma without_panic {A} (id : A -> string) s l : h_without id s l = RPanic <-> In None l.
Proof. apply walk_panic. Qed.
Lemma without_no_err {A} (id : A -> string) s l e : h_without id s l <> RErr e.
Proof. apply walk_no_err. Qed.

Lemma hcall_panic E nd op h r : hcall E nd op h r = HPanic <-> struck E nd op h r.
Proof.
  destruct op; simpl; try (split; [discriminate|tauto]).
  - (* authenticate *)
    unfold login_account. destruct (get_user E (hd_db h) (ru_username (rq_user r))) as [[i u]|] eqn:Hg.
    2:{ split; [discriminate|]. intros (i & q & (u & Hv) & _). discriminate Hv. }
    destruct (String.eqb_spec (ru_password (rq_user r)) "") as [Hp|Hp]; simpl.
    2:{ split; [discriminate|]. intros (j & q & _ & H & _). contradiction. }
    destruct (String.eqb_spec (rw_request (rq_webauthn r)) "") as [Hw|Hw]; simpl.
    1:{ split; [discriminate|]. intros (j & q & _ & _ & H & _). contradiction. }
    unfold h_verify_webauthn. destruct (unpack_request E (rw_request (rq_webauthn r))) as [q|e] eqn:Hu.
    2:{ split; [discriminate|]. intros (j & q & _ & _ & _ & Hv & _). discriminate Hv. }
    assert (HS : scan (answers (wq_id q)) (ls_mfa (lists_at h i)) = RPanic <->
                 nil_before (fun t => t_disabled t = false /\ t_type t = "u2f" /\ t_params t !! "u2f_id" = Some (wq_id q)) (ls_mfa (lists_at h i))).
    { apply scan_panic. intros t. unfold answers. rewrite !andb_true_iff, negb_true_iff, String.eqb_eq.
      destruct (t_params t !! "u2f_id") as [x|]; [rewrite String.eqb_eq|]; split.
      - intros [[H1 H2] ->]. auto.
      - intros (H1 & H2 & Hv). injection Hv as ->. auto.
      - intros [_ Hv]. discriminate Hv.
      - intros (_ & _ & Hv). discriminate Hv. }
    split.
    + intros H. exists i, q. split; [now exists u|]. split; [exact Hp|]. split; [exact Hw|]. split; [reflexivity|]. apply HS.
      destruct (scan (answers (wq_id q)) (ls_mfa (lists_at h i))) as [[t|]|e|]; try discriminate H; try reflexivity.
      destruct ((webauthn_request E t (rw_request (rq_webauthn r))).2) as [c|]; [destruct (String.eqb c _)|]; discriminate H.
    + intros (j & q' & (v & Hv) & _ & _ & Hq & H). injection Hv as <- <-. injection Hq as <-. apply HS in H. now rewrite H.
  - (* add public key *)
    rewrite (named_panic E h r _ (fun l => goes (h_add_public_key E nd (ls_pubkeys l) r) (fun x => HGoes r (l <| ls_pubkeys := x |>)))).
    assert (HP : forall k x, (String.eqb (pk_type x) (pk_type k) && String.eqb (pk_fp x) (pk_fp k)) = true <-> pk_type x = pk_type k /\ pk_fp x = pk_fp k).
    { intros k x. now rewrite andb_true_iff, !String.eqb_eq. }
    unfold h_add_public_key. destruct (new_public_key E nd r) as [k|e] eqn:Hk; split.
    + intros (i & Hi & H). apply goes_panic in H; [|discriminate]. exists i, k. split; [exact Hi|]. split; [reflexivity|].
      apply (scan_panic _ _ _ (HP k)). destruct (scan _ _) as [[x|]|e|]; try discriminate H; reflexivity.
    + intros (i & k' & Hi & Hv & H). injection Hv as <-. exists i. split; [exact Hi|]. apply goes_panic; [discriminate|].
      apply (scan_panic _ _ _ (HP k)) in H. now rewrite H.
    + intros (i & _ & H). discriminate H.
    + intros (i & k & _ & Hv & _). discriminate Hv.
  - (* get public keys *)
    rewrite (named_panic E h r _ (fun l => goes (walk (fun b k => if negb (String.eqb (pk_usage k) (rk_usage (rq_key r))) then b else if pk_disabled k then b else b_add b k) (ls_pubkeys l) b_new)
                     (fun b => HGoes (r <| rq_payload := PPublicKeys b |>) l))).
    split; intros (i & Hi & H); exists i; (split; [exact Hi|]).
    + apply goes_panic in H; [|discriminate]. now apply walk_panic in H.
    + apply goes_panic; [discriminate|]. now apply walk_panic.
  - (* delete public key *)
    rewrite (named_panic E h r _ (fun l => goes (h_delete_public_key (ls_pubkeys l) r) (fun x => HGoes r (l <| ls_pubkeys := x |>)))).
    unfold h_delete_public_key.
    split; intros (i & Hi & H); exists i; (split; [exact Hi|]).
    + apply goes_panic in H; [|discriminate]. apply (without_panic pk_id (rk_id (rq_key r))).
      destruct (h_without _ _ _) as [[[] x]|e|]; try discriminate H; reflexivity.
    + apply goes_panic; [discriminate|]. apply (without_panic pk_id (rk_id (rq_key r))) in H. now rewrite H.
  - (* identify *)
    unfold login_account. destruct (get_user E (hd_db h) (ru_username (rq_user r))) as [[i u]|] eqn:Hg.
    2:{ split; [discriminate|]. intros (i & (u & Hv) & _). discriminate Hv. }
    assert (HR : forall q, goes (h_roles_claim (ls_roles (lists_at h i))) (fun roles =>
          HGoes (q <| rq_user; ru_username := u_username u |> <| rq_user; ru_email := mail_claim u |>
                   <| rq_user; ru_full_name := name_claim u |> <| rq_user; ru_roles := roles |>
                   <| rq_user; ru_challenges := h_challenges (ls_mfa (lists_at h i)) |> <| rq_code := 200%Z |>) (lists_at h i)) = HPanic <-> In None (ls_roles (lists_at h i))).
    { intros q. rewrite goes_panic by discriminate. apply walk_panic. }
    split.
    + intros H. exists i. split; [now exists u|]. destruct (rf_enabled (rq_flags r)).
      * destruct (h_get_flags (ls_mfa (lists_at h i)) r) as [q|e|] eqn:Hf; simpl in H; [left|discriminate H|right].
        -- now apply HR in H.
        -- split; [reflexivity|]. now apply walk_panic in Hf.
      * left. simpl in H. now apply HR in H.
    + intros (j & (v & Hv) & H). injection Hv as <- <-. destruct (rf_enabled (rq_flags r)).
      * destruct (h_get_flags (ls_mfa (lists_at h i)) r) as [q|e|] eqn:Hf; simpl.
        -- apply HR. destruct H as [H|[_ H]]; [exact H|]. unfold h_get_flags in Hf. rewrite (proj2 (walk_panic _ _ _) H) in Hf. discriminate Hf.
        -- now apply walk_no_err in Hf.
        -- reflexivity.
      * simpl. apply HR. destruct H as [H|[Hv _]]; [exact H|discriminate Hv].
  - (* add token *)
    rewrite (named_panic E h r _ (fun l => let (r, x) := h_add_mfa_token E nd (ls_mfa l) r in goes x (fun x => HGoes r (l <| ls_mfa := x |>)))).
    unfold h_add_mfa_token. destruct (new_mfa_token E nd r) as [q x] eqn:Hn; simpl.
    assert (HP : forall t, (forall k, (String.eqb (t_secret k) (t_secret t) || String.eqb (t_comment k) (t_comment t)) = true <-> t_secret k = t_secret t \/ t_comment k = t_comment t)).
    { intros t k. now rewrite orb_true_iff, !String.eqb_eq. }
    split; intros (i & Hi & H); exists i; (split; [exact Hi|]).
    + destruct x as [t|e|]; [right|discriminate H|now left]. exists t. split; [reflexivity|].
      apply goes_panic in H; [|discriminate]. apply (scan_panic _ _ _ (HP t)).
      destruct (scan _ _) as [[k|]|e|]; try discriminate H; reflexivity.
    + destruct H as [->|(t & -> & H)]; [reflexivity|]. apply goes_panic; [discriminate|].
      apply (scan_panic _ _ _ (HP t)) in H. now rewrite H.
  - (* get tokens *)
    rewrite (named_panic E h r _ (fun l => goes (walk (fun b t => if t_disabled t then b else b_add b t) (ls_mfa l) b_new) (fun b => HGoes (r <| rq_payload := PMfaTokens b |>) l))).
    split; intros (i & Hi & H); exists i; (split; [exact Hi|]).
    + apply goes_panic in H; [|discriminate]. now apply walk_panic in H.
    + apply goes_panic; [discriminate|]. now apply walk_panic.
  - (* delete token *)
    rewrite (named_panic E h r _ (fun l => goes (h_delete_mfa_token (ls_mfa l) r) (fun x => HGoes r (l <| ls_mfa := x |>)))).
    unfold h_delete_mfa_token.
    split; intros (i & Hi & H); exists i; (split; [exact Hi|]).
    + apply goes_panic in H; [|discriminate]. apply (without_panic t_id (rm_id (rq_mfa r))).
      destruct (h_without _ _ _) as [[[] x]|e|]; try discriminate H; reflexivity.
    + apply goes_panic; [discriminate|]. apply (without_panic t_id (rm_id (rq_mfa r))) in H. now rewrite H.
Qed.
