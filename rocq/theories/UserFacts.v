(** Facts about single accounts. *)
From Coq Require Import String Ascii ZArith NArith Lia Bool Arith List.
From stdpp Require Import gmap strings.
From RecordUpdate Require Import RecordSet.
From Verif Require Import GoStr GoErr Role Name Email Random SpecValue RoleFacts EmailFacts RandomFacts.
From Verif Require Import Types Env Password ApiKey PublicKey Mfa User.
Import ListNotations.
Import RecordSetNotations.
Open Scope string_scope.

#[local] Opaque int64 new_id trim_space new_email new_role.
(** ** Roles *)
Definition dedup_roles (acc rs : list Role) : list Role :=
  fold_left (fun acc r => if existsb (role_eqb r) acc then acc else (acc ++ [r])%list) rs acc.
Lemma add_roles_ok nd u l rs :
  Forall2 (fun s r => new_role s = inl r) l rs -> u_modified u = nd_clock nd ->
  exists rev, add_roles nd u l = inl (u <| u_roles := dedup_roles (u_roles u) rs |> <| u_revision := rev |>).
Proof.
  intros H. revert u. induction H as [|s r l rs Hr H IH]; intros u Hm; cbn.
  - exists (u_revision u). destruct u; reflexivity.
  - unfold add_role. rewrite Hr. unfold add_role_list. destruct existsb.
    + apply IH, Hm.
    + destruct (IH (revise nd (u <| u_roles := (u_roles u ++ [r])%list |>))) as [rev ->]; [reflexivity|].
      exists rev. destruct u; cbn in *; subst. reflexivity.
Qed.
Lemma add_roles_inv nd u l u' : add_roles nd u l = inl u' -> exists rs, Forall2 (fun s r => new_role s = inl r) l rs.
Proof.
  revert u. induction l as [|s l IH]; intros u; cbn; [eauto|].
  unfold add_role. destruct (new_role s) as [r|e] eqn:R; [|discriminate].
  destruct add_role_list; intros H; apply IH in H as [rs H]; eauto.
Qed.

(** ** New accounts *)
Definition fresh_user (nd : Nd) (username : string) (p : Password) (e : EmailAddress) (rs : list Role) (n : option Name) : User := {|
  u_id := new_id (nd_uuid nd 0); u_enabled := false; u_human := false; u_username := username; u_title := ""; u_name := n; u_org := None;
  u_names := match n with Some n => [n] | None => [] end; u_orgs := []; u_addrs := []; u_email := Some e; u_emails := [e];
  u_passwords := [p]; u_pubkeys := []; u_apikeys := []; u_mfa := []; u_lockout := None; u_avatar := None;
  u_created := nd_clock nd; u_modified := nd_clock nd; u_revision := 0; u_roles := rs |}.
Definition name_given (f : string) (n : option Name) : Prop :=
  (trim_space f = "" /\ n = None) \/ (trim_space f <> "" /\ exists x, parse_name (trim_space f) = inl x /\ n = Some x).

Lemma add_password_new E nd n pw : add_password E nd (new_user nd n) pw 0 =
  match new_password E nd pw with
  | inr e => inr e
  | inl p => inl (new_user nd n <| u_passwords := [p] |> <| u_revision := int64 (0 + 1) |>)
  end.
Proof. unfold add_password. destruct new_password; reflexivity. Qed.
Lemma add_email_first nd u s : u_emails u = [] ->
  add_email nd u s = match new_email s with
                     | inr e => inr e
                     | inl e => inl (revise nd (u <| u_email := Some e |> <| u_emails := [e] |>))
                     end.
Proof. intros H. unfold add_email. destruct new_email; [|reflexivity]. rewrite H. reflexivity. Qed.
Lemma fresh_roles nd n p e rs rev rev' :
  revise nd (new_user nd n <| u_passwords := [p] |> <| u_revision := rev |> <| u_email := Some e |> <| u_emails := [e] |>)
    <| u_roles := rs |> <| u_revision := rev' |> = fresh_user nd n p e rs None <| u_revision := rev' |>.
Proof. reflexivity. Qed.
Lemma fresh_name nd n p e rs rev x : add_name nd (fresh_user nd n p e rs None <| u_revision := rev |>) x = fresh_user nd n p e rs (Some x) <| u_revision := rev |>.
Proof. reflexivity. Qed.
Lemma fresh_valid nd n p e rs nm rev :
  user_valid (fresh_user nd n p e rs nm <| u_revision := rev |>) = if String.eqb n "" then Some (EStd ErrUsernameEmpty) else None.
Proof.
  unfold user_valid. change (u_id (fresh_user nd n p e rs nm <| u_revision := rev |>)) with (new_id (nd_uuid nd 0)).
  unfold zlen. rewrite new_id_length. cbn. reflexivity.
Qed.
Lemma fresh_rev nd n p e rs nm rev : fresh_user nd n p e rs nm <| u_revision := rev |> <| u_revision := 0%Z |> = fresh_user nd n p e rs nm.
Proof. reflexivity. Qed.

Lemma new_user_iff E nd username pw email f roles u :
  new_user_with_roles E nd username pw email f roles = inl u <->
  exists p e rs n, new_password E nd pw = inl p /\ new_email email = inl e /\
    Forall2 (fun s r => new_role s = inl r) roles rs /\ name_given f n /\ username <> "" /\
    u = fresh_user nd username p e (dedup_roles [] rs) n.
Proof.
  unfold new_user_with_roles. rewrite add_password_new. split.
  - destruct new_password as [p|] eqn:P; [|discriminate].
    rewrite add_email_first by reflexivity. destruct (new_email email) as [e|] eqn:EM; [|discriminate].
    destruct add_roles as [u2|] eqn:R; [|discriminate].
    pose proof R as R'. apply add_roles_inv in R' as [rs Hrs].
    edestruct (add_roles_ok nd) as [rev R2]; [exact Hrs| |rewrite R2 in R]; [reflexivity|].
    injection R as <-. rewrite fresh_roles. cbv zeta.
    change (dedup_roles _ rs) with (dedup_roles [] rs).
    destruct (String.eqb (trim_space f) "") eqn:F.
    + apply String.eqb_eq in F. rewrite fresh_valid.
      destruct (String.eqb username "") eqn:U; [discriminate|]. apply String.eqb_neq in U. rewrite fresh_rev.
      intros [=<-]. exists p, e, rs, None. repeat split; auto. now left.
    + apply String.eqb_neq in F. destruct (parse_name (trim_space f)) as [n|] eqn:N; [|discriminate].
      rewrite fresh_name, fresh_valid.
      destruct (String.eqb username "") eqn:U; [discriminate|]. apply String.eqb_neq in U. rewrite fresh_rev.
      intros [=<-]. exists p, e, rs, (Some n). repeat split; auto. right; eauto.
  - intros (p & e & rs & n & P & EM & Hrs & Hn & U & ->).
    rewrite P. rewrite add_email_first by reflexivity. rewrite EM.
    edestruct (add_roles_ok nd) as [rev ->]; [exact Hrs|reflexivity|]. rewrite fresh_roles. cbv zeta.
    change (dedup_roles _ rs) with (dedup_roles [] rs).
    apply String.eqb_neq in U.
    destruct Hn as [[F ->]|(F & x & N & ->)].
    + rewrite F. change ("" =? "")%string with true. cbv iota. rewrite fresh_valid, U, fresh_rev. reflexivity.
    + apply String.eqb_neq in F. rewrite F, N, fresh_name, fresh_valid, U, fresh_rev. reflexivity.
Qed.

Lemma new_password_iff E nd s p :
  new_password E nd s = inl p <->
  exists h, trim_space s <> "" /\ e_bcrypt E (nd_salt nd) (trim_space s) 10 = Some h /\
    p = {| pw_purpose := "generic"; pw_algorithm := "bcrypt"; pw_hash := h; pw_cost := 10; pw_expired := false; pw_expired_at := 0;
           pw_created := nd_clock nd; pw_disabled := false; pw_disabled_at := 0 |}.
Proof.
  unfold new_password, new_password_opt, pw_hash_of. cbv zeta.
  destruct (String.eqb (trim_space s) "") eqn:T.
  - apply String.eqb_eq in T. split; [discriminate|]. intros (h & N & _). congruence.
  - apply String.eqb_neq in T. cbn. destruct e_bcrypt as [h|] eqn:B.
    + split; [intros [=<-]; eauto|]. intros (h' & _ & [=<-] & ->). reflexivity.
    + split; [discriminate|]. intros (h & _ & [=] & _).
Qed.

Lemma verify_password_iff E u s :
  verify_password E u s = None <->
  exists p, In p (u_passwords u) /\ pw_disabled p = false /\ pw_expired p = false /\ e_bcmp E (pw_hash p) s = true.
Proof.
  unfold verify_password. destruct (u_passwords u) as [|p l] eqn:L.
  - split; [discriminate|]. intros (p & [] & _).
  - destruct existsb eqn:X.
    + split; [intros _|reflexivity]. apply existsb_exists in X as (q & Hq & H).
      apply andb_true_iff in H as [H1 H2]. apply negb_true_iff, orb_false_iff in H1 as [H1 H3]. eauto 10.
    + split; [discriminate|]. intros (q & Hq & D & X' & M).
      assert (existsb (fun p => negb (pw_disabled p || pw_expired p) && pw_match E p s) (p :: l) = true) as T; [|congruence].
      apply existsb_exists. exists q. split; [exact Hq|]. unfold pw_match. now rewrite D, X', M.
Qed.
