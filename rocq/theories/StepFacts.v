(** What one call, and any number of calls, can do to one account. *)
From Coq Require Import String Ascii ZArith NArith Lia Bool Arith List.
From stdpp Require Import gmap strings.
From RecordUpdate Require Import RecordSet.
From Verif Require Import GoStr Utf8 GoErr Role Name Email Random SpecValue RoleFacts EmailFacts RandomFacts.
From Verif Require Import Types Env Password ApiKey PublicKey Mfa User Json Persist Fs Database System UserFacts DbFacts Inv LoadFacts.
From Verif Require Import SpecDb AccountFacts.
Import ListNotations.
Import RecordSetNotations.
Open Scope string_scope.
#[local] Opaque int64 new_id trim_space new_email new_role.

(** Induction over the calls made on an open database. *)
Lemma later_ind_db E (R : Database -> Database -> Prop) : (forall d, R d d) ->
  (forall nd op d0 d fs r, R d0 d -> R d0 (o_db (exec E nd op d fs r))) ->
  forall fs db fs' db', later E fs db fs' db' -> R db db'.
Proof.
  intros Rr Rs fs db fs' db' S.
  assert (G : forall w w', steps E only_calls w w' -> forall fs db, w = {| w_fs := fs; w_mem := Up db |} ->
    match w_mem w' with Down => True | Up d | Stuck d => R db d end).
  { clear - Rr Rs. intros w w' S. induction S as [w|w1 ev w2 w3 S IH Hev St]; intros fs0 db0 ->; [apply Rr|].
    specialize (IH _ _ eq_refl). destruct St as [nd fp fs m fs' res O N|nd op r fs db|fs m|fs m fs']; cbn in Hev; try contradiction. cbn in *.
    unfold after_call. pose proof (Rs nd op _ _ fs r IH). destruct o_res; auto. }
  exact (G _ _ S _ _ eq_refl).
Qed.
Lemma later_reachable E fs db fs' db' : reachable E fs db -> later E fs db fs' db' -> reachable E fs' db'.
Proof.
  intros [fs0 S0] S. exists fs0. unfold later in S.
  assert (G : forall w w', steps E only_calls w w' -> forall w0, steps E any_event w0 w -> steps E any_event w0 w').
  { clear. intros w w' S. induction S as [w|w1 ev w2 w3 S IH Hev St]; intros w0 S0; [exact S0|]. eapply StCons; [now apply IH|exact I|exact St]. }
  eapply G; eauto.
Qed.

(** What a call does to the account it finds at position [i]. *)
Inductive ustep (E : Env) (nd : Nd) (db : Database) (r : Request) (i : nat) (u : User) : Op -> User -> Prop :=
| UsSame op : ustep E nd db r i u op u
| UsCache u' res : get_user E db (ru_username (rq_user r)) = Some (i, u) -> verify_webauthn E u r = (u', res) -> ustep E nd db r i u OpAuthenticate u'
| UsUpd op u' : validate_identity E db r = inl (i, u) -> upd E nd (db_policy db) r u op u' -> ustep E nd db r i u op u'
| UsAddKey s hk u' : validate_identity E db r = inl (i, u) -> random_range 72 96 (nd_len nd) (nd_secret nd) = Some s ->
    new_password E nd s = inl hk -> ref_apikey db !! take 24 s = None -> add_api_key nd u (issued r s (pw_hash hk)) = inl u' -> ustep E nd db r i u OpAddAPIKey u'
| UsDelKey u' r' : validate_identity E db r = inl (i, u) -> delete_api_key nd u r = (inl u', r') -> ustep E nd db r i u OpDeleteAPIKey u'.

Lemma set_user_cases db i u u' j v : db_users db !! i = Some u -> account (set_user db i u') j v ->
  (j = i /\ v = u') \/ (j <> i /\ account db j v).
Proof.
  intros Hi. unfold account. rewrite set_user_users. destruct (decide (j = i)) as [->|N].
  - rewrite list_lookup_insert by (eapply lookup_lt_Some; eauto). intros [=<-]. auto.
  - rewrite list_lookup_insert_ne by congruence. auto.
Qed.
(** Every account after a call is a step of one before, or the one just added. *)
Lemma exec_ustep E nd op db fs r i v : account (o_db (exec E nd op db fs r)) i v ->
  (exists u, account db i u /\ ustep E nd db r i u op v) \/
  (op = OpAddUser /\ i = List.length (db_users db) /\ new_account E nd r v).
Proof.
  destruct (exec_shape E nd op db fs r) as [_ R _ _|db1 res Eff C _].
  - destruct R as [|j u u' res G _ V]; intros Hv; [left; exists v; split; [assumption|constructor]|].
    pose proof (get_user_at _ _ _ _ _ G) as Hj.
    destruct (set_user_cases _ _ _ _ _ _ Hj Hv) as [[-> ->]|[N Hv']]; left.
    + exists u. split; [assumption|]. eapply UsCache; eauto.
    + exists v. split; [assumption|constructor].
  - apply commit_to_inv in C as [-> _]. change (account (db1 <| db_content ::= bump nd |>) i v) with (account db1 i v). intros Hv.
    assert (D : op = OpAddUser \/ op <> OpAddUser) by (destruct op; (left; reflexivity) || (right; discriminate)).
    destruct D as [->|D].
    { apply effect_add_user in Eff as (w & NA & Hw & _). unfold account in Hv. rewrite Hw in Hv. apply lookup_app_Some in Hv as [Hv|[L Hv]].
      - left. exists v. split; [assumption|constructor].
      - right. destruct (i - List.length (db_users db))%nat eqn:X; [|discriminate]. injection Hv as ->. split; [reflexivity|]. split; [lia|assumption]. }
    inversion Eff as [| |u0 addrs u P N Hu Hn Ha|op' j u u' V U|j u s hk u' V Hs Hk Hf Ha|j u u' r' V Hd]; subst; try congruence.
    + left. exists v. split; [assumption|constructor].
    + left. exists v. split; [assumption|constructor].
    + destruct (set_user_cases _ _ _ _ _ _ (validate_at _ _ _ _ _ V) Hv) as [[-> ->]|[NN Hv']]; left.
      * exists u. split; [eapply validate_at; eauto|now apply UsUpd].
      * exists v. split; [assumption|constructor].
    + change (account (set_user db j u') i v) in Hv.
      destruct (set_user_cases _ _ _ _ _ _ (validate_at _ _ _ _ _ V) Hv) as [[-> ->]|[NN Hv']]; left.
      * exists u. split; [eapply validate_at; eauto|eapply UsAddKey; eauto].
      * exists v. split; [assumption|constructor].
    + change (account (set_user db j u') i v) in Hv.
      destruct (set_user_cases _ _ _ _ _ _ (validate_at _ _ _ _ _ V) Hv) as [[-> ->]|[NN Hv']]; left.
      * exists u. split; [eapply validate_at; eauto|eapply UsDelKey; eauto].
      * exists v. split; [assumption|constructor].
Qed.
Lemma exec_account E nd op db fs r i u : account db i u -> exists v, account (o_db (exec E nd op db fs r)) i v /\ ustep E nd db r i u op v.
Proof.
  intros Hu. destruct (extends_exec E nd op db fs r) as [_ X]. destruct (X _ _ Hu) as (v & Hv & _). exists v. split; [exact Hv|].
  destruct (exec_ustep _ _ _ _ _ _ _ _ Hv) as [(w & Hw & S)|(_ & -> & _)].
  - unfold account in *. assert (u = w) as -> by congruence. exact S.
  - unfold account in Hu. apply lookup_lt_Some in Hu. lia.
Qed.
(** The policy never changes. *)
Lemma exec_policy E nd op db fs r : db_policy (o_db (exec E nd op db fs r)) = db_policy db.
Proof.
  destruct (exec_shape E nd op db fs r) as [_ R _ _|db1 res Eff C _]; [now destruct R|].
  apply commit_to_inv in C as [-> _]. change (db_policy db1 = db_policy db). now destruct Eff.
Qed.
Lemma later_policy E fs db fs' db' : later E fs db fs' db' -> db_policy db' = db_policy db.
Proof. apply (later_ind_db E (fun d d' => db_policy d' = db_policy d)); [reflexivity|]. intros. now rewrite exec_policy. Qed.
(** A property of an account that every step keeps holds in all later states. *)
Lemma later_account E (P : Policy -> User -> Prop) :
  (forall nd db r i u op v, P (db_policy db) u -> ustep E nd db r i u op v -> P (db_policy db) v) ->
  forall fs db fs' db' i u u', later E fs db fs' db' -> account db i u -> P (db_policy db) u -> account db' i u' -> P (db_policy db') u'.
Proof.
  intros St fs db fs' db' i u u' L Hu HP Hu'.
  assert (G : exists v, account db' i v /\ P (db_policy db') v).
  { assert (H0 : exists v, account db i v /\ P (db_policy db) v) by eauto. revert H0.
    refine (later_ind_db E (fun d d' => (exists v, account d i v /\ P (db_policy d) v) -> exists v, account d' i v /\ P (db_policy d') v) _ _ _ _ _ _ L); [auto|].
    intros nd op d0 d fs0 r IH H. destruct (IH H) as (v & Hv & HPv). destruct (exec_account E nd op d fs0 r i v Hv) as (w & Hw & S).
    exists w. split; [assumption|]. rewrite exec_policy. eauto. }
  destruct G as (v & Hv & HPv). unfold account in *. assert (u' = v) as -> by congruence. assumption.
Qed.

(** ** One call and the credentials of one account *)
Ltac ustep_inv := repeat match goal with
    | H : upd _ _ _ _ _ _ _ |- _ => inversion H; clear H; subst
    | H : verify_webauthn ?E ?u ?r = (?v, _) |- _ => pose proof (verify_webauthn_uncache E u r); rewrite H in *; cbn [fst] in *; clear H
    | H : same_uncached _ _ |- _ => apply same_uncached_frame in H as (? & ? & ? & ? & ?)
    | H : add_public_key _ _ _ _ = inl _ |- _ => apply add_public_key_inv in H as (? & ? & ? & ->)
    | H : delete_public_key _ _ _ = inl _ |- _ => apply delete_public_key_inv in H as (? & ->)
    | H : change_password _ _ _ _ _ = inl _ |- _ => apply change_password_inv in H as (? & H)
    | H : add_password _ _ _ _ _ = inl _ |- _ => apply add_password_inv in H as (? & ? & ->)
    | H : add_mfa_token _ _ _ _ = (_, ROk _) |- _ => apply add_mfa_token_inv in H as (? & ? & ? & ->)
    | H : delete_mfa_token _ _ _ = inl _ |- _ => apply delete_mfa_token_inv in H as (? & ->)
    | H : add_api_key _ _ _ = inl _ |- _ => apply add_api_key_inv in H as (? & ? & ->)
    | H : delete_api_key _ _ _ = (inl _, _) |- _ => apply delete_api_key_inv in H as (? & -> & ?)
    end.
Lemma ustep_passwords E nd db r i u op v : ustep E nd db r i u op v ->
  u_passwords v = u_passwords u \/
  (op = OpChangePassword /\ exists p, new_password E nd (ru_password (rq_user r)) = inl p /\
     u_passwords v = p :: keep_passwords nd (if (pp_keep (po_password (db_policy db)) <? 1)%Z then 9%Z else pp_keep (po_password (db_policy db))) 0 (u_passwords u)).
Proof.
  intros []; ustep_inv; try (left; congruence || reflexivity). right. split; [reflexivity|]. eexists. split; [eassumption|reflexivity].
Qed.
Lemma ustep_pubkeys E nd db r i u op v : ustep E nd db r i u op v ->
  u_pubkeys v = u_pubkeys u \/
  (op = OpAddPublicKey /\ exists k, new_public_key E nd r = inl k /\
     existsb (fun x => String.eqb (pk_type x) (pk_type k) && String.eqb (pk_fp x) (pk_fp k)) (u_pubkeys u) = false /\
     u_pubkeys v = (u_pubkeys u ++ [k])%list) \/
  (op = OpDeletePublicKey /\ u_pubkeys v = List.filter (fun k => negb (String.eqb (pk_id k) (rk_id (rq_key r)))) (u_pubkeys u)).
Proof.
  intros []; ustep_inv; try (left; congruence || reflexivity).
  - right. left. split; [reflexivity|]. eexists. split; [eassumption|]. split; [eassumption|reflexivity].
  - right. right. split; reflexivity.
Qed.
Lemma ustep_apikeys E nd db r i u op v : ustep E nd db r i u op v ->
  u_apikeys v = u_apikeys u \/
  (op = OpAddAPIKey /\ exists s hk k, random_range 72 96 (nd_len nd) (nd_secret nd) = Some s /\ new_password E nd s = inl hk /\
     ref_apikey db !! take 24 s = None /\ new_api_key nd (issued r s (pw_hash hk)) = inl k /\ u_apikeys v = (u_apikeys u ++ [k])%list) \/
  (op = OpDeleteAPIKey /\ u_apikeys v = List.filter (fun k => negb (String.eqb (ak_id k) (rk_id (rq_key r)))) (u_apikeys u)).
Proof.
  intros []; ustep_inv; try (left; congruence || reflexivity).
  - right. left. split; [reflexivity|]. do 3 eexists. split; [eassumption|]. split; [eassumption|]. split; [assumption|]. split; [eassumption|reflexivity].
  - right. right. split; reflexivity.
Qed.
Lemma ustep_mfa E nd db r i u op v : ustep E nd db r i u op v ->
  map uncache (u_mfa v) = map uncache (u_mfa u) \/
  (op = OpAddMfaToken /\ exists r' t, new_mfa_token E nd r = (r', ROk t) /\ dup_token t (u_mfa u) = None /\ u_mfa v = (u_mfa u ++ [t])%list) \/
  (op = OpDeleteMfaToken /\ u_mfa v = List.filter (fun k => negb (String.eqb (t_id k) (rm_id (rq_mfa r)))) (u_mfa u)).
Proof.
  intros S. destruct S as [op|u' res G V| | |]; [left; reflexivity| | | |].
  - left. pose proof (verify_webauthn_uncache E u r) as (l & Hl & H). rewrite V in Hl. cbn in Hl. rewrite Hl. cbn [u_mfa set].
    change (map uncache l = map uncache (u_mfa u)). clear - H. induction H as [|t t' ? ? [Ht _] H IH]; cbn [map]; congruence.
  - ustep_inv; try (left; congruence || reflexivity).
    + right. left. split; [reflexivity|]. do 2 eexists. split; [eassumption|]. split; [eassumption|reflexivity].
    + right. right. split; reflexivity.
  - ustep_inv. left. reflexivity.
  - ustep_inv. left. reflexivity.
Qed.

(** For concrete states. *)
Lemma resolves_at E fs db s i : reachable E fs db -> option_map fst (get_user E db s) = Some i -> exists u, resolves_login E db s i u.
Proof.
  intros HR H. destruct (get_user E db s) as [[j u]|] eqn:G; [|discriminate]. injection H as ->. exists u. now apply (get_user_resolves _ fs).
Qed.
Lemma identity_at E fs db r i : reachable E fs db -> match validate_identity E db r with inl (j, _) => Some j | inr _ => None end = Some i ->
  exists u, identity_of E db r i u.
Proof.
  intros HR H. destruct (validate_identity E db r) as [[j u]|] eqn:G; [|discriminate]. injection H as ->. exists u. now apply (validate_iff _ fs).
Qed.
