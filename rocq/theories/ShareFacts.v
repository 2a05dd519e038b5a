(** Facts about several databases on the same files. *)
From Coq Require Import String Ascii ZArith NArith Lia Bool Arith List.
From stdpp Require Import gmap strings.
From RecordUpdate Require Import RecordSet.
From Verif Require Import GoStr GoErr Random Types Env Persist Mfa User ApiKey PublicKey Password Fs Database Method System Share SpecDb SpecShare SpecPersist SpecMethod AccountFacts StepFacts LoadFacts ReopenFacts LiveFacts.
Import ListNotations.
Import RecordSetNotations.
Open Scope string_scope.

Lemma handle_same s n m fs : handle {| s_fs := fs; s_mem := <[n := m]> (s_mem s) |} n = m.
Proof. unfold handle. cbn [s_mem]. now rewrite lookup_insert. Qed.
Lemma handle_other s n k m fs : n <> k -> handle {| s_fs := fs; s_mem := <[n := m]> (s_mem s) |} k = handle s k.
Proof. intros N. unfold handle. cbn [s_mem]. now rewrite lookup_insert_ne. Qed.
Lemma steps_app E P w1 w2 w3 : steps E P w1 w2 -> steps E P w2 w3 -> steps E P w1 w3.
Proof. intros A B. revert A. induction B as [w|w ev w2 w3 B IH H St]; intros A; [exact A|]. eapply StCons; [exact (IH A)|exact H|exact St]. Qed.

(** For one handle the others are somebody changing files. *)
Lemma sstep_view E s n ev s' k : sstep E s n ev s' -> exists ev', step E {| w_fs := s_fs s; w_mem := handle s k |} ev' {| w_fs := s_fs s'; w_mem := handle s' k |}.
Proof.
  intros [w St]. cbn [s_fs]. destruct (decide (n = k)) as [<-|N].
  - exists ev. rewrite handle_same. destruct w. exact St.
  - exists (EvEdit (w_fs w)). rewrite handle_other by exact N. constructor.
Qed.
Lemma ssteps_view E s l s' k : ssteps E s l s' -> steps E any_event {| w_fs := s_fs s; w_mem := handle s k |} {| w_fs := s_fs s'; w_mem := handle s' k |}.
Proof.
  induction 1 as [s|s1 n ev s2 l s3 St _ IH]; [constructor|]. destruct (sstep_view E s1 n ev s2 k St) as [ev' S'].
  eapply steps_app; [|exact IH]. eapply StCons; [constructor|exact I|exact S'].
Qed.
Lemma ssteps_reachable E fs l s n db : ssteps E (site fs) l s -> handle s n = Up db -> reachable E (s_fs s) db.
Proof. intros S H. exists fs. pose proof (ssteps_view E _ _ _ n S) as V. rewrite H in V. exact V. Qed.

(** What a call does in memory and answers, but for the fate of its write, does not depend on the files. *)
Lemma commit_memory nd p db fs fs' : fst (fst (commit_to nd p db fs)) = fst (fst (commit_to nd p db fs')).
Proof. unfold commit_to. now destruct write_db, write_db. Qed.
Lemma finish_memory nd db fs fs' r w w' : o_db (finish nd db fs r w) = o_db (finish nd db fs' r w') /\ o_req (finish nd db fs r w) = o_req (finish nd db fs' r w').
Proof.
  unfold finish, commit. pose proof (commit_memory nd (db_path db) db fs fs') as C.
  destruct (commit_to nd (db_path db) db fs) as [[a b] []], (commit_to nd (db_path db) db fs') as [[a' b'] []]; cbn in *; subst; auto.
Qed.
Lemma exec_memory E nd op db fs fs' r : o_db (exec E nd op db fs r) = o_db (exec E nd op db fs' r) /\ o_req (exec E nd op db fs r) = o_req (exec E nd op db fs' r).
Proof.
  destruct op; cbn [exec].
  - unfold db_add_user. destruct check_policy; [split; reflexivity|]. destruct new_user_with_roles; [|split; reflexivity]. destruct (ref_username db !! _); [split; reflexivity|].
    destruct new_addresses; [|split; reflexivity]. apply finish_memory.
  - unfold db_get_users. destruct validate_identity; split; reflexivity.
  - unfold db_get_user. destruct validate_identity as [[]|]; split; reflexivity.
  - unfold db_delete_user. destruct validate_identity as [[]|]; split; reflexivity.
  - unfold db_authenticate. destruct get_user as [[i u]|]; [|split; reflexivity]. destruct (negb _); [destruct verify_password; split; reflexivity|].
    destruct (negb _); [|split; reflexivity]. destruct verify_webauthn as [v []]; split; reflexivity.
  - unfold db_save. apply finish_memory.
  - unfold db_copy. pose proof (commit_memory nd fp db fs fs') as C.
    destruct (commit_to nd fp db fs) as [[a b] []], (commit_to nd fp db fs') as [[a' b'] []]; cbn in *; subst; auto.
  - unfold db_add_public_key. destruct validate_identity as [[]|]; [|split; reflexivity]. destruct add_public_key; [|split; reflexivity]. apply finish_memory.
  - unfold db_get_public_keys. destruct validate_identity as [[]|]; split; reflexivity.
  - unfold db_delete_public_key. destruct validate_identity as [[]|]; [|split; reflexivity]. destruct delete_public_key; [|split; reflexivity]. apply finish_memory.
  - unfold db_add_api_key. destruct validate_identity as [[i u]|]; [|split; reflexivity]. destruct random_range; [|split; reflexivity]. destruct new_password; [|split; reflexivity].
    destruct (ref_apikey db !! _); [split; reflexivity|]. destruct add_api_key; [|split; reflexivity]. apply finish_memory.
  - unfold db_delete_api_key. destruct validate_identity as [[i u]|]; [|split; reflexivity]. destruct delete_api_key as [[v|e] r']; [|split; reflexivity]. apply finish_memory.
  - unfold db_get_api_keys. destruct validate_identity as [[]|]; split; reflexivity.
  - unfold db_change_password. destruct validate_identity as [[i u]|]; [|split; reflexivity]. destruct (negb _); [split; reflexivity|]. destruct change_password; [|split; reflexivity]. apply finish_memory.
  - unfold db_identify. destruct get_user as [[i u]|]; split; reflexivity.
  - unfold db_lookup_api_key. destruct (String.eqb _ _); [split; reflexivity|]. destruct (_ <? _)%Z; [split; reflexivity|]. destruct at_ref as [[i u]|]; [|split; reflexivity].
    destruct lookup_api_key; split; reflexivity.
  - unfold db_add_mfa_token. destruct validate_identity as [[i u]|]; [|split; reflexivity]. destruct add_mfa_token as [r' [v|e|]]; try (split; reflexivity). apply finish_memory.
  - unfold db_get_mfa_tokens. destruct validate_identity as [[]|]; split; reflexivity.
  - unfold db_delete_mfa_token. destruct validate_identity as [[i u]|]; [|split; reflexivity]. destruct delete_mfa_token; [|split; reflexivity]. apply finish_memory.
  - split; reflexivity.
Qed.

Lemma read_memory E nd op db fs fs' r : In op read_ops -> o_res (exec E nd op db fs r) = o_res (exec E nd op db fs' r).
Proof.
  intros H. repeat (destruct H as [<-|H]; [cbn [exec]|]); [..|destruct H].
  - unfold db_authenticate. destruct get_user as [[i u]|]; [|reflexivity]. destruct (negb _); [destruct verify_password; reflexivity|].
    destruct (negb _); [|reflexivity]. destruct verify_webauthn as [v []]; reflexivity.
  - unfold db_identify. destruct get_user as [[i u]|]; reflexivity.
  - unfold db_lookup_api_key. destruct (String.eqb _ _); [reflexivity|]. destruct (_ <? _)%Z; [reflexivity|]. destruct at_ref as [[i u]|]; [|reflexivity].
    destruct lookup_api_key; reflexivity.
  - unfold db_get_users. destruct validate_identity; reflexivity.
  - unfold db_get_user. destruct validate_identity as [[]|]; reflexivity.
  - unfold db_get_public_keys. destruct validate_identity as [[]|]; reflexivity.
  - unfold db_get_api_keys. destruct validate_identity as [[]|]; reflexivity.
  - unfold db_get_mfa_tokens. destruct validate_identity as [[]|]; reflexivity.
  - reflexivity.
  - unfold db_delete_user. destruct validate_identity as [[]|]; reflexivity.
Qed.

(** A handle that only makes calls: its memory is determined by them. *)
Lemma step_call E w nd op r w' : step E w (EvCall nd op r) w' ->
  exists db, w_mem w = Up db /\ w' = {| w_fs := o_fs (exec E nd op db (w_fs w) r); w_mem := after_call (exec E nd op db (w_fs w) r) |}.
Proof. intros S. inversion S; subst. cbn. eauto. Qed.
Definition agree (m m' : Mem) : Prop := forall d d', m = Up d -> m' = Up d' -> d = d'.
Lemma after_call_up o d : after_call o = Up d -> d = o_db o.
Proof. unfold after_call. destruct (o_res o); intros; congruence. Qed.
(** The memories a handle goes through, by the calls it makes. *)
Fixpoint after_calls (E : Env) (m : Mem) (l : list Event) : option Database :=
  match l, m with
  | [], Up db => Some db
  | EvCall nd op r :: l, Up db => after_calls E (Up (o_db (exec E nd op db ∅ r))) l
  | _, _ => None
  end.
Lemma ssteps_own E s l s' n db : ssteps E s l s' -> Forall is_call (own n l) -> handle s' n = Up db -> after_calls E (handle s n) (own n l) = Some db.
Proof.
  induction 1 as [s|s1 m ev s2 l s3 [w St] S IH]; intros F H; cbn [own] in *.
  - rewrite H. reflexivity.
  - destruct (Nat.eqb_spec m n) as [->|N].
    + inversion F as [|? ? (nd & op & r & ->) F']; subst. specialize (IH F' H). rewrite handle_same in IH.
      apply step_call in St as (d & Hd & ->). cbn [w_mem w_fs] in *. rewrite Hd. cbn [after_calls].
      destruct (after_call (exec E nd op d (s_fs s1) r)) as [|d'|d'] eqn:A.
      * destruct (own n l) as [|[] ?]; cbn in IH; discriminate.
      * apply after_call_up in A as ->. now rewrite (proj1 (exec_memory E nd op d ∅ (s_fs s1) r)).
      * destruct (own n l) as [|[] ?]; cbn in IH; discriminate.
    + specialize (IH F H). rewrite handle_other in IH by exact N. exact IH.
Qed.
Lemma ssteps_blind E s1 l1 s1' s2 l2 s2' n d1 d2 : ssteps E s1 l1 s1' -> ssteps E s2 l2 s2' -> handle s1 n = handle s2 n -> own n l1 = own n l2 -> Forall is_call (own n l1) ->
  handle s1' n = Up d1 -> handle s2' n = Up d2 -> d1 = d2.
Proof.
  intros S1 S2 H O F U1 U2. pose proof (ssteps_own E _ _ _ n d1 S1 F U1) as A. rewrite O in F. pose proof (ssteps_own E _ _ _ n d2 S2 F U2) as B.
  rewrite H, O in A. congruence.
Qed.

(** The file holds what its last writer had in memory. *)
Lemma last_writer E fs l0 s n nd op r db s1 l2 s2 nd2 : register_typed E -> ssteps E (site fs) l0 s -> handle s n = Up db ->
  writes op -> written_path op db = db_path db -> o_res (exec E nd op db (s_fs s) r) = OOk -> sstep E s n (EvCall nd op r) s1 ->
  ids_unique (o_db (exec E nd op db (s_fs s) r)) -> plain_path (db_path db) -> readable nd2 ->
  ssteps E s1 l2 s2 -> s_fs s2 !! db_path db = s_fs s1 !! db_path db ->
  handle s1 n = Up (o_db (exec E nd op db (s_fs s) r)) /\
  exists db2, new_database E nd2 (db_path db) (s_fs s2) = (s_fs s2, Loaded db2) /\ db_content db2 = clean_content (db_content (o_db (exec E nd op db (s_fs s) r))).
Proof.
  intros RT S0 Hn W T O St U Pl Rd S2 F. set (o := exec E nd op db (s_fs s) r) in *.
  inversion St as [w Sw Ew]; subst. apply step_call in Sw as (d & Hd & ->). cbn [w_mem w_fs] in *. rewrite Hn in Hd. injection Hd as <-. fold o in F.
  assert (A : after_call o = Up (o_db o)) by (unfold after_call; now rewrite O).
  split; [rewrite handle_same; fold o; exact A|].
  destruct (write_saved E nd op db (s_fs s) r W T O) as [(x & M & Fx & Nx) Hp]. fold o in M, Fx, Nx, Hp.
  pose proof (ssteps_reachable E fs l0 s n db S0 Hn) as R.
  assert (Mx : mixed E tame (o_fs o) (o_db o)).
  { apply MxCall; [eapply reachable_mixed; exact R|..]; fold o; rewrite O; discriminate. }
  destruct (reopen_mixed E nd2 (o_fs o) (s_fs s2) (o_db o) RT Mx U) as (db2 & H1 & H2 & _); auto.
  - exists x. rewrite Hp. cbn [s_fs] in F. rewrite F, <- Hp. auto.
  - now rewrite Hp.
  - rewrite Hp in H1. eauto.
Qed.

Lemma open_quiet E nd fs0 fs db : register_typed E -> mixed E tame fs0 db -> ids_unique db -> saved fs db -> plain_path (db_path db) -> fst (new_database E nd (db_path db) fs) = fs.
Proof.
  intros RT M U S Pl. destruct (nd_stat_err nd) eqn:H1; [unfold new_database; now rewrite H1|].
  destruct (nd_read_err nd) eqn:H2.
  - destruct S as (x & Mx & F & Ne). unfold new_database. rewrite H1. apply String.eqb_neq in Ne. rewrite Ne, F. unfold read_file. now rewrite H2.
  - destruct (reopen_mixed E nd fs0 fs db RT M U S Pl (conj H1 H2)) as (db' & -> & _). reflexivity.
Qed.
Lemma quiet_files E fs0 db s l s' : register_typed E -> mixed E tame fs0 db -> ids_unique db -> saved (s_fs s) db -> plain_path (db_path db) ->
  ssteps E s l s' -> Forall (fun e => quiet (db_path db) (snd e)) l -> s_fs s' = s_fs s.
Proof.
  intros RT M U S Pl St. induction St as [s|s1 n ev s2 l s3 [w Sw] _ IH]; intros F; [reflexivity|]. inversion F as [|? ? Q F']; subst. cbn [snd] in Q. cbn [s_fs] in IH.
  assert (K : w_fs w = s_fs s1).
  { inversion Sw; subst; cbn [w_fs quiet] in *; try contradiction; try reflexivity.
    - subst fp. pose proof (open_quiet E nd fs0 (s_fs s1) db RT M U S Pl) as K. now rewrite H1 in K.
    - exact (proj1 (read_op E nd op db0 (s_fs s1) r Q)). }
  rewrite K in IH. now apply IH.
Qed.
Lemma single_writer E fs l0 s n nd op r db s1 l2 s2 nd2 : register_typed E -> ssteps E (site fs) l0 s -> handle s n = Up db ->
  writes op -> written_path op db = db_path db -> o_res (exec E nd op db (s_fs s) r) = OOk -> sstep E s n (EvCall nd op r) s1 ->
  ids_unique (o_db (exec E nd op db (s_fs s) r)) -> plain_path (db_path db) -> readable nd2 ->
  ssteps E s1 l2 s2 -> Forall (fun e => quiet (db_path db) (snd e)) l2 ->
  s_fs s2 = s_fs s1 /\
  exists db2, new_database E nd2 (db_path db) (s_fs s2) = (s_fs s2, Loaded db2) /\ db_content db2 = clean_content (db_content (o_db (exec E nd op db (s_fs s) r))).
Proof.
  intros RT S0 Hn W T O St U Pl Rd S2 F.
  assert (K : s_fs s2 = s_fs s1).
  { destruct (write_saved E nd op db (s_fs s) r W T O) as [V Hp]. inversion St as [w Sw Ew]; subst. apply step_call in Sw as (d & Hd & ->). cbn [w_mem w_fs] in *. rewrite Hn in Hd. injection Hd as <-.
    pose proof (ssteps_reachable E fs l0 s n db S0 Hn) as R.
    apply (quiet_files E (o_fs (exec E nd op db (s_fs s) r)) (o_db (exec E nd op db (s_fs s) r)) _ l2 s2); rewrite ?Hp; auto.
    apply MxCall; [eapply reachable_mixed; exact R|..]; rewrite O; discriminate. }
  split; [exact K|]. apply (last_writer E fs l0 s n nd op r db s1 l2 s2 nd2); auto. now rewrite K.
Qed.
