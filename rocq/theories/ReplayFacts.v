(** Proofs about histories replayed (C129). *)
From Coq Require Import String Ascii ZArith NArith Lia Bool Arith List.
From stdpp Require Import gmap strings.
From RecordUpdate Require Import RecordSet.
From Verif Require Import GoStr Utf8 GoErr GoTime Role Name Email Random SpecValue RandomFacts.
From Verif Require Import Types Env Password ApiKey PublicKey Mfa User Json Persist Fs Database System UserFacts DbFacts Inv LoadFacts.
From Verif Require Import SpecDb SpecKey SpecCrypto SpecAuth SpecMfa SpecPersist SpecDefect SpecOutage SpecLedger SpecReplay CryptoFacts AccountFacts StepFacts.
From Verif Require Import PublicKeyFacts PersistFacts StoredFacts ReloadFacts OpenFacts LiveFacts ApiKeyFacts MfaFacts TwinFacts ConcFacts ReopenFacts LedgerFacts TookFacts.
Import ListNotations.
Import RecordSetNotations.
Open Scope string_scope.
#[local] Opaque int64 new_id trim_space new_email new_role.

Lemma uncached_same u u' : same_uncached u u' -> same u u'.
Proof.
  intros (l & -> & F). assert (M : map uncache (u_mfa u) = map uncache l) by (induction F as [|t t' l0 l1 [H _] F IH]; cbn [map]; congruence).
  pose proof (f_equal (with_mfa u) M) as H. exact H.
Qed.
Lemma set_user_same db i u : db_users db !! i = Some u -> set_user db i u = db.
Proof. intros H. unfold set_user. destruct db as [c ? ? ? ? ?]. destruct c. cbn in *. unfold db_users in H. cbn in H. unfold set. cbn. now rewrite list_insert_id. Qed.
Lemma recached_near E db r op db1 : recached E db r op db1 -> near db db1.
Proof.
  intros [op'|i u u' res G _ V]; [apply near_refl|]. pose proof (verify_webauthn_uncache E u r) as W. rewrite V in W. cbn in W.
  pose proof (get_user_at _ _ _ _ _ G) as Hi. rewrite <- (set_user_same db i u Hi) at 1. apply near_set; [apply near_refl|]. now apply uncached_same.
Qed.
Lemma noted_own op o : own op = true -> noted op o = took o.
Proof. destruct op; intros H; try discriminate H; reflexivity. Qed.
Lemma not_noted E nd op db fs r : let o := exec E nd op db fs r in o_res o <> OCrash -> noted op o = false -> near db (o_db o).
Proof.
  intros o Nc Nt. destruct (exec_shape E nd op db fs r) as [_ R _ _|db1 res Eff C _]; [exact (recached_near _ _ _ _ _ R)|].
  assert (Ow : own op = true).
  { destruct op; cbn in Nt; try discriminate Nt; try reflexivity; inversion Eff; subst; match goal with H : _ |- _ => solve [inversion H] end. }
  exfalso. rewrite noted_own in Nt by exact Ow. pose proof (effect_took E nd op db fs r db1 Eff Ow Nc). unfold o in Nt. congruence.
Qed.
Lemma replay_app E l l' : forall db, replay E (l ++ l') db = replay E l' (replay E l db).
Proof. induction l as [|[[nd op] r] l IH]; intros db; cbn [replay app]; [reflexivity|apply IH]. Qed.
Lemma logged_reachable E db0 fs db l : register_typed E -> logged E db0 fs db l -> reachable_by E (fresh_draws E) fs db.
Proof.
  intros RT R. induction R as [nd fp fs fs' A O|nd op r fs db l R IH Fr o Nh Nc|fs fs' db l R IH|nd fs fs' db db' l R IH D P U Rd O].
  - assert (X : (if String.eqb fp "" then None else fs !! fp) = None).
    { destruct (String.eqb_spec fp ""); [reflexivity|]. destruct A; [contradiction|assumption]. }
    exists fs. eapply StCons; [apply StNil| |].
    2:{ change (Up db0) with (after_load Down (Loaded db0)). eapply StOpen; [exact O|discriminate]. }
    split; [exact I|]. intros fs1 db1 i u O1 Hu. cbn [w_fs] in O1. rewrite O in O1. injection O1 as <- <-. exfalso.
    unfold new_database in O. destruct nd_stat_err; [discriminate|].
    rewrite X in O. destruct nd_mkdir_err; [discriminate|]. cbv zeta in O. destruct write_db as [fs2 []]; try discriminate. injection O as <- <-. discriminate Hu.
  - destruct IH as (fs0 & S). exists fs0. apply exec_steps; [exact S|exact Fr|split; assumption].
  - destruct IH as (fs0 & S). exists fs0. eapply StCons; [exact S| |apply StEdit]. split; exact I.
  - destruct D as (s & M & F).
    assert (V : saved fs db) by (exists s; split; [exact M|]; split; [exact F|]; intros X; rewrite X in P; exact P).
    destruct (reopen E (fresh_draws E) nd fs db (fun _ _ H => H) RT IH V P Rd) as (db2 & O2 & C & Hp & T). rewrite O in O2. injection O2 as -> <-. specialize (T U).
    destruct IH as (fs1 & S). exists fs1. eapply StCons; [exact S| |].
    2:{ change (Up db') with (after_load (Up db) (Loaded db')). eapply StOpen; [exact O|discriminate]. }
    split; [exact I|]. intros fs2 db1 i u O1 Hu. cbn [w_fs] in O1. rewrite O in O1. injection O1 as <- <-.
    assert (K : keyed db).
    { apply (keyed_steps E {| w_fs := fs1; w_mem := Down |} {| w_fs := fs; w_mem := Up db |} I I). eapply steps_mono; [|exact S]. intros w ev H. exact (proj2 H). }
    pose proof (f_equal (fun l => l !! i) (tw_users _ _ (proj1 T))) as L. cbv beta in L. unfold account in Hu.
    change ((no_cache <$> db_users db) !! i = (no_cache <$> db_users db') !! i) in L. rewrite !list_lookup_fmap, Hu in L. destruct (db_users db !! i) as [v|] eqn:Hv; [|discriminate].
    assert (L' : no_cache v = no_cache u) by (cbn [fmap option_fmap option_map] in L; congruence). apply (f_equal u_apikeys) in L'. change (u_apikeys v = u_apikeys u) in L'. rewrite <- L'. exact (proj2 K i v Hv).
Qed.
Lemma logged_twin E db0 fs db l : register_typed E -> logged E db0 fs db l -> twin db (replay E l db0).
Proof.
  intros RT R. induction R as [nd fp fs fs' A O|nd op r fs db l R IH Fr o Nh Nc|fs fs' db l R IH|nd fs fs' db db' l R IH D P U Rd O].
  - cbn [replay]. pose proof (open_caches _ _ _ _ _ _ O). split; [apply near_refl|]. auto.
  - destruct (noted op o) eqn:Nt.
    + rewrite replay_app. cbn [replay]. destruct (exec_twin E (on_disk_that IoOk nd) op _ _ ∅ r IH) as (_ & _ & _ & T).
      destruct (blind_exec IoOk nd E op db fs ∅ r) as (B & _). unfold o. rewrite <- B. exact T.
    + apply twin_trans with db; [|exact IH]. split; [apply near_sym; exact (not_noted E nd op db fs r Nc Nt)|]. split; [apply exec_caches|]; exact (proj1 (proj2 IH)).
  - exact IH.
  - apply twin_trans with db; [|exact IH]. apply twin_sym. destruct D as (s & M & F).
    assert (V : saved fs db) by (exists s; split; [exact M|]; split; [exact F|]; intros X; rewrite X in P; exact P).
    destruct (reopen E (fresh_draws E) nd fs db (fun _ _ H => H) RT (logged_reachable _ _ _ _ _ RT R) V P Rd) as (db2 & O2 & C & Hp & T). rewrite O in O2. injection O2 as -> <-. exact (T U).
Qed.
