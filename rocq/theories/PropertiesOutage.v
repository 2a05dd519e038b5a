(** Theorems about calls whose write fails (C121). *)
From Coq Require Import String Ascii ZArith NArith Lia Bool Arith List.
From stdpp Require Import gmap strings.
From RecordUpdate Require Import RecordSet.
From Verif Require Import GoStr GoErr Email Random Types Env Persist Fs Database System SpecDb SpecCrypto SpecAuth SpecPersist SpecDefect SpecOutage SpecLedger.
From Verif Require Import AccountFacts DbFacts TookFacts LedgerFacts Examples PropertiesPassword PropertiesApiKey PropertiesPersist PropertiesLedger.
Import ListNotations.
Import RecordSetNotations.
Open Scope string_scope.

(** C121 *)
(** What a call leaves in memory and in the request does not depend on the disk, and neither does the
    answer of a call that does not write. *)
Theorem C121_memory E nd w op db fs fs' r :
  let o := exec E nd op db fs r in let o' := exec E (on_disk_that w nd) op db fs' r in
  o_db o' = o_db o /\ o_req o' = o_req o /\ (~ writes op -> o_res o' = o_res o).
Proof.
  intros o o'. destruct (blind_exec w nd E op db fs fs' r) as (A & B & C). split; [exact A|]. split; [exact B|]. intros W. apply C.
  destruct (commits op) eqn:X; [|reflexivity]. exfalso. apply W. now apply commits_writes.
Qed.
Print Assumptions C121_memory.
(** Whether a change takes effect does not depend on the disk. *)
Theorem C121_effect E nd w op db fs fs' r : changes op ->
  let o := exec E nd op db fs r in let o' := exec E (on_disk_that w nd) op db fs' r in
  o_res o <> OCrash -> o_res o' <> OCrash -> took o = took o'.
Proof. exact (took_elsewhere E nd op db fs fs' r w). Qed.
Print Assumptions C121_effect.
(** It is accepted exactly if it takes effect and the file can be written. *)
Theorem C121_accepted E nd op db fs r : changes op -> let o := exec E nd op db fs r in o_res o <> OCrash ->
  o_res o = OOk <-> took o = true /\ can_write nd fs (db_path db) (db_content (o_db o)).
Proof. exact (took_written E nd op db fs r). Qed.
Print Assumptions C121_accepted.
(** Any other refusal leaves memory and files as they were. *)
Theorem C121_refused E nd op db fs r : changes op -> let o := exec E nd op db fs r in o_res o <> OCrash -> took o = false -> o_db o = db /\ o_fs o = fs.
Proof. exact (not_took E nd op db fs r). Qed.
Print Assumptions C121_refused.
(** A change refused because of the file leaves in memory what it would have left if accepted. *)
Theorem C121_same_as_accepted E nd op db fs fs' r e : changes op -> let o := exec E nd op db fs r in let o' := exec E (on_disk_that IoOk nd) op db fs' r in
  o_res o = OErr e -> unsaved e = true -> can_write (on_disk_that IoOk nd) fs' (db_path db) (db_content (o_db o')) ->
  o_res o' = OOk /\ o_db o = o_db o' /\ o_req o = o_req o'.
Proof.
  intros Ch o o' H U W. destruct (C121_memory E nd IoOk op db fs fs' r) as (A & B & _).
  assert (N : o_res o <> OCrash) by (rewrite H; discriminate). assert (T : took o = true) by (unfold took; now rewrite H).
  assert (N' : o_res o' <> OCrash).
  { destruct (took_effect E nd op db fs r (proj1 (changes_own op) Ch) T) as (db1 & Eff). apply (blind_effect IoOk) in Eff.
    destruct (effect_exec _ _ _ fs' _ _ _ Eff) as (res & C & O). fold o' in C, O.
    assert (X : target op db = db_path db) by (apply changes_own in Ch; destruct op; try discriminate Ch; reflexivity). rewrite X in C.
    apply (commit_res _ _ _ _ _ _ _ C) in W as ->. cbn in O. rewrite O. discriminate. }
  split; [|split; [exact (eq_sym A)|exact (eq_sym B)]]. apply (took_written E (on_disk_that IoOk nd) op db fs' r Ch N'). split; [|exact W].
  exact (eq_trans (eq_sym (C121_effect E nd IoOk op db fs fs' r Ch N N')) T).
Qed.
Print Assumptions C121_same_as_accepted.

(** A password change whose write fails: the answer is an error, the new password works and the old one
    does not; a restart from the file brings the old one back. *)
Definition outage_nd : Nd := on_disk_that IoOpenErr (draws 60).
Definition outage_req : Request := change "jane" "jane@example.com" "secret-pw-9" "secret-pw-7".
Definition outage : Out := exec toy outage_nd OpChangePassword ledger_end.2 ledger_end.1 outage_req.
Definition outage_ledger : Ledger :=
  [{| en_name := "Jane"; en_mail := "Jane@Example.com"; en_secret := "secret-pw-7"; en_keys := [] |};
   {| en_name := "bob"; en_mail := "bob@example.com"; en_secret := "secret-pw-2"; en_keys := [(random_string 40 (nd_id (draws 99)), bob_secret)] |}].
Lemma outage_refused : (match o_res outage with OErr e => unsaved e | _ => false end) = true.
Proof. vm_compute. reflexivity. Qed.
Lemma outage_entered : enter toy outage_nd OpChangePassword outage_req outage ledger_ex = outage_ledger.
Proof. vm_compute. reflexivity. Qed.
Lemma outage_returns x : x = OHang \/ x = OCrash -> o_res outage <> x.
Proof. intros H X. pose proof outage_refused as Y. rewrite X in Y. clear X. destruct H as [-> | ->]; discriminate Y. Qed.
Lemma traced_call {L} E (step : Nd -> Op -> Request -> Out -> L -> L) l0 nd op r fs db l o l' : traced E step l0 fs db l -> exec E nd op db fs r = o ->
  o_res o <> OHang -> o_res o <> OCrash -> step nd op r o l = l' -> traced E step l0 (o_fs o) (o_db o) l'.
Proof. intros R <- H1 H2 <-. exact (TrCall E step l0 nd op r fs db l R H1 H2). Qed.
Lemma outage_is : exec toy outage_nd OpChangePassword ledger_end.2 ledger_end.1 outage_req = outage.
Proof. unfold outage. reflexivity. Qed.
Lemma outage_recorded : recorded toy (o_fs outage) (o_db outage) outage_ledger.
Proof.
  exact (traced_call toy (enter toy) [] outage_nd OpChangePassword outage_req ledger_end.1 ledger_end.2 ledger_ex outage outage_ledger ledger_recorded outage_is
    (outage_returns OHang (or_introl eq_refl)) (outage_returns OCrash (or_intror eq_refl)) outage_entered).
Qed.
Definition outage_logins (db : Database) : list bool :=
  map (fun s => match o_res (exec toy (draws 0) OpAuthenticate db ∅ (login "jane" s)) with OOk => true | _ => false end) ["secret-pw-7"; "secret-pw-9"].
Lemma outage_file : o_fs outage = ledger_end.1.
Proof. rewrite <- outage_is. apply unopened. reflexivity. Qed.
Example C121_ex : changes OpChangePassword /\ (exists e, o_res outage = OErr e /\ unsaved e = true) /\ recorded toy (o_fs outage) (o_db outage) outage_ledger /\
  outage_logins (o_db outage) = [true; false] /\
  o_fs outage = ledger_end.1 /\ new_database toy (draws 200) "db.json" ledger_end.1 = (restart_fs, Loaded restart_db) /\ recorded toy restart_fs restart_db ledger_ex /\
  outage_logins restart_db = [false; true].
Proof.
  split; [cbn; tauto|]. split; [pose proof outage_refused as X; destruct (o_res outage) as [|e| | |]; try discriminate X; exists e; split; [reflexivity|exact X]|]. split; [exact outage_recorded|].
  split; [vm_compute; reflexivity|]. split; [exact outage_file|]. split; [exact restart_open|]. split; [exact restart_recorded|]. vm_compute. reflexivity.
Qed.
