(** Theorems about database files with null elements in the lists that opening does not look at (C120). *)
From Coq Require Import String Ascii ZArith NArith Lia Bool Arith List.
From stdpp Require Import gmap strings.
From RecordUpdate Require Import RecordSet.
From Verif Require Import GoStr Codec Json GoTime GoErr Role Name Email Random Types Env Password ApiKey PublicKey Mfa User Persist Fs Database Examples.
From Verif Require Import Holes SpecHoles RoleFacts HolesFacts HolesAgree PropertiesPublicKey PropertiesMfa.
Import ListNotations.
Import RecordSetNotations.
Open Scope string_scope.

(** C120 *)
(** A file that the model without nil pointers decodes, opens and refuses is decoded, opened and refused
    the same way by the model with them. *)
Theorem C120_decode b :
  (forall c, unmarshal b = DOk c -> hunmarshal b = DOk (lift_content c)) /\ (unmarshal b = DErr -> hunmarshal b = DErr).
Proof. pose proof (hunmarshal_same b) as H. split; [intros c Hc|intros Hc]; rewrite Hc in H; exact H. Qed.
Theorem C120_open E nd fp fs b : unmarshal b <> DUnmod ->
  hload_bytes E nd fp fs b = ((load_bytes E nd fp fs b).1, lift_load (load_bytes E nd fp fs b).2).
Proof. apply hload_bytes_lift. Qed.
(** Opening does not depend on the lists: with any others the outcome is the same, and so are the indexes
    and the accounts apart from these lists. *)
Theorem C120_blind E fp c c' : hbare c = hbare c' ->
  match hload E fp c, hload E fp c' with
  | HLoaded h, HLoaded h' => hd_db h = hd_db h' /\ hd_lists h = hlists c /\ hd_lists h' = hlists c'
  | x, x' => x = x'
  end.
Proof. intros H. unfold hload. rewrite <- H. destruct (load_users E (empty_db fp (hbare c)) (rc_users (hbare c))); auto. Qed.
(** On a database without nil pointers the calls do what the model without them says. *)
Theorem C120_calls E nd op db fs r : agrees op (hcall E nd op (lift_db db) r) (exec E nd op db fs r).
Proof. apply hcall_agrees. Qed.
(** Exactly which calls panic: those that reach a nil pointer. *)
Theorem C120_panics E nd op h r : hcall E nd op h r = HPanic <-> struck E nd op h r.
Proof. apply hcall_panic. Qed.
(** The methods of the account that walk roles and names. *)
Theorem C120_methods l s n names :
  (h_has_role l s = RPanic <-> exists r, new_role s = inl r /\ nil_before (fun x => x = r) l) /\
  (h_add_role l s = RPanic <-> exists r, new_role s = inl r /\ nil_before (fun x => x = r) l) /\
  (h_add_name names n = RPanic <-> nil_before (fun x => full_name x = full_name n) names) /\
  (h_roles_claim l = RPanic <-> In None l).
Proof.
  assert (HP : forall r x, role_eqb r x = true <-> x = r). { intros r x. rewrite role_eqb_eq. split; congruence. }
  split; [|split; [|split]].
  - unfold h_has_role. destruct l as [|x l].
    + split; [discriminate|]. intros (r & _ & pre & post & H & _). destruct pre; discriminate H.
    + destruct (new_role s) as [r|e]; [|split; [discriminate|intros (r & H & _); discriminate H]].
      pose proof (scan_panic _ _ (x :: l) (HP r)) as HS. split.
      * intros H. exists r. split; [reflexivity|]. apply HS. destruct (scan (role_eqb r) (x :: l)); [discriminate H|discriminate H|reflexivity].
      * intros (r' & Hr & H). injection Hr as <-. apply HS in H. now rewrite H.
  - unfold h_add_role. destruct (new_role s) as [r|e]; [|split; [discriminate|intros (r & H & _); discriminate H]].
    pose proof (scan_panic _ _ l (HP r)) as HS. split.
    + intros H. exists r. split; [reflexivity|]. apply HS. destruct (scan (role_eqb r) l) as [[]| |]; try discriminate H; reflexivity.
    + intros (r' & Hr & H). injection Hr as <-. apply HS in H. now rewrite H.
  - unfold h_add_name. pose proof (scan_panic (fun x => String.eqb (full_name n) (full_name x)) (fun x => full_name x = full_name n) names) as HS.
    rewrite <- HS by (intros x; rewrite String.eqb_eq; split; congruence).
    destruct (scan _ names) as [[]|e|]; split; try discriminate; reflexivity.
  - apply walk_panic.
Qed.
(** Without nil pointers they are the methods of [User] and [Role]. *)
Theorem C120_methods_same nd u s n :
  h_has_role (map Some (u_roles u)) s = ROk (has_role (u_roles u) s) /\
  h_add_role (map Some (u_roles u)) s = match add_role nd u s with inl v => ROk (map Some (u_roles v)) | inr e => RErr e end /\
  h_add_name (map Some (u_names u)) n = ROk (map Some (u_names (add_name nd u n))) /\
  h_roles_claim (map Some (u_roles u)) = ROk (roles_claim (u_roles u)).
Proof.
  split; [|split; [|split]].
  - unfold h_has_role, has_role. destruct (u_roles u) as [|x l]; [reflexivity|]. simpl map at 1. cbv iota.
    destruct (new_role s) as [r|e]; [|reflexivity]. change (Some x :: map Some l) with (map Some (x :: l)). rewrite scan_some, find_exists. reflexivity.
  - unfold h_add_role, add_role, add_role_list. destruct (new_role s) as [r|e]; [|reflexivity]. rewrite scan_some, find_exists.
    destruct (find (role_eqb r) (u_roles u)); [reflexivity|]. simpl. rewrite map_app. reflexivity.
  - unfold h_add_name, add_name. rewrite scan_some. destruct (u_names u) as [|x l] eqn:Hn; [reflexivity|].
    rewrite find_exists. destruct (find _ (x :: l)); [now rewrite Hn|]. simpl. rewrite map_app. reflexivity.
  - unfold h_roles_claim. rewrite walk_some, fold_app. reflexivity.
Qed.
Print Assumptions C120_decode.
Print Assumptions C120_open.
Print Assumptions C120_blind.
Print Assumptions C120_calls.
Print Assumptions C120_panics.
Print Assumptions C120_methods.
Print Assumptions C120_methods_same.

(** A file with such nulls (quotes written as apostrophes). *)
Definition quoted (s : string) : string := sol (map (fun c => if Ascii.eqb c "'" then """"%char else c) (los s)).
Definition null_file : string := quoted
  "{'version': '1.1.6', 'policy': {'password': {'keep_versions': 10, 'min_length': 8, 'max_length': 128}, 'user': {'min_length': 3, 'max_length': 50}}, 'revision': 4,
    'users': [{'id': '0123456789abcdef0123456789abcdef0123', 'username': 'jane', 'email_addresses': [{'address': 'jane@example.com', 'domain': 'example.com'}],
      'passwords': [{'purpose': 'generic', 'algorithm': 'bcrypt', 'hash': 'h:secret-pw-1'}], 'public_keys': [null],
      'mfa_tokens': [{'id': 't', 'type': 'totp', 'secret': 'sec', 'comment': 'phone'}, null], 'roles': [{'name': 'viewer'}, null]}]}".
Definition null_fs : FS := <["db.json" := File null_file]> ∅.
Definition null_load : HLoad := Eval vm_compute in (hload_bytes toy (draws 1) "db.json" null_fs null_file).2.
Definition null_db : HDb := Eval vm_compute in match null_load with HLoaded h => h | _ => {| hd_db := empty_db "" content_z; hd_lists := [] |} end.
Lemma null_opens : hload_bytes toy (draws 1) "db.json" null_fs null_file = (null_fs, HLoaded null_db).
Proof. vm_compute. reflexivity. Qed.
(** That a database which opens serves its callers without panicking is false: the file opens, and asking
    for the account by name, which takes no password, panics; so do the calls on public keys and second
    factors.  A second factor that clashes with one before the nil pointer is refused instead. *)
Theorem C120_open_means_sound_refuted : exists E nd fp fs b h r,
  hload_bytes E nd fp fs b = (fs, HLoaded h) /\ hcall E nd OpIdentify h r = HPanic /\ ru_password (rq_user r) = "".
Proof. exists toy, (draws 1), "db.json", null_fs, null_file, null_db, (who "jane" ""). split; [exact null_opens|]. split; vm_compute; reflexivity. Qed.
Print Assumptions C120_open_means_sound_refuted.
Example C120_ex :
  map (fun op => hcall toy (draws 9) op null_db jane) [OpGetPublicKeys; OpDeletePublicKey; OpGetMfaTokens; OpDeleteMfaToken; OpIdentify] = [HPanic; HPanic; HPanic; HPanic; HPanic] /\
  hcall toy (draws 9) OpAddPublicKey null_db (key_of jane "ssh" pem_text) = HPanic /\
  hcall toy (draws 9) OpAddMfaToken null_db totp_req = HErr (EWith ErrAddMfaToken [AErr (EStd ErrDuplicateMfaTokenSecret)]) /\
  hcall toy (draws 9) OpAuthenticate null_db login_req = HPanic /\
  hcall toy (draws 9) OpAuthenticate null_db (signup "jane" "" "secret-pw-1") = HAside /\
  unmarshal null_file = DUnmod.
Proof. repeat split; vm_compute; reflexivity. Qed.
