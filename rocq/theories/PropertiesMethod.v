(** Theorems about direct calls on accounts (C78-C86). *)
From Coq Require Import String Ascii ZArith NArith Lia Bool Arith List.
From stdpp Require Import gmap strings.
From RecordUpdate Require Import RecordSet.
From Verif Require Import GoStr Utf8 GoErr Role Name Email Random SpecValue Types Env Password ApiKey PublicKey Mfa User Persist Fs Database System.
From Verif Require Import SpecDb SpecCrypto SpecAuth SpecMfa SpecPersist Method SpecMethod Examples.
From Verif Require Import DbFacts LoadFacts Inv RoleFacts AccountFacts ReopenFacts MethodFacts LiveFacts.
From Verif Require PropertiesPersist PropertiesMfa.
Import ListNotations.
Import RecordSetNotations.
Open Scope string_scope.
Notation toy_typed := PropertiesPersist.toy_typed.
Notation jane := PropertiesMfa.jane.

(** ** Example accounts *)
Definition user_at (db : Database) (i : nat) : User := match db_users db !! i with Some u => u | None => new_user (draws 0) "" end.
Notation u0 := (user_at two.2 0).
Lemma u0_account : account two.2 0 u0. Proof. vm_compute. reflexivity. Qed.
Notation u1 := (user_at two.2 1).
Lemma u1_account : account two.2 1 u1. Proof. vm_compute. reflexivity. Qed.
Lemma two_mixed (P : Method -> Prop) : mixed toy P two.1 two.2.
Proof. exact (reachable_mixed toy P _ _ _ two_reachable). Qed.
Definition after (m : Method) (u : User) : User := fst (call_method toy (draws 9) m u).
Definition returned (m : Method) (u : User) : MRes := snd (call_method toy (draws 9) m u).

(** C78 *)
(** A call changes only the part of the account it is about. *)
Theorem C78_frame E nd m u : without_part (part_of m) (fst (call_method E nd m u)) = without_part (part_of m) u.
Proof. exact (method_frame E nd m u). Qed.
Print Assumptions C78_frame.
(** Calls that count changes either change nothing or count exactly one. *)
Theorem C78_counted E nd m u u' res : counts m -> call_method E nd m u = (u', res) ->
  (u' = u /\ (res = MOk -> m <> MRevise)) \/ (res = MOk /\ revised (nd_clock nd) u u').
Proof. exact (method_counts E nd m u u' res). Qed.
Print Assumptions C78_counted.
(** A failed call changes nothing, except AddRoles and VerifyWebAuthnRequest. *)
Theorem C78_failed E nd m u u' res : call_method E nd m u = (u', res) -> res <> MOk ->
  (forall l, m <> MAddRoles l) -> (forall r, m <> MVerifyWebAuthn r) -> u' = u.
Proof. exact (method_failed E nd m u u' res). Qed.
Print Assumptions C78_failed.
(** A failed AddRoles keeps the roles before the bad one. *)
Theorem C78_failed_unchanged_refuted : exists E nd u l e, snd (call_method E nd (MAddRoles l) u) = MErr e /\ u_roles (fst (call_method E nd (MAddRoles l) u)) <> u_roles u.
Proof. exists toy, (draws 9), u1, ["auditor"; " "; "viewer"]. eexists. split; [vm_compute; reflexivity|vm_compute; discriminate]. Qed.
Print Assumptions C78_failed_unchanged_refuted.
(** The first name given to an account without one, and Disable, are changes that are not counted. *)
Theorem C78_all_counted_refuted : exists E nd u n k,
  u_name (fst (call_method E nd (MAddName n) u)) <> u_name u /\ u_revision (fst (call_method E nd (MAddName n) u)) = u_revision u /\
  u_passwords (fst (call_method E nd (MDisablePassword k) u)) <> u_passwords u /\ u_revision (fst (call_method E nd (MDisablePassword k) u)) = u_revision u.
Proof. exists toy, (draws 9), u1, (Build_Name "A" "B" "" "" false false false false false), 0%nat.
  split; [vm_compute; discriminate|]. split; [vm_compute; reflexivity|]. split; [vm_compute; discriminate|vm_compute; reflexivity].
Qed.
Print Assumptions C78_all_counted_refuted.
Example C78_ex : counts (MAddRole "auditor") /\ returned (MAddRole "auditor") u1 = MOk /\ u_revision (after (MAddRole "auditor") u1) = (u_revision u1 + 1)%Z /\
  (exists e, returned (MAddEmail "nonsense") u1 = MErr e) /\ after (MAddRole "auditor") u1 <> u1.
Proof. split; [exact I|]. split; [vm_compute; reflexivity|]. split; [vm_compute; reflexivity|]. split; [eexists; vm_compute; reflexivity|vm_compute; discriminate]. Qed.

(** C79 *)
(** GetUser hands out the account itself. *)
Theorem C79_get_user E nd fs0 db fs r : mixed E tame fs0 db -> let o := exec E nd OpGetUser db fs r in
  o_db o = db /\ o_fs o = fs /\ ((o_res o = OOk /\ exists i u, identity_of E db r i u /\ rq_payload (o_req o) = PUser i) \/
    ((exists e, o_res o = OErr e) /\ forall i u, ~ identity_of E db r i u)).
Proof.
  intros M o. apply inv_mixed in M. subst o. cbn [exec]. unfold db_get_user. destruct validate_identity as [[i u]|e] eqn:V; (split; [reflexivity|]; split; [reflexivity|]).
  - left. split; [reflexivity|]. exists i, u. split; [now apply inv_validate|reflexivity].
  - right. split; [eexists; reflexivity|]. intros i u H. apply inv_validate in H; [|assumption]. congruence.
Qed.
Print Assumptions C79_get_user.
(** A password set through it is in force at once, whatever the policy says, and is the only one. *)
Theorem C79_set_password E nd nd' fs0 fs db i u s keep r u' : mixed E tame fs0 db -> account db i u ->
  call_method E nd (MAddPassword s keep) u = (u', MOk) -> bcrypt_complete E ->
  resolves_login E db (ru_username (rq_user r)) i u -> ru_password (rq_user r) = trim_space s ->
  o_res (exec E nd' OpAuthenticate (live E nd i (MAddPassword s keep) db) fs r) = OOk.
Proof.
  intros M Hi C B Rs Pw. assert (Ne : trim_space s <> "") by (apply add_password_shape in C as (? & ? & ? & _ & _ & _ & _ & N & _); exact N).
  apply inv_authenticate; [apply inv_live; [exact I|now apply inv_mixed in M]|now rewrite Pw|].
  exists i, u'. split.
  - pose proof (live_resolves E nd i (MAddPassword s keep) db u _ i u I Hi Rs) as L. rewrite Nat.eqb_refl, C in L. exact L.
  - rewrite Pw. eapply added_accepts; eauto.
Qed.
Print Assumptions C79_set_password.
Theorem C79_only_password E nd nd' fs0 fs db i u s keep r u' : mixed E tame fs0 db -> account db i u ->
  call_method E nd (MAddPassword s keep) u = (u', MOk) -> bcrypt_sound E -> ru_password (rq_user r) <> "" ->
  resolves_login E db (ru_username (rq_user r)) i u -> key72 (ru_password (rq_user r)) <> key72 (trim_space s) ->
  o_res (exec E nd' OpAuthenticate (live E nd i (MAddPassword s keep) db) fs r) <> OOk.
Proof.
  intros M Hi C B Ne Rs K O. assert (HI : Inv E (live E nd i (MAddPassword s keep) db)) by (apply inv_live; [exact I|now apply inv_mixed in M]).
  apply inv_authenticate in O as (j & v & Rv & Ac); [|assumption|assumption].
  pose proof (live_resolves E nd i (MAddPassword s keep) db u _ i u I Hi Rs) as L. rewrite Nat.eqb_refl, C in L. cbn [fst] in L.
  apply inv_get_user in L, Rv; [|assumption|assumption]. assert (v = u') as -> by congruence. apply K. eapply added_only; eauto.
Qed.
Print Assumptions C79_only_password.
(** So the length limits do not hold for passwords in force. *)
Theorem C79_policy_refuted : exists E nd nd' fs db i s r, mixed E tame fs db /\
  (zlen s < pp_min (po_password (db_policy db)))%Z /\ ru_password (rq_user r) = s /\
  o_res (exec E nd' OpAuthenticate (live E nd i (MAddPassword s 10) db) fs r) = OOk.
Proof.
  exists toy, (draws 9), (draws 20), two.1, two.2, 1%nat, "pw", (new_request <| rq_user; ru_username := "bob" |> <| rq_user; ru_password := "pw" |>).
  split; [apply two_mixed|]. split; [vm_compute; reflexivity|]. split; reflexivity || (vm_compute; reflexivity).
Qed.
Print Assumptions C79_policy_refuted.
Example C79_ex : mixed toy tame two.1 two.2 /\ account two.2 1 u1 /\ returned (MAddPassword "pw" 10) u1 = MOk /\ bcrypt_complete toy /\ bcrypt_sound toy /\
  o_res (exec toy (draws 20) OpAuthenticate (live toy (draws 9) 1 (MAddPassword "pw" 10) two.2) two.1
    (new_request <| rq_user; ru_username := "bob" |> <| rq_user; ru_password := "secret-pw-2" |>)) <> OOk.
Proof.
  split; [apply two_mixed|]. split; [exact u1_account|]. split; [vm_compute; reflexivity|]. split; [exact toy_complete|]. split; [exact toy_sound|vm_compute; discriminate].
Qed.

(** C80 *)
(** Mixing in direct calls other than AddEmailAddress and AddAPIKey keeps every lookup exact. *)
Theorem C80_login_lookup E fs db s i u : mixed E tame fs db -> (get_user E db s = Some (i, u) <-> resolves_login E db s i u).
Proof. intros M. apply inv_get_user. now apply inv_mixed in M. Qed.
Print Assumptions C80_login_lookup.
Theorem C80_identity_lookup E fs db r i u : mixed E tame fs db -> (validate_identity E db r = inl (i, u) <-> identity_of E db r i u).
Proof. intros M. apply inv_validate. now apply inv_mixed in M. Qed.
Print Assumptions C80_identity_lookup.
Theorem C80_names_unique E fs db i j u v : mixed E tame fs db -> account db i u -> account db j v ->
  same_ci E (u_username u) (u_username v) \/ (exists e f, In e (u_emails u) /\ In f (u_emails v) /\ same_ci E (em_address e) (em_address f)) -> i = j.
Proof.
  intros M%inv_mixed Hu Hv [S|(e & f & He & Hf & S)].
  - assert (ref_username db !! lower E (u_username v) = Some i) as A by (apply (inv_name _ _ M); eauto).
    assert (ref_username db !! lower E (u_username v) = Some j) as B by (apply (inv_name _ _ M); eauto). congruence.
  - assert (ref_email db !! lower E (em_address f) = Some i) as A.
    { apply (inv_email _ _ M). exists u. split; [exact Hu|]. unfold addrs_of. apply in_map_iff. exists e. auto. }
    assert (ref_email db !! lower E (em_address f) = Some j) as B.
    { apply (inv_email _ _ M). exists v. split; [exact Hv|]. unfold addrs_of. apply in_map_iff. exists f. auto. }
    congruence.
Qed.
Print Assumptions C80_names_unique.
(** Such changes reach the file with the next successful write and survive a restart. *)
Theorem C80_survives E nd op r fs0 fs db nd2 : register_typed E -> mixed E tame fs0 db -> writes op -> written_path op db = db_path db ->
  let o := exec E nd op db fs r in
  o_res o = OOk -> (forall i j u v, account (o_db o) i u -> account (o_db o) j v -> u_id u = u_id v -> i = j) ->
  plain_path (db_path db) -> readable nd2 ->
  exists db2, new_database E nd2 (db_path db) (o_fs o) = (o_fs o, Loaded db2) /\ db_content db2 = clean_content (db_content (o_db o)).
Proof.
  intros RT M W T o O U Pl Rd. destruct (write_saved E nd op db fs r W T O) as [V Hp]. fold o in V, Hp.
  assert (M' : mixed E tame (o_fs o) (o_db o)).
  { apply MxCall; [eapply MxEdit; exact M|..]; fold o; rewrite O; discriminate. }
  destruct (reopen_mixed E nd2 (o_fs o) (o_fs o) (o_db o) RT M' U V ltac:(now rewrite Hp) Rd) as (db2 & H1 & H2 & _). rewrite Hp in H1. eauto.
Qed.
Print Assumptions C80_survives.
(** AddEmailAddress on a live account checks no other account; once written, such a file cannot be opened. *)
Theorem C80_foreign_address E nd nd2 nd3 fs db i j u v f s u' op r :
  register_typed E -> mixed E no_new_key fs db -> account db i u -> account db j v -> i <> j -> In f (u_emails v) -> em_address f = s ->
  call_method E nd (MAddEmail s) u = (u', MOk) ->
  let db1 := live E nd i (MAddEmail s) db in
  writes op -> written_path op db1 = db_path db1 -> o_res (exec E nd2 op db1 fs r) = OOk -> plain_path (db_path db) -> readable nd3 ->
  exists err, new_database E nd3 (db_path db) (o_fs (exec E nd2 op db1 fs r)) = (o_fs (exec E nd2 op db1 fs r), LErr err).
Proof. exact (foreign_address E nd nd2 nd3 fs db i j u v f s u' op r). Qed.
Print Assumptions C80_foreign_address.
(** A new address added that way is not known to the open database, nor is a new API key. *)
Theorem C80_new_address_unknown E nd i s db fs0 : mixed E tame fs0 db -> In "@"%char (los s) ->
  (forall j v, account db j v -> ~ has_address E v s) -> get_user E (live E nd i (MAddEmail s) db) s = None.
Proof. exact (new_address_unknown E nd i s db fs0). Qed.
Print Assumptions C80_new_address_unknown.
Theorem C80_new_key_unknown E nd nd' i r0 db fs0 fs r : reachable_by E (key_ids_fresh E) fs0 db ->
  (forall j v k, account db j v -> In k (u_apikeys v) -> ak_prefix k <> take 24 (rk_payload (rq_key r))) ->
  exists e, o_res (exec E nd' OpLookupAPIKey (live E nd i (MAddAPIKey r0) db) fs r) = OErr e.
Proof. exact (new_key_unknown E nd nd' i r0 db fs0 fs r). Qed.
Print Assumptions C80_new_key_unknown.
Theorem C80_all_methods_refuted : exists E (m : Method) nd nd2 nd3 fs db i e, mixed E (fun _ => True) fs (live E nd i m db) /\ mixed E tame fs db /\
  o_res (exec E nd2 OpSave (live E nd i m db) fs new_request) = OOk /\
  snd (new_database E nd3 (db_path db) (o_fs (exec E nd2 OpSave (live E nd i m db) fs new_request))) = LErr e.
Proof.
  exists toy, (MAddEmail "bob@example.com"), (draws 9), (draws 20), (draws 70), two.1, two.2, 0%nat. eexists. split; [apply MxMethod; [apply two_mixed|exact I]|].
  split; [apply two_mixed|]. split; vm_compute; reflexivity.
Qed.
Print Assumptions C80_all_methods_refuted.
Example C80_ex : mixed toy tame two.1 (live toy (draws 9) 1 (MAddRole "auditor") two.2) /\
  (exists u, account (live toy (draws 9) 1 (MAddRole "auditor") two.2) 1 u /\ u_roles u <> u_roles u1) /\
  o_res (exec toy (draws 20) OpSave (live toy (draws 9) 1 (MAddRole "auditor") two.2) two.1 new_request) = OOk /\
  (exists db2, new_database toy (draws 70) "db.json" (o_fs (exec toy (draws 20) OpSave (live toy (draws 9) 1 (MAddRole "auditor") two.2) two.1 new_request)) =
     (o_fs (exec toy (draws 20) OpSave (live toy (draws 9) 1 (MAddRole "auditor") two.2) two.1 new_request), Loaded db2) /\
     map (fun u => List.length (u_roles u)) (db_users db2) = [2; 1]%nat) /\
  returned (MAddEmail "bob@example.com") u0 = MOk /\ get_user toy (live toy (draws 9) 0 (MAddEmail "new@example.com") two.2) "new@example.com" = None.
Proof.
  split; [apply MxMethod; [apply two_mixed|exact I]|]. split; [eexists; split; [exact (live_account toy (draws 9) 1 (MAddRole "auditor") two.2 u1 u1_account)|vm_compute; discriminate]|].
  split; [vm_compute; reflexivity|]. split; [eexists; split; [vm_compute; reflexivity|reflexivity]|]. split; vm_compute; reflexivity.
Qed.

(** C81 *)
(** AddEmailAddress: exactly the addresses of the grammar, each once, the first becomes the main one. *)
Theorem C81_add_email E nd u s : let (u', res) := call_method E nd (MAddEmail s) u in
  ((forall d, ~ email_grammar s d) /\ (exists e, res = MErr e) /\ u' = u) \/
  (res = MOk /\ (exists d, email_grammar s d) /\ has_exactly u s /\ u' = u) \/
  (res = MOk /\ ~ has_exactly u s /\ revised (nd_clock nd) u u' /\
   (exists e, email_grammar s (em_domain e) /\ em_address e = s /\ em_confirmed e = false /\ u_emails u' = (u_emails u ++ [e])%list /\
     (u_emails u = [] -> u_email u' = Some e) /\ (u_emails u <> [] -> u_email u' = u_email u))).
Proof.
  cbn [call_method]. destruct (add_email_cases nd u s) as [(G & e & Q)|[(e & He & X & Q)|(e & u1 & He & X & Q & Em & P1 & P2 & R)]]; rewrite Q; cbn [or_same].
  - left. split; [exact G|]. split; [eauto|reflexivity].
  - right. left. split; [reflexivity|]. split; [|auto]. apply EmailFacts.new_email_spec in He. destruct He as (G & _). exists (em_domain e). exact G.
  - right. right. split; [reflexivity|]. split; [exact X|]. split; [exact R|]. exists e. apply EmailFacts.new_email_spec in He. destruct He as (G & A & C). auto 10.
Qed.
Print Assumptions C81_add_email.
(** Adding it again changes nothing. *)
Theorem C81_idempotent E nd nd' u s u' : call_method E nd (MAddEmail s) u = (u', MOk) -> call_method E nd' (MAddEmail s) u' = (u', MOk).
Proof.
  intros C. pose proof (C81_add_email E nd u s) as H. rewrite C in H. pose proof (C81_add_email E nd' u' s) as H'. destruct (call_method E nd' (MAddEmail s) u') as [u2 res].
  assert (X : (exists d, email_grammar s d) /\ has_exactly u' s).
  { destruct H as [(_ & (e & Q) & _)|[(_ & G & X & ->)|(_ & _ & _ & e & G & A & _ & Em & _)]]; [discriminate|auto|]. split; [eauto|]. exists e. rewrite Em. split; [apply in_app_iff; right; now left|exact A]. }
  destruct X as [[d G] X]. destruct H' as [(N & _)|[(-> & _ & _ & ->)|(_ & N & _)]]; [now destruct (N d)|reflexivity|contradiction].
Qed.
Print Assumptions C81_idempotent.
Example C81_ex : map em_address (u_emails (after (MAddEmail "b@example.org") u1)) = ["bob@example.com"; "b@example.org"] /\
  after (MAddEmail "bob@example.com") u1 = u1 /\ returned (MAddEmail "bob@example.com") u1 = MOk /\
  map em_address (u_emails (after (MAddEmail "BOB@example.com") u1)) = ["bob@example.com"; "BOB@example.com"].
Proof. split; [vm_compute; reflexivity|]. split; [vm_compute; reflexivity|]. split; vm_compute; reflexivity. Qed.

(** C82 *)
(** AddName: a name that renders like one the account has is not added; the first is the main one and is not counted. *)
Theorem C82_add_name E nd u n s : rendered n s -> let (u', res) := call_method E nd (MAddName n) u in res = MOk /\
  ((u_names u = [] /\ u_names u' = [n] /\ u_name u' = Some n /\ u_revision u' = u_revision u /\ u_modified u' = u_modified u) \/
   (u_names u <> [] /\ named u s /\ u' = u) \/
   (u_names u <> [] /\ ~ named u s /\ u_names u' = (u_names u ++ [n])%list /\ u_name u' = u_name u /\ revised (nd_clock nd) u u')).
Proof.
  intros R. cbn [call_method]. split; [reflexivity|]. destruct (add_name_cases nd u n s R) as [(H & ->)|H]; [left; repeat split; auto|right; exact H].
Qed.
Print Assumptions C82_add_name.
Notation full := (Build_Name "Jane" "Smith" "" "" false false false false false).
Example C82_ex : rendered full "Smith, Jane" /\ after (MAddName full) u0 = u0 /\ u_name (after (MAddName full) u1) = Some full /\ u_revision (after (MAddName full) u1) = u_revision u1 /\
  List.length (u_names (after (MAddName (Build_Name "Janet" "Smith" "" "" false false false false false)) u0)) = 2%nat.
Proof. split; [right; split; [discriminate|reflexivity]|]. split; [vm_compute; reflexivity|]. split; [vm_compute; reflexivity|]. split; vm_compute; reflexivity. Qed.

(** C83 *)
(** AddRoles adds, without repetition, the new ones among the roles before the first blank one, in
    the order of their first appearance: what a prefix of the list brings is a prefix of what is added. *)
Theorem C83_add_roles E nd u l : let (u', res) := call_method E nd (MAddRoles l) u in
  exists l1 l2 added, l = (l1 ++ l2)%list /\ Forall (fun s => trim_space s <> "") l1 /\
    ((res = MOk /\ l2 = []) \/ (res = MErr (EStd ErrRoleEmpty) /\ exists s l3, l2 = s :: l3 /\ trim_space s = "")) /\
    u_roles u' = (u_roles u ++ added)%list /\ (forall r, In r added <-> ~ In r (u_roles u) /\ exists s, In s l1 /\ new_role s = inl r) /\
    NoDup added /\
    (forall a b, l1 = (a ++ b)%list -> exists x y, added = (x ++ y)%list /\ forall r, In r x <-> ~ In r (u_roles u) /\ exists s, In s a /\ new_role s = inl r) /\
    u_revision u' = fold_left (fun n _ => int64 (n + 1)) added (u_revision u).
Proof.
  cbn [call_method]. destruct (add_roles_live nd u l) as [u' e] eqn:A. destruct (add_roles_live_spec nd l u u' e A) as (l1 & l2 & added & H1 & H2 & H3 & H4).
  exists l1, l2, added. split; [exact H1|]. split; [exact H2|]. split; [|exact H4]. destruct H3 as [[-> ->]|[-> H]]; [left|right]; auto.
Qed.
Print Assumptions C83_add_roles.
Example C83_ex : roles_claim (u_roles (after (MAddRoles ["viewer"; "a/b"; "a/b"; "c"]) u0)) = ["corp/admin"; "viewer"; "a/b"; "c"] /\
  returned (MAddRoles ["x"; " "; "y"]) u1 = MErr (EStd ErrRoleEmpty) /\ roles_claim (u_roles (after (MAddRoles ["x"; " "; "y"]) u1)) = ["x"].
Proof. split; [vm_compute; reflexivity|]. split; [vm_compute; reflexivity|]. vm_compute; reflexivity. Qed.

(** C84 *)
(** Disable touches one entry, and of it only the four marks. *)
Theorem C84_disable E nd k u :
  at_only (pw_off (nd_clock nd)) k (u_passwords u) (u_passwords (fst (call_method E nd (MDisablePassword k) u))) /\
  at_only (pk_off (nd_clock nd)) k (u_pubkeys u) (u_pubkeys (fst (call_method E nd (MDisablePublicKey k) u))) /\
  at_only (ak_off (nd_clock nd)) k (u_apikeys u) (u_apikeys (fst (call_method E nd (MDisableAPIKey k) u))) /\
  at_only (t_off (nd_clock nd)) k (u_mfa u) (u_mfa (fst (call_method E nd (MDisableMfaToken k) u))).
Proof. split; [|split; [|split]]; apply alter_at_only; intros []; reflexivity. Qed.
Print Assumptions C84_disable.
(** A disabled password is not accepted, the others are as before. *)
Theorem C84_password E nd k u s : accepts E (fst (call_method E nd (MDisablePassword k) u)) s <->
  exists j p, j <> k /\ u_passwords u !! j = Some p /\ active p /\ e_bcmp E (pw_hash p) s = true.
Proof. exact (disable_accepts E nd k u s). Qed.
Print Assumptions C84_password.
(** A disabled token takes no part in a WebAuthn login. *)
Theorem C84_token E nd k u id p : first_candidate (fst (call_method E nd (MDisableMfaToken k) u)) id p -> exists j, j <> k /\ u_mfa u !! j = Some p.
Proof.
  intros (l1 & l2 & L & (D & _) & _). apply (disable_candidate E nd k u p); [|exact D]. rewrite L. apply in_app_iff. right. now left.
Qed.
Print Assumptions C84_token.
(** A disabled API key works as before, and a disabled token validates codes as before. *)
Theorem C84_api_key E nd nd' k i db fs r :
  o_res (exec E nd' OpLookupAPIKey (live E nd i (MDisableAPIKey k) db) fs r) = o_res (exec E nd' OpLookupAPIKey db fs r).
Proof. exact (disable_lookup E nd nd' k i db fs r). Qed.
Print Assumptions C84_api_key.
Theorem C84_code E nd t code now : validate_code E (t_disable nd t) code now = validate_code E t code now.
Proof. reflexivity. Qed.
Print Assumptions C84_code.
Example C84_ex : accepts toy u1 "secret-pw-2" /\ ~ accepts toy (after (MDisablePassword 0) u1) "secret-pw-2" /\
  (exists p, u_passwords u1 !! 0%nat = Some p /\ active p).
Proof.
  assert (A : exists p, u_passwords u1 = [p] /\ active p /\ e_bcmp toy (pw_hash p) "secret-pw-2" = true).
  { eexists. split; [vm_compute; reflexivity|]. split; [split; reflexivity|vm_compute; reflexivity]. }
  destruct A as (p & Hp & Ac & Mt). split; [exists p; rewrite Hp; split; [now left|auto]|]. split; [|exists p; rewrite Hp; auto].
  unfold after. rewrite C84_password. intros (j & q & N & Hq & _). rewrite Hp in Hq. destruct j as [|[|j]]; [congruence|discriminate|discriminate].
Qed.

(** C85 *)
Theorem C85_accepts E nd s purpose algo c p : new_password_with E nd s purpose algo c = ROk p <->
  trim_space s <> "" /\ algo = "bcrypt" /\ exists k h, chosen_cost c k /\ e_bcrypt E (nd_salt nd) (trim_space s) k = Some h /\
    p = {| pw_purpose := purpose; pw_algorithm := "bcrypt"; pw_hash := h; pw_cost := k; pw_expired := false; pw_expired_at := 0;
           pw_created := nd_clock nd; pw_disabled := false; pw_disabled_at := 0 |}.
Proof.
  assert (G : forall z, (match new_password_opt E nd s purpose algo z with inl p => ROk p | inr e => RErr e end) = ROk p <->
    trim_space s <> "" /\ algo = "bcrypt" /\ exists h, e_bcrypt E (nd_salt nd) (trim_space s) (if (z <? 8)%Z then 10%Z else z) = Some h /\
    p = {| pw_purpose := purpose; pw_algorithm := "bcrypt"; pw_hash := h; pw_cost := if (z <? 8)%Z then 10%Z else z; pw_expired := false; pw_expired_at := 0;
           pw_created := nd_clock nd; pw_disabled := false; pw_disabled_at := 0 |}).
  { intros z. unfold new_password_opt, pw_hash_of. cbv zeta. destruct (String.eqb_spec (trim_space s) "") as [T|T]; [split; [discriminate|tauto]|].
    destruct (String.eqb_spec algo "bcrypt") as [->|A]; [|destruct (String.eqb algo ""); (split; [discriminate|tauto])].
    destruct e_bcrypt as [h|] eqn:B.
    - split; [intros [=<-]; split; [exact T|]; split; [reflexivity|]; eauto|]. intros (_ & _ & h' & [=<-] & ->). reflexivity.
    - split; [discriminate|]. intros (_ & _ & h' & X & _). discriminate. }
  destruct c as [|z|]; cbn [new_password_with chosen_cost].
  - rewrite G. cbn. split.
    + intros (T & A & h & B & ->). split; [exact T|]. split; [exact A|]. exists 10%Z, h. auto.
    + intros (T & A & k & h & -> & B & ->). split; [exact T|]. split; [exact A|]. exists h. auto.
  - rewrite G. destruct (Z.ltb_spec z 8) as [L|L]; split.
    + intros (T & A & h & B & ->). split; [exact T|]. split; [exact A|]. exists 10%Z, h. auto.
    + intros (T & A & k & h & [(_ & ->)|(L' & _)] & B & ->); [|lia]. split; [exact T|]. split; [exact A|]. exists h. auto.
    + intros (T & A & h & B & ->). split; [exact T|]. split; [exact A|]. exists z, h. auto.
    + intros (T & A & k & h & [(L' & _)|(_ & ->)] & B & ->); [lia|]. split; [exact T|]. split; [exact A|]. exists h. auto.
  - split; [discriminate|]. intros (_ & _ & ? & ? & [] & _).
Qed.
Print Assumptions C85_accepts.
(** A cost that is not an int ends the process, everything else that is not accepted is an error. *)
Theorem C85_panics E nd s purpose algo c : new_password_with E nd s purpose algo c = RPanic <-> c = CostOther.
Proof. destruct c; cbn; [|  |tauto]; destruct new_password_opt; split; discriminate. Qed.
Print Assumptions C85_panics.
Theorem C85_errors E nd s purpose algo c : c <> CostOther ->
  (trim_space s = "" -> new_password_with E nd s purpose algo c = RErr (EStd ErrPasswordEmpty)) /\
  (trim_space s <> "" -> algo = "" -> new_password_with E nd s purpose algo c = RErr (EStd ErrPasswordEmptyAlgorithm)) /\
  (trim_space s <> "" -> algo <> "" -> algo <> "bcrypt" -> new_password_with E nd s purpose algo c = RErr (EWith ErrPasswordUnsupportedAlgorithm [AStr algo])).
Proof.
  intros N. assert (G : forall z,
    (trim_space s = "" -> new_password_opt E nd s purpose algo z = inr (EStd ErrPasswordEmpty)) /\
    (trim_space s <> "" -> algo = "" -> new_password_opt E nd s purpose algo z = inr (EStd ErrPasswordEmptyAlgorithm)) /\
    (trim_space s <> "" -> algo <> "" -> algo <> "bcrypt" -> new_password_opt E nd s purpose algo z = inr (EWith ErrPasswordUnsupportedAlgorithm [AStr algo]))).
  { intros z. unfold new_password_opt, pw_hash_of. cbv zeta. destruct (String.eqb_spec (trim_space s) "") as [T|T]; [repeat split; tauto|].
    destruct (String.eqb_spec algo "bcrypt") as [->|A]; [repeat split; (tauto || discriminate)|]. destruct (String.eqb_spec algo "") as [->|B]; repeat split; tauto. }
  destruct c as [|z|]; cbn [new_password_with]; [destruct (G 0%Z) as (A & B & C)|destruct (G z) as (A & B & C)|now destruct N];
    (split; [intros; now rewrite A|split; [intros; now rewrite B|intros; now rewrite C]]).
Qed.
Print Assumptions C85_errors.
Example C85_ex : (exists p, new_password_with toy (draws 9) "secret" "generic" "bcrypt" (CostInt 12) = ROk p /\ pw_cost p = 12%Z) /\
  (exists p, new_password_with toy (draws 9) "secret" "generic" "bcrypt" (CostInt 4) = ROk p /\ pw_cost p = 10%Z) /\
  new_password_with toy (draws 9) "secret" "generic" "argon2" CostAbsent = RErr (EWith ErrPasswordUnsupportedAlgorithm [AStr "argon2"]).
Proof. split; [eexists; split; [vm_compute; reflexivity|reflexivity]|]. split; [eexists; split; [vm_compute; reflexivity|reflexivity]|reflexivity]. Qed.

(** C86 *)
Theorem C86_valid u : user_valid u = None <-> String.length (u_id u) = 36%nat /\ u_username u <> "" /\ u_passwords u <> [].
Proof.
  unfold user_valid, zlen. destruct (Z.eqb_spec (Z.of_nat (String.length (u_id u))) 36) as [L|L]; cbn [negb]; [|split; [discriminate|intros (H & _); lia]].
  destruct (String.eqb_spec (u_username u) "") as [N|N]; [split; [discriminate|tauto]|].
  destruct (u_passwords u); split; try discriminate; try tauto. intros _. split; [lia|]. split; [exact N|discriminate].
Qed.
Print Assumptions C86_valid.
Theorem C86_has u : (has_emails u = true <-> exists e, In e (u_emails u)) /\ (has_roles u = true <-> exists r, In r (u_roles u)).
Proof.
  unfold has_emails, has_roles. split.
  - destruct (u_emails u) as [|e l]; split; [discriminate|intros (? & [])|intros _; exists e; now left|reflexivity].
  - destruct (u_roles u) as [|e l]; split; [discriminate|intros (? & [])|intros _; exists e; now left|reflexivity].
Qed.
Print Assumptions C86_has.
(** Every account of a database in which direct calls other than AddEmailAddress and AddAPIKey were made is valid. *)
Theorem C86_kept E fs db i u : mixed E tame fs db -> account db i u -> user_valid u = None.
Proof. intros M%inv_mixed H. apply C86_valid. exact (inv_valid _ _ M _ _ H). Qed.
Print Assumptions C86_kept.
Example C86_ex : user_valid u0 = None /\ has_emails u0 = true /\ has_roles u1 = false /\ user_valid (new_user (draws 1) "x") <> None.
Proof. split; [vm_compute; reflexivity|]. split; [vm_compute; reflexivity|]. split; [vm_compute; reflexivity|vm_compute; discriminate]. Qed.
