(** Theorems about the database file (C20, C50-C54, C57-C59, C76). *)
From Coq Require Import String Ascii ZArith NArith Lia Bool Arith List ZifyBool ZifyN ZifyNat.
From stdpp Require Import gmap strings.
From RecordUpdate Require Import RecordSet.
From Verif Require Import GoStr Utf8 Codec GoErr GoTime Random Types Env Mfa Persist Fs Database System SpecDb SpecAuth SpecPersist Examples.
From Verif Require Import DbFacts LoadFacts AccountFacts StepFacts MfaFacts PersistFacts ReloadFacts ReopenFacts FileFacts OpenFacts.
Import ListNotations.
Import RecordSetNotations.
Open Scope string_scope.

(** ** The example environment *)
Lemma toy_typed : register_typed toy.
Proof.
  intros s q a d [=<-]. cbn. intros [=<-]. cbn. intros [=<-]. cbn. split; [lia|]. intros m k [=<-] [b Hb].
  apply lookup_insert_Some in Hb as [[<- _]|[_ Hb]]; [reflexivity|]. now rewrite lookup_empty in Hb.
Qed.
Lemma loaded_inj a b : Loaded a = Loaded b -> a = b.
Proof. intros H. now injection H. Qed.
Lemma start_fresh : reachable_by toy (fresh_draws toy) start.1 start.2.
Proof.
  exists ∅. eapply StCons with (ev := EvOpen (draws 0) "db.json"); [apply StNil| |].
  - split; [exact I|]. intros fs db i u H Hu. change (w_fs {| w_fs := ∅; w_mem := Down |}) with (∅ : FS) in H. rewrite start_open in H. apply (f_equal snd), loaded_inj in H. rewrite <- H in Hu. vm_compute in Hu. discriminate.
  - change {| w_fs := start.1; w_mem := Up start.2 |} with {| w_fs := start_fs; w_mem := after_load Down (Loaded start_db) |}. constructor; [exact start_open|discriminate].
Qed.
Notation one := (run toy start [(draws 1, OpAddUser, jane_req)]).
Lemma one_fresh : reachable_by toy (fresh_draws toy) one.1 one.2.
Proof.
  destruct start_fresh as (fs0 & S). exists fs0. eapply (exec_steps toy (fresh_draws toy) (draws 1) OpAddUser start.2 start.1 jane_req); [exact S| |split; vm_compute; discriminate].
  split; [|exact I]. exists 0%nat. split; [lia|]. intros i u Hu. exfalso. vm_compute in Hu. discriminate.
Qed.
Notation bob_out := (exec toy (draws 40) OpAddUser one.2 one.1 bob_req).
Lemma bob_ok : o_res bob_out = OOk. Proof. vm_compute. reflexivity. Qed.
Lemma bob_draws : fresh_draws toy {| w_fs := one.1; w_mem := Up one.2 |} (EvCall (draws 40) OpAddUser bob_req).
Proof.
  split; [|exact I]. exists 0%nat. split; [lia|]. intros i u Hu. destruct i as [|i]; [|exfalso; vm_compute in Hu; discriminate].
  vm_compute in Hu. injection Hu as <-. vm_compute. discriminate.
Qed.

Lemma utf8_by l : forallb valid_utf8 l = true -> all_utf8 l.
Proof. intros H. apply List.Forall_forall. now apply forallb_forall. Qed.
Lemma years_by l : forallb time_ok l = true -> Forall in_years l.
Proof. rewrite forallb_forall. intros H. apply List.Forall_forall. intros t Ht. now apply time_ok_iff, H. Qed.

(** C20 *)
Theorem C20_limits E nd fp fs fs' db : new_database E nd fp fs = (fs', Loaded db) -> limits_set (db_policy db).
Proof. intros H. exact (proj1 (open_policy _ _ _ _ _ _ H)). Qed.
Print Assumptions C20_limits.
(** A new database gets all defaults. *)
Theorem C20_new E nd fp fs fs' db : new_database E nd fp fs = (fs', Loaded db) -> fs !! fp = None -> policy_filled policy_z (db_policy db).
Proof. intros H F. destruct (open_policy _ _ _ _ _ _ H) as [_ G]. rewrite F in G. destruct (String.eqb fp ""); exact G. Qed.
Print Assumptions C20_new.
Theorem C20_stored E nd fp fs fs' db n : new_database E nd fp fs = (fs', Loaded db) -> fp <> "" -> fs !! fp = Some n ->
  exists b c, read_file E nd fs fp = Some b /\ unmarshal b = DOk c /\ policy_filled (rc_policy c) (db_policy db).
Proof. intros H Ne F. destruct (open_policy _ _ _ _ _ _ H) as [_ G]. rewrite F in G. apply String.eqb_neq in Ne. now rewrite Ne in G. Qed.
Print Assumptions C20_stored.
Example C20_ex : exists fs db, new_database toy (draws 0) "db.json" lax_fs = (fs, Loaded db) /\ up_min (po_user (db_policy db)) = 1%Z /\
  up_max (po_user (db_policy db)) = 50%Z /\ pp_min (po_password (db_policy db)) = 8%Z.
Proof. eexists _, _. split; [vm_compute; reflexivity|]. repeat split; vm_compute; reflexivity. Qed.

(** C50 *)
Theorem C50_round_trip c : content_typed c -> all_utf8 (content_texts c) -> Forall in_years (content_instants c) ->
  exists s, marshal c = Some s /\ unmarshal s = DOk (to_raw (drop_caches c)).
Proof. exact (round_trip c). Qed.
Print Assumptions C50_round_trip.
(** Nothing but a time outside years 0 to 9999 prevents the encoding. *)
Theorem C50_encodable c : (exists s, marshal c = Some s) <-> Forall in_years (content_instants c).
Proof. exact (marshal_iff c). Qed.
Print Assumptions C50_encodable.
(** Texts that are not UTF-8 come back with every undecodable byte replaced. *)
Theorem C50_any_text c s : content_typed c -> marshal c = Some s -> unmarshal s = DOk (to_raw (clean_content c)).
Proof. exact (unmarshal_marshal c s). Qed.
Print Assumptions C50_any_text.
Example C50_ex : content_typed (db_content two.2) /\ all_utf8 (content_texts (db_content two.2)) /\ Forall in_years (content_instants (db_content two.2)).
Proof.
  split; [|split].
  - destruct one_fresh as (fs0 & S). apply (policy_typed_content toy (fresh_draws toy) (o_fs bob_out)); [exact toy_typed|]. exists fs0. exact (exec_steps _ _ _ _ _ _ _ _ S bob_draws (ok_returned _ bob_ok)).
  - apply utf8_by. vm_compute. reflexivity.
  - apply years_by. vm_compute. reflexivity.
Qed.

(** C51 *)
Theorem C51_survives E nd op r fs db fs1 db1 nd2 :
  register_typed E -> reachable_by E (fresh_draws E) fs db -> fresh_draws E {| w_fs := fs; w_mem := Up db |} (EvCall nd op r) ->
  writes op -> written_path op db = db_path db -> o_res (exec E nd op db fs r) = OOk ->
  steps E read_calls {| w_fs := o_fs (exec E nd op db fs r); w_mem := Up (o_db (exec E nd op db fs r)) |} {| w_fs := fs1; w_mem := Up db1 |} ->
  plain_path (db_path db) -> readable nd2 ->
  exists db2, new_database E nd2 (db_path db) fs1 = (fs1, Loaded db2) /\ db_content db2 = clean_content (db_content db1) /\
    (all_utf8 (content_texts (db_content db1)) -> db_content db2 = drop_caches (db_content db1) /\ forall l fs', answers E l db2 fs' = answers E l db1 fs').
Proof. exact (acknowledged_survives E nd op r fs db fs1 db1 nd2). Qed.
Print Assumptions C51_survives.
(** With a repeated UUID the acknowledged file cannot be opened again. *)
Theorem C51_repeated_uuid_refuted : exists E fs db nd op r nd2 e, register_typed E /\ reachable E fs db /\ writes op /\ plain_path (db_path db) /\ readable nd2 /\
  o_res (exec E nd op db fs r) = OOk /\ new_database E nd2 (db_path db) (o_fs (exec E nd op db fs r)) = (o_fs (exec E nd op db fs r), LErr e).
Proof.
  pose (w := run toy start [(same_uuid (draws 1), OpAddUser, jane_req)]).
  exists toy, w.1, w.2, (same_uuid (draws 40)), OpAddUser, bob_req, (draws 0). eexists.
  split; [exact toy_typed|]. split; [apply run_reachable; vm_compute; reflexivity|]. split; [intros H; cbn in H; intuition discriminate|].
  split; [vm_compute; discriminate|]. split; [split; reflexivity|]. split; [vm_compute; reflexivity|]. vm_compute. reflexivity.
Qed.
Print Assumptions C51_repeated_uuid_refuted.
Example C51_ex : register_typed toy /\ reachable_by toy (fresh_draws toy) one.1 one.2 /\ fresh_draws toy {| w_fs := one.1; w_mem := Up one.2 |} (EvCall (draws 40) OpAddUser bob_req) /\
  o_res bob_out = OOk /\ plain_path (db_path one.2) /\ all_utf8 (content_texts (db_content (o_db bob_out))) /\
  exists db2, new_database toy (draws 70) "db.json" (o_fs bob_out) = (o_fs bob_out, Loaded db2) /\ List.length (db_users db2) = 2%nat.
Proof.
  split; [exact toy_typed|]. split; [exact one_fresh|]. split; [exact bob_draws|]. split; [exact bob_ok|]. split; [vm_compute; discriminate|].
  split; [apply utf8_by; vm_compute; reflexivity|]. eexists. split; [vm_compute; reflexivity|reflexivity].
Qed.

(** C52 *)
(** A crash inside the write leaves a prefix of the new text; unless it is all of it, nothing can
    be opened any more. *)
Theorem C52_crash E nd op db fs r : o_res (exec E nd op db fs r) = OCrash ->
  exists k s, marshal (db_content (o_db (exec E nd op db fs r))) = Some s /\
    o_fs (exec E nd op db fs r) = <[written_path op db := File (take k s)]> fs /\
    ((k < String.length s)%nat -> plain_path (written_path op db) -> forall nd2, exists e,
       new_database E nd2 (written_path op db) (o_fs (exec E nd op db fs r)) = (o_fs (exec E nd op db fs r), LErr e)) /\
    ((String.length s <= k)%nat -> o_fs (exec E nd op db fs r) = <[written_path op db := File s]> fs).
Proof.
  intros H. destruct (crash_leaves _ _ _ _ _ _ H) as (k & s & _ & M & _ & F). exists k, s. split; [exact M|]. split; [exact F|]. split.
  - intros K P nd2. apply (torn E nd2 _ _ (to_raw (db_content (o_db (exec E nd op db fs r)))) s k); [exact M|exact K|exact P|]. rewrite F. apply lookup_insert.
  - intros K. rewrite F. now rewrite take_all.
Qed.
Print Assumptions C52_crash.
(** The old database could be opened, after the crash none can. *)
Theorem C52_atomic_refuted : exists E fs db nd op r nd2 db0 e, reachable E fs db /\ o_res (exec E nd op db fs r) = OCrash /\
  new_database E nd2 (db_path db) fs = (fs, Loaded db0) /\ List.length (db_users db0) = 2%nat /\
  new_database E nd2 (db_path db) (o_fs (exec E nd op db fs r)) = (o_fs (exec E nd op db fs r), LErr e).
Proof.
  exists toy, two.1, two.2, (with_io (draws 9) (IoCrash 0)), OpSave, new_request, (draws 70). eexists _, _. split; [exact two_reachable|].
  split; [vm_compute; reflexivity|]. split; [vm_compute; reflexivity|]. split; [reflexivity|]. vm_compute. reflexivity.
Qed.
Print Assumptions C52_atomic_refuted.
Example C52_ex : o_res (exec toy (with_io (draws 9) (IoCrash 100)) OpSave two.2 two.1 new_request) = OCrash /\ plain_path (written_path OpSave two.2) /\
  exists e, new_database toy (draws 70) "db.json" (o_fs (exec toy (with_io (draws 9) (IoCrash 100)) OpSave two.2 two.1 new_request)) =
    (o_fs (exec toy (with_io (draws 9) (IoCrash 100)) OpSave two.2 two.1 new_request), LErr e).
Proof. split; [vm_compute; reflexivity|]. split; [vm_compute; discriminate|]. eexists. vm_compute. reflexivity. Qed.

(** C53 *)
Theorem C53_torn E nd fp fs c s k : marshal c = Some s -> (k < String.length s)%nat -> plain_path fp -> fs !! fp = Some (File (take k s)) ->
  exists e, new_database E nd fp fs = (fs, LErr e).
Proof. exact (torn E nd fp fs (to_raw c) s k). Qed.
Print Assumptions C53_torn.
Example C53_ex : exists s, marshal (db_content two.2) = Some s /\ (1000 < String.length s)%nat.
Proof. eexists. split; [vm_compute; reflexivity|]. vm_compute. lia. Qed.

(** C54 *)
(** The memory after a call does not depend on whether its write succeeds. *)
Theorem C54_kept E nd nd' op db fs fs' r : but_write nd nd' -> writes op -> o_res (exec E nd op db fs r) = OOk ->
  o_db (exec E nd' op db fs' r) = o_db (exec E nd op db fs r) /\
  (o_res (exec E nd' op db fs' r) = OOk <-> can_write nd' fs' (written_path op db) (db_content (o_db (exec E nd op db fs r)))).
Proof. exact (failed_write_kept E nd nd' op db fs fs' r). Qed.
Print Assumptions C54_kept.
(** Every error either had no effect at all or is such a failed write. *)
Theorem C54_errors E nd op db fs r e : o_res (exec E nd op db fs r) = OErr e -> let o := exec E nd op db fs r in
  (o_fs o = fs /\ drop_caches (db_content (o_db o)) = drop_caches (db_content db) /\ (writes op -> o_db o = db)) \/
  (writes op /\ ~ can_write nd fs (written_path op db) (db_content (o_db o)) /\ (forall nd' fs', but_write nd nd' ->
     can_write nd' fs' (written_path op db) (db_content (o_db o)) -> o_res (exec E nd' op db fs' r) = OOk /\ o_db (exec E nd' op db fs' r) = o_db o)).
Proof. exact (error_cases E nd op db fs r e). Qed.
Print Assumptions C54_errors.
Theorem C54_no_effect_refuted : exists E nd op db fs r e i u, reachable E fs db /\ o_res (exec E nd op db fs r) = OErr e /\
  (forall i u, ~ resolves_login E db "carol" i u) /\ resolves_login E (o_db (exec E nd op db fs r)) "carol" i u /\ o_fs (exec E nd op db fs r) = fs.
Proof.
  pose (q := signup "carol" "carol@example.com" "secret-pw-3").
  exists toy, (with_io (draws 90) IoOpenErr), OpAddUser, two.2, two.1, q. eexists _, _, _. split; [exact two_reachable|]. split; [vm_compute; reflexivity|].
  split.
  { intros i u H. apply (get_user_resolves toy two.1 two.2) in H; [|exact two_reachable]. vm_compute in H. discriminate. }
  split; [|vm_compute; reflexivity].
  assert (HR : reachable toy (o_fs (exec toy (with_io (draws 90) IoOpenErr) OpAddUser two.2 two.1 q)) (o_db (exec toy (with_io (draws 90) IoOpenErr) OpAddUser two.2 two.1 q))).
  { apply exec_reachable; [exact two_reachable|]. split; vm_compute; discriminate. }
  eapply get_user_resolves; [exact HR|]. vm_compute. reflexivity.
Qed.
Print Assumptions C54_no_effect_refuted.
Example C54_ex : but_write (draws 9) (with_io (draws 9) (IoShort 5)) /\ writes OpSave /\ o_res (exec toy (draws 9) OpSave two.2 two.1 new_request) = OOk /\
  (exists e, o_res (exec toy (with_io (draws 9) (IoShort 5)) OpSave two.2 two.1 new_request) = OErr e).
Proof. split; [repeat split|]. split; [intros H; cbn in H; intuition discriminate|]. split; [vm_compute; reflexivity|]. eexists. vm_compute. reflexivity. Qed.

(** C57 *)
Theorem C57_opened E nd fp fs fs' db : new_database E nd fp fs = (fs', Loaded db) -> consistent E (db_users db) /\ indexed E db.
Proof. intros H. destruct (open_sound _ _ _ _ _ _ H) as (C & I & _). split; assumption. Qed.
Print Assumptions C57_opened.
Theorem C57_accounts E nd fp fs fs' db : new_database E nd fp fs = (fs', Loaded db) -> fp <> "" -> is_Some (fs !! fp) ->
  exists b c us, read_file E nd fs fp = Some b /\ unmarshal b = DOk c /\ Forall2 decodes (rc_users c) us /\ consistent E us /\ db_users db = map with_algorithm us.
Proof. intros H. destruct (open_sound _ _ _ _ _ _ H) as (_ & _ & G). exact G. Qed.
Print Assumptions C57_accounts.
(** Every consistent file opens, every inconsistent one is refused with an error. *)
Theorem C57_exactly E nd fp fs b c us : plain_path fp -> readable nd -> fs !! fp = Some (File b) -> unmarshal b = DOk c -> limits_set (rc_policy c) ->
  Forall2 decodes (rc_users c) us ->
  (consistent E us -> exists db, new_database E nd fp fs = (fs, Loaded db) /\ db_users db = map with_algorithm us) /\
  (~ consistent E us -> exists e, new_database E nd fp fs = (fs, LErr e)).
Proof. exact (open_complete E nd fp fs b c us). Qed.
Print Assumptions C57_exactly.
(** A policy with all limits and two accounts, "a" and [name]. *)
Definition json_user (name id rest : string) : string :=
  "{""id"":""00000000-0000-0000-0000-00000000000" ++ id ++ """,""username"":""" ++ name ++ """,""passwords"":[{""hash"":""h""}]" ++ rest ++ "}".
Definition json_db (users : string) : string :=
  "{""policy"":{""password"":{""keep_versions"":1,""min_length"":1,""max_length"":1},""user"":{""min_length"":1,""max_length"":1}},""users"":[" ++ users ++ "]}".
Definition file_of (b : string) : FS := <["db.json" := File b]> ∅.
Definition opens_to (b : string) : LoadRes := snd (new_database toy (draws 0) "db.json" (file_of b)).
Definition decoded (b : string) : RawContent := match unmarshal b with DOk c => c | _ => content_z end.
Notation pair_json := (json_db (json_user "a" "1" "" ++ "," ++ json_user "b" "2" "")).
Notation clash_json := (json_db (json_user "a" "1" "" ++ "," ++ json_user "A" "2" "")).
Example C57_ex : unmarshal pair_json = DOk (decoded pair_json) /\ limits_set (rc_policy (decoded pair_json)) /\ (exists us, Forall2 decodes (rc_users (decoded pair_json)) us) /\
  (exists db, opens_to pair_json = Loaded db /\ map u_username (db_users db) = ["a"; "b"] /\ map pw_algorithm (flat_map u_passwords (db_users db)) = ["bcrypt"; "bcrypt"]) /\
  (exists e, opens_to clash_json = LErr e).
Proof.
  split; [vm_compute; reflexivity|]. split; [vm_compute; repeat split; discriminate|]. split.
  { apply no_null. intros [H|(r & H & N)]; vm_compute in H; [intuition discriminate|]. destruct H as [H|[H|[]]]; injection H as <-; vm_compute in N; intuition discriminate. }
  split; eexists; [|vm_compute; reflexivity]. split; [vm_compute; reflexivity|]. split; vm_compute; reflexivity.
Qed.

(** C58 *)
(** Opening panics only on a file with a null entry. *)
Theorem C58_panics_only E nd fp fs fs' : new_database E nd fp fs = (fs', LPanic) -> exists b c, read_file E nd fs fp = Some b /\ unmarshal b = DOk c /\ has_null c.
Proof. exact (panic_null E nd fp fs fs'). Qed.
Print Assumptions C58_panics_only.
(** Such a file is never opened. *)
Theorem C58_null_refused E nd fp fs fs' db b c : read_file E nd fs fp = Some b -> unmarshal b = DOk c -> has_null c -> fp <> "" -> is_Some (fs !! fp) ->
  new_database E nd fp fs <> (fs', Loaded db).
Proof. exact (null_not_loaded E nd fp fs fs' db b c). Qed.
Print Assumptions C58_null_refused.
(** A null account after consistent ones always panics. *)
Theorem C58_null_panics E nd fp fs b c us l : plain_path fp -> readable nd -> fs !! fp = Some (File b) -> unmarshal b = DOk c -> limits_set (rc_policy c) ->
  rc_users c = (map (fun u => Some (to_raw_user u)) us ++ None :: l)%list -> consistent E us -> new_database E nd fp fs = (fs, LPanic).
Proof. exact (null_panics E nd fp fs b c us l). Qed.
Print Assumptions C58_null_panics.
Theorem C58_never_refuted : forall E nd, nd_stat_err nd = false -> nd_read_err nd = false -> nd_write nd = IoOk -> 
  Forall (fun b => snd (new_database E nd "db.json" (file_of b)) = LPanic)
    [json_db "null"; json_db (json_user "a" "1" ",""email_addresses"":[null]"); json_db (json_user "a" "1" ",""api_keys"":[null]");
     json_db "{""id"":""00000000-0000-0000-0000-000000000001"",""username"":""a"",""passwords"":[null]}"].
Proof.
  intros E nd H1 H2 H3. repeat constructor; unfold new_database; rewrite H1; unfold read_file; rewrite H2; vm_compute; reflexivity.
Qed.
Print Assumptions C58_never_refuted.
Example C58_ex : has_null (decoded (json_db (json_user "a" "1" "" ++ ",null"))) /\ opens_to (json_db (json_user "a" "1" "" ++ ",null")) = LPanic /\
  (exists e, opens_to "[]" = LErr e).
Proof. split; [left; vm_compute; auto|]. split; [vm_compute; reflexivity|]. eexists. vm_compute. reflexivity. Qed.

(** C59 *)
(** The file written at a path beginning with '~' is not looked at by the next open. *)
Theorem C59_ignored E nd s p fs b b' : e_home E (String "~" s) = Some p -> p <> String "~" s -> fs !! String "~" s = Some (File b) ->
  snd (new_database E nd (String "~" s) (<[String "~" s := File b']> fs)) = snd (new_database E nd (String "~" s) fs).
Proof. exact (tilde_other E nd s p fs b b'). Qed.
Print Assumptions C59_ignored.
Theorem C59_other E nd s p fs fs' db n : e_home E (String "~" s) = Some p -> fs !! String "~" s = Some n -> new_database E nd (String "~" s) fs = (fs', Loaded db) ->
  exists b c us, fs !! p = Some (File b) /\ unmarshal b = DOk c /\ Forall2 decodes (rc_users c) us /\ db_users db = map with_algorithm us.
Proof. exact (tilde_reads E nd s p fs fs' db n). Qed.
Print Assumptions C59_other.
Theorem C59_missing E nd s p fs n : e_home E (String "~" s) = Some p -> fs !! String "~" s = Some n -> (forall b, fs !! p <> Some (File b)) ->
  exists e, new_database E nd (String "~" s) fs = (fs, LErr e).
Proof. exact (tilde_missing E nd s p fs n). Qed.
Print Assumptions C59_missing.
(** Other paths are read where they are written. *)
Theorem C59_plain E fp : plain_path fp -> expand E fp = Some fp.
Proof. intros (_ & T)%plain_prefix. unfold expand. now rewrite T. Qed.
Print Assumptions C59_plain.
Theorem C59_reopen_refuted : exists E fs db nd r e,
  new_database E nd "~/db.json" ∅ = (fs, Loaded db) /\ o_res (exec E nd OpAddUser db fs r) = OOk /\
  new_database E nd "~/db.json" (o_fs (exec E nd OpAddUser db fs r)) = (o_fs (exec E nd OpAddUser db fs r), LErr e).
Proof.
  exists toy. pose (o := new_database toy (draws 0) "~/db.json" ∅). exists (fst o), (match snd o with Loaded db => db | _ => start_db end), (draws 0), jane_req. eexists.
  split; [vm_compute; reflexivity|]. split; vm_compute; reflexivity.
Qed.
Print Assumptions C59_reopen_refuted.
Example C59_ex : e_home toy "~/db.json" = Some "/home/u~/db.json" /\
  exists fs db, new_database toy (draws 0) "~/db.json" (<["~/db.json" := File clash_json]> (<["/home/u~/db.json" := File pair_json]> ∅)) = (fs, Loaded db) /\
    map u_username (db_users db) = ["a"; "b"].
Proof. split; [reflexivity|]. eexists _, _. split; [vm_compute; reflexivity|]. vm_compute. reflexivity. Qed.

(** C76 *)
(** An environment whose one-time passwords depend on the key. *)
Definition keyed : Env :=
  {| e_lr := e_lr toy; e_bcrypt := e_bcrypt toy; e_bcmp := e_bcmp toy; e_hmac := fun _ k m => sol (los k ++ rev (los m) ++ los (zeros 20))%list;
     e_sha256 := e_sha256 toy; e_ecdsa := e_ecdsa toy; e_ssh := e_ssh toy; e_pem := e_pem toy; e_pkix := e_pkix toy; e_pgp := e_pgp toy;
     e_register := e_register toy; e_authreq := e_authreq toy; e_client := e_client toy; e_home := e_home toy |}.
Definition raw_secret : string := String "255" "ec".
Definition raw_code : string := match gen_code keyed raw_secret "sha1" 6 54680106 with inl c => c | inr _ => "" end.
Definition raw_req : Request :=
  who "jane" "jane@example.com" <| rq_mfa; rm_type := "totp" |> <| rq_mfa; rm_secret := raw_secret |> <| rq_mfa; rm_comment := "phone" |> <| rq_mfa; rm_period := 30%Z |>
       <| rq_mfa; rm_passcode := raw_code |>.
Definition keyed_one : FS * Database := run keyed start [(draws 1, OpAddUser, jane_req)].
Lemma keyed_open : new_database keyed (draws 0) "db.json" ∅ = (start_fs, Loaded start_db).
Proof. vm_compute. reflexivity. Qed.
Lemma keyed_fresh : reachable_by keyed (fresh_draws keyed) keyed_one.1 keyed_one.2.
Proof.
  assert (S : steps keyed (fresh_draws keyed) {| w_fs := ∅; w_mem := Down |} (world start)).
  { eapply StCons with (ev := EvOpen (draws 0) "db.json"); [apply StNil| |].
    - split; [exact I|]. intros fs db i u H Hu. change (w_fs {| w_fs := ∅; w_mem := Down |}) with (∅ : FS) in H. rewrite keyed_open in H. apply (f_equal snd), loaded_inj in H. rewrite <- H in Hu. vm_compute in Hu. discriminate.
    - change (world start) with {| w_fs := start_fs; w_mem := after_load Down (Loaded start_db) |}. constructor; [exact keyed_open|discriminate]. }
  exists ∅. eapply (exec_steps keyed (fresh_draws keyed) (draws 1) OpAddUser start.2 start.1 jane_req); [exact S| |split; vm_compute; discriminate].
  split; [|exact I]. exists 0%nat. split; [lia|]. intros i u Hu. exfalso. vm_compute in Hu. discriminate.
Qed.
(** An accepted one-time password token whose codes are refused after a restart: its secret is not
    UTF-8 and comes back altered. *)
Theorem C76_secret_refuted : exists E nd fs db r nd2 db2 t t2 code,
  register_typed E /\ reachable_by E (fresh_draws E) fs db /\ plain_path (db_path db) /\ readable nd2 /\
  let o := exec E nd OpAddMfaToken db fs r in
  o_res o = OOk /\ new_database E nd2 (db_path db) (o_fs o) = (o_fs o, Loaded db2) /\
  flat_map u_mfa (db_users (o_db o)) = [t] /\ flat_map u_mfa (db_users db2) = [t2] /\ t_id t2 = t_id t /\
  validate_code E t code (nd_clock nd - 30000000000) = None /\ validate_code E t2 code (nd_clock nd - 30000000000) <> None.
Proof.
  exists keyed, (draws 9), keyed_one.1, keyed_one.2, raw_req, (draws 70). eexists _, _, _, raw_code. split; [exact toy_typed|]. split; [exact keyed_fresh|].
  split; [vm_compute; discriminate|]. split; [split; reflexivity|]. cbv zeta. split; [vm_compute; reflexivity|]. split; [vm_compute; reflexivity|].
  split; [vm_compute; reflexivity|]. split; [vm_compute; reflexivity|]. split; [reflexivity|]. split; vm_compute; [reflexivity|discriminate].
Qed.
Print Assumptions C76_secret_refuted.
(** Every text comes back with each undecodable byte replaced by U+FFFD; UTF-8 texts unchanged. *)
Theorem C76_replaced E nd op r fs db nd2 :
  register_typed E -> reachable_by E (fresh_draws E) fs db -> fresh_draws E {| w_fs := fs; w_mem := Up db |} (EvCall nd op r) ->
  writes op -> written_path op db = db_path db -> o_res (exec E nd op db fs r) = OOk -> plain_path (db_path db) -> readable nd2 ->
  exists db2, new_database E nd2 (db_path db) (o_fs (exec E nd op db fs r)) = (o_fs (exec E nd op db fs r), Loaded db2) /\
    db_content db2 = clean_content (db_content (o_db (exec E nd op db fs r))) /\
    (all_utf8 (content_texts (db_content (o_db (exec E nd op db fs r)))) -> db_content db2 = drop_caches (db_content (o_db (exec E nd op db fs r)))).
Proof.
  intros RT HR Fr W T O P Rd. destruct (acknowledged_survives E nd op r fs db _ _ nd2 RT HR Fr W T O (StNil _ _ _) P Rd) as (db2 & H1 & H2 & H3).
  exists db2. split; [exact H1|]. split; [exact H2|]. intros U. exact (proj1 (H3 U)).
Qed.
Print Assumptions C76_replaced.
Notation raw_out := (exec keyed (draws 9) OpAddMfaToken keyed_one.2 keyed_one.1 raw_req).
Example C76_ex : (o_res raw_out = OOk) /\ (exists t, flat_map u_mfa (db_users (o_db raw_out)) = [t] /\ t_secret t = raw_secret) /\
  sanitize raw_secret = String "239" (String "191" (String "189" "ec")).
Proof. split; [vm_compute; reflexivity|]. split; [eexists; split; [vm_compute; reflexivity|reflexivity]|vm_compute; reflexivity]. Qed.
