(** Theorems about histories replayed (C129). *)
From Coq Require Import String Ascii ZArith NArith Lia Bool Arith List.
From stdpp Require Import gmap strings.
From RecordUpdate Require Import RecordSet.
From Verif Require Import GoStr Codec GoErr Random Types Env Persist Fs Database System SpecDb SpecAuth SpecMfa SpecPersist SpecDefect SpecOutage SpecLedger SpecReplay Examples.
From Verif Require Import Inv LoadFacts TwinFacts AccountFacts ReplayFacts PropertiesPassword PropertiesApiKey PropertiesPersist PropertiesLedger.
Import ListNotations.
Import RecordSetNotations.
Open Scope string_scope.

(** C129: a database holds what the noted calls of its history make of it when they are made one after
    the other on a disk on which every write succeeds: reads, refused calls, failed writes, changes of
    files by others and restarts add nothing. *)
Theorem C129_content E db0 fs db l : register_typed E -> logged E db0 fs db l ->
  drop_caches (db_content db) = drop_caches (db_content (replay E l db0)) /\ db_path db = db_path (replay E l db0).
Proof. intros RT R. destruct (logged_twin E db0 fs db l RT R) as ([] & _). auto. Qed.
Print Assumptions C129_content.
(** It answers every further sequence of calls, and writes the same file. *)
Theorem C129_answers E db0 fs db l : register_typed E -> logged E db0 fs db l -> forall calls fs', answers E calls db fs' = answers E calls (replay E l db0) fs'.
Proof. intros RT R calls fs'. apply answers_twin. exact (logged_twin E db0 fs db l RT R). Qed.
Print Assumptions C129_answers.
Theorem C129_file E db0 fs db l : register_typed E -> logged E db0 fs db l -> marshal (db_content db) = marshal (db_content (replay E l db0)).
Proof. intros RT R. rewrite <- (marshal_drop (db_content db)), <- (marshal_drop (db_content (replay E l db0))). now rewrite (proj1 (C129_content E db0 fs db l RT R)). Qed.
Print Assumptions C129_file.
(** Hence two histories with the same noted calls cannot be told apart. *)
Theorem C129_determined E db0 fs db fs' db' l : register_typed E -> logged E db0 fs db l -> logged E db0 fs' db' l ->
  marshal (db_content db) = marshal (db_content db') /\ forall calls fs2, answers E calls db fs2 = answers E calls db' fs2.
Proof.
  intros RT R R'. split; [now rewrite (C129_file E db0 fs db l RT R), (C129_file E db0 fs' db' l RT R')|].
  intros calls fs2. now rewrite (C129_answers E db0 fs db l RT R), (C129_answers E db0 fs' db' l RT R').
Qed.
Print Assumptions C129_determined.
Theorem C129_reachable E db0 fs db l : register_typed E -> logged E db0 fs db l -> reachable_by E (fresh_draws E) fs db.
Proof. exact (logged_reachable E db0 fs db l). Qed.
Print Assumptions C129_reachable.

(** A history with a failed write, refused calls, logins and a restart. *)
Definition fresh_by (db : Database) (nd : Nd) (op : Op) : bool :=
  match op with
  | OpAddUser => forallb (fun u => negb (String.eqb (u_id u) (new_id (nd_uuid nd 0)))) (db_users db)
  | OpAddAPIKey => forallb (fun u => forallb (fun k => negb (String.eqb (ak_id k) (random_string 40 (nd_id nd)))) (u_apikeys u)) (db_users db)
  | _ => true
  end.
Lemma fresh_by_ok E fs db nd op r : fresh_by db nd op = true -> fresh_draws E {| w_fs := fs; w_mem := Up db |} (EvCall nd op r).
Proof.
  intros H. destruct op; try (split; exact I); cbn in H.
  - split; [|exact I]. exists 0%nat. split; [lia|]. intros i u Hu. apply elem_of_list_lookup_2, elem_of_list_In in Hu. rewrite forallb_forall in H. specialize (H u Hu).
    now apply negb_true_iff, String.eqb_neq in H.
  - split; [exact I|]. intros d i u k [= <-] Hu Hk. apply elem_of_list_lookup_2, elem_of_list_In in Hu. rewrite forallb_forall in H. specialize (H u Hu).
    rewrite forallb_forall in H. specialize (H k Hk). now apply negb_true_iff, String.eqb_neq in H.
Qed.
Fixpoint log_of (w : FS * Database) (l log : list (Nd * Op * Request)) : list (Nd * Op * Request) :=
  match l with
  | [] => log
  | (nd, op, r) :: l => log_of (run1 toy w (nd, op, r)) l (if noted op (exec toy nd op w.2 w.1 r) then (log ++ [(nd, op, r)])%list else log)
  end.
Fixpoint all_fresh (w : FS * Database) (l : list (Nd * Op * Request)) : bool :=
  match l with
  | [] => true
  | (nd, op, r) :: l => fresh_by w.2 nd op && match o_res (exec toy nd op w.2 w.1 r) with OHang | OCrash => false | _ => all_fresh (run1 toy w (nd, op, r)) l end
  end.
Lemma run_logged db0 l : forall w log, logged toy db0 w.1 w.2 log -> all_fresh w l = true -> logged toy db0 (run toy w l).1 (run toy w l).2 (log_of w l log).
Proof.
  induction l as [|[[nd op] r] l IH]; intros w log R A; [exact R|]. cbn [all_fresh] in A. apply andb_prop in A as [A1 A2]. cbn [log_of].
  change (run toy w ((nd, op, r) :: l)) with (run toy (run1 toy w (nd, op, r)) l).
  assert (N : o_res (exec toy nd op w.2 w.1 r) <> OHang /\ o_res (exec toy nd op w.2 w.1 r) <> OCrash /\ all_fresh (run1 toy w (nd, op, r)) l = true)
    by (destruct (o_res (exec toy nd op w.2 w.1 r)); try discriminate A2; repeat split; try discriminate; exact A2).
  destruct N as (N1 & N2 & A3). apply IH; [|exact A3]. exact (LgCall toy db0 nd op r w.1 w.2 log R (fresh_by_ok toy w.1 w.2 nd op r A1) N1 N2).
Qed.
Definition story : list (Nd * Op * Request) :=
  [(with_io (draws 1) IoOpenErr, OpAddUser, jane_req); (draws 5, OpAddUser, jane_req); (draws 40, OpAddUser, bob_req);
   (draws 7, OpAuthenticate, login "jane" "secret-pw-1"); (draws 8, OpChangePassword, change "jane" "jane@example.com" "wrong" "secret-pw-7");
   (draws 9, OpAddAPIKey, jane_key); (draws 10, OpSave, new_request)].
Definition story_end : FS * Database := run toy start story.
Definition story_log : list (Nd * Op * Request) :=
  [(with_io (draws 1) IoOpenErr, OpAddUser, jane_req); (draws 40, OpAddUser, bob_req); (draws 9, OpAddAPIKey, jane_key); (draws 10, OpSave, new_request)].
Definition again_fs : FS := fst (new_database toy (draws 200) "db.json" story_end.1).
Definition again_db : Database := match snd (new_database toy (draws 200) "db.json" story_end.1) with Loaded db => db | _ => empty_db "" content_z end.
Definition more : list (Nd * Op * Request) :=
  [(draws 50, OpChangePassword, change "JANE" "jane@example.com" "secret-pw-1" "secret-pw-9"); (draws 51, OpDeleteUser, jane_req); (draws 99, OpAddAPIKey, bob_key)].
Definition more_end : FS * Database := run toy (again_fs, again_db) more.
Definition more_log : list (Nd * Op * Request) :=
  (story_log ++ [(draws 50, OpChangePassword, change "JANE" "jane@example.com" "secret-pw-1" "secret-pw-9"); (draws 99, OpAddAPIKey, bob_key)])%list.
Lemma again_open : new_database toy (draws 200) "db.json" story_end.1 = (again_fs, Loaded again_db).
Proof. vm_compute. reflexivity. Qed.
Lemma story_log_is : log_of start story [] = story_log.
Proof. vm_compute. reflexivity. Qed.
Lemma more_log_is : log_of (again_fs, again_db) more story_log = more_log.
Proof. vm_compute. reflexivity. Qed.
Lemma story_logged : logged toy start.2 story_end.1 story_end.2 story_log.
Proof.
  rewrite <- story_log_is. apply (run_logged start.2 story start []); [|vm_compute; reflexivity].
  exact (LgNew toy start.2 (draws 0) "db.json" ∅ start.1 (or_intror eq_refl) start_open).
Qed.
Lemma story_path : db_path story_end.2 = "db.json".
Proof. vm_compute. reflexivity. Qed.
Lemma story_disk : on_disk story_end.1 "db.json" story_end.2.
Proof.
  unfold on_disk. destruct (marshal (db_content story_end.2)) as [s|] eqn:M; [|vm_compute in M; discriminate]. exists s. split; [reflexivity|].
  assert (X : story_end.1 !! "db.json" = option_map File (marshal (db_content story_end.2))) by (vm_compute; reflexivity). rewrite X, M. reflexivity.
Qed.
Lemma more_logged : logged toy start.2 more_end.1 more_end.2 more_log.
Proof.
  rewrite <- more_log_is. apply (run_logged start.2 more (again_fs, again_db) story_log); [|vm_compute; reflexivity].
  apply (LgRestart toy start.2 (draws 200) story_end.1 again_fs story_end.2 again_db story_log story_logged); rewrite ?story_path.
  - exact story_disk.
  - discriminate.
  - unfold all_utf8. apply List.Forall_forall. apply forallb_forall. vm_compute. reflexivity.
  - split; reflexivity.
  - exact again_open.
Qed.
Example C129_ex : register_typed toy /\ logged toy start.2 more_end.1 more_end.2 more_log /\ List.length more_log = 6%nat /\
  List.length (db_users more_end.2) = 2%nat /\ map (fun u => List.length (u_apikeys u)) (db_users more_end.2) = [1; 1]%nat /\ db_revision more_end.2 = 7%N /\
  (exists e, o_res (exec toy (with_io (draws 1) IoOpenErr) OpAddUser start.2 start.1 jane_req) = OErr e).
Proof.
  split; [exact toy_typed|]. split; [exact more_logged|]. split; [reflexivity|]. split; [vm_compute; reflexivity|]. split; [vm_compute; reflexivity|].
  split; [vm_compute; reflexivity|]. eexists. vm_compute. reflexivity.
Qed.
(** With a repeated key identifier a restart can be noticed: two keys of one identifier are issued and deleted,
    and the prefix of the first one stays taken until the next restart. *)
Definition odd_end : FS * Database := run toy start PropertiesApiKey.twin_calls.
Definition odd_db : Database := match snd (new_database toy (draws 200) "db.json" odd_end.1) with Loaded db => db | _ => empty_db "" content_z end.
Definition odd_answers (db : Database) : list Outcome := map fst (answers toy [(draws 9, OpAddAPIKey, jane_key)] db odd_end.1).
Lemma odd_open : new_database toy (draws 200) "db.json" odd_end.1 = (odd_end.1, Loaded odd_db).
Proof. vm_compute. reflexivity. Qed.
Lemma odd_path : db_path odd_end.2 = "db.json".
Proof. vm_compute. reflexivity. Qed.
Lemma odd_disk : on_disk odd_end.1 "db.json" odd_end.2.
Proof.
  unfold on_disk. destruct (marshal (db_content odd_end.2)) as [s|] eqn:M; [|vm_compute in M; discriminate]. exists s. split; [reflexivity|].
  assert (X : odd_end.1 !! "db.json" = option_map File (marshal (db_content odd_end.2))) by (vm_compute; reflexivity). rewrite X, M. reflexivity.
Qed.
Lemma odd_live : odd_answers odd_end.2 = [OHang]. Proof. vm_compute. reflexivity. Qed.
Lemma odd_restarted : odd_answers odd_db = [OOk]. Proof. vm_compute. reflexivity. Qed.
Theorem C129_any_draws_refuted : exists E fs db nd db' calls, register_typed E /\ reachable E fs db /\ on_disk fs (db_path db) db /\ plain_path (db_path db) /\ readable nd /\
  all_utf8 (content_texts (db_content db)) /\ new_database E nd (db_path db) fs = (fs, Loaded db') /\ answers E calls db fs <> answers E calls db' fs.
Proof.
  exists toy, odd_end.1, odd_end.2, (draws 200), odd_db, [(draws 9, OpAddAPIKey, jane_key)]. rewrite odd_path. split; [exact toy_typed|].
  split; [apply run_reachable; vm_compute; reflexivity|]. split; [exact odd_disk|]. split; [discriminate|]. split; [split; reflexivity|].
  split; [apply utf8_by; vm_compute; reflexivity|]. split; [exact odd_open|]. intros H. apply (f_equal (map fst)) in H. change (odd_answers odd_end.2 = odd_answers odd_db) in H.
  rewrite odd_live, odd_restarted in H. discriminate H.
Qed.
Print Assumptions C129_any_draws_refuted.
