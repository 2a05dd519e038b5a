(** Theorems about the ledger of calls that took effect (C118). *)
From Coq Require Import String Ascii ZArith NArith Lia Bool Arith List.
From stdpp Require Import gmap strings.
From RecordUpdate Require Import RecordSet.
From Verif Require Import GoStr GoErr Email Random Types Env Persist Fs Database System SpecDb SpecCrypto SpecAuth SpecPersist SpecDefect SpecOutage SpecLedger.
From Verif Require Import AccountFacts DbFacts LedgerFacts Examples PropertiesPassword PropertiesApiKey PropertiesPersist.
Import ListNotations.
Import RecordSetNotations.
Open Scope string_scope.

(** C118 *)
(** The database holds the accounts of the ledger, in order, with its addresses and its keys. *)
Theorem C118_accounts E fs db l : register_typed E -> recorded E fs db l ->
  map u_username (db_users db) = map en_name l /\ map (fun u => map em_address (u_emails u)) (db_users db) = map (fun e => [en_mail e]) l /\
  map (fun u => map ak_id (u_apikeys u)) (db_users db) = map (fun e => map fst (en_keys e)) l.
Proof. exact (names_recorded E fs db l). Qed.
Print Assumptions C118_accounts.
(** A login name stands for one entry at most. *)
Theorem C118_one_entry E fs db l i j e e' s : register_typed E -> recorded E fs db l -> l !! i = Some e -> l !! j = Some e' ->
  called E e s -> called E e' s -> i = j.
Proof. exact (one_entry E fs db l i j e e' s). Qed.
Print Assumptions C118_one_entry.
(** A password login succeeds exactly if the ledger has that password for that name or address. *)
Theorem C118_login E fs db l nd r : register_typed E -> bcrypt_complete E -> bcrypt_sound E -> bcrypt_72 E -> recorded E fs db l ->
  ru_password (rq_user r) <> "" ->
  o_res (exec E nd OpAuthenticate db fs r) = OOk <->
  exists e, In e l /\ called E e (ru_username (rq_user r)) /\ key72 (ru_password (rq_user r)) = key72 (en_secret e).
Proof. exact (login_recorded E fs db l nd r). Qed.
Print Assumptions C118_login.
(** An API key is accepted exactly if its first 72 bytes are those of a key in the ledger, and then the
    answer names the owner of that key. *)
Theorem C118_key E fs db l nd r : register_typed E -> bcrypt_complete E -> bcrypt_sound E -> bcrypt_72 E -> recorded E fs db l ->
  let s := rk_payload (rq_key r) in let o := exec E nd OpLookupAPIKey db fs r in
  (o_res o = OOk <-> (72 <= String.length s)%nat /\ exists e id k, In e l /\ In (id, k) (en_keys e) /\ firstn 72 (los s) = firstn 72 (los k)) /\
  (o_res o = OOk -> forall e id k, In e l -> In (id, k) (en_keys e) -> firstn 72 (los s) = firstn 72 (los k) ->
     ru_username (rq_user (o_req o)) = en_name e /\ ru_email (rq_user (o_req o)) = en_mail e).
Proof. exact (key_recorded E fs db l nd r). Qed.
Print Assumptions C118_key.
(** A password is changed, saved or not, only for one who gives the password in the ledger. *)
Theorem C118_change E fs db l nd r : register_typed E -> bcrypt_complete E -> bcrypt_sound E -> bcrypt_72 E -> recorded E fs db l ->
  took (exec E nd OpChangePassword db fs r) = true ->
  exists e, In e l /\ same_ci E (en_name e) (ru_username (rq_user r)) /\ key72 (ru_old_password (rq_user r)) = key72 (en_secret e).
Proof. exact (change_recorded E fs db l nd r). Qed.
Print Assumptions C118_change.
(** Two histories with one ledger admit the same passwords and the same keys. *)
Theorem C118_determined E fs db fs' db' l nd nd' r : register_typed E -> bcrypt_complete E -> bcrypt_sound E -> bcrypt_72 E -> recorded E fs db l -> recorded E fs' db' l ->
  (ru_password (rq_user r) <> "" -> o_res (exec E nd OpAuthenticate db fs r) = OOk <-> o_res (exec E nd' OpAuthenticate db' fs' r) = OOk) /\
  (o_res (exec E nd OpLookupAPIKey db fs r) = OOk <-> o_res (exec E nd' OpLookupAPIKey db' fs' r) = OOk).
Proof.
  intros RT Bc Bs B7 R R'. split.
  - intros Ne. rewrite (C118_login E fs db l nd r RT Bc Bs B7 R Ne), (C118_login E fs' db' l nd' r RT Bc Bs B7 R' Ne). reflexivity.
  - rewrite (proj1 (C118_key E fs db l nd r RT Bc Bs B7 R)), (proj1 (C118_key E fs' db' l nd' r RT Bc Bs B7 R')). reflexivity.
Qed.
Print Assumptions C118_determined.
(** These histories are among those of the other theorems. *)
Theorem C118_reachable E fs db l : recorded E fs db l -> reachable E fs db.
Proof. exact (recorded_reachable E fs db l). Qed.
Print Assumptions C118_reachable.

(** Two accounts, a changed password, a key issued to each, one of them deleted, and a restart. *)
Fixpoint ledger_of {L} (step : Nd -> Op -> Request -> Out -> L -> L) (w : FS * Database) (l : list (Nd * Op * Request)) (led : L) : L :=
  match l with
  | [] => led
  | (nd, op, r) :: l => ledger_of step (run1 toy w (nd, op, r)) l (step nd op r (exec toy nd op w.2 w.1 r) led)
  end.
Definition all_return (w : FS * Database) (l : list (Nd * Op * Request)) : bool :=
  snd (fold_left (fun x c => let o := exec toy c.1.1 c.1.2 (snd (fst x)) (fst (fst x)) c.2 in
                             ((o_fs o, o_db o), snd x && match o_res o with OHang | OCrash => false | _ => true end)) l (w, true)).
Definition ledger_calls : list (Nd * Op * Request) :=
  two_calls ++ [(draws 50, OpChangePassword, change "JANE" "jane@example.com" "secret-pw-1" " secret-pw-9 "); (draws 9, OpAddAPIKey, jane_key);
                (draws 99, OpAddAPIKey, bob_key); (draws 100, OpDeleteAPIKey, kill jane_key jane_id)].
Definition ledger_end : FS * Database := run toy start ledger_calls.
Definition bob_secret : string := secret (exec toy (draws 99) OpAddAPIKey (run toy start (firstn 4 ledger_calls)).2 (run toy start (firstn 4 ledger_calls)).1 bob_key).
Definition jane_secret : string := secret (exec toy (draws 9) OpAddAPIKey (run toy start (firstn 3 ledger_calls)).2 (run toy start (firstn 3 ledger_calls)).1 jane_key).
Lemma run_traced {L} (step : Nd -> Op -> Request -> Out -> L -> L) l0 l : forall w led, traced toy step l0 w.1 w.2 led -> all_return w l = true ->
  traced toy step l0 (run toy w l).1 (run toy w l).2 (ledger_of step w l led).
Proof.
  assert (F : forall l w b, snd (fold_left (fun x c => let o := exec toy c.1.1 c.1.2 (snd (fst x)) (fst (fst x)) c.2 in
                             ((o_fs o, o_db o), snd x && match o_res o with OHang | OCrash => false | _ => true end)) l (w, b)) = true -> b = true).
  { clear. induction l as [|c l IH]; intros w b H; [exact H|]. cbn [fold_left] in H. apply IH in H. cbn [snd] in H. now apply andb_prop in H as [H _]. }
  induction l as [|[[nd op] r] l IH]; intros w led R A; [exact R|]. unfold all_return in A. cbn [fold_left fst snd] in A.
  assert (O : o_res (exec toy nd op w.2 w.1 r) <> OHang /\ o_res (exec toy nd op w.2 w.1 r) <> OCrash).
  { apply F in A as B. cbn [andb] in B. destruct (o_res (exec toy nd op w.2 w.1 r)); try discriminate; split; discriminate. }
  destruct O as [O1 O2]. unfold run. cbn [fold_left ledger_of]. fold (run toy). apply IH.
  - unfold run1. cbn [fst snd]. exact (TrCall toy step l0 nd op r w.1 w.2 led R O1 O2).
  - unfold run1. cbn [fst snd]. unfold all_return. destruct (o_res (exec toy nd op w.2 w.1 r)); try congruence; exact A.
Qed.
Definition logins (db : Database) : list bool :=
  map (fun c => match o_res (exec toy (draws 0) OpAuthenticate db ledger_end.1 (login (fst c) (snd c))) with OOk => true | _ => false end)
    [("jane", "secret-pw-9"); ("jane", "secret-pw-1"); ("bob@example.com", "secret-pw-2")].
Definition lookups (db : Database) : list bool :=
  map (fun s => match o_res (exec toy (draws 0) OpLookupAPIKey db ledger_end.1 (show s)) with OOk => true | _ => false end) [bob_secret; jane_secret].
Definition restart_fs : FS := fst (new_database toy (draws 200) "db.json" ledger_end.1).
Definition restart_db : Database := match snd (new_database toy (draws 200) "db.json" ledger_end.1) with Loaded db => db | _ => empty_db "" content_z end.
Lemma restart_open : new_database toy (draws 200) "db.json" ledger_end.1 = (restart_fs, Loaded restart_db).
Proof. vm_compute. reflexivity. Qed.
Definition ledger_ex : Ledger :=
  [{| en_name := "Jane"; en_mail := "Jane@Example.com"; en_secret := "secret-pw-9"; en_keys := [] |};
   {| en_name := "bob"; en_mail := "bob@example.com"; en_secret := "secret-pw-2"; en_keys := [(random_string 40 (nd_id (draws 99)), bob_secret)] |}].
Lemma ledger_ex_is : ledger_of (enter toy) start ledger_calls [] = ledger_ex.
Proof. vm_compute. reflexivity. Qed.
Lemma ledger_recorded : recorded toy ledger_end.1 ledger_end.2 ledger_ex.
Proof.
  assert (A : all_return start ledger_calls = true) by (vm_compute; reflexivity).
  pose proof (run_traced (enter toy) [] ledger_calls start [] (TrNew toy (enter toy) [] (draws 0) "db.json" ∅ _ _ (or_intror eq_refl) start_open) A) as R.
  rewrite ledger_ex_is in R. exact R.
Qed.
Lemma ledger_disk : on_disk ledger_end.1 "db.json" ledger_end.2.
Proof.
  unfold on_disk. destruct (marshal (db_content ledger_end.2)) as [s|] eqn:M; [|vm_compute in M; discriminate]. exists s. split; [reflexivity|].
  assert (X : ledger_end.1 !! "db.json" = option_map File (marshal (db_content ledger_end.2))) by (vm_compute; reflexivity). rewrite X, M. reflexivity.
Qed.
Lemma ledger_utf8 : all_utf8 (content_texts (db_content ledger_end.2)).
Proof. unfold all_utf8. apply List.Forall_forall. apply forallb_forall. vm_compute. reflexivity. Qed.
Lemma restart_recorded : recorded toy restart_fs restart_db ledger_ex.
Proof.
  apply (TrRestart toy (enter toy) [] (draws 200) "db.json" ledger_end.1 ledger_end.1 restart_fs ledger_end.2 restart_db ledger_ex ledger_recorded ledger_disk);
    [discriminate|exact ledger_utf8|exact restart_open].
Qed.
Example C118_ex : register_typed toy /\ bcrypt_complete toy /\ bcrypt_sound toy /\ bcrypt_72 toy /\ recorded toy restart_fs restart_db ledger_ex /\
  logins restart_db = [true; false; true] /\ lookups restart_db = [true; false].
Proof.
  split; [exact toy_typed|]. split; [exact toy_complete|]. split; [exact toy_sound|]. split; [exact toy_72|]. split; [exact restart_recorded|]. vm_compute. auto.
Qed.
