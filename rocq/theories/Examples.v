(** A concrete environment and concrete histories, used to show that hypotheses of the theorems
    can be met and as witnesses of the violations. *)
From Coq Require Import String Ascii ZArith NArith Lia Bool Arith List.
From stdpp Require Import gmap strings.
From RecordUpdate Require Import RecordSet.
From Verif Require Import GoStr Codec GoErr Types Env SpecCrypto Persist Fs Database System SpecDb.
Import ListNotations.
Import RecordSetNotations.
Open Scope string_scope.

Definition zeros (n : nat) : string := sol (repeat Ascii.zero n).
Definition toy_key : SshKey :=
  {| sk_type := "ssh-rsa"; sk_md5 := "aa"; sk_sha256 := "SHA256:abc"; sk_authorized := "ssh-rsa QUJD"; sk_pem := Some "pem" |}.
Definition toy_auth : string := zeros 32 ++ String "001" (zeros 4).
(** A hash is the 72 byte key itself, a signature is the message itself; every message decodes to
    the same credential, but the registration "bad" has a key type that is not a number. *)
Definition toy : Env := {|
  e_lr := fun c => c;
  e_bcrypt := fun _ s _ => Some ("h:" ++ sol (key72 s));
  e_bcmp := fun h s => String.eqb h ("h:" ++ sol (key72 s));
  e_hmac := fun _ _ m => sol (rev (los m) ++ los (zeros 20))%list;
  e_sha256 := fun s => s;
  e_ecdsa := fun _ m s => String.eqb m s;
  e_ssh := fun _ => Some toy_key;
  e_pem := fun s => Some ("RSA PUBLIC KEY", s); e_pkix := fun _ => PkixKey toy_key; e_pgp := fun _ => None;
  e_register := fun s => Some {| wr_id := "cred"; wr_type := "public-key"; wr_transports := ["usb"];
    wr_att := Some {| ao_auth := Some {| ad_rpid := hex_encode (zeros 32); ad_flags := Some (<["UP" := true]> ∅); ad_counter := 7;
      ad_cred := Some {| cd_pubkey := Some (if String.eqb s "bad" then <["key_type" := VStr "EC"]> ∅ else
        <["key_type" := VNum (Some 2%Z)]> (<["algorithm" := VNum (Some (-7)%Z)]>
        (<["curve_x" := VStr (b64_encode (zeros 32))]> (<["curve_y" := VStr (b64_encode (zeros 32))]> ∅)))) |} |} |} |};
  e_authreq := fun _ => Some {| wq_id := "cred"; wq_auth := b64_encode toy_auth; wq_client := b64_encode "c"; wq_sig := b64_encode (toy_auth ++ "c") |};
  e_client := fun _ => Some {| cl_challenge := "chal"; cl_cross := false; cl_type := "webauthn.get" |};
  e_home := fun s => Some ("/home/u" ++ s) |}.
Lemma toy_complete : bcrypt_complete toy.
Proof. intros salt s c h [=<-]. cbn [e_bcmp toy]. apply String.eqb_refl. Qed.
Lemma toy_sound : bcrypt_sound toy.
Proof.
  intros salt s c h s' [=<-] H. cbn [e_bcmp toy] in H. apply String.eqb_eq in H.
  apply (f_equal los) in H. rewrite !los_app, !los_sol in H. apply app_inv_head in H. now symmetry.
Qed.
Lemma toy_72 : bcrypt_72 toy.
Proof. intros h s s' H. cbn [e_bcmp toy]. now rewrite H. Qed.
Lemma toy_total : bcrypt_total toy.
Proof. intros salt s c _. eexists. reflexivity. Qed.

(** Draws that depend on a seed; [nd <| ... |>] forms vary them. *)
Definition draws (k : nat) : Nd := {|
  nd_clock := 63776000000000000000 + Z.of_nat k;
  nd_uuid := fun i j => ascii_of_nat (k + i + j);
  nd_id := fun i => N.of_nat (k + i); nd_secret := fun i => N.of_nat (k + i * i); nd_len := 3; nd_salt := ""; nd_pick := 0;
  nd_stat_err := false; nd_mkdir_err := false; nd_read_err := false; nd_write := IoOk |}.
Definition with_io (nd : Nd) (io : WriteIo) : Nd := {|
  nd_clock := nd_clock nd; nd_uuid := nd_uuid nd; nd_id := nd_id nd; nd_secret := nd_secret nd; nd_len := nd_len nd;
  nd_salt := nd_salt nd; nd_pick := nd_pick nd; nd_stat_err := nd_stat_err nd; nd_mkdir_err := nd_mkdir_err nd;
  nd_read_err := nd_read_err nd; nd_write := io |}.
Definition same_uuid (nd : Nd) : Nd := {|
  nd_clock := nd_clock nd; nd_uuid := fun _ _ => "a"%char; nd_id := nd_id nd; nd_secret := nd_secret nd; nd_len := nd_len nd;
  nd_salt := nd_salt nd; nd_pick := nd_pick nd; nd_stat_err := nd_stat_err nd; nd_mkdir_err := nd_mkdir_err nd;
  nd_read_err := nd_read_err nd; nd_write := nd_write nd |}.

(** Requests *)
Definition who (name email : string) : Request := new_request <| rq_user; ru_username := name |> <| rq_user; ru_email := email |>.
Definition signup (name email pw : string) : Request := who name email <| rq_user; ru_password := pw |>.

(** Running calls *)
Definition run1 (E : Env) (w : FS * Database) (c : Nd * Op * Request) : FS * Database :=
  let '(nd, op, r) := c in let o := exec E nd op w.2 w.1 r in (o_fs o, o_db o).
Definition run (E : Env) (w : FS * Database) (l : list (Nd * Op * Request)) : FS * Database := fold_left (run1 E) l w.
Definition alive (o : Outcome) : bool := match o with OHang | OCrash => false | _ => true end.
Fixpoint run_alive (E : Env) (w : FS * Database) (l : list (Nd * Op * Request)) : bool :=
  match l with
  | [] => true
  | c :: l => alive (o_res (exec E c.1.1 c.1.2 w.2 w.1 c.2)) && run_alive E (run1 E w c) l
  end.
Definition world (w : FS * Database) : World := {| w_fs := w.1; w_mem := Up w.2 |}.
Lemma run_steps E (P : World -> Event -> Prop) l : forall w w0,
  (forall w c, In c l -> P (world w) (EvCall c.1.1 c.1.2 c.2)) ->
  run_alive E w l = true -> steps E P w0 (world w) -> steps E P w0 (world (run E w l)).
Proof.
  induction l as [|c l IH]; intros w w0 HP A S; [exact S|]. cbn [run_alive] in A. apply andb_true_iff in A as [A1 A2].
  change (run E w (c :: l)) with (run E (run1 E w c) l). apply IH; [intros w' c' Hc'; apply HP; now right|assumption|].
  eapply StCons with (ev := EvCall c.1.1 c.1.2 c.2); [exact S|apply HP; now left|].
  destruct w as [fs db], c as [[nd op] r]. cbn [fst snd] in *. unfold world. cbn [fst snd run1].
  replace {| w_fs := o_fs (exec E nd op db fs r); w_mem := Up (o_db (exec E nd op db fs r)) |}
    with {| w_fs := o_fs (exec E nd op db fs r); w_mem := after_call (exec E nd op db fs r) |}; [constructor|].
  unfold after_call. destruct o_res; try discriminate; reflexivity.
Qed.
Lemma run_later E w l : run_alive E w l = true -> later E w.1 w.2 (run E w l).1 (run E w l).2.
Proof. intros A. destruct w as [fs db]. apply (run_steps E only_calls l (fs, db)); [|assumption|constructor]. intros; exact I. Qed.

(** A database created at "db.json" in an empty file system. *)
Definition start_fs : FS := fst (new_database toy (draws 0) "db.json" ∅).
Definition start_db : Database := match snd (new_database toy (draws 0) "db.json" ∅) with Loaded db => db | _ => empty_db "" content_z end.
Definition start : FS * Database := (start_fs, start_db).
Lemma start_open : new_database toy (draws 0) "db.json" ∅ = (start_fs, Loaded start_db).
Proof. vm_compute. reflexivity. Qed.
Lemma run_reachable l : run_alive toy start l = true -> reachable toy (run toy start l).1 (run toy start l).2.
Proof.
  intros A. exists ∅. apply (run_steps toy any_event l start); [exact (fun _ _ _ => I)|assumption|].
  eapply StCons with (ev := EvOpen (draws 0) "db.json"); [apply StNil|exact I|].
  change (world start) with {| w_fs := start_fs; w_mem := after_load Down (Loaded start_db) |}. constructor; [exact start_open|discriminate].
Qed.

(** Two accounts. *)
Definition jane_req : Request :=
  signup "Jane" "Jane@Example.com" "secret-pw-1" <| rq_user; ru_full_name := "Smith, Jane" |> <| rq_user; ru_roles := ["corp/admin"; "viewer"; "viewer"] |>.
Definition bob_req : Request := signup "bob" "bob@example.com" "secret-pw-2".
Definition two_calls : list (Nd * Op * Request) := [(draws 1, OpAddUser, jane_req); (draws 40, OpAddUser, bob_req)].
Definition two : FS * Database := run toy start two_calls.
Lemma two_reachable : reachable toy two.1 two.2.
Proof. apply run_reachable. vm_compute. reflexivity. Qed.
Lemma two_accounts : List.length (db_users two.2) = 2%nat.
Proof. vm_compute. reflexivity. Qed.

(** The same from any file system. *)
Definition opened (fs : FS) : FS * Database :=
  (fst (new_database toy (draws 0) "db.json" fs), match snd (new_database toy (draws 0) "db.json" fs) with Loaded db => db | _ => start_db end).
Definition opens (fs : FS) : bool := match snd (new_database toy (draws 0) "db.json" fs) with Loaded _ => true | _ => false end.
Lemma run_opened fs l : opens fs = true -> run_alive toy (opened fs) l = true ->
  reachable toy (run toy (opened fs) l).1 (run toy (opened fs) l).2.
Proof.
  intros O A. exists fs. apply (run_steps toy any_event l (opened fs)); [exact (fun _ _ _ => I)|assumption|].
  eapply StCons with (ev := EvOpen (draws 0) "db.json"); [apply StNil|exact I|]. unfold opens in O. unfold world, opened. cbn [fst snd].
  destruct (new_database toy (draws 0) "db.json" fs) as [fs' res] eqn:X. cbn [fst snd] in *. destruct res; try discriminate.
  change (Up db) with (after_load Down (Loaded db)). constructor; [exact X|discriminate].
Qed.
(** A file whose policy admits one-byte usernames. *)
Definition lax_fs : FS := <["db.json" := File "{""policy"":{""user"":{""min_length"":1}}}"]> ∅.
Definition lax : FS * Database := opened lax_fs.
