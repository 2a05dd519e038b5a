(** The environment of Examples.v with the standard hash functions and the JSON decoders in place of
    the stand-ins; bcrypt, signatures and the key formats stay stand-ins. *)
From Coq Require Import String Ascii ZArith NArith Lia Bool Arith List.
From stdpp Require Import gmap strings.
From RecordUpdate Require Import RecordSet.
From Verif Require Import GoStr Codec GoErr Types Env Mfa Hash WebAuthn Persist Fs Database System SpecDb SpecMfa SpecHash Examples.
Import ListNotations.
Import RecordSetNotations.
Open Scope string_scope.

Definition real : Env := {|
  e_lr := e_lr toy; e_bcrypt := e_bcrypt toy; e_bcmp := e_bcmp toy; e_hmac := std_hmac; e_sha256 := std_sha256; e_ecdsa := e_ecdsa toy;
  e_ssh := e_ssh toy; e_pem := e_pem toy; e_pkix := e_pkix toy; e_pgp := e_pgp toy;
  e_register := decode_register; e_authreq := decode_authreq; e_client := decode_client; e_home := e_home toy |}.
Lemma real_standard : standard real.
Proof. intros a k m _. reflexivity. Qed.
Lemma real_json : json_env real.
Proof. repeat split. Qed.
Definition real_fs : FS := fst (new_database real (draws 0) "db.json" ∅).
Definition real_db : Database := match snd (new_database real (draws 0) "db.json" ∅) with Loaded db => db | _ => empty_db "" content_z end.
Definition real_start : FS * Database := (real_fs, real_db).
Lemma real_open : new_database real (draws 0) "db.json" ∅ = (real_fs, Loaded real_db).
Proof. vm_compute. reflexivity. Qed.
Lemma real_reachable l : run_alive real real_start l = true -> reachable real (run real real_start l).1 (run real real_start l).2.
Proof.
  intros A. exists ∅. apply (run_steps real any_event l real_start); [exact (fun _ _ _ => I)|assumption|].
  eapply StCons with (ev := EvOpen (draws 0) "db.json"); [apply StNil|exact I|].
  change (world real_start) with {| w_fs := real_fs; w_mem := after_load Down (Loaded real_db) |}. constructor; [exact real_open|discriminate].
Qed.
