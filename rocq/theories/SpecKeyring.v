(** Vocabulary of the theorems about stored public keys (C124): for every account the key texts handed
    in and not deleted, kept by an observer of the calls and their answers. *)
From Coq Require Import String Ascii ZArith NArith Lia Bool Arith List.
From stdpp Require Import gmap strings.
From Verif Require Import GoStr Codec Random Types Env PublicKey Persist Fs Database System.
From Verif Require Import SpecDb SpecOutage SpecLedger SpecShelf SpecPublic.
Import ListNotations.
Open Scope string_scope.

(** A text handed in: the request and the time and the draws of the call. *)
Record Text := { tx_nd : Nd; tx_req : Request }.
Definition tx_id (E : Env) (x : Text) : string := key_id E (tx_nd x) (tx_req x).
Record Keyring := { ky_name : string; ky_mail : string; ky_texts : list Text }.
Definition with_texts (f : list Text -> list Text) (e : Keyring) : Keyring :=
  {| ky_name := ky_name e; ky_mail := ky_mail e; ky_texts := f (ky_texts e) |}.
Definition on_keyring (E : Env) (r : Request) (f : Keyring -> Keyring) (l : list Keyring) : list Keyring :=
  map (fun e => if String.eqb (lower E (ky_name e)) (lower E (ru_username (rq_user r))) then f e else e) l.
Definition hand_in (E : Env) (nd : Nd) (op : Op) (r : Request) (o : Out) (l : list Keyring) : list Keyring :=
  match took o, op with
  | true, OpAddUser => (l ++ [{| ky_name := ru_username (rq_user r); ky_mail := ru_email (rq_user r); ky_texts := [] |}])%list
  | true, OpAddPublicKey => on_keyring E r (with_texts (fun ts => (ts ++ [{| tx_nd := nd; tx_req := r |}])%list)) l
  | true, OpDeletePublicKey => on_keyring E r (with_texts (List.filter (fun x => negb (String.eqb (tx_id E x) (rk_id (rq_key r)))))) l
  | _, _ => l
  end.
Definition handed_in (E : Env) : FS -> Database -> list Keyring -> Prop := traced E (hand_in E) [].
Definition keyring_named (E : Env) (e : Keyring) (r : Request) : Prop :=
  (2 <= String.length (ru_username (rq_user r)))%nat /\ same_ci E (ky_name e) (ru_username (rq_user r)) /\
  (6 <= String.length (ru_email (rq_user r)))%nat /\ same_ci E (ky_mail e) (ru_email (rq_user r)).
(** The entry that a text says. *)
Definition entry (E : Env) (x : Text) (k : PublicKey) : Prop := says E (tx_nd x) (tx_req x) k.
(** The texts handed in for a use and not as disabled. *)
Definition for_use (usage : string) (l : list Text) : list Text :=
  List.filter (fun x => String.eqb (rk_usage (rq_key (tx_req x))) usage && negb (rk_disabled (rq_key (tx_req x)))) l.
(** The text does not say a key of the same type and fingerprint. *)
Definition other_key (E : Env) (k : PublicKey) (x : Text) : Prop := forall k', entry E x k' -> pk_type k' = pk_type k -> pk_fp k' <> pk_fp k.
