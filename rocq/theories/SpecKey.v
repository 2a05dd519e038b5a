(** Vocabulary of the theorems about public keys and item lists (C30-C34). *)
From Coq Require Import String Ascii ZArith NArith Lia Bool Arith List.
From stdpp Require Import gmap strings.
From RecordUpdate Require Import RecordSet.
From Verif Require Import GoStr Codec GoErr Types Env Fs Database System SpecDb.
Import ListNotations.
Open Scope string_scope.

(** [l'] is [l] without the elements that do not satisfy [P]. *)
Inductive picked {A} (P : A -> Prop) : list A -> list A -> Prop :=
| PickNil : picked P [] []
| PickTake x l l' : P x -> picked P l l' -> picked P (x :: l) (x :: l')
| PickSkip x l l' : ~ P x -> picked P l l' -> picked P (x :: l) l'.

(** Two entries of one account with the same type and fingerprint, [k] stored before [l]. *)
Definition same_fp (k l : PublicKey) : Prop := pk_type k = pk_type l /\ pk_fp k = pk_fp l.
Definition holds_pair (u : User) (k l : PublicKey) : Prop :=
  same_fp k l /\ exists a b, (a < b)%nat /\ u_pubkeys u !! a = Some k /\ u_pubkeys u !! b = Some l.
(** Loaded files hold no such pair. *)
Definition loads_distinct (E : Env) (w : World) (ev : Event) : Prop :=
  match ev with
  | EvOpen nd fp => forall fs db i u k l, new_database E nd fp (w_fs w) = (fs, Loaded db) -> account db i u -> ~ holds_pair u k l
  | _ => True
  end.

(** [k] is an RSA key whose SHA-256 fingerprint is [f] in base64. *)
Definition rsa_key (k : SshKey) (f : string) : Prop :=
  sk_type k = "ssh-rsa" /\ sk_pem k <> None /\ sk_sha256 k = "SHA256:" ++ f /\ ~ In ":"%char (los f).
(** [s] is a PEM block holding [k]; [s] is the one-line OpenSSH form of [k]. *)
Definition pem_form (E : Env) (s : string) (k : SshKey) : Prop :=
  (exists a b, s = a ++ "RSA PUBLIC KEY" ++ b) /\ exists bs, e_pem E (trim_space s) = Some ("RSA PUBLIC KEY", bs) /\ e_pkix E bs = PkixKey k.
Definition ssh_form (E : Env) (s : string) (k : SshKey) : Prop :=
  exists blob, blob <> "" /\ s = "ssh-rsa " ++ b64_encode blob /\ e_ssh E blob = Some k.
(** [s] is an armored PGP block with one RSA, DSA, ECDH or ECDSA key. *)
Definition pgp_form (E : Env) (s : string) : Prop :=
  (exists b, trim_space s = "-----BEGIN PGP PUBLIC KEY BLOCK-----" ++ b ++ "-----END PGP PUBLIC KEY BLOCK-----") /\
  (forall a b, s <> a ++ "RSA PUBLIC KEY" ++ b) /\ (forall b, s <> "ssh-rsa " ++ b) /\
  exists k n ns, e_pgp E (trim_space s) = Some [{| pg_primary := Some k; pg_names := n :: ns |}] /\ In (pg_algo k) [1; 2; 3; 17; 18; 19]%N.
(** The converted PEM text is never empty (pem.EncodeToMemory). *)
Definition pem_nonempty (E : Env) : Prop := forall b k, e_ssh E b = Some k -> sk_pem k <> Some "".
(** [u] holds an entry of this type and fingerprint. *)
Definition holds_fp (u : User) (ty fp : string) : Prop := exists x, In x (u_pubkeys u) /\ pk_type x = ty /\ pk_fp x = fp.

(** Nothing but one item list, revision and modification time differs. *)
Definition others_same (u u' : User) : Prop :=
  same_identity u u' /\ u_passwords u' = u_passwords u /\ u_enabled u' = u_enabled u /\ u_title u' = u_title u.
Definition revised (nd : Nd) (u u' : User) : Prop := u_revision u' = int64 (u_revision u + 1) /\ u_modified u' = nd_clock nd.
