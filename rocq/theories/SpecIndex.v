(** What the lookup indexes would be if they were built from the list of accounts. *)
From Coq Require Import String Ascii ZArith NArith Lia Bool Arith List.
From stdpp Require Import gmap strings.
From Verif Require Import GoStr Email Types Env Database.
Import ListNotations.

(** The accounts are gone through in order; each is entered under all its keys. *)
Fixpoint index_from (f : User -> list string) (i : nat) (l : list User) (m : gmap string nat) : gmap string nat :=
  match l with [] => m | u :: l => index_from f (S i) l (fold_left (fun m s => <[s := i]> m) (f u) m) end.
Definition index_by (f : User -> list string) (l : list User) : gmap string nat := index_from f 0 l ∅.
Definition rebuilt (E : Env) (c : Content) (path : string) : Database := {|
  db_content := c;
  ref_username := index_by (fun u => [lower E (u_username u)]) (c_users c);
  ref_email := index_by (fun u => map (fun e => lower E (em_address e)) (u_emails u)) (c_users c);
  ref_id := index_by (fun u => [u_id u]) (c_users c);
  ref_apikey := index_by (fun u => map ak_prefix (u_apikeys u)) (c_users c);
  db_path := path |}.
