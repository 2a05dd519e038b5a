(** Vocabulary of the theorems about what accounts hold (C119): for every account the public keys, API
    keys and second factors added and not deleted, kept by an observer of the calls and their answers. *)
From Coq Require Import String Ascii ZArith NArith Lia Bool Arith List.
From stdpp Require Import gmap strings.
From Verif Require Import GoStr Random PublicKey Types Env Persist Fs Database System.
From Verif Require Import SpecDb SpecPersist SpecDefect SpecOutage SpecLedger.
Import ListNotations.
Open Scope string_scope.

(** An item: its identifier, its usage or type and whether it was added as disabled. *)
Record Item := { it_id : string; it_kind : string; it_off : bool }.
Record Shelf := { sh_name : string; sh_mail : string; sh_pubs : list Item; sh_keys : list Item; sh_tokens : list Item }.
Definition with_pubs (f : list Item -> list Item) (e : Shelf) : Shelf :=
  {| sh_name := sh_name e; sh_mail := sh_mail e; sh_pubs := f (sh_pubs e); sh_keys := sh_keys e; sh_tokens := sh_tokens e |}.
Definition with_items (f : list Item -> list Item) (e : Shelf) : Shelf :=
  {| sh_name := sh_name e; sh_mail := sh_mail e; sh_pubs := sh_pubs e; sh_keys := f (sh_keys e); sh_tokens := sh_tokens e |}.
Definition with_tokens (f : list Item -> list Item) (e : Shelf) : Shelf :=
  {| sh_name := sh_name e; sh_mail := sh_mail e; sh_pubs := sh_pubs e; sh_keys := sh_keys e; sh_tokens := f (sh_tokens e) |}.
(** The shelf of the user name of the request. *)
Definition on_shelf (E : Env) (r : Request) (f : Shelf -> Shelf) (l : list Shelf) : list Shelf :=
  map (fun e => if String.eqb (lower E (sh_name e)) (lower E (ru_username (rq_user r))) then f e else e) l.
Definition put (id kind : string) (off : bool) (l : list Item) : list Item := (l ++ [{| it_id := id; it_kind := kind; it_off := off |}])%list.
(** The identifier drawn for a new item, and the one of a new public key: PGP keys bring their own. *)
Definition drawn_id (nd : Nd) : string := random_string 40 (nd_id nd).
Definition key_id (E : Env) (nd : Nd) (r : Request) : string :=
  let s := rk_payload (rq_key r) in
  if contains s "RSA PUBLIC KEY" || has_prefix s "ssh-rsa " then drawn_id nd
  else match e_pgp E (trim_space s) with
       | Some [ent] => match pg_primary ent with Some k => format_hex (pg_id k) | None => drawn_id nd end
       | _ => drawn_id nd
       end.
Definition drop_item (id : string) (l : list Item) : list Item := List.filter (fun x => negb (String.eqb (it_id x) id)) l.
(** What is held after a call, from the request and the answer. *)
Definition stock (E : Env) (nd : Nd) (op : Op) (r : Request) (o : Out) (l : list Shelf) : list Shelf :=
  match took o, op with
  | true, OpAddUser => (l ++ [{| sh_name := ru_username (rq_user r); sh_mail := ru_email (rq_user r); sh_pubs := []; sh_keys := []; sh_tokens := [] |}])%list
  | true, OpAddPublicKey => on_shelf E r (with_pubs (put (key_id E nd r) (rk_usage (rq_key r)) (rk_disabled (rq_key r)))) l
  | true, OpDeletePublicKey => on_shelf E r (with_pubs (drop_item (rk_id (rq_key r)))) l
  | true, OpAddAPIKey => on_shelf E r (with_items (put (drawn_id nd) (rk_usage (rq_key r)) (rk_disabled (rq_key r)))) l
  | true, OpDeleteAPIKey => on_shelf E r (with_items (drop_item (rk_id (rq_key r)))) l
  | true, OpAddMfaToken => on_shelf E r (with_tokens (put (drawn_id nd) (rm_type (rq_mfa r)) (rm_disabled (rq_mfa r)))) l
  | true, OpDeleteMfaToken => on_shelf E r (with_tokens (drop_item (rm_id (rq_mfa r)))) l
  | _, _ => l
  end.
Definition stocked (E : Env) : FS -> Database -> list Shelf -> Prop := traced E (stock E) [].
(** The request names the account by user name and address. *)
Definition names_both (E : Env) (e : Shelf) (r : Request) : Prop :=
  (2 <= String.length (ru_username (rq_user r)))%nat /\ same_ci E (sh_name e) (ru_username (rq_user r)) /\
  (6 <= String.length (ru_email (rq_user r)))%nat /\ same_ci E (sh_mail e) (ru_email (rq_user r)).
(** The request identifies the account by one of them. *)
Definition names_login (E : Env) (e : Shelf) (s : string) : Prop :=
  (In "@"%char (los s) /\ (6 <= String.length s)%nat /\ same_ci E (sh_mail e) s) \/
  (~ In "@"%char (los s) /\ (2 <= String.length s)%nat /\ same_ci E (sh_name e) s).
(** The identifiers of the items in use, of one kind and of any kind. *)
Definition in_use (kind : string) (l : list Item) : list string :=
  map it_id (List.filter (fun x => String.eqb (it_kind x) kind && negb (it_off x)) l).
Definition in_use_any (l : list Item) : list string := map it_id (List.filter (fun x => negb (it_off x)) l).
