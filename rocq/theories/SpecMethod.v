(** Vocabulary of the theorems about direct calls on accounts (C78-C86). *)
From Coq Require Import String Ascii ZArith NArith Lia Bool Arith List.
From stdpp Require Import gmap strings.
From RecordUpdate Require Import RecordSet.
From Verif Require Import GoStr GoErr Role Name Email Random SpecValue Types Env Fs Database System SpecDb Method.
Import ListNotations.
Import RecordSetNotations.
Open Scope string_scope.

(** The part of an account a call is about. *)
Inductive Part := PaPasswords | PaEmails | PaRoles | PaNames | PaPublicKeys | PaAPIKeys | PaMfa | PaNothing.
Definition part_of (m : Method) : Part :=
  match m with
  | MAddPassword _ _ | MChangePassword _ _ | MDisablePassword _ => PaPasswords
  | MAddEmail _ => PaEmails
  | MAddRole _ | MAddRoles _ => PaRoles
  | MAddName _ => PaNames
  | MAddPublicKey _ | MDeletePublicKey _ | MDisablePublicKey _ => PaPublicKeys
  | MAddAPIKey _ | MDeleteAPIKey _ | MDisableAPIKey _ => PaAPIKeys
  | MAddMfaToken _ | MDeleteMfaToken _ | MVerifyWebAuthn _ | MDisableMfaToken _ => PaMfa
  | MRevise => PaNothing
  end.
(** The account without that part, its revision and its modification time. *)
Definition without_part (p : Part) (u : User) : User :=
  let u := u <| u_revision := 0%Z |> <| u_modified := 0%Z |> in
  match p with
  | PaPasswords => u <| u_passwords := [] |>
  | PaEmails => u <| u_email := None |> <| u_emails := [] |>
  | PaRoles => u <| u_roles := [] |>
  | PaNames => u <| u_name := None |> <| u_names := [] |>
  | PaPublicKeys => u <| u_pubkeys := [] |>
  | PaAPIKeys => u <| u_apikeys := [] |>
  | PaMfa => u <| u_mfa := [] |>
  | PaNothing => u
  end.
(** Calls that count a change: everything but AddName (which may forget to), AddRoles (which
    counts every role), VerifyWebAuthnRequest and the Disable methods. *)
Definition counts (m : Method) : Prop :=
  match m with
  | MAddName _ | MAddRoles _ | MVerifyWebAuthn _ | MDisablePassword _ | MDisablePublicKey _ | MDisableAPIKey _ | MDisableMfaToken _ => False
  | _ => True
  end.
(** Calls the indexes of the database need not know about. *)
Definition tame (m : Method) : Prop := match m with MAddEmail _ | MAddAPIKey _ => False | _ => True end.

(** [u'] is [u] with one more revision at time [now], apart from the given field. *)
Definition revised (now : Z) (u u' : User) : Prop := u_revision u' = int64 (u_revision u + 1) /\ u_modified u' = now.
Definition has_exactly (u : User) (a : string) : Prop := exists e, In e (u_emails u) /\ em_address e = a.
(** [n] renders as the text [s]: "Last, First" or "Last". *)
Definition rendered (n : Name) (s : string) : Prop :=
  (nm_first n = "" /\ s = nm_last n) \/ (nm_first n <> "" /\ s = nm_last n ++ ", " ++ nm_first n).
Definition named (u : User) (s : string) : Prop := exists n, In n (u_names u) /\ rendered n s.

(** The entry is out of use since [now], and otherwise as it was. *)
Definition pw_off (now : Z) (p q : Password) : Prop :=
  q = {| pw_purpose := pw_purpose p; pw_algorithm := pw_algorithm p; pw_hash := pw_hash p; pw_cost := pw_cost p; pw_expired := true;
         pw_expired_at := now; pw_created := pw_created p; pw_disabled := true; pw_disabled_at := now |}.
Definition pk_off (now : Z) (p q : PublicKey) : Prop :=
  q = {| pk_id := pk_id p; pk_usage := pk_usage p; pk_type := pk_type p; pk_fp := pk_fp p; pk_fp_md5 := pk_fp_md5 p; pk_comment := pk_comment p;
         pk_payload := pk_payload p; pk_openssh := pk_openssh p; pk_expired := true; pk_expired_at := now; pk_created := pk_created p;
         pk_disabled := true; pk_disabled_at := now |}.
Definition ak_off (now : Z) (p q : APIKey) : Prop :=
  q = {| ak_id := ak_id p; ak_prefix := ak_prefix p; ak_usage := ak_usage p; ak_comment := ak_comment p; ak_payload := ak_payload p;
         ak_expired := true; ak_expired_at := now; ak_created := ak_created p; ak_disabled := true; ak_disabled_at := now |}.
Definition t_off (now : Z) (p q : MfaToken) : Prop :=
  q = {| t_id := t_id p; t_type := t_type p; t_algorithm := t_algorithm p; t_comment := t_comment p; t_secret := t_secret p; t_period := t_period p;
         t_digits := t_digits p; t_expired := true; t_expired_at := now; t_created := t_created p; t_disabled := true; t_disabled_at := now;
         t_device := t_device p; t_params := t_params p; t_flags := t_flags p; t_counter := t_counter p; t_cache := t_cache p |}.
(** [l'] is [l] with the entry at [k] replaced as [R] says. *)
Definition at_only {A} (R : A -> A -> Prop) (k : nat) (l l' : list A) : Prop :=
  List.length l' = List.length l /\
  (forall j x, j <> k -> l !! j = Some x -> l' !! j = Some x) /\
  (forall x, l !! k = Some x -> exists y, l' !! k = Some y /\ R x y).

(** The cost a password is hashed with. *)
Definition chosen_cost (c : CostParam) (k : Z) : Prop :=
  match c with
  | CostAbsent => k = 10%Z
  | CostInt z => ((z < 8)%Z /\ k = 10%Z) \/ ((8 <= z)%Z /\ k = z)
  | CostOther => False
  end.
