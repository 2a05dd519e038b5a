(** Vocabulary of the theorems about calls whose write fails (C118, C119, C121). *)
From Coq Require Import String List.
From Verif Require Import GoErr Types Env Fs Database.
Import ListNotations.
Open Scope string_scope.

(** The error wraps the one of a file that could not be written. *)
Definition unsaved (e : goerr) : bool :=
  match e with
  | EWith _ args => existsb (fun a => match a with AErr (EWith t _) => String.eqb t ErrDatabaseCommit | _ => false end) args
  | _ => false
  end.
(** The call was accepted, or refused only because the file could not be written. *)
Definition took (o : Out) : bool := match o_res o with OOk => true | OErr e => unsaved e | _ => false end.
(** The same draws and the same clock with another fate of the write. *)
Definition on_disk_that (w : WriteIo) (nd : Nd) : Nd :=
  {| nd_clock := nd_clock nd; nd_uuid := nd_uuid nd; nd_id := nd_id nd; nd_secret := nd_secret nd; nd_len := nd_len nd; nd_salt := nd_salt nd; nd_pick := nd_pick nd;
     nd_stat_err := nd_stat_err nd; nd_mkdir_err := nd_mkdir_err nd; nd_read_err := nd_read_err nd; nd_write := w |}.
(** The calls that change accounts. *)
Definition changes (op : Op) : Prop :=
  In op [OpAddUser; OpChangePassword; OpAddPublicKey; OpDeletePublicKey; OpAddAPIKey; OpDeleteAPIKey; OpAddMfaToken; OpDeleteMfaToken].
