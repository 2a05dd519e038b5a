(** Vocabulary of the theorems about who is listed and how (C125): for every account the request it
    was made by and the times and the number of its changes, kept by an observer of the calls. *)
From Coq Require Import String Ascii ZArith NArith Lia Bool Arith List.
From stdpp Require Import gmap strings.
From Verif Require Import GoStr Role Name Random Types Env Persist Fs Database System.
From Verif Require Import SpecDb SpecMfa SpecOutage SpecLedger.
Import ListNotations.
Open Scope string_scope.

(** An account: the request, when it was made, when it was changed last and how often it was changed. *)
Record Line := { ln_req : Request; ln_since : Z; ln_last : Z; ln_changes : nat }.
Definition ln_name (e : Line) : string := ru_username (rq_user (ln_req e)).
Definition ln_mail (e : Line) : string := ru_email (rq_user (ln_req e)).
Definition changed (now : Z) (e : Line) : Line := {| ln_req := ln_req e; ln_since := ln_since e; ln_last := now; ln_changes := S (ln_changes e) |}.
Definition on_line (E : Env) (r : Request) (f : Line -> Line) (l : list Line) : list Line :=
  map (fun e => if String.eqb (lower E (ln_name e)) (lower E (ru_username (rq_user r))) then f e else e) l.
Definition count (E : Env) (nd : Nd) (op : Op) (r : Request) (o : Out) (l : list Line) : list Line :=
  match took o, op with
  | true, OpAddUser => (l ++ [{| ln_req := r; ln_since := nd_clock nd; ln_last := nd_clock nd; ln_changes := 0 |}])%list
  | true, (OpAddPublicKey | OpDeletePublicKey | OpAddAPIKey | OpDeleteAPIKey | OpChangePassword | OpAddMfaToken | OpDeleteMfaToken) =>
      on_line E r (changed (nd_clock nd)) l
  | _, _ => l
  end.
Definition counted (E : Env) : FS -> Database -> list Line -> Prop := traced E (count E) [].
Definition line_named (E : Env) (e : Line) (r : Request) : Prop :=
  (2 <= String.length (ru_username (rq_user r)))%nat /\ same_ci E (ln_name e) (ru_username (rq_user r)) /\
  (6 <= String.length (ru_email (rq_user r)))%nat /\ same_ci E (ln_mail e) (ru_email (rq_user r)).
Definition line_called (E : Env) (e : Line) (s : string) : Prop :=
  (In "@"%char (los s) /\ (6 <= String.length s)%nat /\ same_ci E (ln_mail e) s) \/
  (~ In "@"%char (los s) /\ (2 <= String.length s)%nat /\ same_ci E (ln_name e) s).
(** The full name of the request, as it is shown. *)
Definition full_text (e : Line) (s : string) : Prop :=
  let full := trim_space (ru_full_name (rq_user (ln_req e))) in
  (full = "" /\ s = "") \/
  exists n, name_text full n /\ (nm_first n = "" /\ s = nm_last n \/ nm_first n <> "" /\ s = nm_last n ++ ", " ++ nm_first n).
(** The number [n] as a signed integer of 64 bits. *)
Definition wraps (n : nat) (z : Z) : Prop := (- 2 ^ 63 <= z < 2 ^ 63)%Z /\ exists k : Z, (Z.of_nat n = z + k * 2 ^ 64)%Z.
(** The record lists the account. *)
Record lists (e : Line) (m : UserMetadata) : Prop := {
  ls_id : String.length (md_id m) = 36%nat; ls_username : md_username m = ln_name e; ls_email : md_email m = ln_mail e; ls_name : full_text e (md_name m);
  ls_created : md_created m = ln_since e; ls_modified : md_modified m = ln_last e; ls_revision : wraps (ln_changes e) (md_revision m);
  ls_rest : md_title m = "" /\ md_avatar m = "" /\ md_enabled m = false }.
