(** Vocabulary of the theorems about the passwords kept (C128): for every account the passwords set, the
    newest first, kept by an observer of the calls and their answers. *)
From Coq Require Import String Ascii ZArith NArith Lia Bool Arith List.
From stdpp Require Import gmap strings.
From Verif Require Import GoStr Codec Types Env Persist Fs Database System.
From Verif Require Import SpecDb SpecOutage SpecLedger.
Import ListNotations.
Open Scope string_scope.

(** A password set: its text, and the time and the draws of the call. *)
Record Phrase := { ph_nd : Nd; ph_text : string }.
Record Drawer := { dw_name : string; dw_phrases : list Phrase }.
Definition with_phrase (x : Phrase) (e : Drawer) : Drawer := {| dw_name := dw_name e; dw_phrases := x :: dw_phrases e |}.
Definition on_drawer (E : Env) (r : Request) (f : Drawer -> Drawer) (l : list Drawer) : list Drawer :=
  map (fun e => if String.eqb (lower E (dw_name e)) (lower E (ru_username (rq_user r))) then f e else e) l.
Definition lay_in (E : Env) (nd : Nd) (op : Op) (r : Request) (o : Out) (l : list Drawer) : list Drawer :=
  let x := {| ph_nd := nd; ph_text := ru_password (rq_user r) |} in
  match took o, op with
  | true, OpAddUser => (l ++ [{| dw_name := ru_username (rq_user r); dw_phrases := [x] |}])%list
  | true, OpChangePassword => on_drawer E r (with_phrase x) l
  | _, _ => l
  end.
Definition put_away (E : Env) : FS -> Database -> list Drawer -> Prop := traced E (lay_in E) [].
(** The version kept of a password that was in use until [until]. *)
Record version (E : Env) (until : option Z) (x : Phrase) (p : Password) : Prop := {
  vn_text : trim_space (ph_text x) <> "";
  vn_hash : e_bcrypt E (nd_salt (ph_nd x)) (trim_space (ph_text x)) 10 = Some (pw_hash p);
  vn_kind : pw_purpose p = "generic" /\ pw_algorithm p = "bcrypt" /\ pw_cost p = 10%Z;
  vn_created : pw_created p = nd_clock (ph_nd x);
  vn_until : match until with
             | None => pw_disabled p = false /\ pw_disabled_at p = 0%Z /\ pw_expired p = false /\ pw_expired_at p = 0%Z
             | Some t => pw_disabled p = true /\ pw_disabled_at p = t /\ pw_expired p = true /\ pw_expired_at p = t
             end }.
(** Every password was in use until the next one was set. *)
Inductive versions (E : Env) : option Z -> list Phrase -> list Password -> Prop :=
| VsNil t : versions E t [] []
| VsCons t x p l ps : version E t x p -> versions E (Some (nd_clock (ph_nd x))) l ps -> versions E t (x :: l) (p :: ps).
