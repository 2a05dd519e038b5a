(** Histories: a process that opens a database, makes API calls, may die and be restarted, while
    the files may also be changed from outside.

    A world is the file system plus the state of the process: no database open, one open, or one
    whose lock is held for ever by a call that never returns (AddAPIKey, database.go:550-563).
    A panic leaves the database open: every method unlocks by [defer], so a caller may recover. *)
From Coq Require Import String Ascii ZArith NArith Lia Bool Arith List.
From stdpp Require Import gmap strings.
From Verif Require Import GoStr GoErr Types Env Fs Database.
Import ListNotations.

Inductive Mem := Down | Up (db : Database) | Stuck (db : Database).
Record World := { w_fs : FS; w_mem : Mem }.

Inductive Event :=
| EvOpen (nd : Nd) (fp : string)              (* NewDatabase *)
| EvCall (nd : Nd) (op : Op) (r : Request)    (* any method of Database *)
| EvCrash                                     (* the process ends *)
| EvEdit (fs : FS).                           (* somebody else changes files *)

Definition after_load (m : Mem) (res : LoadRes) : Mem :=
  match res with Loaded db => Up db | LCrash => Down | _ => m end.
Definition after_call (o : Out) : Mem :=
  match o_res o with OHang => Stuck (o_db o) | OCrash => Down | _ => Up (o_db o) end.

(** A file whose decoding is outside the model (see [Persist]) has no successor. *)
Inductive step (E : Env) : World -> Event -> World -> Prop :=
| StOpen nd fp fs m fs' res :
    new_database E nd fp fs = (fs', res) -> res <> LUnmod ->
    step E {| w_fs := fs; w_mem := m |} (EvOpen nd fp) {| w_fs := fs'; w_mem := after_load m res |}
| StCall nd op r fs db :
    step E {| w_fs := fs; w_mem := Up db |} (EvCall nd op r)
         {| w_fs := o_fs (exec E nd op db fs r); w_mem := after_call (exec E nd op db fs r) |}
| StCrash fs m : step E {| w_fs := fs; w_mem := m |} EvCrash {| w_fs := fs; w_mem := Down |}
| StEdit fs m fs' : step E {| w_fs := fs; w_mem := m |} (EvEdit fs') {| w_fs := fs'; w_mem := m |}.

(** Histories whose every event satisfies [P] in the world it happens in. *)
Inductive steps (E : Env) (P : World -> Event -> Prop) : World -> World -> Prop :=
| StNil w : steps E P w w
| StCons w1 ev w2 w3 : steps E P w1 w2 -> P w2 ev -> step E w2 ev w3 -> steps E P w1 w3.
Definition any_event (w : World) (ev : Event) : Prop := True.
Definition only_calls (w : World) (ev : Event) : Prop := match ev with EvCall _ _ _ => True | _ => False end.

(** A database that some process can have open after some history from some file system. *)
Definition reachable_by (E : Env) (P : World -> Event -> Prop) (fs : FS) (db : Database) : Prop :=
  exists fs0, steps E P {| w_fs := fs0; w_mem := Down |} {| w_fs := fs; w_mem := Up db |}.
Definition reachable (E : Env) : FS -> Database -> Prop := reachable_by E any_event.
(** Later states of the same open database. *)
Definition later (E : Env) (fs : FS) (db : Database) (fs' : FS) (db' : Database) : Prop :=
  steps E only_calls {| w_fs := fs; w_mem := Up db |} {| w_fs := fs'; w_mem := Up db' |}.
