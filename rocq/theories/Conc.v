(** Goroutines calling the methods of one database.

    Every exported method first takes the read-write lock [db.mu] (shared or exclusive) and
    releases it by [defer] when it returns.  The bodies are not atomic:

    - a call holding the lock exclusively may leave memory and file in any intermediate state
      (step [CScribble], which even allows arbitrary ones) until its last write; since nobody
      else runs under an exclusive lock its reads see its own writes, so its result is that of
      [exec] on the state it found when it got the lock;
    - a call holding the lock shared looks at memory at several moments ([CObserve]) and may
      combine parts of what it saw at different moments ([blend]: parts are the scalar fields,
      the indexes, each account and in it each token and each token's cached key);
    - AuthenticateUser writes cached keys while holding the lock only shared ([CFill]).

    A thread makes one call; a goroutine making several is several threads.  Waiting writers
    blocking new readers (sync.RWMutex) only removes schedules.  A call that never returns keeps
    its lock; a crash ends the execution.  [k_log] is a history variable. *)
From Coq Require Import String Ascii ZArith NArith Lia Bool Arith List.
From stdpp Require Import gmap strings.
From RecordUpdate Require Import RecordSet.
From Verif Require Import GoStr GoErr Types Env Mfa Fs Database.
Import ListNotations.
Import RecordSetNotations.

Inductive Mode := Shared | Exclusive.
(** database.go:252, 303, 319, 331, 354, 431, 438, 445, 485, 502, 524, 541, 580, 598, 620, 642, 673,
    690, 707, 726: [mu.RLock] or [mu.Lock] *)
Definition lock_mode (op : Op) : Mode :=
  match op with
  | OpGetUsers | OpGetUser | OpAuthenticate | OpUserCount | OpGetPublicKeys | OpGetAPIKeys | OpGetMfaTokens => Shared
  | OpAddUser | OpDeleteUser | OpSave | OpCopy _ | OpAddPublicKey | OpDeletePublicKey | OpAddAPIKey | OpDeleteAPIKey
  | OpChangePassword | OpIdentify | OpLookupAPIKey | OpAddMfaToken | OpDeleteMfaToken => Exclusive
  end.

Record Call := { l_nd : Nd; l_op : Op; l_req : Request }.
Definition call_exec (E : Env) (c : Call) (db : Database) (fs : FS) : Out := exec E (l_nd c) (l_op c) db fs (l_req c).
Inductive Thread :=
| Waiting (c : Call)                                         (* called, has no lock yet *)
| Writing (c : Call) (db : Database) (fs : FS)               (* holds the lock exclusively; the state found *)
| Reading (c : Call) (l : list Database)                     (* holds the lock shared; the states seen *)
| Leaving (c : Call) (res : Outcome) (req : Request)         (* result fixed, lock still held *)
| Returned (c : Call) (res : Outcome) (req : Request).
Definition holds (m : Mode) (t : Thread) : Prop :=
  match t with
  | Writing c _ _ | Reading c _ | Leaving c _ _ => lock_mode (l_op c) = m
  | Waiting _ | Returned _ _ _ => False
  end.
Record Entry := { g_id : nat; g_call : Call; g_res : Outcome; g_req : Request }.
Record Conf := { k_db : Database; k_fs : FS; k_threads : gmap nat Thread; k_log : list Entry }.
(** sync.RWMutex: what [Lock] and [RLock] wait for *)
Definition free_for (m : Mode) (k : Conf) : Prop :=
  forall j t, k_threads k !! j = Some t -> ~ holds Exclusive t /\ (m = Exclusive -> ~ holds Shared t).

(** What a call can put together that saw the states [l]. *)
Definition from {A} (l : list Database) (f : Database -> A) (d : Database) : Prop := exists x, In x l /\ f d = f x.
Definition user_at (d : Database) (n : nat) : option User := db_users d !! n.
Definition token_at (d : Database) (n j : nat) : option MfaToken := match db_users d !! n with Some u => u_mfa u !! j | None => None end.
Record blend (l : list Database) (d : Database) : Prop := {
  bl_version : from l (fun d => c_version (db_content d)) d; bl_policy : from l (fun d => c_policy (db_content d)) d;
  bl_revision : from l (fun d => c_revision (db_content d)) d; bl_modified : from l (fun d => c_modified (db_content d)) d;
  bl_length : from l (fun d => List.length (db_users d)) d;
  bl_name : from l ref_username d; bl_email : from l ref_email d; bl_id : from l ref_id d; bl_key : from l ref_apikey d; bl_path : from l db_path d;
  bl_user : forall n, from l (fun d => option_map (set u_mfa (fun _ => [])) (user_at d n)) d;
  bl_tokens : forall n, from l (fun d => option_map (fun u => List.length (u_mfa u)) (user_at d n)) d;
  bl_token : forall n j, from l (fun d => option_map (set t_cache (fun _ => None)) (token_at d n j)) d;
  bl_cache : forall n j, from l (fun d => option_map t_cache (token_at d n j)) d }.

(** The write of [derivePublicKey] (mfa_token.go:533) by a call that saw [l]: the token [j] of
    account [n] gets the cached key it has when the call runs on a state put together from [l]. *)
Definition set_cache (db : Database) (n j : nat) (k : Z * Z) : Database :=
  match db_users db !! n with
  | Some u => set_user db n (u <| u_mfa ::= alter (fun t => t <| t_cache := Some k |>) j |>)
  | None => db
  end.
Definition fills (E : Env) (k : Conf) (i n j : nat) (key : Z * Z) : Prop :=
  exists c l d t, k_threads k !! i = Some (Reading c l) /\ l_op c = OpAuthenticate /\ blend l d /\
    token_at (o_db (call_exec E c d (k_fs k))) n j = Some t /\ t_cache t = Some key /\
    (forall t0, token_at d n j = Some t0 -> t_cache t0 = None).

Definition logged (k : Conf) (i : nat) (c : Call) (o : Out) : list Entry :=
  (k_log k ++ [{| g_id := i; g_call := c; g_res := o_res o; g_req := o_req o |}])%list.
Inductive cstep (E : Env) (k : Conf) : Conf -> Prop :=
| CInvoke i c : k_threads k !! i = None ->
    cstep E k {| k_db := k_db k; k_fs := k_fs k; k_threads := <[i := Waiting c]> (k_threads k); k_log := k_log k |}
| CLock i c : k_threads k !! i = Some (Waiting c) -> lock_mode (l_op c) = Exclusive -> free_for Exclusive k ->
    cstep E k {| k_db := k_db k; k_fs := k_fs k; k_threads := <[i := Writing c (k_db k) (k_fs k)]> (k_threads k); k_log := k_log k |}
| CRLock i c : k_threads k !! i = Some (Waiting c) -> lock_mode (l_op c) = Shared -> free_for Shared k ->
    cstep E k {| k_db := k_db k; k_fs := k_fs k; k_threads := <[i := Reading c [k_db k]]> (k_threads k); k_log := k_log k |}
| CScribble i c db0 fs0 db fs : k_threads k !! i = Some (Writing c db0 fs0) ->
    cstep E k {| k_db := db; k_fs := fs; k_threads := k_threads k; k_log := k_log k |}
| CWrote i c db0 fs0 : k_threads k !! i = Some (Writing c db0 fs0) ->
    o_res (call_exec E c db0 fs0) <> OHang -> o_res (call_exec E c db0 fs0) <> OCrash ->
    cstep E k {| k_db := o_db (call_exec E c db0 fs0); k_fs := o_fs (call_exec E c db0 fs0);
                 k_threads := <[i := Leaving c (o_res (call_exec E c db0 fs0)) (o_req (call_exec E c db0 fs0))]> (k_threads k);
                 k_log := logged k i c (call_exec E c db0 fs0) |}
| CObserve i c l : k_threads k !! i = Some (Reading c l) ->
    cstep E k {| k_db := k_db k; k_fs := k_fs k; k_threads := <[i := Reading c (k_db k :: l)]> (k_threads k); k_log := k_log k |}
| CFill i n j key : fills E k i n j key ->
    cstep E k {| k_db := set_cache (k_db k) n j key; k_fs := k_fs k; k_threads := k_threads k; k_log := k_log k |}
| CRead i c l d : k_threads k !! i = Some (Reading c l) -> blend l d ->
    cstep E k {| k_db := k_db k; k_fs := k_fs k;
                 k_threads := <[i := Leaving c (o_res (call_exec E c d (k_fs k))) (o_req (call_exec E c d (k_fs k)))]> (k_threads k);
                 k_log := logged k i c (call_exec E c d (k_fs k)) |}
| CUnlock i c res req : k_threads k !! i = Some (Leaving c res req) ->
    cstep E k {| k_db := k_db k; k_fs := k_fs k; k_threads := <[i := Returned c res req]> (k_threads k); k_log := k_log k |}.
Inductive csteps (E : Env) : Conf -> Conf -> Prop :=
| CNil k : csteps E k k
| CCons k1 k2 k3 : csteps E k1 k2 -> cstep E k2 k3 -> csteps E k1 k3.
Definition init (fs : FS) (db : Database) : Conf := {| k_db := db; k_fs := fs; k_threads := ∅; k_log := [] |}.
