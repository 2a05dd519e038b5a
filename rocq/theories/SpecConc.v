(** Vocabulary of the concurrency theorems (C60-C62, C77): serial executions of a list of calls. *)
From Coq Require Import String List.
From stdpp Require Import gmap strings.
From Verif Require Import Types Env Fs Database SpecPersist Conc.
Import ListNotations.

(** The answers of the entries are those of calling one after the other, in this order. *)
Fixpoint serial (E : Env) (l : list Entry) (db : Database) (fs : FS) : Prop :=
  match l with
  | [] => True
  | e :: l =>
      let o := exec E (l_nd (g_call e)) (l_op (g_call e)) db fs (l_req (g_call e)) in
      o_res o = g_res e /\ seen (o_req o) = seen (g_req e) /\ serial E l (o_db o) (o_fs o)
  end.
(** The state they leave. *)
Fixpoint final (E : Env) (l : list Entry) (db : Database) (fs : FS) : Database * FS :=
  match l with
  | [] => (db, fs)
  | e :: l => let o := exec E (l_nd (g_call e)) (l_op (g_call e)) db fs (l_req (g_call e)) in final E l (o_db o) (o_fs o)
  end.
(** Equal but for cached keys. *)
Record same_data (d d' : Database) : Prop := {
  sd_content : drop_caches (db_content d) = drop_caches (db_content d');
  sd_name : ref_username d = ref_username d'; sd_email : ref_email d = ref_email d';
  sd_id : ref_id d = ref_id d'; sd_key : ref_apikey d = ref_apikey d'; sd_path : db_path d = db_path d' }.
Definition nobody_writes (k : Conf) : Prop := forall i c db fs, k_threads k !! i <> Some (Writing c db fs).
Definition all_returned (k : Conf) : Prop := forall i t, k_threads k !! i = Some t -> exists c res req, t = Returned c res req.
(** The call comes back: it neither loops for ever nor dies. *)
Definition comes_back (E : Env) (c : Call) : Prop :=
  forall db fs, o_res (call_exec E c db fs) <> OHang /\ o_res (call_exec E c db fs) <> OCrash.
Definition call_of (t : Thread) : Call :=
  match t with Waiting c | Writing c _ _ | Reading c _ | Leaving c _ _ | Returned c _ _ => c end.
