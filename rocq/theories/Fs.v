(** The part of the file system the database uses: os.Stat, os.MkdirAll, ioutil.ReadFile,
    ioutil.WriteFile (database.go:123-144, 462; internal/utils/file.go).

    A path names a file with its content or a directory; the empty path never exists.
    WriteFile truncates the file and then writes; parent directories, permissions and disk space
    only show up as the write outcome chosen by [Nd]. *)
From Coq Require Import String Ascii ZArith NArith Lia Bool Arith List.
From stdpp Require Import gmap strings.
From Verif Require Import GoStr Types Env.
Import ListNotations.
Open Scope string_scope.

Inductive Node := File (content : string) | Dir.
Definition FS := gmap string Node.

(** ioutil.WriteFile *)
Inductive WriteRes := WOk | WErr | WCrash.
Definition write_file (fs : FS) (path data : string) (io : WriteIo) : FS * WriteRes :=
  if String.eqb path "" then (fs, WErr)
  else match fs !! path with
       | Some Dir => (fs, WErr)
       | _ =>
           match io with
           | IoOk => (<[path := File data]> fs, WOk)
           | IoOpenErr => (fs, WErr)
           | IoShort k => (<[path := File (take k data)]> fs, WErr)
           | IoCrash k => (<[path := File (take k data)]> fs, WCrash)
           end
       end.

(** internal/utils/file.go:23-33 [expandHomePath] (an empty path would panic; it is never
    read because os.Stat fails on it) *)
Definition expand (E : Env) (fp : string) : option string :=
  if has_prefix fp "~" then e_home E fp else Some fp.
(** internal/utils/file.go:36-43 [ReadFileBytes] *)
Definition read_file (E : Env) (nd : Nd) (fs : FS) (fp : string) : option string :=
  if nd_read_err nd then None
  else match expand E fp with
       | Some p => match fs !! p with Some (File s) => Some s | _ => None end
       | None => None
       end.
