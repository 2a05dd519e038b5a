(** Vocabulary of the theorems about refused database files (C117): what is checked when a database is
    opened, in order, and what happens if the check fails. *)
From Coq Require Import String Ascii ZArith NArith Lia Bool Arith List.
From stdpp Require Import gmap strings.
From RecordUpdate Require Import RecordSet.
From Verif Require Import GoStr GoTime GoErr Email Types Env Persist Fs Database SpecDb SpecPersist SpecMeaning.
Import ListNotations.
Import RecordSetNotations.
Open Scope string_scope.

(** A check and what opening returns if it fails. *)
Definition defects := list (Prop * LoadRes).
Definition first_defect (l : defects) (x : LoadRes) : Prop := exists l1 c l2, l = (l1 ++ (c, x) :: l2)%list /\ Forall fst l1 /\ ~ c.
Definition in_case (c : Prop) (l : defects) : defects := map (fun x => ((c -> fst x : Prop), snd x)) l.

(** ** Accounts *)
(** The addresses of an account, after the [known] ones. *)
Fixpoint address_defects (E : Env) (known : list string) (l : list (option EmailAddress)) : defects :=
  match l with
  | [] => []
  | None :: l => (False, LPanic) :: address_defects E known l
  | Some e :: l => ((forall a, In a known -> ~ same_ci E a (em_address e)), LErr (EWith ErrNewDatabaseDuplicateEmail [AStr (lower E (em_address e)); AOther]))
                   :: address_defects E (em_address e :: known) l
  end.
Fixpoint key_defects (known : list string) (l : list (option APIKey)) : defects :=
  match l with
  | [] => []
  | None :: l => (False, LPanic) :: key_defects known l
  | Some k :: l => (~ In (ak_prefix k) known, LErr (EWith ErrNewDatabaseDuplicateAPIKey [AStr (ak_prefix k); AOther])) :: key_defects (ak_prefix k :: known) l
  end.
Definition addresses (r : RawUser) : list string := flat_map (fun x => match x with Some e => [em_address e] | None => [] end) (raw_emails r).
Definition prefixes (r : RawUser) : list string := flat_map (fun x => match x with Some k => [ak_prefix k] | None => [] end) (raw_keys r).
(** An account of the file, after the accounts [pre]. *)
Definition account_defects (E : Env) (pre : list RawUser) (r : RawUser) : defects :=
  let u := raw_user r in let bad e := LErr (EWith ErrNewDatabaseInvalidUser [AOther; AErr e]) in
  ([(String.length (u_id u) = 36%nat, bad (EWith ErrUserIDInvalidLength [AInt (zlen (u_id u))]));
    (u_username u <> "", bad (EStd ErrUsernameEmpty));
    (raw_passwords r <> [], bad (EStd ErrUserPasswordNotFound));
    ((forall p, In p pre -> ~ same_ci E (u_username (raw_user p)) (u_username u)), LErr (EWith ErrNewDatabaseDuplicateUser [AStr (u_username u); AOther]));
    ((forall p, In p pre -> u_id (raw_user p) <> u_id u), LErr (EWith ErrNewDatabaseDuplicateUserID [AStr (u_id u); AOther]))] ++
   address_defects E (flat_map addresses pre) (raw_emails r) ++
   [(~ In None (raw_passwords r), LPanic)] ++
   key_defects (flat_map prefixes pre) (raw_keys r))%list.
Fixpoint accounts_defects (E : Env) (pre : list RawUser) (l : list (option RawUser)) : defects :=
  match l with
  | [] => []
  | None :: l => (False, LPanic) :: accounts_defects E pre l
  | Some r :: l => (account_defects E pre r ++ accounts_defects E (pre ++ [r]) l)%list
  end.

(** ** Files *)
Definition absent (fs : FS) (fp : string) : Prop := fp = "" \/ fs !! fp = None.
(** The text read: that of the file itself, or of the file in the home directory if the path begins with a tilde. *)
Definition reads (E : Env) (nd : Nd) (fs : FS) (fp b : string) : Prop :=
  nd_read_err nd = false /\ exists p, (if has_prefix fp "~" then e_home E fp = Some p else p = fp) /\ fs !! p = Some (File b).
(** [c] is what the file says, if it says anything. *)
Definition says (E : Env) (nd : Nd) (fs : FS) (fp : string) (c : RawContent) : Prop :=
  forall b c', reads E nd fs fp b -> database_text b c' -> c' = c.
(** Writing the file; [ok]: there is a text for the content. *)
Definition write_defects (nd : Nd) (fs : FS) (fp : string) (ok : Prop) : defects :=
  let err := LErr (EWith ErrNewDatabase [AStr fp; AErr (EWith ErrDatabaseCommit [AStr fp; AErr ext_err])]) in
  [(ok, err); (fp <> "" /\ fs !! fp <> Some Dir, err); ((forall k, nd_write nd <> IoCrash k), LCrash); (nd_write nd = IoOk, err)].
Definition opening_defects (E : Env) (nd : Nd) (fp : string) (fs : FS) (c : RawContent) : defects :=
  let err a := LErr (EWith ErrNewDatabase [AStr fp; a]) in
  ([(nd_stat_err nd = false, err (AErr ext_err))] ++
   in_case (absent fs fp) ((nd_mkdir_err nd = false, err (AErr ext_err)) :: write_defects nd fs fp (time_ok (nd_clock nd) = true)) ++
   in_case (~ absent fs fp)
    ([(fs !! fp <> Some Dir, err (AStr "path points to a directory"));
      ((exists b, reads E nd fs fp b), err (AErr ext_err));
      ((exists b c, reads E nd fs fp b /\ database_text b c), err (AErr ext_err))] ++
     in_case (~ limits_set (rc_policy c)) (write_defects nd fs fp (raw_times (c <| rc_modified := nd_clock nd |>) = true)) ++
     accounts_defects E [] (rc_users c)))%list.
