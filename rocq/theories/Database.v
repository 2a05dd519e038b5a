(** database.go.

    Locks are not part of these functions; [Conc] treats them.  Each method takes the database,
    the file system and the request and returns the new ones with the outcome. *)
From Coq Require Import String Ascii ZArith NArith Lia Bool Arith List.
From stdpp Require Import gmap strings.
From RecordUpdate Require Import RecordSet.
From Verif Require Import GoStr GoErr Role Name Email Random Types Env Password ApiKey PublicKey Mfa User Json Persist Fs.
Import ListNotations.
Import RecordSetNotations.
Open Scope string_scope.

(** database.go:64 *)
Definition app_version : string := "1.1.6".

(** Outcome of a call.  [OHang]: the call never returns; [OCrash]: the process dies inside the
    file write. *)
Inductive Outcome := OOk | OErr (e : goerr) | OPanic | OHang | OCrash.
Record Out := { o_db : Database; o_fs : FS; o_req : Request; o_res : Outcome }.

(** ** Policy *)
(** database.go:193-219 [enforceDefaultPolicy] with the defaults of lines 39-57 *)
Definition dflt (z d : Z) : Z := if (z =? 0)%Z then d else z.
Definition enforce_policy (p : Policy) : Policy :=
  p <| po_password; pp_min ::= fun z => dflt z 8 |> <| po_password; pp_max ::= fun z => dflt z 128 |>
    <| po_password; pp_keep ::= fun z => dflt z 10 |>
    <| po_user; up_min ::= fun z => dflt z 3 |> <| po_user; up_max ::= fun z => dflt z 50 |>.
Definition policy_changed (p : Policy) : bool :=
  ((pp_min (po_password p) =? 0) || (pp_max (po_password p) =? 0) || (pp_keep (po_password p) =? 0) ||
   (up_min (po_user p) =? 0) || (up_max (po_user p) =? 0))%Z.
(** database.go:231-243 *)
Definition user_policy_ok (p : Policy) (s : string) : bool :=
  negb ((zlen s >? up_max (po_user p))%Z || (zlen s <? up_min (po_user p))%Z).
Definition password_policy_ok (p : Policy) (s : string) : bool :=
  negb ((zlen s >? pp_max (po_password p))%Z || (zlen s <? pp_min (po_password p))%Z).
(** database.go:221-229 [checkPolicyCompliance] *)
Definition check_policy (p : Policy) (username password : string) : option goerr :=
  if negb (user_policy_ok p username) then Some (EStd ErrUserPolicyCompliance)
  else if negb (password_policy_ok p password) then Some (EStd ErrPasswordPolicyCompliance)
  else None.

(** ** Commit *)
Definition two64N : N := 18446744073709551616.
Inductive CommitRes := COk | CErr (e : goerr) | CCrash.
(** database.go:462-465 *)
Definition write_db (nd : Nd) (path : string) (data : option string) (fs : FS) : FS * CommitRes :=
  match data with
  | None => (fs, CErr (EWith ErrDatabaseCommit [AStr path; AErr ext_err]))
  | Some data =>
      match write_file fs path data (nd_write nd) with
      | (fs, WOk) => (fs, COk)
      | (fs, WErr) => (fs, CErr (EWith ErrDatabaseCommit [AStr path; AErr ext_err]))
      | (fs, WCrash) => (fs, CCrash)
      end
  end.
(** database.go:455-466 [commit] *)
Definition bump (nd : Nd) (c : Content) : Content :=
  c <| c_revision := ((c_revision c + 1) mod two64N)%N |> <| c_modified := nd_clock nd |>.
Definition commit_to (nd : Nd) (path : string) (db : Database) (fs : FS) : Database * FS * CommitRes :=
  let db := db <| db_content ::= bump nd |> in
  let (fs, res) := write_db nd path (marshal (db_content db)) fs in
  (db, fs, res).
Definition commit (nd : Nd) (db : Database) (fs : FS) : Database * FS * CommitRes := commit_to nd (db_path db) db fs.

(** ** Opening *)
Inductive LoadRes := Loaded (db : Database) | LErr (e : goerr) | LPanic | LUnmod | LCrash.

(** database.go:159, user.go:135-146 on a decoded user *)
Definition raw_valid (r : RawUser) : option goerr :=
  let u := raw_user r in
  if negb (zlen (u_id u) =? 36)%Z then Some (EWith ErrUserIDInvalidLength [AInt (zlen (u_id u))])
  else if String.eqb (u_username u) "" then Some (EStd ErrUsernameEmpty)
  else match raw_passwords r with [] => Some (EStd ErrUserPasswordNotFound) | _ => None end.
(** database.go:171-177; a nil address panics *)
Fixpoint load_emails (E : Env) (i : nat) (l : list (option EmailAddress)) (m : gmap string nat) : Res (list EmailAddress * gmap string nat) :=
  match l with
  | [] => ROk ([], m)
  | None :: _ => RPanic
  | Some e :: l =>
      let a := lower E (em_address e) in
      match m !! a with
      | Some _ => RErr (EWith ErrNewDatabaseDuplicateEmail [AStr a; AOther])
      | None => match load_emails E i l (<[a := i]> m) with
                | ROk (es, m) => ROk (e :: es, m)
                | RErr e => RErr e
                | RPanic => RPanic
                end
      end
  end.
(** database.go:178-182; a nil password panics *)
Fixpoint load_passwords (l : list (option Password)) : option (list Password) :=
  match l with
  | [] => Some []
  | None :: _ => None
  | Some p :: l => match load_passwords l with
                   | Some ps => Some ((if String.eqb (pw_algorithm p) "" then p <| pw_algorithm := "bcrypt" |> else p) :: ps)
                   | None => None
                   end
  end.
(** database.go:183-188; a nil key panics *)
Fixpoint load_keys (i : nat) (l : list (option APIKey)) (m : gmap string nat) : Res (list APIKey * gmap string nat) :=
  match l with
  | [] => ROk ([], m)
  | None :: _ => RPanic
  | Some k :: l =>
      match m !! ak_prefix k with
      | Some _ => RErr (EWith ErrNewDatabaseDuplicateAPIKey [AStr (ak_prefix k); AOther])
      | None => match load_keys i l (<[ak_prefix k := i]> m) with
                | ROk (ks, m) => ROk (k :: ks, m)
                | RErr e => RErr e
                | RPanic => RPanic
                end
      end
  end.
(** database.go:159-188, one user, appended as account number [length users] *)
Definition load_user (E : Env) (db : Database) (r : RawUser) : Res Database :=
  let u := raw_user r in
  let i := List.length (db_users db) in
  match raw_valid r with
  | Some e => RErr (EWith ErrNewDatabaseInvalidUser [AOther; AErr e])
  | None =>
  let name := lower E (u_username u) in
  match ref_username db !! name with
  | Some _ => RErr (EWith ErrNewDatabaseDuplicateUser [AStr (u_username u); AOther])
  | None =>
  match ref_id db !! u_id u with
  | Some _ => RErr (EWith ErrNewDatabaseDuplicateUserID [AStr (u_id u); AOther])
  | None =>
  match load_emails E i (raw_emails r) (ref_email db) with
  | RErr e => RErr e
  | RPanic => RPanic
  | ROk (es, me) =>
  match load_passwords (raw_passwords r) with
  | None => RPanic
  | Some ps =>
  match load_keys i (raw_keys r) (ref_apikey db) with
  | RErr e => RErr e
  | RPanic => RPanic
  | ROk (ks, mk) =>
      let u := u <| u_emails := es |> <| u_passwords := ps |> <| u_apikeys := ks |> in
      ROk {| db_content := db_content db <| c_users ::= fun l => (l ++ [u])%list |>;
             ref_email := me; ref_username := <[name := i]> (ref_username db); ref_id := <[u_id u := i]> (ref_id db);
             ref_apikey := mk; db_path := db_path db |}
  end end end end end end.
(** database.go:158-190 *)
Fixpoint load_users (E : Env) (db : Database) (l : list (option RawUser)) : LoadRes :=
  match l with
  | [] => Loaded db
  | None :: _ => LPanic
  | Some r :: l => match load_user E db r with
                   | ROk db => load_users E db l
                   | RErr e => LErr e
                   | RPanic => LPanic
                   end
  end.
Definition empty_db (fp : string) (c : RawContent) : Database := {|
  db_content := {| c_version := app_version; c_policy := rc_policy c; c_revision := rc_revision c; c_modified := rc_modified c; c_users := [] |};
  ref_email := ∅; ref_username := ∅; ref_id := ∅; ref_apikey := ∅; db_path := fp |}.
Definition bump_raw (nd : Nd) (c : RawContent) : RawContent :=
  c <| rc_revision := ((rc_revision c + 1) mod two64N)%N |> <| rc_modified := nd_clock nd |>.
(** database.go:144-190: what happens to the bytes read *)
Definition load_bytes (E : Env) (nd : Nd) (fp : string) (fs : FS) (b : string) : FS * LoadRes :=
  match unmarshal b with
  | DUnmod => (fs, LUnmod)
  | DErr => (fs, LErr (EWith ErrNewDatabase [AStr fp; AErr ext_err]))
  | DOk c =>
      if policy_changed (rc_policy c) then
        let c := bump_raw nd (c <| rc_policy ::= enforce_policy |>) in
        match write_db nd fp (marshal_raw c) fs with
        | (fs, COk) => (fs, load_users E (empty_db fp c) (rc_users c))
        | (fs, CErr e) => (fs, LErr (EWith ErrNewDatabase [AStr fp; AErr e]))
        | (fs, CCrash) => (fs, LCrash)
        end
      else (fs, load_users E (empty_db fp c) (rc_users c))
  end.
(** database.go:114-191 [NewDatabase] *)
Definition new_database (E : Env) (nd : Nd) (fp : string) (fs : FS) : FS * LoadRes :=
  if nd_stat_err nd then (fs, LErr (EWith ErrNewDatabase [AStr fp; AErr ext_err]))
  else match (if String.eqb fp "" then None else fs !! fp) with
       | None =>
           if nd_mkdir_err nd then (fs, LErr (EWith ErrNewDatabase [AStr fp; AErr ext_err]))
           else
             let c := bump_raw nd (content_z <| rc_version := app_version |> <| rc_policy ::= enforce_policy |>) in
             match write_db nd fp (marshal_raw c) fs with
             | (fs, COk) => (fs, Loaded (empty_db fp c))
             | (fs, CErr e) => (fs, LErr (EWith ErrNewDatabase [AStr fp; AErr e]))
             | (fs, CCrash) => (fs, LCrash)
             end
       | Some Dir => (fs, LErr (EWith ErrNewDatabase [AStr fp; AStr "path points to a directory"]))
       | Some (File _) =>
           match read_file E nd fs fp with
           | None => (fs, LErr (EWith ErrNewDatabase [AStr fp; AErr ext_err]))
           | Some b => load_bytes E nd fp fs b
           end
       end.

(** ** Lookups *)
Definition at_ref (db : Database) (ref : option nat) : option (nat * User) :=
  match ref with Some i => match db_users db !! i with Some u => Some (i, u) | None => None end | None => None end.
(** database.go:393-400 [getUserByID] *)
Definition by_id (E : Env) (db : Database) (s : string) : option (nat * User) := at_ref db (ref_id db !! lower E s).
(** database.go:403-413 [getUserByUsername] *)
Definition by_username (E : Env) (db : Database) (s : string) : option (nat * User) :=
  if (zlen s <? 2)%Z then None else at_ref db (ref_username db !! lower E s).
(** database.go:417-427 [getUserByEmailAddress] *)
Definition by_email (E : Env) (db : Database) (s : string) : option (nat * User) :=
  if (zlen s <? 6)%Z then None else at_ref db (ref_email db !! lower E s).
(** database.go:385-390 [getUser] *)
Definition get_user (E : Env) (db : Database) (s : string) : option (nat * User) :=
  if contains s "@" then by_email E db s else by_username E db s.
(** database.go:468-481 [validateUserIdentity] *)
Definition validate_identity (E : Env) (db : Database) (r : Request) : (nat * User) + goerr :=
  match by_username E db (ru_username (rq_user r)) with
  | None => inr (EStd ErrDatabaseUserNotFound)
  | Some (i, u1) =>
      match by_email E db (ru_email (rq_user r)) with
      | None => inr (EStd ErrDatabaseUserNotFound)
      | Some (_, u2) => if String.eqb (u_id u1) (u_id u2) then inl (i, u1) else inr (EStd ErrDatabaseInvalidUser)
      end
  end.

Definition set_user (db : Database) (i : nat) (u : User) : Database :=
  db <| db_content; c_users ::= fun l => <[i := u]> l |>.

(** ** Methods *)
Definition ret (db : Database) (fs : FS) (r : Request) (res : Outcome) : Out := {| o_db := db; o_fs := fs; o_req := r; o_res := res |}.
(** The tail [if err := db.commit(); err != nil { return wrap(err) }; return nil] *)
Definition finish (nd : Nd) (db : Database) (fs : FS) (r : Request) (wrap : goerr -> goerr) : Out :=
  match commit nd db fs with
  | (db, fs, COk) => ret db fs r OOk
  | (db, fs, CErr e) => ret db fs r (OErr (wrap e))
  | (db, fs, CCrash) => ret db fs r OCrash
  end.

(** database.go:267-273: the first unused of ten fresh ids, otherwise the id of NewUser *)
Fixpoint pick_id (db : Database) (nd : Nd) (i n : nat) (old : string) : string :=
  match n with
  | O => old
  | S n => let id := new_id (nd_uuid nd i) in
           match ref_id db !! id with None => id | Some _ => pick_id db nd (S i) n old end
  end.
(** database.go:280-286: lower-cased addresses of the new user; [inr a]: address already in use *)
Fixpoint new_addresses (E : Env) (db : Database) (l : list EmailAddress) : list string + string :=
  match l with
  | [] => inl []
  | e :: l => let a := lower E (em_address e) in
              match ref_email db !! a with
              | Some _ => inr a
              | None => match new_addresses E db l with inl t => inl (a :: t) | inr a => inr a end
              end
  end.
(** database.go:251-299 [AddUser] *)
Definition db_add_user (E : Env) (nd : Nd) (db : Database) (fs : FS) (r : Request) : Out :=
  let q := rq_user r in
  match check_policy (db_policy db) (ru_username q) (ru_password q) with
  | Some e => ret db fs r (OErr (EWith ErrAddUser [AStr (ru_username q); AErr e]))
  | None =>
  match new_user_with_roles E nd (ru_username q) (ru_password q) (ru_email q) (ru_full_name q) (ru_roles q) with
  | inr e => ret db fs r (OErr (EWith ErrAddUser [AStr (ru_username q); AErr e]))
  | inl u =>
  let u := u <| u_id := pick_id db nd 1 10 (u_id u) |> in
  let name := lower E (u_username u) in
  match ref_username db !! name with
  | Some _ => ret db fs r (OErr (EWith ErrAddUser [AStr name; AStr "username already in use"]))
  | None =>
  match new_addresses E db (u_emails u) with
  | inr a => ret db fs r (OErr (EWith ErrAddUser [AStr a; AStr "email address already in use"]))
  | inl addrs =>
  let i := List.length (db_users db) in
  let db := db <| ref_username ::= <[name := i]> |> <| ref_id ::= <[u_id u := i]> |>
               <| ref_email ::= fun m => fold_left (fun m a => <[a := i]> m) addrs m |>
               <| db_content; c_users ::= fun l => (l ++ [u])%list |> in
  finish nd db fs r (fun e => EWith ErrAddUser [AStr name; AErr e])
  end end end end.

(** database.go:302-315 [GetUsers] *)
Definition db_get_users (E : Env) (db : Database) (fs : FS) (r : Request) : Out :=
  match validate_identity E db r with
  | inr e => ret db fs r (OErr (EWith ErrGetUsers [AErr e]))
  | inl _ => ret db fs (r <| rq_payload := PUsers (fold_left (fun b u => b_add b (metadata u)) (db_users db) b_new) |>) OOk
  end.
(** database.go:318-327 [GetUser] *)
Definition db_get_user (E : Env) (db : Database) (fs : FS) (r : Request) : Out :=
  match validate_identity E db r with
  | inr e => ret db fs r (OErr (EWith ErrGetUsers [AErr e]))
  | inl (i, _) => ret db fs (r <| rq_payload := PUser i |>) OOk
  end.
(** database.go:330-350 [DeleteUser] *)
Definition db_delete_user (E : Env) (db : Database) (fs : FS) (r : Request) : Out :=
  match validate_identity E db r with
  | inr e => ret db fs r (OErr (EWith ErrDeleteUser [AStr (rq_query_id r); AErr e]))
  | inl _ => ret db fs r (OErr (EWith ErrDeleteUser [AStr (rq_query_id r); AStr "user delete operation is not supported"]))
  end.
(** database.go:353-382 [AuthenticateUser].  The hash computed for unknown users (line 360)
    is discarded. *)
Definition db_authenticate (E : Env) (db : Database) (fs : FS) (r : Request) : Out :=
  let fail r e := ret db fs (r <| rq_code := 400%Z |>) (OErr (EWith ErrAuthFailed [e])) in
  match get_user E db (ru_username (rq_user r)) with
  | None => fail r (AErr (EStd ErrDatabaseUserNotFound))
  | Some (i, u) =>
      if negb (String.eqb (ru_password (rq_user r)) "") then
        match verify_password E u (ru_password (rq_user r)) with
        | Some e => fail r (AErr e)
        | None => ret db fs (r <| rq_code := 200%Z |>) OOk
        end
      else if negb (String.eqb (rw_request (rq_webauthn r)) "") then
        let (u, res) := verify_webauthn E u r in
        let db := set_user db i u in
        match res with
        | Some e => ret db fs (r <| rq_code := 400%Z |>) (OErr (EWith ErrAuthFailed [AErr e]))
        | None => ret db fs (r <| rq_code := 200%Z |>) OOk
        end
      else fail r (AStr "malformed auth request")
  end.
(** database.go:430-434 [GetUserCount] *)
Definition db_user_count (db : Database) : nat := List.length (db_users db).
(** database.go:437-441 [Save] *)
Definition db_save (nd : Nd) (db : Database) (fs : FS) (r : Request) : Out := finish nd db fs r (fun e => e).
(** database.go:444-452 [Copy] *)
Definition db_copy (nd : Nd) (db : Database) (fs : FS) (r : Request) (fp : string) : Out :=
  match commit_to nd fp db fs with
  | (db, fs, COk) => ret db fs r OOk
  | (db, fs, CErr e) => ret db fs r (OErr e)
  | (db, fs, CCrash) => ret db fs r OCrash
  end.

(** database.go:484-498 [AddPublicKey] *)
Definition db_add_public_key (E : Env) (nd : Nd) (db : Database) (fs : FS) (r : Request) : Out :=
  match validate_identity E db r with
  | inr e => ret db fs r (OErr (EWith ErrAddPublicKey [AStr (rk_usage (rq_key r)); AErr e]))
  | inl (i, u) =>
      match add_public_key E nd u r with
      | inr e => ret db fs r (OErr e)
      | inl u => finish nd (set_user db i u) fs r (fun e => EWith ErrAddPublicKey [AStr (rk_usage (rq_key r)); AErr e])
      end
  end.
(** database.go:501-520 [GetPublicKeys] *)
Definition db_get_public_keys (E : Env) (db : Database) (fs : FS) (r : Request) : Out :=
  match validate_identity E db r with
  | inr e => ret db fs r (OErr (EWith ErrGetPublicKeys [AStr (rk_usage (rq_key r)); AErr e]))
  | inl (_, u) =>
      ret db fs (r <| rq_payload := PPublicKeys (fold_left (fun b k =>
        if negb (String.eqb (pk_usage k) (rk_usage (rq_key r))) then b else if pk_disabled k then b else b_add b k) (u_pubkeys u) b_new) |>) OOk
  end.
(** database.go:523-537 [DeletePublicKey] *)
Definition db_delete_public_key (E : Env) (nd : Nd) (db : Database) (fs : FS) (r : Request) : Out :=
  match validate_identity E db r with
  | inr e => ret db fs r (OErr (EWith ErrDeletePublicKey [AStr (rk_id (rq_key r)); AErr e]))
  | inl (i, u) =>
      match delete_public_key nd u r with
      | inr e => ret db fs r (OErr e)
      | inl u => finish nd (set_user db i u) fs r (fun e => EWith ErrDeletePublicKey [AStr (rk_usage (rq_key r)); AErr e])
      end
  end.

(** database.go:540-576 [AddAPIKey].  The secret is drawn once, before the loop.  Hashing it
    either works or fails every time (then the 12th failure is returned); a prefix in use makes
    the loop spin for ever. *)
Definition db_add_api_key (E : Env) (nd : Nd) (db : Database) (fs : FS) (r : Request) : Out :=
  match validate_identity E db r with
  | inr e => ret db fs r (OErr (EWith ErrAddAPIKey [AStr (rk_usage (rq_key r)); AErr e]))
  | inl (i, u) =>
  match random_range 72 96 (nd_len nd) (nd_secret nd) with
  | None => ret db fs r OPanic
  | Some s =>
  match new_password E nd s with
  | inr e => ret db fs r (OErr e)
  | inl hk =>
  let prefix := take 24 s in
  match ref_apikey db !! prefix with
  | Some _ => ret db fs r OHang
  | None =>
  let r := r <| rq_payload := PStr s |> <| rq_key; rk_payload := pw_hash hk |> <| rq_key; rk_prefix := prefix |> in
  match add_api_key nd u r with
  | inr e => ret db fs r (OErr e)
  | inl u =>
      finish nd (set_user db i u <| ref_apikey ::= <[prefix := i]> |>) fs r
             (fun e => EWith ErrAddAPIKey [AStr (rk_usage (rq_key r)); AErr e])
  end end end end end.
(** database.go:579-594 [DeleteAPIKey] *)
Definition db_delete_api_key (E : Env) (nd : Nd) (db : Database) (fs : FS) (r : Request) : Out :=
  match validate_identity E db r with
  | inr e => ret db fs r (OErr (EWith ErrDeleteAPIKey [AStr (rk_id (rq_key r)); AErr e]))
  | inl (i, u) =>
      match delete_api_key nd u r with
      | (inr e, r) => ret db fs r (OErr e)
      | (inl u, r) =>
          finish nd (set_user db i u <| ref_apikey ::= delete (rk_prefix (rq_key r)) |>) fs r
                 (fun e => EWith ErrDeleteAPIKey [AStr (rk_usage (rq_key r)); AErr e])
      end
  end.
(** database.go:597-616 [GetAPIKeys] *)
Definition db_get_api_keys (E : Env) (db : Database) (fs : FS) (r : Request) : Out :=
  match validate_identity E db r with
  | inr e => ret db fs r (OErr (EWith ErrGetAPIKeys [AStr (rk_usage (rq_key r)); AErr e]))
  | inl (_, u) =>
      ret db fs (r <| rq_payload := PAPIKeys (fold_left (fun b k =>
        if negb (String.eqb (ak_usage k) (rk_usage (rq_key r))) then b else if ak_disabled k then b else b_add b k) (u_apikeys u) b_new) |>) OOk
  end.
(** database.go:619-637 [ChangeUserPassword] *)
Definition db_change_password (E : Env) (nd : Nd) (db : Database) (fs : FS) (r : Request) : Out :=
  match validate_identity E db r with
  | inr e => ret db fs r (OErr (EWith ErrChangeUserPassword [AErr e]))
  | inl (i, u) =>
      if negb (password_policy_ok (db_policy db) (ru_password (rq_user r)))
      then ret db fs r (OErr (EWith ErrChangeUserPassword [AErr (EStd ErrPasswordPolicyCompliance)]))
      else match change_password E nd u r (pp_keep (po_password (db_policy db))) with
           | inr e => ret db fs r (OErr e)
           | inl u => finish nd (set_user db i u) fs r (fun e => EWith ErrChangeUserPassword [AErr e])
           end
  end.
(** database.go:641-661 [IdentifyUser] *)
Definition db_identify (E : Env) (db : Database) (fs : FS) (r : Request) : Out :=
  match get_user E db (ru_username (rq_user r)) with
  | None =>
      ret db fs (r <| rq_user; ru_username := "nobody" |> <| rq_user; ru_email := "nobody@localhost" |>
                   <| rq_user; ru_challenges := ["password"] |>) OOk
  | Some (_, u) =>
      let r := if rf_enabled (rq_flags r) then get_flags u r else r in
      ret db fs (r <| rq_user; ru_username := u_username u |> <| rq_user; ru_email := mail_claim u |>
                   <| rq_user; ru_full_name := name_claim u |> <| rq_user; ru_roles := roles_claim (u_roles u) |>
                   <| rq_user; ru_challenges := challenges u |> <| rq_code := 200%Z |>) OOk
  end.
(** database.go:665-686 [LookupAPIKey] *)
Definition db_lookup_api_key (E : Env) (db : Database) (fs : FS) (r : Request) : Out :=
  let s := rk_payload (rq_key r) in
  if String.eqb s "" then ret db fs r (OErr (EStd ErrLookupAPIKeyPayloadEmpty))
  else if (zlen s <? 72)%Z then ret db fs r (OErr (EStd ErrLookupAPIKeyMalformedPayload))
  else
    let r := r <| rq_key; rk_prefix := take 24 s |> in
    match at_ref db (ref_apikey db !! take 24 s) with
    | None => ret db fs r (OErr (EStd ErrLookupAPIKeyFailed))
    | Some (_, u) =>
        match lookup_api_key E u r with
        | Some e => ret db fs r (OErr e)
        | None => ret db fs (r <| rq_user; ru_username := u_username u |> <| rq_user; ru_email := mail_claim u |> <| rq_code := 200%Z |>) OOk
        end
    end.
(** database.go:689-703 [AddMfaToken] *)
Definition db_add_mfa_token (E : Env) (nd : Nd) (db : Database) (fs : FS) (r : Request) : Out :=
  match validate_identity E db r with
  | inr e => ret db fs r (OErr (EWith ErrAddMfaToken [AErr e]))
  | inl (i, u) =>
      match add_mfa_token E nd u r with
      | (r, RPanic) => ret db fs r OPanic
      | (r, RErr e) => ret db fs r (OErr e)
      | (r, ROk u) => finish nd (set_user db i u) fs r (fun e => EWith ErrAddMfaToken [AErr e])
      end
  end.
(** database.go:706-722 [GetMfaTokens] *)
Definition db_get_mfa_tokens (E : Env) (db : Database) (fs : FS) (r : Request) : Out :=
  match validate_identity E db r with
  | inr e => ret db fs r (OErr (EWith ErrGetMfaTokens [AErr e]))
  | inl (_, u) =>
      ret db fs (r <| rq_payload := PMfaTokens (fold_left (fun b t => if t_disabled t then b else b_add b t) (u_mfa u) b_new) |>) OOk
  end.
(** database.go:725-739 [DeleteMfaToken] *)
Definition db_delete_mfa_token (E : Env) (nd : Nd) (db : Database) (fs : FS) (r : Request) : Out :=
  match validate_identity E db r with
  | inr e => ret db fs r (OErr (EWith ErrDeleteMfaToken [AStr (rm_id (rq_mfa r)); AErr e]))
  | inl (i, u) =>
      match delete_mfa_token nd u r with
      | inr e => ret db fs r (OErr e)
      | inl u => finish nd (set_user db i u) fs r (fun e => EWith ErrDeleteMfaToken [AStr (rm_id (rq_mfa r)); AErr e])
      end
  end.

(** database.go:742-757 [GetUsernamePolicySummary] *)
Definition username_summary (p : UserPolicy) : string :=
  let restr := ((if up_upper p then [] else ["lowercase"]) ++ (if up_nonalnum p then [] else ["alpha-numeric"]))%list in
  "A username should be " ++ sprint_d (up_min p) ++ "-" ++ sprint_d (up_max p) ++ " character long string" ++
  match restr with [] => "" | _ => " with " ++ join ", " restr ++ " characters" end.
(** database.go:760-773 [GetUsernamePolicyRegex] *)
Definition username_regex (p : UserPolicy) : string :=
  let start := if up_upper p then "a-zA-Z" else "a-z" in
  let allowed := (if up_upper p then "a-zA-Z0-9" else "a-z0-9") ++ (if up_nonalnum p then "-_." else "") in
  "^[" ++ start ++ "][" ++ allowed ++ "]{" ++ sprint_d (up_min p - 1) ++ "," ++ sprint_d (up_max p - 1) ++ "}$".
(** database.go:776-798 [GetPasswordPolicySummary] *)
Definition password_summary (p : PasswordPolicy) : string :=
  let restr := ((if pp_upper p then ["uppercase"] else []) ++ (if pp_lower p then ["lowercase"] else []) ++
                (if pp_number p then ["numbers"] else []) ++ (if pp_nonalnum p then ["non alpha-numeric"] else []))%list in
  "A password should be " ++ sprint_d (pp_min p) ++ "-" ++ sprint_d (pp_max p) ++ " character long string" ++
  match restr with [] => "" | _ => " with " ++ join ", " restr ++ " characters" end.
(** database.go:801-818 [GetPasswordPolicyRegex] *)
Definition password_regex (p : PasswordPolicy) : string :=
  "^" ++ (if pp_upper p then "(?=.*[A-Z])" else "") ++ (if pp_lower p then "(?=.*[a-z].*[a-z])" else "") ++
  (if pp_number p then "(?=.*[0-9].*[0-9])" else "") ++ (if pp_nonalnum p then "(?=.*[~!@#$&*])" else "") ++
  ".{" ++ sprint_d (pp_min p) ++ "," ++ sprint_d (pp_max p) ++ "}$".

(** ** The API as one function *)
Inductive Op :=
| OpAddUser | OpGetUsers | OpGetUser | OpDeleteUser | OpAuthenticate | OpSave | OpCopy (fp : string)
| OpAddPublicKey | OpGetPublicKeys | OpDeletePublicKey | OpAddAPIKey | OpDeleteAPIKey | OpGetAPIKeys
| OpChangePassword | OpIdentify | OpLookupAPIKey | OpAddMfaToken | OpGetMfaTokens | OpDeleteMfaToken | OpUserCount.
Definition exec (E : Env) (nd : Nd) (op : Op) (db : Database) (fs : FS) (r : Request) : Out :=
  match op with
  | OpAddUser => db_add_user E nd db fs r
  | OpGetUsers => db_get_users E db fs r
  | OpGetUser => db_get_user E db fs r
  | OpDeleteUser => db_delete_user E db fs r
  | OpAuthenticate => db_authenticate E db fs r
  | OpSave => db_save nd db fs r
  | OpCopy fp => db_copy nd db fs r fp
  | OpAddPublicKey => db_add_public_key E nd db fs r
  | OpGetPublicKeys => db_get_public_keys E db fs r
  | OpDeletePublicKey => db_delete_public_key E nd db fs r
  | OpAddAPIKey => db_add_api_key E nd db fs r
  | OpDeleteAPIKey => db_delete_api_key E nd db fs r
  | OpGetAPIKeys => db_get_api_keys E db fs r
  | OpChangePassword => db_change_password E nd db fs r
  | OpIdentify => db_identify E db fs r
  | OpLookupAPIKey => db_lookup_api_key E db fs r
  | OpAddMfaToken => db_add_mfa_token E nd db fs r
  | OpGetMfaTokens => db_get_mfa_tokens E db fs r
  | OpDeleteMfaToken => db_delete_mfa_token E nd db fs r
  | OpUserCount => ret db fs r OOk
  end.
