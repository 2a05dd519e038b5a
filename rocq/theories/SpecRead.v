(** Changes to the text of a database file that must not change what is read from it.  Member
    names are compared as encoding/json does, ignoring case ([fold_key]). *)
From Coq Require Import String Ascii ZArith List Bool.
From Verif Require Import GoStr Json Persist SpecLayout.
Import ListNotations.
Open Scope string_scope.

(** The member names of all persisted types (database.go:72-110, user.go:45-68, name.go:23-33,
    organization.go:18-22, location.go:18-28, email.go:34-39, password.go:26-36,
    public_key.go:46-61, api_key.go:31-42, mfa_token.go:47-71, lockout.go:24-28, image.go:22-28,
    role.go:23-26, and image.Config). *)
Definition member_names : list string := [
  "version"; "policy"; "revision"; "last_modified"; "users"; "password"; "user";
  "keep_versions"; "min_length"; "max_length"; "require_uppercase"; "require_lowercase"; "require_number"; "require_non_alpha_numeric";
  "block_reuse"; "block_password_change"; "allow_non_alpha_numeric"; "allow_uppercase";
  "id"; "enabled"; "human"; "username"; "title"; "name"; "organization"; "names"; "organizations"; "street_address"; "email_address";
  "email_addresses"; "passwords"; "public_keys"; "api_keys"; "mfa_tokens"; "lockout"; "avatar"; "created"; "roles";
  "first"; "last"; "middle"; "preferred"; "nickname"; "confirmed"; "primary"; "legal"; "alias"; "aliases";
  "street"; "city"; "state"; "zip_code"; "current"; "domicile"; "residential"; "commercial"; "address"; "domain";
  "purpose"; "algorithm"; "hash"; "cost"; "expired"; "expired_at"; "created_at"; "disabled"; "disabled_at";
  "usage"; "type"; "fingerprint"; "fingerprint_md5"; "comment"; "payload"; "openssh"; "prefix";
  "secret"; "period"; "digits"; "device"; "parameters"; "flags"; "signature_counter"; "vendor";
  "start_time"; "end_time"; "body"; "config"; "path"; "ColorModel"; "Width"; "Height"].
Definition unknown (k : string) : Prop := forall n, In n member_names -> fold_key n <> fold_key k.
(** The two members whose names are data: the parameters and the flags of a token. *)
Definition is_dict (k : string) : bool := String.eqb (fold_key k) "parameters" || String.eqb (fold_key k) "flags".
Definition atom (j : json) : Prop := match j with JBool _ | JNum _ | JStr _ => True | _ => False end.

(** One change: two neighbours with different names change places; an unknown member goes; a text,
    number or flag that is given again right away goes; or one of these at some place inside. *)
Inductive edit : bool -> json -> json -> Prop :=
| ed_swap d m1 x y m2 : fold_key (fst x) <> fold_key (fst y) -> edit d (JObj (m1 ++ x :: y :: m2)) (JObj (m1 ++ y :: x :: m2))
| ed_drop m1 k v m2 : unknown k -> edit false (JObj (m1 ++ (k, v) :: m2)) (JObj (m1 ++ m2))
| ed_again d m1 k v w m2 : atom v -> w <> JNull -> edit d (JObj (m1 ++ (k, v) :: (k, w) :: m2)) (JObj (m1 ++ (k, w) :: m2))
| ed_elem d l1 x y l2 : edit false x y -> edit d (JArr (l1 ++ x :: l2)) (JArr (l1 ++ y :: l2))
| ed_member d m1 k x y m2 : edit (is_dict k) x y -> edit d (JObj (m1 ++ (k, x) :: m2)) (JObj (m1 ++ (k, y) :: m2)).
(** Any number of changes. *)
Inductive edited : json -> json -> Prop :=
| es_none j : edited j j
| es_more j k l : edit false j k -> edited k l -> edited j l.
(** Changes of order alone. *)
Inductive swap : json -> json -> Prop :=
| sw_members m1 x y m2 : fold_key (fst x) <> fold_key (fst y) -> swap (JObj (m1 ++ x :: y :: m2)) (JObj (m1 ++ y :: x :: m2))
| sw_elem l1 x y l2 : swap x y -> swap (JArr (l1 ++ x :: l2)) (JArr (l1 ++ y :: l2))
| sw_member m1 k x y m2 : swap x y -> swap (JObj (m1 ++ (k, x) :: m2)) (JObj (m1 ++ (k, y) :: m2)).
Inductive reordered : json -> json -> Prop :=
| ro_none j : reordered j j
| ro_more j k l : swap j k -> reordered k l -> reordered j l.

(** The text [l] is a date and a time of day in UTC, with at most nine digits of a fraction, and
    names the instant [t]. *)
Definition says_time (l : list ascii) (t : Z) : Prop := exists y mo d h mi s ns Y M D H I S F,
  on_clock t y mo d h mi s ns /\
  l = (Y ++ "-" :: M ++ "-" :: D ++ "T" :: H ++ ":" :: I ++ ":" :: S ++ F ++ ["Z"])%char%list /\
  digits_of 4 y Y /\ digits_of 2 mo M /\ digits_of 2 d D /\ digits_of 2 h H /\ digits_of 2 mi I /\ digits_of 2 s S /\
  ((ns = 0%Z /\ F = []) \/
   exists x, F = "."%char :: x /\ (1 <= List.length x <= 9)%nat /\ digits_of 9 ns (x ++ repeat "0"%char (9 - List.length x))).
