(** What the struct tag check should report, stated per field and tag. *)
From Coq Require Import String Ascii ZArith NArith Lia Bool Arith List.
From Verif Require Import GoStr Tag.
Import ListNotations.
Open Scope string_scope.

(** Leftmost non-overlapping replacement of [old] by [new]. *)
Inductive replaced (old new : list ascii) : list ascii -> list ascii -> Prop :=
  | RepEnd : replaced old new [] []
  | RepHit l r : replaced old new l r -> replaced old new (old ++ l) (new ++ r)
  | RepMiss a l r : (forall t, a :: l <> (old ++ t)%list) -> replaced old new l r -> replaced old new (a :: l) (a :: r).
Definition replaced_by (old new s r : string) : Prop := replaced (los old) (los new) (los s) (los r).

(** The tag text a field should have: its name in snake case with two spellings repaired, and
    ",omitempty" unless that is switched off. *)
Inductive expected (snake : string -> string) (o : TagOpts) (name : string) : string -> Prop :=
  | Expected a b : replaced_by "_md_5" "_md5" (snake name) a -> replaced_by "open_ssh" "openssh" a b ->
      expected snake o name (b ++ (if to_no_empty o then "" else ",omitempty")).

(** The tags are looked at in the order json, xml, yaml, up to the first "-". *)
Definition seen (f : SField) (t : string) : Prop :=
  (t = "json" /\ sf_tag f "json" <> "-") \/
  (t = "xml" /\ sf_tag f "json" <> "-" /\ sf_tag f "xml" <> "-") \/
  (t = "yaml" /\ sf_tag f "json" <> "-" /\ sf_tag f "xml" <> "-" /\ sf_tag f "yaml" <> "-").
(** The first byte, read as a character of Latin-1, is a capital letter. *)
Definition capital (s : string) : Prop :=
  exists a t, s = String a t /\ (65 <= N_of_ascii a <= 90 \/ (192 <= N_of_ascii a <= 222 /\ N_of_ascii a <> 215))%N.

Definition missing_text (sname : string) (f : SField) (t : string) : string :=
  "tag """ ++ t ++ """ not found in " ++ sname ++ "." ++ sf_name f ++ " (" ++ sf_type f ++ ")".
Definition wrong_text (sname : string) (f : SField) (t want : string) : string :=
  "tag """ ++ t ++ """ mismatch found in " ++ sname ++ "." ++ sf_name f ++ " (" ++ sf_type f ++ "): " ++ sf_tag f t ++ " (actual) vs. " ++ want ++ " (expected)".
Definition missing (o : TagOpts) (f : SField) (t : string) : Prop :=
  capital (sf_name f) /\ seen f t /\ sf_tag f t = "" /\ to_no_present o = false.
Definition wrong (snake : string -> string) (o : TagOpts) (f : SField) (t want : string) : Prop :=
  capital (sf_name f) /\ seen f t /\ expected snake o (sf_name f) want /\ sf_tag f t <> want /\ to_no_mismatch o = false /\ ~ missing o f t.
(** The complaints about a list of fields. *)
Inductive complaint (snake : string -> string) (o : TagOpts) (sname : string) (l : list SField) : string -> Prop :=
  | Missing f t : In f l -> missing o f t -> complaint snake o sname l (missing_text sname f t)
  | Wrong f t want : In f l -> wrong snake o f t want -> complaint snake o sname l (wrong_text sname f t want).

Definition options (o : option TagOpts) : TagOpts :=
  match o with Some o => o | None => Build_TagOpts false false false false end.
(** Text of a Go identifier-like tag: no quote, no backslash. *)
Definition plain (s : string) : Prop := Forall (fun a => N_of_ascii a <> 34%N /\ N_of_ascii a <> 92%N) (los s).
(** A suggested declaration: name, type without the package name, and a tag literal that sets the
    three tags. *)
Inductive suggested (snake : string -> string) (o : TagOpts) (f : SField) : string -> string -> Prop :=
  | Suggested ty want body : replaced_by "identity." "" (sf_type f) ty -> expected snake o (sf_name f) want ->
      body = "json:""" ++ want ++ """ xml:""" ++ want ++ """ yaml:""" ++ want ++ """" ->
      suggested snake o f body (sf_name f ++ " " ++ ty ++ " `" ++ body ++ "`").
