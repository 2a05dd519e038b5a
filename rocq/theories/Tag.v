(** internal/tag/tag.go: the check of struct tags.

    Parameters: [snake] is strcase.ToSnake (an external library), [quote] is the verb %q of fmt on the
    name of a struct or a kind.  The types of fields are given by their printed form. *)
From Coq Require Import String Ascii ZArith NArith Lia Bool Arith List.
From Verif Require Import GoStr.
Import ListNotations.
Open Scope string_scope.

(** tag.go:26-31 [Options] *)
Record TagOpts := { to_disabled : bool; to_no_present : bool; to_no_mismatch : bool; to_no_empty : bool }.
Definition opts_z : TagOpts := {| to_disabled := false; to_no_present := false; to_no_mismatch := false; to_no_empty := false |}.

(** A field as reflect shows it: name, printed type, [Tag.Get]. *)
Record SField := { sf_name : string; sf_type : string; sf_tag : string -> string }.
(** The resource: nil, or of a type without element type, or a pointer (array, map, ...) to a type of
    the given kind and name. *)
Inductive Resource := ResNil | ResFlat | ResElem (kind name : string) (fields : list SField).

(** [strings.ReplaceAll] with a non-empty [old], on lists; [n] bounds the number of characters *)
Fixpoint starts (p l : list ascii) : bool :=
  match p, l with
  | [], _ => true
  | a :: p, b :: l => Ascii.eqb a b && starts p l
  | _, [] => false
  end.
Fixpoint replace_l (n : nat) (old new l : list ascii) : list ascii :=
  match n, l with
  | _, [] | O, _ => l
  | S n, a :: t => if starts old l then (new ++ replace_l n old new (skipn (List.length old) l))%list else a :: replace_l n old new t
  end.
Definition replace_all (s old new : string) : string :=
  sol (replace_l (String.length s) (los old) (los new) (los s)).

(** tag.go:129-134 [convertFieldToTag] *)
Definition field_to_tag (snake : string -> string) (s : string) : string :=
  replace_all (replace_all (snake s) "_md_5" "_md5") "open_ssh" "openssh".
(** tag.go:136-147 [makeTags] *)
Definition make_tags (tags : list string) (s : string) : string :=
  "`" ++ join " " (map (fun t => t ++ ":""" ++ s ++ """") tags) ++ "`".

(** [unicode.IsUpper(rune(name[0]))]: the first byte taken as a character of Latin-1 *)
Definition upper_byte (a : ascii) : bool :=
  let n := N_of_ascii a in
  ((65 <=? n) && (n <=? 90) || ((192 <=? n) && (n <=? 222) && negb (n =? 215)))%N.
Definition exported (s : string) : bool := match s with String a _ => upper_byte a | "" => false end.

(** reflect [StructTag.Get] on a tag in the conventional form [key:"value" key:"value" ...]; values
    with a backslash are not modelled (taken as malformed). *)
Fixpoint scan_key (l : list ascii) : list ascii * list ascii :=
  match l with
  | a :: t => let n := N_of_ascii a in
      if ((n <=? 32) || (n =? 58) || (n =? 34) || (n =? 127))%N then ([], l) else let (k, r) := scan_key t in (a :: k, r)
  | [] => ([], [])
  end.
Fixpoint scan_value (l : list ascii) : option (list ascii * list ascii) :=
  match l with
  | [] => None
  | a :: t => if (N_of_ascii a =? 34)%N then Some ([], t)
              else if (N_of_ascii a =? 92)%N then None
              else match scan_value t with Some (v, r) => Some (a :: v, r) | None => None end
  end.
Fixpoint skip_blanks (l : list ascii) : list ascii :=
  match l with a :: t => if (N_of_ascii a =? 32)%N then skip_blanks t else l | [] => [] end.
Fixpoint tag_scan (n : nat) (l : list ascii) (key : list ascii) : list ascii :=
  match n with
  | O => []
  | S n =>
      match scan_key (skip_blanks l) with
      | ([], _) => []
      | (k, c :: q :: r) =>
          if ((N_of_ascii c =? 58) && (N_of_ascii q =? 34))%N then
            match scan_value r with
            | Some (v, r) => if String.eqb (sol k) (sol key) then v else tag_scan n r key
            | None => []
            end
          else []
      | _ => []
      end
  end.
Definition tag_get (tag key : string) : string := sol (tag_scan (S (String.length tag)) (los tag) (los key)).

Definition required_tags : list string := ["json"; "xml"; "yaml"].

(** tag.go:69-112: the loop over the tags of one field; the messages and the suggestions *)
Fixpoint check_tags (o : TagOpts) (sname : string) (f : SField) (want : string) (tags : list string) : list string * list string :=
  match tags with
  | [] => ([], [])
  | t :: rest =>
      let v := sf_tag f t in
      if String.eqb v "-" then ([], [])
      else if String.eqb v "" && negb (to_no_present o) then
        let (out, sug) := check_tags o sname f want rest in
        (("tag """ ++ t ++ """ not found in " ++ sname ++ "." ++ sf_name f ++ " (" ++ sf_type f ++ ")") :: out,
         match rest with
         | [] => [sf_name f ++ " " ++ replace_all (sf_type f) "identity." "" ++ " " ++ make_tags required_tags want]
         | _ => sug
         end)
      else if negb (String.eqb v want) && negb (to_no_mismatch o) then
        let (out, sug) := check_tags o sname f want rest in
        (("tag """ ++ t ++ """ mismatch found in " ++ sname ++ "." ++ sf_name f ++ " (" ++ sf_type f ++ "): " ++ v ++ " (actual) vs. " ++ want ++ " (expected)") :: out, sug)
      else check_tags o sname f want rest
  end.
(** tag.go:57-113: the loop over the fields *)
Fixpoint check_fields (snake : string -> string) (o : TagOpts) (sname : string) (l : list SField) : list string * list string :=
  match l with
  | [] => ([], [])
  | f :: l =>
      let (out, sug) := check_fields snake o sname l in
      if exported (sf_name f) then
        let want := field_to_tag snake (sf_name f) ++ (if to_no_empty o then "" else ",omitempty") in
        let (out1, sug1) := check_tags o sname f want required_tags in
        ((out1 ++ out)%list, (sug1 ++ sug)%list)
      else (out, sug)
  end.

Inductive TagRes := TagOk (msgs : list string) | TagErr (msgs : list string) (e : string) | TagPanic.
Definition newline : string := String (ascii_of_nat 10) "".
(** tag.go:34-127 [GetTagCompliance] *)
Definition tag_compliance (snake quote : string -> string) (r : Resource) (o : option TagOpts) : TagRes :=
  let o := match o with Some o => o | None => opts_z end in
  if to_disabled o then TagOk []
  else match r with
  | ResNil | ResFlat => TagPanic
  | ResElem kind name fields =>
      if negb (String.eqb kind "struct") then TagErr [] ("resource kind " ++ quote kind ++ " is unsupported")
      else
        let (out, sug) := check_fields snake o name fields in
        let out := match sug with
                   | [] => out
                   | _ => (out ++ [("suggested struct changes to " ++ name ++ ":" ++ newline ++ join newline sug)%string])%list
                   end in
        match out with
        | [] => TagOk []
        | _ => TagErr out ("struct " ++ quote name ++ " is not compliant")
        end
  end.
