(** role.go *)
From Coq Require Import String Ascii ZArith NArith Lia Bool Arith List.
From Verif Require Import GoStr GoErr.
Import ListNotations.
Open Scope string_scope.

(** role.go:23-26 *)
Record Role := { ro_name : string; ro_org : string }.

(** role.go:29-43 [NewRole] *)
Definition new_role (s0 : string) : Role + goerr :=
  let s := trim_space s0 in
  if String.eqb s "" then inr (EStd ErrRoleEmpty)
  else match split "/" s with
       | [] | [_] => inl {| ro_name := s; ro_org := "" |}
       | p :: ps => inl {| ro_name := join "/" ps; ro_org := p |}
       end.

(** role.go:46-51 [Role.String] *)
Definition role_string (r : Role) : string :=
  if String.eqb (ro_org r) "" then ro_name r else ro_org r ++ "/" ++ ro_name r.

(** The equality test of user.go:224,254. *)
Definition role_eqb (a b : Role) : bool :=
  String.eqb (ro_name a) (ro_name b) && String.eqb (ro_org a) (ro_org b).

(** user.go:242-260 [AddRole], on the role list; [None] means unchanged (the role is
    already there; then [Revise] is not called). *)
Definition add_role_list (rs : list Role) (r : Role) : option (list Role) :=
  if existsb (role_eqb r) rs then None else Some (rs ++ [r])%list.

(** user.go:214-229 [HasRole] *)
Definition has_role (rs : list Role) (s : string) : bool :=
  match rs with
  | [] => false
  | _ => match new_role s with
         | inr _ => false
         | inl r => existsb (role_eqb r) rs
         end
  end.

(** user.go:337-346 [GetRolesClaim] *)
Definition roles_claim (rs : list Role) : list string := map role_string rs.
