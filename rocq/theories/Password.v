(** password.go *)
From Coq Require Import String Ascii ZArith NArith Lia Bool Arith List.
From stdpp Require Import gmap strings.
From RecordUpdate Require Import RecordSet.
From Verif Require Import GoStr GoErr Types Env.
Import ListNotations.
Import RecordSetNotations.
Open Scope string_scope.

(** password.go:72-92 [hash], on the fields it reads and sets: the cost and the hash. *)
Definition pw_hash_of (E : Env) (nd : Nd) (algo : string) (cost : Z) (s0 : string) : (Z * string) + goerr :=
  let s := trim_space s0 in
  if String.eqb s "" then inr (EStd ErrPasswordEmpty)
  else if String.eqb algo "bcrypt" then
    let cost := if (cost <? 8)%Z then 10%Z else cost in
    match e_bcrypt E (nd_salt nd) s cost with
    | Some h => inl (cost, h)
    | None => inr (EWith ErrPasswordGenerate [AErr ext_err])
    end
  else if String.eqb algo "" then inr (EStd ErrPasswordEmptyAlgorithm)
  else inr (EWith ErrPasswordUnsupportedAlgorithm [AStr algo]).

(** password.go:45-62 [NewPasswordWithOptions]; [cost] is params["cost"] (0 when absent). *)
Definition new_password_opt (E : Env) (nd : Nd) (s purpose algo : string) (cost : Z) : Password + goerr :=
  match pw_hash_of E nd algo cost s with
  | inl (c, h) =>
      inl {| pw_purpose := purpose; pw_algorithm := algo; pw_hash := h; pw_cost := c; pw_expired := false; pw_expired_at := 0;
             pw_created := nd_clock nd; pw_disabled := false; pw_disabled_at := 0 |}
  | inr e => inr e
  end.
(** password.go:39-41 [NewPassword] *)
Definition new_password (E : Env) (nd : Nd) (s : string) : Password + goerr :=
  new_password_opt E nd s "generic" "bcrypt" 0.

(** password.go:65-70 [Disable] *)
Definition pw_disable (nd : Nd) (p : Password) : Password :=
  p <| pw_expired := true |> <| pw_expired_at := nd_clock nd |> <| pw_disabled := true |> <| pw_disabled_at := nd_clock nd |>.

(** password.go:95-100 [Match] *)
Definition pw_match (E : Env) (p : Password) (s : string) : bool := e_bcmp E (pw_hash p) s.
