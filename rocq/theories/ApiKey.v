(** api_key.go *)
From Coq Require Import String Ascii ZArith NArith Lia Bool Arith List.
From stdpp Require Import gmap strings.
From RecordUpdate Require Import RecordSet.
From Verif Require Import GoStr GoErr Random Types Env.
Import ListNotations.
Import RecordSetNotations.
Open Scope string_scope.

(** api_key.go:68-94 [NewAPIKey] *)
Definition new_api_key (nd : Nd) (r : Request) : APIKey + goerr :=
  let k := rq_key r in
  if String.eqb (rk_payload k) "" then inr (EStd ErrAPIKeyPayloadEmpty)
  else if String.eqb (rk_usage k) "" then inr (EStd ErrAPIKeyUsageEmpty)
  else if negb (String.eqb (rk_usage k) "api") then inr (EWith ErrAPIKeyUsageUnsupported [AStr (rk_usage k)])
  else if String.eqb (rk_comment k) "" then inr (EStd ErrAPIKeyCommentEmpty)
  else inl {| ak_id := random_string 40 (nd_id nd); ak_prefix := rk_prefix k; ak_usage := rk_usage k; ak_comment := rk_comment k;
              ak_payload := rk_payload k; ak_expired := false; ak_expired_at := 0; ak_created := nd_clock nd;
              ak_disabled := rk_disabled k; ak_disabled_at := if rk_disabled k then nd_clock nd else 0%Z |}.

(** api_key.go:97-102 [Disable] *)
Definition ak_disable (nd : Nd) (p : APIKey) : APIKey :=
  p <| ak_expired := true |> <| ak_expired_at := nd_clock nd |> <| ak_disabled := true |> <| ak_disabled_at := nd_clock nd |>.

(** api_key.go:105-110 [Match] *)
Definition ak_match (E : Env) (p : APIKey) (s : string) : bool := e_bcmp E (ak_payload p) s.
