(** Vocabulary for C89-C91. *)
From Coq Require Import String Ascii ZArith NArith Lia Bool Arith List.
From stdpp Require Import gmap strings.
From RecordUpdate Require Import RecordSet.
From Verif Require Import GoStr GoErr Types Env Database Message.
Import ListNotations.
Import RecordSetNotations.
Open Scope string_scope.

(** A properly worded error: every placeholder of the template stands for one argument of the
    right kind, there are no further arguments, and no placeholder is left in the text; the same
    for the errors among the arguments. *)
Definition plain (s : string) : Prop := ~ In "%"%char (los s).
Inductive reads (F : Texts) : goerr -> string -> Prop :=
| reads_std t : plain t -> reads F (EStd t) t
| reads_ext t : reads F (EFmt t) (tx_ext F t)
| reads_with t args m : filled F t args m -> reads F (EWith t args) m
with filled (F : Texts) : string -> list arg -> string -> Prop :=
| filled_end l : plain l -> filled F l [] l
| filled_arg l v t a args x m : plain l -> shown F v a x -> filled F t args m ->
    filled F (l ++ "%" ++ String v "" ++ t) (a :: args) (l ++ x ++ m)
with shown (F : Texts) : ascii -> arg -> string -> Prop :=
| shown_s s : shown F "s" (AStr s) s
| shown_v s : shown F "v" (AStr s) s
| shown_q s : shown F "q" (AStr s) (tx_quote F s)
| shown_d z : shown F "d" (AInt z) (sprint_d z)
| shown_o : shown F "v" AOther (tx_other F)
| shown_e e m : reads F e m -> shown F "v" (AErr e) m.

(** What a request discloses: everything but passwords, one-time codes, secrets of
    authenticator apps, API keys and WebAuthn messages.  A public key that is to be stored and
    the registration message of a device are not secrets. *)
Definition disclosed (op : Op) (r : Request) : Request :=
  r <| rq_user; ru_password := "" |> <| rq_user; ru_old_password := "" |>
    <| rq_mfa; rm_secret := "" |> <| rq_mfa; rm_passcode := "" |>
    <| rq_webauthn; rw_challenge := "" |> <| rq_webauthn; rw_request := "" |>
    <| rq_webauthn; rw_register := match op with OpAddMfaToken => rw_register (rq_webauthn r) | _ => "" end |>
    <| rq_key; rk_payload := match op with OpAddPublicKey => rk_payload (rq_key r) | _ => "" end |>.
