(** Vocabulary of the theorems about registered second factors (C122): for every account the
    registrations not deleted, kept by an observer of the calls and their answers. *)
From Coq Require Import String Ascii ZArith NArith Lia Bool Arith List.
From stdpp Require Import gmap strings.
From Verif Require Import GoStr Codec Random Types Env Persist Fs Database System.
From Verif Require Import SpecDb SpecAuth SpecMfa SpecRegister SpecOutage SpecLedger.
Import ListNotations.
Open Scope string_scope.

(** A registration: the identifier drawn and the request. *)
Record Factor := { fa_id : string; fa_req : Request }.
Record Ring := { ri_name : string; ri_mail : string; ri_factors : list Factor }.
Definition with_factors (f : list Factor -> list Factor) (e : Ring) : Ring :=
  {| ri_name := ri_name e; ri_mail := ri_mail e; ri_factors := f (ri_factors e) |}.
Definition on_ring (E : Env) (r : Request) (f : Ring -> Ring) (l : list Ring) : list Ring :=
  map (fun e => if String.eqb (lower E (ri_name e)) (lower E (ru_username (rq_user r))) then f e else e) l.
Definition enrol (E : Env) (nd : Nd) (op : Op) (r : Request) (o : Out) (l : list Ring) : list Ring :=
  match took o, op with
  | true, OpAddUser => (l ++ [{| ri_name := ru_username (rq_user r); ri_mail := ru_email (rq_user r); ri_factors := [] |}])%list
  | true, OpAddMfaToken => on_ring E r (with_factors (fun fs => (fs ++ [{| fa_id := random_string 40 (nd_id nd); fa_req := r |}])%list)) l
  | true, OpDeleteMfaToken => on_ring E r (with_factors (List.filter (fun f => negb (String.eqb (fa_id f) (rm_id (rq_mfa r)))))) l
  | _, _ => l
  end.
Definition enrolled (E : Env) : FS -> Database -> list Ring -> Prop := traced E (enrol E) [].
(** The ring that a login name stands for. *)
Definition ring_called (E : Env) (e : Ring) (s : string) : Prop :=
  (In "@"%char (los s) /\ (6 <= String.length s)%nat /\ same_ci E (ri_mail e) s) \/
  (~ In "@"%char (los s) /\ (2 <= String.length s)%nat /\ same_ci E (ri_name e) s).
Definition ring_named (E : Env) (e : Ring) (r : Request) : Prop :=
  (2 <= String.length (ru_username (rq_user r)))%nat /\ same_ci E (ri_name e) (ru_username (rq_user r)) /\
  (6 <= String.length (ru_email (rq_user r)))%nat /\ same_ci E (ri_mail e) (ru_email (rq_user r)).
(** The registration, not made as disabled, is of the credential [id] for the site with hash [site] and
    attests a key with coordinates [x] and [y]. *)
Definition enrols (E : Env) (f : Factor) (id site x y : string) : Prop :=
  rm_disabled (rq_mfa (fa_req f)) = false /\
  exists q a curve, registers_u2f E (fa_req f) q a curve x y /\ wr_id q = id /\ at_site a = site.
(** The first registration of the credential is of this kind. *)
Definition first_enrols (E : Env) (e : Ring) (id site x y : string) : Prop :=
  exists l1 f l2, ri_factors e = (l1 ++ f :: l2)%list /\ enrols E f id site x y /\ Forall (fun g => forall s x' y', ~ enrols E g id s x' y') l1.
(** The key with the given coordinates, in base64. *)
Definition point (x y : string) (key : Z * Z) : Prop :=
  exists bx by_ nx ny, b64_decode x = Some bx /\ b64_decode y = Some by_ /\ String.length bx = 32%nat /\ String.length by_ = 32%nat /\
    big_endian (los bx) nx /\ big_endian (los by_) ny /\ key = (Z.of_N nx, Z.of_N ny).
(** The message answers the challenge of the request for the site and is signed with the key. *)
Definition answers (E : Env) (r : Request) (q : AuthRequest) (site x y : string) : Prop :=
  trim_space (wq_client q) <> "" /\ trim_space (wq_sig q) <> "" /\ trim_space (wq_auth q) <> "" /\
  exists client cd auth sig key, b64_decode (wq_client q) = Some client /\ e_client E client = Some cd /\
    b64_decode (wq_auth q) = Some auth /\ b64_decode (wq_sig q) = Some sig /\ point x y key /\
    cl_type cd = "webauthn.get" /\ cl_cross cd = false /\ cl_challenge cd = rw_challenge (rq_webauthn r) /\
    (exists rp flags c0 c1 c2 c3 rest, los auth = (rp ++ [flags] ++ [c0; c1; c2; c3] ++ rest)%list /\ List.length rp = 32%nat /\
       bit flags 0 = true /\ hex_of rp (los site)) /\
    e_ecdsa E key (auth ++ e_sha256 E client) sig = true.
(** The factors that were not registered as disabled. *)
Definition usable (l : list Factor) : list Factor := List.filter (fun f => negb (rm_disabled (rq_mfa (fa_req f)))) l.
(** The passcode is that of the registered secret for the step before, at or after the given time. *)
Definition passcode_of (E : Env) (f : Request) (now : Z) (code : string) : Prop :=
  exists a d T T', chosen_algorithm E f a /\ chosen_digits f d /\ in_period now (rm_period (rq_mfa f)) T /\ (T - 1 <= T' <= T + 1)%Z /\
    code_of E a (rm_secret (rq_mfa f)) (Z.to_nat d) T' (trim_space code).
(** The request describes a second factor that can be registered now. *)
Definition can_enrol (E : Env) (now : Z) (r : Request) : Prop :=
  (exists a d, registers_totp E now r a d) \/ (exists q a curve x y, registers_u2f E r q a curve x y).
(** What no two factors of an account share: the secret, which is the challenge for a key, and the comment. *)
Definition factor_secret (r : Request) : string := if String.eqb (rm_type (rq_mfa r)) "totp" then rm_secret (rq_mfa r) else rw_challenge (rq_webauthn r).
Definition unlike (r : Request) (f : Factor) : Prop := factor_secret (fa_req f) <> factor_secret r /\ rm_comment (rq_mfa (fa_req f)) <> rm_comment (rq_mfa r).
