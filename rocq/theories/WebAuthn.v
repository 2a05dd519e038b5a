(** The JSON form of the WebAuthn messages: webauthn.go:24-104, decoded with [json.Unmarshal]
    at mfa_token.go:161, 325, 343 and webauthn.go:112.

    [Env] leaves the decoders open ([e_register], [e_authreq], [e_client]); here they are concrete.
    Decoding goes into an existing value, as in encoding/json: members are matched to fields by name,
    ignoring case; the last of several members for a field wins, except that objects are merged;
    unknown members are ignored; null leaves texts, numbers and booleans alone and clears pointers,
    maps and slices.  A value of the wrong type anywhere makes the whole decoding fail.

    Simplification: a null element of an array keeps the text at that position of the array decoded
    just before for the same field; Go may bring back even older texts when arrays shrink and grow
    again over three members for one field. *)
From Coq Require Import String Ascii ZArith NArith Lia Bool Arith List.
From stdpp Require Import gmap strings.
From RecordUpdate Require Import RecordSet.
From Verif Require Import GoStr Utf8 Codec Json GoErr Types Env Persist.
Import ListNotations.
Import RecordSetNotations.
Open Scope string_scope.

(** ** Numbers as float64 *)
(** The literal of a number as (negative, digits, exponent of ten). *)
Definition num_parts (lit : list ascii) : bool * Z * Z :=
  let '(neg, l) := match lit with a :: t => if Ascii.eqb a "-" then (true, t) else (false, lit) | [] => (false, []) end in
  let '(i, l) := span_digits l in
  let '(f, l) := match l with a :: t => if Ascii.eqb a "." then span_digits t else ([], l) | [] => ([], []) end in
  let e := match l with
           | _ :: a :: t => if Ascii.eqb a "-" then (- Z.of_N (dec_val_l t 0))%Z
                            else if Ascii.eqb a "+" then Z.of_N (dec_val_l t 0) else Z.of_N (dec_val_l (a :: t) 0)
           | _ => 0%Z
           end in
  (neg, Z.of_N (dec_val_l (i ++ f)%list 0), (e - Z.of_nat (List.length f))%Z).
(** [n / d] rounded to the nearest integer, ties to even *)
Definition round_even (n d : Z) : Z :=
  let q := (n / d)%Z in
  let r := (2 * (n - q * d))%Z in
  if (r <? d)%Z then q else if (d <? r)%Z then (q + 1)%Z else if Z.even q then q else (q + 1)%Z.
(** [n / d > 0] rounded to float64: mantissa and exponent of two; [None] is overflow *)
Definition pow2_le (k n d : Z) : bool := if (0 <=? k)%Z then (2 ^ k * d <=? n)%Z else (d <=? n * 2 ^ (- k))%Z.
Definition round64 (n d : Z) : option (Z * Z) :=
  let k0 := (Z.log2 n - Z.log2 d)%Z in
  let k := if pow2_le k0 n d then k0 else (k0 - 1)%Z in
  let e := Z.max (k - 52) (-1074) in
  let m := if (0 <=? e)%Z then round_even n (d * 2 ^ e) else round_even (n * 2 ^ (- e)) d in
  if (e + 53 >? 1024)%Z || ((e =? 971)%Z && (m =? 2 ^ 53)%Z) then None else Some (m, e).
(** [strconv.ParseFloat(lit, 64)]: [None] is the range error, [Some (Some z)] a value equal to the
    integer [z], [Some None] any other value *)
Definition parse_float (lit : string) : option (option Z) :=
  let '(neg, digits, e10) := num_parts (los lit) in
  if (digits =? 0)%Z then Some (Some 0%Z)
  else
    let '(n, d) := if (0 <=? e10)%Z then (digits * 10 ^ e10, 1)%Z else (digits, 10 ^ (- e10))%Z in
    match round64 n d with
    | None => None
    | Some (m, e) =>
        let z := if (0 <=? e)%Z then Some (m * 2 ^ e)%Z else if (m mod 2 ^ (- e) =? 0)%Z then Some (m / 2 ^ (- e))%Z else None in
        Some (option_map (fun z => if neg then (- z)%Z else z) z)
    end.

(** ** Decoding into a value *)
Definition rd (T : Type) := T -> json -> option T.
Definition rd_str : rd string := fun c j => match j with JNull => Some c | JStr s => Some s | _ => None end.
Definition rd_bool : rd bool := fun c j => match j with JNull => Some c | JBool b => Some b | _ => None end.
Definition of_dres {A} (x : dres A) : option A := match x with DOk a => Some a | _ => None end.
Definition rd_uint (bound : N) : rd N := fun c j => match j with JNull => Some c | _ => of_dres (dec_uint bound j) end.
Definition rd_int : rd Z := fun c j => match j with JNull => Some c | _ => of_dres (dec_int j) end.
Definition rd_ptr {A} (z : A) (f : rd A) : rd (option A) := fun c j =>
  match j with JNull => Some None | _ => option_map Some (f (default z c) j) end.
Fixpoint rd_elems {A} (z : A) (f : rd A) (c : list A) (l : list json) : option (list A) :=
  match l with
  | [] => Some []
  | j :: l => match f (match c with x :: _ => x | [] => z end) j, rd_elems z f (match c with _ :: c => c | [] => [] end) l with
              | Some x, Some xs => Some (x :: xs)
              | _, _ => None
              end
  end.
Definition rd_list {A} (z : A) (f : rd A) : rd (list A) := fun c j =>
  match j with JNull => Some [] | JArr l => rd_elems z f c l | _ => None end.
Fixpoint rd_entries {A} (z : A) (f : rd A) (ms : list (string * json)) (m : gmap string A) : option (gmap string A) :=
  match ms with
  | [] => Some m
  | (k, v) :: ms => match f z v with Some x => rd_entries z f ms (<[k := x]> m) | None => None end
  end.
Definition rd_map {A} (z : A) (f : rd A) : rd (option (gmap string A)) := fun c j =>
  match j with JNull => Some None | JObj ms => option_map Some (rd_entries z f ms (default ∅ c)) | _ => None end.
(** interface{}: numbers become float64 at any depth *)
Fixpoint floats_ok (j : json) : bool :=
  match j with
  | JNum s => match parse_float s with Some _ => true | None => false end
  | JArr l => forallb floats_ok l
  | JObj ms => forallb (fun kv => floats_ok (snd kv)) ms
  | _ => true
  end.
Definition rd_any : rd Jv := fun _ j =>
  if floats_ok j then Some match j with
                           | JNum s => VNum (match parse_float s with Some z => z | None => None end)
                           | JStr s => VStr s
                           | _ => VOther
                           end
  else None.

Record member (R : Type) := Member { mb_name : string; mb_read : R -> json -> option R }.
Arguments Member {R}. Arguments mb_name {R}. Arguments mb_read {R}.
(** [mem name proj rd]: a field that is kept; [skip name zero rd]: one that is only type checked *)
Notation mem n p f := (Member n (fun r j => option_map (fun v => r <| p := v |>) (f (p r) j))).
Definition skip {A R} (n : string) (z : A) (f : rd A) : member R :=
  Member n (fun r j => match f z j with Some _ => Some r | None => None end).
Fixpoint rd_members {R} (fs : list (member R)) (ms : list (string * json)) (r : R) : option R :=
  match ms with
  | [] => Some r
  | (k, v) :: ms =>
      match find (fun f => String.eqb (fold_key (mb_name f)) (fold_key k)) fs with
      | None => rd_members fs ms r
      | Some f => match mb_read f r v with Some r => rd_members fs ms r | None => None end
      end
  end.
Definition rd_struct {R} (fs : list (member R)) : rd R := fun r j =>
  match j with JNull => Some r | JObj ms => rd_members fs ms r | _ => None end.
Definition decode {R} (fs : list (member R)) (z : R) (s : string) : option R :=
  match parse (los s) with Some j => rd_struct fs z j | None => None end.

(** ** The struct tags *)
#[export] Instance eta_CredentialData : Settable _ := settable! Build_CredentialData <cd_pubkey>.
#[export] Instance eta_AuthData : Settable _ := settable! Build_AuthData <ad_rpid; ad_flags; ad_counter; ad_cred>.
#[export] Instance eta_AttestationObject : Settable _ := settable! Build_AttestationObject <ao_auth>.
#[export] Instance eta_RegisterRequest : Settable _ := settable! Build_RegisterRequest <wr_id; wr_type; wr_transports; wr_att>.
#[export] Instance eta_AuthRequest : Settable _ := settable! Build_AuthRequest <wq_id; wq_auth; wq_client; wq_sig>.
#[export] Instance eta_ClientData : Settable _ := settable! Build_ClientData <cl_challenge; cl_cross; cl_type>.
(** webauthn.go:79-86 *)
Definition cred_z : CredentialData := Build_CredentialData None.
Definition cred_m : list (member CredentialData) :=
  [skip "aaguid" "" rd_str; skip "credentialId" "" rd_str; mem "publicKey" cd_pubkey (rd_map VOther rd_any)].
(** webauthn.go:68-74 *)
Definition auth_z : AuthData := Build_AuthData "" None 0 None.
Definition auth_m : list (member AuthData) :=
  [mem "rpIdHash" ad_rpid rd_str; mem "flags" ad_flags (rd_map false rd_bool); mem "signatureCounter" ad_counter (rd_uint (2 ^ 32));
   skip "extensions" VOther rd_any; mem "credentialData" ad_cred (rd_ptr cred_z (rd_struct cred_m))].
(** webauthn.go:55-65 *)
Definition stmt_m : list (member unit) := [skip "alg" 0%Z rd_int; skip "sig" "" rd_str; skip "x5c" [] (rd_list "" rd_str)].
(** webauthn.go:48-52 *)
Definition att_z : AttestationObject := Build_AttestationObject None.
Definition att_m : list (member AttestationObject) :=
  [skip "attStmt" None (rd_ptr tt (rd_struct stmt_m)); mem "authData" ao_auth (rd_ptr auth_z (rd_struct auth_m)); skip "fmt" "" rd_str].
(** webauthn.go:91-96 *)
Definition client_z : ClientData := Build_ClientData "" false "".
Definition client_m : list (member ClientData) :=
  [mem "challenge" cl_challenge rd_str; mem "crossOrigin" cl_cross rd_bool; skip "origin" "" rd_str; mem "type" cl_type rd_str].
(** webauthn.go:100-103 *)
Definition device_m : list (member unit) := [skip "name" "" rd_str; skip "type" "" rd_str].
(** webauthn.go:37-45 *)
Definition register_z : RegisterRequest := Build_RegisterRequest "" "" [] None.
Definition register_m : list (member RegisterRequest) :=
  [mem "id" wr_id rd_str; mem "type" wr_type rd_str; mem "transports" wr_transports (rd_list "" rd_str); skip "success" false rd_bool;
   mem "attestationObject" wr_att (rd_ptr att_z (rd_struct att_m)); skip "clientData" None (rd_ptr client_z (rd_struct client_m));
   skip "device" None (rd_ptr tt (rd_struct device_m))].
(** webauthn.go:24-34 *)
Definition authreq_z : AuthRequest := Build_AuthRequest "" "" "" "".
Definition authreq_m : list (member AuthRequest) :=
  [mem "id" wq_id rd_str; skip "type" "" rd_str; skip "auth_data" None (rd_ptr auth_z (rd_struct auth_m)); mem "auth_data_encoded" wq_auth rd_str;
   skip "client_data" None (rd_ptr client_z (rd_struct client_m)); mem "client_data_encoded" wq_client rd_str; skip "signature" "" rd_str;
   mem "signature_encoded" wq_sig rd_str].

Definition decode_register (s : string) : option RegisterRequest := decode register_m register_z s.
Definition decode_authreq (s : string) : option AuthRequest := decode authreq_m authreq_z s.
Definition decode_client (s : string) : option ClientData := decode client_m client_z s.

(** The environment with these decoders. *)
Definition json_env (E : Env) : Prop :=
  (forall s, e_register E s = decode_register s) /\ (forall s, e_authreq E s = decode_authreq s) /\ (forall s, e_client E s = decode_client s).

Example float_ex : map parse_float ["2"; "-7"; "2.0"; "20e-1"; "2.5"; "2.0000000000000001"; "2.000000000000001"; "1e400"; "0.1"; "-0"; "9007199254740993"; "1e-400"; "1.7976931348623157e308"; "1.7976931348623159e308"] =
  [Some (Some 2%Z); Some (Some (-7)%Z); Some (Some 2%Z); Some (Some 2%Z); Some None; Some (Some 2%Z); Some None; None; Some None; Some (Some 0%Z); Some (Some 9007199254740992%Z); Some (Some 0%Z); Some (Some ((2 ^ 53 - 1) * 2 ^ 971)%Z); None].
Proof. vm_compute. reflexivity. Qed.
