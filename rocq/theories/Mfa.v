(** mfa_token.go and webauthn.go *)
From Coq Require Import String Ascii ZArith NArith Lia Bool Arith List.
From stdpp Require Import gmap strings.
From RecordUpdate Require Import RecordSet.
From Verif Require Import GoStr Utf8 Codec GoErr Random GoTime Types Env.
Import ListNotations.
Import RecordSetNotations.
Open Scope string_scope.

(** ** One-time passwords *)
Definition two64 : N := 18446744073709551616.
(** [binary.BigEndian.PutUint64] *)
Definition be64 (n : N) : string :=
  sol (map (fun i => ascii_of_N (n / 2 ^ (8 * N.of_nat (7 - i)) mod 256)) (seq 0 8)).
Definition byte_at (s : string) (i : nat) : N := N_of_ascii (nth i (los s) "000"%char).
(** mfa_token.go:499-503: the RFC 4226 dynamic truncation *)
Definition truncate (sum : string) : N :=
  let off := N.to_nat (N.land (byte_at sum (String.length sum - 1)) 15) in
  N.lor (N.shiftl (N.land (byte_at sum off) 127) 24)
        (N.lor (N.shiftl (byte_at sum (off + 1)) 16) (N.lor (N.shiftl (byte_at sum (off + 2)) 8) (byte_at sum (off + 3)))).
(** mfa_token.go:478-507 [generateMfaCode].  Digit counts below 1 (a panic or "0" in Go) and
    above 18 ([int64(math.Pow10)] overflows) are outside the model; validation only passes 4..8. *)
Definition gen_code (E : Env) (secret algo : string) (digits : Z) (ts : N) : string + goerr :=
  if String.eqb algo "sha1" || String.eqb algo "sha256" || String.eqb algo "sha512" then
    let v := truncate (e_hmac E algo secret (be64 ts)) in
    inl (sprint_0d (Z.to_nat digits) (v mod 10 ^ Z.to_N digits))
  else if String.eqb algo "" then inr (EStd ErrMfaTokenEmptyAlgorithm)
  else inr (EWith ErrMfaTokenInvalidAlgorithm [AStr algo]).

(** mfa_token.go:461: [uint64(math.Floor(float64(ts.Unix()) / float64(p.Period)))].  The quotient
    of the integers: equal to the float64 computation for 0 <= unix < 2^53 and 1 <= period < 2^53
    (theorem C42); times before 1970 and period 0 are outside the model. *)
Definition step (t period : Z) : N := Z.to_N ((unix t / period) mod 2 ^ 64).
Definition wadd (n : N) (d : Z) : N := Z.to_N ((Z.of_N n + d) mod 2 ^ 64).
(** mfa_token.go:450-476 [ValidateCodeWithTime] *)
Definition validate_code (E : Env) (p : MfaToken) (code0 : string) (t : Z) : option goerr :=
  let code := trim_space code0 in
  let n := zlen code in
  if String.eqb code "" then Some (EWith ErrMfaTokenInvalidPasscode [AStr "empty"])
  else if (n <? 4)%Z || (n >? 8)%Z then Some (EWith ErrMfaTokenInvalidPasscode [AStr "not 4-8 characters long"])
  else if negb (n =? t_digits p)%Z then Some (EWith ErrMfaTokenInvalidPasscode [AStr "digits length mismatch"])
  else let tp := step t (t_period p) in
       if existsb (fun uts => match gen_code E (t_secret p) (t_algorithm p) (t_digits p) uts with
                              | inl c => String.eqb c code
                              | inr _ => false
                              end) [tp; wadd tp 1; wadd tp (-1)]
       then None else Some (EWith ErrMfaTokenInvalidPasscode [AStr "failed"]).
(** mfa_token.go:439-447 [ValidateCode] *)
Definition validate_code_now (E : Env) (nd : Nd) (p : MfaToken) (code : string) : option goerr :=
  if String.eqb (t_type p) "totp" then validate_code E p code (nd_clock nd)
  else Some (EWith ErrMfaTokenInvalidPasscode [AStr "unsupported token type"]).

(** ** Registration *)
(** [v.(float64)] compared with [want]; [None] is the failed type assertion *)
Definition jv_is (v : Jv) (want : Z) : option bool :=
  match v with VNum (Some z) => Some (z =? want)%Z | VNum None => Some false | _ => None end.
Fixpoint bad_transport (l : list string) : option goerr :=   (* mfa_token.go:177-188 *)
  match l with
  | [] => None
  | t :: l => if existsb (String.eqb t) ["usb"; "nfc"; "ble"; "internal"] then bad_transport l
              else if String.eqb t "" then Some (EStd ErrWebAuthnEmptyRegisterTransport)
              else Some (EWith ErrWebAuthnInvalidRegisterTransport [AStr t])
  end.
(** mfa_token.go:259-264: a coordinate, absent = "", [None] = failed assertion *)
Definition coord_of (m : gmap string Jv) (k : string) : option string :=
  match m !! k with None => Some "" | Some (VStr s) => Some s | Some _ => None end.

(** mfa_token.go:146-284, after the registration message has been decoded *)
Definition u2f_register (p : MfaToken) (r : RegisterRequest) : Res MfaToken :=
  if String.eqb (wr_id r) "" then RErr (EStd ErrWebAuthnEmptyRegisterID)
  else if String.eqb (wr_type r) "" then RErr (EStd ErrWebAuthnEmptyRegisterKeyType)
  else if negb (String.eqb (wr_type r) "public-key") then RErr (EWith ErrWebAuthnInvalidRegisterKeyType [AStr (wr_type r)])
  else match bad_transport (wr_transports r) with
  | Some e => RErr e
  | None =>
  match wr_att r with
  | None => RErr (EStd ErrWebAuthnRegisterAttestationObjectNotFound)
  | Some ao =>
  match ao_auth ao with
  | None => RErr (EStd ErrWebAuthnRegisterAuthDataNotFound)
  | Some ad =>
  if String.eqb (ad_rpid ad) "" then RErr (EStd ErrWebAuthnRegisterEmptyRelyingPartyID)
  else match ad_flags ad with
  | None => RErr (EStd ErrWebAuthnRegisterEmptyFlags)
  | Some flags =>
  match ad_cred ad with
  | None => RErr (EStd ErrWebAuthnRegisterCredentialDataNotFound)
  | Some cd =>
  match cd_pubkey cd with
  | None => RErr (EStd ErrWebAuthnRegisterPublicKeyNotFound)
  | Some pk =>
  match pk !! "key_type" with
  | None => RErr (EStd ErrWebAuthnRegisterPublicKeyTypeNotFound)
  | Some v =>
  match jv_is v 2 with
  | None => RPanic
  | Some false => RErr (EWith ErrWebAuthnRegisterPublicKeyUnsupported [AOther])
  | Some true =>
  match pk !! "algorithm" with
  | None => RErr (EStd ErrWebAuthnRegisterPublicKeyAlgorithmNotFound)
  | Some v =>
  match jv_is v (-7) with
  | None => RPanic
  | Some false => RErr (EWith ErrWebAuthnRegisterPublicKeyAlgorithmUnsupported [AOther])
  | Some true =>
  match (match pk !! "curve_type" with None => Some (Some "") | Some v =>
           match jv_is v 1 with None => None | Some false => Some None | Some true => Some (Some "p256") end end) with
  | None => RPanic
  | Some None => RErr (EWith ErrWebAuthnRegisterPublicKeyCurveUnsupported [AOther])
  | Some (Some curve) =>
  match coord_of pk "curve_x", coord_of pk "curve_y" with
  | Some x, Some y =>
      ROk (p <| t_flags := flags |> <| t_counter := ad_counter ad |>
             <| t_params := <["rp_id_hash" := ad_rpid ad]> (<["u2f_id" := wr_id r]> (<["u2f_type" := wr_type r]>
                  (<["u2f_transports" := join "," (wr_transports r)]> (<["key_type" := "ec2"]> (<["key_algo" := "es256"]>
                  (<["curve_type" := curve]> (<["curve_xcoord" := x]> (<["curve_ycoord" := y]> (t_params p))))))))) |>)
  | _, _ => RPanic
  end end end end end end end end end end end end.

(** mfa_token.go:98-292 [NewMfaToken].  The request is an in/out parameter: its algorithm is
    normalised (line 126).  [time.Now().Add(-period s)] is [clock - period * 10^9]. *)
Definition new_mfa_token (E : Env) (nd : Nd) (r : Request) : Request * Res MfaToken :=
  let m := rq_mfa r in
  let p := {| t_id := random_string 40 (nd_id nd); t_type := rm_type m; t_algorithm := ""; t_comment := rm_comment m; t_secret := "";
              t_period := 0; t_digits := 0; t_expired := false; t_expired_at := 0; t_created := nd_clock nd;
              t_disabled := rm_disabled m; t_disabled_at := if rm_disabled m then nd_clock nd else 0%Z;
              t_device := None; t_params := ∅; t_flags := ∅; t_counter := 0; t_cache := None |} in
  if String.eqb (rm_type m) "totp" then
    let a := lower E (rm_algorithm m) in
    if negb (String.eqb a "sha1" || String.eqb a "sha256" || String.eqb a "sha512" || String.eqb a "") then
      (r, RErr (EWith ErrMfaTokenInvalidAlgorithm [AStr a]))
    else
      let a := if String.eqb a "" then "sha1" else a in
      let r := r <| rq_mfa; rm_algorithm := a |> in
      let d := if (rm_digits m =? 0)%Z then 6%Z else rm_digits m in
      let p := p <| t_secret := rm_secret m |> <| t_algorithm := a |> <| t_period := rm_period m |> <| t_digits := d |> in
      if (rm_period m <? 30)%Z || (rm_period m >? 300)%Z then (r, RErr (EWith ErrMfaTokenInvalidPeriod [AInt (rm_period m)]))
      else if (d <? 4)%Z || (d >? 8)%Z then (r, RErr (EWith ErrMfaTokenInvalidDigits [AInt d]))
      else match validate_code E p (rm_passcode m) (nd_clock nd - rm_period m * 1000000000) with
           | Some e => (r, RErr e)
           | None => (r, ROk p)
           end
  else if String.eqb (rm_type m) "u2f" then
    let w := rq_webauthn r in
    if String.eqb (rw_register w) "" then (r, RErr (EStd ErrWebAuthnRegisterNotFound))
    else if String.eqb (rw_challenge w) "" then (r, RErr (EStd ErrWebAuthnChallengeNotFound))
    else match b64_decode (rw_register w) with
         | None => (r, RErr (EWith ErrWebAuthnParse [AErr ext_err]))
         | Some d =>
             match e_register E d with
             | None => (r, RErr (EWith ErrWebAuthnParse [AErr ext_err]))
             | Some reg => (r, u2f_register (p <| t_secret := rw_challenge w |>) reg)
             end
         end
  else if String.eqb (rm_type m) "" then (r, RErr (EStd ErrMfaTokenTypeEmpty))
  else (r, RErr (EWith ErrMfaTokenInvalidType [AStr (rm_type m)])).

(** mfa_token.go:431-436 [Disable] *)
Definition t_disable (nd : Nd) (p : MfaToken) : MfaToken :=
  p <| t_expired := true |> <| t_expired_at := nd_clock nd |> <| t_disabled := true |> <| t_disabled_at := nd_clock nd |>.

(** ** WebAuthn assertions *)
(** [big.Int.SetBytes] *)
Definition be_val (l : list ascii) : N := fold_left (fun acc a => (acc * 256 + N_of_ascii a)%N) l 0%N.
Definition coord (params : gmap string string) (k : string) : option (list ascii) :=
  match params !! k with
  | None => None
  | Some v => match b64_decode_l (los v) with
              | Some b => if (List.length b =? 32)%nat then Some b else None
              | None => None
              end
  end.
(** mfa_token.go:509-538 [derivePublicKey]; the error values are dropped, their only caller
    replaces them (user.go:298-300). *)
Definition derive_key (params : gmap string string) : option (Z * Z) :=
  match coord params "curve_xcoord", coord params "curve_ycoord", params !! "key_algo" with
  | Some x, Some y, Some a => if String.eqb a "es256" then Some (Z.of_N (be_val x), Z.of_N (be_val y)) else None
  | _, _, _ => None
  end.

(** mfa_token.go:540-575 [unpackAuthData] *)
Definition flag_bits : list (string * N) :=
  [("UP", 1); ("RFU1", 2); ("UV", 4); ("RFU2a", 8); ("RFU2b", 16); ("RFU2c", 32); ("AT", 64); ("ED", 128)]%N.
Record Unpacked := { up_rpid : string; up_flags : gmap string bool; up_counter : N }.
Definition unpack_auth_data (b : string) : option Unpacked :=
  let l := los b in
  if (List.length l <? 37)%nat then None
  else Some {| up_rpid := hex_encode (sol (firstn 32 l));
               up_flags := fold_left (fun m kv => <[kv.1 := (N.land (byte_at b 32) kv.2 =? kv.2)%N]> m) flag_bits ∅;
               up_counter := be_val (firstn 4 (skipn 33 l)) |}.

Definition blank (s : string) : bool := String.eqb (trim_space s) "".
(** mfa_token.go:295-428 [WebAuthnRequest]: the token (its key cache may be filled) and, when
    the assertion verifies, the challenge of the client data.  All errors are one: the only
    caller (user.go:297-303) does not look at them. *)
Definition webauthn_request (E : Env) (p : MfaToken) (payload : string) : MfaToken * option string :=
  if negb (String.eqb (t_type p) "u2f") then (p, None)
  else match t_params p !! "u2f_id", t_params p !! "key_type" with
  | Some uid, Some kt =>
      if negb (String.eqb kt "ec2") then (p, None)
      else
        match (match t_cache p with Some k => Some k | None => derive_key (t_params p) end) with
        | None => (p, None)
        | Some key =>
            let p := p <| t_cache := Some key |> in
            (p,
             match b64_decode payload with
             | None => None
             | Some d =>
             match e_authreq E d with
             | None => None
             | Some r =>
             if negb (String.eqb uid (wq_id r)) then None
             else if blank (wq_client r) then None
             else match b64_decode (wq_client r) with
             | None => None
             | Some cbytes =>
             match e_client E cbytes with
             | None => None
             | Some cd =>
             if blank (wq_sig r) then None
             else match b64_decode (wq_sig r) with
             | None => None
             | Some sig =>
             if blank (wq_auth r) then None
             else match b64_decode (wq_auth r) with
             | None => None
             | Some abytes =>
             match unpack_auth_data abytes with
             | None => None
             | Some ad =>
             if negb (String.eqb (cl_type cd) "webauthn.get") then None
             else if cl_cross cd then None
             else if negb (String.eqb (up_rpid ad) (default "" (t_params p !! "rp_id_hash"))) then None
             else if negb (default false (up_flags ad !! "UP")) then None
             else if negb (String.eqb (default "" (t_params p !! "key_algo")) "es256") then None
             else if e_ecdsa E key (abytes ++ e_sha256 E cbytes) sig then Some (cl_challenge cd) else None
             end end end end end end end)
        end
  | _, _ => (p, None)
  end.

(** webauthn.go:106-116 [unpackWebAuthnRequest] *)
Definition unpack_request (E : Env) (s : string) : AuthRequest + goerr :=
  match b64_decode s with
  | None => inr (EWith ErrWebAuthnParse [AErr ext_err])
  | Some d => match e_authreq E d with Some r => inl r | None => inr (EWith ErrWebAuthnParse [AErr ext_err]) end
  end.
