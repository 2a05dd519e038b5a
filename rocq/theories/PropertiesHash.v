(** Theorems about passcodes under the standard hash functions (C114). *)
From Coq Require Import String Ascii ZArith NArith Lia Bool Arith List.
From stdpp Require Import gmap strings.
From RecordUpdate Require Import RecordSet.
From Verif Require Import GoStr Codec GoErr GoTime Types Env Mfa User Hash Fs Database System SpecDb SpecAuth SpecMfa SpecHash Examples Real.
From Verif Require Import TotpFacts HashFacts PropertiesMfa.
Import ListNotations.
Import RecordSetNotations.
Open Scope string_scope.

(** The digests have the sizes of the standard, whatever the message; so under standard HMAC the
    passcode arithmetic stays inside the digest. *)
Theorem C114_digest_size a h b d l : hash_function a h b d -> List.length (h l) = d.
Proof. exact (hash_length a h b d l). Qed.
Print Assumptions C114_digest_size.
Theorem C114_hmac_size E : standard E -> hmac_size E.
Proof. exact (standard_size E). Qed.
Print Assumptions C114_hmac_size.
(** Every secret and every counter has its code, and it is the one of RFC 6238 / RFC 4226. *)
Theorem C114_codes E secret algorithm digits ts : standard E -> known_algorithm algorithm -> (1 <= digits <= 9)%Z -> (ts < 2 ^ 64)%N ->
  exists c, gen_code E secret algorithm digits ts = inl c /\ forall c', code_of E algorithm secret (Z.to_nat digits) (Z.of_N ts) c' <-> c' = c.
Proof.
  intros S K Hd Ht. destruct (C35_code E secret algorithm digits ts K (standard_size E S) Hd Ht) as (c & G & _). exists c. split; [exact G|].
  intros c'. rewrite <- (C35_code_iff E secret algorithm digits ts c' (standard_size E S) Hd Ht). rewrite G. split; [intros [=->]; reflexivity|now intros ->].
Qed.
Print Assumptions C114_codes.
(** The test vectors of RFC 6238, appendix B. *)
Definition rfc_key (n : nat) : string := String.substring 0 n "1234567890123456789012345678901234567890123456789012345678901234".
Definition rfc_codes (t : Z) : list (string + goerr) :=
  [gen_code real (rfc_key 20) "sha1" 8 (Z.to_N (t / 30)); gen_code real (rfc_key 32) "sha256" 8 (Z.to_N (t / 30)); gen_code real (rfc_key 64) "sha512" 8 (Z.to_N (t / 30))].
Example C114_rfc6238 : rfc_codes 59 = [inl "94287082"; inl "46119246"; inl "90693936"].
Proof. vm_compute. reflexivity. Qed.
(** The other rows, computed once when this definition is compiled (coqchk, which has no virtual
    machine, would take many minutes to repeat the hashing). *)
Definition rfc_rows := Eval vm_compute in map rfc_codes [1111111109; 1111111111; 1234567890; 2000000000; 20000000000]%Z.
Example C114_rfc6238_rows : rfc_rows =
  [[inl "07081804"; inl "68084774"; inl "25091201"]; [inl "14050471"; inl "67062674"; inl "99943326"]; [inl "89005924"; inl "91819424"; inl "93441116"];
   [inl "69279037"; inl "90698825"; inl "38618901"]; [inl "65353130"; inl "77737706"; inl "47863826"]].
Proof. reflexivity. Qed.
Example C114_codes_ex : standard real /\ known_algorithm "sha512" /\ (1 <= 8 <= 9)%Z /\ (1 < 2 ^ 64)%N /\ hash_function "sha512" sha512 128 64.
Proof. split; [exact real_standard|]. split; [right; now right|]. split; [lia|]. split; [lia|constructor]. Qed.
(** Digests of the empty message and of FIPS 180's "abc". *)
Example C114_digests :
  map (fun m => hex_encode (sol (sha1 (los m)))) [""; "abc"] = ["da39a3ee5e6b4b0d3255bfef95601890afd80709"; "a9993e364706816aba3e25717850c26c9cd0d89d"] /\
  map (fun m => hex_encode (std_sha256 m)) [""; "abc"] =
    ["e3b0c44298fc1c149afbf4c8996fb92427ae41e4649b934ca495991b7852b855"; "ba7816bf8f01cfea414140de5dae2223b00361a396177a9cb410ff61f20015ad"] /\
  hex_encode (sol (sha512 (los "abc"))) =
    "ddaf35a193617abacc417349ae20413112e6fa4e89a97ea20a9eeee64b55d39a2192992a274fc1a836ba3c23a3feebbd454d4423643ce80e2a9ac94fa54ca49f".
Proof. vm_compute. auto 7. Qed.

(** Secrets that are one HMAC key have the same code at every counter and length, and tokens made of
    them accept the same passcodes at every time. *)
Theorem C114_same_codes E a s t digits ts : standard E -> same_key a s t -> gen_code E s a digits ts = gen_code E t a digits ts.
Proof. exact (same_key_code E a s t digits ts). Qed.
Print Assumptions C114_same_codes.
Theorem C114_same_tokens E p q : standard E -> same_device p q -> same_key (t_algorithm p) (t_secret p) (t_secret q) ->
  forall code t, validate_code E p code t = validate_code E q code t.
Proof. intros S D K code t. exact (same_key_validate E p q code t S D K). Qed.
Print Assumptions C114_same_tokens.
(** A secret longer than a block and its digest. *)
Example C114_same_ex :
  let long := rfc_key 64 ++ "5" in let digest := sol (sha256 (los long)) in
  same_key "sha256" long (digest ++ sol (repeat Ascii.zero 7)) /\ String.length long = 65%nat /\ String.length digest = 32%nat /\
  gen_code real long "sha256" 6 5 = inl "472382".
Proof.
  cbv zeta. split; [|vm_compute; auto]. eapply SameTrans; [eapply SameDigest; [constructor|vm_compute; lia]|eapply SameZeros; [constructor|vm_compute; lia]].
Qed.

(** An account is to hold no two tokens with one secret (AddMfaToken refuses them, C50), but the check
    compares the texts of the secrets and not the keys: here are a database the API made and an
    account in it whose two TOTP tokens have different secrets and yet accept the same passcodes at
    every time. *)
Definition secret_z : string := "sec" ++ String Ascii.zero "".
Definition std_code : string := Eval vm_compute in match gen_code real "sec" "sha1" 6 54680106 with inl c => c | inr _ => "" end.
Definition std_req (secret comment : string) : Request :=
  jane <| rq_mfa; rm_type := "totp" |> <| rq_mfa; rm_secret := secret |> <| rq_mfa; rm_comment := comment |> <| rq_mfa; rm_period := 30%Z |>
       <| rq_mfa; rm_passcode := std_code |>.
Definition twin_calls : list (Nd * Op * Request) :=
  [(draws 1, OpAddUser, jane_req); (draws 9, OpAddMfaToken, std_req "sec" "phone"); (draws 50, OpAddMfaToken, std_req secret_z "tablet")].
(** What the proof needs of that state, computed once *)
Definition same_id (l : list MfaToken) : bool := match l with [p; q] => String.eqb (t_id p) (t_id q) | _ => true end.
Definition token_view (t : MfaToken) : string * string * string * Z * Z := (t_secret t, t_type t, t_algorithm t, t_period t, t_digits t).
Definition twin_view (w : FS * Database) : list (list (string * string * string * Z * Z) * bool) :=
  map (fun u => (map token_view (u_mfa u), same_id (u_mfa u))) (db_users w.2).
(** The calls one by one, each made once *)
Fixpoint live_run (E : Env) (w : FS * Database) (l : list (Nd * Op * Request)) : option (FS * Database) :=
  match l with
  | [] => Some w
  | c :: l => match exec E c.1.1 c.1.2 w.2 w.1 c.2 with
              | {| o_db := d; o_fs := f; o_req := _; o_res := res |} => if alive res then live_run E (f, d) l else None
              end
  end.
Lemma live_run_run E l : forall w w', live_run E w l = Some w' -> run_alive E w l = true /\ run E w l = w'.
Proof.
  induction l as [|[[nd op] r] l IH]; intros w w' H; [injection H as <-; split; reflexivity|]. cbn [live_run fst snd] in H. cbn [run_alive fst snd]. unfold run. cbn [fold_left]. fold (run E).
  unfold run1. destruct (exec E nd op w.2 w.1 r) as [d f q res] eqn:X. cbn [o_db o_fs o_res]. destruct (alive res); [|discriminate]. exact (IH _ _ H).
Qed.
Lemma twin_ran : option_map twin_view (live_run real real_start twin_calls) =
  Some [([("sec", "totp", "sha1", 30, 6); (secret_z, "totp", "sha1", 30, 6)]%Z, false)].
Proof. vm_compute. reflexivity. Qed.
Theorem C114_duplicate_refuted : exists E fs db u p q, standard E /\ reachable E fs db /\ In u (db_users db) /\ u_mfa u = [p; q] /\
  t_secret p <> t_secret q /\ t_id p <> t_id q /\ same_device p q /\ forall code t, validate_code E p code t = validate_code E q code t.
Proof.
  pose proof twin_ran as V. destruct (live_run real real_start twin_calls) as [w|] eqn:L; [|discriminate]. apply live_run_run in L as (Al & L).
  assert (R : reachable real w.1 w.2) by (rewrite <- L; exact (real_reachable twin_calls Al)). clear Al L. cbn [option_map] in V. injection V as V. unfold twin_view in V.
  destruct (db_users w.2) as [|u [|]] eqn:U; try discriminate. cbn [map] in V. injection V as V N.
  destruct (u_mfa u) as [|p [|q [|]]] eqn:M; try discriminate. cbn [map token_view same_id] in V, N. unfold token_view in V. injection V as Sp Dp1 Dp2 Dp3 Dp4 Sq Dq1 Dq2 Dq3 Dq4.
  assert (SD : same_device p q) by (constructor; congruence).
  exists real, w.1, w.2, u, p, q. split; [exact real_standard|]. split; [exact R|].
  split; [rewrite U; now left|]. split; [exact M|]. split; [rewrite Sp, Sq; discriminate|]. split; [intros X; rewrite X, String.eqb_refl in N; discriminate|].
  split; [exact SD|]. apply C114_same_tokens; [exact real_standard|exact SD|]. rewrite Sp, Sq, Dp2. change secret_z with ("sec" ++ sol (repeat Ascii.zero 1)).
  eapply SameZeros; [constructor|vm_compute; lia].
Qed.
Print Assumptions C114_duplicate_refuted.
(** Among secrets that fit in a block there is no other way to be one key: the keys of two such
    secrets are equal only if the longer one is the shorter one followed by zeros. *)
Theorem C114_keys_differ a h b d s t : hash_function a h b d -> (String.length s <= String.length t <= b)%nat ->
  hmac_key b h (los s) = hmac_key b h (los t) <-> t = s ++ sol (repeat Ascii.zero (String.length t - String.length s)).
Proof.
  intros H L. split.
  - intros K. apply key_short in K; [|now rewrite !length_los]. rewrite !length_los in K. rewrite <- (sol_los t) at 1. rewrite K, sol_app, sol_los. reflexivity.
  - intros ->. apply (same_key_key a h b d _ _ H). eapply SameZeros; [exact H|]. lia.
Qed.
Print Assumptions C114_keys_differ.
Example C114_keys_ex : (String.length "sec" <= String.length secret_z <= 64)%nat /\ hash_function "sha1" sha1 64 20.
Proof. split; [vm_compute; lia|constructor]. Qed.
