(** The standard hash functions: FIPS 180-4 (crypto/sha1, crypto/sha256, crypto/sha512) and
    RFC 2104 (crypto/hmac), as mfa_token.go:478-507 [generateMfaCode] and mfa_token.go:352 use them.

    They are libraries, not part of /repo; elsewhere they are the parameters [e_hmac] and
    [e_sha256] of [Env].  Messages of 2^61 bytes and more, which the standards exclude, are not
    treated specially. *)
From Coq Require Import String Ascii ZArith NArith Bool Arith List.
From Verif Require Import GoStr.
Import ListNotations.
Open Scope string_scope.

(** ** Words of [w] bits *)
Definition wadd_ (w x y : N) : N := ((x + y) mod 2 ^ w)%N.
Definition rotr (w n x : N) : N := N.lor (N.shiftr x n) (N.shiftl x (w - n) mod 2 ^ w)%N.
Definition rotl (w n x : N) : N := N.lor (N.shiftl x n mod 2 ^ w)%N (N.shiftr x (w - n)).
Definition wnot (w x : N) : N := N.lxor x (2 ^ w - 1).
Definition xor3 (x y z : N) : N := N.lxor x (N.lxor y z).
(** FIPS 180-4, 4.1 *)
Definition ch (w x y z : N) : N := N.lxor (N.land x y) (N.land (wnot w x) z).
Definition maj (x y z : N) : N := xor3 (N.land x y) (N.land x z) (N.land y z).

(** ** Bytes *)
(** [n] in [k] bytes, most significant first *)
Fixpoint be (k : nat) (n : N) : list ascii :=
  match k with O => [] | S k => (be k (n / 256) ++ [ascii_of_N (n mod 256)])%list end.
Definition word_of (l : list ascii) : N := fold_left (fun a c => (a * 256 + N_of_ascii c)%N) l 0%N.
Fixpoint split_every {A} (n k : nat) (l : list A) : list (list A) :=
  match k with O => [] | S k => firstn n l :: split_every n k (skipn n l) end.
(** Section 5.1: a one bit, zeros, and the length in bits in the last [lb] bytes of a block of [b] bytes *)
Definition padding (b lb : nat) (l : list ascii) : list ascii :=
  let n := List.length l in
  let z := (b - (n + 1 + lb) mod b) mod b in
  (l ++ ["128"%char] ++ repeat Ascii.zero z ++ be lb (8 * N.of_nat n))%list.
Definition blocks (b lb : nat) (l : list ascii) : list (list ascii) :=
  let p := padding b lb l in split_every b (List.length p / b) p.

(** ** SHA-1: section 6.1 *)
Record St5 := { s5a : N; s5b : N; s5c : N; s5d : N; s5e : N }.
Definition f1 (t : nat) (x y z : N) : N :=
  if (t <? 20)%nat then ch 32 x y z else if (t <? 40)%nat then xor3 x y z else if (t <? 60)%nat then maj x y z else xor3 x y z.
Definition k1 (t : nat) : N :=
  if (t <? 20)%nat then 0x5a827999 else if (t <? 40)%nat then 0x6ed9eba1 else if (t <? 60)%nat then 0x8f1bbcdc else 0xca62c1d6.
(** [win]: the next sixteen words of the schedule *)
Definition next1 (win : list N) : list N :=
  (tl win ++ [rotl 32 1 (N.lxor (nth 13 win 0%N) (xor3 (nth 8 win 0%N) (nth 2 win 0%N) (nth 0 win 0%N)))])%list.
Fixpoint rounds1 (n t : nat) (win : list N) (s : St5) : St5 :=
  match n with
  | O => s
  | S n =>
      let x := wadd_ 32 (rotl 32 5 (s5a s)) (wadd_ 32 (f1 t (s5b s) (s5c s) (s5d s))
                 (wadd_ 32 (s5e s) (wadd_ 32 (k1 t) (nth 0 win 0%N)))) in
      rounds1 n (S t) (next1 win) {| s5a := x; s5b := s5a s; s5c := rotl 32 30 (s5b s); s5d := s5c s; s5e := s5d s |}
  end.
Definition block1 (s : St5) (b : list ascii) : St5 :=
  let r := rounds1 80 0 (map word_of (split_every 4 16 b)) s in
  {| s5a := wadd_ 32 (s5a s) (s5a r); s5b := wadd_ 32 (s5b s) (s5b r); s5c := wadd_ 32 (s5c s) (s5c r);
     s5d := wadd_ 32 (s5d s) (s5d r); s5e := wadd_ 32 (s5e s) (s5e r) |}.
Definition init1 : St5 := {| s5a := 0x67452301; s5b := 0xefcdab89; s5c := 0x98badcfe; s5d := 0x10325476; s5e := 0xc3d2e1f0 |}.
Definition sha1 (l : list ascii) : list ascii :=
  let s := fold_left block1 (blocks 64 8 l) init1 in
  (be 4 (s5a s) ++ be 4 (s5b s) ++ be 4 (s5c s) ++ be 4 (s5d s) ++ be 4 (s5e s))%list.

(** ** SHA-256 and SHA-512: sections 6.2 and 6.4, with the parameters of the word size *)
Record St8 := { s8a : N; s8b : N; s8c : N; s8d : N; s8e : N; s8f : N; s8g : N; s8h : N }.
(** rotations of the two big and two small sigma functions; the last of a small one is a shift *)
Record Par := { p_w : N; p_S0 : N * N * N; p_S1 : N * N * N; p_s0 : N * N * N; p_s1 : N * N * N; p_k : list N }.
Definition big (w : N) (p : N * N * N) (x : N) : N :=
  let '(i, j, k) := p in xor3 (rotr w i x) (rotr w j x) (rotr w k x).
Definition small (w : N) (p : N * N * N) (x : N) : N :=
  let '(i, j, k) := p in xor3 (rotr w i x) (rotr w j x) (N.shiftr x k).
Definition next2 (p : Par) (win : list N) : list N :=
  (tl win ++ [wadd_ (p_w p) (wadd_ (p_w p) (small (p_w p) (p_s1 p) (nth 14 win 0%N)) (nth 9 win 0%N))
                            (wadd_ (p_w p) (small (p_w p) (p_s0 p) (nth 1 win 0%N)) (nth 0 win 0%N))])%list.
Fixpoint rounds2 (p : Par) (ks : list N) (win : list N) (s : St8) : St8 :=
  match ks with
  | [] => s
  | k :: ks =>
      let w := p_w p in
      let t1 := wadd_ w (s8h s) (wadd_ w (big w (p_S1 p) (s8e s)) (wadd_ w (ch w (s8e s) (s8f s) (s8g s)) (wadd_ w k (nth 0 win 0%N)))) in
      let t2 := wadd_ w (big w (p_S0 p) (s8a s)) (maj (s8a s) (s8b s) (s8c s)) in
      rounds2 p ks (next2 p win) {| s8a := wadd_ w t1 t2; s8b := s8a s; s8c := s8b s; s8d := s8c s; s8e := wadd_ w (s8d s) t1;
                                    s8f := s8e s; s8g := s8f s; s8h := s8g s |}
  end.
Definition block2 (p : Par) (s : St8) (b : list ascii) : St8 :=
  let w := p_w p in
  let r := rounds2 p (p_k p) (map word_of (split_every (N.to_nat (w / 8)) 16 b)) s in
  {| s8a := wadd_ w (s8a s) (s8a r); s8b := wadd_ w (s8b s) (s8b r); s8c := wadd_ w (s8c s) (s8c r); s8d := wadd_ w (s8d s) (s8d r);
     s8e := wadd_ w (s8e s) (s8e r); s8f := wadd_ w (s8f s) (s8f r); s8g := wadd_ w (s8g s) (s8g r); s8h := wadd_ w (s8h s) (s8h r) |}.
Definition digest2 (k : nat) (s : St8) : list ascii :=
  (be k (s8a s) ++ be k (s8b s) ++ be k (s8c s) ++ be k (s8d s) ++ be k (s8e s) ++ be k (s8f s) ++ be k (s8g s) ++ be k (s8h s))%list.
Definition k256 : list N := [
  0x428a2f98; 0x71374491; 0xb5c0fbcf; 0xe9b5dba5; 0x3956c25b; 0x59f111f1; 0x923f82a4; 0xab1c5ed5;
  0xd807aa98; 0x12835b01; 0x243185be; 0x550c7dc3; 0x72be5d74; 0x80deb1fe; 0x9bdc06a7; 0xc19bf174;
  0xe49b69c1; 0xefbe4786; 0x0fc19dc6; 0x240ca1cc; 0x2de92c6f; 0x4a7484aa; 0x5cb0a9dc; 0x76f988da;
  0x983e5152; 0xa831c66d; 0xb00327c8; 0xbf597fc7; 0xc6e00bf3; 0xd5a79147; 0x06ca6351; 0x14292967;
  0x27b70a85; 0x2e1b2138; 0x4d2c6dfc; 0x53380d13; 0x650a7354; 0x766a0abb; 0x81c2c92e; 0x92722c85;
  0xa2bfe8a1; 0xa81a664b; 0xc24b8b70; 0xc76c51a3; 0xd192e819; 0xd6990624; 0xf40e3585; 0x106aa070;
  0x19a4c116; 0x1e376c08; 0x2748774c; 0x34b0bcb5; 0x391c0cb3; 0x4ed8aa4a; 0x5b9cca4f; 0x682e6ff3;
  0x748f82ee; 0x78a5636f; 0x84c87814; 0x8cc70208; 0x90befffa; 0xa4506ceb; 0xbef9a3f7; 0xc67178f2]%N.
Definition k512 : list N := [
  0x428a2f98d728ae22; 0x7137449123ef65cd; 0xb5c0fbcfec4d3b2f; 0xe9b5dba58189dbbc;
  0x3956c25bf348b538; 0x59f111f1b605d019; 0x923f82a4af194f9b; 0xab1c5ed5da6d8118;
  0xd807aa98a3030242; 0x12835b0145706fbe; 0x243185be4ee4b28c; 0x550c7dc3d5ffb4e2;
  0x72be5d74f27b896f; 0x80deb1fe3b1696b1; 0x9bdc06a725c71235; 0xc19bf174cf692694;
  0xe49b69c19ef14ad2; 0xefbe4786384f25e3; 0x0fc19dc68b8cd5b5; 0x240ca1cc77ac9c65;
  0x2de92c6f592b0275; 0x4a7484aa6ea6e483; 0x5cb0a9dcbd41fbd4; 0x76f988da831153b5;
  0x983e5152ee66dfab; 0xa831c66d2db43210; 0xb00327c898fb213f; 0xbf597fc7beef0ee4;
  0xc6e00bf33da88fc2; 0xd5a79147930aa725; 0x06ca6351e003826f; 0x142929670a0e6e70;
  0x27b70a8546d22ffc; 0x2e1b21385c26c926; 0x4d2c6dfc5ac42aed; 0x53380d139d95b3df;
  0x650a73548baf63de; 0x766a0abb3c77b2a8; 0x81c2c92e47edaee6; 0x92722c851482353b;
  0xa2bfe8a14cf10364; 0xa81a664bbc423001; 0xc24b8b70d0f89791; 0xc76c51a30654be30;
  0xd192e819d6ef5218; 0xd69906245565a910; 0xf40e35855771202a; 0x106aa07032bbd1b8;
  0x19a4c116b8d2d0c8; 0x1e376c085141ab53; 0x2748774cdf8eeb99; 0x34b0bcb5e19b48a8;
  0x391c0cb3c5c95a63; 0x4ed8aa4ae3418acb; 0x5b9cca4f7763e373; 0x682e6ff3d6b2b8a3;
  0x748f82ee5defb2fc; 0x78a5636f43172f60; 0x84c87814a1f0ab72; 0x8cc702081a6439ec;
  0x90befffa23631e28; 0xa4506cebde82bde9; 0xbef9a3f7b2c67915; 0xc67178f2e372532b;
  0xca273eceea26619c; 0xd186b8c721c0c207; 0xeada7dd6cde0eb1e; 0xf57d4f7fee6ed178;
  0x06f067aa72176fba; 0x0a637dc5a2c898a6; 0x113f9804bef90dae; 0x1b710b35131c471b;
  0x28db77f523047d84; 0x32caab7b40c72493; 0x3c9ebe0a15c9bebc; 0x431d67c49c100d4c;
  0x4cc5d4becb3e42b6; 0x597f299cfc657e2a; 0x5fcb6fab3ad6faec; 0x6c44198c4a475817]%N.
Definition par256 : Par := {| p_w := 32; p_S0 := (2, 13, 22); p_S1 := (6, 11, 25); p_s0 := (7, 18, 3); p_s1 := (17, 19, 10); p_k := k256 |}%N.
Definition par512 : Par := {| p_w := 64; p_S0 := (28, 34, 39); p_S1 := (14, 18, 41); p_s0 := (1, 8, 7); p_s1 := (19, 61, 6); p_k := k512 |}%N.
Definition init256 : St8 := {| s8a := 0x6a09e667; s8b := 0xbb67ae85; s8c := 0x3c6ef372; s8d := 0xa54ff53a; s8e := 0x510e527f; s8f := 0x9b05688c; s8g := 0x1f83d9ab; s8h := 0x5be0cd19 |}%N.
Definition init512 : St8 := {| s8a := 0x6a09e667f3bcc908; s8b := 0xbb67ae8584caa73b; s8c := 0x3c6ef372fe94f82b; s8d := 0xa54ff53a5f1d36f1; s8e := 0x510e527fade682d1; s8f := 0x9b05688c2b3e6c1f; s8g := 0x1f83d9abfb41bd6b; s8h := 0x5be0cd19137e2179 |}%N.
Definition sha256 (l : list ascii) : list ascii := digest2 4 (fold_left (block2 par256) (blocks 64 8 l) init256).
Definition sha512 (l : list ascii) : list ascii := digest2 8 (fold_left (block2 par512) (blocks 128 16 l) init512).

(** ** HMAC: RFC 2104, section 2 *)
(** The key: hashed when it is longer than a block of [b] bytes, then filled up with zeros *)
Definition hmac_key (b : nat) (h : list ascii -> list ascii) (k : list ascii) : list ascii :=
  let k := if (b <? List.length k)%nat then h k else k in
  (k ++ repeat Ascii.zero (b - List.length k))%list.
Definition xor_byte (n : N) (a : ascii) : ascii := ascii_of_N (N.lxor n (N_of_ascii a)).
Definition hmac (b : nat) (h : list ascii -> list ascii) (k m : list ascii) : list ascii :=
  let k := hmac_key b h k in
  h (map (xor_byte 0x5c) k ++ h (map (xor_byte 0x36) k ++ m))%list.
(** mfa_token.go:482-487: the three hashes that [generateMfaCode] knows *)
Definition hash_of (algo : string) : (list ascii -> list ascii) * nat :=
  if String.eqb algo "sha1" then (sha1, 64) else if String.eqb algo "sha256" then (sha256, 64) else (sha512, 128).
Definition std_hmac (algo k m : string) : string := sol (hmac (snd (hash_of algo)) (fst (hash_of algo)) (los k) (los m)).
Definition std_sha256 (s : string) : string := sol (sha256 (los s)).
