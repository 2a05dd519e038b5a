(** random.go and uuid.go.  The pseudo random source is a stream of draws: the i-th
    call of [Intn(n)] returns [draw i mod n] (package math/rand: a value in [0,n), and
    a panic when n <= 0). *)
From Coq Require Import String Ascii ZArith NArith Lia Bool Arith List.
From Verif Require Import GoStr Utf8 Codec.
Import ListNotations.
Open Scope string_scope.

(** random.go:22-23 *)
Definition charset : string := "abcdefghijklmnopqrstuvwxyzABCDEFGHIJKLMNOPQRSTUVWXYZ0123456789".

Definition pick (cs : string) (draw : N) : ascii :=
  nth (N.to_nat (draw mod N.of_nat (String.length cs))) (los cs) "000"%char.

(** random.go:29-35 [gen] *)
Definition gen (cs : string) (n : nat) (draws : nat -> N) : string :=
  sol (map (fun i => pick cs (draws i)) (seq 0 n)).

(** random.go:38-43 [GetRandomString] *)
Definition random_string (i : Z) (draws : nat -> N) : string :=
  gen charset (Z.to_nat (if (i <? 1)%Z then 40 else i)%Z) draws.

(** random.go:47-55 [GetRandomStringFromRange]; [lendraw] is the draw of the length.
    [None] is a panic: [rand.Intn(0)] when a = b, or [make] with a negative length. *)
Definition random_range_len (a b : Z) (lendraw : N) : option Z :=
  if (a >? b)%Z then Some (Z.of_N lendraw mod (a - b) + b)%Z
  else if (b - a <=? 0)%Z then None
  else Some (Z.of_N lendraw mod (b - a) + a)%Z.
Definition random_range (a b : Z) (lendraw : N) (draws : nat -> N) : option string :=
  match random_range_len a b lendraw with
  | Some n => if (n <? 0)%Z then None else Some (gen charset (Z.to_nat n) draws)
  | None => None
  end.

(** uuid.go:29-39 [NewRandomString] *)
Definition charset36 : string := "abcdefghijklmnopqrstuvwxyz0123456789".
Definition new_random_string (length : Z) (draws : nat -> N) : string :=
  gen charset36 (Z.to_nat (if (length =? 0)%Z then 32 else length)%Z) draws.

(** uuid.go:24-26 [NewID] = [uuid.NewV4().String()] of satori/go.uuid v1.2.0: 16 random
    bytes with the version nibble (byte 6) and the variant bits (byte 8) forced, printed
    as 8-4-4-4-12 lower case hexadecimal. *)
Definition set_version (a : ascii) : ascii := ascii_of_N (N.lor (N.land (N_of_ascii a) 15) 64).
Definition set_variant (a : ascii) : ascii := ascii_of_N (N.lor (N.land (N_of_ascii a) 191) 128).
Definition uuid_bytes (rnd : nat -> ascii) : list ascii :=
  map (fun i => if Nat.eqb i 6 then set_version (rnd i)
                else if Nat.eqb i 8 then set_variant (rnd i) else rnd i) (seq 0 16).
Definition uuid_string (bs : list ascii) : string :=
  let h i n := hex_encode_l (firstn n (skipn i bs)) in
  sol (h 0 4 ++ "-"%char :: h 4 2 ++ "-"%char :: h 6 2 ++ "-"%char :: h 8 2 ++ "-"%char :: h 10 6)%list%nat.
Definition new_id (rnd : nat -> ascii) : string := uuid_string (uuid_bytes rnd).
