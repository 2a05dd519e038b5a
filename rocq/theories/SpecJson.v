(** The texts of JSON values (RFC 8259) and what they say, stated without the parser of [Json.v];
    the texts of times that are not modelled. *)
From Coq Require Import String Ascii ZArith NArith Bool List.
From Verif Require Import GoStr Json SpecLayout.
Import ListNotations.
Open Scope N_scope.

(** ** Characters *)
(** UTF-8 (RFC 3629): the code point [r] is encoded by the bytes [l], as short as possible; the
    surrogates are not encoded. *)
Inductive utf8 : N -> list N -> Prop :=
| U1 r : r < 128 -> utf8 r [r]
| U2 a b : a < 32 -> b < 64 -> 128 <= a * 64 + b -> utf8 (a * 64 + b) [192 + a; 128 + b]
| U3 a b c : a < 16 -> b < 64 -> c < 64 -> 2048 <= a * 4096 + b * 64 + c ->
    ~ 55296 <= a * 4096 + b * 64 + c < 57344 -> utf8 (a * 4096 + b * 64 + c) [224 + a; 128 + b; 128 + c]
| U4 a b c d : a < 8 -> b < 64 -> c < 64 -> d < 64 -> 65536 <= a * 262144 + b * 4096 + c * 64 + d < 1114112 ->
    utf8 (a * 262144 + b * 4096 + c * 64 + d) [240 + a; 128 + b; 128 + c; 128 + d].
(** no prefix of [l] is an encoded character *)
Definition no_char (l : list ascii) : Prop := forall r ns rest, utf8 r ns -> l <> (bytes ns ++ rest)%list.
(** U+FFFD *)
Definition replacement : list ascii := bytes [239; 191; 189].

Inductive hex_is : ascii -> N -> Prop :=
| HxNum n : n < 10 -> hex_is (ascii_of_N (48 + n)) n
| HxUp n : 10 <= n < 16 -> hex_is (ascii_of_N (55 + n)) n
| HxLow n : 10 <= n < 16 -> hex_is (ascii_of_N (87 + n)) n.
(** four hexadecimal digits *)
Inductive code : list ascii -> N -> Prop :=
| Code a b c d w x y z : hex_is a w -> hex_is b x -> hex_is c y -> hex_is d z -> code [a; b; c; d] (w * 4096 + x * 256 + y * 16 + z).
Definition high (r : N) : Prop := 55296 <= r < 56320.
Definition low (r : N) : Prop := 56320 <= r < 57344.
Definition backslash : ascii := ascii_of_N 92.
(** backslash and letter, and the byte that they stand for *)
Definition shorts : list (ascii * N) :=
  [(ascii_of_N 34, 34); (backslash, 92); ("/"%char, 47); ("b"%char, 8); ("f"%char, 12); ("n"%char, 10); ("r"%char, 13); ("t"%char, 9)].

(** [chars w v]: the text [w] between quotation marks stands for the bytes [v]. *)
Inductive chars : list ascii -> list ascii -> Prop :=
| CNone : chars [] []
(* itself, except control characters, quotation mark and backslash *)
| CSelf r ns w v : utf8 r ns -> 32 <= r -> r <> 34 -> r <> 92 -> chars w v -> chars (bytes ns ++ w) (bytes ns ++ v)
(* a byte that does not begin a character *)
| CStray a w v : no_char (a :: w) -> chars w v -> chars (a :: w) (replacement ++ v)
| CShort a n w v : In (a, n) shorts -> chars w v -> chars (backslash :: a :: w) (ascii_of_N n :: v)
| CCode h r ns w v : code h r -> utf8 r ns -> chars w v -> chars (backslash :: "u"%char :: h ++ w) (bytes ns ++ v)
(* two surrogates *)
| CPair h i r s ns w v : code h r -> high r -> code i s -> low s -> utf8 (65536 + (r - 55296) * 1024 + (s - 56320)) ns ->
    chars w v -> chars (backslash :: "u"%char :: h ++ backslash :: "u"%char :: i ++ w) (bytes ns ++ v)
(* a surrogate without its partner *)
| CLone h r w v : code h r -> high r \/ low r -> ~ (high r /\ exists i s w', w = backslash :: "u"%char :: (i ++ w')%list /\ code i s /\ low s) ->
    chars w v -> chars (backslash :: "u"%char :: h ++ w) (replacement ++ v).

(** ** Numbers *)
Definition digits (l : list ascii) : Prop := l <> [] /\ Forall (fun a => 48 <= N_of_ascii a <= 57) l.
Definition sign (l : list ascii) (s : list ascii) : Prop := l = [] \/ exists a, In a s /\ l = [a].
Definition number (l : list ascii) : Prop := exists m i f e, l = (m ++ i ++ f ++ e)%list /\
  sign m ["-"%char] /\
  (i = ["0"%char] \/ digits i /\ forall t, i <> "0"%char :: t) /\
  (f = [] \/ exists x, f = "."%char :: x /\ digits x) /\
  (e = [] \/ exists a s x, e = a :: (s ++ x)%list /\ In a ["e"; "E"]%char /\ sign s ["+"; "-"]%char /\ digits x).

(** ** Values *)
Definition space (l : list ascii) : Prop := Forall (fun a => In (N_of_ascii a) [32; 9; 10; 13]) l.
Definition mark : ascii := ascii_of_N 34.
(** [says v t]: the text [t], which neither begins nor ends with space, says [v]. *)
Inductive says : json -> list ascii -> Prop :=
| SNull : says JNull (los "null")
| STrue : says (JBool true) (los "true")
| SFalse : says (JBool false) (los "false")
| SNum t : number t -> says (JNum (sol t)) t
| SStr w v : chars w v -> says (JStr (sol v)) (mark :: w ++ [mark])
| SArr l t : says_all l t -> says (JArr l) ("["%char :: t ++ ["]"%char])
| SObj m t : says_members m t -> says (JObj m) ("{"%char :: t ++ ["}"%char])
with says_all : list json -> list ascii -> Prop :=
| ANone w : space w -> says_all [] w
| AOne v w t w' : space w -> says v t -> space w' -> says_all [v] (w ++ t ++ w')
| AMore v w t w' l t' : space w -> says v t -> space w' -> says_all l t' -> l <> [] -> says_all (v :: l) (w ++ t ++ w' ++ ","%char :: t')
with says_members : list (string * json) -> list ascii -> Prop :=
| MNone w : space w -> says_members [] w
| MOne k v w1 n w2 w3 t w4 : space w1 -> chars n k -> space w2 -> space w3 -> says v t -> space w4 ->
    says_members [(sol k, v)] (w1 ++ mark :: n ++ mark :: w2 ++ ":"%char :: w3 ++ t ++ w4)
| MMore k v w1 n w2 w3 t w4 m t' : space w1 -> chars n k -> space w2 -> space w3 -> says v t -> space w4 -> says_members m t' -> m <> [] ->
    says_members ((sol k, v) :: m) (w1 ++ mark :: n ++ mark :: w2 ++ ":"%char :: w3 ++ t ++ w4 ++ ","%char :: t').

(** at most [n] arrays and objects around one another *)
Inductive within : nat -> json -> Prop :=
| WNull n : within n JNull
| WBool n b : within n (JBool b)
| WNum n s : within n (JNum s)
| WStr n s : within n (JStr s)
| WArr n l : (forall v, In v l -> within n v) -> within (S n) (JArr l)
| WObj n m : (forall k v, In (k, v) m -> within n v) -> within (S n) (JObj m).
(** The text [t] is one JSON value, [v], with at most 10000 levels. *)
Definition json_text (t : list ascii) (v : json) : Prop := exists w x w' n,
  t = (w ++ x ++ w')%list /\ space w /\ says v x /\ space w' /\ within n v /\ N.of_nat n = 10000.

(** ** Times that versions of Go read differently, or that keep a zone (not modelled) *)
Open Scope Z_scope.
Definition odd_time (l : list ascii) : Prop := exists y mo d h mi s Y M D H I S F zone feb len,
  l = (Y ++ "-" :: M ++ "-" :: D ++ "T" :: H ++ ":" :: I ++ ":" :: S ++ F ++ zone)%char%list /\
  digits_of 4 y Y /\ digits_of 2 mo M /\ digits_of 2 d D /\ (digits_of 1 h H \/ digits_of 2 h H) /\ digits_of 2 mi I /\ digits_of 2 s S /\
  (is_leap y -> feb = 29) /\ (~ is_leap y -> feb = 28) /\ 1 <= mo <= 12 /\ nth_error (month_lengths feb) (Z.to_nat (mo - 1)) = Some len /\
  1 <= d <= len /\ h < 24 /\ mi < 60 /\ s < 60 /\
  (F = [] \/ exists a x, F = a :: x /\ In a ["."; ","]%char /\ digits x) /\
  (zone = ["Z"%char] \/ exists a b c d e, zone = [a; b; c; ":"; d; e]%char /\ In a ["+"; "-"]%char).
