(** encoding/json of the Go standard library, as used by [commit] (database.go:455-467:
    [json.MarshalIndent(db, "", "  ")]) and [NewDatabase] (database.go:136:
    [json.Unmarshal]).  Syntax trees, the indented printer and the parser. *)
From Coq Require Import String Ascii ZArith NArith Lia Bool Arith List.
From Verif Require Import GoStr Utf8 Codec.
Import ListNotations.
Open Scope string_scope.

(** A number keeps its literal. *)
Inductive json : Type :=
| JNull
| JBool (b : bool)
| JNum (lit : string)
| JStr (s : string)
| JArr (l : list json)
| JObj (m : list (string * json)).

(** ** Printing *)
Definition u_esc (n : N) : list ascii :=   (* \u00XX *)
  (los ("\" ++ "u00") ++ [hex_digit (n / 16); hex_digit (n mod 16)])%list.
(** encodeState.string with escapeHTML = true *)
Definition esc_ascii (a : ascii) : list ascii :=
  let n := N_of_ascii a in
  if (n =? 34)%N || (n =? 92)%N then ["\"; a]%char
  else if (n =? 10)%N then ["\"; "n"]%char
  else if (n =? 13)%N then ["\"; "r"]%char
  else if (n =? 9)%N then ["\"; "t"]%char
  else if (n <? 32)%N || (n =? 60)%N || (n =? 62)%N || (n =? 38)%N then u_esc n
  else [a].
Definition esc_chunk (c : chunk) : list ascii :=
  match c with
  | Bad _ => los ("\" ++ "ufffd")
  | Rune r bs =>
      if (r =? 8232)%N then los ("\" ++ "u2028")
      else if (r =? 8233)%N then los ("\" ++ "u2029")
      else match bs with [a] => esc_ascii a | _ => bs end
  end.
Definition quote : ascii := """"%char.
Definition print_str (s : string) : list ascii :=
  (quote :: flat_map esc_chunk (chunks (los s)) ++ [quote])%list.

Definition nl (n : nat) : list ascii := ("010"%char :: repeat " "%char (2 * n)).
Fixpoint print (n : nat) (j : json) : list ascii :=
  match j with
  | JNull => los "null"
  | JBool true => los "true"
  | JBool false => los "false"
  | JNum s => los s
  | JStr s => print_str s
  | JArr [] => los "[]"
  | JArr l =>
      ("["%char :: (fix go l := match l with
                                | [] => []
                                | [x] => nl (S n) ++ print (S n) x
                                | x :: t => nl (S n) ++ print (S n) x ++ ","%char :: go t
                                end) l ++ nl n ++ ["]"%char])%list
  | JObj [] => los "{}"
  | JObj m =>
      ("{"%char :: (fix go m := match m with
                                | [] => []
                                | [(k, x)] => nl (S n) ++ print_str k ++ los ": " ++ print (S n) x
                                | (k, x) :: t => nl (S n) ++ print_str k ++ los ": " ++ print (S n) x ++ ","%char :: go t
                                end) m ++ nl n ++ ["}"%char])%list
  end.

(** ** Parsing *)
Definition is_ws (a : ascii) : bool :=
  let n := N_of_ascii a in (n =? 32)%N || (n =? 9)%N || (n =? 10)%N || (n =? 13)%N.
Fixpoint skip_ws (l : list ascii) : list ascii :=
  match l with a :: t => if is_ws a then skip_ws t else l | [] => [] end.

Definition is_hex (a : ascii) : bool := match hex_val a with Some _ => true | None => false end.
(** scanner.go, inside a string after the opening quote: the raw text up to the closing
    quote, and the rest. *)
Fixpoint scan_str (l : list ascii) : option (list ascii * list ascii) :=
  match l with
  | [] => None
  | a :: t =>
      if Ascii.eqb a quote then Some ([], t)
      else if (N_of_ascii a <? 32)%N then None
      else if Ascii.eqb a "\" then
        match t with
        | [] => None
        | b :: t =>
            if existsb (Ascii.eqb b) [quote; "\"; "/"; "b"; "f"; "n"; "r"; "t"]%char then
              match scan_str t with Some (w, r) => Some (a :: b :: w, r) | None => None end
            else if Ascii.eqb b "u" then
              match t with
              | c1 :: c2 :: c3 :: c4 :: t =>
                  if is_hex c1 && is_hex c2 && is_hex c3 && is_hex c4 then
                    match scan_str t with Some (w, r) => Some (a :: b :: c1 :: c2 :: c3 :: c4 :: w, r) | None => None end
                  else None
              | _ => None
              end
            else None
        end
      else match scan_str t with Some (w, r) => Some (a :: w, r) | None => None end
  end.

Definition hex4 (a b c d : ascii) : N :=
  let v x := match hex_val x with Some n => n | None => 0%N end in
  (v a * 4096 + v b * 256 + v c * 16 + v d)%N.
Definition is_surrogate (r : N) : bool := (55296 <=? r)%N && (r <? 57344)%N.
(** utf16.DecodeRune *)
Definition surrogate_pair (r1 r2 : N) : option N :=
  if (55296 <=? r1)%N && (r1 <? 56320)%N && (56320 <=? r2)%N && (r2 <? 57344)%N
  then Some ((r1 - 55296) * 1024 + (r2 - 56320) + 65536)%N else None.
Definition simple_escape (a : ascii) : ascii :=
  if Ascii.eqb a "b" then "008"%char else if Ascii.eqb a "f" then "012"%char else if Ascii.eqb a "n" then "010"%char
  else if Ascii.eqb a "r" then "013"%char else if Ascii.eqb a "t" then "009"%char else a.
(** decode.go [unquote], escapes only. *)
Fixpoint unescape (l : list ascii) : list ascii :=
  match l with
  | [] => []
  | a :: t =>
      if Ascii.eqb a "\" then
        match t with
        | [] => []
        | b :: t =>
            if Ascii.eqb b "u" then
              match t with
              | c1 :: c2 :: c3 :: c4 :: t =>
                  let r := hex4 c1 c2 c3 c4 in
                  if is_surrogate r then
                    match t with
                    | d1 :: d2 :: e1 :: e2 :: e3 :: e4 :: t' =>
                        if Ascii.eqb d1 "\" && Ascii.eqb d2 "u" then
                          match surrogate_pair r (hex4 e1 e2 e3 e4) with
                          | Some r2 => (encode_rune r2 ++ unescape t')%list
                          | None => (fffd ++ unescape t)%list
                          end
                        else (fffd ++ unescape t)%list
                    | _ => (fffd ++ unescape t)%list
                    end
                  else (encode_rune r ++ unescape t)%list
              | _ => []
              end
            else simple_escape b :: unescape t
        end
      else a :: unescape t
  end.
(** decode.go [unquote]: escapes, then every invalid UTF-8 byte becomes U+FFFD (an escape
    produces whole encoded runes, so the two steps do not interfere). *)
Definition unquote (raw : list ascii) : string := sol (sanitize_l (unescape raw)).

(** Numbers: an optional minus, an integer part without leading zeros, an optional fraction and
    an optional exponent. *)
Fixpoint span_digits (l : list ascii) : list ascii * list ascii :=
  match l with
  | a :: t => if is_digit a then let (x, r) := span_digits t in (a :: x, r) else ([], l)
  | [] => ([], [])
  end.
Definition scan_int (l : list ascii) : option (list ascii * list ascii) :=
  match l with
  | a :: t => if Ascii.eqb a "0" then Some ([a], t)
              else if is_digit a then Some (span_digits l) else None
  | [] => None
  end.
Definition scan_frac (l : list ascii) : option (list ascii * list ascii) :=
  match l with
  | a :: t => if Ascii.eqb a "." then
                match span_digits t with ([], _) => None | (x, r) => Some (a :: x, r) end
              else Some ([], l)
  | [] => Some ([], [])
  end.
Definition scan_exp (l : list ascii) : option (list ascii * list ascii) :=
  match l with
  | a :: t =>
      if Ascii.eqb a "e" || Ascii.eqb a "E" then
        let '(sg, t2) := match t with
                         | b :: t2 => if Ascii.eqb b "+" || Ascii.eqb b "-" then ([b], t2) else ([], t)
                         | [] => ([], []) end in
        match span_digits t2 with ([], _) => None | (x, r) => Some (a :: sg ++ x, r)%list end
      else Some ([], l)
  | [] => Some ([], [])
  end.
Definition scan_num (l : list ascii) : option (list ascii * list ascii) :=
  let '(sg, l1) := match l with a :: t => if Ascii.eqb a "-" then ([a], t) else ([], l) | [] => ([], []) end in
  match scan_int l1 with
  | None => None
  | Some (i, l2) =>
      match scan_frac l2 with
      | None => None
      | Some (f, l3) =>
          match scan_exp l3 with
          | None => None
          | Some (e, l4) => Some (sg ++ i ++ f ++ e, l4)%list
          end
      end
  end.

(** The value parser; the fuel bounds the number of values and members, [parse] gives it
    one more than the length of the text. *)
Fixpoint pv (n : nat) (l : list ascii) {struct n} : option (json * list ascii) :=
  match n with
  | O => None
  | S n =>
      match skip_ws l with
      | [] => None
      | a :: t =>
          if Ascii.eqb a "{" then
            match skip_ws t with
            | b :: r => if Ascii.eqb b "}" then Some (JObj [], r)
                        else match pmem n t with Some (m, r) => Some (JObj m, r) | None => None end
            | [] => None
            end
          else if Ascii.eqb a "[" then
            match skip_ws t with
            | b :: r => if Ascii.eqb b "]" then Some (JArr [], r)
                        else match parr n t with Some (m, r) => Some (JArr m, r) | None => None end
            | [] => None
            end
          else if Ascii.eqb a quote then
            match scan_str t with Some (raw, r) => Some (JStr (unquote raw), r) | None => None end
          else if Ascii.eqb a "t" then
            match strip_prefix (los "rue") t with Some r => Some (JBool true, r) | None => None end
          else if Ascii.eqb a "f" then
            match strip_prefix (los "alse") t with Some r => Some (JBool false, r) | None => None end
          else if Ascii.eqb a "n" then
            match strip_prefix (los "ull") t with Some r => Some (JNull, r) | None => None end
          else match scan_num (a :: t) with Some (x, r) => Some (JNum (sol x), r) | None => None end
      end
  end
with pmem (n : nat) (l : list ascii) {struct n} : option (list (string * json) * list ascii) :=
  match n with
  | O => None
  | S n =>
      match skip_ws l with
      | [] => None
      | a :: t =>
          if Ascii.eqb a quote then
            match scan_str t with
            | None => None
            | Some (raw, r) =>
                match skip_ws r with
                | c :: r =>
                    if Ascii.eqb c ":" then
                      match pv n r with
                      | None => None
                      | Some (v, r) =>
                          match skip_ws r with
                          | d :: r =>
                              if Ascii.eqb d "}" then Some ([(unquote raw, v)], r)
                              else if Ascii.eqb d "," then
                                match pmem n r with Some (m, r) => Some ((unquote raw, v) :: m, r) | None => None end
                              else None
                          | [] => None
                          end
                      end
                    else None
                | [] => None
                end
            end
          else None
      end
  end
with parr (n : nat) (l : list ascii) {struct n} : option (list json * list ascii) :=
  match n with
  | O => None
  | S n =>
      match pv n l with
      | None => None
      | Some (v, r) =>
          match skip_ws r with
          | d :: r =>
              if Ascii.eqb d "]" then Some ([v], r)
              else if Ascii.eqb d "," then
                match parr n r with Some (m, r) => Some (v :: m, r) | None => None end
              else None
          | [] => None
          end
      end
  end.
(** Levels of arrays and objects; the scanner of encoding/json allows [max_depth] of them
    (maxNestingDepth). *)
Fixpoint depth (j : json) : N :=
  match j with
  | JArr l => N.succ (fold_right (fun j => N.max (depth j)) 0%N l)
  | JObj m => N.succ (fold_right (fun kv => N.max (depth (snd kv))) 0%N m)
  | _ => 0%N
  end.
Definition max_depth : N := 10000.
Definition parse (l : list ascii) : option json :=
  match pv (S (List.length l)) l with
  | Some (v, r) => match skip_ws r with [] => if (depth v <=? max_depth)%N then Some v else None | _ => None end
  | None => None
  end.

Example parse_ex : parse (los ("{""a"": [1, -2.5e3, ""x\" ++ "u00e9\n""], ""b"": {}, ""c"": null}")) =
  Some (JObj [("a", JArr [JNum "1"; JNum "-2.5e3"; JStr (sol (los "x" ++ bytes [195; 169; 10])%list)]); ("b", JObj []); ("c", JNull)]).
Proof. vm_compute. reflexivity. Qed.
Example print_ex : print 0 (JObj [("a", JArr [JNum "1"; JStr "<b>"]); ("b", JObj []); ("c", JArr [])]) =
  los ("{
  ""a"": [
    1,
    ""\" ++ "u003cb\" ++ "u003e""
  ],
  ""b"": {},
  ""c"": []
}").
Proof. vm_compute. reflexivity. Qed.
