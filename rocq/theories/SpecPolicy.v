(** Vocabulary of the theorems about the published policies (C87, C88): what a reader of the
    patterns and summaries understands. *)
From Coq Require Import String Ascii ZArith NArith Lia Bool Arith List.
From Verif Require Import GoStr Types SpecValue.
Import ListNotations.
Open Scope string_scope.

(** ** Patterns: [^], any number of [(?=...)], pieces, [$].  A piece is a character class or [.],
    once, [*] or [{m,n}].  A class lists characters and ranges. *)
Inductive Chr := Cls (ranges : list (ascii * ascii)) | Any.
Inductive Times := Once | Star | Between (m n : N).
Definition Piece : Type := Chr * Times.
Record Pattern := { pt_ahead : list (list Piece); pt_body : list Piece }.

Definition is_char (c : Chr) (a : ascii) : Prop :=
  match c with
  | Cls rs => exists lo hi, In (lo, hi) rs /\ (N_of_ascii lo <= N_of_ascii a <= N_of_ascii hi)%N
  | Any => a <> "010"%char
  end.
Definition matches_piece (p : Piece) (l : list ascii) : Prop :=
  Forall (is_char (fst p)) l /\
  match snd p with
  | Once => List.length l = 1%nat
  | Star => True
  | Between m n => (m <= N.of_nat (List.length l) <= n)%N
  end.
Fixpoint matches_pieces (ps : list Piece) (l : list ascii) : Prop :=
  match ps with
  | [] => l = []
  | p :: ps => exists l1 l2, l = (l1 ++ l2)%list /\ matches_piece p l1 /\ matches_pieces ps l2
  end.
Definition matches_pattern (P : Pattern) (s : string) : Prop :=
  (forall ps, In ps (pt_ahead P) -> exists l1 l2, los s = (l1 ++ l2)%list /\ matches_pieces ps l1) /\
  matches_pieces (pt_body P) (los s).

(** ** Reading a pattern *)
Fixpoint read_class (l : list ascii) : option (list (ascii * ascii) * list ascii) :=
  match l with
  | [] => None
  | c :: t =>
      if Ascii.eqb c "]" then Some ([], t)
      else if existsb (Ascii.eqb c) (los "\[^") then None
      else match t with
           | d :: hi :: t' =>
               if Ascii.eqb d "-" && negb (Ascii.eqb hi "]")
               then match read_class t' with Some (r, x) => Some ((c, hi) :: r, x) | None => None end
               else match read_class t with Some (r, x) => Some ((c, c) :: r, x) | None => None end
           | _ => match read_class t with Some (r, x) => Some ((c, c) :: r, x) | None => None end
           end
  end.
Definition read_number (l : list ascii) : option N :=
  match l with [] => None | _ => if forallb is_digit l then Some (dec_val_l l 0) else None end.
Definition read_times (l : list ascii) : option (Times * list ascii) :=
  match l with
  | "*"%char :: t => Some (Star, t)
  | "{"%char :: t =>
      match cut_l "," t with
      | Some (a, t) =>
          match cut_l "}" t with
          | Some (b, t) =>
              match read_number a, read_number b with
              | Some m, Some n => if (m <=? n)%N then Some (Between m n, t) else None
              | _, _ => None
              end
          | None => None
          end
      | None => None
      end
  | _ => Some (Once, l)
  end.
Definition read_chr (l : list ascii) : option (Chr * list ascii) :=
  match l with
  | "."%char :: t => Some (Any, t)
  | "["%char :: t => match read_class t with Some (r, t) => Some (Cls r, t) | None => None end
  | _ => None
  end.
(** Pieces up to the character [stop]; [fuel] bounds their number. *)
Fixpoint read_pieces (fuel : nat) (stop : ascii) (l : list ascii) : option (list Piece * list ascii) :=
  match fuel, l with
  | S f, c :: t =>
      if Ascii.eqb c stop then Some ([], t)
      else match read_chr l with
           | Some (h, t) =>
               match read_times t with
               | Some (n, t) => match read_pieces f stop t with Some (ps, t) => Some ((h, n) :: ps, t) | None => None end
               | None => None
               end
           | None => None
           end
  | _, _ => None
  end.
Fixpoint read_ahead (fuel : nat) (l : list ascii) : option (list (list Piece) * list ascii) :=
  match fuel, l with
  | S f, "("%char :: "?"%char :: "="%char :: t =>
      match read_pieces (List.length t) ")" t with
      | Some (ps, t) => match read_ahead f t with Some (r, t) => Some (ps :: r, t) | None => None end
      | None => None
      end
  | _, _ => Some ([], l)
  end.
Definition read_pattern (s : string) : option Pattern :=
  match los s with
  | "^"%char :: t =>
      match read_ahead (List.length t) t with
      | Some (ah, t) =>
          match read_pieces (List.length t) "$" t with
          | Some (ps, []) => Some {| pt_ahead := ah; pt_body := ps |}
          | _ => None
          end
      | None => None
      end
  | _ => None
  end.

(** ** Passwords a policy announces: the length, no line break, and the required characters. *)
Definition some_of (P : ascii -> Prop) (s : string) : Prop := exists x a y, los s = (x ++ a :: y)%list /\ P a.
Definition two_of (P : ascii -> Prop) (s : string) : Prop := exists x a y b z, los s = (x ++ a :: y ++ b :: z)%list /\ P a /\ P b.
Definition announced_password (p : PasswordPolicy) (s : string) : Prop :=
  (pp_min p <= zlen s <= pp_max p)%Z /\ ~ In "010"%char (los s) /\
  (pp_upper p = true -> some_of (fun a => is_upper a = true) s) /\
  (pp_lower p = true -> two_of (fun a => is_lower a = true) s) /\
  (pp_number p = true -> two_of (fun a => is_digit a = true) s) /\
  (pp_nonalnum p = true -> some_of (fun a => In a (los "~!@#$&*")) s).

(** ** Summaries: "A <what> should be <min>-<max> character long string[ with <word>, ... characters]" *)
Record Summary := { sm_what : string; sm_min : Z; sm_max : Z; sm_words : list string }.
Definition strip (pre : string) (s : string) : option string := if has_prefix s pre then Some (drop (String.length pre) s) else None.
Definition read_words (s : string) : option (list string) :=
  match strip "character long string" s with
  | Some "" => Some []
  | Some t =>
      match strip " with " t with
      | Some w =>
          let k := (String.length w - 11)%nat in
          if String.eqb (drop k w) " characters"
          then Some (map (fun x => if has_prefix x " " then drop 1 x else x) (split "," (take k w))) else None
      | None => None
      end
  | None => None
  end.
Definition read_summary (s : string) : option Summary :=
  match strip "A " s with
  | Some s =>
      match cut " " s with
      | Some (what, s) =>
          match strip "should be " s with
          | Some s =>
              match cut " " s with
              | Some (range, s) =>
                  match cut "-" range, read_words s with
                  | Some (a, b), Some ws =>
                      match read_number (los a), read_number (los b) with
                      | Some m, Some n => Some {| sm_what := what; sm_min := Z.of_N m; sm_max := Z.of_N n; sm_words := ws |}
                      | _, _ => None
                      end
                  | _, _ => None
                  end
              | None => None
              end
          | None => None
          end
      | None => None
      end
  | None => None
  end.
