(** Error texts: pkg/errors/errors.go:25-27 and 63-65 [Error], i.e. [fmt.Sprintf] on the template
    and the arguments.

    [fmt] as far as these templates need it: plain text, [%%], and a verb letter directly after
    the per cent sign; flags, widths and argument indexes are not modelled (a character that is
    not one of the letters below counts as an unknown verb, as in Go). *)
From Coq Require Import String Ascii ZArith NArith Lia Bool Arith List.
From Verif Require Import GoStr GoErr.
Import ListNotations.
Open Scope string_scope.

(** What is not modelled: [strconv.Quote], the text of an error from elsewhere, and the printed
    form of a value that is neither text, number nor error. *)
Record Texts := { tx_quote : string -> string; tx_ext : string -> string; tx_other : string }.

Definition one (a : ascii) : string := String a "".
(** fmt/print.go [badVerb] *)
Definition bad_verb (v : ascii) (ty x : string) : string := "%!" ++ one v ++ "(" ++ ty ++ "=" ++ x ++ ")".
Definition no_arg (v : ascii) : string := "%!" ++ one v ++ "(MISSING)".
(** fmt/print.go [printArg] on a value with type name [ty] and text [x]: texts and errors *)
Definition put_text (F : Texts) (v : ascii) (ty x : string) : string :=
  if Ascii.eqb v "s" || Ascii.eqb v "v" then x else if Ascii.eqb v "q" then tx_quote F x else bad_verb v ty x.
Definition put_int (v : ascii) (z : Z) : string :=
  if Ascii.eqb v "d" || Ascii.eqb v "v" then sprint_d z else bad_verb v "int" (sprint_d z).
Definition put_nil (v : ascii) : string := if Ascii.eqb v "v" then "<nil>" else "%!" ++ one v ++ "(<nil>)".
Definition put_other (F : Texts) (v : ascii) : string := if Ascii.eqb v "v" then tx_other F else bad_verb v "" (tx_other F).

(** fmt/print.go [doPrintf] with arguments given as their printers and, for surplus ones, their
    listing *)
Fixpoint fill (t : list ascii) (args : list ((ascii -> string) * string)) : string :=
  match t with
  | [] => match args with [] => "" | _ => "%!(EXTRA " ++ join ", " (map snd args) ++ ")" end
  | "%"%char :: t =>
      match t with
      | [] => "%!(NOVERB)" ++ match args with [] => "" | _ => "%!(EXTRA " ++ join ", " (map snd args) ++ ")" end
      | "%"%char :: t => "%" ++ fill t args
      | v :: t => match args with
                  | [] => no_arg v ++ fill t []
                  | a :: args => fst a v ++ fill t args
                  end
      end
  | a :: t => String a (fill t args)
  end.

Fixpoint message (F : Texts) (e : goerr) {struct e} : string :=
  match e with
  | EStd t => t
  | EFmt t => tx_ext F t
  | EWith t args =>
      fill (los t)
        ((fix go (l : list arg) : list ((ascii -> string) * string) :=
          match l with
          | [] => []
          | a :: l =>
              match a with
              | AStr s => (fun v => put_text F v "string" s, "string=" ++ s)
              | AInt z => (fun v => put_int v z, "int=" ++ sprint_d z)
              | AErr e => (fun v => put_text F v "error" (message F e), "error=" ++ message F e)
              | ANil => (put_nil, "<nil>")
              | AOther => (put_other F, tx_other F)
              end :: go l
          end) args)
  end.
