(** How make reads a rule "target: prerequisites". *)
Require Import Coq.Strings.String Coq.Strings.Ascii Coq.Lists.List Coq.Bool.Bool.
From Verif Require Import Base.
Import ListNotations.
Open Scope string_scope.

Inductive rtok := RWord (w : string) | RColon.
Definition close (w : string) : list rtok := if String.eqb w "" then [] else [RWord w].
Definition newline_char : ascii := ascii_of_nat 10.
(** Characters with a meaning not covered here: pattern rules, wildcards, tab, and so on. *)
Definition uncovered (c : ascii) : bool :=
  existsb (Ascii.eqb c) ["%"; "*"; "?"; "["; "]"; "~"; ";"; "="; "|"; "&"; "!"; "+"; ascii_of_nat 9; ascii_of_nat 13]%char.
(** The words of one logical line.  A backslash keeps a space in the word and
    joins lines at a line break; '#' starts a comment that runs to the end of the
    logical line; '$$' is a dollar sign and '$c' the value of the variable [c],
    which is empty unless it was set. *)
Fixpoint words (w : string) (s : string) : option (list rtok) :=
  match s with
  | "" => None
  | String c r =>
      if Ascii.eqb c newline_char then (if String.eqb r "" then Some (close w) else None)
      else if Ascii.eqb c " " then option_map (app (close w)) (words "" r)
      else if Ascii.eqb c ":" then option_map (fun l => (close w ++ RColon :: l)%list) (words "" r)
      else if Ascii.eqb c "#" then Some (close w)
      else if Ascii.eqb c "\" then
        match r with
        | String d r' => if Ascii.eqb d " " then words (w ++ " ") r'
                         else if Ascii.eqb d newline_char then option_map (app (close w)) (words "" r')
                         else None
        | "" => None
        end
      else if Ascii.eqb c "$" then
        match r with
        | String d r' => if Ascii.eqb d "$" then words (w ++ "$") r'
                         else if Ascii.eqb d "(" || Ascii.eqb d "{" then None
                         else words w r'
        | "" => None
        end
      else if uncovered c then None
      else words (w ++ String c "") r
  end.
Fixpoint only_words (l : list rtok) : option (list string) :=
  match l with
  | [] => Some []
  | RWord w :: r => option_map (cons w) (only_words r)
  | RColon :: _ => None
  end.
(** The target and the prerequisites. *)
Definition make_rule (s : string) : option (string * list string) :=
  match words "" s with
  | Some (RWord t :: RColon :: r) => option_map (pair t) (only_words r)
  | _ => None
  end.

(** Paths make has no special meaning for, spaces aside. *)
Definition plain_char (c : ascii) : bool :=
  negb (Ascii.eqb c newline_char || Ascii.eqb c ":" || Ascii.eqb c "#" || Ascii.eqb c "\" || Ascii.eqb c "$" || uncovered c).
Fixpoint plain_text (s : string) : bool :=
  match s with "" => true | String c r => plain_char c && plain_text r end.

(** ** Lists of symbols for the linker: "{", one "name;" a line, "};" *)
Fixpoint all_but_last (c : string) (s : string) : option string :=
  match s with
  | "" => None
  | String x "" => if String.eqb (String x "") c then Some "" else None
  | String x r => option_map (String x) (all_but_last c r)
  end.
Fixpoint symbol_lines (l : list string) : option (list string) :=
  match l with
  | [] => None
  | [last] => if String.eqb last "};" then Some [] else None
  | x :: r => match all_but_last ";" x, symbol_lines r with
              | Some n, Some ns => Some (n :: ns)
              | _, _ => None
              end
  end.
Definition symbol_list (text : string) : option (list string) :=
  match split_on newline_char text with
  | first :: r => if String.eqb first "{" then symbol_lines r else None
  | [] => None
  end.
