(** How a C or C++ compiler sees the outline of a header: lines, comments,
    literals, conditional directives and brackets.  Nothing here knows how
    headers are written. *)
Require Import Coq.Strings.String Coq.Strings.Ascii Coq.Lists.List Coq.Bool.Bool.
From Verif Require Import Base S_Lex S_Comment.
Import ListNotations.
Open Scope string_scope.

(** Where the reader is within a line.  A backslash that may turn out to join
    the line to the next one is remembered. *)
Inductive spot :=
| Plain                    (* outside comments and literals *)
| Back                     (* after a backslash outside comments and literals *)
| Slash                    (* after a slash that may open a comment *)
| InLine                   (* in a comment up to the end of the line *)
| InLineBack
| InBlock (star : bool)    (* in a block comment; [star]: just after a star *)
| InBlockBack              (* in a block comment after a star and a backslash *)
| InQuote (q : ascii)      (* in a literal closed by [q] *)
| InQuoteBack (q : ascii).
(** What the line holds so far. *)
Inductive line_kind :=
| BlankLine
| CodeLine
| DirectiveLine (text : string).  (* from the '#' on, without comments *)

(** An open conditional: whether its present branch is read, whether one has
    been read already, and whether its #else has been seen. *)
Record frame := { f_on : bool; f_taken : bool; f_else : bool }.

(** The state of the reader: the line, the open conditionals and the open
    brackets of the text that is not skipped, innermost first. *)
Record outline := At { o_line : line_kind; o_spot : spot; o_conds : list frame; o_open : list ascii }.
(** At the start of a line with nothing open. *)
Definition outset : outline := At BlankLine Plain [] [].

Definition active (cs : list frame) : bool := forallb f_on cs.

Definition opening (a : ascii) : bool := Ascii.eqb a "(" || Ascii.eqb a "[" || Ascii.eqb a "{".
Definition closing (a : ascii) : bool := Ascii.eqb a ")" || Ascii.eqb a "]" || Ascii.eqb a "}".
Definition partner (a : ascii) : ascii :=
  if Ascii.eqb a ")" then "("%char else if Ascii.eqb a "]" then "["%char else "{"%char.
(** Brackets must match; [None] is an error. *)
Definition bracket (a : ascii) (opened : list ascii) : option (list ascii) :=
  if opening a then Some (a :: opened)
  else if closing a then
    match opened with o :: r => if Ascii.eqb o (partner a) then Some r else None | [] => None end
  else Some opened.

(** The name of a directive: the word after the '#'. *)
Fixpoint leading_word (s : string) : string :=
  match s with String a r => if wordchar a then String a (leading_word r) else "" | "" => "" end.
Definition directive_name (text : string) : string := leading_word (trim_start (sdrop 1 text)).

Section Reading.
  (** Which conditions hold, given the text of the directive, as in
      [#ifdef __cplusplus]. *)
  Variable holds : string -> bool.

  Definition directive (text : string) (cs : list frame) : option (list frame) :=
    let name := directive_name text in
    if mem_str name ["if"; "ifdef"; "ifndef"] then
      Some ((if active cs then {| f_on := holds text; f_taken := holds text; f_else := false |}
             else {| f_on := false; f_taken := true; f_else := false |}) :: cs)
    else if mem_str name ["elif"; "elifdef"; "elifndef"] then
      match cs with
      | f :: r => if f_else f then None
                  else Some ({| f_on := negb (f_taken f) && holds text; f_taken := f_taken f || holds text; f_else := false |} :: r)
      | [] => None
      end
    else if String.eqb name "else" then
      match cs with
      | f :: r => if f_else f then None else Some ({| f_on := negb (f_taken f); f_taken := true; f_else := true |} :: r)
      | [] => None
      end
    else if String.eqb name "endif" then
      match cs with _ :: r => Some r | [] => None end
    else Some cs.

  Definition end_line (s : outline) : option outline :=
    match o_line s with
    | DirectiveLine t => match directive t (o_conds s) with
                     | Some cs => Some (At BlankLine Plain cs (o_open s))
                     | None => None
                     end
    | _ => Some (At BlankLine Plain (o_conds s) (o_open s))
    end.
  (** A character that is kept in a directive; the carriage return of a line
      ending is not. *)
  Definition keep (a : ascii) (l : line_kind) : line_kind :=
    match l with DirectiveLine t => if Ascii.eqb a cr then l else DirectiveLine (t ++ String a "") | _ => l end.
  (** A character that counts. *)
  Definition significant (a : ascii) (x : spot) (s : outline) : option outline :=
    match o_line s with
    | DirectiveLine t => Some (At (DirectiveLine (t ++ String a "")) x (o_conds s) (o_open s))
    | _ => if active (o_conds s) then
             match bracket a (o_open s) with
             | Some opened => Some (At CodeLine x (o_conds s) opened)
             | None => None
             end
           else Some (At CodeLine x (o_conds s) (o_open s))
    end.
  Definition plain (a : ascii) (s : outline) : option outline :=
    if Ascii.eqb a lf then end_line s
    else if inline_blank a then Some (At (keep a (o_line s)) Plain (o_conds s) (o_open s))
    else if Ascii.eqb a "\" then Some (At (o_line s) Back (o_conds s) (o_open s))
    else if Ascii.eqb a "/" then Some (At (o_line s) Slash (o_conds s) (o_open s))
    else if Ascii.eqb a "'" || Ascii.eqb a """" then significant a (InQuote a) s
    else match o_line s with
         | BlankLine => if Ascii.eqb a "#" then Some (At (DirectiveLine "#") Plain (o_conds s) (o_open s)) else significant a Plain s
         | _ => significant a Plain s
         end.
  Definition move (x : spot) (s : outline) : option outline := Some (At (o_line s) x (o_conds s) (o_open s)).

  (** One character.  [None]: brackets or directives do not match, or a
      literal is not closed on its line. *)
  Definition step (s : outline) (a : ascii) : option outline :=
    match o_spot s with
    | Plain => plain a s
    | Back => if Ascii.eqb a lf then move Plain s else if inline_blank a then Some s else plain a s
    | Slash =>
        if Ascii.eqb a "/" then move InLine s
        else if Ascii.eqb a "*" then move (InBlock false) s
        else if Ascii.eqb a "\" then None
        else match significant "/" Plain s with Some s' => plain a s' | None => None end
    | InLine => if Ascii.eqb a lf then end_line s else if Ascii.eqb a "\" then move InLineBack s else Some s
    | InLineBack => if Ascii.eqb a lf then move InLine s
                    else if inline_blank a || Ascii.eqb a "\" then Some s else move InLine s
    | InBlock star =>
        if star && Ascii.eqb a "/" then Some (At (keep " " (o_line s)) Plain (o_conds s) (o_open s))
        else if star && Ascii.eqb a "\" then move InBlockBack s
        else move (InBlock (Ascii.eqb a "*")) s
    | InBlockBack => if Ascii.eqb a lf then move (InBlock true) s
                     else if inline_blank a then Some s else move (InBlock (Ascii.eqb a "*")) s
    | InQuote q => if Ascii.eqb a lf then None
                   else if Ascii.eqb a "\" then Some (At (keep a (o_line s)) (InQuoteBack q) (o_conds s) (o_open s))
                   else Some (At (keep a (o_line s)) (if Ascii.eqb a q then Plain else InQuote q) (o_conds s) (o_open s))
    | InQuoteBack q => Some (At (keep a (o_line s)) (InQuote q) (o_conds s) (o_open s))
    end.

  Fixpoint read (s : outline) (t : string) : option outline :=
    match t with
    | "" => Some s
    | String a r => match step s a with Some s' => read s' r | None => None end
    end.
  (** A text that can stand on lines of its own: whatever holds, its
      conditionals and brackets match, and comments and literals are closed. *)
  Definition self_contained (t : string) : Prop := read outset t = Some outset.
End Reading.

(** ** Texts that can be put into a line *)

(** A piece of code: within one line, nothing left open, no directive. *)
Definition calm (s : string) : bool :=
  all_chars (fun a => negb (Ascii.eqb a lf)) s &&
  match read (fun _ => true) outset s with
  | Some (At BlankLine Plain [] []) | Some (At CodeLine Plain [] []) => true
  | _ => false
  end.
(** A name: none of the characters that mean something to the reader. *)
Definition wordy (s : string) : bool :=
  all_chars (fun a => negb (existsb (Ascii.eqb a)
    ["'"%char; """"%char; "\"%char; "/"%char; "*"%char; "#"%char; "("%char; ")"%char; "["%char; "]"%char; "{"%char; "}"%char; lf; cr])) s.

Example calm_attribute : calm "__attribute__((deprecated(""}\n""))) /* { */" = true /\ calm "foo(" = false /\ calm "a // b" = false
  /\ calm "#pragma" = false /\ wordy "Vec<u8>" = true.
Proof. repeat split; vm_compute; reflexivity. Qed.
Example self_contained_text :
  forall b, self_contained (fun _ => b) ("#if A" ++ nl ++ "int f(int x[3]); // {" ++ nl ++ "#else" ++ nl ++ "struct S { /* #endif */" ++ nl
    ++ "  int a; };" ++ nl ++ "#endif" ++ nl).
Proof. intros []; vm_compute; reflexivity. Qed.
Example not_self_contained :
  forall b, ~ self_contained (fun _ => b) ("#ifdef A" ++ nl ++ "int f(int x;" ++ nl)
  /\ ~ self_contained (fun _ => b) ("#endif" ++ nl) /\ ~ self_contained (fun _ => b) ("/* " ++ nl)
  /\ ~ self_contained (fun _ => b) ("'a" ++ nl) /\ ~ self_contained (fun _ => b) ("{ (} )" ++ nl).
Proof. intros []; repeat split; vm_compute; discriminate. Qed.
