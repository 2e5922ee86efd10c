(** Comments, as a compiler sees them. *)
Require Import Coq.Strings.String Coq.Strings.Ascii Coq.Lists.List Coq.Bool.Bool Coq.Arith.Arith.
From Verif Require Import Base M_Config.
Import ListNotations.
Open Scope string_scope.

Definition lf : ascii := ascii_of_nat 10.
Definition cr : ascii := ascii_of_nat 13.
(** Blanks within a line: space, tab, vertical tab, form feed, CR. *)
Definition inline_blank (c : ascii) : bool :=
  existsb (Ascii.eqb c) [" "%char; ascii_of_nat 9; ascii_of_nat 11; ascii_of_nat 12; ascii_of_nat 13].

(** C and C++: a backslash at the end of a line joins it to the next.  As in
    GCC and C++23, blanks may stand between the backslash and the line break.
    [pending]: the backslash and blanks read last. *)
Fixpoint splice (pending : option string) (s : string) : string :=
  match s, pending with
  | "", None => ""
  | "", Some p => p
  | String c r, None => if Ascii.eqb c "\" then splice (Some "\") r else String c (splice None r)
  | String c r, Some p =>
      if Ascii.eqb c lf then splice None r
      else if inline_blank c then splice (Some (p ++ String c "")) r
      else if Ascii.eqb c "\" then p ++ splice (Some "\") r
      else p ++ String c (splice None r)
  end.
(** What is left when comments are taken out. *)
Inductive place := Code | LineComment | BlockComment.
Fixpoint without_comments (st : place) (s : string) : string :=
  match s with
  | "" => ""
  | String a r =>
      match st with
      | Code => match r with
                | String b r' => if Ascii.eqb a "/" && Ascii.eqb b "/" then without_comments LineComment r'
                                 else if Ascii.eqb a "/" && Ascii.eqb b "*" then without_comments BlockComment r'
                                 else String a (without_comments Code r)
                | "" => s
                end
      | LineComment => if Ascii.eqb a lf then String a (without_comments Code r) else without_comments LineComment r
      | BlockComment => match r with
                        | String b r' => if Ascii.eqb a "*" && Ascii.eqb b "/" then without_comments Code r'
                                         else without_comments BlockComment r
                        | "" => ""
                        end
      end
  end.
Definition c_code (s : string) : string := without_comments Code (splice None s).

(** Python: '#' starts a comment that ends with the line. *)
Fixpoint python_code (comment : bool) (s : string) : string :=
  match s with
  | "" => ""
  | String a r =>
      if Ascii.eqb a lf || Ascii.eqb a cr then String a (python_code false r)
      else if comment then python_code true r
      else if Ascii.eqb a "#" then python_code true r
      else String a (python_code false r)
  end.
Definition code_of (l : Language) (s : string) : string :=
  match l with Cython => python_code false s | _ => c_code s end.

Fixpoint all_chars (f : ascii -> bool) (s : string) : bool :=
  match s with "" => true | String a r => f a && all_chars f r end.
Definition only_blanks (s : string) : bool := all_chars (fun c => Ascii.eqb c lf || inline_blank c) s.
(** [text] adds nothing to the code, whatever follows it. *)
Definition comment_only (l : Language) (text : string) : Prop :=
  forall rest, exists b, only_blanks b = true /\ code_of l (text ++ rest) = b ++ code_of l rest.

(** Lines that stay within their comment. *)
Definition one_line (s : string) : bool := all_chars (fun c => negb (Ascii.eqb c lf)) s.
(** The last character that is not a blank is a backslash. *)
Fixpoint continues (pending : bool) (s : string) : bool :=
  match s with
  | "" => pending
  | String c r => if Ascii.eqb c "\" then continues true r
                  else if inline_blank c then continues pending r else continues false r
  end.
Fixpoint closes (s : string) : bool :=
  match s with
  | "" => false
  | String a r => match r with String b _ => Ascii.eqb a "*" && Ascii.eqb b "/" | "" => false end || closes r
  end.
Definition starts_slash (s : string) : bool := match s with String c _ => Ascii.eqb c "/" | "" => false end.
Definition safe_line (l : Language) (style : DocumentationStyle) (s : string) : bool :=
  match l with
  | Cython => all_chars (fun c => negb (Ascii.eqb c lf || Ascii.eqb c cr)) s
  | _ => one_line s && match style with
                       | DocC => negb (closes s) && negb (continues false s)
                       | DocDoxy => negb (closes s) && negb (starts_slash s)
                       | _ => negb (continues false s)
                       end
  end.

(** The lines a documentation is written as. *)
Definition framed (l : Language) (style : DocumentationStyle) (lines : list string) : list string :=
  match l with
  | Cython => map (append "#") lines
  | _ => match style with
         | DocC => ["/*"] ++ lines ++ [" */"]
         | DocDoxy => ["/**"] ++ map (append " *") lines ++ [" */"]
         | DocC99 => map (append "//") lines
         | _ => map (append "///") lines
         end
  end%list.
(** Lines written at an indentation: empty lines get none, nor does the first
    line if something stands before it. *)
Fixpoint laid_out (eol : string) (started : bool) (indent : nat) (lines : list string) : string :=
  match lines with
  | [] => ""
  | s :: r => srepeat " " (if started || String.eqb s "" then 0 else indent) ++ s ++ eol ++ laid_out eol false indent r
  end.
