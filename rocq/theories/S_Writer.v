(** What the writer properties talk about, independent of the writer's state. *)
Require Import Coq.Strings.String Coq.Strings.Ascii Coq.Lists.List Coq.Bool.Bool Coq.Arith.Arith.
From Verif Require Import Base M_Writer.
Import ListNotations.
Open Scope string_scope.

(** End-of-line characters: LF and CR. *)
Definition is_eol (a : ascii) : bool :=
  Nat.eqb (nat_of_ascii a) 10 || Nat.eqb (nat_of_ascii a) 13.

Fixpoint no_eol (s : string) : bool :=
  match s with "" => true | String a r => negb (is_eol a) && no_eol r end.

(** Width of the widest line of [s], the first line starting at column [col]. *)
Fixpoint widest (col : nat) (s : string) : nat :=
  match s with
  | "" => col
  | String a r => if is_eol a then Nat.max col (widest 0 r) else widest (S col) r
  end.

(** Column reached at the end of [s]. *)
Fixpoint last_col (col : nat) (s : string) : nat :=
  match s with
  | "" => col
  | String a r => if is_eol a then last_col 0 r else last_col (S col) r
  end.

(** A program is clean when no written text contains an end of line: line
    ends come only from [new_line]. *)
Fixpoint clean (p : prog) : Prop :=
  match p with
  | PRet => True
  | PWrite s k => no_eol s = true /\ clean k
  | PRaw k | PPushSet _ k | PPushTab k | PPop k | PNewLine k | PNewLineIf k => clean k
  | PAlign k => forall n, clean (k n)
  | PTry f _ k => clean f /\ forall b, clean (k b)
  end.

(** No trial layouts inside. *)
Fixpoint tryfree (p : prog) : Prop :=
  match p with
  | PRet => True
  | PWrite _ k => tryfree k
  | PRaw k | PPushSet _ k | PPushTab k | PPop k | PNewLine k | PNewLineIf k => tryfree k
  | PAlign k => forall n, tryfree (k n)
  | PTry _ _ _ => False
  end.

(** No raw blocks (which suppress indentation). *)
Fixpoint rawfree (p : prog) : Prop :=
  match p with
  | PRet => True
  | PRaw _ => False
  | PWrite _ k | PPushSet _ k | PPushTab k | PPop k | PNewLine k | PNewLineIf k => rawfree k
  | PAlign k => forall n, rawfree (k n)
  | PTry f _ k => rawfree f /\ forall b, rawfree (k b)
  end.

(** [brackets d p e]: starting with [d] open indentation levels of its own,
    [p] ends with [e], on every path, and never closes one it did not open. *)
Fixpoint brackets (d : nat) (p : prog) (e : nat) : Prop :=
  match p with
  | PRet => d = e
  | PWrite _ k | PRaw k | PNewLine k | PNewLineIf k => brackets d k e
  | PPushSet _ k | PPushTab k => brackets (S d) k e
  | PPop k => match d with O => False | S d' => brackets d' k e end
  | PAlign k => forall n, brackets d (k n) e
  | PTry f _ k => brackets 0 f 0 /\ forall b, brackets d (k b) e
  end.

Definition well_bracketed (p : prog) : Prop := brackets 0 p 0.

(** The text of a program that only writes. *)
Fixpoint plain_text (p : prog) : option string :=
  match p with
  | PRet => Some ""
  | PWrite s k => match plain_text k with None => None | Some t => Some (s ++ t) end
  | _ => None
  end.
