(** A specification lexer for C-like text, shared by several properties:
    white space separates tokens, words are maximal runs of letters, digits,
    underscores (and non-ASCII bytes), and operators are read by maximal
    munch.  It is written without reference to the model. *)
Require Import Coq.Strings.String Coq.Strings.Ascii Coq.Lists.List Coq.Bool.Bool Coq.Arith.Arith.
Import ListNotations.
Open Scope string_scope.

Inductive token := Word (w : string) | Sym (s : string).

Definition blank (a : ascii) : bool :=
  let n := nat_of_ascii a in (Nat.leb 9 n && Nat.leb n 13) || Nat.eqb n 32.

Definition wordchar (a : ascii) : bool :=
  let n := nat_of_ascii a in
  (Nat.leb 97 n && Nat.leb n 122) || (Nat.leb 65 n && Nat.leb n 90)
  || (Nat.leb 48 n && Nat.leb n 57) || Nat.eqb n 95 || Nat.leb 128 n.

(** Two-character operators. *)
Definition op2 (a b : ascii) : bool :=
  existsb (fun o => String.eqb o (String a (String b "")))
    ["&&"; "||"; "<<"; ">>"; "=="; "!="; "<="; ">="; "->"; "::"; "++"; "--"].

Definition cons_word (a : ascii) (next_is_word : bool) (ts : list token) : list token :=
  match ts with
  | Word w :: r => if next_is_word then Word (String a w) :: r else Word (String a "") :: ts
  | _ => Word (String a "") :: ts
  end.

Definition head_wordchar (s : string) : bool :=
  match s with "" => false | String a _ => wordchar a end.

Fixpoint lex (s : string) : list token :=
  match s with
  | "" => []
  | String a r =>
      if blank a then lex r
      else if wordchar a then cons_word a (head_wordchar r) (lex r)
      else match r with
           | String b r' => if op2 a b then Sym (String a (String b "")) :: lex r'
                            else Sym (String a "") :: lex r
           | "" => [Sym (String a "")]
           end
  end.

(** A non-empty run of word characters. *)
Fixpoint all_wordchars (s : string) : bool :=
  match s with "" => true | String a r => wordchar a && all_wordchars r end.
Definition is_word (s : string) : bool := negb (String.eqb s "") && all_wordchars s.

(** A C identifier: a word not starting with a digit. *)
Definition digit (a : ascii) : bool :=
  let n := nat_of_ascii a in Nat.leb 48 n && Nat.leb n 57.
Definition is_ident (s : string) : bool :=
  match s with "" => false | String a _ => negb (digit a) && all_wordchars s end.
