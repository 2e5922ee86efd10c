(** Specification of C expressions: a lexer and a reader following the grammar
    of C (6.4, 6.5, 6.7.9) for the expressions that make up constants.  Nothing
    here uses the code that writes them. *)
Require Import Coq.Strings.String Coq.Strings.Ascii Coq.Lists.List Coq.Bool.Bool Coq.Arith.Arith.
From Verif Require Import Base S_Lex S_Decl.
Import ListNotations.
Open Scope string_scope.

(** ** Tokens: words, numbers, character constants and punctuators *)
Inductive etok := Id (w : string) | Num (s : string) | Chr (s : string) | Op (s : string).

(** the longest run of characters satisfying [f], and the rest *)
Fixpoint span (f : ascii -> bool) (s : string) : string * string :=
  match s with
  | "" => ("", "")
  | String a r => if f a then let '(x, y) := span f r in (String a x, y) else ("", s)
  end.
(** A number: letters, digits and periods, and a sign after an exponent letter. *)
Definition exponent (a : ascii) : bool := existsb (Ascii.eqb a) ["e"; "E"; "p"; "P"]%char.
Definition sign (a : ascii) : bool := existsb (Ascii.eqb a) ["+"; "-"]%char.
Fixpoint number (after_exponent : bool) (s : string) : string * string :=
  match s with
  | "" => ("", "")
  | String a r => if wordchar a || Ascii.eqb a "." || (after_exponent && sign a)
                  then let '(x, y) := number (exponent a) r in (String a x, y) else ("", s)
  end.
(** The inside of a character constant up to the closing quote; a backslash protects the next character. *)
Fixpoint quoted (protected : bool) (s : string) : option (string * string) :=
  match s with
  | "" => None
  | String a r =>
      if negb protected && Ascii.eqb a "'" then Some ("'", r)
      else match quoted (negb protected && Ascii.eqb a "\") r with Some (x, y) => Some (String a x, y) | None => None end
  end.
(** What follows the end of a comment. *)
Fixpoint after_comment (star : bool) (s : string) : option string :=
  match s with
  | "" => None
  | String a r => if star && Ascii.eqb a "/" then Some r else after_comment (Ascii.eqb a "*") r
  end.
Definition punctuators3 : list string := ["<<="; ">>="; "..."].
Definition punctuators2 : list string :=
  ["->"; "++"; "--"; "<<"; ">>"; "<="; ">="; "=="; "!="; "&&"; "||"; "*="; "/="; "%="; "+="; "-="; "&="; "^="; "|="; "::"; "##"].
Definition punctuators1 : list string :=
  ["["; "]"; "("; ")"; "{"; "}"; "."; "&"; "*"; "+"; "-"; "~"; "!"; "/"; "%"; "<"; ">"; "^"; "|"; "?"; ":"; ";"; "="; ","; "#"].
(** the longest punctuator the text starts with *)
Definition punctuator (s : string) : option (etok * string) :=
  if mem_str (stake 3 s) punctuators3 then Some (Op (stake 3 s), sdrop 3 s)
  else if mem_str (stake 2 s) punctuators2 then Some (Op (stake 2 s), sdrop 2 s)
  else if mem_str (stake 1 s) punctuators1 then Some (Op (stake 1 s), sdrop 1 s)
  else None.
(** The next token, if the text does not start with white space or a comment. *)
Definition next (s : string) : option (option etok * string) :=
  match s with
  | "" => None
  | String a r =>
      if blank a then Some (None, r)
      else if starts_with "/*" s then match after_comment false (sdrop 2 s) with Some y => Some (None, y) | None => None end
      else if digit a then let '(x, y) := number false s in Some (Some (Num x), y)
      else if wordchar a then
        let '(x, y) := span wordchar s in
        match y with
        | String "'" y' => match quoted false y' with Some (q, z) => Some (Some (Chr (x ++ "'" ++ q)), z) | None => None end
        | _ => Some (Some (Id x), y)
        end
      else if Ascii.eqb a "'" then match quoted false r with Some (q, z) => Some (Some (Chr ("'" ++ q)), z) | None => None end
      else match punctuator s with Some (t, y) => Some (Some t, y) | None => None end
  end.
Inductive Lexes : string -> list etok -> Prop :=
| lex_end : Lexes "" []
| lex_skip : forall s r ts, next s = Some (None, r) -> Lexes r ts -> Lexes s ts
| lex_token : forall s t r ts, next s = Some (Some t, r) -> Lexes r ts -> Lexes s (t :: ts).

(** ** Expressions *)
Inductive cexpr :=
| CLeaf (text : string)                                   (* a constant or a name *)
| CUn (op : string) (e : cexpr)
| CBin (op : string) (left right : cexpr)
| CDot (e : cexpr) (field : string)
| CCast (t : ctype) (e : cexpr)
| CBraces (t : option ctype) (items : list (option string * cexpr)).

Definition unary_operators : list string := ["-"; "~"; "!"; "+"; "*"; "&"; "--"; "++"].
(** C's levels of precedence, from the loosest. *)
Definition levels : list (list string) :=
  [["="; "+="; "-="; "*="; "/="; "%="; "<<="; ">>="; "&="; "^="; "|="]; ["||"]; ["&&"]; ["|"]; ["^"]; ["&"]; ["=="; "!="];
   ["<"; ">"; "<="; ">="]; ["<<"; ">>"]; ["+"; "-"]; ["*"; "/"; "%"]].
Fixpoint find_level (op : string) (k : nat) (l : list (list string)) : option nat :=
  match l with [] => None | x :: r => if mem_str op x then Some k else find_level op (S k) r end.
Definition level (op : string) : option nat := find_level op 0 levels.
(** Assignments group to the right, the others to the left. *)
Definition right_level (k : nat) : nat := match k with O => O | _ => S k end.

Section Reader.
  (** the names that stand for types, and the words that qualify pointers besides [const] *)
  Variables (types : string -> bool) (pointer_words : list string) (cxx : bool).

  Fixpoint type_words (ts : list etok) : list string * list etok :=
    match ts with
    | Id w :: r => if mem_str w specifier_words then let '(ws, r') := type_words r in (w :: ws, r') else ([], ts)
    | _ => ([], ts)
    end.
  Fixpoint type_qualifiers (ts : list etok) : list string * list etok :=
    match ts with
    | Id w :: r => if mem_str w ("const" :: pointer_words) then let '(ws, r') := type_qualifiers r in (w :: ws, r') else ([], ts)
    | _ => ([], ts)
    end.
  Fixpoint type_pointers (n : nat) (t : ctype) (ts : list etok) : option (ctype * list etok) :=
    match n with
    | O => None
    | S n' => match ts with
              | Op "*" :: r => let '(q, r') := type_qualifiers r in type_pointers n' (CPtr false q t) r'
              | _ => Some (t, ts)
              end
    end.
  (** A type without a name: specifiers and pointers. *)
  Definition type_name (n : nat) (ts : list etok) : option (ctype * list etok) :=
    let '(q, ts1) := match ts with Id w :: r => if String.eqb w "const" then (true, r) else (false, ts) | _ => (false, ts) end in
    match ts1 with
    | Id w :: r =>
        if mem_str w tag_words then match r with Id x :: r' => type_pointers n (CName q (Some w) [x] []) r' | _ => None end
        else if mem_str w specifier_words then let '(ws, r') := type_words r in type_pointers n (CName q None (w :: ws) []) r'
        else if types w then type_pointers n (CName q None [w] []) r
        else None
    | _ => None
    end.
  (** Does a type start here?  Not if it is the start of a qualified name or of a value in braces. *)
  Definition type_starts (ts : list etok) : bool :=
    match ts with
    | Id w :: r => (mem_str w ("const" :: tag_words ++ specifier_words)%list || types w)
                   && negb (match r with Op o :: _ => mem_str o ["::"; "{"] | _ => false end)
    | _ => false
    end.

  (** the rest of a qualified name *)
  Fixpoint qualified (w : string) (ts : list etok) : string * list etok :=
    match ts with
    | Op "::" :: Id x :: r => qualified (w ++ "::" ++ x) r
    | _ => (w, ts)
    end.
  Fixpoint members (n : nat) (e : cexpr) (ts : list etok) : option (cexpr * list etok) :=
    match n with
    | O => None
    | S n' => match ts with
              | Op "." :: Id f :: r => members n' (CDot e f) r
              | Op "->" :: Id f :: r => members n' (CDot (CUn "*" e) f) r
              | _ => Some (e, ts)
              end
    end.

  (** (6.5.3, 6.5.4) A parenthesis followed by a type is a cast, or with braces a compound literal. *)
  Fixpoint unary (n : nat) (ts : list etok) : option (cexpr * list etok) :=
    match n with
    | O => None
    | S n' =>
        match ts with
        | Op o :: r =>
            if String.eqb o "(" then
              if type_starts r then
                match type_name n' r with
                | Some (t, Op ")" :: Op "{" :: r') =>
                    match items n' r' with Some (l, r3) => members n' (CBraces (Some t) l) r3 | None => None end
                | Some (t, Op ")" :: r') => match unary n' r' with Some (e, r3) => Some (CCast t e, r3) | None => None end
                | _ => None
                end
              else match binary n' 0 r with Some (e, Op ")" :: r') => members n' e r' | _ => None end
            else if mem_str o unary_operators then
              match unary n' r with Some (e, r') => Some (CUn o e, r') | None => None end
            else None
        | Num s :: r | Chr s :: r => members n' (CLeaf s) r
        | Id w :: r =>
            let '(x, r') := qualified w r in
            match r' with
            | Op "{" :: r'' =>
                if cxx then match items n' r'' with Some (l, r3) => members n' (CBraces (Some (CName false None [x] [])) l) r3 | None => None end
                else members n' (CLeaf x) r'
            | _ => members n' (CLeaf x) r'
            end
        | [] => None
        end
    end
  (** an expression of operators of at least the given level *)
  with binary (n : nat) (least : nat) (ts : list etok) : option (cexpr * list etok) :=
    match n with
    | O => None
    | S n' => match unary n' ts with Some (e, r) => climb n' least e r | None => None end
    end
  with climb (n : nat) (least : nat) (left : cexpr) (ts : list etok) : option (cexpr * list etok) :=
    match n with
    | O => None
    | S n' =>
        match ts with
        | Op o :: r =>
            match level o with
            | Some k => if Nat.leb least k then
                          match binary n' (right_level k) r with Some (e, r') => climb n' least (CBin o left e) r' | None => None end
                        else Some (left, ts)
            | None => Some (left, ts)
            end
        | _ => Some (left, ts)
        end
    end
  (** (6.7.9) braces without a type are allowed where a value is *)
  with initializer (n : nat) (ts : list etok) : option (cexpr * list etok) :=
    match n with
    | O => None
    | S n' => match ts with
              | Op "{" :: r => match items n' r with Some (l, r') => Some (CBraces None l, r') | None => None end
              | _ => binary n' 0 ts
              end
    end
  (** values separated by commas up to the closing brace, each perhaps for a named field *)
  with items (n : nat) (ts : list etok) : option (list (option string * cexpr) * list etok) :=
    match n with
    | O => None
    | S n' =>
        match ts with
        | Op "}" :: r => Some ([], r)
        | _ =>
            let '(f, ts1) := match ts with Op "." :: Id x :: Op "=" :: r => (Some x, r) | _ => (None, ts) end in
            match initializer n' ts1 with
            | Some (e, Op "," :: r) => match items n' r with Some (l, r') => Some ((f, e) :: l, r') | None => None end
            | Some (e, Op "}" :: r) => Some ([(f, e)], r)
            | _ => None
            end
        end
    end.
  (** Given enough steps the whole text is read, always with the same result. *)
  Definition reads (ts : list etok) (e : cexpr) : Prop := exists n, forall m, n <= m -> initializer m ts = Some (e, []).
  (** what may follow a value: the end, a closing bracket, a separator or a binary operator *)
  Definition stops (ts : list etok) : Prop :=
    match ts with [] => True | Op o :: _ => o = ")" \/ o = "," \/ o = "}" \/ o = ";" \/ level o <> None | _ => False end.
  (** The tokens are one operand, whatever operators stand around them. *)
  Definition operand (us : list etok) (e : cexpr) : Prop :=
    forall rest, stops rest -> exists n, forall m, n <= m -> unary m (us ++ rest) = Some (e, rest).
  Definition denotes_expr (text : string) (e : cexpr) : Prop := exists ts, Lexes text ts /\ reads ts e.
End Reader.

(** ** Well-formed leaves *)
(** names, perhaps qualified *)
Fixpoint qualified_name (ws : list string) : string := match ws with [] => "" | [w] => w | w :: r => w ++ "::" ++ qualified_name r end.
Definition is_name (s : string) : Prop := exists ws, ws <> [] /\ Forall (fun w => S_Lex.is_ident w = true) ws /\ s = qualified_name ws.
(** a number: digits and letters, a period, a sign after an exponent letter *)
Definition is_number (s : string) : bool :=
  match s with String a _ => digit a && String.eqb (snd (number false s)) "" | "" => false end.
(** a character constant, perhaps with a prefix *)
Definition is_character (s : string) : bool :=
  match span wordchar s with
  | (p, String "'" r) => negb (match p with String a _ => digit a | "" => false end)
                         && match quoted false r with Some (_, "") => true | _ => false end
  | _ => false
  end.
