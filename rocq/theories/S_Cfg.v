(** Specification side of the cfg properties: what a Rust cfg means, what a
    preprocessor condition means, and how its text is read. *)
Require Import Coq.Strings.String Coq.Strings.Ascii Coq.Lists.List Coq.Bool.Bool.
From Verif Require Import Base S_Lex M_Config M_Cfg.
Import ListNotations.
Open Scope string_scope.

(** ** Rust: a configuration says which atoms hold. *)
Inductive atom := Flag (name : string) | KeyVal (key value : string).

(** The Rust reference's meaning of a configuration predicate, directly on
    attribute syntax; [None] when it is not a valid predicate of this form. *)
Fixpoint rust_eval (rho : atom -> bool) (m : meta) : option bool :=
  let fix alls (l : list meta) : option (list bool) :=
    match l with
    | [] => Some []
    | x :: r => match rust_eval rho x, alls r with
                | Some b, Some bs => Some (b :: bs)
                | _, _ => None
                end
    end in
  match m with
  | MPath (Some n) => Some (rho (Flag n))
  | MNameValue (Some k) (Some v) => Some (rho (KeyVal k v))
  | MList (Some "not") (Some [x]) => option_map negb (rust_eval rho x)
  | MList (Some "all") (Some l) => option_map (forallb (fun b => b)) (alls l)
  | MList (Some "any") (Some l) => option_map (existsb (fun b => b)) (alls l)
  | _ => None
  end.

(** The same on parsed cfgs. *)
Fixpoint cfg_eval (rho : atom -> bool) (c : Cfg) : bool :=
  match c with
  | CBoolean n => rho (Flag n)
  | CNamed k v => rho (KeyVal k v)
  | CAny l => existsb (cfg_eval rho) l
  | CAll l => forallb (cfg_eval rho) l
  | CNot c => negb (cfg_eval rho c)
  end.
(** No cfg at all means always present. *)
Definition cfg_eval_opt (rho : atom -> bool) (c : option Cfg) : bool :=
  match c with None => true | Some c => cfg_eval rho c end.

(** ** What a key of the [defines] table denotes: the text without "=" is a
    flag; "key = value" with exactly one "=" is a key/value pair, blanks around
    both parts ignored. *)
Fixpoint blanks (s : string) : Prop :=
  match s with "" => True | String a r => is_white a = true /\ blanks r end.
Definition no_eq (s : string) : Prop := contains_char "=" s = false.
Definition trimmed (s : string) : Prop := trim s = s.

Inductive denotes : string -> atom -> Prop :=
| den_flag : forall s, no_eq s -> denotes s (Flag s)
| den_pair : forall b1 k b2 b3 v b4,
    blanks b1 -> blanks b2 -> blanks b3 -> blanks b4 ->
    no_eq k -> no_eq v -> trimmed k -> trimmed v ->
    denotes (b1 ++ k ++ b2 ++ "=" ++ b3 ++ v ++ b4) (KeyVal k v).

(** ** Preprocessor conditions: a macro environment says which macros are defined. *)
Fixpoint cond_eval (mu : string -> bool) (c : Condition) : bool :=
  match c with
  | Define d => mu d
  | Any l => existsb (cond_eval mu) l
  | All l => forallb (cond_eval mu) l
  | Not c => negb (cond_eval mu c)
  end.
Definition cond_eval_opt (mu : string -> bool) (c : option Condition) : bool :=
  match c with None => true | Some c => cond_eval mu c end.

(** ** Reading the text of a condition: [||] binds weaker than [&&], which
    binds weaker than [!]; parentheses group.  In Cython the words [or],
    [and], [not] and bare names are used, in C [defined(NAME)]. *)
Inductive pexp := EAtom (n : string) | ENot (e : pexp) | EAnd (a b : pexp) | EOr (a b : pexp).

Fixpoint peval (mu : string -> bool) (e : pexp) : bool :=
  match e with
  | EAtom n => mu n
  | ENot e => negb (peval mu e)
  | EAnd a b => peval mu a && peval mu b
  | EOr a b => peval mu a || peval mu b
  end.

Definition token_eqb (a b : token) : bool :=
  match a, b with
  | Word x, Word y => String.eqb x y
  | Sym x, Sym y => String.eqb x y
  | _, _ => false
  end.

Definition t_or (py : bool) : token := if py then Word "or" else Sym "||".
Definition t_and (py : bool) : token := if py then Word "and" else Sym "&&".
Definition t_not (py : bool) : token := if py then Word "not" else Sym "!".

Fixpoint read_or (py : bool) (fuel : nat) (ts : list token) {struct fuel} : option (pexp * list token) :=
  match fuel with
  | O => None
  | S f =>
      match read_and py f ts with
      | Some (e, t :: r) =>
          if token_eqb t (t_or py) then
            match read_or py f r with
            | Some (e2, r2) => Some (EOr e e2, r2)
            | None => None
            end
          else Some (e, t :: r)
      | other => other
      end
  end
with read_and (py : bool) (fuel : nat) (ts : list token) {struct fuel} : option (pexp * list token) :=
  match fuel with
  | O => None
  | S f =>
      match read_not py f ts with
      | Some (e, t :: r) =>
          if token_eqb t (t_and py) then
            match read_and py f r with
            | Some (e2, r2) => Some (EAnd e e2, r2)
            | None => None
            end
          else Some (e, t :: r)
      | other => other
      end
  end
with read_not (py : bool) (fuel : nat) (ts : list token) {struct fuel} : option (pexp * list token) :=
  match fuel with
  | O => None
  | S f =>
      match ts with
      | [] => None
      | t :: r =>
          if token_eqb t (t_not py) then
            match read_not py f r with
            | Some (e, r2) => Some (ENot e, r2)
            | None => None
            end
          else if token_eqb t (Sym "(") then
            match read_or py f r with
            | Some (e, t2 :: r2) => if token_eqb t2 (Sym ")") then Some (e, r2) else None
            | _ => None
            end
          else match py, ts with
               | true, Word n :: r2 => Some (EAtom n, r2)
               | false, Word d :: Sym o :: Word n :: Sym c :: r2 =>
                   if String.eqb d "defined" && String.eqb o "(" && String.eqb c ")"
                   then Some (EAtom n, r2) else None
               | _, _ => None
               end
      end
  end.

(** The whole text must be read. *)
Definition read_condition (py : bool) (text : string) : option pexp :=
  let ts := lex text in
  match read_or py (3 * length ts + 3) ts with
  | Some (e, []) => Some e
  | _ => None
  end.

(** Macro names that can be read back: identifiers, and in Cython not one of
    the operator words. *)
Definition macro_name (py : bool) (d : string) : bool :=
  is_ident d && (negb py || negb (mem_str d ["or"; "and"; "not"])).

(** ** Shape conditions on cfgs *)
Fixpoint no_empty (c : Cfg) : bool :=
  match c with
  | CBoolean _ | CNamed _ _ => true
  | CAny l | CAll l => match l with [] => false | _ => true end && forallb no_empty l
  | CNot c => no_empty c
  end.

Fixpoint atoms (c : Cfg) : list atom :=
  match c with
  | CBoolean n => [Flag n]
  | CNamed k v => [KeyVal k v]
  | CAny l | CAll l => flat_map atoms l
  | CNot c => atoms c
  end.

(** ** Unknown atoms.  [polarity known true c]: dropping the unknown atoms of
    [c] the way cbindgen does can only make the guard weaker; [polarity known
    false c]: there is a guard and it can only be stronger. *)
Definition mentions (known : atom -> bool) (c : Cfg) : bool := existsb known (atoms c).

Fixpoint polarity (known : atom -> bool) (weaker : bool) (c : Cfg) : bool :=
  match c with
  | CBoolean n => weaker || known (Flag n)
  | CNamed k v => weaker || known (KeyVal k v)
  | CAll l =>
      if weaker then forallb (polarity known true) l
      else existsb (mentions known) l && forallb (polarity known false) l
  | CAny l =>
      if weaker then
        forallb (polarity known true) l &&
        (forallb (mentions known) l || negb (existsb (mentions known) l))
      else existsb (mentions known) l &&
           forallb (fun x => negb (mentions known x) || polarity known false x) l
  | CNot c =>
      if weaker then negb (mentions known c) || polarity known false c
      else mentions known c && polarity known true c
  end.

(** The simple case: unknown atoms only as operands of (nested) [all]. *)
Fixpoint unknown_only_in_all (known : atom -> bool) (c : Cfg) : bool :=
  match c with
  | CBoolean _ | CNamed _ _ => true
  | CAll l => forallb (unknown_only_in_all known) l
  | other => forallb known (atoms other) && no_empty other
  end.

(** ** Attributes.  What Rust requires of one attribute of an item: a
    [cfg(..)] attribute must hold, every other attribute is irrelevant. *)
Definition is_cfg_attr (attr : meta) : bool :=
  match attr with MList (Some name) _ => String.eqb name "cfg" | _ => false end.
Definition cfg_arg (attr : meta) : option meta :=
  match attr with MList _ (Some [x]) => Some x | _ => None end.
Definition attr_holds (rho : atom -> bool) (attr : meta) : bool :=
  if is_cfg_attr attr then
    match cfg_arg attr with
    | Some x => match rust_eval rho x with Some b => b | None => false end
    | None => false
    end
  else true.
(** A cfg attribute whose argument is a predicate of the supported form. *)
Definition attr_valid (rho : atom -> bool) (attr : meta) : Prop :=
  is_cfg_attr attr = true -> exists x b, cfg_arg attr = Some x /\ rust_eval rho x = Some b.
