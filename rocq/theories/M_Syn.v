(** Rust's syntax of types and expressions as the parser library [syn] gives it,
    and its translation to types, generic parameters, fields and literals:
    src/bindgen/ir/ty.rs, generic_path.rs, constant.rs and field.rs. *)
Require Import Coq.Strings.String Coq.Strings.Ascii Coq.Lists.List Coq.Bool.Bool Coq.Arith.Arith Coq.NArith.NArith.
Require Import Coq.Numbers.DecimalString.
From Verif Require Import Base M_Config M_Cfg M_Type M_Ir M_Attr.
Import ListNotations.
Open Scope string_scope.

(** ** [syn]'s syntax trees, as far as the translation looks at them *)

(** [syn::BinOp] *)
Inductive binop :=
| Add | Sub | Mul | Div | Rem | And | Or | BitXor | BitAnd | BitOr | Shl | Shr
| Eq | Lt | Le | Ne | Ge | Gt
| AddAssign | SubAssign | MulAssign | DivAssign | RemAssign | BitXorAssign | BitAndAssign | BitOrAssign
| ShlAssign | ShrAssign.
(** [syn::UnOp] *)
Inductive unop := Deref | Not | Neg.
(** [syn::Lit].  The digits of an integer are given in base 10 without
    separators, so the value says the same; a float keeps its digits. *)
Inductive lit :=
| LitByte (value : N)
| LitChar (code : N)
| LitInt (value : N) (suffix : string)
| LitFloat (digits : string)
| LitBool (value : bool)
| LitOther.
(** [syn::Member] *)
Inductive member := Named (ident : string) | Unnamed (index : nat).

(** A path has at least one segment; only the arguments of the last are looked at. *)
Inductive sty :=
| SRef (mutable : bool) (elem : sty)
| SPtr (mutable : bool) (elem : sty)
| SPath (p : spath)
| SArray (elem : sty) (len : sexpr)
| SFnPtr (inputs : list (option string * sty)) (variadic : bool) (output : option sty)
| STuple (elems : list sty)
| SEllipsis
| SNever
| SOtherType
with spath := SegPath (before : list string) (ident : string) (arguments : sargs)
with sargs :=
| NoArgs
| AngleArgs (args : list sgarg)
| ParenArgs
with sgarg :=
| ArgType (t : sty)
| ArgLifetime
| ArgConst (e : sexpr)
| ArgOther
with sexpr :=
| XBinary (op : binop) (left right : sexpr)
| XLit (l : lit)
| XField (base : sexpr) (m : member)
| XCall (func : sexpr) (args : list sexpr)
| XStruct (p : spath) (fields : list (list attribute * member * sexpr)) (rest : option sexpr)
| XUnary (op : unop) (e : sexpr)
| XPath (p : spath)
| XParen (e : sexpr)
| XCast (e : sexpr) (t : sty)
| XArray (elems : list sexpr)
| XMethod (receiver : sexpr) (method : string) (args : list sexpr)
| XOther.

(** [IdentExt::unraw] *)
Definition unraw (ident : string) : string := if starts_with "r#" ident then sdrop 2 ident else ident.
(** [to_string] of an integer *)
Definition decimal (n : N) : string := NilZero.string_of_uint (N.to_uint n).

(** utilities.rs, [IterHelpers::try_skip_map] (10-34): stops at the first error. *)
Definition try_skip_map {A B} (f : A -> option (option B)) : list A -> option (list B) :=
  fix go (l : list A) :=
    match l with
    | [] => Some []
    | x :: r => let? o := f x in let? ys := go r in Some (match o with Some y => y :: ys | None => ys end)
    end.

(** ty.rs:406-417: the names of the arguments of a function pointer; the second
    wildcard is called [_1], and so on. *)
Fixpoint name_wildcards {A} (counter : nat) (l : list (option string * A)) : list (option string * A) :=
  match l with
  | [] => []
  | (Some x, t) :: r =>
      if String.eqb x "_"
      then (Some (if Nat.eqb counter 0 then "_" else "_" ++ decimal (N.of_nat counter)), t) :: name_wildcards (S counter) r
      else (Some (unraw x), t) :: name_wildcards counter r
  | (None, t) :: r => (None, t) :: name_wildcards counter r
  end.

(** ty.rs:335-462, 258-274 and generic_path.rs:308-341.  [None] is an error;
    [Some None] a type without size. *)
Fixpoint Type_load (t : sty) : option (option Ty) :=
  let target u := let? c := Type_load u in Some (match c with Some x => x | None => TPrim PVoid end) in
  match t with
  | SRef mutable u => let? c := target u in Some (Some (TPtr c (negb mutable) false false))
  | SPtr mutable u => let? c := target u in Some (Some (TPtr c (negb mutable) true false))
  | SPath p =>
      let? g := GenericPath_load p in
      let name := gp_path g in
      if String.eqb name "PhantomData" || String.eqb name "PhantomPinned" then Some None
      else match PrimitiveType_maybe name with
           | Some prim => if is_nil (gp_generics g) then Some (Some (TPrim prim)) else None
           | None => Some (Some (TPath g))
           end
  | SArray u len =>
      let? c := Type_load u in
      match c with
      | None => None
      | Some x => let? n := ConstExpr_load len in Some (Some (TArray x n))
      end
  | SFnPtr inputs variadic output =>
      let? args := try_skip_map (fun a => let? c := Type_load (snd a) in Some (option_map (pair (fst a)) c)) inputs in
      let args' := (name_wildcards 0 args ++ if variadic then [(None, TPrim PVaList)] else [])%list in
      let? r := match output with
                | None => Some (TPrim PVoid, false)
                | Some SNever => Some (TPrim PVoid, true)
                | Some u => let? c := target u in Some (c, false)
                end in
      Some (Some (TFuncPtr (fst r) args' false (snd r)))
  | STuple elems => if is_nil elems then Some None else None
  | SEllipsis => Some (Some (TPrim PVaList))
  | SNever | SOtherType => None
  end
with GenericPath_load (p : spath) : option GenericPath :=
  match p with
  | SegPath _ ident arguments =>
      let name := unraw ident in
      if String.eqb name "PhantomData" then Some (GenericPath_new name [])
      else
        let? gs := match arguments with
                   | AngleArgs args =>
                       try_skip_map (fun a => match a with
                                              | ArgType u => let? c := Type_load u in Some (option_map GType c)
                                              | ArgLifetime => Some None
                                              | ArgConst e => let? x := ConstExpr_load e in Some (Some (GConst x))
                                              | ArgOther => None
                                              end) args
                   | ParenArgs => None
                   | NoArgs => Some []
                   end in
        Some (GenericPath_new name gs)
  end
with ConstExpr_load (e : sexpr) : option ConstExpr :=
  match e with
  | XLit (LitBool b) => Some (EValue (if b then "true" else "false"))
  | XLit (LitInt n _) => Some (EValue (decimal n))
  | XLit (LitByte n) => Some (EValue (decimal n))
  | XLit (LitChar n) => Some (EValue (decimal n))
  | XPath p => let? g := GenericPath_load p in Some (EPath g)
  | XCast x _ => ConstExpr_load x
  | _ => None
  end.

(** ty.rs:335-349 *)
Definition Type_load_from_output (output : option sty) : option (Ty * bool) :=
  match output with
  | None => Some (TPrim PVoid, false)
  | Some SNever => Some (TPrim PVoid, true)
  | Some u => let? c := Type_load u in Some (match c with Some x => x | None => TPrim PVoid end, false)
  end.

(** ** Literals: constant.rs *)

(** constant.rs:25-30 *)
Definition member_to_ident (m : member) : string :=
  match m with Named i => unraw i | Unnamed n => "_" ++ decimal (N.of_nat n) end.

(** constant.rs:349-385 *)
Definition binop_text (o : binop) : string :=
  match o with
  | Add => "+" | Sub => "-" | Mul => "*" | Div => "/" | Rem => "%" | And => "&&" | Or => "||"
  | BitXor => "^" | BitAnd => "&" | BitOr => "|" | Shl => "<<" | Shr => ">>"
  | Eq => "==" | Lt => "<" | Le => "<=" | Ne => "!=" | Ge => ">=" | Gt => ">"
  | AddAssign => "+=" | SubAssign => "-=" | MulAssign => "*=" | DivAssign => "/=" | RemAssign => "%="
  | BitXorAssign => "^=" | BitAndAssign => "&=" | BitOrAssign => "|=" | ShlAssign => "<<=" | ShrAssign => ">>="
  end.

Definition hex_digit (upper : bool) (n : N) : string :=
  String (ascii_of_N (if (n <? 10)%N then 48 + n else (if upper then 55 else 87) + n)) "".
(** the last [digits] digits in base 16 *)
Fixpoint hex (upper : bool) (digits : nat) (n : N) : string :=
  match digits with O => "" | S k => hex upper k (n / 16) ++ hex_digit upper (n mod 16) end.
(** [char::escape_default] for codes up to 255 *)
Definition escape_default (n : N) : string :=
  if (n =? 9)%N then "\t" else if (n =? 10)%N then "\n" else if (n =? 13)%N then "\r"
  else if (n =? 39)%N then "\'" else if (n =? 34)%N then "\" ++ dquote else if (n =? 92)%N then "\\"
  else if ((32 <=? n) && (n <=? 126))%N then String (ascii_of_N n) ""
  else "\u{" ++ (if (n <? 16)%N then hex false 1 n else hex false 2 n) ++ "}".
(** constant.rs:396-407 *)
Definition int_suffix (value : N) (suffix : string) : string :=
  if String.eqb suffix "u64" then "ull" else if String.eqb suffix "i64" then "ll" else if String.eqb suffix "u32" then "u"
  else if (9223372036854775807 <? value)%N then "ull" else "".
(** constant.rs:388-418 *)
Definition lit_text (l : lit) : option string :=
  match l with
  | LitByte n => Some (decimal n)
  | LitChar n => Some (if (n <=? 255)%N then "'" ++ escape_default n ++ "'" else "U'\U" ++ hex true 8 n ++ "'")
  | LitInt n s => Some (decimal n ++ int_suffix n s)
  | LitFloat d => Some d
  | LitBool b => Some (if b then "true" else "false")
  | LitOther => None
  end.

(** [HashMap::insert] on the list in iteration order; a new key goes last. *)
Fixpoint map_insert {A} (k : string) (v : A) (m : list (string * A)) : list (string * A) :=
  match m with
  | [] => [(k, v)]
  | (k', v') :: r => if String.eqb k k' then (k, v) :: r else (k', v') :: map_insert k v r
  end.
Definition insert_all {A} (l : list (string * A)) : list (string * A) := fold_left (fun m x => map_insert (fst x) (snd x) m) l [].
Definition numbered {A} (l : list A) : list (string * A) :=
  map (fun x => ("_" ++ decimal (N.of_nat (fst x)), snd x)) (combine (seq 0 (length l)) l).

(** constant.rs:342-541 *)
Fixpoint Literal_load (e : sexpr) : option Literal :=
  match e with
  | XBinary op l r => let? a := Literal_load l in let? b := Literal_load r in Some (LBin a (binop_text op) b)
  | XLit l => let? s := lit_text l in Some (LExpr s)
  | XField b m => let? v := Literal_load b in Some (LField v (member_to_ident m))
  | XCall f args =>
      let? fl := Literal_load f in
      match fl with
      | LPath None name =>
          let? vs := map_opt Literal_load args in
          Some (LStruct name name (insert_all (map (fun x => (fst x, (snd x, None))) (numbered vs))))
      | _ => None
      end
  | XStruct (SegPath before ident _) fields _ =>
      let name := unraw (match before with first :: _ => first | [] => ident end) in
      let? fs := map_opt (fun f => match f with (attrs, m, x) =>
                    let? v := Literal_load x in Some (member_to_ident m, (v, Cfg_of_attrs attrs)) end) fields in
      Some (LStruct name name (insert_all fs))
  | XUnary Not x => let? v := Literal_load x in Some (LUnary "~" v)
  | XUnary Neg x => let? v := Literal_load x in Some (LUnary "-" v)
  | XUnary Deref _ => None
  | XPath (SegPath [] ident _) => Some (LPath None ident)
  | XPath (SegPath [first] ident _) => Some (LPath (Some (first, first)) ident)
  | XPath _ => None
  | XParen x => Literal_load x
  | XCast x t =>
      let? v := Literal_load x in
      let? ty := Type_load t in
      match ty with Some u => Some (LCast u v) | None => None end
  | XArray elems => let? vs := map_opt Literal_load elems in Some (LArray vs)
  | XMethod _ _ _ | XOther => None
  end.

(** constant.rs:557-589; the outer option is an error, the inner one the panic of [Constant::new]. *)
Definition Constant_load (path : string) (mod_cfg : option Cfg) (ty : sty) (e : sexpr) (attrs : list attribute)
  (associated_to : option string) : option (option Constant) :=
  let? t := Type_load ty in
  match t with
  | None => None
  | Some t =>
      let? l := Literal_load e in
      let '(t', l') := match associated_to with
                       | Some a => (replace_self_with a t, Literal_replace_self_with a l)
                       | None => (t, l)
                       end in
      let? ann := AnnotationSet_load attrs in
      Some (Constant_new path t' l' (Cfg_append mod_cfg (Cfg_of_attrs attrs)) ann (Documentation_load attrs) associated_to)
  end.

(** ** Fields and generic parameters *)

(** [syn::Field] *)
Record sfield := { sf_attrs : list attribute; sf_ident : option string; sf_ty : sty }.
(** field.rs:27-46 *)
Definition Field_load (f : sfield) (self_path : string) : option (option Field) :=
  let? c := Type_load (sf_ty f) in
  match c with
  | None => Some None
  | Some ty =>
      let? name := sf_ident f in
      let? ann := AnnotationSet_load (sf_attrs f) in
      Some (Some {| fd_name := unraw name; fd_ty := replace_self_with self_path ty; fd_cfg := Cfg_of_attrs (sf_attrs f);
                    fd_annotations := ann; fd_documentation := Documentation_load (sf_attrs f) |})
  end.

(** [syn::GenericParam] *)
Inductive sgparam :=
| SGType (ident : string) (default : option sty)
| SGLifetime
| SGConst (ident : string) (ty : sty) (default : option sexpr).
(** generic_path.rs:36-78 *)
Definition GenericParam_load (p : sgparam) : option (option GenericParam) :=
  match p with
  | SGType ident d =>
      let? dflt := match d with
                   | None => Some None
                   | Some t => let? c := Type_load t in Some (Some (GType (match c with Some x => x | None => TPrim PVoid end)))
                   end in
      Some (Some {| gp_name_ := unraw ident; gp_ty := GPType; gp_default := dflt |})
  | SGLifetime => Some None
  | SGConst ident t d =>
      let? c := Type_load t in
      match c with
      | None => None
      | Some ty =>
          let? dflt := match d with None => Some None | Some e => let? x := ConstExpr_load e in Some (Some (GConst x)) end in
          Some (Some {| gp_name_ := unraw ident; gp_ty := GPConst ty; gp_default := dflt |})
      end
  end.
(** generic_path.rs:113-123 *)
Definition GenericParams_load (l : list sgparam) : option GenericParams := try_skip_map GenericParam_load l.
