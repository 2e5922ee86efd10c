(** Specification: the value of a Rust constant expression, and the value a C
    compiler gives to a constant expression.  Machine integers of 8 to 64 bits;
    in C [int] has 32 bits and [long long] 64, as on all targets in use.  The
    two sides do not mention each other. *)
Require Import Coq.Strings.String Coq.Strings.Ascii Coq.Lists.List Coq.Bool.Bool Coq.ZArith.ZArith.
Require Import Coq.Numbers.DecimalString.
From Verif Require Import Base M_Syn S_Decl S_Expr.
Import ListNotations.
Open Scope string_scope.
Local Open Scope Z_scope.

(** ** Machine integers *)
Inductive width := W8 | W16 | W32 | W64.
Definition bits (w : width) : Z := match w with W8 => 8 | W16 => 16 | W32 => 32 | W64 => 64 end.
Record itype := Int { signed : bool; wide : width }.
Definition lowest (t : itype) : Z := if signed t then - 2 ^ (bits (wide t) - 1) else 0.
Definition highest (t : itype) : Z := if signed t then 2 ^ (bits (wide t) - 1) - 1 else 2 ^ bits (wide t) - 1.
Definition in_range (t : itype) (v : Z) : bool := (lowest t <=? v) && (v <=? highest t).
(** the value of the type that differs by a multiple of 2^bits *)
Definition wrap (t : itype) (v : Z) : Z :=
  let m := v mod 2 ^ bits (wide t) in if m <=? highest t then m else m - 2 ^ bits (wide t).

(** ** Rust *)
(** [usize] and [isize] have 64 bits here. *)
Inductive rtype := RInt (s : bool) (w : width) | RSize (s : bool) | RBool | RChar.
Definition representation (t : rtype) : itype :=
  match t with RInt s w => Int s w | RSize s => Int s W64 | RBool => Int false W8 | RChar => Int false W32 end.
Definition rtype_eqb (t u : rtype) : bool :=
  match t, u with
  | RInt s w, RInt s' w' => Bool.eqb s s' && (bits w =? bits w')
  | RSize s, RSize s' => Bool.eqb s s'
  | RBool, RBool | RChar, RChar => true
  | _, _ => false
  end.
Definition is_integer (t : rtype) : bool := match t with RInt _ _ | RSize _ => true | _ => false end.
Definition is_signed (t : rtype) : bool := signed (representation t).
Definition rust_name (t : rtype) : string :=
  match t with
  | RInt true W8 => "i8" | RInt true W16 => "i16" | RInt true W32 => "i32" | RInt true W64 => "i64"
  | RInt false W8 => "u8" | RInt false W16 => "u16" | RInt false W32 => "u32" | RInt false W64 => "u64"
  | RSize true => "isize" | RSize false => "usize" | RBool => "bool" | RChar => "char"
  end.

Inductive arith := AAdd | ASub | AMul | ADiv | ARem.
Inductive bitop := BAnd | BOr | BXor.
Inductive comparison := CEq | CNe | CLt | CLe | CGt | CGe.
(** Typed constant expressions.  A literal has its type from a suffix or from the context. *)
Inductive rexpr :=
| RLit (t : rtype) (suffixed : bool) (n : N)
| RByte (n : N)
| RCharLit (n : N)
| RBoolLit (b : bool)
| RLimit (s : bool) (w : width) (max : bool)              (* [u8::MAX], [i32::MIN], … *)
| RName (x : string)
| RParen (e : rexpr)
| RNeg (e : rexpr)
| RNot (e : rexpr)
| RArith (o : arith) (a b : rexpr)
| RBits (o : bitop) (a b : rexpr)
| RShl (a b : rexpr)
| RShr (a b : rexpr)
| RCompare (o : comparison) (a b : rexpr)
| RAnd (a b : rexpr)
| ROr (a b : rexpr)
| RCast (e : rexpr) (t : rtype).

Definition truth (b : bool) : Z := if b then 1 else 0.
Definition arith_value (o : arith) (x y : Z) : Z :=
  match o with AAdd => x + y | ASub => x - y | AMul => x * y | ADiv => Z.quot x y | ARem => Z.rem x y end.
Definition divides (o : arith) : bool := match o with ADiv | ARem => true | _ => false end.
Definition bit_value (o : bitop) (x y : Z) : Z := match o with BAnd => Z.land x y | BOr => Z.lor x y | BXor => Z.lxor x y end.
Definition compare (o : comparison) (x y : Z) : bool :=
  match o with CEq => x =? y | CNe => negb (x =? y) | CLt => x <? y | CLe => x <=? y | CGt => y <? x | CGe => y <=? x end.

Section Rust.
  (** the constants in scope *)
  Variable names : string -> option (rtype * Z).

  (** [None]: a type error, or an evaluation that is an error in Rust. *)
  Fixpoint rust_value (e : rexpr) : option (rtype * Z) :=
    let checked t v := if in_range (representation t) v then Some (t, v) else None in
    let two a b f :=
      match rust_value a, rust_value b with
      | Some (t, x), Some (u, y) => if rtype_eqb t u then f t x y else None
      | _, _ => None
      end in
    match e with
    | RLit t _ n => if is_integer t then checked t (Z.of_N n) else None
    | RByte n => checked (RInt false W8) (Z.of_N n)
    | RCharLit n => if (Z.of_N n <? 1114112) && negb ((55296 <=? Z.of_N n) && (Z.of_N n <=? 57343)) then Some (RChar, Z.of_N n) else None
    | RBoolLit b => Some (RBool, truth b)
    | RLimit s w max => Some (RInt s w, if max then highest (Int s w) else lowest (Int s w))
    | RName x => names x
    | RParen x => rust_value x
    | RNeg x =>
        match (match x with RLit t _ n => Some (t, Z.of_N n) | _ => rust_value x end) with
        | Some (t, v) => if is_integer t && is_signed t then checked t (- v) else None
        | None => None
        end
    | RNot x =>
        match rust_value x with
        | Some (RBool, v) => Some (RBool, 1 - v)
        | Some (RChar, _) | None => None
        | Some (t, v) => Some (t, if is_signed t then - v - 1 else highest (representation t) - v)
        end
    | RArith o a b => two a b (fun t x y => if is_integer t && negb (divides o && ((y =? 0) || negb (in_range (representation t) (Z.quot x y))))
                                            then checked t (arith_value o x y) else None)
    | RBits o a b => two a b (fun t x y => if is_integer t || rtype_eqb t RBool then Some (t, bit_value o x y) else None)
    | RShl a b =>
        match rust_value a, rust_value b with
        | Some (t, x), Some (u, y) =>
            if is_integer t && is_integer u && (0 <=? y) && (y <? bits (wide (representation t)))
            then Some (t, wrap (representation t) (x * 2 ^ y)) else None
        | _, _ => None
        end
    | RShr a b =>
        match rust_value a, rust_value b with
        | Some (t, x), Some (u, y) =>
            if is_integer t && is_integer u && (0 <=? y) && (y <? bits (wide (representation t))) then Some (t, x / 2 ^ y) else None
        | _, _ => None
        end
    | RCompare o a b => two a b (fun _ x y => Some (RBool, truth (compare o x y)))
    | RAnd a b =>
        match rust_value a with
        | Some (RBool, x) => if x =? 0 then Some (RBool, 0) else match rust_value b with Some (RBool, y) => Some (RBool, y) | _ => None end
        | _ => None
        end
    | ROr a b =>
        match rust_value a with
        | Some (RBool, x) => if x =? 0 then match rust_value b with Some (RBool, y) => Some (RBool, y) | _ => None end else Some (RBool, 1)
        | _ => None
        end
    | RCast x t =>
        match rust_value x with
        | Some (_, v) => if is_integer t then Some (t, wrap (representation t) v) else None
        | None => None
        end
    end.
End Rust.

(** The expression as Rust's parser gives it. *)
Definition arith_op (o : arith) : binop := match o with AAdd => Add | ASub => Sub | AMul => Mul | ADiv => Div | ARem => Rem end.
Definition bit_op (o : bitop) : binop := match o with BAnd => BitAnd | BOr => BitOr | BXor => BitXor end.
Definition compare_op (o : comparison) : binop := match o with CEq => Eq | CNe => Ne | CLt => Lt | CLe => Le | CGt => Gt | CGe => Ge end.
Fixpoint syntax (e : rexpr) : sexpr :=
  match e with
  | RLit t suffixed n => XLit (LitInt n (if suffixed then rust_name t else ""))
  | RByte n => XLit (LitByte n)
  | RCharLit n => XLit (LitChar n)
  | RBoolLit b => XLit (LitBool b)
  | RLimit s w max => XPath (SegPath [rust_name (RInt s w)] (if max then "MAX" else "MIN") NoArgs)
  | RName x => XPath (SegPath [] x NoArgs)
  | RParen x => XParen (syntax x)
  | RNeg x => XUnary Neg (syntax x)
  | RNot x => XUnary Not (syntax x)
  | RArith o a b => XBinary (arith_op o) (syntax a) (syntax b)
  | RBits o a b => XBinary (bit_op o) (syntax a) (syntax b)
  | RShl a b => XBinary Shl (syntax a) (syntax b)
  | RShr a b => XBinary Shr (syntax a) (syntax b)
  | RCompare o a b => XBinary (compare_op o) (syntax a) (syntax b)
  | RAnd a b => XBinary And (syntax a) (syntax b)
  | ROr a b => XBinary Or (syntax a) (syntax b)
  | RCast x t => XCast (syntax x) (SPath (SegPath [] (rust_name t) NoArgs))
  end.

(** ** C *)
(** (6.3.1.1) types narrower than [int] are computed in [int] *)
Definition promote (t : itype) : itype := match wide t with W8 | W16 => Int true W32 | _ => t end.
(** (6.3.1.8) the type two operands are converted to *)
Definition common (a b : itype) : itype :=
  let t := promote a in let u := promote b in
  if bits (wide t) <? bits (wide u) then u
  else if bits (wide u) <? bits (wide t) then t
  else Int (signed t && signed u) (wide t).

(** (6.4.4.1) decimal constants; the first type of the list that can hold the value *)
Fixpoint first_that (l : list itype) (v : Z) : option (itype * Z) :=
  match l with [] => None | t :: r => if in_range t v then Some (t, v) else first_that r v end.
Definition int : itype := Int true W32.
Definition suffix_types (s : string) : list itype :=
  if String.eqb s "" then [int; Int true W64]
  else if String.eqb s "u" then [Int false W32; Int false W64]
  else if String.eqb s "ll" then [Int true W64]
  else if String.eqb s "ull" then [Int false W64]
  else [].
Definition is_digit (a : ascii) : bool := ((48 <=? N_of_ascii a) && (N_of_ascii a <=? 57))%N.
Definition number_value (s : string) : option (itype * Z) :=
  let '(digits, suffix) := span is_digit s in
  match digits with
  | String "0" (String _ _) => None                       (* octal *)
  | _ => match NilZero.uint_of_string digits with Some u => first_that (suffix_types suffix) (Z.of_N (N.of_uint u)) | None => None end
  end.
(** (6.4.4.4) characters of the basic set stand for their codes, as in ASCII *)
Definition character_value (s : string) : option Z :=
  match s with
  | String a "" => let n := Z.of_N (N_of_ascii a) in if (32 <=? n) && (n <=? 126) && negb (n =? 39) && negb (n =? 92) then Some n else None
  | String "\" (String a "") =>
      if Ascii.eqb a "t" then Some 9 else if Ascii.eqb a "n" then Some 10 else if Ascii.eqb a "r" then Some 13
      else if Ascii.eqb a "'" then Some 39 else if Ascii.eqb a "034" then Some 34 else if Ascii.eqb a "\" then Some 92
      else None
  | _ => None
  end.
(** (7.20.2) the limits of <stdint.h>; unsigned types have no [_MIN] *)
Definition limits : list (string * (itype * Z)) :=
  [("INT8_MIN", (int, -128)); ("INT16_MIN", (int, -32768)); ("INT32_MIN", (int, -2147483648)); ("INT64_MIN", (Int true W64, -9223372036854775808));
   ("INT8_MAX", (int, 127)); ("INT16_MAX", (int, 32767)); ("INT32_MAX", (int, 2147483647)); ("INT64_MAX", (Int true W64, 9223372036854775807));
   ("UINT8_MAX", (int, 255)); ("UINT16_MAX", (int, 65535)); ("UINT32_MAX", (Int false W32, 4294967295)); ("UINT64_MAX", (Int false W64, 18446744073709551615))].
(** The exact-width types; pointers have 64 bits. *)
Definition named_type (w : string) : option itype :=
  lookup w [("int8_t", Int true W8); ("int16_t", Int true W16); ("int32_t", Int true W32); ("int64_t", Int true W64);
            ("uint8_t", Int false W8); ("uint16_t", Int false W16); ("uint32_t", Int false W32); ("uint64_t", Int false W64);
            ("intptr_t", Int true W64); ("uintptr_t", Int false W64); ("ptrdiff_t", Int true W64); ("size_t", Int false W64)].

Section C.
  (** the constants in scope, with their types *)
  Variable names : string -> option (itype * Z).

  Definition leaf_value (s : string) : option (itype * Z) :=
    match s with
    | String a r =>
        if is_digit a then number_value s
        else if Ascii.eqb a "'" then
          match srev r with
          | String "'" x => option_map (pair int) (character_value (srev x))
          | _ => None
          end
        else if String.eqb s "true" then Some (int, 1)
        else if String.eqb s "false" then Some (int, 0)
        else match lookup s limits with Some x => Some x | None => names s end
    | "" => None
    end.
  (** A signed result must fit (6.5 (5)); an unsigned one is taken modulo 2^bits (6.2.5 (9)). *)
  Definition result (t : itype) (v : Z) : option (itype * Z) :=
    if signed t then if in_range t v then Some (t, v) else None else Some (t, wrap t v).
  Definition arith_named (op : string) : option arith :=
    lookup op [("+", AAdd); ("-", ASub); ("*", AMul); ("/", ADiv); ("%", ARem)].
  Definition bit_named (op : string) : option bitop := lookup op [("&", BAnd); ("|", BOr); ("^", BXor)].
  Definition compare_named (op : string) : option comparison :=
    lookup op [("==", CEq); ("!=", CNe); ("<", CLt); ("<=", CLe); (">", CGt); (">=", CGe)].
  (** [None]: no constant expression, or one without a defined value.
      Conversions to signed types and shifts of negative numbers to the right,
      which C leaves to the implementation, are done as all compilers in use do. *)
  Fixpoint c_value (e : cexpr) : option (itype * Z) :=
    match e with
    | CLeaf s => leaf_value s
    | CUn op x =>
        match c_value x with
        | Some (t, v) => if String.eqb op "-" then result (promote t) (- v)
                         else if String.eqb op "~" then Some (promote t, wrap (promote t) (- v - 1))
                         else None
        | None => None
        end
    | CBin op a b =>
        if String.eqb op "&&" then
          match c_value a with
          | Some (_, x) => if x =? 0 then Some (int, 0) else match c_value b with Some (_, y) => Some (int, truth (negb (y =? 0))) | None => None end
          | None => None
          end
        else if String.eqb op "||" then
          match c_value a with
          | Some (_, x) => if x =? 0 then match c_value b with Some (_, y) => Some (int, truth (negb (y =? 0))) | None => None end else Some (int, 1)
          | None => None
          end
        else
          match c_value a, c_value b with
          | Some (t, x), Some (u, y) =>
              let k := common t u in
              match arith_named op with
              | Some o => if divides o && ((wrap k y =? 0) || negb (in_range k (Z.quot (wrap k x) (wrap k y)))) then None
                          else result k (arith_value o (wrap k x) (wrap k y))
              | None =>
              match bit_named op with
              | Some o => Some (k, bit_value o (wrap k x) (wrap k y))
              | None =>
              match compare_named op with
              | Some o => Some (int, truth (compare o (wrap k x) (wrap k y)))
              | None =>
                  let p := promote t in
                  if (0 <=? y) && (y <? bits (wide p)) then
                    if String.eqb op "<<" then if signed p && (x <? 0) then None else result p (x * 2 ^ y)
                    else if String.eqb op ">>" then Some (p, x / 2 ^ y)
                    else None
                  else None
              end end end
          | _, _ => None
          end
    | CCast (CName false None [w] []) x =>
        match named_type w, c_value x with Some t, Some (_, v) => Some (t, wrap t v) | _, _ => None end
    | _ => None
    end.
End C.

(** ** When the two agree *)
Section Agree.
  Variables (names : string -> option (rtype * Z)) (c_names : string -> option (itype * Z)).

  (** The type C computes an expression in. *)
  Definition literal_type (t : rtype) (suffixed : bool) (n : N) : itype :=
    match suffixed, t with
    | true, RInt true W64 => Int true W64
    | true, RInt false W64 => Int false W64
    | true, RInt false W32 => Int false W32
    | _, _ => if in_range int (Z.of_N n) then int else if in_range (Int true W64) (Z.of_N n) then Int true W64 else Int false W64
    end.
  Fixpoint type_in_c (e : rexpr) : itype :=
    match e with
    | RLit t suffixed n => literal_type t suffixed n
    | RLimit s w _ => promote (Int s w)
    | RName x => match leaf_value c_names x with Some (t, _) => t | None => int end
    | RParen x => type_in_c x
    | RNeg x | RNot x => promote (type_in_c x)
    | RArith _ a b | RBits _ a b => common (type_in_c a) (type_in_c b)
    | RShl a _ | RShr a _ => promote (type_in_c a)
    | RCast _ t => representation t
    | _ => int
    end.
  (** Each value that comes up fits the type C computes it in; complements and
      shifts have the same value in that type; characters are of the basic set
      and only limits of <stdint.h> are used. *)
  Definition value_of (e : rexpr) : Z :=
    match e with RLit _ _ n => Z.of_N n | _ => match rust_value names e with Some (_, v) => v | None => 0 end end.
  Definition both_fit (a b : rexpr) : Prop :=
    in_range (common (type_in_c a) (type_in_c b)) (value_of a) = true /\ in_range (common (type_in_c a) (type_in_c b)) (value_of b) = true.
  Definition basic_character (n : N) : bool := ((32 <=? n) && (n <=? 126) || (n =? 9) || (n =? 10) || (n =? 13))%N.
  Fixpoint fits (e : rexpr) : Prop :=
    match e with
    | RLit t suffixed n => in_range (literal_type t suffixed n) (Z.of_N n) = true
    | RByte _ | RBoolLit _ | RName _ => True
    | RCharLit n => basic_character n = true
    | RLimit s _ max => max = true \/ s = true
    | RParen x | RCast x _ => fits x
    | RNeg x => fits x /\ in_range (promote (type_in_c x)) (- value_of x) = true
    | RNot x => fits x /\ wrap (promote (type_in_c x)) (- value_of x - 1) = value_of e
    | RArith o a b => fits a /\ fits b /\ both_fit a b /\ in_range (common (type_in_c a) (type_in_c b)) (value_of e) = true
                      /\ (divides o = true -> in_range (common (type_in_c a) (type_in_c b)) (Z.quot (value_of a) (value_of b)) = true)
    | RBits _ a b | RCompare _ a b => fits a /\ fits b /\ both_fit a b
    | RShl a b => fits a /\ fits b /\ value_of b < bits (wide (promote (type_in_c a)))
                  /\ if signed (promote (type_in_c a)) then 0 <= value_of a /\ value_of e = value_of a * 2 ^ value_of b /\ in_range (promote (type_in_c a)) (value_of e) = true
                     else value_of e = wrap (promote (type_in_c a)) (value_of a * 2 ^ value_of b)
    | RShr a b => fits a /\ fits b /\ value_of b < bits (wide (promote (type_in_c a)))
    | RAnd a b => fits a /\ (value_of a <> 0 -> fits b)
    | ROr a b => fits a /\ (value_of a = 0 -> fits b)
    end.

  (** A way of writing constants that always comes out right: literals of the
      types [u32], [u64] and [i64] have a suffix, [usize] and [isize] come from casts, [!] is
      used on signed numbers and on those of at least 32 bits, [<<] on unsigned
      numbers of at least 32 bits. *)
  Definition wide_unsigned (t : rtype) : bool := match t with RInt false W32 | RInt false W64 | RSize false => true | _ => false end.
  Definition type_of (e : rexpr) : rtype := match rust_value names e with Some (t, _) => t | None => RBool end.
  Definition needs_suffix (t : rtype) : bool := match t with RInt _ W64 | RInt false W32 => true | _ => false end.
  Fixpoint careful (e : rexpr) : Prop :=
    match e with
    | RLit t suffixed n => (needs_suffix t = true -> suffixed = true) /\ (forall s, t <> RSize s) /\ (t = RInt true W64 -> Z.of_N n <> 2 ^ 63)
    | RByte _ | RBoolLit _ | RName _ => True
    | RCharLit n => basic_character n = true
    | RLimit s _ max => max = true \/ s = true
    | RParen x | RCast x _ | RNeg x => careful x
    | RNot x => careful x /\ (is_signed (type_of x) = true \/ wide_unsigned (type_of x) = true)
    | RArith _ a b | RBits _ a b | RCompare _ a b | RAnd a b | ROr a b | RShr a b => careful a /\ careful b
    | RShl a b => careful a /\ careful b /\ wide_unsigned (type_of a) = true
    end.

  (** The C types that hold all values of a Rust type and in which C computes with them as Rust does. *)
  Definition kept (t : rtype) (k : itype) : Prop :=
    match t with
    | RInt false W32 => k = Int false W32
    | RInt true W64 | RSize true => k = Int true W64
    | RInt false W64 | RSize false => k = Int false W64
    | RChar => promote k = Int true W32 \/ promote k = Int true W64 \/ k = Int false W32
    | _ => promote k = Int true W32 \/ promote k = Int true W64
    end.
End Agree.
(** the values of a type *)
Definition valid (t : rtype) (v : Z) : Prop :=
  in_range (representation t) v = true /\ (t = RBool -> v = 0 \/ v = 1) /\ (t = RChar -> v < 1114112).

(** Can the expression be written in C?  Its names are names in C, and no minus follows a minus. *)
Section Writable.
  Variable c_name : string -> Prop.
  Fixpoint minus_first (e : rexpr) : bool := match e with RNeg _ => true | RParen x => minus_first x | _ => false end.
  Fixpoint writable (e : rexpr) : Prop :=
    match e with
    | RCharLit n => (n <= 255)%N
    | RLimit s _ max => max = true \/ s = true
    | RName x => c_name x
    | RParen x | RNot x => writable x
    | RCast x t => writable x /\ is_integer t = true
    | RNeg x => writable x /\ minus_first x = false
    | RArith _ a b | RBits _ a b | RShl a b | RShr a b | RCompare _ a b | RAnd a b | ROr a b => writable a /\ writable b
    | _ => True
    end.
End Writable.
(** The names of types include those of <stdint.h> and <stddef.h>, not those of values. *)
Definition standard_types (types : string -> bool) : Prop :=
  (forall w, named_type w <> None -> types w = true) /\ (forall w, In w ("true" :: "false" :: map fst limits) -> types w = false).

(** A constant is written as a macro, which has the type of the expression, or
    as a variable, which has the type it is declared with.  C has no other
    meaning for its name. *)
Definition free_name (x : string) : Prop := forall names, leaf_value names x = names x.
Record constant := { k_name : string; k_macro : bool; k_type : rtype; k_expr : rexpr }.
(** the constants defined one after the other, each using those before *)
Fixpoint rust_constants (l : list constant) (names : string -> option (rtype * Z)) : option (string -> option (rtype * Z)) :=
  match l with
  | [] => Some names
  | k :: r =>
      match rust_value names (k_expr k) with
      | Some (t, v) => if rtype_eqb t (k_type k) then rust_constants r (fun x => if String.eqb x (k_name k) then Some (t, v) else names x) else None
      | None => None
      end
  end.
Fixpoint c_constants (value : rexpr -> (string -> option (itype * Z)) -> option (itype * Z)) (l : list constant) (names : string -> option (itype * Z)) : option (string -> option (itype * Z)) :=
  match l with
  | [] => Some names
  | k :: r =>
      match value (k_expr k) names with
      | Some (t, v) =>
          let u := representation (k_type k) in
          c_constants value r (fun x => if String.eqb x (k_name k) then Some (if k_macro k then (t, v) else (u, wrap u v)) else names x)
      | None => None
      end
  end.
Fixpoint careful_constants (l : list constant) (names : string -> option (rtype * Z)) : Prop :=
  match l with
  | [] => True
  | k :: r =>
      free_name (k_name k) /\ careful names (k_expr k)
      /\ careful_constants r (fun x => if String.eqb x (k_name k) then rust_value names (k_expr k) else names x)
  end.
