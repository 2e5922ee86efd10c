(** Specification of C declarations: the C types, a reader for declarations
    following the grammar of C (6.7) with C++ references and template
    arguments, and the C type that stands for a Rust type.  Nothing here uses
    the code that builds and writes declarations. *)
Require Import Coq.Strings.String Coq.Strings.Ascii Coq.Lists.List Coq.Bool.Bool.
From Verif Require Import Base S_Lex M_Config M_Type M_Ir.
Import ListNotations.
Open Scope string_scope.

(** ** Tokens: single punctuators, and words made of anything else between blanks.
    (In a declaration C has no longer punctuators but the ellipsis, which is a
    word here; C++ splits [>>] when it closes two argument lists.) *)
Inductive tok := W (w : string) | P (a : ascii).
Definition punct (a : ascii) : bool := existsb (Ascii.eqb a) ["*"; "&"; "("; ")"; "["; "]"; "<"; ">"; ","]%char.
Definition flush (w : string) : list tok := if String.eqb w "" then [] else [W w].
(** [w]: the characters of a word already read *)
Fixpoint scan (w s : string) : list tok :=
  match s with
  | "" => flush w
  | String a r => if blank a then (flush w ++ scan "" r)%list
                  else if punct a then (flush w ++ P a :: scan "" r)%list
                  else scan (w ++ String a "") r
  end.
Definition tokens (s : string) : list tok := scan "" s.

(** ** C types *)
Inductive ctype :=
| CName (const : bool) (tag : option string) (words : list string) (args : list ctype)
| CPtr (reference : bool) (qualifiers : list string) (to : ctype)
| CArr (length : option string) (of : ctype)
| CFun (params : list (option string * ctype)) (attributes : list string) (returns : ctype)
| CDots.

(** What depends on the language and on the user's own qualifiers. *)
Record dialect := {
  templates : bool;              (* [name<args>] is a type *)
  no_params : bool;              (* [()] means no parameters *)
  pointer_words : list string;   (* qualifiers of pointers besides [const] *)
  function_words : list string   (* attributes of functions *)
}.
Definition tag_words : list string := ["struct"; "union"; "enum"].
Definition specifier_words : list string := ["void"; "char"; "short"; "int"; "long"; "float"; "double"; "signed"; "unsigned"].

Section Reader.
  Variable d : dialect.
  Definition reserved (w : string) : bool :=
    mem_str w (["const"; "..."] ++ tag_words ++ specifier_words ++ pointer_words d ++ function_words d)%list.

  (** A declarator says how the name is derived from the base type: from the name outwards. *)
  Inductive piece :=
  | DPtr (reference : bool) (qualifiers : list string)
  | DArr (length : option string)
  | DFun (params : list (option string * ctype)) (attributes : list string).
  (** C has no functions returning functions or arrays and no arrays of functions. *)
  Definition derive (p : piece) (t : ctype) : option ctype :=
    match p, t with
    | DPtr r q, _ => Some (CPtr r q t)
    | DArr _, CFun _ _ _ => None
    | DArr l, _ => Some (CArr l t)
    | DFun _ _, CFun _ _ _ => None
    | DFun _ _, CArr _ _ => None
    | DFun ps a, _ => Some (CFun ps a t)
    end.
  Definition derived (ps : list piece) (t : ctype) : option ctype :=
    fold_right (fun p o => match o with Some u => derive p u | None => None end) (Some t) ps.

  Fixpoint spec_words (ts : list tok) : list string * list tok :=
    match ts with
    | W w :: r => if mem_str w specifier_words then let '(ws, r') := spec_words r in (w :: ws, r') else ([], ts)
    | _ => ([], ts)
    end.
  Fixpoint attributes (ts : list tok) : list string * list tok :=
    match ts with
    | W w :: r => if mem_str w (function_words d) then let '(ws, r') := attributes r in (w :: ws, r') else ([], ts)
    | _ => ([], ts)
    end.
  (** Pointers from left to right; the last one read is the first in the result. *)
  Fixpoint pointers (acc : list piece) (ts : list tok) : list piece * list tok :=
    match ts with
    | P "*" :: r => pointers (DPtr false [] :: acc) r
    | P "&" :: r => pointers (DPtr true [] :: acc) r
    | W w :: r =>
        match acc with
        | DPtr b q :: a => if mem_str w ("const" :: pointer_words d) then pointers (DPtr b (q ++ [w]) :: a) r else (acc, ts)
        | _ => (acc, ts)
        end
    | _ => (acc, ts)
    end.

  (** what follows the given word *)
  Definition skip (word : string) (ts : list tok) : option (list tok) :=
    match ts with W w :: r => if String.eqb w word then Some r else None | _ => None end.

  Section Nested.
    (** a reader for a parameter or argument *)
    Variable declaration : list tok -> option (option string * ctype * list tok).

    (** one or more, separated by commas; the ellipsis only at the end *)
    Fixpoint several (n : nat) (ts : list tok) : option (list (option string * ctype) * list tok) :=
      match n with
      | O => None
      | S n' =>
          match skip "..." ts with
          | Some r => Some ([(None, CDots)], r)
          | None =>
                 match declaration ts with
                 | Some (x, P "," :: r) => match several n' r with Some (xs, r') => Some (x :: xs, r') | None => None end
                 | Some (x, r) => Some ([x], r)
                 | None => None
                 end
          end
      end.
    Definition parameters (n : nat) (ts : list tok) : option (list (option string * ctype) * list tok) :=
      match ts with
      | P ")" :: r => if no_params d then Some ([], r) else None
      | _ =>
          match skip "void" ts with
          | Some (P ")" :: r) => Some ([], r)
          | _ => match several n ts with Some (xs, P ")" :: r) => Some (xs, r) | _ => None end
          end
      end.
    Fixpoint suffixes (n : nat) (ts : list tok) : option (list piece * list tok) :=
      match n with
      | O => None
      | S n' =>
          let more p r := match suffixes n' r with Some (l, r') => Some (p :: l, r') | None => None end in
          match ts with
          | P "[" :: P "]" :: r => more (DArr None) r
          | P "[" :: W l :: P "]" :: r => more (DArr (Some l)) r
          | P "(" :: r => match parameters n' r with
                          | Some (ps, r1) => let '(a, r2) := attributes r1 in more (DFun ps a) r2
                          | None => None
                          end
          | _ => Some ([], ts)
          end
      end.
    (** A parenthesis starts a nested declarator if a pointer follows, else parameters. *)
    Fixpoint declarator (n : nat) (ts : list tok) : option (option string * list piece * list tok) :=
      match n with
      | O => None
      | S n' =>
          let '(ps, ts1) := pointers [] ts in
          match ts1 with
          | W w :: r =>
              if reserved w then None
              else match suffixes n' r with Some (l, r') => Some (Some w, (l ++ ps)%list, r') | None => None end
          | P "(" :: ((P "*" :: _) as r) | P "(" :: ((P "&" :: _) as r) =>
              match declarator n' r with
              | Some (x, l, P ")" :: r1) =>
                  match suffixes n' r1 with Some (l2, r2) => Some (x, (l ++ l2 ++ ps)%list, r2) | None => None end
              | _ => None
              end
          | _ => match suffixes n' ts1 with Some (l, r') => Some (None, (l ++ ps)%list, r') | None => None end
          end
      end.
    (** The arguments of a template have no names. *)
    Definition arguments (n : nat) (ts : list tok) : option (list ctype * list tok) :=
      match ts with
      | P "<" :: r =>
          if templates d then match several n r with
                              | Some (xs, P ">" :: r') => if forallb (fun x => match fst x with None => true | _ => false end) xs
                                                          then Some (map snd xs, r') else None
                              | _ => None
                              end
          else None
      | _ => Some ([], ts)
      end.
    Definition specifiers (n : nat) (ts : list tok) : option (ctype * list tok) :=
      let '(q, ts1) := match skip "const" ts with Some r => (true, r) | None => (false, ts) end in
      match ts1 with
      | W w :: r =>
          if mem_str w tag_words then
            match r with
            | W x :: r' => if reserved x then None
                           else match arguments n r' with Some (args, r2) => Some (CName q (Some w) [x] args, r2) | None => None end
            | _ => None
            end
          else if mem_str w specifier_words then let '(ws, r') := spec_words r in Some (CName q None (w :: ws) [], r')
          else if reserved w then None
          else match arguments n r with Some (args, r2) => Some (CName q None [w] args, r2) | None => None end
      | _ => None
      end.
  End Nested.

  (** A name, if any, with its type, and what follows. *)
  Fixpoint declaration (n : nat) (ts : list tok) : option (option string * ctype * list tok) :=
    match n with
    | O => None
    | S n' =>
        match specifiers (declaration n') n' ts with
        | Some (base, r) =>
            match declarator (declaration n') n' r with
            | Some (x, ps, r') => match derived ps base with Some t => Some (x, t, r') | None => None end
            | None => None
            end
        | None => None
        end
    end.
  (** Given enough steps the whole text is read, always with the same result. *)
  Definition declares (text : string) (x : option string) (t : ctype) : Prop :=
    exists n, forall m, n <= m -> declaration m (tokens text) = Some (x, t, []).
End Reader.

(** ** The C type for a Rust type *)
Section Meaning.
  Variable c : Config.
  Definition for_cython : bool := Language_eqb (language c) Cython.
  Definition some_words (o : option string) : list string := match o with Some w => [w] | None => [] end.
  Definition dialect_of : dialect := {|
    templates := Language_eqb (language c) Cxx;
    no_params := negb (Language_eqb (language c) M_Config.C);
    pointer_words := (some_words (pt_non_null_attribute (pointer c)) ++ some_words (pt_nullable_attribute (pointer c)))%list;
    function_words := some_words (fn_no_return (function c)) |}.

  Definition integer (signed : bool) (words : list string) : list string := if signed then words else "unsigned" :: words.
  Definition sized (signed : bool) (bits : string) : list string := [(if signed then "int" else "uint") ++ bits ++ "_t"].
  Definition primitive (p : PrimitiveType) : list string :=
    match p with
    | PVoid => ["void"] | PBool => ["bool"] | PChar => ["char"] | PSChar => ["signed"; "char"] | PUChar => ["unsigned"; "char"]
    | PChar32 => ["uint32_t"] | PFloat => ["float"] | PDouble => ["double"] | PVaList => ["..."] | PPtrDiffT => ["ptrdiff_t"]
    | PInteger _ s KShort => integer s ["short"] | PInteger _ s KInt => integer s ["int"] | PInteger _ s KLong => integer s ["long"]
    | PInteger _ s KLongLong => integer s ["long"; "long"]
    | PInteger _ s KSizeT => [if s then "ssize_t" else "size_t"]
    | PInteger _ s KSize => if usize_is_size_t c then [if s then "ptrdiff_t" else "size_t"] else sized s "ptr"
    | PInteger _ s B8 => sized s "8" | PInteger _ s B16 => sized s "16" | PInteger _ s B32 => sized s "32" | PInteger _ s B64 => sized s "64"
    end.
  (** The qualifiers of a pointer: nullable pointers and, except for
      references, non-null ones have their own words. *)
  Definition qualifiers (const nullable reference : bool) : list string :=
    ((if const then ["const"] else [])
     ++ (if for_cython then []
         else if nullable then some_words (pt_nullable_attribute (pointer c))
         else if reference then [] else some_words (pt_non_null_attribute (pointer c))))%list.
  Definition fun_attributes (never_returns : bool) : list string :=
    if never_returns && negb for_cython then some_words (fn_no_return (function c)) else [].
  Definition array_length (s : string) : option string := if String.eqb s "" then None else Some s.
  Definition tag_of (d : option DeclarationType) : option string :=
    match d with
    | Some k => if for_cython then None else Some (match k with DStruct => "struct" | DUnion => "union" | DEnum => "enum" end)
    | None => None
    end.

  (** [const]: is the thing of this type constant? *)
  Fixpoint c_type (const : bool) (t : Ty) : ctype :=
    match t with
    | TPtr u target_const nullable reference => CPtr reference (qualifiers const nullable reference) (c_type target_const u)
    | TPath (GPath _ name args k) =>
        CName const (tag_of k) [name]
          (map (fun a => match a with GType u => c_type false u | GConst e => CName false None [ConstExpr_as_str e] [] end) args)
    | TPrim PVaList => CDots
    | TPrim p => CName const None (primitive p) []
    | TArray u len => CArr (array_length (ConstExpr_as_str len)) (c_type const u)
    | TFuncPtr ret args nullable never =>
        CPtr false (qualifiers const nullable false)
          (CFun (map (fun a => (fst a, c_type false (snd a))) args) (fun_attributes never) (c_type false ret))
    end.
  Definition c_param (a : FunctionArgument) : option string * ctype :=
    (a_name a, match a_array_length a, a_ty a with
               | Some l, TPtr u target_const _ _ => CArr (array_length l) (c_type target_const u)
               | _, t => c_type false t
               end).
  Definition c_function (f : Function) : ctype :=
    CFun (map c_param (f_args f)) (fun_attributes (f_never_return f)) (c_type false (f_ret f)).

  (** ** Which types can be declared in C *)
  Fixpoint solid (s : string) : bool :=
    match s with "" => true | String a r => negb (blank a) && negb (punct a) && solid r end.
  Definition word (s : string) : bool := negb (String.eqb s "") && solid s.
  Definition usable (s : string) : bool := word s && negb (reserved dialect_of s).
  Definition is_array (t : Ty) : bool := match t with TArray _ _ => true | _ => false end.
  Definition is_void (t : Ty) : bool := match t with TPrim PVoid => true | _ => false end.
  (** A constant array is an array of constants.  (See C19_const_refuted.) *)
  Fixpoint no_function_pointer (t : Ty) : bool :=
    match t with TFuncPtr _ _ _ _ => false | TArray u _ => no_function_pointer u | _ => true end.
  Definition usable_name (x : option string) : bool := match x with Some n => usable n | None => true end.
  (** (See C19_nullable_refuted.) *)
  Definition plain_function_pointers : bool :=
    for_cython || match pt_non_null_attribute (pointer c), pt_nullable_attribute (pointer c) with None, None => true | _, _ => false end.
  Section Params.
    Variable ok : Ty -> bool.
    (** No parameter has type [void]; only the last may be an ellipsis. *)
    Fixpoint declarable_params (args : list (option string * Ty)) : bool :=
      match args with
      | [] => true
      | (x, t) :: r =>
          match x, t, r with
          | None, TPrim PVaList, [] => true
          | _, _, _ => usable_name x && ok t && negb (is_void t) && declarable_params r
          end
      end.
  End Params.
  Fixpoint declarable (t : Ty) : bool :=
    match t with
    | TPtr u target_const _ _ => declarable u && (negb target_const || no_function_pointer u)
    | TPath (GPath _ name args _) =>
        usable name && (is_nil args || Language_eqb (language c) Cxx)
        && forallb (fun a => match a with GType u => declarable u | GConst e => usable (ConstExpr_as_str e) end) args
    | TPrim PVaList => false
    | TPrim _ => true
    | TArray u len => declarable u && solid (ConstExpr_as_str len)
    | TFuncPtr ret args nullable _ =>
        declarable ret && negb (is_array ret) && (nullable || plain_function_pointers)
        && declarable_params declarable args
    end.
  (** The user's qualifiers are single words without another meaning. *)
  Definition type_words : list string :=
    ["bool"; "ssize_t"; "size_t"; "ptrdiff_t"; "intptr_t"; "uintptr_t"; "int8_t"; "uint8_t"; "int16_t"; "uint16_t";
     "int32_t"; "uint32_t"; "int64_t"; "uint64_t"].
  Definition proper_attributes : bool :=
    forallb (fun w => word w && negb (mem_str w (["const"; "..."] ++ tag_words ++ specifier_words ++ type_words)))
      (pointer_words dialect_of ++ function_words dialect_of).
  Definition declarable_function (f : Function) : bool :=
    usable (f_path f) && declarable (f_ret f) && negb (is_array (f_ret f))
    && declarable_params declarable (map (fun a => (a_name a, a_ty a)) (f_args f))
    && forallb (fun a => match a_array_length a with
                         | Some l => solid l && match a_ty a with TPtr _ _ _ _ => true | _ => false end
                         | None => true
                         end) (f_args f).
End Meaning.
