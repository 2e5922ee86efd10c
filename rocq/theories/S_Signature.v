(** The C type that stands for a type written in Rust: from the source text of
    the Rust program to the C declaration, without any step in between. *)
Require Import Coq.Strings.String Coq.Strings.Ascii Coq.Lists.List Coq.Bool.Bool Coq.NArith.NArith.
From Verif Require Import Base M_Reserved M_Config M_Type M_Ir M_Library M_Syn M_Loader S_Names S_Decl S_Style.
Import ListNotations.
Open Scope string_scope.

Definition same_words (names : list string) (words : list string) : list (string * list string) := map (fun n => (n, words)) names.
(** The integer types of Rust and of [std::ffi], [libc]. *)
Definition rust_integers (c : Config) : list (string * list string) :=
  (same_words ["u8"; "uint8_t"] ["uint8_t"] ++ same_words ["u16"; "uint16_t"] ["uint16_t"]
   ++ same_words ["u32"; "uint32_t"] ["uint32_t"] ++ same_words ["u64"; "uint64_t"] ["uint64_t"]
   ++ same_words ["i8"; "int8_t"] ["int8_t"] ++ same_words ["i16"; "int16_t"] ["int16_t"]
   ++ same_words ["i32"; "int32_t"] ["int32_t"] ++ same_words ["i64"; "int64_t"] ["int64_t"]
   ++ same_words ["usize"; "uintptr_t"] [if usize_is_size_t c then "size_t" else "uintptr_t"]
   ++ same_words ["isize"; "intptr_t"] [if usize_is_size_t c then "ptrdiff_t" else "intptr_t"]
   ++ [("c_short", ["short"]); ("c_int", ["int"]); ("c_long", ["long"]); ("c_longlong", ["long"; "long"]);
       ("c_ushort", ["unsigned"; "short"]); ("c_uint", ["unsigned"; "int"]); ("c_ulong", ["unsigned"; "long"]);
       ("c_ulonglong", ["unsigned"; "long"; "long"]); ("size_t", ["size_t"]); ("ssize_t", ["ssize_t"]); ("RawFd", ["int"])])%list.
(** Integers that are never 0, so that [Option] of them is an integer. *)
Definition rust_nonzero : list (string * list string) :=
  [("NonZeroU8", ["uint8_t"]); ("NonZeroU16", ["uint16_t"]); ("NonZeroU32", ["uint32_t"]); ("NonZeroU64", ["uint64_t"]);
   ("NonZeroI8", ["int8_t"]); ("NonZeroI16", ["int16_t"]); ("NonZeroI32", ["int32_t"]); ("NonZeroI64", ["int64_t"])].
Definition rust_primitives (c : Config) : list (string * list string) :=
  ([("bool", ["bool"]); ("char", ["uint32_t"]); ("f32", ["float"]); ("f64", ["double"]); ("c_void", ["void"]); ("c_char", ["char"]);
    ("c_schar", ["signed"; "char"]); ("c_uchar", ["unsigned"; "char"]); ("c_float", ["float"]); ("c_double", ["double"]);
    ("ptrdiff_t", ["ptrdiff_t"])] ++ rust_integers c ++ rust_nonzero)%list.

(** Types without a size: the unit type and markers. *)
Definition no_size (t : sty) : bool :=
  match t with
  | STuple [] => true
  | SPath (SegPath _ ident args) =>
      String.eqb (unraw ident) "PhantomData"
      || String.eqb (unraw ident) "PhantomPinned" && match args with NoArgs => true | _ => false end
  | _ => false
  end.
Definition void_type (const : bool) : ctype := CName const None ["void"] [].
Definition is_void_type (t : ctype) : bool := match t with CName _ None ["void"] [] => true | _ => false end.
Definition is_array_type (t : ctype) : bool := match t with CArr _ _ => true | _ => false end.

Section Rust.
  (** [keyword]: the C keyword a named type has in front, if any;
      [self]: the type [Self] is. *)
  Variables (c : Config) (keyword : string -> option DeclarationType) (self : option string).
  Let cxx : bool := Language_eqb (language c) Cxx.

  (** Types that only say something about the type inside. *)
  Definition wrappers : list string :=
    (["Option"; "NonNull"; "NonZero"; "Cell"; "UnsafeCell"; "SyncUnsafeCell"]
     ++ if cxx then [] else ["Box"; "ManuallyDrop"; "MaybeUninit"; "Pin"])%list.
  Definition self_name (n : string) : string :=
    match self with Some s => if String.eqb n "Self" then s else n | None => n end.
  Definition exported (n : string) : string := export_rename (export c) n.
  (** a number, or a constant *)
  Definition rust_length (e : sexpr) : option string :=
    let? x := match e with
              | XLit (LitInt n _) => Some (decimal n)
              | XPath (SegPath _ ident NoArgs) => Some (exported (unraw ident))
              | _ => None
              end in
    if solid x then Some x else None.
  (** a type known by its name (the last part of its path) *)
  Definition named (const : bool) (n : string) (args : list ctype) : option ctype :=
    if usable c (exported n) && negb (mem_str n ["PhantomData"; "PhantomPinned"; "VaList"; "NonZeroUSize"; "NonZeroISize"])
    then Some (CName const (tag_of c (keyword n)) [exported n] args) else None.
  Definition parameter (name : option string) (t : ctype) : option (option string * ctype) :=
    if usable_name c name && negb (is_void_type t) && negb (is_array_type t) then Some (name, t) else None.

  (** The C type of a thing of type [t] (of type [Option<t>] if [nullable]);
      [const]: is the thing constant?  [None]: C has no such type, or the type
      is not one of those described here (in C++ also: [Option], [Box] and the
      like, which are then templates). *)
  Fixpoint rust_type (const nullable : bool) (t : sty) : option ctype :=
    let target k u := if no_size u then Some (void_type k) else rust_type k false u in
    let pointer nullable k u := let? x := target k u in Some (CPtr false (qualifiers c const nullable false) x) in
    match t with
    | SRef mutable u => pointer nullable (negb mutable) u
    | SPtr mutable u => if nullable then None else pointer true (negb mutable) u
    | SArray u e =>
        if nullable || no_size u then None
        else let? x := rust_type const false u in let? n := rust_length e in Some (CArr (array_length n) x)
    | SFnPtr inputs variadic output =>
        if const || negb (nullable || plain_function_pointers c) then None
        else
          let? params :=
            (fix params (wildcards : nat) (l : list (option string * sty)) : option (list (option string * ctype)) :=
               match l with
               | [] => Some (if variadic then [(None, CDots)] else [])
               | (x, u) :: r =>
                   if no_size u then params wildcards r
                   else
                     let? y := rust_type false false u in
                     let wild := match x with Some y => String.eqb y "_" | None => false end in
                     let name := if wild then Some (if Nat.eqb wildcards 0 then "_" else "_" ++ decimal (N.of_nat wildcards))
                                 else option_map unraw x in
                     let? p := parameter name y in
                     let? ps := params (if wild then S wildcards else wildcards) r in
                     Some (p :: ps)
               end) 0 inputs in
          let? ret := match output with
                      | None | Some SNever => Some (void_type false)
                      | Some u => target false u
                      end in
          if is_array_type ret then None
          else Some (CPtr false (qualifiers c const nullable false)
                       (CFun params (fun_attributes c match output with Some SNever => true | _ => false end) ret))
    | SPath (SegPath _ ident args) =>
        let n := unraw ident in
        let wrapped u :=
          if no_size u then None
          else if String.eqb n "Option" then if nullable then None else rust_type const true u
          else if mem_str n ["NonNull"; "Box"] then
            let? x := rust_type false false u in Some (CPtr false (qualifiers c const nullable false) x)
          else if String.eqb n "NonZero" then
            match u with
            | SPath (SegPath _ i NoArgs) => let? words := lookup (unraw i) (rust_integers c) in Some (CName const None words [])
            | _ => None
            end
          else if mem_str n ["ManuallyDrop"; "Pin"] then rust_type const nullable u
          else if nullable then None else rust_type const false u in
        if mem_str n wrappers then match args with AngleArgs [ArgType u] => wrapped u | _ => None end
        else if nullable then
          match args with NoArgs => let? words := lookup n rust_nonzero in Some (CName const None words []) | _ => None end
        else match lookup n (rust_primitives c) with
             | Some words => match args with NoArgs => Some (CName const None words []) | _ => None end
             | None =>
                 let? xs := match args with
                            | NoArgs => Some []
                            | AngleArgs l =>
                                (fix arguments (l : list sgarg) : option (list ctype) :=
                                   match l with
                                   | [] => Some []
                                   | ArgLifetime :: r => arguments r
                                   | ArgType u :: r => if no_size u then None
                                                       else let? x := rust_type false false u in let? xs := arguments r in Some (x :: xs)
                                   | _ :: _ => None
                                   end) l
                            | ParenArgs => None
                            end in
                 if is_nil xs then named const (self_name n) []
                 else if cxx && negb (String.eqb n "Self") then named const n xs else None
             end
    | _ => None
    end.

  (** ** Functions *)
  (** [argument_name]: what becomes of the name of an argument *)
  Variable argument_name : string -> string.
  Definition rust_value (t : sty) : option ctype := rust_type false false t.
  Definition self_parameter (const_target : option bool) : option ctype :=
    let? s := self in
    match const_target with
    | Some k => let? x := named k s [] in Some (CPtr false (qualifiers c false false false) x)
    | None => named false s []
    end.
  Fixpoint rust_parameters (l : list sfnarg) (variadic : bool) : option (list (option string * ctype)) :=
    match l with
    | [] => Some (if variadic then [(None, CDots)] else [])
    | FnTyped p u :: r =>
        if no_size u then rust_parameters r variadic
        else
          let? name := match p with PatWild => Some None | PatIdent i => Some (Some (argument_name (unraw i))) | PatOther => None end in
          let? y := rust_value u in
          let? x := parameter name y in
          let? xs := rust_parameters r variadic in
          Some (x :: xs)
    | FnReceiver k :: r =>
        let? y := match k with
                  | RecvRef mutable => self_parameter (Some (negb mutable))
                  | RecvValue => self_parameter None
                  | RecvTyped (SRef _ _) | RecvOther => None
                  | RecvTyped u => if no_size u then None else rust_value u
                  end in
        let? x := parameter (Some (argument_name "self")) y in
        let? xs := rust_parameters r variadic in
        Some (x :: xs)
    end.
  Definition rust_result (o : option sty) : option ctype :=
    match o with
    | None | Some SNever => Some (void_type false)
    | Some u => if no_size u then Some (void_type false)
                else let? x := rust_value u in if is_array_type x then None else Some x
    end.
  Definition rust_function (sig : ssig) : option ctype :=
    let? params := rust_parameters (sg_inputs sig) (sg_variadic sig) in
    let? ret := rust_result (sg_output sig) in
    Some (CFun params (fun_attributes c match sg_output sig with Some SNever => true | _ => false end) ret).
End Rust.

(** ** In a library *)
(** The keyword in front of a name: in C, when tags are declared, the one it is defined with. *)
Definition keyword_in (l : Library) (p : string) : option DeclarationType :=
  if Language_eqb (language (l_config l)) M_Config.C && has_tag (style (l_config l)) then keyword_of l p else None.
(** What becomes of the name of an argument: the renaming asked for by the
    annotation or else by the configuration, and then a name C does not reserve. *)
Definition argument_name_in {H : Heck} (rules : RenameRule) (n : string) : string :=
  escape_str (match rules with RNone => n | r => RenameRule_apply r n FunctionArg end).
