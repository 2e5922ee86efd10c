(** The layout of a written file: which declarations it holds, in which order,
    and what stands around them. *)
Require Import Coq.Strings.String Coq.Strings.Ascii Coq.Lists.List Coq.Bool.Bool.
From Verif Require Import Base M_Config M_Writer M_Type M_Ir M_Item M_Library M_Bindings M_Literal M_Backend.
Import ListNotations.
Open Scope string_scope.

Inductive declaration :=
| AConstant (k : Constant)
| AnItem (i : ItemContainer)
| AGlobal (g : Static)
| AFunction (f : Function).

(** Not annotated with [no-export]. *)
Definition kept (a : AnnotationSet) : bool :=
  match lookup "no-export" (an_values a) with Some (ABool true) => false | _ => true end.

(** A type that needs no declaration: built in, or a pointer to such *)
Definition needs_nothing (t : Ty) : bool :=
  match t with TPrim _ => true | TPtr u _ _ _ => match u with TPrim _ => true | _ => false end | _ => false end.
(** A value in which no struct is made and nothing is cast to another type *)
Fixpoint primitive_value (l : Literal) : bool :=
  match l with
  | LExpr _ | LPath _ _ => true
  | LUnary _ v | LField v _ => primitive_value v
  | LBin v _ w => primitive_value v && primitive_value w
  | LCast t v => needs_nothing t && primitive_value v
  | LArray vs => forallb primitive_value vs
  | LStruct _ _ _ => false
  end.
Definition primitive_constant (k : Constant) : bool := needs_nothing (c_ty k) && primitive_value (c_value k).

Section File.
  Context {H : Heck} (fuel : nat) (b : Bindings).
  Let c : Config := b_config b.
  Let le : string := LineEndingStyle_as_str (line_endings c).

  (** The declarations of the file in their order: constants of primitive types
      first, as other things may use them, then types, then other constants. *)
  Definition definitions : list declaration :=
    (map AConstant (filter primitive_constant (b_constants b))
     ++ map AnItem (filter (fun i => kept (item_annotations i)) (b_items b))
     ++ map AConstant (filter (fun k => negb (primitive_constant k)) (b_constants b)))%list.
  Definition symbols : list declaration :=
    (map AGlobal (filter (fun g => kept (g_annotations g)) (b_globals b))
     ++ map AFunction (filter (fun f => kept (f_annotations f)) (b_functions b)))%list.

  Definition write_declaration (d : declaration) : outcome prog :=
    match d with
    | AConstant k => Constant_write fuel b k None
    | AnItem i => write_item fuel b i
    | AGlobal g => write_static b g
    | AFunction f => write_function b f
    end.
  (** The text of a declaration by itself: written on a line of its own, at the
      indentation of the file's body, at the top of the file or further down. *)
  Definition place (top : bool) : writer :=
    {| w_out := ""; w_spaces := if Language_eqb (language c) Cython then [tab_width c; 0] else [0];
       w_started := false; w_len := 0; w_lineno := if top then 1 else 2; w_max := 0 |}.
  Definition text_alone (top : bool) (o : outcome prog) (t : string) : Prop :=
    exists p w, o = Done p /\ run (tab_width c) le p (place top) = Some w /\ w_out w = t.
  Definition alone (top : bool) (d : declaration) (t : string) : Prop := text_alone top (write_declaration d) t.

  (** [laid before ds ts after]: below [before], the declarations [ds] have the
      texts [ts], each on lines of its own, after an empty line unless nothing
      is above it; all together is [after]. *)
  Definition is_top (before : string) : bool := String.eqb before "".
  Definition gap (before : string) : string := if is_top before then "" else le.
  Inductive laid : string -> list declaration -> list string -> string -> Prop :=
  | laid_none before : laid before [] [] before
  | laid_one before d ds t ts after :
      alone (is_top before) d t -> laid (before ++ gap before ++ t ++ le) ds ts after -> laid before (d :: ds) (t :: ts) after.

  (** What surrounds functions and globals, when there are any. *)
  Definition any_symbol : bool := match b_functions b, b_globals b with [], [] => false | _, _ => true end.
  Definition extern_opening (before : string) : string :=
    if negb any_symbol then ""
    else match language c with
         | M_Config.C =>
             if cpp_compat c then
               gap before ++ "#ifdef __cplusplus" ++ le ++ "extern " ++ dquote ++ "C" ++ dquote ++ " {" ++ le ++ "#endif // __cplusplus" ++ le
             else ""
         | Cxx =>
             match using_namespaces c with
             | Some l => sconcat (map (fun n => le ++ "using namespace " ++ n ++ ";") l) ++ le
             | None => ""
             end ++ le ++ "extern " ++ dquote ++ "C" ++ dquote ++ " {" ++ le
         | Cython => ""
         end.
  Definition extern_closing : string :=
    if negb any_symbol then ""
    else match language c with
         | M_Config.C =>
             if cpp_compat c then
               le ++ "#ifdef __cplusplus" ++ le ++ "}  // extern " ++ dquote ++ "C" ++ dquote ++ le ++ "#endif  // __cplusplus" ++ le
             else ""
         | Cxx => le ++ "}  // extern " ++ dquote ++ "C" ++ dquote ++ le
         | Cython => ""
         end.
  (** A Cython block without declarations. *)
  Definition nothing_declared : bool :=
    match b_constants b, b_items b, b_globals b, b_functions b with [], [], [], [] => true | _, _, _, _ => false end.
  Definition cython_pass : string :=
    if Language_eqb (language c) Cython && nothing_declared then srepeat " " (tab_width c) ++ "pass" else "".

  (** The whole file between its head and its tail. *)
  Definition file (head : string) (defs syms : list string) (tail whole : string) : Prop :=
    exists upper lower,
      laid head definitions defs upper
      /\ laid (upper ++ extern_opening upper) symbols syms lower
      /\ whole = lower ++ extern_closing ++ cython_pass ++ tail.

  (** The same configuration without any declaration. *)
  Definition emptied : Bindings :=
    {| b_config := b_config b; b_struct_map := b_struct_map b; b_enum_map := b_enum_map b; b_typedef_map := b_typedef_map b;
       b_constants := []; b_globals := []; b_items := []; b_functions := [];
       b_source_files := b_source_files b; b_noop := b_noop b; b_package_version := b_package_version b |}.
End File.
