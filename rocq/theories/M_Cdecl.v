(** Model of src/bindgen/cdecl.rs: C declarations of types and functions. *)
Require Import Coq.Strings.String Coq.Lists.List Coq.Bool.Bool.
From Verif Require Import Base M_Config M_Writer M_Type M_Ir.
Import ListNotations.
Open Scope string_scope.

(** cdecl.rs:18-30, 38-45.  The generic arguments are kept as the declarations
    that [write] (206-216, through [write_type] of the backend) builds for them:
    building has no effect besides its result. *)
Inductive CDeclarator :=
| CdPtr (is_const is_nullable is_ref : bool)
| CdArray (len : string)
| CdFunc (args : list (option string * CDecl)) (layout : Layout) (never_return : bool)
with CDecl :=
| Decl (type_qualifiers type_name : string) (type_generic_args : list CArg) (declarators : list CDeclarator)
    (type_ctype : option DeclarationType) (deprecated : option string)
with CArg :=
| CType (d : CDecl)
| CConst (text : string).

(** cdecl.rs:32-36 *)
Definition declarator_is_ptr (d : CDeclarator) : bool :=
  match d with CdPtr _ _ _ | CdFunc _ _ _ => true | CdArray _ => false end.

(** cdecl.rs:47-57 *)
Definition CDecl_new : CDecl := Decl "" "" [] [] None None.

Definition push_declarator (x : CDeclarator) (d : CDecl) : CDecl :=
  match d with Decl q n gs ds ct dep => Decl q n gs (ds ++ [x]) ct dep end.
Definition set_deprecated (x : option string) (d : CDecl) : CDecl :=
  match d with Decl q n gs ds ct _ => Decl q n gs ds ct x end.
(** cdecl.rs:111-117, 133-139: [None] is the failing assertion. *)
Definition qualify (is_const : bool) (d : CDecl) : option CDecl :=
  match d with
  | Decl q n gs ds ct dep =>
      if is_const then (if String.eqb q "" then Some (Decl "const" n gs ds ct dep) else None) else Some d
  end.

Section Build.
  Variable config : Config.

  (** cdecl.rs:109-188 *)
  Fixpoint build_type (d : CDecl) (t : Ty) (is_const : bool) : option CDecl :=
    match t with
    | TPath (GPath _ e gs ct) =>
        let? d1 := qualify is_const d in
        match d1 with
        | Decl q n gs0 ds _ dep =>
            if negb (String.eqb n "") then None
            else if negb (is_nil gs0) then None
            else
              let? args := map_opt (fun g => match g with
                                             | GType u => let? a := build_type CDecl_new u false in Some (CType a)
                                             | GConst x => Some (CConst (ConstExpr_as_str x))
                                             end) gs in
              Some (Decl q e args ds ct dep)
        end
    | TPrim p =>
        let? d1 := qualify is_const d in
        match d1 with
        | Decl q n gs0 ds ct dep =>
            if negb (String.eqb n "") then None else Some (Decl q (to_repr_c config p) gs0 ds ct dep)
        end
    | TPtr u ptr_is_const is_nullable is_ref =>
        build_type (push_declarator (CdPtr is_const is_nullable is_ref) d) u ptr_is_const
    | TArray u len => build_type (push_declarator (CdArray (ConstExpr_as_str len)) d) u is_const
    | TFuncPtr ret args _ never_return =>
        let? args' := map_opt (fun a => let? x := build_type CDecl_new (snd a) false in Some (fst a, x)) args in
        build_type (push_declarator (CdFunc args' (fn_args (function config)) never_return)
                     (push_declarator (CdPtr false true false) d)) ret false
    end.

  (** cdecl.rs:59-63 *)
  Definition from_type (t : Ty) : option CDecl := build_type CDecl_new t false.
  (** cdecl.rs:65-81 *)
  Definition from_func_arg (t : Ty) (array_length : option string) : option CDecl :=
    match array_length with
    | None => from_type t
    | Some l => match t with
                | TPtr u is_const _ _ => build_type CDecl_new (TArray u (EValue l)) is_const
                | _ => None
                end
    end.
  (** cdecl.rs:83-107 *)
  Definition from_func (f : Function) (layout : Layout) : option CDecl :=
    let? args := map_opt (fun a => let? x := from_func_arg (a_ty a) (a_array_length a) in Some (a_name a, x)) (f_args f) in
    build_type (set_deprecated (an_deprecated (f_annotations f)) (push_declarator (CdFunc args layout (f_never_return f)) CDecl_new))
      (f_ret f) false.

  Local Open Scope prog_scope.

  (** cdecl.rs:231-262: the declarators in reverse order, the next one looked at *)
  Definition write_pointer (is_const is_nullable is_ref : bool) : prog :=
    write (if is_ref then "&" else "*") ;;
    (if is_const then write "const " else PRet) ;;
    (if negb (Language_eqb (language config) Cython) then
       if negb is_nullable && negb is_ref then
         match pt_non_null_attribute (pointer config) with Some a => write (a ++ " ") | None => PRet end
       else if is_nullable then
         match pt_nullable_attribute (pointer config) with Some a => write (a ++ " ") | None => PRet end
       else PRet
     else PRet).
  Definition write_left1 (d : CDeclarator) (next_is_pointer : bool) : prog :=
    match d with
    | CdPtr k n r => write_pointer k n r
    | CdArray _ | CdFunc _ _ _ => if next_is_pointer then write "(" else PRet
    end.
  Fixpoint write_left (ds : list CDeclarator) : prog :=
    match ds with
    | [] => PRet
    | d :: r => write_left1 d (match r with x :: _ => declarator_is_ptr x | [] => false end) ;; write_left r
    end.

  (** cdecl.rs:303-336: the two ways of writing the arguments *)
  Fixpoint separated (sep : prog) (l : list prog) : prog :=
    match l with
    | [] => PRet
    | [x] => x
    | x :: r => x ;; sep ;; separated sep r
    end.
  Definition write_args_vertical (l : list prog) : prog :=
    PAlign (fun n => push_set_spaces n ;; separated (write "," ;; newline) l ;; pop).
  Definition write_args_horizontal (l : list prog) : prog := separated (write ", ") l.
  (** cdecl.rs:338-349 *)
  Definition write_args (layout : Layout) (l : list prog) : prog :=
    match layout with
    | Vertical => write_args_vertical l
    | Horizontal => write_args_horizontal l
    | Auto => PTry (write_args_horizontal l) (line_length config) (fun ok => if ok then PRet else write_args_vertical l)
    end.

  (** cdecl.rs:190-371 *)
  Fixpoint CDecl_write (d : CDecl) (ident : option string) : prog :=
    match d with
    | Decl q n gs ds ct _ =>
        (if negb (String.eqb q "") then write (q ++ " ") else PRet) ;;
        (if negb (Language_eqb (language config) Cython) then
           match ct with Some t => write (DeclarationType_to_str t ++ " ") | None => PRet end
         else PRet) ;;
        write n ;;
        (if negb (is_nil gs) then
           write "<" ;;
           write_horizontal_source_list (map (fun g => match g with CType a => CDecl_write a None | CConst s => write s end) gs)
             (Join ", ") (fun p => p) ;;
           write ">"
         else PRet) ;;
        match ident with Some _ => write " " | None => PRet end ;;
        write_left (rev ds) ;;
        match ident with Some x => write x | None => PRet end ;;
        (fix right (ds : list CDeclarator) (last_was_pointer : bool) : prog :=
           match ds with
           | [] => PRet
           | CdPtr _ _ _ :: r => right r true
           | CdArray len :: r =>
               (if last_was_pointer then write ")" else PRet) ;; write ("[" ++ len ++ "]") ;; right r false
           | CdFunc args layout never_return :: r =>
               (if last_was_pointer then write ")" else PRet) ;;
               write "(" ;;
               (if is_nil args && Language_eqb (language config) M_Config.C then write "void" else PRet) ;;
               write_args layout (map (fun a => CDecl_write (snd a) (fst a)) args) ;;
               write ")" ;;
               (if never_return && negb (Language_eqb (language config) Cython) then
                  match fn_no_return (function config) with Some a => write (" " ++ a) | None => PRet end
                else PRet) ;;
               right r true
           end) ds false
    end.

  (** cdecl.rs:374-382 *)
  Definition write_func (f : Function) (layout : Layout) : option prog :=
    let? d := from_func f layout in Some (CDecl_write d (Some (f_path f))).
  (** cdecl.rs:384-392 *)
  Definition write_field (t : Ty) (ident : string) : option prog :=
    let? d := from_type t in Some (CDecl_write d (Some ident)).
  (** cdecl.rs:394-401 *)
  Definition write_type (t : Ty) : option prog :=
    let? d := from_type t in Some (CDecl_write d None).
End Build.
