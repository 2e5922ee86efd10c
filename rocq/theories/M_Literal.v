(** Model of the writing of constants: src/bindgen/ir/constant.rs and
    write_literal in language_backend/clike.rs and cython.rs. *)
Require Import Coq.Strings.String Coq.Lists.List Coq.Bool.Bool Coq.Arith.Arith.
From Verif Require Import Base M_Config M_Writer M_Cfg M_Type M_Ir M_Item M_Library M_Cdecl M_Bindings M_Docs.
Import ListNotations.
Open Scope string_scope.

(** constant.rs:33-80 *)
Definition to_known_assoc_constant (associated_to name : string) : option string :=
  if negb (String.eqb name "MAX") && negb (String.eqb name "MIN") then None
  else
    let? prefix := match PrimitiveType_maybe associated_to with
                   | Some (PInteger _ signed B8) => Some (if signed then "INT8" else "UINT8")
                   | Some (PInteger _ signed B16) => Some (if signed then "INT16" else "UINT16")
                   | Some (PInteger _ signed B32) => Some (if signed then "INT32" else "UINT32")
                   | Some (PInteger _ signed B64) => Some (if signed then "INT64" else "UINT64")
                   | _ => None
                   end in
    Some (prefix ++ "_" ++ name).

(** [&&], [||] and [all] evaluate their right operand only when needed. *)
Definition and_then (a : outcome bool) (b : outcome bool) : outcome bool := do x := a in if x then b else Done false.
Definition or_else (a : outcome bool) (b : outcome bool) : outcome bool := do x := a in if x then Done true else b.
Definition all_of {A} (f : A -> outcome bool) : list A -> outcome bool :=
  fix go (l : list A) := match l with [] => Done true | x :: r => and_then (f x) (go r) end.
Definition of_option {A} (o : option A) : outcome A := match o with Some x => Done x | None => Panic end.
Definition is_some {A} (o : option A) : bool := match o with Some _ => true | None => false end.

Section Constants.
  (** [fuel]: steps for following typedefs, see [resolved_struct_path] *)
  Variables (fuel : nat) (b : Bindings).
  Let c : Config := b_config b.
  Local Open Scope prog_scope.

  (** constant.rs:197-222 *)
  Fixpoint is_valid (l : Literal) : outcome bool :=
    match l with
    | LExpr _ => Done true
    | LArray items => all_of is_valid items
    | LPath (Some (path, _)) name =>
        or_else (struct_exists fuel b path)
          (or_else (Done (enum_exists b path)) (Done (is_some (to_known_assoc_constant path name))))
    | LPath None _ => Done true
    | LUnary _ v => is_valid v
    | LBin x _ y => and_then (is_valid x) (is_valid y)
    | LField v _ => is_valid v
    | LStruct path _ _ => struct_exists fuel b path
    | LCast _ v => is_valid v
    end.

  (** the field order of bindings.rs:140-167, without the memo, which does not matter (see C29) *)
  Definition field_order (path : string) : outcome (list string) :=
    do r := struct_field_names fuel b [] path in Done (snd r).

  (** clike.rs:851-875, cython.rs:343-359 *)
  Definition write_path (separator : string) (associated_to : option (string * string)) (name : string) : prog :=
    match associated_to with
    | Some (path, export_name) =>
        match to_known_assoc_constant path name with
        | Some known => write known
        | None => match enum_variant_reference b path name with
                  | Some variant => write variant
                  | None => write (export_name ++ separator) ;; write name
                  end
        end
    | None => write name
    end.
  Definition path_separator : string :=
    if Language_eqb (language c) M_Config.C then "_"
    else if st_associated_constants_in_body (structure c) then "::" else "_".

  (** clike.rs:905-909 *)
  Definition literal_is_constexpr (l : Literal) : bool :=
    Language_eqb (language c) Cxx
    && (co_allow_static_const (constant c) || (co_allow_constexpr (constant c) && can_be_constexpr l)).

  (** clike.rs:925-957: the fields in the order of the struct; [i] is the position, [n] the number of all fields *)
  Fixpoint clike_fields (constexpr : bool) (fields : list (string * (outcome prog * option Cfg))) (order : list string) (i n : nat) : outcome prog :=
    match order with
    | [] => Done PRet
    | key :: r =>
        match lookup key fields with
        | None => clike_fields constexpr fields r (S i) n
        | Some (value, cfg) =>
            do v := value in
            do rest := clike_fields constexpr fields r (S i) n in
            let condition := to_condition_opt (defines c) cfg in
            let comment := write ("/* ." ++ key ++ " = */ ") in
            Done ((if constexpr then
                     newline ;; write_before c condition ;; comment ;; v ;;
                     (if Nat.eqb (i + 1) n then PRet else write ",") ;;
                     write_after c condition
                   else
                     (if Nat.ltb 0 i then write ", " else PRet) ;;
                     (if Language_eqb (language c) Cxx then comment else write ("." ++ key ++ " = ")) ;;
                     v) ;; rest)
        end
    end.

  (** items, each followed by a comma *)
  Definition array_items (f : Literal -> outcome prog) : list Literal -> outcome prog :=
    fix go (l : list Literal) :=
      match l with
      | [] => Done PRet
      | x :: r => do p := f x in do q := go r in Done (p ;; write ", " ;; q)
      end.

  (** clike.rs:840-964 *)
  Fixpoint clike_write_literal (l : Literal) : outcome prog :=
    match l with
    | LExpr v => Done (write v)
    | LArray items => do p := array_items clike_write_literal items in Done (write "{ " ;; p ;; write "}")
    | LPath a name => Done (write_path path_separator a name)
    | LField v field => do p := clike_write_literal v in Done (write "(" ;; p ;; write (")." ++ field))
    | LUnary op v => do p := clike_write_literal v in Done (write op ;; p)
    | LBin x op y =>
        do p := clike_write_literal x in
        do q := clike_write_literal y in
        Done (write "(" ;; p ;; write (" " ++ op ++ " ") ;; q ;; write ")")
    | LCast ty v =>
        do t := of_option (write_type c ty) in
        do p := clike_write_literal v in
        Done (write "(" ;; t ;; write ")" ;; p)
    | LStruct path export_name fields =>
        let constexpr := literal_is_constexpr l in
        let values := map (fun f => (fst f, (clike_write_literal (fst (snd f)), snd (snd f)))) fields in
        do order := field_order path in
        do p := clike_fields constexpr values order 0 (length order) in
        Done (write (if Language_eqb (language c) M_Config.C then "(" ++ export_name ++ ")" else export_name) ;;
              write "{" ;;
              (if constexpr then push_tab_ else write " ") ;;
              p ;;
              (if constexpr then pop ;; newline else write " ") ;;
              write "}")
    end.

  (** cython.rs:402-416 *)
  Fixpoint cython_fields (fields : list (string * outcome prog)) (order : list string) (first : bool) : outcome prog :=
    match order with
    | [] => Done PRet
    | key :: r =>
        match lookup key fields with
        | None => cython_fields fields r first
        | Some value =>
            do v := value in
            do rest := cython_fields fields r false in
            Done ((if first then PRet else write ", ") ;; v ;; rest)
        end
    end.
  (** cython.rs:336-419 *)
  Fixpoint cython_write_literal (l : Literal) : outcome prog :=
    match l with
    | LExpr v => Done (write (if String.eqb v "true" then "True" else if String.eqb v "false" then "False" else v))
    | LPath a name => Done (write_path "_" a name)
    | LField v field => do p := cython_write_literal v in Done (write "(" ;; p ;; write (")." ++ field))
    | LUnary op v => do p := cython_write_literal v in Done (write op ;; p)
    | LBin x op y =>
        do p := cython_write_literal x in
        do q := cython_write_literal y in
        Done (write "(" ;; p ;; write (" " ++ op ++ " ") ;; q ;; write ")")
    | LCast ty v =>
        do t := of_option (write_type c ty) in
        do p := cython_write_literal v in
        Done (write "<" ;; t ;; write ">" ;; p)
    | LArray items => do p := array_items cython_write_literal items in Done (write "[ " ;; p ;; write "]")
    | LStruct path export_name fields =>
        do order := field_order path in
        do p := cython_fields (map (fun f => (fst f, cython_write_literal (fst (snd f)))) fields) order true in
        Done (write ("<" ++ export_name ++ ">") ;; write "{ " ;; p ;; write " }")
    end.

  Definition write_literal (l : Literal) : outcome prog :=
    match language c with Cython => cython_write_literal l | _ => clike_write_literal l end.

  (** constant.rs:676-706; the debug assertions always hold where it is called (structure.rs) *)
  Definition is_const_ptr (t : Ty) : bool := match t with TPtr _ true _ _ => true | _ => false end.
  Definition Constant_write_declaration (k : Constant) : option prog :=
    let? f := write_field c (c_ty k) (c_export_name k) in
    let condition := to_condition_opt (defines c) (c_cfg k) in
    Some (write_before c condition ;; write (if is_const_ptr (c_ty k) then "static " else "static const ") ;;
          f ;; write ";" ;; write_after c condition).

  (** constant.rs:775-781: a struct literal without fields panics; with several
      the first in hash order is taken *)
  Fixpoint unwrap_transparent (l : Literal) : option Literal :=
    match l with
    | LStruct path _ fields =>
        if struct_is_transparent b path then
          match fields with
          | (_, (v, _)) :: _ => unwrap_transparent v
          | [] => None
          end
        else Some l
    | _ => Some l
    end.

  (** constant.rs:728-734 *)
  Definition constant_in_body (s : option Struct) : bool :=
    match s with
    | Some s => Language_eqb (language c) Cxx && st_associated_constants_in_body (structure c)
                && co_allow_static_const (constant c) && negb (s_is_transparent s)
    | None => false
    end.
  (** constant.rs:739-773; an annotation that is no rename rule panics *)
  Definition constant_name {H : Heck} (k : Constant) (s : option Struct) : option string :=
    match s, constant_in_body s with
    | Some st, true => Some (s_export_name st ++ "::" ++ c_export_name k)
    | _, _ =>
        match c_associated_to k with
        | None => Some (c_export_name k)
        | Some a =>
            let? n := match s with
                      | Some st =>
                          let? r := rule_or (s_annotations st) "rename-associated-constant" (st_rename_associated_constant (structure c)) in
                          Some (RenameRule_apply r (s_export_name st) IType)
                      | None => Some (export_rename (export c) a)
                      end in
            Some (n ++ "_" ++ c_export_name k)
        end
    end.

  (** constant.rs:708-817 *)
  Definition Constant_write {H : Heck} (k : Constant) (s : option Struct) : outcome prog :=
    if match s with Some st => negb (is_nil (s_generic_params st)) | None => false end then Done PRet
    else
      do valid := is_valid (c_value k) in
      if negb valid then Done PRet
      else
        do name := of_option (constant_name k s) in
        do value := of_option (unwrap_transparent (c_value k)) in
        do text := write_literal value in
        let condition := to_condition_opt (defines c) (c_cfg k) in
        let allow_constexpr := co_allow_constexpr (constant c) && can_be_constexpr (c_value k) in
        let a_macro := Language_eqb (language c) M_Config.C
                       || Language_eqb (language c) Cxx && negb (co_allow_static_const (constant c) || allow_constexpr) in
        do declared := if a_macro then Done PRet else of_option (write_field c (c_ty k) name) in
        let const_ := if is_const_ptr (c_ty k) then PRet else write "const " in
        Done (write_before c condition ;;
              write_documentation c (c_documentation k) ;;
              (if a_macro then write ("#define " ++ name ++ " ") ;; text
               else if Language_eqb (language c) Cython then write "const " ;; declared ;; write " # = " ;; text
               else (if allow_constexpr then write "constexpr " else PRet) ;;
                    (if co_allow_static_const (constant c) then write (if constant_in_body s then "inline " else "static ") else PRet) ;;
                    const_ ;; declared ;; write " = " ;; text ;; write ";") ;;
              write_after c condition).
End Constants.
