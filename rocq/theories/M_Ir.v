(** Model of the intermediate representation: src/bindgen/ir/{annotation,
    documentation,field,constant,structure,union,enumeration,typedef,opaque,
    function,global}.rs, without parsing (see M_Parse) and without writing.

    A function that may panic returns an [option]; [None] is the panic. *)
Require Import Coq.Strings.String Coq.Strings.Ascii Coq.Lists.List Coq.Bool.Bool Coq.Arith.Arith NArith.
From Verif Require Import Base M_Config M_Reserved M_Cfg M_Type.
Import ListNotations.
Open Scope string_scope.

Notation "'let?' x := e 'in' k" := (match e with Some x => k | None => None end)
  (at level 200, x pattern, right associativity).

(** [Iterator::map] followed by [collect] when the function may panic. *)
Definition map_opt {A B} (f : A -> option B) : list A -> option (list B) :=
  fix go (l : list A) : option (list B) :=
    match l with
    | [] => Some []
    | x :: r => let? y := f x in let? ys := go r in Some (y :: ys)
    end.

(** ** annotation.rs *)

(** annotation.rs:27-32 *)
Inductive AnnotationValue := AList (l : list string) | AAtom (a : option string) | ABool (b : bool).

(** annotation.rs:35-40; the hash map is an association list, used only for
    lookup, in which the first entry for a key counts. *)
Record AnnotationSet := {
  an_values : list (string * AnnotationValue);
  an_must_use : bool;
  an_deprecated : option string
}.

(** annotation.rs:50-56 *)
Definition AnnotationSet_new : AnnotationSet := {| an_values := []; an_must_use := false; an_deprecated := None |}.
(** annotation.rs:58-60: a deprecation note does not count. *)
Definition an_is_empty (a : AnnotationSet) : bool :=
  match an_values a with [] => true | _ => false end && negb (an_must_use a).
(** annotation.rs:178-195 *)
Definition an_list (a : AnnotationSet) (name : string) : option (list string) :=
  match lookup name (an_values a) with Some (AList x) => Some x | _ => None end.
Definition an_atom (a : AnnotationSet) (name : string) : option (option string) :=
  match lookup name (an_values a) with Some (AAtom x) => Some x | _ => None end.
Definition an_bool (a : AnnotationSet) (name : string) : option bool :=
  match lookup name (an_values a) with Some (ABool x) => Some x | _ => None end.
(** annotation.rs:66-68 *)
Definition should_export (a : AnnotationSet) : bool :=
  negb (match an_bool a "no-export" with Some b => b | None => false end).
(** annotation.rs:172-176 *)
Definition add_default (a : AnnotationSet) (name : string) (v : AnnotationValue) : AnnotationSet :=
  match lookup name (an_values a) with
  | Some _ => a
  | None => {| an_values := (name, v) :: an_values a; an_must_use := an_must_use a; an_deprecated := an_deprecated a |}
  end.
(** annotation.rs:197-208 at type RenameRule: an atom that is not a rule panics. *)
Definition parse_atom_rule (a : AnnotationSet) (name : string) : option (option RenameRule) :=
  match lookup name (an_values a) with
  | Some (AAtom None) => Some (Some RNone)
  | Some (AAtom (Some y)) => let? r := RenameRule_from_str y in Some (Some r)
  | _ => Some None
  end.
(** The recurring [parse_atom(..).unwrap_or(&config..)]. *)
Definition rule_or (a : AnnotationSet) (name : string) (dflt : RenameRule) : option RenameRule :=
  let? r := parse_atom_rule a name in Some (match r with Some x => x | None => dflt end).

(** documentation.rs:7-10 *)
Definition Documentation := list string.

(** ** repr.rs:8-42 *)
Inductive ReprStyle := ReprRust | ReprC | ReprTransparent.
Definition ReprStyle_eqb (a b : ReprStyle) : bool :=
  match a, b with ReprRust, ReprRust | ReprC, ReprC | ReprTransparent, ReprTransparent => true | _, _ => false end.
Record ReprType := { rt_kind : IntKind; rt_signed : bool }.
Inductive ReprAlign := Packed | Align (n : N).
Record Repr := { rp_style : ReprStyle; rp_ty : option ReprType; rp_align : option ReprAlign }.
Definition Repr_default : Repr := {| rp_style := ReprRust; rp_ty := None; rp_align := None |}.

(** ** field.rs:6-13 *)
Record Field := {
  fd_name : string;
  fd_ty : Ty;
  fd_cfg : option Cfg;
  fd_annotations : AnnotationSet;
  fd_documentation : Documentation
}.
(** field.rs:16-24 *)
Definition from_name_and_type (name : string) (ty : Ty) : Field :=
  {| fd_name := name; fd_ty := ty; fd_cfg := None; fd_annotations := AnnotationSet_new; fd_documentation := [] |}.
Definition set_fd_name (n : string) (f : Field) : Field :=
  {| fd_name := n; fd_ty := fd_ty f; fd_cfg := fd_cfg f; fd_annotations := fd_annotations f;
     fd_documentation := fd_documentation f |}.
Definition set_fd_ty (t : Ty) (f : Field) : Field :=
  {| fd_name := fd_name f; fd_ty := t; fd_cfg := fd_cfg f; fd_annotations := fd_annotations f;
     fd_documentation := fd_documentation f |}.
Definition map_fd_ty (g : Ty -> Ty) (f : Field) : Field := set_fd_ty (g (fd_ty f)) f.

(** ** constant.rs *)

(** constant.rs:82-120.  The fields of a struct literal are a hash map: the
    list is in its iteration order, which is unspecified. *)
Inductive Literal :=
| LExpr (s : string)
| LPath (associated_to : option (string * string)) (name : string)
| LUnary (op : string) (value : Literal)
| LBin (left : Literal) (op : string) (right : Literal)
| LField (base : Literal) (field : string)
| LStruct (path export_name : string) (fields : list (string * (Literal * option Cfg)))
| LCast (ty : Ty) (value : Literal)
| LArray (items : list Literal).

(** constant.rs:228-257: the literals [visit] passes to the visitor, when the
    visitor always asks to continue, in order. *)
Fixpoint Literal_visited (l : Literal) : list Literal :=
  l :: match l with
       | LExpr _ | LPath _ _ => []
       | LUnary _ v => Literal_visited v
       | LBin a _ b => Literal_visited a ++ Literal_visited b
       | LArray items => concat (map Literal_visited items)
       | LField b _ => Literal_visited b
       | LStruct _ _ fields => concat (map (fun f => Literal_visited (fst (snd f))) fields)
       | LCast _ v => Literal_visited v
       end.

(** constant.rs:123-141: the paths passed to [Dependencies::add], in order. *)
Definition Literal_deps (l : Literal) : list string :=
  concat (map (fun x => match x with
                        | LStruct p _ _ => [p]
                        | LPath (Some (p, _)) _ => [p]
                        | _ => []
                        end) (Literal_visited l)).

(** constant.rs:143-197 *)
Fixpoint Literal_replace_self_with (self_ty : string) (l : Literal) : Literal :=
  match l with
  | LExpr s => LExpr s
  | LPath (Some (p, e)) n => if String.eqb p "Self" then LPath (Some (self_ty, self_ty)) n else l
  | LPath None n => LPath None n
  | LUnary op v => LUnary op (Literal_replace_self_with self_ty v)
  | LBin a op b => LBin (Literal_replace_self_with self_ty a) op (Literal_replace_self_with self_ty b)
  | LField b f => LField (Literal_replace_self_with self_ty b) f
  | LStruct p e fields =>
      let fields' := map (fun f => (fst f, (Literal_replace_self_with self_ty (fst (snd f)), snd (snd f)))) fields in
      if String.eqb p "Self" then LStruct self_ty self_ty fields' else LStruct p e fields'
  | LCast ty v => LCast (replace_self_with self_ty ty) (Literal_replace_self_with self_ty v)
  | LArray items => LArray (map (Literal_replace_self_with self_ty) items)
  end.

(** constant.rs:224-226, 259-268.  The visitor stops at the first pointer
    cast; stopping does not change the result. *)
Definition has_pointer_casts (l : Literal) : bool :=
  existsb (fun x => match x with LCast ty _ => is_ptr ty | _ => false end) (Literal_visited l).
Definition can_be_constexpr (l : Literal) : bool := negb (has_pointer_casts l).
(** constant.rs:270-284 *)
Definition Literal_uses_only_primitive_types (l : Literal) : bool :=
  forallb (fun x => match x with
                    | LStruct _ _ _ => false
                    | LCast ty _ => is_primitive_or_ptr_primitive ty
                    | _ => true
                    end) (Literal_visited l).

(** constant.rs:288-340 *)
Fixpoint Literal_rename_for_config (ex : ExportConfig) (l : Literal) : Literal :=
  match l with
  | LStruct p e fields =>
      LStruct p (export_rename ex e)
        (map (fun f => (fst f, (Literal_rename_for_config ex (fst (snd f)), snd (snd f)))) fields)
  | LField b f => LField (Literal_rename_for_config ex b) f
  | LPath (Some (p, e)) n => LPath (Some (p, export_rename ex e)) n
  | LPath None n => LPath None (export_rename ex n)
  | LUnary op v => LUnary op (Literal_rename_for_config ex v)
  | LBin a op b => LBin (Literal_rename_for_config ex a) op (Literal_rename_for_config ex b)
  | LArray items => LArray (map (Literal_rename_for_config ex) items)
  | LExpr s => LExpr s
  | LCast ty v => LCast (Type_rename_for_config ex [] ty) (Literal_rename_for_config ex v)
  end.

(** constant.rs:544-554 *)
Record Constant := {
  c_path : string;
  c_export_name : string;
  c_ty : Ty;
  c_value : Literal;
  c_cfg : option Cfg;
  c_annotations : AnnotationSet;
  c_documentation : Documentation;
  c_associated_to : option string
}.

(** [str::strip_suffix] *)
Definition strip_suffix (s suf : string) : option string :=
  if starts_with (srev suf) (srev s) then Some (srev (sdrop (String.length suf) (srev s))) else None.

(** constant.rs:591-619; the panic is the [unwrap] of a failed [strip_suffix]. *)
Definition Constant_new (path : string) (ty : Ty) (value : Literal) (cfg : option Cfg)
  (ann : AnnotationSet) (doc : Documentation) (assoc : option string) : option Constant :=
  let? export := match assoc with Some a => strip_suffix path a | None => Some path end in
  Some {| c_path := path; c_export_name := export; c_ty := ty; c_value := value; c_cfg := cfg;
          c_annotations := ann; c_documentation := doc; c_associated_to := assoc |}.

(** constant.rs:621-624 *)
Definition Constant_uses_only_primitive_types (c : Constant) : bool :=
  Literal_uses_only_primitive_types (c_value c) && is_primitive_or_ptr_primitive (c_ty c).

(** constant.rs:660-666 *)
Definition Constant_rename_for_config (ex : ExportConfig) (c : Constant) : Constant :=
  {| c_path := c_path c;
     c_export_name := match c_associated_to c with None => export_rename ex (c_export_name c) | Some _ => c_export_name c end;
     c_ty := Type_rename_for_config ex [] (c_ty c);
     c_value := Literal_rename_for_config ex (c_value c);
     c_cfg := c_cfg c; c_annotations := c_annotations c; c_documentation := c_documentation c;
     c_associated_to := c_associated_to c |}.

(** ** Dependencies of types: ty.rs:682-720.  The paths passed to
    [Dependencies::add], in order.  Constants inside types are not visited. *)
Fixpoint Type_deps (params : GenericParams) (t : Ty) : list string :=
  match t with
  | TPtr ty _ _ _ => Type_deps params ty
  | TPath (GPath p _ gs _) =>
      concat (map (fun g => match g with GType u => Type_deps params u | GConst _ => [] end) gs)
      ++ (if is_generic_param params p then [] else [p])
  | TPrim _ => []
  | TArray ty _ => Type_deps params ty
  | TFuncPtr ret args _ _ => Type_deps params ret ++ concat (map (fun a => Type_deps params (snd a)) args)
  end.

(** constant.rs:631-634 *)
Definition Constant_deps (c : Constant) : list string := Type_deps [] (c_ty c) ++ Literal_deps (c_value c).

(** ** structure.rs *)

(** structure.rs:25-42 *)
Record Struct := {
  s_path : string;
  s_export_name : string;
  s_generic_params : GenericParams;
  s_fields : list Field;
  s_has_tag_field : bool;
  s_is_enum_variant_body : bool;
  s_alignment : option ReprAlign;
  s_is_transparent : bool;
  s_cfg : option Cfg;
  s_annotations : AnnotationSet;
  s_documentation : Documentation;
  s_associated_constants : list Constant
}.

Definition is_nil {A} (l : list A) : bool := match l with [] => true | _ => false end.

(** structure.rs:118-161 *)
Definition Struct_new (path : string) (gps : GenericParams) (fields : list Field) (has_tag is_body : bool)
  (al : option ReprAlign) (transparent : bool) (cfg : option Cfg) (ann : AnnotationSet) (doc : Documentation) : Struct :=
  {| s_path := path; s_export_name := path; s_generic_params := gps; s_fields := fields;
     s_has_tag_field := has_tag; s_is_enum_variant_body := is_body; s_alignment := al;
     s_is_transparent := if is_nil fields then false else transparent;
     s_cfg := cfg; s_annotations := ann; s_documentation := doc; s_associated_constants := [] |}.

(** structure.rs:45-47 *)
Definition Struct_can_derive_eq (s : Struct) : bool :=
  negb (is_nil (s_fields s)) && forallb (fun f => can_cmp_eq (fd_ty f)) (s_fields s).

(** structure.rs:49-51 *)
Definition add_associated_constant (c : Constant) (s : Struct) : Struct :=
  {| s_path := s_path s; s_export_name := s_export_name s; s_generic_params := s_generic_params s;
     s_fields := s_fields s; s_has_tag_field := s_has_tag_field s;
     s_is_enum_variant_body := s_is_enum_variant_body s; s_alignment := s_alignment s;
     s_is_transparent := s_is_transparent s; s_cfg := s_cfg s; s_annotations := s_annotations s;
     s_documentation := s_documentation s; s_associated_constants := s_associated_constants s ++ [c] |}.

Definition set_s_fields (fs : list Field) (s : Struct) : Struct :=
  {| s_path := s_path s; s_export_name := s_export_name s; s_generic_params := s_generic_params s;
     s_fields := fs; s_has_tag_field := s_has_tag_field s;
     s_is_enum_variant_body := s_is_enum_variant_body s; s_alignment := s_alignment s;
     s_is_transparent := s_is_transparent s; s_cfg := s_cfg s; s_annotations := s_annotations s;
     s_documentation := s_documentation s; s_associated_constants := s_associated_constants s |}.
Definition set_s_export_name (e : string) (s : Struct) : Struct :=
  {| s_path := s_path s; s_export_name := e; s_generic_params := s_generic_params s;
     s_fields := s_fields s; s_has_tag_field := s_has_tag_field s;
     s_is_enum_variant_body := s_is_enum_variant_body s; s_alignment := s_alignment s;
     s_is_transparent := s_is_transparent s; s_cfg := s_cfg s; s_annotations := s_annotations s;
     s_documentation := s_documentation s; s_associated_constants := s_associated_constants s |}.
Definition set_s_annotations (a : AnnotationSet) (s : Struct) : Struct :=
  {| s_path := s_path s; s_export_name := s_export_name s; s_generic_params := s_generic_params s;
     s_fields := s_fields s; s_has_tag_field := s_has_tag_field s;
     s_is_enum_variant_body := s_is_enum_variant_body s; s_alignment := s_alignment s;
     s_is_transparent := s_is_transparent s; s_cfg := s_cfg s; s_annotations := a;
     s_documentation := s_documentation s; s_associated_constants := s_associated_constants s |}.
Definition set_s_constants (cs : list Constant) (s : Struct) : Struct :=
  {| s_path := s_path s; s_export_name := s_export_name s; s_generic_params := s_generic_params s;
     s_fields := s_fields s; s_has_tag_field := s_has_tag_field s;
     s_is_enum_variant_body := s_is_enum_variant_body s; s_alignment := s_alignment s;
     s_is_transparent := s_is_transparent s; s_cfg := s_cfg s; s_annotations := s_annotations s;
     s_documentation := s_documentation s; s_associated_constants := cs |}.

Definition map_s_types (g : Ty -> Ty) (s : Struct) : Struct := set_s_fields (map (map_fd_ty g) (s_fields s)) s.

(** structure.rs:163-167 *)
Definition Struct_simplify (lang : Language) : Struct -> Struct := map_s_types (simplify_standard_types lang).

(** typedef.rs:22-31 *)
Record Typedef := {
  t_path : string;
  t_export_name : string;
  t_generic_params : GenericParams;
  t_aliased : Ty;
  t_cfg : option Cfg;
  t_annotations : AnnotationSet;
  t_documentation : Documentation
}.
(** typedef.rs:49-67 *)
Definition Typedef_new (path : string) (gps : GenericParams) (aliased : Ty) (cfg : option Cfg)
  (ann : AnnotationSet) (doc : Documentation) : Typedef :=
  {| t_path := path; t_export_name := path; t_generic_params := gps; t_aliased := aliased; t_cfg := cfg;
     t_annotations := ann; t_documentation := doc |}.
(** typedef.rs:74-84 *)
Definition new_from_struct_field (s : Struct) (f : Field) : Typedef :=
  {| t_path := s_path s; t_export_name := s_export_name s; t_generic_params := s_generic_params s;
     t_aliased := fd_ty f; t_cfg := s_cfg s; t_annotations := s_annotations s; t_documentation := s_documentation s |}.
(** structure.rs:170-175 *)
Definition as_typedef (s : Struct) : option Typedef :=
  match s_fields s with
  | f :: _ => if s_is_transparent s then Some (new_from_struct_field s f) else None
  | [] => None
  end.

(** structure.rs:195-223.  The associated constants are not copied. *)
Definition Struct_specialize {H : Heck} (values : list GenericArgument) (ms : mappings) (ex : ExportConfig) (s : Struct) : Struct :=
  Struct_new (mangle_path (s_path s) values (ex_mangle ex)) [] (map (map_fd_ty (Type_specialize ms)) (s_fields s))
    (s_has_tag_field s) (s_is_enum_variant_body s) (s_alignment s) (s_is_transparent s) (s_cfg s)
    (s_annotations s) (s_documentation s).

(** declarationtyperesolver.rs:32-52; a new entry goes to the end so that the
    first one for a key counts. *)
Definition resolver_insert (path : string) (ty : option DeclarationType) (r : DeclarationTypeResolver) : DeclarationTypeResolver :=
  match lookup path r with Some _ => r | None => (r ++ [(path, ty)])%list end.

(** structure.rs:297-303 *)
Definition Struct_collect (s : Struct) : DeclarationTypeResolver -> DeclarationTypeResolver :=
  resolver_insert (s_path s) (if s_is_transparent s then None else Some DStruct).
(** structure.rs:305-309 *)
Definition Struct_resolve (r : DeclarationTypeResolver) : Struct -> Struct := map_s_types (Type_resolve_declaration_types r).

(** [char::is_ascii_digit] on the first character. *)
Definition starts_with_digit (s : string) : bool :=
  match s with
  | String a _ => let n := nat_of_ascii a in Nat.leb 48 n && Nat.leb n 57
  | "" => false
  end.

(** structure.rs:344-345: [zip] stops at the shorter list, the fields beyond keep their names. *)
Fixpoint zip_names (fs : list Field) (names : list string) : list Field :=
  match fs, names with
  | f :: fs', n :: ns => set_fd_name n f :: zip_names fs' ns
  | _, _ => fs
  end.

(** structure.rs:337-361 *)
Definition Struct_rename_fields {H : Heck} (c : Config) (ann : AnnotationSet) (fs : list Field) : option (list Field) :=
  let? rules := rule_or ann "rename-all" (st_rename_fields (structure c)) in
  Some (match an_list ann "field-names" with
        | Some o => zip_names fs o
        | None =>
            match not_none rules with
            | Some r => map (fun f => set_fd_name (RenameRule_apply r (fd_name f) StructMember) f) fs
            | None => map (fun f => if starts_with_digit (fd_name f) then set_fd_name ("_" ++ fd_name f) f else f) fs
            end
        end).

Definition escape_field (f : Field) : Field := set_fd_name (escape_str (fd_name f)) f.

(** structure.rs:319-323: the first field is skipped when it is the tag. *)
Definition rename_field_types (ex : ExportConfig) (gps : GenericParams) (skip_tag : bool) (fs : list Field) : list Field :=
  match fs with
  | f :: r => (if skip_tag then f else map_fd_ty (Type_rename_for_config ex gps) f)
              :: map (map_fd_ty (Type_rename_for_config ex gps)) r
  | [] => []
  end.

(** structure.rs:315-373 *)
Definition Struct_rename_for_config {H : Heck} (c : Config) (s : Struct) : option Struct :=
  let ex := export c in
  let e := if s_has_tag_field s && Language_eqb (language c) Cxx then s_export_name s
           else export_rename ex (s_export_name s) in
  let? fs := Struct_rename_fields c (s_annotations s)
               (rename_field_types ex (s_generic_params s) (s_has_tag_field s) (s_fields s)) in
  Some (set_s_constants (map (Constant_rename_for_config ex) (s_associated_constants s))
         (set_s_export_name e (set_s_fields (map escape_field fs) s))).

(** structure.rs:375-391 *)
Definition fields_deps (gps : GenericParams) (fs : list Field) : list string :=
  concat (map (fun f => Type_deps gps (fd_ty f)) fs).
Definition Struct_deps (s : Struct) : list string :=
  (fields_deps (s_generic_params s) (if s_has_tag_field s then tl (s_fields s) else s_fields s)
  ++ concat (map Constant_deps (s_associated_constants s)))%list.

(** ** union.rs *)

(** union.rs:20-31 *)
Record Union := {
  u_path : string;
  u_export_name : string;
  u_generic_params : GenericParams;
  u_fields : list Field;
  u_tuple_union : bool;
  u_alignment : option ReprAlign;
  u_cfg : option Cfg;
  u_annotations : AnnotationSet;
  u_documentation : Documentation
}.
(** union.rs:73-95 *)
Definition Union_new (path : string) (gps : GenericParams) (fields : list Field) (al : option ReprAlign)
  (tuple : bool) (cfg : option Cfg) (ann : AnnotationSet) (doc : Documentation) : Union :=
  {| u_path := path; u_export_name := path; u_generic_params := gps; u_fields := fields; u_tuple_union := tuple;
     u_alignment := al; u_cfg := cfg; u_annotations := ann; u_documentation := doc |}.
Definition set_u_fields (fs : list Field) (u : Union) : Union :=
  {| u_path := u_path u; u_export_name := u_export_name u; u_generic_params := u_generic_params u; u_fields := fs;
     u_tuple_union := u_tuple_union u; u_alignment := u_alignment u; u_cfg := u_cfg u;
     u_annotations := u_annotations u; u_documentation := u_documentation u |}.
Definition set_u_export_name (e : string) (u : Union) : Union :=
  {| u_path := u_path u; u_export_name := e; u_generic_params := u_generic_params u; u_fields := u_fields u;
     u_tuple_union := u_tuple_union u; u_alignment := u_alignment u; u_cfg := u_cfg u;
     u_annotations := u_annotations u; u_documentation := u_documentation u |}.
Definition set_u_annotations (a : AnnotationSet) (u : Union) : Union :=
  {| u_path := u_path u; u_export_name := u_export_name u; u_generic_params := u_generic_params u; u_fields := u_fields u;
     u_tuple_union := u_tuple_union u; u_alignment := u_alignment u; u_cfg := u_cfg u;
     u_annotations := a; u_documentation := u_documentation u |}.
Definition map_u_types (g : Ty -> Ty) (u : Union) : Union := set_u_fields (map (map_fd_ty g) (u_fields u)) u.
(** union.rs:97-101 *)
Definition Union_simplify (lang : Language) : Union -> Union := map_u_types (simplify_standard_types lang).
(** union.rs:151-153 *)
Definition Union_collect (u : Union) : DeclarationTypeResolver -> DeclarationTypeResolver :=
  resolver_insert (u_path u) (Some DUnion).
(** union.rs:155-159 *)
Definition Union_resolve (r : DeclarationTypeResolver) : Union -> Union := map_u_types (Type_resolve_declaration_types r).
(** union.rs:165-213.  Field names are not escaped. *)
Definition Union_rename_for_config {H : Heck} (c : Config) (u : Union) : option Union :=
  let ex := export c in
  let fs := map (map_fd_ty (Type_rename_for_config ex (u_generic_params u))) (u_fields u) in
  let? rules := rule_or (u_annotations u) "rename-all" (st_rename_fields (structure c)) in
  let fs' := match an_list (u_annotations u) "field-names" with
             | Some o => zip_names fs o
             | None =>
                 match not_none rules with
                 | Some r => map (fun f => set_fd_name (RenameRule_apply r (fd_name f) StructMember) f) fs
                 | None => if u_tuple_union u then map (fun f => set_fd_name ("_" ++ fd_name f) f) fs else fs
                 end
             end in
  Some (set_u_export_name (export_rename ex (u_export_name u)) (set_u_fields fs' u)).
(** union.rs:215-221 *)
Definition Union_deps (u : Union) : list string := fields_deps (u_generic_params u) (u_fields u).
(** union.rs:223-260, the monomorph *)
Definition Union_specialize {H : Heck} (values : list GenericArgument) (ms : mappings) (ex : ExportConfig) (u : Union) : Union :=
  Union_new (mangle_path (u_path u) values (ex_mangle ex)) [] (map (map_fd_ty (Type_specialize ms)) (u_fields u))
    (u_alignment u) (u_tuple_union u) (u_cfg u) (u_annotations u) (u_documentation u).

(** ** enumeration.rs *)

(** enumeration.rs:25-43 *)
Inductive VariantBody :=
| VEmpty (ann : AnnotationSet)
| VBody (name : string) (body : Struct) (inline inline_casts : bool).
(** enumeration.rs:50-62 *)
Definition VariantBody_annotations (b : VariantBody) : AnnotationSet :=
  match b with VEmpty a => a | VBody _ s _ _ => s_annotations s end.
Definition VariantBody_is_empty (b : VariantBody) : bool := match b with VEmpty _ => true | _ => false end.
Definition map_body (g : Struct -> Struct) (b : VariantBody) : VariantBody :=
  match b with VEmpty a => VEmpty a | VBody n s i ic => VBody n (g s) i ic end.

(** enumeration.rs:87-95 *)
Record EnumVariant := {
  v_name : string;
  v_export_name : string;
  v_discriminant : option Literal;
  v_body : VariantBody;
  v_cfg : option Cfg;
  v_documentation : Documentation
}.
(** enumeration.rs:237-253 *)
Definition EnumVariant_new (name : string) (d : option Literal) (b : VariantBody) (cfg : option Cfg) (doc : Documentation) : EnumVariant :=
  {| v_name := name; v_export_name := name; v_discriminant := d; v_body := b; v_cfg := cfg; v_documentation := doc |}.
Definition set_v_body (b : VariantBody) (v : EnumVariant) : EnumVariant :=
  {| v_name := v_name v; v_export_name := v_export_name v; v_discriminant := v_discriminant v; v_body := b;
     v_cfg := v_cfg v; v_documentation := v_documentation v |}.
Definition set_v_export_name (e : string) (v : EnumVariant) : EnumVariant :=
  {| v_name := v_name v; v_export_name := e; v_discriminant := v_discriminant v; v_body := v_body v;
     v_cfg := v_cfg v; v_documentation := v_documentation v |}.
Definition set_v_discriminant (d : option Literal) (v : EnumVariant) : EnumVariant :=
  {| v_name := v_name v; v_export_name := v_export_name v; v_discriminant := d; v_body := v_body v;
     v_cfg := v_cfg v; v_documentation := v_documentation v |}.
Definition map_v_body (g : Struct -> Struct) (v : EnumVariant) : EnumVariant := set_v_body (map_body g (v_body v)) v.

(** enumeration.rs:261-268 *)
Definition EnumVariant_deps (v : EnumVariant) : list string :=
  ((match v_body v with VBody _ s _ _ => Struct_deps s | VEmpty _ => [] end)
  ++ (match v_discriminant v with Some d => Literal_deps d | None => [] end))%list.
(** enumeration.rs:276-289 (and 64-84 for the body) *)
Definition EnumVariant_specialize {H : Heck} (values : list GenericArgument) (ms : mappings) (ex : ExportConfig) (v : EnumVariant) : EnumVariant :=
  EnumVariant_new (mangle_name (v_name v) values (ex_mangle ex)) (v_discriminant v)
    (map_body (Struct_specialize values ms ex) (v_body v)) (v_cfg v) (v_documentation v).

(** enumeration.rs:304-315 *)
Record Enum := {
  e_path : string;
  e_export_name : string;
  e_generic_params : GenericParams;
  e_repr : Repr;
  e_variants : list EnumVariant;
  e_tag : option string;
  e_cfg : option Cfg;
  e_annotations : AnnotationSet;
  e_documentation : Documentation
}.
(** enumeration.rs:432-454 *)
Definition Enum_new (path : string) (gps : GenericParams) (repr : Repr) (vs : list EnumVariant) (tag : option string)
  (cfg : option Cfg) (ann : AnnotationSet) (doc : Documentation) : Enum :=
  {| e_path := path; e_export_name := path; e_generic_params := gps; e_repr := repr; e_variants := vs; e_tag := tag;
     e_cfg := cfg; e_annotations := ann; e_documentation := doc |}.
Definition set_e_variants (vs : list EnumVariant) (e : Enum) : Enum :=
  {| e_path := e_path e; e_export_name := e_export_name e; e_generic_params := e_generic_params e; e_repr := e_repr e;
     e_variants := vs; e_tag := e_tag e; e_cfg := e_cfg e; e_annotations := e_annotations e;
     e_documentation := e_documentation e |}.
Definition set_e_annotations (a : AnnotationSet) (e : Enum) : Enum :=
  {| e_path := e_path e; e_export_name := e_export_name e; e_generic_params := e_generic_params e; e_repr := e_repr e;
     e_variants := e_variants e; e_tag := e_tag e; e_cfg := e_cfg e; e_annotations := a;
     e_documentation := e_documentation e |}.
(** enumeration.rs:319-326 *)
Definition tag_name (e : Enum) : string := match e_tag e with Some t => t | None => e_export_name e end.
Definition inline_tag_field (r : Repr) : bool := negb (ReprStyle_eqb (rp_style r) ReprC).
(** enumeration.rs:338-347 *)
Definition Enum_can_derive_eq (e : Enum) : bool :=
  match e_tag e with
  | None => false
  | Some _ => forallb (fun v => match v_body v with VEmpty _ => true | VBody _ s _ _ => Struct_can_derive_eq s end) (e_variants e)
  end.
Definition map_e_bodies (g : Struct -> Struct) (e : Enum) : Enum := set_e_variants (map (map_v_body g) (e_variants e)) e.
(** enumeration.rs:1534-1538, 255-259 *)
Definition Enum_simplify (lang : Language) : Enum -> Enum := map_e_bodies (Struct_simplify lang).
(** enumeration.rs:486-499 *)
Definition Enum_collect (e : Enum) : DeclarationTypeResolver -> DeclarationTypeResolver :=
  resolver_insert (e_path e)
    (match e_tag e with
     | Some _ => if ReprStyle_eqb (rp_style (e_repr e)) ReprC then Some DStruct else Some DUnion
     | None => if ReprStyle_eqb (rp_style (e_repr e)) ReprC then Some DEnum else None
     end).
(** enumeration.rs:501-505, 270-274 *)
Definition Enum_resolve (r : DeclarationTypeResolver) : Enum -> Enum := map_e_bodies (Struct_resolve r).

(** enumeration.rs:520-524: indexing panics when the body has no field. *)
Definition replace_first_type (t : Ty) (s : Struct) : option Struct :=
  match s_fields s with
  | [] => None
  | f :: r => Some (set_s_fields (set_fd_ty t f :: r) s)
  end.
Definition map_opt_body (g : Struct -> option Struct) (b : VariantBody) : option VariantBody :=
  match b with VEmpty a => Some (VEmpty a) | VBody n s i ic => let? s' := g s in Some (VBody n s' i ic) end.

(** enumeration.rs:514-528 *)
Definition Enum_rename_tag (c : Config) (e : Enum) : option Enum :=
  let export_name := export_rename (export c) (e_export_name e) in
  let mk vs tag := {| e_path := e_path e; e_export_name := export_name; e_generic_params := e_generic_params e;
                      e_repr := e_repr e; e_variants := vs; e_tag := tag; e_cfg := e_cfg e;
                      e_annotations := e_annotations e; e_documentation := e_documentation e |} in
  match e_tag e with
  | Some tag =>
      if Language_eqb (language c) Cxx then Some (mk (e_variants e) (Some tag))
      else
        let new_tag := export_name ++ "_Tag" in
        let? vs := if ReprStyle_eqb (rp_style (e_repr e)) ReprRust then
                     map_opt (fun v => let? b := map_opt_body (replace_first_type (TPath (GenericPath_new new_tag []))) (v_body v) in
                                       Some (set_v_body b v)) (e_variants e)
                   else Some (e_variants e) in
        Some (mk vs (Some new_tag))
  | None => Some (mk (e_variants e) None)
  end.

(** enumeration.rs:530-544 *)
Definition EnumVariant_rename {H : Heck} (c : Config) (v : EnumVariant) : option EnumVariant :=
  let? b := match v_body v with
            | VEmpty a => Some (VEmpty a)
            | VBody n s i ic => let? s' := Struct_rename_for_config c s in Some (VBody (escape_str n) s' i ic)
            end in
  Some {| v_name := v_name v; v_export_name := escape_str (v_export_name v);
          v_discriminant := option_map (Literal_rename_for_config (export c)) (v_discriminant v);
          v_body := b; v_cfg := v_cfg v; v_documentation := v_documentation v |}.

(** enumeration.rs:546-566 *)
Definition EnumVariant_prefix (c : Config) (enum_export : string) (v : EnumVariant) : EnumVariant :=
  let sep := if remove_underscores (ex_mangle (export c)) then "" else "_" in
  set_v_export_name (enum_export ++ sep ++ v_export_name v)
    (map_v_body (fun s => set_s_export_name (enum_export ++ sep ++ s_export_name s) s) v).

(** enumeration.rs:568-604 *)
Definition EnumVariant_rule {H : Heck} (r : RenameRule) (enum_export : string) (v : EnumVariant) : EnumVariant :=
  EnumVariant_new (RenameRule_apply r (v_export_name v) (IEnumVariant enum_export)) (v_discriminant v)
    (match v_body v with
     | VEmpty a => VEmpty a
     | VBody n s i ic => VBody (RenameRule_apply r n StructMember) s i ic
     end) (v_cfg v) (v_documentation v).

(** enumeration.rs:511-605 *)
Definition Enum_rename_for_config {H : Heck} (c : Config) (e : Enum) : option Enum :=
  let? e1 := Enum_rename_tag c e in
  let? vs := map_opt (EnumVariant_rename c) (e_variants e1) in
  let vs2 := if match an_bool (e_annotations e) "prefix-with-name" with Some b => b | None => en_prefix_with_name (enumeration c) end
             then map (EnumVariant_prefix c (e_export_name e1)) vs else vs in
  let? rules := rule_or (e_annotations e) "rename-all" (en_rename_variants (enumeration c)) in
  let vs3 := match not_none rules with
             | Some r => map (EnumVariant_rule r (e_export_name e1)) vs2
             | None => vs2
             end in
  Some (set_e_variants vs3 e1).

(** enumeration.rs:644-648 *)
Definition Enum_deps (e : Enum) : list string := concat (map EnumVariant_deps (e_variants e)).
(** enumeration.rs:621-638, the monomorph *)
Definition Enum_specialize {H : Heck} (values : list GenericArgument) (ms : mappings) (ex : ExportConfig) (e : Enum) : Enum :=
  Enum_new (mangle_path (e_path e) values (ex_mangle ex)) [] (e_repr e) (map (EnumVariant_specialize values ms ex) (e_variants e))
    (e_tag e) (e_cfg e) (e_annotations e) (e_documentation e).

(** ** typedef.rs *)
Definition set_t_aliased (ty : Ty) (t : Typedef) : Typedef :=
  {| t_path := t_path t; t_export_name := t_export_name t; t_generic_params := t_generic_params t; t_aliased := ty;
     t_cfg := t_cfg t; t_annotations := t_annotations t; t_documentation := t_documentation t |}.
Definition set_t_annotations (a : AnnotationSet) (t : Typedef) : Typedef :=
  {| t_path := t_path t; t_export_name := t_export_name t; t_generic_params := t_generic_params t; t_aliased := t_aliased t;
     t_cfg := t_cfg t; t_annotations := a; t_documentation := t_documentation t |}.
(** typedef.rs:69-71 *)
Definition Typedef_simplify (lang : Language) (t : Typedef) : Typedef := set_t_aliased (simplify_standard_types lang (t_aliased t)) t.
(** typedef.rs:86-103: the typedef and the map of annotations to move *)
Definition Typedef_transfer_annotations (t : Typedef) (out : list (string * AnnotationSet)) : Typedef * list (string * AnnotationSet) :=
  if an_is_empty (t_annotations t) then (t, out)
  else match get_root_path (t_aliased t) with
       | None => (t, out)
       | Some alias =>
           match lookup alias out with
           | Some _ => (t, out)
           | None => (set_t_annotations AnnotationSet_new t, (out ++ [(alias, t_annotations t)])%list)
           end
       end.
(** typedef.rs:147-149 *)
Definition Typedef_collect (t : Typedef) : DeclarationTypeResolver -> DeclarationTypeResolver := resolver_insert (t_path t) None.
(** typedef.rs:151-153 *)
Definition Typedef_resolve (r : DeclarationTypeResolver) (t : Typedef) : Typedef :=
  set_t_aliased (Type_resolve_declaration_types r (t_aliased t)) t.
(** typedef.rs:159-162 *)
Definition Typedef_rename_for_config (c : Config) (t : Typedef) : Typedef :=
  {| t_path := t_path t; t_export_name := export_rename (export c) (t_export_name t); t_generic_params := t_generic_params t;
     t_aliased := Type_rename_for_config (export c) (t_generic_params t) (t_aliased t);
     t_cfg := t_cfg t; t_annotations := t_annotations t; t_documentation := t_documentation t |}.
(** typedef.rs:164-167 *)
Definition Typedef_deps (t : Typedef) : list string := Type_deps (t_generic_params t) (t_aliased t).
(** typedef.rs:169-195, the monomorph *)
Definition Typedef_specialize {H : Heck} (values : list GenericArgument) (ms : mappings) (ex : ExportConfig) (t : Typedef) : Typedef :=
  Typedef_new (mangle_path (t_path t) values (ex_mangle ex)) [] (Type_specialize ms (t_aliased t)) (t_cfg t)
    (t_annotations t) (t_documentation t).

(** ** opaque.rs *)

(** opaque.rs:15-23 *)
Record OpaqueItem := {
  o_path : string;
  o_export_name : string;
  o_generic_params : GenericParams;
  o_cfg : option Cfg;
  o_annotations : AnnotationSet;
  o_documentation : Documentation
}.
(** opaque.rs:41-58 *)
Definition OpaqueItem_new (path : string) (gps : GenericParams) (cfg : option Cfg) (ann : AnnotationSet) (doc : Documentation) : OpaqueItem :=
  {| o_path := path; o_export_name := path; o_generic_params := gps; o_cfg := cfg; o_annotations := ann; o_documentation := doc |}.
Definition set_o_annotations (a : AnnotationSet) (o : OpaqueItem) : OpaqueItem :=
  {| o_path := o_path o; o_export_name := o_export_name o; o_generic_params := o_generic_params o; o_cfg := o_cfg o;
     o_annotations := a; o_documentation := o_documentation o |}.
(** opaque.rs:89-91 *)
Definition OpaqueItem_collect (o : OpaqueItem) : DeclarationTypeResolver -> DeclarationTypeResolver :=
  resolver_insert (o_path o) (Some DStruct).
(** opaque.rs:97-99 *)
Definition OpaqueItem_rename_for_config (c : Config) (o : OpaqueItem) : OpaqueItem :=
  {| o_path := o_path o; o_export_name := export_rename (export c) (o_export_name o); o_generic_params := o_generic_params o;
     o_cfg := o_cfg o; o_annotations := o_annotations o; o_documentation := o_documentation o |}.
(** opaque.rs:103-139; [None]: one of the assertions fails. *)
Definition OpaqueItem_specialize {H : Heck} (values : list GenericArgument) (ex : ExportConfig) (o : OpaqueItem) : option OpaqueItem :=
  if is_nil (o_generic_params o) || Nat.ltb (length (o_generic_params o)) (length values) then None
  else Some (OpaqueItem_new (mangle_path (o_path o) values (ex_mangle ex)) [] (o_cfg o) (o_annotations o) (o_documentation o)).

(** ** global.rs *)

(** global.rs:14-22 *)
Record Static := {
  g_path : string;
  g_export_name : string;
  g_ty : Ty;
  g_mutable : bool;
  g_cfg : option Cfg;
  g_annotations : AnnotationSet;
  g_documentation : Documentation
}.
(** global.rs:46-64 *)
Definition Static_new (path : string) (ty : Ty) (mutable : bool) (cfg : option Cfg) (ann : AnnotationSet) (doc : Documentation) : Static :=
  {| g_path := path; g_export_name := path; g_ty := ty; g_mutable := mutable; g_cfg := cfg; g_annotations := ann; g_documentation := doc |}.
Definition map_g_ty (f : Ty -> Ty) (g : Static) : Static :=
  {| g_path := g_path g; g_export_name := g_export_name g; g_ty := f (g_ty g); g_mutable := g_mutable g; g_cfg := g_cfg g;
     g_annotations := g_annotations g; g_documentation := g_documentation g |}.
(** global.rs:66-68, 100-106, 112-114.  The export name is not renamed. *)
Definition Static_simplify (lang : Language) : Static -> Static := map_g_ty (simplify_standard_types lang).
Definition Static_rename_for_config (c : Config) : Static -> Static := map_g_ty (Type_rename_for_config (export c) []).
Definition Static_resolve (r : DeclarationTypeResolver) : Static -> Static := map_g_ty (Type_resolve_declaration_types r).
Definition Static_deps (g : Static) : list string := Type_deps [] (g_ty g).

(** ** function.rs *)

(** function.rs:19-23 *)
Record FunctionArgument := { a_name : option string; a_ty : Ty; a_array_length : option string }.
(** function.rs:26-39 *)
Record Function := {
  f_path : string;
  f_self_type_path : option string;
  f_ret : Ty;
  f_args : list FunctionArgument;
  f_extern_decl : bool;
  f_cfg : option Cfg;
  f_annotations : AnnotationSet;
  f_documentation : Documentation;
  f_never_return : bool
}.
Definition set_f_types (ret : Ty) (args : list FunctionArgument) (f : Function) : Function :=
  {| f_path := f_path f; f_self_type_path := f_self_type_path f; f_ret := ret; f_args := args;
     f_extern_decl := f_extern_decl f; f_cfg := f_cfg f; f_annotations := f_annotations f;
     f_documentation := f_documentation f; f_never_return := f_never_return f |}.
Definition map_a_ty (g : Ty -> Ty) (a : FunctionArgument) : FunctionArgument :=
  {| a_name := a_name a; a_ty := g (a_ty a); a_array_length := a_array_length a |}.
Definition map_f_types (g : Ty -> Ty) (f : Function) : Function :=
  set_f_types (g (f_ret f)) (map (map_a_ty g) (f_args f)) f.
(** function.rs:118-123, 146-151 *)
Definition Function_simplify (lang : Language) : Function -> Function := map_f_types (simplify_standard_types lang).
Definition Function_resolve (r : DeclarationTypeResolver) : Function -> Function := map_f_types (Type_resolve_declaration_types r).
(** function.rs:125-130 *)
Definition Function_deps (f : Function) : list string :=
  (Type_deps [] (f_ret f) ++ concat (map (fun a => Type_deps [] (a_ty a)) (f_args f)))%list.

(** [str::trim_start_matches] with a string pattern; [fuel] is the length of the text.
    An empty pattern matches nothing more than once. *)
Fixpoint trim_start_matches (fuel : nat) (pat s : string) : string :=
  match fuel with
  | O => s
  | S n => if String.eqb pat "" then s
           else if starts_with pat s then trim_start_matches n pat (sdrop (String.length pat) s) else s
  end.

(** function.rs:81-112 *)
Definition swift_name (c : Config) (f : Function) : option string :=
  if Language_eqb (language c) Cython then None
  else
    let finish type_prefix type_name :=
      let n := String.length (f_path f) in
      let item_name := trim_start_matches n "_" (trim_start_matches n type_name (f_path f)) in
      let? items := map_opt (fun a => let? nm := a_name a in Some (nm ++ ":")) (f_args f) in
      Some (type_prefix ++ item_name ++ "(" ++ sconcat items ++ ")") in
    match f_self_type_path f with
    | Some tn => if starts_with tn (f_path f) then finish (tn ++ ".") tn else Some (f_path f)
    | None => finish "" ""
    end.

(** function.rs:191-206.  Slicing [1..len-1] panics on a string shorter than 2
    (a multi-byte character at either end, which also panics, is not modelled). *)
Definition parse_ptr_as_array (tuple : string) : option (option (string * string)) :=
  if Nat.ltb (String.length tuple) 2 then None
  else match map trim (split_on ";" (stake (String.length tuple - 2) (sdrop 1 tuple))) with
       | [a; b] => Some (Some (a, b))
       | _ => Some None
       end.
(** The pairs inserted in the map; a later pair for the same name wins. *)
Definition ptrs_as_arrays (tuples : list string) : option (list (string * string)) :=
  let? l := map_opt parse_ptr_as_array tuples in
  Some (rev (filter_map (fun x => x) l)).

(** function.rs:208-218 *)
Definition set_array_length (m : list (string * string)) (a : FunctionArgument) : FunctionArgument :=
  match a_ty a, a_name a with
  | TPtr _ _ _ _, Some n => {| a_name := a_name a; a_ty := a_ty a; a_array_length := lookup n m |}
  | _, _ => a
  end.

(** function.rs:153-219 *)
Definition Function_rename_for_config {H : Heck} (c : Config) (f : Function) : option Function :=
  let ex := export c in
  let ret := Type_rename_for_config ex [] (f_ret f) in
  let? rules := rule_or (f_annotations f) "rename-all" (fn_rename_args (function c)) in
  let args1 := match not_none rules with
               | Some r => map (fun a => {| a_name := option_map (fun n => RenameRule_apply r n FunctionArg) (a_name a);
                                            a_ty := a_ty a; a_array_length := None |}) (f_args f)
               | None => f_args f
               end in
  let args2 := map (fun a => {| a_name := option_map escape_str (a_name a); a_ty := Type_rename_for_config ex [] (a_ty a);
                                a_array_length := a_array_length a |}) args1 in
  let? args3 := match an_list (f_annotations f) "ptrs-as-arrays" with
                | None => Some args2
                | Some tuples => let? m := ptrs_as_arrays tuples in Some (map (set_array_length m) args2)
                end in
  Some (set_f_types ret args3 f).
