(** Model of src/bindgen/ir/ty.rs, ir/generic_path.rs, ir/path.rs and
    mangle.rs.  A [Path] (path.rs:8-10) is just its name. *)
Require Import Coq.Strings.String Coq.Strings.Ascii Coq.Lists.List Coq.Bool.Bool Coq.Arith.Arith.
From Verif Require Import Base M_Config.
Import ListNotations.
Open Scope string_scope.

(** ty.rs:37-48 *)
Inductive IntKind := KShort | KInt | KLong | KLongLong | KSizeT | KSize | B8 | B16 | B32 | B64.

(** ty.rs:18-34 *)
Inductive PrimitiveType :=
| PVoid | PBool | PChar | PSChar | PUChar | PChar32 | PFloat | PDouble | PVaList | PPtrDiffT
| PInteger (zeroable signed : bool) (kind : IntKind).

(** ty.rs:111-131 *)
Definition maybe_nonzero_integer (path : string) : option PrimitiveType :=
  match path with
  | "NonZeroU8" => Some (PInteger false false B8)
  | "NonZeroU16" => Some (PInteger false false B16)
  | "NonZeroU32" => Some (PInteger false false B32)
  | "NonZeroU64" => Some (PInteger false false B64)
  | "NonZeroUSize" => Some (PInteger false false KSize)
  | "NonZeroI8" => Some (PInteger false true B8)
  | "NonZeroI16" => Some (PInteger false true B16)
  | "NonZeroI32" => Some (PInteger false true B32)
  | "NonZeroI64" => Some (PInteger false true B64)
  | "NonZeroISize" => Some (PInteger false true KSize)
  | _ => None
  end.

(** ty.rs:72-105 *)
Definition maybe_integer (path : string) : option PrimitiveType :=
  match path with
  | "c_short" => Some (PInteger true true KShort)
  | "c_int" => Some (PInteger true true KInt)
  | "c_long" => Some (PInteger true true KLong)
  | "c_longlong" => Some (PInteger true true KLongLong)
  | "ssize_t" => Some (PInteger true true KSizeT)
  | "c_ushort" => Some (PInteger true false KShort)
  | "c_uint" => Some (PInteger true false KInt)
  | "c_ulong" => Some (PInteger true false KLong)
  | "c_ulonglong" => Some (PInteger true false KLongLong)
  | "size_t" => Some (PInteger true false KSizeT)
  | "RawFd" => Some (PInteger true true KInt)
  | "isize" | "intptr_t" => Some (PInteger true true KSize)
  | "usize" | "uintptr_t" => Some (PInteger true false KSize)
  | "u8" | "uint8_t" => Some (PInteger true false B8)
  | "u16" | "uint16_t" => Some (PInteger true false B16)
  | "u32" | "uint32_t" => Some (PInteger true false B32)
  | "u64" | "uint64_t" => Some (PInteger true false B64)
  | "i8" | "int8_t" => Some (PInteger true true B8)
  | "i16" | "int16_t" => Some (PInteger true true B16)
  | "i32" | "int32_t" => Some (PInteger true true B32)
  | "i64" | "int64_t" => Some (PInteger true true B64)
  | _ => maybe_nonzero_integer path
  end.

(** ty.rs:51-69 *)
Definition PrimitiveType_maybe (path : string) : option PrimitiveType :=
  match path with
  | "c_void" => Some PVoid
  | "c_char" => Some PChar
  | "c_schar" => Some PSChar
  | "c_uchar" => Some PUChar
  | "c_float" => Some PFloat
  | "c_double" => Some PDouble
  | "ptrdiff_t" => Some PPtrDiffT
  | "VaList" => Some PVaList
  | "bool" => Some PBool
  | "char" => Some PChar32
  | "f32" => Some PFloat
  | "f64" => Some PDouble
  | _ => maybe_integer path
  end.

(** ty.rs:133-172 *)
Definition to_repr_rust (p : PrimitiveType) : string :=
  match p with
  | PBool => "bool"
  | PVoid => "c_void"
  | PChar => "c_char"
  | PSChar => "c_schar"
  | PUChar => "c_uchar"
  | PChar32 => "char"
  | PInteger _ signed kind =>
      match kind, signed with
      | KShort, true => "c_short" | KShort, false => "c_ushort"
      | KInt, true => "c_int" | KInt, false => "c_uint"
      | KLong, true => "c_long" | KLong, false => "c_ulong"
      | KLongLong, true => "c_longlong" | KLongLong, false => "c_ulonglong"
      | KSizeT, true => "ssize_t" | KSizeT, false => "size_t"
      | KSize, true => "isize" | KSize, false => "usize"
      | B8, true => "i8" | B8, false => "u8"
      | B16, true => "i16" | B16, false => "u16"
      | B32, true => "i32" | B32, false => "u32"
      | B64, true => "i64" | B64, false => "u64"
      end
  | PFloat => "f32"
  | PDouble => "f64"
  | PPtrDiffT => "ptrdiff_t"
  | PVaList => "va_list"
  end.

(** ty.rs:174-223 *)
Definition to_repr_c (c : Config) (p : PrimitiveType) : string :=
  match p with
  | PVoid => "void"
  | PBool => "bool"
  | PChar => "char"
  | PSChar => "signed char"
  | PUChar => "unsigned char"
  | PChar32 => "uint32_t"
  | PInteger _ signed kind =>
      match kind, signed with
      | KShort, true => "short" | KShort, false => "unsigned short"
      | KInt, true => "int" | KInt, false => "unsigned int"
      | KLong, true => "long" | KLong, false => "unsigned long"
      | KLongLong, true => "long long" | KLongLong, false => "unsigned long long"
      | KSizeT, true => "ssize_t" | KSizeT, false => "size_t"
      | KSize, true => if usize_is_size_t c then "ptrdiff_t" else "intptr_t"
      | KSize, false => if usize_is_size_t c then "size_t" else "uintptr_t"
      | B8, true => "int8_t" | B8, false => "uint8_t"
      | B16, true => "int16_t" | B16, false => "uint16_t"
      | B32, true => "int32_t" | B32, false => "uint32_t"
      | B64, true => "int64_t" | B64, false => "uint64_t"
      end
  | PFloat => "float"
  | PDouble => "double"
  | PPtrDiffT => "ptrdiff_t"
  | PVaList => "..."
  end.

(** declarationtyperesolver.rs:19-24 *)
Inductive DeclarationType := DStruct | DEnum | DUnion.
(** declarationtyperesolver.rs:9-17 *)
Definition DeclarationType_to_str (d : DeclarationType) : string :=
  match d with DStruct => "struct" | DEnum => "enum" | DUnion => "union" end.

(** ty.rs:239-242, 304-323; generic_path.rs:203-206, 238-243 *)
Inductive Ty :=
| TPtr (ty : Ty) (is_const is_nullable is_ref : bool)
| TPath (p : GenericPath)
| TPrim (p : PrimitiveType)
| TArray (ty : Ty) (len : ConstExpr)
| TFuncPtr (ret : Ty) (args : list (option string * Ty)) (is_nullable never_return : bool)
with GenericPath :=
| GPath (path export_name : string) (generics : list GenericArgument) (ctype : option DeclarationType)
with GenericArgument :=
| GType (t : Ty)
| GConst (e : ConstExpr)
with ConstExpr :=
| EPath (p : GenericPath)
| EValue (s : string).

(** generic_path.rs:246-254 *)
Definition GenericPath_new (path : string) (generics : list GenericArgument) : GenericPath :=
  GPath path path generics None.
(** generic_path.rs:267-289 *)
Definition gp_path (g : GenericPath) : string := match g with GPath p _ _ _ => p end.
Definition gp_name := gp_path.
Definition gp_export_name (g : GenericPath) : string := match g with GPath _ e _ _ => e end.
Definition gp_generics (g : GenericPath) : list GenericArgument := match g with GPath _ _ l _ => l end.
Definition gp_ctype (g : GenericPath) : option DeclarationType := match g with GPath _ _ _ c => c end.
(** generic_path.rs:291-293 *)
Definition is_single_identifier (g : GenericPath) : bool :=
  match gp_generics g with [] => true | _ => false end.
(** generic_path.rs:256-258 *)
Definition self_path : GenericPath := GenericPath_new "Self" [].

(** ty.rs:245-250 *)
Definition ConstExpr_as_str (e : ConstExpr) : string :=
  match e with EPath p => gp_export_name p | EValue s => s end.

(** ty.rs:326-333 *)
Definition const_ref_to (t : Ty) : Ty := TPtr t true false true.

(** ty.rs:464-474 *)
Definition is_ptr (t : Ty) : bool :=
  match t with TPtr _ _ _ _ | TFuncPtr _ _ _ _ => true | _ => false end.
Definition is_primitive_or_ptr_primitive (t : Ty) : bool :=
  match t with TPrim _ => true | TPtr (TPrim _) _ _ _ => true | _ => false end.

(** ty.rs:476-489 *)
Definition make_zeroable (t : Ty) (new_zeroable : bool) : option Ty :=
  match t with
  | TPrim (PInteger old signed kind) =>
      if Bool.eqb old new_zeroable then None else Some (TPrim (PInteger new_zeroable signed kind))
  | _ => None
  end.

(** ty.rs:491-517 *)
Definition make_nullable (t : Ty) : option Ty :=
  match t with
  | TPtr ty is_const false is_ref => Some (TPtr ty is_const true is_ref)
  | TFuncPtr ret args false never_return => Some (TFuncPtr ret args true never_return)
  | _ => None
  end.

(** ty.rs:542-564, the match on the wrapper's name *)
Definition simplify_wrapper (lang : Language) (name : string) (generic : Ty) : option Ty :=
  let not_cxx := negb (Language_eqb lang Cxx) in
  if String.eqb name "Option" then
    match make_nullable generic with Some t => Some t | None => make_zeroable generic true end
  else if String.eqb name "NonNull" then Some (TPtr generic false false false)
  else if String.eqb name "NonZero" then make_zeroable generic false
  else if String.eqb name "Box" && not_cxx then Some (TPtr generic false false false)
  else if mem_str name ["SyncUnsafeCell"; "UnsafeCell"; "Cell"] then Some generic
  else if mem_str name ["ManuallyDrop"; "MaybeUninit"; "Pin"] && not_cxx then Some generic
  else None.

(** ty.rs:519-565 *)
Fixpoint simplified_type (lang : Language) (t : Ty) : option Ty :=
  match t with
  | TPath (GPath name _ [GType u] _) =>
      let generic := match simplified_type lang u with Some g => g | None => u end in
      simplify_wrapper lang name generic
  | _ => None
  end.

(** ty.rs:581-604: one level of children, the visitor applied to each. *)
Definition visit_types (f : Ty -> Ty) (t : Ty) : Ty :=
  match t with
  | TArray ty len => TArray (f ty) len
  | TPtr ty c n r => TPtr (f ty) c n r
  | TPath (GPath p e gs ct) =>
      TPath (GPath p e (map (fun g => match g with GType u => GType (f u) | GConst x => GConst x end) gs) ct)
  | TPrim p => TPrim p
  | TFuncPtr ret args n nr => TFuncPtr (f ret) (map (fun a => (fst a, f (snd a))) args) n nr
  end.

(** ty.rs:567-572.  [visit_types] is inlined so that the recursion is structural. *)
Fixpoint simplify_standard_types (lang : Language) (t : Ty) : Ty :=
  let t' :=
    match t with
    | TArray ty len => TArray (simplify_standard_types lang ty) len
    | TPtr ty c n r => TPtr (simplify_standard_types lang ty) c n r
    | TPath (GPath p e gs ct) =>
        TPath (GPath p e
          (map (fun g => match g with GType u => GType (simplify_standard_types lang u) | GConst x => GConst x end) gs) ct)
    | TPrim p => TPrim p
    | TFuncPtr ret args n nr =>
        TFuncPtr (simplify_standard_types lang ret)
          (map (fun a => (fst a, simplify_standard_types lang (snd a))) args) n nr
    end in
  match simplified_type lang t' with Some u => u | None => t' end.

(** path.rs:25-31, generic_path.rs:260-265 *)
Definition GenericPath_replace_self_with (self_ty : string) (g : GenericPath) : GenericPath :=
  match g with
  | GPath p e gs ct => if String.eqb p "Self" then GPath self_ty self_ty gs ct else g
  end.

(** ty.rs:574-579; [visit_types] inlined as above. *)
Fixpoint replace_self_with (self_ty : string) (t : Ty) : Ty :=
  match t with
  | TArray ty len => TArray (replace_self_with self_ty ty) len
  | TPtr ty c n r => TPtr (replace_self_with self_ty ty) c n r
  | TPath (GPath p e gs ct) =>
      let gs' := map (fun g => match g with GType u => GType (replace_self_with self_ty u) | GConst x => GConst x end) gs in
      if String.eqb p "Self" then TPath (GPath self_ty self_ty gs' ct) else TPath (GPath p e gs' ct)
  | TPrim p => TPrim p
  | TFuncPtr ret args n nr =>
      TFuncPtr (replace_self_with self_ty ret)
        (map (fun a => (fst a, replace_self_with self_ty (snd a))) args) n nr
  end.

(** ty.rs:606-625 *)
Fixpoint get_root_path (t : Ty) : option string :=
  match t with
  | TPtr ty _ _ _ => get_root_path ty
  | TPath g => Some (gp_path g)
  | _ => None
  end.

(** Parameter/argument pairs, as [GenericParams::call] returns them. *)
Definition mappings := list (string * GenericArgument).

(** ty.rs:276-300: the first parameter with the path's name whose argument is
    a generics-free path or a constant. *)
Fixpoint const_mapping (ms : mappings) (path : string) : option ConstExpr :=
  match ms with
  | [] => None
  | (param, value) :: r =>
      if String.eqb param path then
        match value with
        | GType (TPath q) => if is_single_identifier q then Some (EPath q) else const_mapping r path
        | GConst expr => Some expr
        | _ => const_mapping r path
        end
      else const_mapping r path
  end.
Definition ConstExpr_specialize (ms : mappings) (e : ConstExpr) : ConstExpr :=
  match e with
  | EPath p =>
      if is_single_identifier p then
        match const_mapping ms (gp_path p) with Some e' => e' | None => e end
      else e
  | EValue _ => e
  end.

(** ty.rs:641-647: the first parameter with the path's name whose argument is a type. *)
Fixpoint type_mapping (ms : mappings) (path : string) : option Ty :=
  match ms with
  | [] => None
  | (param, value) :: r =>
      if String.eqb path param then
        match value with GType ty => Some ty | GConst _ => type_mapping r path end
      else type_mapping r path
  end.
(** generic_path.rs:216-220: the first parameter with that name. *)
Fixpoint arg_mapping (ms : mappings) (path : string) : option GenericArgument :=
  match ms with
  | [] => None
  | (param, value) :: r => if String.eqb param path then Some value else arg_mapping r path
  end.

(** ty.rs:627-680 and generic_path.rs:209-227 *)
Fixpoint Type_specialize (ms : mappings) (t : Ty) : Ty :=
  match t with
  | TPtr ty c n r => TPtr (Type_specialize ms ty) c n r
  | TPath (GPath p e gs ct) =>
      match type_mapping ms p with
      | Some ty => ty
      | None =>
          TPath (GenericPath_new p (map (fun g =>
            match g with
            | GType (TPath q as ty) =>
                if is_single_identifier q then
                  match arg_mapping ms (gp_path q) with
                  | Some value => value
                  | None => GType (Type_specialize ms ty)
                  end
                else GType (Type_specialize ms ty)
            | GType ty => GType (Type_specialize ms ty)
            | GConst expr => GConst expr
            end) gs))
      end
  | TPrim p => TPrim p
  | TArray ty len => TArray (Type_specialize ms ty) (ConstExpr_specialize ms len)
  | TFuncPtr ret args n nr =>
      TFuncPtr (Type_specialize ms ret) (map (fun a => (fst a, Type_specialize ms (snd a))) args) n nr
  end.

(** generic_path.rs:14-25 *)
Inductive GenericParamType := GPType | GPConst (t : Ty).
Record GenericParam := { gp_name_ : string; gp_ty : GenericParamType; gp_default : option GenericArgument }.
Definition GenericParams := list GenericParam.

(** generic_path.rs:107-139; [None] is a panic. *)
Fixpoint call_from (params : GenericParams) (args : list GenericArgument) : option mappings :=
  match params with
  | [] => Some []
  | p :: ps =>
      match (match args with a :: _ => Some a | [] => gp_default p end) with
      | None => None
      | Some a => match call_from ps (tl args) with
                  | None => None
                  | Some r => Some ((gp_name_ p, a) :: r)
                  end
      end
  end.
Definition GenericParams_call (params : GenericParams) (args : list GenericArgument) : option mappings :=
  if Nat.ltb (length params) (length args) then None else call_from params args.

(** generic_path.rs:299, ty.rs:699 *)
Definition is_generic_param (params : GenericParams) (path : string) : bool :=
  existsb (fun p => String.eqb (gp_name_ p) path) params.

(** ty.rs:754-778, 252-256; generic_path.rs:229-234, 295-302 *)
Fixpoint Type_rename_for_config (ex : ExportConfig) (params : GenericParams) (t : Ty) : Ty :=
  match t with
  | TPtr ty c n r => TPtr (Type_rename_for_config ex params ty) c n r
  | TPath g => TPath (GenericPath_rename_for_config ex params g)
  | TPrim p => TPrim p
  | TArray ty len =>
      TArray (Type_rename_for_config ex params ty) (ConstExpr_rename_for_config ex params len)
  | TFuncPtr ret args n nr =>
      TFuncPtr (Type_rename_for_config ex params ret)
        (map (fun a => (fst a, Type_rename_for_config ex params (snd a))) args) n nr
  end
with GenericPath_rename_for_config (ex : ExportConfig) (params : GenericParams) (g : GenericPath) : GenericPath :=
  match g with
  | GPath p e gs ct =>
      GPath p (if is_generic_param params p then e else export_rename ex e)
        (map (GenericArgument_rename_for_config ex params) gs) ct
  end
with GenericArgument_rename_for_config (ex : ExportConfig) (params : GenericParams) (a : GenericArgument) : GenericArgument :=
  match a with
  | GType t => GType (Type_rename_for_config ex params t)
  | GConst e => GConst (ConstExpr_rename_for_config ex params e)
  end
with ConstExpr_rename_for_config (ex : ExportConfig) (params : GenericParams) (e : ConstExpr) : ConstExpr :=
  match e with
  | EPath p => EPath (GenericPath_rename_for_config ex params p)
  | EValue s => EValue s
  end.

(** declarationtyperesolver.rs:27-56: names registered as struct, enum or
    union, and names known to be something else ([None] for those). *)
Definition DeclarationTypeResolver := list (string * option DeclarationType).
(** declarationtyperesolver.rs:54-56 *)
Definition type_for (r : DeclarationTypeResolver) (path : string) : option DeclarationType :=
  match lookup path r with Some d => d | None => None end.

(** ty.rs:780-803, generic_path.rs:304-306 (generic arguments are not visited) *)
Fixpoint Type_resolve_declaration_types (r : DeclarationTypeResolver) (t : Ty) : Ty :=
  match t with
  | TPtr ty c n rf => TPtr (Type_resolve_declaration_types r ty) c n rf
  | TPath (GPath p e gs _) => TPath (GPath p e gs (type_for r p))
  | TPrim p => TPrim p
  | TArray ty len => TArray (Type_resolve_declaration_types r ty) len
  | TFuncPtr ret args n nr =>
      TFuncPtr (Type_resolve_declaration_types r ret)
        (map (fun a => (fst a, Type_resolve_declaration_types r (snd a))) args) n nr
  end.

(** ty.rs:225-231, 841-860 *)
Definition prim_can_cmp_order (p : PrimitiveType) : bool := match p with PBool => false | _ => true end.
Definition can_cmp_order (t : Ty) : bool :=
  match t with
  | TPtr _ _ _ is_ref => negb is_ref
  | TPath _ => true
  | TPrim p => prim_can_cmp_order p
  | TArray _ _ => false
  | TFuncPtr _ _ _ _ => false
  end.
Fixpoint can_cmp_eq (t : Ty) : bool :=
  match t with
  | TPtr ty _ _ is_ref => negb is_ref || can_cmp_eq ty
  | TPath _ => true
  | TPrim _ => true
  | TArray _ _ => false
  | TFuncPtr _ _ _ _ => true
  end.

(** ** mangle.rs *)

(** mangle.rs:21-32, 63-71 *)
Definition SepOpeningAngleBracket := 1.
Definition SepComma := 2.
Definition SepClosingAngleBracket := 3.
Definition SepBeginMutPtr := 4.
Definition SepBeginConstPtr := 5.
Definition SepBeginFn := 6.
Definition SepBetweenFnArg := 7.
Definition SepEndFn := 8.
Definition SepBeginArray := 9.
Definition SepBetweenArray := 10.
Definition mangle_push (m : MangleConfig) (count : nat) : string :=
  if remove_underscores m then "" else srepeat "_" count.

(** mangle.rs:73-161.  [mlast] is the [last] field of the enclosing [Mangler],
    [last] the argument of the same name.  The output is accumulated by
    concatenation. *)
Fixpoint mangle_type {H : Heck} (m : MangleConfig) (mlast last : bool) (t : Ty) : string :=
  match t with
  | TPath g => RenameRule_apply (rename_types m) (mangle_gpath m last g) IType
  | TPrim p => RenameRule_apply (rename_types m) (to_repr_rust p) IType
  | TPtr ty is_const _ _ =>
      mangle_push m (if is_const then SepBeginConstPtr else SepBeginMutPtr) ++ mangle_type m mlast last ty
  | TFuncPtr ret args _ _ =>
      let fix go (l : list (option string * Ty)) : string :=
        match l with
        | [] => ""
        | a :: r =>
            mangle_push m SepBetweenFnArg
            ++ mangle_type m mlast (last && match r with [] => true | _ => false end) (snd a)
            ++ go r
        end in
      mangle_push m SepBeginFn
      ++ mangle_type m mlast (match args with [] => true | _ => false end) ret
      ++ go args
      ++ (if mlast then "" else mangle_push m SepEndFn)
  | TArray ty len =>
      mangle_push m SepBeginArray ++ mangle_type m mlast false ty
      ++ mangle_push m SepBetweenArray ++ mangle_const m mlast last len
  end
with mangle_gpath {H : Heck} (m : MangleConfig) (last : bool) (g : GenericPath) : string :=
  match g with
  | GPath _ export gs _ =>
      let fix go (first : bool) (l : list GenericArgument) : string :=
        match l with
        | [] => ""
        | a :: r =>
            (if first then "" else mangle_push m SepComma)
            ++ mangle_arg m last (last && match r with [] => true | _ => false end) a
            ++ go false r
        end in
      match gs with
      | [] => export
      | _ => export ++ mangle_push m SepOpeningAngleBracket ++ go true gs
             ++ (if last then "" else mangle_push m SepClosingAngleBracket)
      end
  end
with mangle_arg {H : Heck} (m : MangleConfig) (mlast last : bool) (a : GenericArgument) : string :=
  match a with
  | GType t => mangle_type m mlast last t
  | GConst e => mangle_const m mlast last e
  end
with mangle_const {H : Heck} (m : MangleConfig) (mlast last : bool) (e : ConstExpr) : string :=
  match e with
  | EPath p => RenameRule_apply (rename_types m) (mangle_gpath m last p) IType
  | EValue v => v
  end.

(** mangle.rs:13-19 *)
Definition mangle_name {H : Heck} (name : string) (generic_values : list GenericArgument) (m : MangleConfig) : string :=
  mangle_gpath m true (GPath name name generic_values None).
(** mangle.rs:9-11 *)
Definition mangle_path {H : Heck} (path : string) (generic_values : list GenericArgument) (m : MangleConfig) : string :=
  mangle_name path generic_values m.
