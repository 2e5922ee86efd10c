(** Loading the items of a module: the [load] functions of src/bindgen/ir/*.rs,
    src/bindgen/bitflags.rs and the [Parse] half of src/bindgen/parser.rs.

    Log messages are left out.  An error's text is left out too. *)
Require Import Coq.Strings.String Coq.Strings.Ascii Coq.Lists.List Coq.Bool.Bool Coq.Arith.Arith Coq.NArith.NArith.
From Verif Require Import Base M_Config M_Cfg M_Type M_Ir M_Item M_Attr M_Syn M_Library.
Import ListNotations.
Open Scope string_scope.

(** ** [syn]'s items *)

Definition attributes := list attribute.
(** [syn::Pat] of an argument, [syn::Receiver], [syn::FnArg] *)
Inductive spat := PatWild | PatIdent (ident : string) | PatOther.
Inductive sreceiver := RecvRef (mutable : bool) | RecvTyped (t : sty) | RecvValue | RecvOther.
Inductive sfnarg := FnTyped (p : spat) (t : sty) | FnReceiver (r : sreceiver).
(** [syn::Signature]; [sg_abi]: the word [extern], and the name after it *)
Record ssig := { sg_ident : string; sg_abi : option (option string); sg_inputs : list sfnarg; sg_variadic : bool;
                 sg_output : option sty }.
Inductive sfields := FieldsUnit | FieldsNamed (l : list sfield) | FieldsUnnamed (l : list sfield).
Record svariant := { sv_attrs : attributes; sv_ident : string; sv_fields : sfields; sv_discriminant : option sexpr }.
Inductive simpl_item :=
| ImplConst (attrs : attributes) (public : bool) (ident : string) (ty : sty) (value : sexpr)
| ImplFn (attrs : attributes) (public : bool) (sig : ssig)
| ImplOther.
(** bitflags.rs:21-57, 134-145: what is parsed from the arguments of
    [bitflags!]; [bf_attrs] is [None] for the form with [impl].  The parser is
    not modelled. *)
Record sbitflags := { bf_attrs : option attributes; bf_name : string; bf_repr : sty;
                      bf_flags : list (attributes * string * sexpr) }.
Inductive sitem :=
| ItemForeignMod (attrs : attributes) (abi : option string) (items : list (option (attributes * ssig)))
| ItemFn (attrs : attributes) (public : bool) (sig : ssig)
| ItemConst (attrs : attributes) (public : bool) (ident : string) (ty : sty) (value : sexpr)
| ItemStatic (attrs : attributes) (ident : string) (mutable : bool) (ty : sty)
| ItemStruct (attrs : attributes) (ident : string) (generics : list sgparam) (fields : sfields)
| ItemUnion (attrs : attributes) (ident : string) (generics : list sgparam) (fields : list sfield)
| ItemEnum (attrs : attributes) (ident : string) (generics : list sgparam) (variants : list svariant)
| ItemType (attrs : attributes) (ident : string) (generics : list sgparam) (ty : sty)
| ItemImpl (attrs : attributes) (self_ty : sty) (items : list simpl_item)
| ItemMacro (attrs : attributes) (name : string) (flags : option sbitflags)
| ItemMod (attrs : attributes) (ident : string) (content : option (list sitem))
| ItemOther (attrs : attributes).
(** utilities.rs:323-352 *)
Definition item_attrs (i : sitem) : attributes :=
  match i with
  | ItemForeignMod a _ _ | ItemFn a _ _ | ItemConst a _ _ _ _ | ItemStatic a _ _ _ | ItemStruct a _ _ _ | ItemUnion a _ _ _
  | ItemEnum a _ _ _ | ItemType a _ _ _ | ItemImpl a _ _ | ItemMacro a _ _ | ItemMod a _ _ | ItemOther a => a
  end.

(** utilities.rs:391-424, for a signature's optional ABI *)
Definition abi_is_c (abi : option (option string)) : bool :=
  match abi with Some (Some n) => String.eqb n "C" || String.eqb n "C-unwind" | _ => false end.
Definition abi_is_cmse (abi : option (option string)) : bool :=
  match abi with Some (Some n) => String.eqb n "cmse-nonsecure-entry" || String.eqb n "cmse-nonsecure-call" | _ => false end.
Definition abi_is_omitted (abi : option (option string)) : bool := match abi with Some None => true | _ => false end.

(** ** Functions: function.rs *)

(** function.rs:225-248 *)
Definition gen_self_type (r : sreceiver) : option Ty :=
  let self := TPath self_path in
  match r with
  | RecvRef mutable => Some (TPtr self (negb mutable) false false)
  | RecvTyped t =>
      let? c := Type_load t in
      let ty := match c with Some x => x | None => self end in
      match t with SRef mutable _ => Some (TPtr ty (negb mutable) false false) | _ => Some ty end
  | RecvValue => Some self
  | RecvOther => None
  end.
Definition is_va_list (t : Ty) : bool := match t with TPrim PVaList => true | _ => false end.
Definition is_array (t : Ty) : bool := match t with TArray _ _ => true | _ => false end.
Definition argument (name : option string) (t : Ty) : FunctionArgument := {| a_name := name; a_ty := t; a_array_length := None |}.
(** function.rs:250-290 *)
Definition as_argument (a : sfnarg) : option (option FunctionArgument) :=
  match a with
  | FnTyped p t =>
      let? c := Type_load t in
      match c with
      | None => Some None
      | Some ty =>
          let? name := match p with
                       | PatWild => Some None
                       | PatIdent i => Some (if is_va_list ty then None else Some (unraw i))
                       | PatOther => None
                       end in
          if is_array ty then None else Some (Some (argument name ty))
      end
  | FnReceiver r => let? t := gen_self_type r in Some (Some (argument (Some "self") t))
  end.
(** function.rs:42-79 *)
Definition Function_load (path : string) (self_type : option string) (sig : ssig) (extern_decl : bool) (attrs : attributes)
  (mod_cfg : option Cfg) : option Function :=
  let? args := try_skip_map as_argument (sg_inputs sig) in
  let args := (args ++ if sg_variadic sig then [argument None (TPrim PVaList)] else [])%list in
  let? r := Type_load_from_output (sg_output sig) in
  let self t := match self_type with Some p => replace_self_with p t | None => t end in
  let? ann := AnnotationSet_load attrs in
  Some {| f_path := path; f_self_type_path := self_type; f_ret := self (fst r); f_args := map (map_a_ty self) args;
          f_extern_decl := extern_decl; f_cfg := Cfg_append mod_cfg (Cfg_of_attrs attrs); f_annotations := ann;
          f_documentation := Documentation_load attrs; f_never_return := snd r |}.

(** ** Structs, unions, typedefs, statics, opaque items *)

(** config.rs:397-405 *)
Definition ensure_safe_to_represent (l : LayoutConfig) (a : option ReprAlign) : option unit :=
  match a with
  | Some Packed => let? _ := ly_packed l in Some tt
  | Some (Align _) => let? _ := ly_aligned_n l in Some tt
  | None => Some tt
  end.
(** structure.rs:79-96: only fields that have a size are counted. *)
Fixpoint load_tuple_fields (current : nat) (path : string) (l : list sfield) : option (list Field) :=
  match l with
  | [] => Some []
  | f :: r =>
      let? c := Type_load (sf_ty f) in
      match c with
      | None => load_tuple_fields current path r
      | Some ty =>
          let? ann := AnnotationSet_load (sf_attrs f) in
          let? out := load_tuple_fields (S current) path r in
          Some ({| fd_name := decimal (N.of_nat current); fd_ty := replace_self_with path ty; fd_cfg := Cfg_of_attrs (sf_attrs f);
                   fd_annotations := ann; fd_documentation := Documentation_load (sf_attrs f) |} :: out)
      end
  end.
(** structure.rs:53-115 *)
Definition Struct_load (layout : LayoutConfig) (attrs : attributes) (ident : string) (generics : list sgparam) (fields : sfields)
  (mod_cfg : option Cfg) : option Struct :=
  let? repr := Repr_load attrs in
  let? transparent := match rp_style repr with ReprC => Some false | ReprTransparent => Some true | ReprRust => None end in
  let path := unraw ident in
  let? _ := ensure_safe_to_represent layout (rp_align repr) in
  let? fs := match fields with
             | FieldsUnit => Some []
             | FieldsNamed l => try_skip_map (fun f => Field_load f path) l
             | FieldsUnnamed l => load_tuple_fields 0 path l
             end in
  let? gps := GenericParams_load generics in
  let? ann := AnnotationSet_load attrs in
  Some (Struct_new path gps fs false false (rp_align repr) transparent (Cfg_append mod_cfg (Cfg_of_attrs attrs)) ann
          (Documentation_load attrs)).
(** union.rs:34-72 *)
Definition Union_load (layout : LayoutConfig) (attrs : attributes) (ident : string) (generics : list sgparam) (fields : list sfield)
  (mod_cfg : option Cfg) : option Union :=
  let? repr := Repr_load attrs in
  if negb (ReprStyle_eqb (rp_style repr) ReprC) then None
  else
    let? _ := ensure_safe_to_represent layout (rp_align repr) in
    let path := unraw ident in
    let? fs := try_skip_map (fun f => Field_load f path) fields in
    let? gps := GenericParams_load generics in
    let? ann := AnnotationSet_load attrs in
    Some (Union_new path gps fs (rp_align repr) false (Cfg_append mod_cfg (Cfg_of_attrs attrs)) ann (Documentation_load attrs)).
(** typedef.rs:33-50 *)
Definition Typedef_load (attrs : attributes) (ident : string) (generics : list sgparam) (ty : sty) (mod_cfg : option Cfg) : option Typedef :=
  let? c := Type_load ty in
  let? x := c in
  let? gps := GenericParams_load generics in
  let? ann := AnnotationSet_load attrs in
  Some (Typedef_new (unraw ident) gps x (Cfg_append mod_cfg (Cfg_of_attrs attrs)) ann (Documentation_load attrs)).
(** global.rs:25-46 *)
Definition Static_load (path : string) (attrs : attributes) (mutable : bool) (ty : sty) (mod_cfg : option Cfg) : option Static :=
  let? c := Type_load ty in
  let? x := c in
  let? ann := AnnotationSet_load attrs in
  Some (Static_new path x mutable (Cfg_append mod_cfg (Cfg_of_attrs attrs)) ann (Documentation_load attrs)).
(** opaque.rs:26-40 *)
Definition OpaqueItem_load (path : string) (generics : list sgparam) (attrs : attributes) (mod_cfg : option Cfg) : option OpaqueItem :=
  let? gps := GenericParams_load generics in
  Some (OpaqueItem_new path gps (Cfg_append mod_cfg (Cfg_of_attrs attrs))
          (match AnnotationSet_load attrs with Some a => a | None => AnnotationSet_new end) (Documentation_load attrs)).

(** ** Enums: enumeration.rs *)

(** A load that may also panic. *)
Inductive loaded (A : Type) := Ok (a : A) | Bad | Crash.
Arguments Ok {A} a.
Arguments Bad {A}.
Arguments Crash {A}.
Notation "'load?' x := e 'in' k" := (match e with Ok x => k | Bad => Bad | Crash => Crash end)
  (at level 200, x pattern, right associativity).
Definition or_bad {A} (o : option A) : loaded A := match o with Some a => Ok a | None => Bad end.
Definition or_crash {A} (o : option A) : loaded A := match o with Some a => Ok a | None => Crash end.

(** enumeration.rs:117-157: a field without a name is called by its position in
    the source, also after fields that have no size. *)
Fixpoint load_variant_fields (i : nat) (path : string) (inline_name : option string) (l : list sfield) : option (list Field) :=
  match l with
  | [] => Some []
  | f :: r =>
      let? c := Type_load (sf_ty f) in
      match c with
      | None => load_variant_fields (S i) path inline_name r
      | Some ty =>
          let? ann := AnnotationSet_load (sf_attrs f) in
          let? out := load_variant_fields (S i) path inline_name r in
          let name := match inline_name with
                      | Some n => n
                      | None => match sf_ident f with Some id => unraw id | None => decimal (N.of_nat i) end
                      end in
          Some ({| fd_name := name; fd_ty := replace_self_with path ty; fd_cfg := Cfg_of_attrs (sf_attrs f);
                   fd_annotations := ann; fd_documentation := Documentation_load (sf_attrs f) |} :: out)
      end
  end.
Definition tag_field (inline_name : option string) : Field :=
  from_name_and_type (match inline_name with Some n => n ++ "_tag" | None => "tag" end) (TPath (GenericPath_new "Tag" [])).
Definition parse_fields (inline_tag : bool) (path : string) (inline_name : option string) (l : list sfield) : option (list Field) :=
  let? fs := load_variant_fields 0 path inline_name l in
  Some (if inline_tag then tag_field inline_name :: fs else fs).

Section Enums.
  Context {H : Heck}.

  (** enumeration.rs:98-235; the panic is that of [parse_atom]. *)
  Definition EnumVariant_load (c : Config) (inline_tag : bool) (v : svariant) (gps : GenericParams) (mod_cfg : option Cfg)
    (path : string) (enum_ann : AnnotationSet) : loaded EnumVariant :=
    load? d := match sv_discriminant v with
               | Some e => load? l := or_bad (Literal_load e) in Ok (Some (Literal_replace_self_with path l))
               | None => Ok None
               end in
    let cfg := Cfg_append mod_cfg (Cfg_of_attrs (sv_attrs v)) in
    load? ann := or_bad (AnnotationSet_load (sv_attrs v)) in
    let ann := match an_bool enum_ann "derive-ostream" with Some b => add_default ann "derive-ostream" (ABool b) | None => ann end in
    load? rule := or_crash (rule_or enum_ann "rename-variant-name-fields" (en_rename_variant_name_fields (enumeration c))) in
    let name := RenameRule_apply rule (unraw (sv_ident v)) StructMember in
    let body fs inline casts :=
      VBody name (Struct_new (sv_ident v ++ "_Body") gps fs inline_tag true None false None ann []) inline casts in
    load? b := match sv_fields v with
               | FieldsUnit => Ok (VEmpty ann)
               | FieldsNamed l => load? fs := or_bad (parse_fields inline_tag path None l) in Ok (body fs false false)
               | FieldsUnnamed l =>
                   let casts := Nat.eqb (length l) 1 in
                   let inline := casts && negb (Language_eqb (language c) Cxx) in
                   load? fs := or_bad (parse_fields inline_tag path (if inline then Some name else None) l) in
                   Ok (body fs inline casts)
               end in
    Ok (EnumVariant_new (unraw (sv_ident v)) d b cfg (Documentation_load (sv_attrs v))).

  Fixpoint load_variants (c : Config) (inline_tag : bool) (vs : list svariant) (gps : GenericParams) (mod_cfg : option Cfg)
    (path : string) (ann : AnnotationSet) : loaded (list EnumVariant) :=
    match vs with
    | [] => Ok []
    | v :: r =>
        load? x := EnumVariant_load c inline_tag v gps mod_cfg path ann in
        load? xs := load_variants c inline_tag r gps mod_cfg path ann in
        Ok (x :: xs)
    end.

  (** config.rs:642-647 *)
  Definition add_sentinel (c : EnumConfig) (a : AnnotationSet) : bool :=
    match an_bool a "add-sentinel" with Some b => b | None => en_add_sentinel c end.
  Definition extra_variant (name : string) (doc : Documentation) : EnumVariant :=
    EnumVariant_new name None (VEmpty AnnotationSet_new) None doc.

  (** enumeration.rs:355-429 *)
  Definition Enum_load (c : Config) (attrs : attributes) (ident : string) (generics : list sgparam) (vs : list svariant)
    (mod_cfg : option Cfg) : loaded Enum :=
    load? repr := or_bad (Repr_load attrs) in
    if ReprStyle_eqb (rp_style repr) ReprRust && negb (is_some (rp_ty repr)) then Bad
    else if is_some (rp_align repr) then Bad
    else
      let path := unraw ident in
      load? gps := or_bad (GenericParams_load generics) in
      load? ann := or_bad (AnnotationSet_load attrs) in
      load? variants := load_variants c (inline_tag_field repr) vs gps mod_cfg path ann in
      let trailing := match an_list ann "enum-trailing-values" with Some l => map (fun n => extra_variant n []) l | None => [] end in
      let sentinel := if add_sentinel (enumeration c) ann
                      then [extra_variant "Sentinel" [" Must be last for serialization purposes"]] else [] in
      Ok (Enum_new path gps repr (variants ++ trailing ++ sentinel)%list
            (if existsb (fun v => negb (VariantBody_is_empty (v_body v))) variants then Some "Tag" else None)
            (Cfg_append mod_cfg (Cfg_of_attrs attrs)) ann (Documentation_load attrs)).
End Enums.

(** ** bitflags.rs *)

(** bitflags.rs:148-222: [Name::FLAG.bits()] is replaced; the rest of an
    expression is kept.  Types inside an expression are kept as they are. *)
Section Flags.
  Variables (struct_name : string) (flag_names : list string) (out_of_line is_transparent : bool).
  Definition is_self (i : string) : bool := String.eqb i struct_name || String.eqb i "Self".
  Definition is_flag (e : sexpr) : bool :=
    match e with XPath (SegPath [first] last _) => is_self first && mem_str last flag_names | _ => false end.
  Fixpoint fold_flag (e : sexpr) : sexpr :=
    match e with
    | XMethod r m args =>
        if String.eqb m "bits" && is_nil args && is_flag r
        then if is_transparent then r else XField r (if out_of_line then Unnamed 0 else Named m)
        else XMethod (fold_flag r) m (map fold_flag args)
    | XBinary op a b => XBinary op (fold_flag a) (fold_flag b)
    | XField b m => XField (fold_flag b) m
    | XCall f args => XCall (fold_flag f) (map fold_flag args)
    | XStruct p fields rest => XStruct p (map (fun f => (fst f, fold_flag (snd f))) fields) (option_map fold_flag rest)
    | XUnary op x => XUnary op (fold_flag x)
    | XParen x => XParen (fold_flag x)
    | XCast x t => XCast (fold_flag x) t
    | XArray l => XArray (map fold_flag l)
    | XLit _ | XPath _ | XOther => e
    end.
End Flags.
Definition name_path (n : string) : spath := SegPath [] n NoArgs.
(** bitflags.rs:224-259, 296-314: the constants, as items of the impl block *)
Definition expand_flag (name : string) (repr : sty) (names : list string) (out_of_line transparent : bool)
  (f : attributes * string * sexpr) : simpl_item :=
  let '(attrs, flag, value) := f in
  let v := XCast (XParen (fold_flag name names out_of_line transparent value)) repr in
  ImplConst attrs true flag (SPath (name_path name))
    (if out_of_line || transparent then XCall (XPath (name_path name)) [v]
     else XStruct (name_path name) [([], Named "bits", v)] None).
(** bitflags.rs:282-294: a flag called [_] is left out. *)
Definition flags_kept (b : sbitflags) : list (attributes * string * sexpr) :=
  filter (fun f => negb (String.eqb (snd (fst f)) "_")) (bf_flags b).
Definition expand_flags (b : sbitflags) (out_of_line transparent : bool) : list simpl_item :=
  let flags := flags_kept b in
  map (expand_flag (bf_name b) (bf_repr b) (map (fun f => snd (fst f)) flags) out_of_line transparent) flags.
Definition attrs_transparent (attrs : attributes) : bool :=
  match Repr_load attrs with Some r => ReprStyle_eqb (rp_style r) ReprTransparent | None => false end.
(** bitflags.rs:66-108: the struct's attributes and field, if there is a
    struct, and the items of the impl block *)
Definition expand (b : sbitflags) (out_of_line_transparent : bool) : option (attributes * sfields) * list simpl_item :=
  match bf_attrs b with
  | Some attrs =>
      (Some (attrs, FieldsNamed [{| sf_attrs := []; sf_ident := Some "bits"; sf_ty := bf_repr b |}]),
       expand_flags b false (attrs_transparent attrs))
  | None => (None, expand_flags b true out_of_line_transparent)
  end.

(** ** [Parse]: parser.rs:412-1051 *)

(** parser.rs:411-424.  The source files are paths; the package's version is
    only set in [parse_lib]. *)
Record Parse := {
  pr_constants : ItemMap Constant;
  pr_globals : ItemMap Static;
  pr_enums : ItemMap Enum;
  pr_structs : ItemMap Struct;
  pr_unions : ItemMap Union;
  pr_opaque_items : ItemMap OpaqueItem;
  pr_typedefs : ItemMap Typedef;
  pr_functions : list Function
}.
(** parser.rs:427-440 *)
Definition Parse_new : Parse :=
  {| pr_constants := []; pr_globals := []; pr_enums := []; pr_structs := []; pr_unions := []; pr_opaque_items := [];
     pr_typedefs := []; pr_functions := [] |}.
Definition with_constants (m : ItemMap Constant) (p : Parse) : Parse :=
  {| pr_constants := m; pr_globals := pr_globals p; pr_enums := pr_enums p; pr_structs := pr_structs p; pr_unions := pr_unions p;
     pr_opaque_items := pr_opaque_items p; pr_typedefs := pr_typedefs p; pr_functions := pr_functions p |}.
Definition with_globals (m : ItemMap Static) (p : Parse) : Parse :=
  {| pr_constants := pr_constants p; pr_globals := m; pr_enums := pr_enums p; pr_structs := pr_structs p; pr_unions := pr_unions p;
     pr_opaque_items := pr_opaque_items p; pr_typedefs := pr_typedefs p; pr_functions := pr_functions p |}.
Definition with_enums (m : ItemMap Enum) (p : Parse) : Parse :=
  {| pr_constants := pr_constants p; pr_globals := pr_globals p; pr_enums := m; pr_structs := pr_structs p; pr_unions := pr_unions p;
     pr_opaque_items := pr_opaque_items p; pr_typedefs := pr_typedefs p; pr_functions := pr_functions p |}.
Definition with_structs (m : ItemMap Struct) (p : Parse) : Parse :=
  {| pr_constants := pr_constants p; pr_globals := pr_globals p; pr_enums := pr_enums p; pr_structs := m; pr_unions := pr_unions p;
     pr_opaque_items := pr_opaque_items p; pr_typedefs := pr_typedefs p; pr_functions := pr_functions p |}.
Definition with_unions (m : ItemMap Union) (p : Parse) : Parse :=
  {| pr_constants := pr_constants p; pr_globals := pr_globals p; pr_enums := pr_enums p; pr_structs := pr_structs p; pr_unions := m;
     pr_opaque_items := pr_opaque_items p; pr_typedefs := pr_typedefs p; pr_functions := pr_functions p |}.
Definition with_opaque_items (m : ItemMap OpaqueItem) (p : Parse) : Parse :=
  {| pr_constants := pr_constants p; pr_globals := pr_globals p; pr_enums := pr_enums p; pr_structs := pr_structs p;
     pr_unions := pr_unions p; pr_opaque_items := m; pr_typedefs := pr_typedefs p; pr_functions := pr_functions p |}.
Definition with_typedefs (m : ItemMap Typedef) (p : Parse) : Parse :=
  {| pr_constants := pr_constants p; pr_globals := pr_globals p; pr_enums := pr_enums p; pr_structs := pr_structs p;
     pr_unions := pr_unions p; pr_opaque_items := pr_opaque_items p; pr_typedefs := m; pr_functions := pr_functions p |}.
Definition push_function (f : Function) (p : Parse) : Parse :=
  {| pr_constants := pr_constants p; pr_globals := pr_globals p; pr_enums := pr_enums p; pr_structs := pr_structs p;
     pr_unions := pr_unions p; pr_opaque_items := pr_opaque_items p; pr_typedefs := pr_typedefs p;
     pr_functions := (pr_functions p ++ [f])%list |}.

Definition type_param (n : string) : GenericParam := {| gp_name_ := n; gp_ty := GPType; gp_default := None |}.
(** parser.rs:442-474 *)
Definition std_types : list (string * list string) :=
  [("String", []); ("Box", ["T"]); ("RefCell", ["T"]); ("Rc", ["T"]); ("Arc", ["T"]); ("Result", ["T"; "E"]); ("Option", ["T"]);
   ("NonNull", ["T"]); ("Vec", ["T"]); ("HashMap", ["K"; "V"; "Hasher"]); ("BTreeMap", ["K"; "V"]); ("HashSet", ["T"]);
   ("BTreeSet", ["T"]); ("LinkedList", ["T"]); ("VecDeque", ["T"]); ("ManuallyDrop", ["T"]); ("MaybeUninit", ["T"])].
Definition add_std_types (p : Parse) : Parse :=
  with_opaque_items
    (fold_left (fun m t => fst (try_insert (OpaqueItem_new (fst t) (map type_param (snd t)) None AnnotationSet_new []) m))
       std_types (pr_opaque_items p)) p.
(** parser.rs:476-487 *)
Definition Parse_extend_with (other p : Parse) : Parse :=
  {| pr_constants := extend_with (pr_constants other) (pr_constants p);
     pr_globals := extend_with (pr_globals other) (pr_globals p);
     pr_enums := extend_with (pr_enums other) (pr_enums p);
     pr_structs := extend_with (pr_structs other) (pr_structs p);
     pr_unions := extend_with (pr_unions other) (pr_unions p);
     pr_opaque_items := extend_with (pr_opaque_items other) (pr_opaque_items p);
     pr_typedefs := extend_with (pr_typedefs other) (pr_typedefs p);
     pr_functions := (pr_functions p ++ pr_functions other)%list |}.

(** What the loading of a module is given besides the items: the configuration
    (the setting [macro_expansion.bitflags] apart), the crate whose bindings are
    generated, and the crate the items are in. *)
Record loading := { ld_config : Config; ld_bitflags : bool; ld_binding : string; ld_crate : string }.
Definition top_level (ld : loading) : bool := should_generate_top_level_item (parse (ld_config ld)) (ld_crate ld) (ld_binding ld).

(** parser.rs:699-758 *)
Definition load_fn_declaration (ld : loading) (mod_cfg : option Cfg) (self_type : option string) (sig : ssig) (attrs : attributes)
  (p : Parse) : Parse :=
  if negb (top_level ld) then p
  else
    let is_extern_c := abi_is_omitted (sg_abi sig) || abi_is_c (sg_abi sig) || abi_is_cmse (sg_abi sig) in
    match is_extern_c, fn_exported_name attrs (unraw (sg_ident sig)) with
    | true, Some name => match Function_load name self_type sig false attrs mod_cfg with
                         | Some f => push_function f p
                         | None => p
                         end
    | _, _ => p
    end.

(** parser.rs:604-651 *)
Fixpoint load_foreign_items (ld : loading) (cfg : option Cfg) (items : list (option (attributes * ssig))) (p : Parse) : Parse :=
  match items with
  | [] => p
  | None :: r => load_foreign_items ld cfg r p
  | Some (attrs, sig) :: r =>
      if negb (top_level ld) then p
      else load_foreign_items ld cfg r
             (match Function_load (unraw (sg_ident sig)) None sig true attrs cfg with Some f => push_function f p | None => p end)
  end.
Definition load_syn_foreign_mod (ld : loading) (mod_cfg : option Cfg) (attrs : attributes) (abi : option string)
  (items : list (option (attributes * ssig))) (p : Parse) : Parse :=
  if negb (abi_is_c (Some abi)) && negb (abi_is_omitted (Some abi)) then p
  else load_foreign_items ld (Cfg_append mod_cfg (Cfg_of_attrs attrs)) items p.

(** parser.rs:543-565: the methods of an impl block *)
Definition bare_ident (t : sty) : option string :=
  match t with SPath (SegPath [] ident NoArgs) => Some ident | _ => None end.
Definition load_methods (ld : loading) (mod_cfg : option Cfg) (self_ty : sty) (items : list simpl_item) (p : Parse) : Parse :=
  match bare_ident self_ty with
  | None => p
  | Some i =>
      fold_left (fun p x => match x with
                            | ImplFn attrs _ sig =>
                                if should_skip_parsing attrs then p
                                else load_fn_declaration ld mod_cfg (Some (unraw i)) sig attrs p
                            | _ => p
                            end) items p
  end.

(** parser.rs:786-827; [None] is the panic of [Constant::new].  A constant that
    is not public ends the loop. *)
Fixpoint load_assoc_consts (mod_cfg : option Cfg) (impl_path : string) (items : list simpl_item) (p : Parse) : option Parse :=
  match items with
  | [] => Some p
  | ImplConst attrs public ident ty value :: r =>
      if should_skip_parsing attrs then load_assoc_consts mod_cfg impl_path r p
      else if negb public then Some p
      else match Constant_load (unraw ident ++ impl_path) mod_cfg ty value attrs (Some impl_path) with
           | None => load_assoc_consts mod_cfg impl_path r p
           | Some None => None
           | Some (Some c) =>
               load_assoc_consts mod_cfg impl_path r
                 (match get_items impl_path (pr_structs p) with
                  | Some (_ :: _) => with_structs (for_items_mut impl_path (add_associated_constant c) (pr_structs p)) p
                  | _ => with_constants (fst (try_insert c (pr_constants p))) p
                  end)
           end
  | _ :: r => load_assoc_consts mod_cfg impl_path r p
  end.
(** parser.rs:581-601, 761-785 *)
Definition load_syn_assoc_consts_from_impl (mod_cfg : option Cfg) (self_ty : sty) (items : list simpl_item) (p : Parse) : option Parse :=
  match Type_load self_ty with
  | Some (Some ty) => match get_root_path ty with Some path => load_assoc_consts mod_cfg path items p | None => Some p end
  | _ => Some p
  end.

(** parser.rs:831-868 *)
Definition load_syn_const (ld : loading) (mod_cfg : option Cfg) (attrs : attributes) (public : bool) (ident : string) (ty : sty)
  (value : sexpr) (p : Parse) : option Parse :=
  if negb (top_level ld) then Some p
  else if negb public then Some p
  else match Constant_load (unraw ident) mod_cfg ty value attrs None with
       | None => Some p
       | Some None => None
       | Some (Some c) => Some (with_constants (fst (try_insert c (pr_constants p))) p)
       end.
(** parser.rs:871-905 *)
Definition load_syn_static (ld : loading) (mod_cfg : option Cfg) (attrs : attributes) (ident : string) (mutable : bool) (ty : sty)
  (p : Parse) : Parse :=
  if negb (top_level ld) then p
  else match static_exported_name attrs (unraw ident) with
       | Some name => match Static_load name attrs mutable ty mod_cfg with
                      | Some g => with_globals (fst (try_insert g (pr_globals p))) p
                      | None => p
                      end
       | None => p
       end.
(** parser.rs:922-928 and three times more: the [unwrap] panics. *)
Definition load_opaque (ident : string) (generics : list sgparam) (attrs : attributes) (mod_cfg : option Cfg) (p : Parse) : option Parse :=
  let? o := OpaqueItem_load (unraw ident) generics attrs mod_cfg in
  Some (with_opaque_items (fst (try_insert o (pr_opaque_items p))) p).
(** parser.rs:908-930 *)
Definition load_syn_struct (ld : loading) (mod_cfg : option Cfg) (attrs : attributes) (ident : string) (generics : list sgparam)
  (fields : sfields) (p : Parse) : option Parse :=
  match Struct_load (layout (ld_config ld)) attrs ident generics fields mod_cfg with
  | Some s => Some (with_structs (fst (try_insert s (pr_structs p))) p)
  | None => load_opaque ident generics attrs mod_cfg p
  end.
(** parser.rs:933-956 *)
Definition load_syn_union (ld : loading) (mod_cfg : option Cfg) (attrs : attributes) (ident : string) (generics : list sgparam)
  (fields : list sfield) (p : Parse) : option Parse :=
  match Union_load (layout (ld_config ld)) attrs ident generics fields mod_cfg with
  | Some u => Some (with_unions (fst (try_insert u (pr_unions p))) p)
  | None => load_opaque ident generics attrs mod_cfg p
  end.
(** parser.rs:981-1000 *)
Definition load_syn_ty (mod_cfg : option Cfg) (attrs : attributes) (ident : string) (generics : list sgparam) (ty : sty) (p : Parse) :
  option Parse :=
  match Typedef_load attrs ident generics ty mod_cfg with
  | Some t => Some (with_typedefs (fst (try_insert t (pr_typedefs p))) p)
  | None => load_opaque ident generics attrs mod_cfg p
  end.
(** parser.rs:959-981 *)
Definition load_syn_enum {H : Heck} (ld : loading) (mod_cfg : option Cfg) (attrs : attributes) (ident : string) (generics : list sgparam)
  (vs : list svariant) (p : Parse) : option Parse :=
  match Enum_load (ld_config ld) attrs ident generics vs mod_cfg with
  | Ok e => Some (with_enums (fst (try_insert e (pr_enums p))) p)
  | Bad => load_opaque ident generics attrs mod_cfg p
  | Crash => None
  end.
(** parser.rs:1002-1050 *)
Definition load_builtin_macro (ld : loading) (mod_cfg : option Cfg) (name : string) (flags : option sbitflags) (p : Parse) : option Parse :=
  if negb (String.eqb (unraw name) "bitflags") || negb (ld_bitflags ld) then Some p
  else match flags with
       | None => Some p
       | Some b =>
           let path := unraw (bf_name b) in
           let transparent := existsb s_is_transparent (match get_items path (pr_structs p) with Some l => l | None => [] end) in
           let '(str, consts) := expand b transparent in
           let? p := match str with
                     | Some (attrs, fields) => load_syn_struct ld mod_cfg attrs (bf_name b) [] fields p
                     | None => Some p
                     end in
           let p := with_structs
                      (for_items_mut path
                         (fun s => set_s_annotations (add_default (s_annotations s) "internal-derive-bitflags" (ABool true)) s)
                         (pr_structs p)) p in
           load_syn_assoc_consts_from_impl mod_cfg (SPath (name_path (bf_name b))) consts p
       end.

Section Module.
  Context {H : Heck}.
  Variables (ld : loading) (mod_cfg : option Cfg).

  (** parser.rs:500-571: one item; nested modules are handed back. *)
  Definition load_item (p : Parse) (i : sitem) : option Parse :=
    if should_skip_parsing (item_attrs i) then Some p
    else match i with
         | ItemForeignMod attrs abi items => Some (load_syn_foreign_mod ld mod_cfg attrs abi items p)
         | ItemFn attrs _ sig => Some (load_fn_declaration ld mod_cfg None sig attrs p)
         | ItemConst attrs public ident ty value => load_syn_const ld mod_cfg attrs public ident ty value p
         | ItemStatic attrs ident mutable ty => Some (load_syn_static ld mod_cfg attrs ident mutable ty p)
         | ItemStruct attrs ident generics fields => load_syn_struct ld mod_cfg attrs ident generics fields p
         | ItemUnion attrs ident generics fields => load_syn_union ld mod_cfg attrs ident generics fields p
         | ItemEnum attrs ident generics vs => load_syn_enum ld mod_cfg attrs ident generics vs p
         | ItemType attrs ident generics ty => load_syn_ty mod_cfg attrs ident generics ty p
         | ItemImpl _ self_ty items => Some (load_methods ld mod_cfg self_ty items p)
         | ItemMacro _ name flags => load_builtin_macro ld mod_cfg name flags p
         | ItemMod _ _ _ | ItemOther _ => Some p
         end.
  Fixpoint load_all {A} (f : Parse -> A -> option Parse) (l : list A) (p : Parse) : option Parse :=
    match l with [] => Some p | x :: r => let? q := f p x in load_all f r q end.

  Definition is_impl_const (x : simpl_item) : bool := match x with ImplConst _ _ _ _ _ => true | _ => false end.
  (** parser.rs:535-542: the impl blocks whose constants are loaded after all items *)
  Definition impls_with_assoc_consts (items : list sitem) : list (sty * list simpl_item) :=
    filter_map (fun i => match i with
                         | ItemImpl attrs self_ty l =>
                             if negb (should_skip_parsing attrs) && existsb is_impl_const l then Some (self_ty, l) else None
                         | _ => None
                         end) items.
  (** parser.rs:567-571 *)
  Definition nested_modules (items : list sitem) : list (attributes * string * option (list sitem)) :=
    filter_map (fun i => match i with
                         | ItemMod attrs ident content => if should_skip_parsing attrs then None else Some (attrs, ident, content)
                         | _ => None
                         end) items.
  (** parser.rs:489-579; [None] is a panic *)
  Definition load_syn_crate_mod (items : list sitem) (p : Parse) : option Parse :=
    let? p := load_all load_item items p in
    load_all (fun p x => load_syn_assoc_consts_from_impl mod_cfg (fst x) (snd x) p) (impls_with_assoc_consts items) p.
End Module.
