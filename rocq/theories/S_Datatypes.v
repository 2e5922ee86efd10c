(** Specification of what is declared for the structs, unions, type aliases and
    statics of the sources (C44). *)
Require Import Coq.Strings.String Coq.Lists.List Coq.Bool.Bool Coq.NArith.NArith.
From Verif Require Import Base M_Config M_Cfg S_Cfg M_Type M_Ir M_Attr M_Docs M_Syn S_Decl M_Loader M_Reserved M_Library M_Bindings M_Backend S_Library S_Names S_Parse S_Sources S_Signature S_File S_Shown.
Import ListNotations.
Open Scope string_scope.

(** ** Fields *)
(** Types that take no room: [()] and the markers *)
Definition sizeless (t : sty) : bool :=
  match t with
  | STuple [] => true
  | SPath (SegPath _ ident _) => mem_str (unraw ident) ["PhantomData"; "PhantomPinned"]
  | _ => false
  end.
(** The fields that are declared, each with its name in Rust; a field of a
    tuple is known by its number among them. *)
Fixpoint members (named : bool) (position : nat) (l : list sfield) : list (string * sfield) :=
  match l with
  | [] => []
  | f :: r =>
      if sizeless (sf_ty f) then members named position r
      else (match named, sf_ident f with true, Some i => unraw i | _, _ => decimal (N.of_nat position) end, f) :: members named (S position) r
  end.
Definition struct_members (f : sfields) : list (string * sfield) :=
  match f with FieldsUnit => [] | FieldsNamed l => members true 0 l | FieldsUnnamed l => members false 0 l end.

(** The names they are declared with: those listed in the annotation
    [field-names], by position; else the names in Rust, changed as the
    annotation [rename-all] or the configuration asks; else the names in Rust,
    with an underscore before a number. *)
Definition replace_first (given own : list string) : list string := (firstn (length own) given ++ skipn (length given) own)%list.
Definition field_names {H : Heck} (c : Config) (ann : AnnotationSet) (own : list string) : option (list string) :=
  let? rule := rule_or ann "rename-all" (st_rename_fields (structure c)) in
  Some (match an_list ann "field-names", rule with
        | Some given, _ => replace_first given own
        | None, RNone => map (fun n => if starts_with_digit n then "_" ++ n else n) own
        | None, r => map (fun n => RenameRule_apply r n StructMember) own
        end).

(** [f] is what is declared for the source field [m] of the type [self], under
    the name [n]: of the C type that stands for the type of [m], in the same
    conditions, with its documentation and annotations. *)
Record field_for (c : Config) (keyword : string -> option DeclarationType) (self : string) (n : string) (m : sfield) (f : Field) : Prop := {
  ff_name : fd_name f = n;
  ff_type : forall t, rust_type c keyword (Some self) false false (sf_ty m) = Some t -> declarable c (fd_ty f) = true /\ c_type c false (fd_ty f) = t;
  ff_cfg : forall rho, cfg_eval_opt rho (fd_cfg f) = attrs_hold rho (sf_attrs m);
  ff_annotations : AnnotationSet_load (sf_attrs m) = Some (fd_annotations f);
  ff_documentation : fd_documentation f = Documentation_load (sf_attrs m) }.
(** One field for each member, in order *)
Inductive fields_for (c : Config) (keyword : string -> option DeclarationType) (self : string) : list string -> list (string * sfield) -> list Field -> Prop :=
| fs_nil : fields_for c keyword self [] [] []
| fs_cons : forall n m f ns ms fs, field_for c keyword self n (snd m) f -> fields_for c keyword self ns ms fs ->
    fields_for c keyword self (n :: ns) (m :: ms) (f :: fs).

(** ** The items of the sources *)
(** [here]: when the module the item is in exists *)
Definition in_condition (here : (atom -> bool) -> bool) (attrs : attributes) (g : option Cfg) : Prop :=
  forall rho, cfg_eval_opt rho g = here rho && attrs_hold rho attrs.
(** The struct an item defines, as its attributes, name, parameters and fields;
    [bitflags!] defines one with the field [bits]. *)
Inductive defines_struct : sitem -> attributes -> string -> list sgparam -> sfields -> Prop :=
| ds_struct : forall attrs ident generics fields, defines_struct (ItemStruct attrs ident generics fields) attrs ident generics fields
| ds_flags : forall attrs m b own, bf_attrs b = Some own ->
    defines_struct (ItemMacro attrs m (Some b)) own (bf_name b) [] (FieldsNamed [{| sf_attrs := []; sf_ident := Some "bits"; sf_ty := bf_repr b |}]).

(** Type parameters are written as they are. *)
Definition parameters_kept (c : Config) (ps : GenericParams) : Prop := Forall (fun p => export_rename (export c) (gp_name_ p) = gp_name_ p) ps.

(** The configuration says how the alignment that is asked for is written. *)
Definition alignment_known (c : Config) (a : option ReprAlign) : Prop :=
  match a with
  | Some Packed => ly_packed (layout c) <> None
  | Some (Align _) => ly_aligned_n (layout c) <> None
  | None => True
  end.

(** [s] is declared for the struct [ident]. *)
Record struct_for {H : Heck} (c : Config) (keyword : string -> option DeclarationType) (here : (atom -> bool) -> bool)
  (attrs : attributes) (ident : string) (generics : list sgparam) (fields : sfields) (s : Struct) : Prop := {
  sf_path : s_path s = unraw ident;
  sf_name : s_export_name s = export_rename (export c) (unraw ident);
  sf_params : GenericParams_load generics = Some (s_generic_params s);
  sf_cfg : in_condition here attrs (s_cfg s);
  sf_documentation : s_documentation s = Documentation_load attrs;
  sf_layout : exists r, Repr_load attrs = Some r /\ s_alignment s = rp_align r
    /\ (rp_style r = ReprC /\ s_is_transparent s = false \/ rp_style r = ReprTransparent /\ s_is_transparent s = negb (is_nil (s_fields s)));
  sf_attribute : alignment_known c (s_alignment s);
  sf_fields : parameters_kept c (s_generic_params s) ->
    exists names, field_names c (s_annotations s) (map fst (struct_members fields)) = Some names
      /\ fields_for c keyword (unraw ident) (map escape_str names) (struct_members fields) (s_fields s) }.
Record union_for {H : Heck} (c : Config) (keyword : string -> option DeclarationType) (here : (atom -> bool) -> bool)
  (attrs : attributes) (ident : string) (generics : list sgparam) (fields : list sfield) (u : Union) : Prop := {
  uf_path : u_path u = unraw ident;
  uf_name : u_export_name u = export_rename (export c) (unraw ident);
  uf_params : GenericParams_load generics = Some (u_generic_params u);
  uf_cfg : in_condition here attrs (u_cfg u);
  uf_documentation : u_documentation u = Documentation_load attrs;
  uf_layout : exists r, Repr_load attrs = Some r /\ u_alignment u = rp_align r /\ rp_style r = ReprC;
  uf_attribute : alignment_known c (u_alignment u);
  uf_fields : parameters_kept c (u_generic_params u) -> Forall (fun m => starts_with_digit (fst m) = false) (members true 0 fields) ->
    exists names, field_names c (u_annotations u) (map fst (members true 0 fields)) = Some names
      /\ fields_for c keyword (unraw ident) names (members true 0 fields) (u_fields u) }.
Record typedef_for (c : Config) (keyword : string -> option DeclarationType) (here : (atom -> bool) -> bool)
  (attrs : attributes) (ident : string) (generics : list sgparam) (ty : sty) (t : Typedef) : Prop := {
  tf_path : t_path t = unraw ident;
  tf_name : t_export_name t = export_rename (export c) (unraw ident);
  tf_params : GenericParams_load generics = Some (t_generic_params t);
  tf_cfg : in_condition here attrs (t_cfg t);
  tf_documentation : t_documentation t = Documentation_load attrs;
  tf_type : parameters_kept c (t_generic_params t) ->
    forall x, rust_type c keyword None false false ty = Some x -> declarable c (t_aliased t) = true /\ c_type c false (t_aliased t) = x }.
Record static_for (c : Config) (keyword : string -> option DeclarationType) (here : (atom -> bool) -> bool)
  (name : string) (attrs : attributes) (mutable : bool) (ty : sty) (g : Static) : Prop := {
  gf_path : g_path g = name;
  gf_name : g_export_name g = name;
  gf_mutable : g_mutable g = mutable;
  gf_cfg : in_condition here attrs (g_cfg g);
  gf_annotations : AnnotationSet_load attrs = Some (g_annotations g);
  gf_documentation : g_documentation g = Documentation_load attrs;
  gf_type : forall x, rust_type c keyword None false false ty = Some x -> declarable c (g_ty g) = true /\ c_type c false (g_ty g) = x }.

(** ** Where the declarations come from *)
(** The item [i] of the module [v] is read. *)
Definition item_read (vss : list (list visit)) (rs : list reading) (v : visit) (i : sitem) : Prop :=
  In v (modules_read vss rs) /\ In i (vi_items v) /\ should_skip_parsing (item_attrs i) = false.
(** The conditions on the way to the module *)
Definition module_holds (v : visit) (rho : atom -> bool) : bool := guards_hold rho (vi_guards v).
(** The name of an instance of a generic definition; there are instances in C
    and Cython only. *)
Definition instance_path {H : Heck} (c : Config) (path : string) : Prop :=
  language c <> Cxx /\ exists p args, args <> [] /\ path = mangle_path p args (ex_mangle (export c)).
Record declared_from_sources {H : Heck} (c : Config) (keyword : string -> option DeclarationType) (vss : list (list visit)) (rs : list reading)
  (b : Bindings) : Prop := {
  df_structs : forall s, In (ICStruct s) (b_items b) -> instance_path c (s_path s) \/
    exists v i attrs ident generics fields, item_read vss rs v i /\ defines_struct i attrs ident generics fields
      /\ struct_for c keyword (module_holds v) attrs ident generics fields s;
  df_unions : forall u, In (ICUnion u) (b_items b) -> instance_path c (u_path u) \/
    exists v attrs ident generics fields, item_read vss rs v (ItemUnion attrs ident generics fields)
      /\ union_for c keyword (module_holds v) attrs ident generics fields u;
  df_typedefs : forall t, In (ICTypedef t) (b_items b) -> instance_path c (t_path t) \/
    exists v attrs ident generics ty, item_read vss rs v (ItemType attrs ident generics ty)
      /\ typedef_for c keyword (module_holds v) attrs ident generics ty t;
  df_globals : forall g, In g (b_globals b) ->
    exists v attrs ident mutable ty name, item_read vss rs v (ItemStatic attrs ident mutable ty)
      /\ (exports_ok v -> symbol attrs (unraw ident) name)
      /\ static_for c keyword (module_holds v) name attrs mutable ty g }.

(** ** In the text *)
(** A declaration of [n] with the C type the Rust type [t] stands for, if it stands for one *)
Definition says (c : Config) (keyword : string -> option DeclarationType) (self : option string) (n : string) (t : sty) : piece := fun s =>
  forall x, rust_type c keyword self false false t = Some x -> usable c n = true -> declares (dialect_of c) s (Some n) x.
(** Declarations of all the members, in order *)
Fixpoint says_members (c : Config) (keyword : string -> option DeclarationType) (self : string) (ns : list string) (ms : list (string * sfield)) : list piece :=
  match ns, ms with
  | n :: ns, m :: ms => says c keyword (Some self) n (sf_ty (snd m)) :: says_members c keyword self ns ms
  | _, _ => []
  end.
(** The name of a struct or union: before its members, after them for a typedef, or both *)
Definition name_before (c : Config) (name : string) : list piece :=
  match language c, style c with C, Type_ => [] | _, _ => [say name] end.
Definition name_after (c : Config) (name : string) : list piece :=
  match language c, style c with C, Tag => [] | C, _ => [say (name ++ ";")] | _, _ => [] end.
Definition says_body (c : Config) (keyword : string -> option DeclarationType) (what name self : string) (ns : list string) (ms : list (string * sfield)) : list piece :=
  (say what :: name_before c name ++ says_members c keyword self ns ms ++ name_after c name)%list.
(** An alias: [using N = T] in C++, else [typedef] with a declaration of [N] *)
Definition says_alias (c : Config) (keyword : string -> option DeclarationType) (self : option string) (name : string) (t : sty) : list piece :=
  match language c with
  | Cxx => [say ("using " ++ name ++ " ="); fun s => forall x, rust_type c keyword self false false t = Some x -> declares (dialect_of c) s None x]
  | C => [say "typedef"; says c keyword self name t]
  | Cython => [say "ctypedef"; says c keyword self name t]
  end.

(** A static that is not a pointer is [const] unless it can be changed. *)
Definition pointer (t : option ctype) : bool := match t with Some (CPtr _ _ _) => true | _ => false end.
Definition says_static (c : Config) (keyword : string -> option DeclarationType) (name : string) (mutable : bool) (t : sty) (text : string) : Prop :=
  exists const before s after, text = before ++ s ++ after
    /\ made_of s ([say "extern"] ++ only const [say "const"] ++ [says c keyword None name t; say ";"])%list
    /\ forall x, rust_type c keyword None false false t = Some x -> pointer (Some x) = false -> const = negb mutable.

(** Every data type and static of the bindings is in the text [t] as its
    definition in the sources says. *)
Record written_from_sources {H : Heck} (c : Config) (keyword : string -> option DeclarationType) (vss : list (list visit)) (rs : list reading)
  (b : Bindings) (t : string) : Prop := {
  wf_structs : forall s, In (ICStruct s) (b_items b) -> kept (s_annotations s) = true -> parameters_kept c (s_generic_params s) ->
    instance_path c (s_path s) \/
    exists v i attrs ident generics fields names, item_read vss rs v i /\ defines_struct i attrs ident generics fields
      /\ field_names c (s_annotations s) (map fst (struct_members fields)) = Some names
      /\ found_in t (match struct_members fields, option_map rp_style (Repr_load attrs) with
                     | m :: _, Some ReprTransparent => says_alias c keyword (Some (unraw ident)) (export_rename (export c) (unraw ident)) (sf_ty (snd m))
                     | ms, _ => says_body c keyword "struct" (export_rename (export c) (unraw ident)) (unraw ident) (map escape_str names) ms
                     end);
  wf_unions : forall u, In (ICUnion u) (b_items b) -> kept (u_annotations u) = true -> parameters_kept c (u_generic_params u) ->
    instance_path c (u_path u) \/
    exists v attrs ident generics fields, item_read vss rs v (ItemUnion attrs ident generics fields)
      /\ (Forall (fun m => starts_with_digit (fst m) = false) (members true 0 fields) ->
          exists names, field_names c (u_annotations u) (map fst (members true 0 fields)) = Some names
          /\ found_in t (says_body c keyword "union" (export_rename (export c) (unraw ident)) (unraw ident) names (members true 0 fields)));
  wf_typedefs : forall x, In (ICTypedef x) (b_items b) -> kept (t_annotations x) = true -> parameters_kept c (t_generic_params x) ->
    instance_path c (t_path x) \/
    exists v attrs ident generics ty, item_read vss rs v (ItemType attrs ident generics ty)
      /\ found_in t (says_alias c keyword None (export_rename (export c) (unraw ident)) ty);
  wf_globals : forall g, In g (b_globals b) -> kept (g_annotations g) = true ->
    exists v attrs ident mutable ty name, item_read vss rs v (ItemStatic attrs ident mutable ty)
      /\ (exports_ok v -> symbol attrs (unraw ident) name)
      /\ says_static c keyword name mutable ty t }.
