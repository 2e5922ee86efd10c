(** Specification of how Rust and C lay out data in memory (C47): the Rust
    types of the sources on one side, the declarations of the header on the
    other.  Sizes, alignments and offsets are in bytes. *)
Require Import Coq.Strings.String Coq.Strings.Ascii Coq.Lists.List Coq.Bool.Bool Coq.NArith.NArith.
From Verif Require Import Base M_Config M_Cfg S_Cfg M_Type M_Ir M_Attr M_Syn S_Decl M_Loader M_Library M_Bindings S_Library S_Names S_Parse S_Sources S_Signature S_Datatypes S_Enums.
Import ListNotations.
Open Scope string_scope.

(** ** Machines *)
(** What machines differ in, as far as it matters: pointers, [long], the
    alignment of the types of 8 bytes, enumerations without a type of their own. *)
Record machine := { pointer_bytes : N; long_bytes : N; wide_alignment : N; enumeration_layout : N * N }.
Section Scalars.
  Variable m : machine.
  Local Open Scope N_scope.
  Definition bytes (n : N) : N * N := (n, if N.eqb n 8 then wide_alignment m else n).
  Definition address : N * N := bytes (pointer_bytes m).
  (** of Rust, and of [std::ffi] and [libc]; integers that are never 0 are as the others *)
  Definition rust_scalars : list (string * (N * N)) :=
    [("bool", (1, 1)); ("char", (4, 4)); ("f32", (4, 4)); ("f64", bytes 8);
     ("u8", (1, 1)); ("u16", (2, 2)); ("u32", (4, 4)); ("u64", bytes 8); ("usize", address);
     ("i8", (1, 1)); ("i16", (2, 2)); ("i32", (4, 4)); ("i64", bytes 8); ("isize", address);
     ("NonZeroU8", (1, 1)); ("NonZeroU16", (2, 2)); ("NonZeroU32", (4, 4)); ("NonZeroU64", bytes 8);
     ("NonZeroI8", (1, 1)); ("NonZeroI16", (2, 2)); ("NonZeroI32", (4, 4)); ("NonZeroI64", bytes 8);
     ("c_char", (1, 1)); ("c_schar", (1, 1)); ("c_uchar", (1, 1)); ("c_short", (2, 2)); ("c_ushort", (2, 2)); ("c_int", (4, 4)); ("c_uint", (4, 4));
     ("c_long", bytes (long_bytes m)); ("c_ulong", bytes (long_bytes m)); ("c_longlong", bytes 8); ("c_ulonglong", bytes 8);
     ("c_float", (4, 4)); ("c_double", bytes 8);
     ("uint8_t", (1, 1)); ("uint16_t", (2, 2)); ("uint32_t", (4, 4)); ("uint64_t", bytes 8); ("uintptr_t", address);
     ("int8_t", (1, 1)); ("int16_t", (2, 2)); ("int32_t", (4, 4)); ("int64_t", bytes 8); ("intptr_t", address);
     ("size_t", address); ("ssize_t", address); ("ptrdiff_t", address); ("RawFd", (4, 4))].
  (** of C (5.2.4.2.1, 7.20, and what all ABIs do) *)
  Definition c_scalars : list (list string * (N * N)) :=
    [(["bool"], (1, 1)); (["char"], (1, 1)); (["signed"; "char"], (1, 1)); (["unsigned"; "char"], (1, 1));
     (["short"], (2, 2)); (["unsigned"; "short"], (2, 2)); (["int"], (4, 4)); (["unsigned"; "int"], (4, 4));
     (["long"], bytes (long_bytes m)); (["unsigned"; "long"], bytes (long_bytes m)); (["long"; "long"], bytes 8); (["unsigned"; "long"; "long"], bytes 8);
     (["float"], (4, 4)); (["double"], bytes 8);
     (["uint8_t"], (1, 1)); (["uint16_t"], (2, 2)); (["uint32_t"], (4, 4)); (["uint64_t"], bytes 8); (["uintptr_t"], address);
     (["int8_t"], (1, 1)); (["int16_t"], (2, 2)); (["int32_t"], (4, 4)); (["int64_t"], bytes 8); (["intptr_t"], address);
     (["size_t"], address); (["ssize_t"], address); (["ptrdiff_t"], address)].
  Fixpoint same_list (a b : list string) : bool :=
    match a, b with [], [] => true | x :: a, y :: b => String.eqb x y && same_list a b | _, _ => false end.
  Definition c_scalar (words : list string) : option (N * N) := option_map snd (find (fun e => same_list (fst e) words) c_scalars).
  (** the integer type an enum is asked to have *)
  Definition integer_layout (k : IntKind) : N * N :=
    match k with
    | B8 => (1, 1) | B16 | KShort => (2, 2) | B32 | KInt => (4, 4) | B64 | KLongLong => bytes 8
    | KLong => bytes (long_bytes m) | KSizeT | KSize => address
    end.
End Scalars.

(** ** Structs and unions *)
(** The fields of a struct are put one after the other, each at the next
    multiple of its alignment, or without gaps if the struct is packed; the size
    is a multiple of the alignment. *)
Section Aggregates.
  Local Open Scope N_scope.
  Definition up (n a : N) : N := match a with 0 => n | _ => (n + (a - 1)) / a * a end.
  Fixpoint place (packed : bool) (from : N) (l : list (N * N)) : list N * N :=
    match l with
    | [] => ([], from)
    | (s, a) :: r => let at_ := if packed then from else up from a in
                     let (offsets, end_) := place packed (at_ + s) r in (at_ :: offsets, end_)
    end.
  Definition largest (l : list N) (least : N) : N := fold_right N.max least l.
  Definition alignment_of (asked : option ReprAlign) (l : list (N * N)) : N :=
    match asked with
    | Some Packed => 1
    | Some (Align n) => N.max n (largest (map snd l) 1)
    | None => largest (map snd l) 1
    end.
  Definition packed (asked : option ReprAlign) : bool := match asked with Some Packed => true | _ => false end.
  Definition struct_layout (asked : option ReprAlign) (l : list (N * N)) : list N * (N * N) :=
    let (offsets, end_) := place (packed asked) 0 l in (offsets, (up end_ (alignment_of asked l), alignment_of asked l)).
  Definition union_layout (asked : option ReprAlign) (l : list (N * N)) : N * N :=
    (up (largest (map fst l) 0) (alignment_of asked l), alignment_of asked l).
  (** an enum that is asked to have an alignment *)
  Definition raised (asked : option ReprAlign) (l : N * N) : N * N :=
    match asked with Some (Align n) => (up (fst l) (N.max n (snd l)), N.max n (snd l)) | _ => l end.
End Aggregates.

(** ** Rust *)
Inductive body := BStruct (fields : sfields) | BUnion (fields : list sfield) | BEnum (variants : list svariant) | BAlias (t : sty).
Inductive defines_type : sitem -> attributes -> string -> body -> Prop :=
| dt_struct : forall i attrs ident generics fields, defines_struct i attrs ident generics fields -> GenericParams_load generics = Some [] -> defines_type i attrs ident (BStruct fields)
| dt_union : forall attrs ident generics fields, GenericParams_load generics = Some [] -> defines_type (ItemUnion attrs ident generics fields) attrs ident (BUnion fields)
| dt_enum : forall attrs ident generics vs, GenericParams_load generics = Some [] -> defines_type (ItemEnum attrs ident generics vs) attrs ident (BEnum vs)
| dt_alias : forall attrs ident generics t, GenericParams_load generics = Some [] -> defines_type (ItemType attrs ident generics t) attrs ident (BAlias t).
Definition transparent_words : list string := ["Cell"; "UnsafeCell"; "SyncUnsafeCell"; "ManuallyDrop"; "MaybeUninit"; "Pin"].
Definition owning_words : list string := ["NonNull"; "Box"].
Definition own_words : list string := (["Option"; "NonZero"; "PhantomData"; "PhantomPinned"; "c_void"] ++ transparent_words ++ owning_words)%list.
Definition lifetimes_only (a : sargs) : bool :=
  match a with NoArgs => true | AngleArgs l => forallb (fun x => match x with ArgLifetime => true | _ => false end) l | ParenArgs => false end.

Section Rust.
  (** the machine, the platform (which flags are set), the values of the
      constants, the sources *)
  Variables (m : machine) (rho : atom -> bool) (value : string -> option N) (vss : list (list visit)) (rs : list reading).
  (** [ident] is defined, on this platform. *)
  Definition defined (attrs : attributes) (ident : string) (x : body) : Prop :=
    exists v i, item_read vss rs v i /\ defines_type i attrs ident x /\ module_holds v rho = true /\ attrs_hold rho attrs = true.
  Definition length_of (e : sexpr) : option N :=
    match e with XLit (LitInt n _) => Some n | XPath (SegPath _ ident NoArgs) => value (unraw ident) | _ => None end.
  (** Pointers to types of variable size are larger than others; [self]: the type [Self] is *)
  Inductive variable_size : option string -> sty -> Prop :=
  | vs_other : forall self, variable_size self SOtherType
  | vs_str : forall self q, variable_size self (SPath (SegPath q "str" NoArgs))
  | vs_inside : forall self q ident u, ~ In (unraw ident) owning_words -> variable_size self u -> variable_size self (SPath (SegPath q ident (AngleArgs [ArgType u])))
  | vs_struct : forall self q ident args attrs ident' fields before f, defined attrs ident' (BStruct fields) -> unraw ident' = self_name self (unraw ident) ->
      source_fields fields = (before ++ [f])%list -> variable_size (Some (unraw ident')) (sf_ty f) -> variable_size self (SPath (SegPath q ident args))
  | vs_alias : forall self q ident args attrs ident' t, defined attrs ident' (BAlias t) -> unraw ident' = self_name self (unraw ident) -> variable_size None t ->
      variable_size self (SPath (SegPath q ident args)).
  (** Types for which [Option] needs no room *)
  Fixpoint never_null (t : sty) : bool :=
    match t with
    | SRef _ _ | SFnPtr _ _ _ => true
    | SPath (SegPath _ ident NoArgs) =>
        mem_str (unraw ident) ["NonZeroU8"; "NonZeroU16"; "NonZeroU32"; "NonZeroU64"; "NonZeroI8"; "NonZeroI16"; "NonZeroI32"; "NonZeroI64"]
    | SPath (SegPath _ ident (AngleArgs [ArgType u])) =>
        mem_str (unraw ident) ["NonNull"; "Box"; "NonZero"] || mem_str (unraw ident) ["ManuallyDrop"; "Pin"] && never_null u
    | _ => false
    end.
  Definition fields_there (l : list sfield) : list sfield := filter (fun f => attrs_hold rho (sf_attrs f)) l.
  Definition variants_there (l : list svariant) : list svariant := filter (fun v => attrs_hold rho (sv_attrs v)) l.
  Definition fields_of (v : svariant) : list sfield := fields_there (source_fields (sv_fields v)).
  Definition tag_layout (t : option ReprType) : N * N := match t with Some t => integer_layout m (rt_kind t) | None => enumeration_layout m end.

  (** [rust_layout self t (size, alignment)] *)
  Inductive rust_layout : option string -> sty -> N * N -> Prop :=
  | rl_scalar : forall self q ident l, lookup (unraw ident) (rust_scalars m) = Some l -> rust_layout self (SPath (SegPath q ident NoArgs)) l
  | rl_nothing : forall self t, sizeless t = true -> rust_layout self t (0, 1)%N
  | rl_reference : forall self k u, ~ variable_size self u -> rust_layout self (SRef k u) (address m)
  | rl_pointer : forall self k u, ~ variable_size self u -> rust_layout self (SPtr k u) (address m)
  | rl_function : forall self i v o, rust_layout self (SFnPtr i v o) (address m)
  | rl_owning : forall self q ident u, In (unraw ident) owning_words -> ~ variable_size self u -> rust_layout self (SPath (SegPath q ident (AngleArgs [ArgType u]))) (address m)
  | rl_array : forall self u e s a n, rust_layout self u (s, a) -> length_of e = Some n -> rust_layout self (SArray u e) (n * s, a)%N
  | rl_inside : forall self q ident u l, In (unraw ident) transparent_words -> rust_layout self u l -> rust_layout self (SPath (SegPath q ident (AngleArgs [ArgType u]))) l
  | rl_nonzero : forall self q ident u l, unraw ident = "NonZero" -> rust_layout self u l -> rust_layout self (SPath (SegPath q ident (AngleArgs [ArgType u]))) l
  | rl_option : forall self q ident u l, unraw ident = "Option" -> never_null u = true -> rust_layout self u l ->
      rust_layout self (SPath (SegPath q ident (AngleArgs [ArgType u]))) l
  | rl_named : forall (self : option string) q ident args attrs ident' x p, lifetimes_only args = true ->
      lookup (unraw ident) (rust_scalars m) = None -> ~ In (unraw ident) own_words ->
      defined attrs ident' x -> unraw ident' = self_name self (unraw ident) -> type_layout (unraw ident') attrs x p ->
      rust_layout self (SPath (SegPath q ident args)) (snd p)
  with fields_layout : string -> list sfield -> list (N * N) -> Prop :=
  | rf_nil : forall self, fields_layout self [] []
  | rf_cons : forall self f l r ls, rust_layout (Some self) (sf_ty f) l -> fields_layout self r ls -> fields_layout self (f :: r) (l :: ls)
  with variants_layout : string -> option (N * N) -> list svariant -> list (N * N) -> Prop :=
  | rv_nil : forall self tag, variants_layout self tag [] []
  | rv_cons : forall self tag v ls r rest, fields_layout self (fields_of v) ls -> variants_layout self tag r rest ->
      variants_layout self tag (v :: r) (snd (struct_layout None (match tag with Some t => t :: ls | None => ls end)) :: rest)
  (** the offsets of the fields, the size and the alignment *)
  with type_layout : string -> attributes -> body -> list N * (N * N) -> Prop :=
  | rt_struct : forall self attrs fields r ls, Repr_load attrs = Some r -> rp_style r = ReprC ->
      fields_layout self (fields_there (source_fields fields)) ls -> type_layout self attrs (BStruct fields) (struct_layout (rp_align r) ls)
  (** the layout of the one field that is not empty *)
  | rt_transparent : forall self attrs fields r before l after, Repr_load attrs = Some r -> rp_style r = ReprTransparent ->
      fields_layout self (fields_there (source_fields fields)) (before ++ l :: after) -> Forall (fun x => x = (0, 1)%N) (before ++ after) ->
      type_layout self attrs (BStruct fields) ([], l)
  | rt_union : forall self attrs fields r ls, Repr_load attrs = Some r -> rp_style r = ReprC ->
      fields_layout self (fields_there fields) ls -> type_layout self attrs (BUnion fields) ([], union_layout (rp_align r) ls)
  (** an enum without data is its tag; one with data is a struct of the tag and
      the union of the data, or, if only the type of the tag is given, the union of structs that start with it *)
  | rt_plain : forall self attrs vs r, Repr_load attrs = Some r -> rp_style r = ReprC \/ rp_style r = ReprRust /\ rp_ty r <> None ->
      Forall (fun v => fields_of v = []) (variants_there vs) -> type_layout self attrs (BEnum vs) ([], raised (rp_align r) (tag_layout (rp_ty r)))
  | rt_tagged : forall self attrs vs r ls, Repr_load attrs = Some r -> rp_style r = ReprC -> ~ Forall (fun v => fields_of v = []) (variants_there vs) ->
      variants_layout self None (variants_there vs) ls ->
      type_layout self attrs (BEnum vs) ([], raised (rp_align r) (snd (struct_layout None [tag_layout (rp_ty r); union_layout None ls])))
  | rt_variants : forall self attrs vs r t ls, Repr_load attrs = Some r -> rp_style r = ReprRust -> rp_ty r = Some t -> ~ Forall (fun v => fields_of v = []) (variants_there vs) ->
      variants_layout self (Some (tag_layout (Some t))) (variants_there vs) ls -> type_layout self attrs (BEnum vs) ([], raised (rp_align r) (union_layout None ls))
  | rt_alias : forall self attrs t l, rust_layout None t l -> type_layout self attrs (BAlias t) ([], l).
End Rust.

(** ** C *)
Definition item_name (i : ItemContainer) : string :=
  match i with
  | ICOpaque o => o_export_name o | ICStruct s => s_export_name s | ICUnion u => u_export_name u | ICEnum e => e_export_name e | ICTypedef t => t_export_name t
  end.
Definition item_cfg_of (i : ItemContainer) : option Cfg :=
  match i with ICOpaque o => o_cfg o | ICStruct s => s_cfg s | ICUnion u => u_cfg u | ICEnum e => e_cfg e | ICTypedef t => t_cfg t end.
Definition digit_value (a : ascii) : option N :=
  let n := N_of_ascii a in if (48 <=? n)%N && (n <=? 57)%N then Some (n - 48)%N else None.
Fixpoint digits_value (acc : N) (s : string) : option N :=
  match s with "" => Some acc | String a r => let? d := digit_value a in digits_value (10 * acc + d) r end.
Section C.
  (** the machine, the macros, the values of the constants, the header *)
  Variables (m : machine) (mu : string -> bool) (value : string -> option N) (b : Bindings).
  Let c : Config := b_config b.
  (** what the preprocessor leaves *)
  Definition there (g : option Cfg) : bool := match to_condition_opt (defines c) g with Some q => cond_eval mu q | None => true end.
  Definition c_fields_there (l : list Field) : list Field := filter (fun f => there (fd_cfg f)) l.
  Definition c_length (s : string) : option N := match digits_value 0 s with Some n => Some n | None => value s end.
  (** attributes are written if the configuration has them *)
  Definition c_asked (a : option ReprAlign) : option ReprAlign :=
    match a with
    | Some Packed => match ly_packed (layout c) with Some _ => a | None => None end
    | Some (Align _) => match ly_aligned_n (layout c) with Some _ => a | None => None end
    | None => None
    end.
  Definition bodies_there (l : list EnumVariant) : list Struct :=
    flat_map (fun v => match v_body v with VBody _ s _ _ => if there (v_cfg v) then [s] else [] | VEmpty _ => [] end) l.
  (** [own]: what a name stands for inside of an enum *)
  Inductive c_layout : option (string * (N * N)) -> ctype -> N * N -> Prop :=
  | cl_scalar : forall (own : option (string * (N * N))) k words l, c_scalar m words = Some l -> c_layout own (CName k None words []) l
  | cl_pointer : forall (own : option (string * (N * N))) q t, c_layout own (CPtr false q t) (address m)
  | cl_array : forall (own : option (string * (N * N))) n t s a k, c_layout own t (s, a) -> c_length n = Some k -> c_layout own (CArr (Some n) t) (k * s, a)%N
  | cl_own : forall (own : option (string * (N * N))) k tag n l, own = Some (n, l) -> c_layout own (CName k tag [n] []) l
  | cl_named : forall (own : option (string * (N * N))) k tag x p, match own with Some (n, _) => item_name x <> n | None => True end ->
      In x (b_items b) -> there (item_cfg_of x) = true -> item_layout x p -> c_layout own (CName k tag [item_name x] []) (snd p)
  with c_fields_layout : option (string * (N * N)) -> list Field -> list (N * N) -> Prop :=
  | cf_nil : forall own, c_fields_layout own [] []
  | cf_cons : forall (own : option (string * (N * N))) f l r ls, c_layout own (c_type c false (fd_ty f)) l -> c_fields_layout own r ls -> c_fields_layout own (f :: r) (l :: ls)
  with bodies_layout : option (string * (N * N)) -> list Struct -> list (N * N) -> Prop :=
  | cb_nil : forall own, bodies_layout own [] []
  | cb_cons : forall (own : option (string * (N * N))) s ls r rest, c_fields_layout own (c_fields_there (s_fields s)) ls -> ls <> [] -> bodies_layout own r rest ->
      bodies_layout own (s :: r) (snd (struct_layout None ls) :: rest)
  (** structs and unions without members are not C, and have another size in C++ *)
  with item_layout : ItemContainer -> list N * (N * N) -> Prop :=
  | ci_struct : forall s ls, s_generic_params s = [] -> as_typedef s = None -> c_fields_layout None (c_fields_there (s_fields s)) ls -> ls <> [] ->
      item_layout (ICStruct s) (struct_layout (c_asked (s_alignment s)) ls)
  | ci_transparent : forall s t l, as_typedef s = Some t -> t_generic_params t = [] -> c_layout None (c_type c false (t_aliased t)) l -> item_layout (ICStruct s) ([], l)
  | ci_union : forall u ls, u_generic_params u = [] -> c_fields_layout None (c_fields_there (u_fields u)) ls -> ls <> [] ->
      item_layout (ICUnion u) ([], union_layout (c_asked (u_alignment u)) ls)
  | ci_plain : forall e, e_generic_params e = [] -> e_tag e = None -> item_layout (ICEnum e) ([], tag_layout m (rp_ty (e_repr e)))
  | ci_tagged : forall e t ls, e_generic_params e = [] -> e_tag e = Some t -> rp_style (e_repr e) = ReprC ->
      bodies_layout (Some (t, tag_layout m (rp_ty (e_repr e)))) (bodies_there (e_variants e)) ls -> ls <> [] ->
      item_layout (ICEnum e) ([], snd (struct_layout None [tag_layout m (rp_ty (e_repr e)); union_layout None ls]))
  | ci_variants : forall e t ls, e_generic_params e = [] -> e_tag e = Some t -> rp_style (e_repr e) <> ReprC ->
      bodies_layout (Some (t, tag_layout m (rp_ty (e_repr e)))) (bodies_there (e_variants e)) ls ->
      item_layout (ICEnum e) ([], union_layout None (tag_layout m (rp_ty (e_repr e)) :: ls))
  | ci_alias : forall t l, t_generic_params t = [] -> c_layout None (c_type c false (t_aliased t)) l -> item_layout (ICTypedef t) ([], l).
End C.

(** ** When they can be compared *)
Definition item_path_of (i : ItemContainer) : string :=
  match i with ICOpaque o => o_path o | ICStruct s => s_path s | ICUnion u => u_path u | ICEnum e => e_path e | ICTypedef t => t_path t end.
(** all conditions in a declaration *)
Definition conditions_in (i : ItemContainer) : list (option Cfg) :=
  item_cfg_of i ::
  match i with
  | ICStruct s => map fd_cfg (s_fields s)
  | ICUnion u => map fd_cfg (u_fields u)
  | ICEnum e => flat_map (fun v => v_cfg v :: match v_body v with VBody _ s _ _ => map fd_cfg (s_fields s) | VEmpty _ => [] end) (e_variants e)
  | _ => []
  end.
Definition whole (l : N * N) : Prop := (1 <= snd l)%N /\ up (fst l) (snd l) = fst l.
(** the types of the fields that are no markers *)
Definition types_in (rho : atom -> bool) (self : string) (x : body) : list (option string * sty) :=
  let types l := map (fun f => (Some self, sf_ty f)) (filter (fun f => negb (sizeless (sf_ty f))) (fields_there rho l)) in
  match x with
  | BStruct fields => types (source_fields fields)
  | BUnion fields => types fields
  | BEnum vs => flat_map (fun v => types (source_fields (sv_fields v))) (variants_there rho vs)
  | BAlias t => [(None, t)]
  end.
Record comparable {H : Heck} (keyword : string -> option DeclarationType) (m : machine) (rho : atom -> bool) (mu : string -> bool) (value c_value : string -> option N) (vss : list (list visit)) (rs : list reading)
  (b : Bindings) : Prop := {
  (** of the machine: the size of each type is a multiple of its alignment *)
  cm_machine : whole (enumeration_layout m) /\ whole (bytes m 8) /\ whole (bytes m (long_bytes m)) /\ whole (address m);
  (** the configuration has a macro for each condition, and it is set as the condition holds *)
  cm_macros : defines_agree (b_config b) rho mu;
  cm_known : forall x g, In x (b_items b) -> In g (conditions_in x) -> known_opt (b_config b) g;
  (** a constant has the same value under its name in C *)
  cm_values : forall n k, value n = Some k -> c_length c_value (export_rename (export (b_config b)) n) = Some k;
  (** on the platform a name is defined once, and different types have different names in C, *)
  cm_once : forall attrs ident x attrs' ident' x', defined rho vss rs attrs ident x -> defined rho vss rs attrs' ident' x' -> unraw ident = unraw ident' -> attrs = attrs' /\ x = x';
  cm_names : forall attrs ident x attrs' ident' x', defined rho vss rs attrs ident x -> defined rho vss rs attrs' ident' x' ->
    export_rename (export (b_config b)) (unraw ident) = export_rename (export (b_config b)) (unraw ident') -> unraw ident = unraw ident';
  (** which are not names of C, nor of instances of generic types, nor of the tags of enums *)
  cm_scalars : forall attrs ident x, defined rho vss rs attrs ident x -> c_scalar m [export_rename (export (b_config b)) (unraw ident)] = None;
  cm_instances : forall x, In x (b_items b) -> instance_path (b_config b) (item_path_of x) ->
    c_scalar m [item_name x] = None /\ forall attrs ident y, defined rho vss rs attrs ident y -> export_rename (export (b_config b)) (unraw ident) <> item_name x;
  cm_tags : forall e t, In (ICEnum e) (b_items b) -> e_tag e = Some t ->
    c_scalar m [t] = None /\ forall attrs ident y, defined rho vss rs attrs ident y -> export_rename (export (b_config b)) (unraw ident) <> t;
  (** the C types of all fields are described *)
  cm_types : forall attrs ident x i, defined rho vss rs attrs ident x -> In i (b_items b) -> item_name i = export_rename (export (b_config b)) (unraw ident) ->
    Forall (fun p => rust_type (b_config b) keyword (fst p) false false (snd p) <> None) (types_in rho (unraw ident) x);
  (** the fields of unions have names *)
  cm_unions : forall v attrs ident generics fields, item_read vss rs v (ItemUnion attrs ident generics fields) ->
    Forall (fun f => match sf_ident f with Some i => starts_with_digit (unraw i) = false | None => False end) fields;
  (** a transparent struct has one field that is no marker, on all platforms *)
  cm_transparent : forall attrs ident fields r, defined rho vss rs attrs ident (BStruct fields) -> Repr_load attrs = Some r -> rp_style r = ReprTransparent ->
    exists f, filter (fun f => negb (sizeless (sf_ty f))) (source_fields fields) = [f] /\ attrs_hold rho (sf_attrs f) = true }.

(** ** The property *)
(** what belongs to the fields that are no markers *)
Fixpoint members_only {A} (fs : list sfield) (l : list A) : list A :=
  match fs, l with f :: fs, x :: l => if sizeless (sf_ty f) then members_only fs l else x :: members_only fs l | _, _ => [] end.
Definition same_offsets (rho : atom -> bool) (x : body) (rust c : list N) : Prop :=
  match x with BStruct fields => c = members_only (fields_there rho (source_fields fields)) rust | _ => True end.
(** Whatever Rust type a C type stands for, it has the same size and alignment;
    and a type the header declares has those of its definition, and each of its
    fields is at the same offset. *)
Record same_layouts {H : Heck} (c : Config) (keyword : string -> option DeclarationType) (m : machine) (rho : atom -> bool) (mu : string -> bool)
  (value c_value : string -> option N) (vss : list (list visit)) (rs : list reading) (b : Bindings) : Prop := {
  sl_types : forall self const t x l l', rust_type c keyword self const false t = Some x -> rust_layout m rho value vss rs self t l -> c_layout m mu c_value b None x l' -> l' = l;
  sl_items : forall attrs ident x p i p', defined rho vss rs attrs ident x -> type_layout m rho value vss rs (unraw ident) attrs x p ->
    In i (b_items b) -> there mu b (item_cfg_of i) = true -> item_name i = export_rename (export c) (unraw ident) -> item_layout m mu c_value b i p' ->
    snd p' = snd p /\ same_offsets rho x (fst p) (fst p') }.
