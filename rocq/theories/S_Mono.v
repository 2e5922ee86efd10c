(** Specification of monomorphisation (C18). *)
Require Import Coq.Strings.String Coq.Lists.List Coq.Bool.Bool.
From Verif Require Import Base M_Config M_Cfg M_Type M_Ir M_Item M_Library S_Item S_Library S_Names.
Import ListNotations.

(** Change every type inside a definition. *)
Definition ic_map_types (f : Ty -> Ty) (i : ItemContainer) : ItemContainer :=
  match i with
  | ICOpaque o => ICOpaque o
  | ICStruct s => ICStruct (map_s_types f s)
  | ICUnion u => ICUnion (map_u_types f u)
  | ICEnum e => ICEnum (map_e_bodies (map_s_types f) e)
  | ICTypedef t => ICTypedef (set_t_aliased (f (t_aliased t)) t)
  end.
Definition ic_generic_params (i : ItemContainer) : GenericParams :=
  match i with
  | ICOpaque o => o_generic_params o | ICStruct s => s_generic_params s | ICUnion u => u_generic_params u
  | ICEnum e => e_generic_params e | ICTypedef t => t_generic_params t
  end.

(** The generic types a type uses, not counting those inside generic arguments. *)
Inductive uses (g : GenericPath) : Ty -> Prop :=
| us_path : gp_generics g <> [] -> uses g (TPath g)
| us_ptr : forall t c n r, uses g t -> uses g (TPtr t c n r)
| us_array : forall t e, uses g t -> uses g (TArray t e)
| us_return : forall r args n nv, uses g r -> uses g (TFuncPtr r args n nv)
| us_argument : forall r args n nv a, In a args -> uses g (snd a) -> uses g (TFuncPtr r args n nv).
(** The types of the fields of a definition. *)
Definition member_types (i : ItemContainer) : list Ty :=
  match i with
  | ICStruct s => map fd_ty (s_fields s)
  | ICUnion u => map fd_ty (u_fields u)
  | ICEnum e => concat (map (fun v => match v_body v with VBody _ s _ _ => map fd_ty (s_fields s) | VEmpty _ => [] end) (e_variants e))
  | ICTypedef t => [t_aliased t]
  | ICOpaque _ => []
  end.
Definition item_uses (i : ItemContainer) (g : GenericPath) : Prop := exists t, In t (member_types i) /\ uses g t.
Definition function_uses (f : Function) (g : GenericPath) : Prop := uses g (f_ret f) \/ exists a, In a (f_args f) /\ uses g (a_ty a).

(** The name of an instance. *)
Definition instance_name {H : Heck} (l : Library) (p : string) (args : list GenericArgument) : string :=
  mangle_path p args (ex_mangle (export (l_config l))).

(** [body_instance l args e p x]: [x] is the instance of one of the bodies of
    the enum [e], whose name is [p]. *)
Inductive body_instance {H : Heck} (l : Library) (args : list GenericArgument) (e : Enum) : string -> ItemContainer -> Prop :=
| bi_body : forall v n s i ic ms, In v (e_variants e) -> v_body v = VBody n s i ic -> GenericParams_call (s_generic_params s) args = Some ms ->
    body_instance l args e (s_path s) (ICStruct (Struct_specialize args ms (export (l_config l)) s)).
(** [instance l args i p x]: instantiating the definition [i] with [args] gives
    [x], an instance of the name [p]: of [i] itself, or of one of its bodies. *)
Inductive instance {H : Heck} (l : Library) (args : list GenericArgument) : ItemContainer -> string -> ItemContainer -> Prop :=
| in_struct : forall s ms, GenericParams_call (s_generic_params s) args = Some ms ->
    instance l args (ICStruct s) (s_path s) (ICStruct (Struct_specialize args ms (export (l_config l)) s))
| in_union : forall u ms, GenericParams_call (u_generic_params u) args = Some ms ->
    instance l args (ICUnion u) (u_path u) (ICUnion (Union_specialize args ms (export (l_config l)) u))
| in_typedef : forall t ms, GenericParams_call (t_generic_params t) args = Some ms ->
    instance l args (ICTypedef t) (t_path t) (ICTypedef (Typedef_specialize args ms (export (l_config l)) t))
| in_opaque : forall o x, OpaqueItem_specialize args (export (l_config l)) o = Some x ->
    instance l args (ICOpaque o) (o_path o) (ICOpaque x)
| in_enum : forall e ms, GenericParams_call (e_generic_params e) args = Some ms ->
    instance l args (ICEnum e) (e_path e) (ICEnum (Enum_specialize args ms (export (l_config l)) e))
| in_body : forall e ms p x, GenericParams_call (e_generic_params e) args = Some ms -> body_instance l args e p x ->
    instance l args (ICEnum e) p x.

(** Names of the bodies of enum variants; no Rust type has them. *)
Definition body_name (l : Library) (p : string) : Prop :=
  exists e v n s i ic, In (ICEnum e) (defined l) /\ In v (e_variants e) /\ v_body v = VBody n s i ic /\ s_path s = p.

(** [t'] is [t] with generic types replaced by the names of their instances;
    generic types that are not defined in the library stay. *)
Inductive replaced {H : Heck} (l : Library) : Ty -> Ty -> Prop :=
| rp_plain : forall g, gp_generics g = [] -> replaced l (TPath g) (TPath g)
| rp_instance : forall g, gp_generics g <> [] -> known l (gp_path g) \/ body_name l (gp_path g) ->
    replaced l (TPath g) (TPath (GenericPath_new (instance_name l (gp_path g) (gp_generics g)) []))
| rp_unknown : forall g, gp_generics g <> [] -> ~ known l (gp_path g) -> replaced l (TPath g) (TPath g)
| rp_ptr : forall t t' c n r, replaced l t t' -> replaced l (TPtr t c n r) (TPtr t' c n r)
| rp_prim : forall p, replaced l (TPrim p) (TPrim p)
| rp_array : forall t t' e, replaced l t t' -> replaced l (TArray t e) (TArray t' e)
| rp_func : forall r r' args args' n nv, replaced l r r' -> Forall2 (fun a a' => fst a' = fst a /\ replaced l (snd a) (snd a')) args args' ->
    replaced l (TFuncPtr r args n nv) (TFuncPtr r' args' n nv).
(** A definition or function is changed in its types only. *)
Definition item_replaced {H : Heck} (l : Library) (i i' : ItemContainer) : Prop :=
  exists f, i' = ic_map_types f i /\ Forall (fun t => replaced l t (f t)) (member_types i).
Definition function_replaced {H : Heck} (l : Library) (h h' : Function) : Prop :=
  exists f, h' = map_f_types f h /\ Forall (fun t => replaced l t (f t)) (f_ret h :: map a_ty (f_args h)).

(** The generic types used in the definitions and functions of a library. *)
Definition used (l : Library) (g : GenericPath) : Prop :=
  (exists i, In i (defined l) /\ ic_generic_params i = [] /\ item_uses i g) \/ (exists f, In f (l_functions l) /\ function_uses f g).
(** The generic types the instances of [g] use. *)
Definition needs {H : Heck} (l : Library) (g h : GenericPath) : Prop :=
  exists items i p x, lib_get_items l (gp_path g) = Some items /\ In i items /\ instance l (gp_generics g) i p x /\ item_uses x h.
(** The instantiations a library needs. *)
Inductive wanted_type {H : Heck} (l : Library) : GenericPath -> Prop :=
| wt_used : forall g, used l g -> wanted_type l g
| wt_needs : forall g h, wanted_type l g -> needs l g h -> wanted_type l h.
(** [x] is one of them. *)
Definition wanted_instance {H : Heck} (l : Library) (x : ItemContainer) : Prop :=
  exists g items i p, wanted_type l g /\ lib_get_items l (gp_path g) = Some items /\ In i items
    /\ instance l (gp_generics g) i p x /\ ic_path x = instance_name l p (gp_generics g).

(** What the pass may rely on: tables filled by insertions, type references as
    the parser makes them, variant bodies with the parameters of their enum. *)
Definition bodies_as_enums (l : Library) : Prop :=
  forall e v n s i ic, In (ICEnum e) (defined l) -> In v (e_variants e) -> v_body v = VBody n s i ic -> s_generic_params s = e_generic_params e.
Record ready (l : Library) : Prop := {
  rd_tables : tables_built l;
  rd_items : Forall fresh_item (defined l);
  rd_functions : Forall (fun f => Forall (fun r => fresh (snd r)) (function_refs f)) (l_functions l);
  rd_bodies : bodies_as_enums l }.

(** For termination: the generic types used by the bodies of an enum, which are
    instantiated before the instance of the enum itself is noted. *)
Definition body_needs {H : Heck} (l : Library) (g h : GenericPath) : Prop :=
  exists items e p x, lib_get_items l (gp_path g) = Some items /\ In (ICEnum e) items /\ body_instance l (gp_generics g) e p x /\ item_uses x h.
(** The arguments fit the parameters of the definition. *)
Definition fits (args : list GenericArgument) (i : ItemContainer) : Prop :=
  match i with
  | ICStruct s => GenericParams_call (s_generic_params s) args <> None
  | ICUnion u => GenericParams_call (u_generic_params u) args <> None
  | ICTypedef t => GenericParams_call (t_generic_params t) args <> None
  | ICEnum e => GenericParams_call (e_generic_params e) args <> None
  | ICOpaque o => o_generic_params o <> [] /\ length args <= length (o_generic_params o)
  end.

(** The types written for the members of a definition: all but the generated tag. *)
Definition written_types (i : ItemContainer) : list Ty :=
  match i with
  | ICStruct s => map fd_ty (own_fields s)
  | ICEnum e => concat (map (fun v => match v_body v with VBody _ s _ _ => map fd_ty (own_fields s) | VEmpty _ => [] end) (e_variants e))
  | _ => member_types i
  end.
(** The guard of a definition. *)
Definition ic_guard (i : ItemContainer) : option Cfg :=
  match i with ICOpaque o => o_cfg o | ICStruct s => s_cfg s | ICUnion u => u_cfg u | ICEnum e => e_cfg e | ICTypedef t => t_cfg t end.

(** [made_from sub i x]: [x] is [i] with another name, no parameters, and
    [sub] applied to its types; all that is written besides is the same. *)
Definition field_from (sub : Ty -> Ty) (f f' : Field) : Prop :=
  fd_name f' = fd_name f /\ fd_ty f' = sub (fd_ty f) /\ fd_cfg f' = fd_cfg f /\ fd_annotations f' = fd_annotations f
  /\ fd_documentation f' = fd_documentation f.
Definition struct_from (sub : Ty -> Ty) (s s' : Struct) : Prop :=
  Forall2 (field_from sub) (s_fields s) (s_fields s') /\ s_has_tag_field s' = s_has_tag_field s
  /\ s_is_enum_variant_body s' = s_is_enum_variant_body s /\ s_alignment s' = s_alignment s
  /\ (s_fields s <> [] -> s_is_transparent s' = s_is_transparent s)
  /\ s_cfg s' = s_cfg s /\ s_annotations s' = s_annotations s /\ s_documentation s' = s_documentation s.
Definition variant_from (sub : Ty -> Ty) (v v' : EnumVariant) : Prop :=
  v_discriminant v' = v_discriminant v /\ v_cfg v' = v_cfg v /\ v_documentation v' = v_documentation v
  /\ match v_body v, v_body v' with
     | VEmpty a, VEmpty a' => a' = a
     | VBody n s i c, VBody n' s' i' c' => n' = n /\ struct_from sub s s' /\ i' = i /\ c' = c
     | _, _ => False
     end.
Definition made_from (sub : Ty -> Ty) (i x : ItemContainer) : Prop :=
  match i, x with
  | ICStruct s, ICStruct s' => struct_from sub s s'
  | ICUnion u, ICUnion u' => Forall2 (field_from sub) (u_fields u) (u_fields u') /\ u_tuple_union u' = u_tuple_union u
      /\ u_alignment u' = u_alignment u /\ u_cfg u' = u_cfg u /\ u_annotations u' = u_annotations u /\ u_documentation u' = u_documentation u
  | ICEnum e, ICEnum e' => Forall2 (variant_from sub) (e_variants e) (e_variants e') /\ e_repr e' = e_repr e /\ e_tag e' = e_tag e
      /\ e_cfg e' = e_cfg e /\ e_annotations e' = e_annotations e /\ e_documentation e' = e_documentation e
  | ICTypedef t, ICTypedef t' => t_aliased t' = sub (t_aliased t) /\ t_cfg t' = t_cfg t /\ t_annotations t' = t_annotations t
      /\ t_documentation t' = t_documentation t
  | ICOpaque o, ICOpaque o' => o_cfg o' = o_cfg o /\ o_annotations o' = o_annotations o /\ o_documentation o' = o_documentation o
  | _, _ => False
  end.
(** [i] itself, or the body of one of its variants. *)
Definition part_of (j i : ItemContainer) : Prop :=
  j = i \/ exists e v n s b c, i = ICEnum e /\ In v (e_variants e) /\ v_body v = VBody n s b c /\ j = ICStruct s.
