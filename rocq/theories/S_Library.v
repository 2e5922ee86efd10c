(** Specifications for the library passes: what mentions what (C09), the three
    classes of the final order (C10). *)
Require Import Coq.Strings.String Coq.Lists.List Coq.Bool.Bool Coq.Relations.Relation_Operators Coq.Sorting.Permutation.
From Verif Require Import Base M_Config M_Cfg M_Type M_Ir M_Item M_Library S_Sort.
Import ListNotations.

(** ** C09: a type mentions a name if the name occurs anywhere in it, except as
    a generic parameter or inside an array length or constant argument. *)
Inductive occurs (params : GenericParams) : Ty -> string -> Prop :=
| occ_ptr t c n r q : occurs params t q -> occurs params (TPtr t c n r) q
| occ_array t e q : occurs params t q -> occurs params (TArray t e) q
| occ_ret t args n nv q : occurs params t q -> occurs params (TFuncPtr t args n nv) q
| occ_arg t args n nv a q : In a args -> occurs params (snd a) q -> occurs params (TFuncPtr t args n nv) q
| occ_name p e gs c : is_generic_param params p = false -> occurs params (TPath (GPath p e gs c)) p
| occ_generic p e gs c t q : In (GType t) gs -> occurs params t q -> occurs params (TPath (GPath p e gs c)) q.

(** Structs built and types whose constants are used, anywhere in a literal. *)
Inductive lit_occurs : Literal -> string -> Prop :=
| lo_struct p e fs : lit_occurs (LStruct p e fs) p
| lo_assoc p e n : lit_occurs (LPath (Some (p, e)) n) p
| lo_unary op v q : lit_occurs v q -> lit_occurs (LUnary op v) q
| lo_left a op b q : lit_occurs a q -> lit_occurs (LBin a op b) q
| lo_right a op b q : lit_occurs b q -> lit_occurs (LBin a op b) q
| lo_field b f q : lit_occurs b q -> lit_occurs (LField b f) q
| lo_member p e fs n v cfg q : In (n, (v, cfg)) fs -> lit_occurs v q -> lit_occurs (LStruct p e fs) q
| lo_cast t v q : lit_occurs v q -> lit_occurs (LCast t v) q
| lo_item items v q : In v items -> lit_occurs v q -> lit_occurs (LArray items) q.

Definition const_mentions (c : Constant) (q : string) : Prop := occurs [] (c_ty c) q \/ lit_occurs (c_value c) q.
(** The generated tag field of an inlined variant is not a mention. *)
Definition own_fields (s : Struct) : list Field := if s_has_tag_field s then tl (s_fields s) else s_fields s.
Definition struct_mentions (s : Struct) (q : string) : Prop :=
  (exists f, In f (own_fields s) /\ occurs (s_generic_params s) (fd_ty f) q)
  \/ (exists c, In c (s_associated_constants s) /\ const_mentions c q).
Definition item_mentions (i : ItemContainer) (q : string) : Prop :=
  match i with
  | ICOpaque _ => False
  | ICStruct s => struct_mentions s q
  | ICUnion u => exists f, In f (u_fields u) /\ occurs (u_generic_params u) (fd_ty f) q
  | ICEnum e => exists v, In v (e_variants e) /\
      ((exists n s i ic, v_body v = VBody n s i ic /\ struct_mentions s q)
       \/ (exists d, v_discriminant v = Some d /\ lit_occurs d q))
  | ICTypedef t => occurs (t_generic_params t) (t_aliased t) q
  end.
Definition fun_mentions (f : Function) (q : string) : Prop :=
  occurs [] (f_ret f) q \/ exists a, In a (f_args f) /\ occurs [] (a_ty a) q.

(** The reference graph between the names a library knows. *)
Definition known (l : Library) (p : string) : Prop := exists items, lib_get_items l p = Some items.
Definition items_of (l : Library) (p : string) : list ItemContainer :=
  match lib_get_items l p with Some items => items | None => [] end.
Definition refers (l : Library) (p q : string) : Prop :=
  known l q /\ exists i, In i (items_of l p) /\ item_mentions i q.
Definition reaches (l : Library) : string -> string -> Prop := clos_refl_trans string (refers l).

(** The names that must be exported. *)
Definition root (l : Library) (q : string) : Prop :=
  known l q /\
  ((exists f, In f (l_functions l) /\ fun_mentions f q)
   \/ (exists g, In g (to_vec (l_globals l)) /\ occurs [] (g_ty g) q)
   \/ (exists c, In c (to_vec (l_constants l)) /\ const_mentions c q)
   \/ In q (ex_include (export (l_config l)))).
Definition exported (l : Library) (q : string) : Prop := exists r, root l r /\ reaches l r q.

(** [x] occurs before [y] in a list. *)
Definition before {A} (x y : A) (l : list A) : Prop := exists a b c, l = (a ++ x :: b ++ y :: c)%list.

(** ** C10 *)
Definition fieldless_enum (i : ItemContainer) : bool :=
  match i with ICEnum e => match e_tag e with None => true | Some _ => false end | _ => false end.
Definition opaque_type (i : ItemContainer) : bool := match i with ICOpaque _ => true | _ => false end.
Definition other_item (i : ItemContainer) : bool := negb (fieldless_enum i) && negb (opaque_type i).

(** ** C11 *)
Definition kind_of (i : ItemContainer) : ItemType :=
  match i with
  | ICOpaque _ => OpaqueItems | ICStruct _ => Structs | ICUnion _ => Unions | ICEnum _ => Enums | ICTypedef _ => Typedefs
  end.
(** A kind is wanted if no kinds are listed or it is among them. *)
Definition wanted (c : Config) (k : ItemType) : Prop :=
  ex_item_types (export c) = [] \/ In k (ex_item_types (export c)).
(** Every type definition in the tables of a library. *)
Definition defined (l : Library) : list ItemContainer :=
  (map ICEnum (to_vec (l_enums l)) ++ map ICStruct (to_vec (l_structs l)) ++ map ICUnion (to_vec (l_unions l))
   ++ map ICOpaque (to_vec (l_opaque_items l)) ++ map ICTypedef (to_vec (l_typedefs l)))%list.

(** ** C12 *)
Definition is_excluded (c : Config) (n : string) : Prop := In n (ex_exclude (export c)).
(** ** C37: sorting by name on request *)

Definition sorted_by {A} (key : SortKey) (path : A -> string) (l l' : list A) : Prop :=
  match key with
  | SortName => stable_sort_of (fun a b => str_leb (path a) (path b)) l l'
  | SortNone => l' = l
  end.
(** The same declaration, except for how its types, arguments, values and names are rendered. *)
Record same_function (f g : Function) : Prop := {
  sf_path : f_path g = f_path f; sf_self : f_self_type_path g = f_self_type_path f;
  sf_extern : f_extern_decl g = f_extern_decl f; sf_cfg : f_cfg g = f_cfg f;
  sf_ann : f_annotations g = f_annotations f; sf_doc : f_documentation g = f_documentation f;
  sf_never : f_never_return g = f_never_return f; sf_args : length (f_args g) = length (f_args f) }.
Record same_static (g h : Static) : Prop := {
  sg_path : g_path h = g_path g; sg_name : g_export_name h = g_export_name g; sg_mut : g_mutable h = g_mutable g;
  sg_cfg : g_cfg h = g_cfg g; sg_ann : g_annotations h = g_annotations g; sg_doc : g_documentation h = g_documentation g }.
Record same_constant (c d : Constant) : Prop := {
  sc_path : c_path d = c_path c; sc_cfg : c_cfg d = c_cfg c; sc_ann : c_annotations d = c_annotations c;
  sc_doc : c_documentation d = c_documentation c; sc_assoc : c_associated_to d = c_associated_to c }.
Definition not_excluded (c : Config) (n : string) : bool := negb (mem_str n (ex_exclude (export c))).

(** ** C38: annotations of a typedef go to the type it names *)
(** The annotations to move to the definitions of [p]: those of the first annotated typedef whose target is [p]. *)
Definition donates (p : string) (t : Typedef) : bool :=
  negb (an_is_empty (t_annotations t)) && match get_root_path (t_aliased t) with Some q => String.eqb q p | None => false end.
Definition donated (ts : list Typedef) (p : string) : option AnnotationSet :=
  option_map t_annotations (find (donates p) ts).
Definition annotate {T} {I : Item T} (a : AnnotationSet) (x : T) : T :=
  if an_is_empty (i_annotations x) then i_set_annotations a x else x.
Definition some_bare {T} {I : Item T} (p : string) (m : ItemMap T) : bool :=
  match get_items p m with Some xs => existsb (fun x => an_is_empty (i_annotations x)) xs | None => false end.

(** ** C39: the same literal, with the fields of struct literals met in another order *)
Inductive same_literal : Literal -> Literal -> Prop :=
| sl_expr s : same_literal (LExpr s) (LExpr s)
| sl_path a n : same_literal (LPath a n) (LPath a n)
| sl_unary op v w : same_literal v w -> same_literal (LUnary op v) (LUnary op w)
| sl_bin a b op v w : same_literal a b -> same_literal v w -> same_literal (LBin a op v) (LBin b op w)
| sl_field a b f : same_literal a b -> same_literal (LField a f) (LField b f)
| sl_struct p e fs fs' gs : Permutation fs fs' ->
    Forall2 (fun a b => fst a = fst b /\ same_literal (fst (snd a)) (fst (snd b)) /\ snd (snd a) = snd (snd b)) fs' gs ->
    same_literal (LStruct p e fs) (LStruct p e gs)
| sl_cast t v w : same_literal v w -> same_literal (LCast t v) (LCast t w)
| sl_array vs ws : Forall2 same_literal vs ws -> same_literal (LArray vs) (LArray ws).
Definition same_value (c d : Constant) : Prop :=
  c_path d = c_path c /\ c_export_name d = c_export_name c /\ c_ty d = c_ty c /\ same_literal (c_value c) (c_value d)
  /\ c_cfg d = c_cfg c /\ c_annotations d = c_annotations c /\ c_documentation d = c_documentation c /\ c_associated_to d = c_associated_to c.
(** Libraries that differ only in the iteration order of the struct literals of their constants. *)
Definition same_but_literals (l k : Library) : Prop :=
  Forall2 same_value (to_vec (l_constants l)) (to_vec (l_constants k))
  /\ l_config k = l_config l /\ l_globals k = l_globals l /\ l_enums k = l_enums l /\ l_structs k = l_structs l
  /\ l_unions k = l_unions l /\ l_opaque_items k = l_opaque_items l /\ l_typedefs k = l_typedefs l /\ l_functions k = l_functions l.
