(** Specifications for names: how definitions and references are spelled (C13)
    and which keyword references carry (C36). *)
Require Import Coq.Strings.String Coq.Lists.List Coq.Bool.Bool.
From Verif Require Import Base M_Config M_Cfg M_Type M_Ir M_Item M_Library S_Item S_Library.
Import ListNotations.

(** A reference to a type or constant: the name it stands for, the name it is
    written as, and its keyword ([struct], [enum], [union]). *)
Record reference := { r_path : string; r_name : string; r_kind : option DeclarationType }.

(** All the references in a type, at any depth. *)
Fixpoint type_refs (t : Ty) : list reference :=
  match t with
  | TPtr u _ _ _ => type_refs u
  | TPath g => path_refs g
  | TPrim _ => []
  | TArray u e => type_refs u ++ const_refs e
  | TFuncPtr r args _ _ => type_refs r ++ concat (map (fun a => type_refs (snd a)) args)
  end
with path_refs (g : GenericPath) : list reference :=
  match g with
  | GPath p e gs c => {| r_path := p; r_name := e; r_kind := c |} :: concat (map arg_refs gs)
  end
with arg_refs (a : GenericArgument) : list reference :=
  match a with GType t => type_refs t | GConst e => const_refs e end
with const_refs (e : ConstExpr) : list reference :=
  match e with EPath g => path_refs g | EValue _ => [] end.

(** The references in a literal: structs built, types of associated constants,
    plain constants, types cast to. *)
Fixpoint lit_refs (v : Literal) : list reference :=
  match v with
  | LExpr _ => []
  | LPath (Some (p, e)) _ => [{| r_path := p; r_name := e; r_kind := None |}]
  | LPath None _ => []
  | LUnary _ a => lit_refs a
  | LBin a _ b => lit_refs a ++ lit_refs b
  | LField a _ => lit_refs a
  | LStruct p e fs => {| r_path := p; r_name := e; r_kind := None |} :: concat (map (fun f => lit_refs (fst (snd f))) fs)
  | LCast t a => type_refs t ++ lit_refs a
  | LArray vs => concat (map lit_refs vs)
  end.
(** The plain constants a literal uses. *)
Fixpoint lit_constants (v : Literal) : list string :=
  match v with
  | LPath None n => [n]
  | LExpr _ | LPath _ _ => []
  | LUnary _ a | LField a _ | LCast _ a => lit_constants a
  | LBin a _ b => lit_constants a ++ lit_constants b
  | LStruct _ _ fs => concat (map (fun f => lit_constants (fst (snd f))) fs)
  | LArray vs => concat (map lit_constants vs)
  end.

(** References with the generic parameters in scope. *)
Definition scoped := (GenericParams * reference)%type.
Definition under (ps : GenericParams) (rs : list reference) : list scoped := map (pair ps) rs.
Definition constant_refs (c : Constant) : list scoped := under [] (type_refs (c_ty c) ++ lit_refs (c_value c)).
Definition fields_refs (ps : GenericParams) (fs : list Field) : list scoped :=
  under ps (concat (map (fun f => type_refs (fd_ty f)) fs)).
Definition struct_refs (s : Struct) : list scoped :=
  fields_refs (s_generic_params s) (own_fields s) ++ concat (map constant_refs (s_associated_constants s)).
Definition variant_refs (v : EnumVariant) : list scoped :=
  match v_body v with VBody _ s _ _ => struct_refs s | VEmpty _ => [] end
  ++ match v_discriminant v with Some d => under [] (lit_refs d) | None => [] end.
Definition item_refs (i : ItemContainer) : list scoped :=
  match i with
  | ICStruct s => struct_refs s
  | ICUnion u => fields_refs (u_generic_params u) (u_fields u)
  | ICEnum e => concat (map variant_refs (e_variants e))
  | ICTypedef t => under (t_generic_params t) (type_refs (t_aliased t))
  | ICOpaque _ => []
  end.
Definition function_refs (f : Function) : list scoped :=
  under [] (type_refs (f_ret f) ++ concat (map (fun a => type_refs (a_ty a)) (f_args f))).
Definition global_refs (g : Static) : list scoped := under [] (type_refs (g_ty g)).

(** Everything the bindings write. *)
Definition written_refs (b : Bindings) : list scoped :=
  concat (map item_refs (b_items b)) ++ concat (map function_refs (b_functions b))
  ++ concat (map global_refs (b_globals b)) ++ concat (map constant_refs (b_constants b)).

Definition ic_export_name (i : ItemContainer) : string :=
  match i with
  | ICOpaque o => o_export_name o | ICStruct s => s_export_name s | ICUnion u => u_export_name u
  | ICEnum e => e_export_name e | ICTypedef t => t_export_name t
  end.

(** ** Libraries as the parser builds them: nothing is renamed yet *)
Definition fresh (r : reference) : Prop := r_name r = r_path r /\ r_kind r = None.
Definition fresh_params (ps : GenericParams) : Prop :=
  forall p a, In p ps -> gp_default p = Some a -> Forall fresh (arg_refs a).
Definition fresh_constant (c : Constant) : Prop :=
  Forall fresh (type_refs (c_ty c)) /\ Forall fresh (lit_refs (c_value c)) /\ (c_associated_to c = None -> c_export_name c = c_path c).
Definition fresh_fields (fs : list Field) : Prop := Forall (fun f => Forall fresh (type_refs (fd_ty f))) fs.
Definition fresh_struct (s : Struct) : Prop :=
  s_export_name s = s_path s /\ fresh_params (s_generic_params s) /\ fresh_fields (s_fields s)
  /\ Forall fresh_constant (s_associated_constants s).
(** The bodies of an enum that is not [repr(C)] start with the tag. *)
Definition fresh_enum (e : Enum) : Prop :=
  e_export_name e = e_path e /\ fresh_params (e_generic_params e)
  /\ forall v, In v (e_variants e) ->
       (forall n s i ic, v_body v = VBody n s i ic -> fresh_struct s /\ s_has_tag_field s = inline_tag_field (e_repr e))
       /\ (forall d, v_discriminant v = Some d -> Forall fresh (lit_refs d)).
Definition fresh_item (i : ItemContainer) : Prop :=
  match i with
  | ICOpaque o => o_export_name o = o_path o
  | ICStruct s => fresh_struct s
  | ICUnion u => u_export_name u = u_path u /\ fresh_params (u_generic_params u) /\ fresh_fields (u_fields u)
  | ICEnum e => fresh_enum e
  | ICTypedef t => t_export_name t = t_path t /\ fresh_params (t_generic_params t) /\ Forall fresh (type_refs (t_aliased t))
  end.
(** The tables were filled by insertions. *)
Record tables_built (l : Library) : Prop := {
  tb_enums : reachable (l_enums l); tb_structs : reachable (l_structs l); tb_unions : reachable (l_unions l);
  tb_opaque : reachable (l_opaque_items l); tb_typedefs : reachable (l_typedefs l) }.
Record as_loaded (l : Library) : Prop := {
  al_tables : tables_built l;
  al_items : Forall fresh_item (defined l);
  al_structs : Forall (fun s => s_has_tag_field s = false) (to_vec (l_structs l));
  al_functions : Forall (fun f => Forall (fun r => fresh (snd r)) (function_refs f)) (l_functions l);
  al_globals : Forall (fun g => Forall (fun r => fresh (snd r)) (global_refs g)) (to_vec (l_globals l));
  al_constants : Forall fresh_constant (to_vec (l_constants l)) }.

(** ** C36 *)
(** The references that get a keyword: those not inside generic arguments or array lengths. *)
Fixpoint outer_refs (t : Ty) : list reference :=
  match t with
  | TPtr u _ _ _ => outer_refs u
  | TPath (GPath p e _ c) => [{| r_path := p; r_name := e; r_kind := c |}]
  | TPrim _ => []
  | TArray u _ => outer_refs u
  | TFuncPtr r args _ _ => outer_refs r ++ concat (map (fun a => outer_refs (snd a)) args)
  end.
Definition struct_outer (s : Struct) : list reference := concat (map (fun f => outer_refs (fd_ty f)) (own_fields s)).
Definition item_outer (i : ItemContainer) : list reference :=
  match i with
  | ICStruct s => struct_outer s
  | ICUnion u => concat (map (fun f => outer_refs (fd_ty f)) (u_fields u))
  | ICEnum e => concat (map (fun v => match v_body v with VBody _ s _ _ => struct_outer s | VEmpty _ => [] end) (e_variants e))
  | ICTypedef t => outer_refs (t_aliased t)
  | ICOpaque _ => []
  end.
Definition function_outer (f : Function) : list reference :=
  outer_refs (f_ret f) ++ concat (map (fun a => outer_refs (a_ty a)) (f_args f)).
(** The references of a library that get a keyword. *)
Definition lib_outer (l : Library) : list reference :=
  concat (map item_outer (defined l)) ++ concat (map function_outer (l_functions l))
  ++ concat (map (fun g => outer_refs (g_ty g)) (to_vec (l_globals l))).

(** The keyword a definition is declared with: none for a typedef, a
    transparent struct and an enum with a fixed integer type. *)
Definition declared_as (i : ItemContainer) : option DeclarationType :=
  match i with
  | ICStruct s => if s_is_transparent s then None else Some DStruct
  | ICUnion _ => Some DUnion
  | ICEnum e => match e_tag e, rp_style (e_repr e) with
                | Some _, ReprC => Some DStruct
                | Some _, _ => Some DUnion
                | None, ReprC => Some DEnum
                | None, _ => None
                end
  | ICTypedef _ => None
  | ICOpaque _ => Some DStruct
  end.
(** The definitions in the order in which names are registered. *)
Definition registered (l : Library) : list ItemContainer :=
  (map ICStruct (to_vec (l_structs l)) ++ map ICEnum (to_vec (l_enums l)) ++ map ICUnion (to_vec (l_unions l))
   ++ map ICTypedef (to_vec (l_typedefs l)) ++ map ICOpaque (to_vec (l_opaque_items l)))%list.
Definition keyword_of (l : Library) (p : string) : option DeclarationType :=
  match find (fun i => String.eqb (ic_path i) p) (registered l) with Some i => declared_as i | None => None end.
