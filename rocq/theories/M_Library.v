(** Model of src/bindgen/library.rs, src/bindgen/dependencies.rs,
    src/bindgen/monomorph.rs and the parts of the items they call. *)
Require Import Coq.Strings.String Coq.Lists.List Coq.Bool.Bool Coq.Arith.Arith.
From Verif Require Import Base M_Config M_Cfg M_Type M_Ir M_Item.
Import ListNotations.
Open Scope string_scope.

(** Result of a computation that may panic, or exceed the recursion the model
    allows (the program would exhaust its stack or memory). *)
Inductive outcome (A : Type) := Done (a : A) | Panic | Diverge.
Arguments Done {A} a.
Arguments Panic {A}.
Arguments Diverge {A}.
Notation "'do' x := e 'in' k" := (match e with Done x => k | Panic => Panic | Diverge => Diverge end)
  (at level 200, x pattern, right associativity).
Definition of_option {A} (o : option A) : outcome A := match o with Some a => Done a | None => Panic end.

(** ** The items: impl Item for ... in each file of ir/ *)
#[export] Instance Item_Constant : Item Constant := {
  i_path := c_path; i_cfg := c_cfg; i_annotations := c_annotations;
  i_set_annotations := fun a c => {| c_path := c_path c; c_export_name := c_export_name c; c_ty := c_ty c;
    c_value := c_value c; c_cfg := c_cfg c; c_annotations := a; c_documentation := c_documentation c;
    c_associated_to := c_associated_to c |};
  i_generic_params := fun _ => [] }.
#[export] Instance Item_Static : Item Static := {
  i_path := g_path; i_cfg := g_cfg; i_annotations := g_annotations;
  i_set_annotations := fun a g => {| g_path := g_path g; g_export_name := g_export_name g; g_ty := g_ty g;
    g_mutable := g_mutable g; g_cfg := g_cfg g; g_annotations := a; g_documentation := g_documentation g |};
  i_generic_params := fun _ => [] }.
#[export] Instance Item_Struct : Item Struct := {
  i_path := s_path; i_cfg := s_cfg; i_annotations := s_annotations; i_set_annotations := set_s_annotations;
  i_generic_params := s_generic_params }.
#[export] Instance Item_Union : Item Union := {
  i_path := u_path; i_cfg := u_cfg; i_annotations := u_annotations; i_set_annotations := set_u_annotations;
  i_generic_params := u_generic_params }.
#[export] Instance Item_Enum : Item Enum := {
  i_path := e_path; i_cfg := e_cfg; i_annotations := e_annotations; i_set_annotations := set_e_annotations;
  i_generic_params := e_generic_params }.
#[export] Instance Item_Opaque : Item OpaqueItem := {
  i_path := o_path; i_cfg := o_cfg; i_annotations := o_annotations; i_set_annotations := set_o_annotations;
  i_generic_params := o_generic_params }.
#[export] Instance Item_Typedef : Item Typedef := {
  i_path := t_path; i_cfg := t_cfg; i_annotations := t_annotations; i_set_annotations := set_t_annotations;
  i_generic_params := t_generic_params }.

(** item.rs:58-67; constants and statics are never asked for through a library. *)
Inductive ItemContainer :=
| ICOpaque (x : OpaqueItem) | ICStruct (x : Struct) | ICUnion (x : Union) | ICEnum (x : Enum) | ICTypedef (x : Typedef).

Definition ic_path (i : ItemContainer) : string :=
  match i with
  | ICOpaque x => o_path x | ICStruct x => s_path x | ICUnion x => u_path x | ICEnum x => e_path x | ICTypedef x => t_path x
  end.
(** The paths an item's [add_dependencies] passes to [Dependencies::add], in order. *)
Definition ic_deps (i : ItemContainer) : list string :=
  match i with
  | ICOpaque _ => [] | ICStruct x => Struct_deps x | ICUnion x => Union_deps x | ICEnum x => Enum_deps x
  | ICTypedef x => Typedef_deps x
  end.

(** library.rs:19-31 *)
Record Library := {
  l_config : Config;
  l_constants : ItemMap Constant;
  l_globals : ItemMap Static;
  l_enums : ItemMap Enum;
  l_structs : ItemMap Struct;
  l_unions : ItemMap Union;
  l_opaque_items : ItemMap OpaqueItem;
  l_typedefs : ItemMap Typedef;
  l_functions : list Function;
  l_source_files : list string;
  l_package_version : string
}.

(** library.rs:152-170 *)
Definition find_kind {T} (l : Library) (k : ItemType) (wrap : T -> ItemContainer) (m : ItemMap T) (p : string)
  (otherwise : option (list ItemContainer)) : option (list ItemContainer) :=
  if should_generate (export (l_config l)) k then
    match get_items p m with Some x => Some (map wrap x) | None => otherwise end
  else otherwise.
Definition lib_get_items (l : Library) (p : string) : option (list ItemContainer) :=
  find_kind l Enums ICEnum (l_enums l) p
  (find_kind l Structs ICStruct (l_structs l) p
  (find_kind l Unions ICUnion (l_unions l) p
  (find_kind l OpaqueItems ICOpaque (l_opaque_items l) p
  (find_kind l Typedefs ICTypedef (l_typedefs l) p None)))).

(** ** dependencies.rs *)

(** dependencies.rs:14-17 *)
Record Dependencies := { d_order : list ItemContainer; d_items : list string }.
Definition Dependencies_new : Dependencies := {| d_order := []; d_items := [] |}.
Definition d_insert (p : string) (d : Dependencies) : Dependencies := {| d_order := d_order d; d_items := p :: d_items d |}.
Definition d_push (is : list ItemContainer) (d : Dependencies) : Dependencies :=
  {| d_order := (d_order d ++ is)%list; d_items := d_items d |}.

(** A loop whose body may fail. *)
Fixpoint foldM {A B} (f : B -> A -> outcome B) (l : list A) (b : B) : outcome B :=
  match l with [] => Done b | x :: r => do b' := f b x in foldM f r b' end.

(** dependencies.rs:28-45; [fuel] bounds the depth of the recursion. *)
Fixpoint d_add (fuel : nat) (l : Library) (d : Dependencies) (p : string) : outcome Dependencies :=
  match lib_get_items l p with
  | None => Done d
  | Some items =>
      if mem_str p (d_items d) then Done d
      else match fuel with
           | O => Diverge
           | S n =>
               do d2 := foldM (d_add n l) (concat (map ic_deps items)) (d_insert p d) in
               Done (d_push items d2)
           end
  end.

(** Every path that [lib_get_items] can find, and one more: the recursion is
    never deeper (proved in P_Deps). *)
Definition library_paths (l : Library) : list string :=
  (map fst (l_enums l) ++ map fst (l_structs l) ++ map fst (l_unions l) ++ map fst (l_opaque_items l) ++ map fst (l_typedefs l))%list.
Definition add_fuel (l : Library) : nat := S (length (library_paths l)).

(** dependencies.rs:50-64, as "a may stay before b": the comparison is not [Greater]. *)
Definition untagged (i : ItemContainer) : bool := match i with ICEnum x => negb (is_some (e_tag x)) | _ => false end.
Definition ordering (a b : ItemContainer) : comparison :=
  match a, b with
  | ICEnum x, ICEnum y =>
      if negb (is_some (e_tag x)) && negb (is_some (e_tag y)) then Eq
      else if negb (is_some (e_tag x)) then Lt
      else if negb (is_some (e_tag y)) then Gt
      else Eq
  | _, _ =>
      if untagged a then Lt
      else if untagged b then Gt
      else match a, b with
           | ICOpaque x, ICOpaque y => if str_ltb (o_path x) (o_path y) then Lt
                                       else if String.eqb (o_path x) (o_path y) then Eq else Gt
           | ICOpaque _, _ => Lt
           | _, ICOpaque _ => Gt
           | _, _ => Eq
           end
  end.

(** [slice::sort_by]: a stable sort, modelled as insertion sort.  For a
    comparison that is a total preorder every stable sort gives the same list
    (proved in P_Sort). *)
Fixpoint sort_insert {A} (le : A -> A -> bool) (x : A) (l : list A) : list A :=
  match l with
  | [] => [x]
  | y :: r => if le x y then x :: l else y :: sort_insert le x r
  end.
Fixpoint sort_by_le {A} (le : A -> A -> bool) (l : list A) : list A :=
  match l with [] => [] | x :: r => sort_insert le x (sort_by_le le r) end.

Definition not_gt (c : comparison) : bool := match c with Gt => false | _ => true end.
(** dependencies.rs:47-67 *)
Definition d_sort (order : list ItemContainer) : list ItemContainer := sort_by_le (fun a b => not_gt (ordering a b)) order.

(** ** monomorph.rs *)

(** Equality of generic paths as derived: generic_path.rs:237, ty.rs:238,303. *)
Definition option_eqb {A} (f : A -> A -> bool) (a b : option A) : bool :=
  match a, b with Some x, Some y => f x y | None, None => true | _, _ => false end.
Definition list_eqb {A} (f : A -> A -> bool) : list A -> list A -> bool :=
  fix go (l1 l2 : list A) : bool :=
    match l1, l2 with [], [] => true | x :: r, y :: s => f x y && go r s | _, _ => false end.
Definition IntKind_eqb (a b : IntKind) : bool :=
  match a, b with
  | KShort, KShort | KInt, KInt | KLong, KLong | KLongLong, KLongLong | KSizeT, KSizeT | KSize, KSize
  | B8, B8 | B16, B16 | B32, B32 | B64, B64 => true
  | _, _ => false
  end.
Definition PrimitiveType_eqb (a b : PrimitiveType) : bool :=
  match a, b with
  | PVoid, PVoid | PBool, PBool | PChar, PChar | PSChar, PSChar | PUChar, PUChar | PChar32, PChar32
  | PFloat, PFloat | PDouble, PDouble | PVaList, PVaList | PPtrDiffT, PPtrDiffT => true
  | PInteger z s k, PInteger z' s' k' => Bool.eqb z z' && Bool.eqb s s' && IntKind_eqb k k'
  | _, _ => false
  end.
Definition DeclarationType_eqb (a b : DeclarationType) : bool :=
  match a, b with DStruct, DStruct | DEnum, DEnum | DUnion, DUnion => true | _, _ => false end.
Fixpoint Ty_eqb (a b : Ty) {struct a} : bool :=
  match a, b with
  | TPtr t c n r, TPtr t' c' n' r' => Ty_eqb t t' && Bool.eqb c c' && Bool.eqb n n' && Bool.eqb r r'
  | TPath g, TPath g' => GenericPath_eqb g g'
  | TPrim p, TPrim p' => PrimitiveType_eqb p p'
  | TArray t e, TArray t' e' => Ty_eqb t t' && ConstExpr_eqb e e'
  | TFuncPtr r args n nv, TFuncPtr r' args' n' nv' =>
      Ty_eqb r r' && list_eqb (fun x y => option_eqb String.eqb (fst x) (fst y) && Ty_eqb (snd x) (snd y)) args args'
      && Bool.eqb n n' && Bool.eqb nv nv'
  | _, _ => false
  end
with ConstExpr_eqb (a b : ConstExpr) {struct a} : bool :=
  match a, b with
  | EPath g, EPath g' => GenericPath_eqb g g'
  | EValue s, EValue s' => String.eqb s s'
  | _, _ => false
  end
with GenericPath_eqb (a b : GenericPath) {struct a} : bool :=
  match a, b with
  | GPath p e gs c, GPath p' e' gs' c' =>
      String.eqb p p' && String.eqb e e' && list_eqb GenericArgument_eqb gs gs' && option_eqb DeclarationType_eqb c c'
  end
with GenericArgument_eqb (a b : GenericArgument) {struct a} : bool :=
  match a, b with
  | GType t, GType t' => Ty_eqb t t'
  | GConst e, GConst e' => ConstExpr_eqb e e'
  | _, _ => false
  end.

(** monomorph.rs:13-21; the newest entry for a key comes first. *)
Record Monomorphs := {
  m_replacements : list (GenericPath * string);
  m_opaques : list OpaqueItem;
  m_structs : list Struct;
  m_unions : list Union;
  m_typedefs : list Typedef;
  m_enums : list Enum
}.
Definition Monomorphs_default : Monomorphs :=
  {| m_replacements := []; m_opaques := []; m_structs := []; m_unions := []; m_typedefs := []; m_enums := [] |}.
(** monomorph.rs:124-126 *)
Fixpoint replacement (g : GenericPath) (l : list (GenericPath * string)) : option string :=
  match l with [] => None | (h, p) :: r => if GenericPath_eqb g h then Some p else replacement g r end.
(** monomorph.rs:24-26 *)
Definition m_contains (g : GenericPath) (m : Monomorphs) : bool := is_some (replacement g (m_replacements m)).

Definition record_replacement (g : GenericPath) (p : string) (m : Monomorphs) : Monomorphs :=
  {| m_replacements := (g, p) :: m_replacements m; m_opaques := m_opaques m; m_structs := m_structs m;
     m_unions := m_unions m; m_typedefs := m_typedefs m; m_enums := m_enums m |}.
Definition push_opaque (x : OpaqueItem) (m : Monomorphs) : Monomorphs :=
  {| m_replacements := m_replacements m; m_opaques := (m_opaques m ++ [x])%list; m_structs := m_structs m;
     m_unions := m_unions m; m_typedefs := m_typedefs m; m_enums := m_enums m |}.
Definition push_struct (x : Struct) (m : Monomorphs) : Monomorphs :=
  {| m_replacements := m_replacements m; m_opaques := m_opaques m; m_structs := (m_structs m ++ [x])%list;
     m_unions := m_unions m; m_typedefs := m_typedefs m; m_enums := m_enums m |}.
Definition push_union (x : Union) (m : Monomorphs) : Monomorphs :=
  {| m_replacements := m_replacements m; m_opaques := m_opaques m; m_structs := m_structs m;
     m_unions := (m_unions m ++ [x])%list; m_typedefs := m_typedefs m; m_enums := m_enums m |}.
Definition push_typedef (x : Typedef) (m : Monomorphs) : Monomorphs :=
  {| m_replacements := m_replacements m; m_opaques := m_opaques m; m_structs := m_structs m;
     m_unions := m_unions m; m_typedefs := (m_typedefs m ++ [x])%list; m_enums := m_enums m |}.
Definition push_enum (x : Enum) (m : Monomorphs) : Monomorphs :=
  {| m_replacements := m_replacements m; m_opaques := m_opaques m; m_structs := m_structs m;
     m_unions := m_unions m; m_typedefs := m_typedefs m; m_enums := (m_enums m ++ [x])%list |}.

(** ty.rs:722-752: the generic paths [add_monomorphs] acts on, in order.
    It does not look into the arguments of a generic path. *)
Fixpoint Type_monos (t : Ty) : list GenericPath :=
  match t with
  | TPtr u _ _ _ => Type_monos u
  | TPath g => if is_nil (gp_generics g) then [] else [g]
  | TPrim _ => []
  | TArray u _ => Type_monos u
  | TFuncPtr r args _ _ => (Type_monos r ++ concat (map (fun a => Type_monos (snd a)) args))%list
  end.
(** structure.rs:177-187 *)
Definition Struct_monos (s : Struct) : list GenericPath :=
  if is_generic s then [] else concat (map (fun f => Type_monos (fd_ty f)) (s_fields s)).
(** union.rs:103-113 *)
Definition Union_monos (u : Union) : list GenericPath :=
  if is_generic u then [] else concat (map (fun f => Type_monos (fd_ty f)) (u_fields u)).
(** enumeration.rs:291-295, 328-336 *)
Definition Enum_monos (e : Enum) : list GenericPath :=
  if is_generic e then []
  else concat (map (fun v => match v_body v with VBody _ s _ _ => Struct_monos s | VEmpty _ => [] end) (e_variants e)).
(** typedef.rs:105-111 *)
Definition Typedef_monos (t : Typedef) : list GenericPath := if is_generic t then [] else Type_monos (t_aliased t).
(** function.rs:132-137 *)
Definition Function_monos (f : Function) : list GenericPath :=
  (Type_monos (f_ret f) ++ concat (map (fun a => Type_monos (a_ty a)) (f_args f)))%list.

Section Instantiate.
  Context {H : Heck}.
  Variable l : Library.
  Let ex := export (l_config l).

  (** monomorph.rs:28-46 and the like: the replacement is recorded, then the
      monomorph's own instantiations are added, then it is stored.  [add] is
      the recursive call.  The [debug_assert]s are not modelled. *)
  Definition insert_monomorph (add : Monomorphs -> GenericPath -> outcome Monomorphs)
    (path : string) (args : list GenericArgument) (new_path : string) (monos : list GenericPath)
    (push : Monomorphs -> Monomorphs) (m : Monomorphs) : outcome Monomorphs :=
    do m2 := foldM add monos (record_replacement (GenericPath_new path args) new_path m) in
    Done (push m2).

  (** structure.rs:394-403 *)
  Definition instantiate_struct add (args : list GenericArgument) (m : Monomorphs) (s : Struct) : outcome Monomorphs :=
    do ms := of_option (GenericParams_call (s_generic_params s) args) in
    let mono := Struct_specialize args ms ex s in
    insert_monomorph add (s_path s) args (s_path mono) (Struct_monos mono) (push_struct mono) m.

  (** item.rs:43-54 and the implementations *)
  Definition instantiate_item add (args : list GenericArgument) (m : Monomorphs) (i : ItemContainer) : outcome Monomorphs :=
    match i with
    | ICStruct s => instantiate_struct add args m s
    | ICUnion u =>  (* union.rs:223-260 *)
        do ms := of_option (GenericParams_call (u_generic_params u) args) in
        let mono := Union_specialize args ms ex u in
        insert_monomorph add (u_path u) args (u_path mono) (Union_monos mono) (push_union mono) m
    | ICEnum e =>  (* enumeration.rs:607-642 *)
        do ms := of_option (GenericParams_call (e_generic_params e) args) in
        do m2 := foldM (fun m v => match v_body v with
                                   | VBody _ s _ _ => instantiate_struct add args m s
                                   | VEmpty _ => Done m
                                   end) (e_variants e) m in
        let mono := Enum_specialize args ms ex e in
        insert_monomorph add (e_path e) args (e_path mono) (Enum_monos mono) (push_enum mono) m2
    | ICTypedef t =>  (* typedef.rs:169-195 *)
        do ms := of_option (GenericParams_call (t_generic_params t) args) in
        let mono := Typedef_specialize args ms ex t in
        insert_monomorph add (t_path t) args (t_path mono) (Typedef_monos mono) (push_typedef mono) m
    | ICOpaque o =>  (* opaque.rs:103-139 *)
        do mono := of_option (OpaqueItem_specialize args ex o) in
        insert_monomorph add (o_path o) args (o_path mono) [] (push_opaque mono) m
    end.

  (** ty.rs:727-738.  Recursion through polymorphic recursive types does not end. *)
  Fixpoint add_mono (fuel : nat) (m : Monomorphs) (g : GenericPath) : outcome Monomorphs :=
    if m_contains g m then Done m
    else match lib_get_items l (gp_path g) with
         | None => Done m
         | Some items =>
             match fuel with
             | O => Diverge
             | S n => foldM (instantiate_item (add_mono n) (gp_generics g)) items m
             end
         end.

  (** library.rs:389-409: all the generic paths visited, in order *)
  Definition library_monos : list GenericPath :=
    (concat (map Struct_monos (to_vec (l_structs l))) ++ concat (map Union_monos (to_vec (l_unions l)))
    ++ concat (map Enum_monos (to_vec (l_enums l))) ++ concat (map Typedef_monos (to_vec (l_typedefs l)))
    ++ concat (map Function_monos (l_functions l)))%list.
End Instantiate.

(** ty.rs:805-839 *)
Fixpoint Type_mangle_paths (m : Monomorphs) (t : Ty) : Ty :=
  match t with
  | TPtr u c n r => TPtr (Type_mangle_paths m u) c n r
  | TPath g =>
      if is_nil (gp_generics g) then TPath g
      else match replacement g (m_replacements m) with
           | Some p => TPath (GenericPath_new p [])
           | None => TPath g
           end
  | TPrim p => TPrim p
  | TArray u e => TArray (Type_mangle_paths m u) e
  | TFuncPtr r args n nv => TFuncPtr (Type_mangle_paths m r) (map (fun a => (fst a, Type_mangle_paths m (snd a))) args) n nv
  end.

Definition insert_all {T} {I : Item T} (xs : list T) (m : ItemMap T) : ItemMap T :=
  fold_left (fun a x => fst (try_insert x a)) xs m.

(** library.rs:389-445 *)
Definition instantiate_monomorphs {H : Heck} (fuel : nat) (l : Library) : outcome Library :=
  do m := foldM (add_mono l fuel) (library_monos l) Monomorphs_default in
  let mangle := Type_mangle_paths m in
  Done {| l_config := l_config l;
          l_constants := l_constants l;
          l_globals := l_globals l;
          l_enums := for_all_items_mut (map_e_bodies (map_s_types mangle)) (map_filter is_generic (insert_all (m_enums m) (l_enums l)));
          l_structs := for_all_items_mut (map_s_types mangle) (map_filter is_generic (insert_all (m_structs m) (l_structs l)));
          l_unions := for_all_items_mut (map_u_types mangle) (map_filter is_generic (insert_all (m_unions m) (l_unions l)));
          l_opaque_items := map_filter is_generic (insert_all (m_opaques m) (l_opaque_items l));
          l_typedefs := for_all_items_mut (fun t => set_t_aliased (mangle (t_aliased t)) t)
                          (map_filter is_generic (insert_all (m_typedefs m) (l_typedefs l)));
          l_functions := map (map_f_types mangle) (l_functions l);
          l_source_files := l_source_files l;
          l_package_version := l_package_version l |}.

(** ** The other passes of library.rs *)

(** library.rs:176-195 *)
Definition excluded {T} {I : Item T} (c : Config) (x : T) : bool := mem_str (i_path x) (ex_exclude (export c)).
Definition remove_excluded (l : Library) : Library :=
  let c := l_config l in
  {| l_config := c;
     l_constants := map_filter (excluded c) (l_constants l);
     l_globals := map_filter (excluded c) (l_globals l);
     l_enums := map_filter (excluded c) (l_enums l);
     l_structs := map_filter (excluded c) (l_structs l);
     l_unions := map_filter (excluded c) (l_unions l);
     l_opaque_items := map_filter (excluded c) (l_opaque_items l);
     l_typedefs := map_filter (excluded c) (l_typedefs l);
     l_functions := filter (fun f => negb (mem_str (f_path f) (ex_exclude (export c)))) (l_functions l);
     l_source_files := l_source_files l; l_package_version := l_package_version l |}.

(** library.rs:366-387; constants are not simplified. *)
Definition simplify_library (l : Library) : Library :=
  let lang := language (l_config l) in
  {| l_config := l_config l;
     l_constants := l_constants l;
     l_globals := for_all_items_mut (Static_simplify lang) (l_globals l);
     l_enums := for_all_items_mut (Enum_simplify lang) (l_enums l);
     l_structs := for_all_items_mut (Struct_simplify lang) (l_structs l);
     l_unions := for_all_items_mut (Union_simplify lang) (l_unions l);
     l_opaque_items := l_opaque_items l;
     l_typedefs := for_all_items_mut (Typedef_simplify lang) (l_typedefs l);
     l_functions := map (Function_simplify lang) (l_functions l);
     l_source_files := l_source_files l; l_package_version := l_package_version l |}.

(** library.rs:197-203: all the typedefs in order, with the map of annotations taken from them *)
Fixpoint take_annotations_list (ts : list Typedef) (out : list (string * AnnotationSet)) : list Typedef * list (string * AnnotationSet) :=
  match ts with
  | [] => ([], out)
  | t :: r => let '(t', out1) := Typedef_transfer_annotations t out in
              let '(r', out2) := take_annotations_list r out1 in (t' :: r', out2)
  end.
Fixpoint take_annotations (m : ItemMap Typedef) (out : list (string * AnnotationSet)) : ItemMap Typedef * list (string * AnnotationSet) :=
  match m with
  | [] => ([], out)
  | (p, VSingle t) :: r =>
      let '(t', out1) := Typedef_transfer_annotations t out in
      let '(r', out2) := take_annotations r out1 in ((p, VSingle t') :: r', out2)
  | (p, VCfg ts) :: r =>
      let '(ts', out1) := take_annotations_list ts out in
      let '(r', out2) := take_annotations r out1 in ((p, VCfg ts') :: r', out2)
  end.

(** library.rs:209-219 and its four copies: give the annotations to the items
    of a path that have none; did any item take them? *)
Definition give_annotations {T} {I : Item T} (p : string) (a : AnnotationSet) (m : ItemMap T) : ItemMap T * bool :=
  (for_items_mut p (fun x => if an_is_empty (i_annotations x) then i_set_annotations a x else x) m,
   match get_items p m with Some xs => existsb (fun x => an_is_empty (i_annotations x)) xs | None => false end).

(** library.rs:204-278: one entry of the map *)
Definition transfer_one (l : Library) (entry : string * AnnotationSet) : Library :=
  let '(p, a) := entry in
  let mk en st un op td := {| l_config := l_config l; l_constants := l_constants l; l_globals := l_globals l;
    l_enums := en; l_structs := st; l_unions := un; l_opaque_items := op; l_typedefs := td;
    l_functions := l_functions l; l_source_files := l_source_files l; l_package_version := l_package_version l |} in
  let '(en, b) := give_annotations p a (l_enums l) in
  if b then mk en (l_structs l) (l_unions l) (l_opaque_items l) (l_typedefs l) else
  let '(st, b) := give_annotations p a (l_structs l) in
  if b then mk en st (l_unions l) (l_opaque_items l) (l_typedefs l) else
  let '(un, b) := give_annotations p a (l_unions l) in
  if b then mk en st un (l_opaque_items l) (l_typedefs l) else
  let '(op, b) := give_annotations p a (l_opaque_items l) in
  if b then mk en st un op (l_typedefs l) else
  let '(td, _) := give_annotations p a (l_typedefs l) in
  mk en st un op td.

(** library.rs:197-279.  The map is a [HashMap], so its entries are visited in
    an unspecified order: [visit] reorders them. *)
Definition transfer_annotations (visit : list (string * AnnotationSet) -> list (string * AnnotationSet)) (l : Library) : Library :=
  let '(td, annotations) := take_annotations (l_typedefs l) [] in
  fold_left transfer_one (visit annotations)
    {| l_config := l_config l; l_constants := l_constants l; l_globals := l_globals l; l_enums := l_enums l;
       l_structs := l_structs l; l_unions := l_unions l; l_opaque_items := l_opaque_items l; l_typedefs := td;
       l_functions := l_functions l; l_source_files := l_source_files l; l_package_version := l_package_version l |}.

(** library.rs:321-344 *)
Definition collect_all {T} (f : T -> DeclarationTypeResolver -> DeclarationTypeResolver) (m : ItemMap T) (r : DeclarationTypeResolver) :=
  fold_left (fun a x => f x a) (to_vec m) r.
Definition library_resolver (l : Library) : DeclarationTypeResolver :=
  collect_all OpaqueItem_collect (l_opaque_items l)
  (collect_all Typedef_collect (l_typedefs l)
  (collect_all Union_collect (l_unions l)
  (collect_all Enum_collect (l_enums l)
  (collect_all Struct_collect (l_structs l) [])))).
(** library.rs:317-364 *)
Definition resolve_library (l : Library) : Library :=
  if negb (generate_tag (style (l_config l))) then l
  else
    let r := library_resolver l in
    {| l_config := l_config l;
       l_constants := l_constants l;
       l_globals := for_all_items_mut (Static_resolve r) (l_globals l);
       l_enums := for_all_items_mut (Enum_resolve r) (l_enums l);
       l_structs := for_all_items_mut (Struct_resolve r) (l_structs l);
       l_unions := for_all_items_mut (Union_resolve r) (l_unions l);
       l_opaque_items := l_opaque_items l;
       l_typedefs := for_all_items_mut (Typedef_resolve r) (l_typedefs l);
       l_functions := map (Function_resolve r) (l_functions l);
       l_source_files := l_source_files l; l_package_version := l_package_version l |}.

(** library.rs:281-315; [None]: a panic while renaming. *)
Definition rename_items {H : Heck} (l : Library) : option Library :=
  let c := l_config l in
  let? st := for_all_items_mut_opt (Struct_rename_for_config c) (l_structs l) in
  let? un := for_all_items_mut_opt (Union_rename_for_config c) (l_unions l) in
  let? en := for_all_items_mut_opt (Enum_rename_for_config c) (l_enums l) in
  let? fs := map_opt (Function_rename_for_config c) (l_functions l) in
  Some {| l_config := c;
          l_constants := rebuild (for_all_items_mut (Constant_rename_for_config (export c)) (l_constants l));
          l_globals := rebuild (for_all_items_mut (Static_rename_for_config c) (l_globals l));
          l_enums := rebuild en;
          l_structs := rebuild st;
          l_unions := rebuild un;
          l_opaque_items := rebuild (for_all_items_mut (OpaqueItem_rename_for_config c) (l_opaque_items l));
          l_typedefs := rebuild (for_all_items_mut (Typedef_rename_for_config c) (l_typedefs l));
          l_functions := fs;
          l_source_files := l_source_files l; l_package_version := l_package_version l |}.

(** library.rs:67-70, 111-133: sorting by path on request *)
Definition sort_by_path {A} (path : A -> string) (key : SortKey) (l : list A) : list A :=
  match key with SortName => sort_by_le (fun a b => str_leb (path a) (path b)) l | SortNone => l end.
Definition sort_key (own : option SortKey) (c : Config) : SortKey := match own with Some k => k | None => sort_by c end.
Definition sort_functions (l : Library) : Library :=
  {| l_config := l_config l; l_constants := l_constants l; l_globals := l_globals l; l_enums := l_enums l;
     l_structs := l_structs l; l_unions := l_unions l; l_opaque_items := l_opaque_items l; l_typedefs := l_typedefs l;
     l_functions := sort_by_path f_path (sort_key (fn_sort_by (function (l_config l))) (l_config l)) (l_functions l);
     l_source_files := l_source_files l; l_package_version := l_package_version l |}.

(** library.rs:84-93: the paths of functions, globals and constants, in order *)
Definition root_paths (l : Library) : list string :=
  (concat (map Function_deps (l_functions l)) ++ concat (map Static_deps (to_vec (l_globals l)))
  ++ concat (map Constant_deps (to_vec (l_constants l))))%list.
(** library.rs:94-106: an included name; the same as [Dependencies::add] *)
Definition d_include (fuel : nat) (l : Library) (d : Dependencies) (p : string) : outcome Dependencies :=
  match lib_get_items l p with
  | None => Done d
  | Some items =>
      if mem_str p (d_items d) then Done d
      else do d2 := foldM (d_add fuel l) (concat (map ic_deps items)) (d_insert p d) in
           Done (d_push items d2)
  end.
(** library.rs:82-106 *)
Definition library_dependencies (l : Library) : outcome Dependencies :=
  do d := foldM (d_add (add_fuel l) l) (root_paths l) Dependencies_new in
  foldM (d_include (add_fuel l) l) (ex_include (export (l_config l))) d.

(** bindings.rs:24-43, the generated content *)
Record Bindings := {
  b_config : Config;
  b_struct_map : ItemMap Struct;
  b_enum_map : ItemMap Enum;
  b_typedef_map : ItemMap Typedef;
  b_constants : list Constant;
  b_globals : list Static;
  b_items : list ItemContainer;
  b_functions : list Function;
  b_source_files : list string;
  b_noop : bool;
  b_package_version : string
}.

(** library.rs:63-79: everything before the dependencies *)
Definition prepare {H : Heck} (fuel : nat) visit (l : Library) : outcome Library :=
  let l1 := sort_functions (simplify_library (transfer_annotations visit l)) in
  do l2 := if Language_eqb (language (l_config l)) Cxx then Done l1 else instantiate_monomorphs fuel l1 in
  let l3 := remove_excluded l2 in
  let l4 := if Language_eqb (language (l_config l)) M_Config.C then resolve_library l3 else l3 in
  of_option (rename_items l4).

(** library.rs:108-149 *)
Definition finish (l : Library) : outcome Bindings :=
  let c := l_config l in
  do d := library_dependencies l in
  Done {| b_config := c;
          b_struct_map := l_structs l; b_enum_map := l_enums l; b_typedef_map := l_typedefs l;
          b_constants := if should_generate (export c) Constants
                         then sort_by_path c_path (sort_key (co_sort_by (constant c)) c) (to_vec (l_constants l)) else [];
          b_globals := if should_generate (export c) Globals
                       then sort_by_path g_path (sort_key (co_sort_by (constant c)) c) (to_vec (l_globals l)) else [];
          b_items := d_sort (d_order d);
          b_functions := if should_generate (export c) Functions then l_functions l else [];
          b_source_files := l_source_files l; b_noop := false; b_package_version := l_package_version l |}.

(** library.rs:63-150 *)
Definition generate {H : Heck} (fuel : nat) visit (l : Library) : outcome Bindings :=
  do l' := prepare fuel visit l in finish l'.
