(** C02: members and arguments are not keywords.  C41: references in values name what is declared. *)
Require Import Coq.Strings.String Coq.Lists.List Coq.Bool.Bool.
From Verif Require Import Base P_Base M_Config M_Writer M_Cfg M_Type M_Ir M_Item M_Library M_Bindings M_Cdecl M_Syn M_Literal S_Decl S_Expr S_Literal S_Library S_Keywords S_Names S_Mono S_Demo P_Demo P_Loaded P_MonoEnds P_Members P_Variants.
Import ListNotations.
Open Scope string_scope.

(** C02.  No field of a struct, nor of the data of an enum variant, is a keyword the program knows. *)
Theorem C02_members : forall (H : Heck) fuel visit l b i n, generate fuel visit l = Done b -> In i (b_items b) -> In n (item_members i) ->
  In n c_keywords \/ In n cpp_keywords -> In n overlooked.
Proof. exact members_spec. Qed.
Print Assumptions C02_members.

(** C02.  Nor is an argument of a function. *)
Theorem C02_arguments : forall (H : Heck) fuel visit l b f n, generate fuel visit l = Done b -> In f (b_functions b) -> In n (function_arguments f) ->
  In n c_keywords \/ In n cpp_keywords -> In n overlooked.
Proof. exact arguments_spec. Qed.
Print Assumptions C02_arguments.

(** C02.  Nor is a variant, nor the member that holds its data, when no rule renames variants. *)
Theorem C02_variants : forall (H : Heck) fuel visit l b e n, generate fuel visit l = Done b -> In (ICEnum e) (b_items b) ->
  variants_as_written (l_config l) e -> In n (enumerators e) \/ In n (concat (map holder (e_variants e))) ->
  In n c_keywords \/ In n cpp_keywords -> In n overlooked.
Proof. exact enumerators_spec. Qed.
Print Assumptions C02_variants.

(** Keywords in every place, each escaped, whatever the rule does to field and argument names. *)
Definition with_rules (c : Config) (fields variants args : RenameRule) : Config :=
  let so := structure c in let en := enumeration c in let fu := function c in
  let c1 := configured c (style c) {| st_rename_fields := fields; st_derive_constructor := st_derive_constructor so; st_derive_eq := st_derive_eq so;
    st_derive_neq := st_derive_neq so; st_derive_lt := st_derive_lt so; st_derive_lte := st_derive_lte so; st_derive_gt := st_derive_gt so;
    st_derive_gte := st_derive_gte so; st_derive_ostream := st_derive_ostream so; st_associated_constants_in_body := st_associated_constants_in_body so;
    st_rename_associated_constant := st_rename_associated_constant so; st_must_use := st_must_use so; st_deprecated := st_deprecated so;
    st_deprecated_with_note := st_deprecated_with_note so |} (constant c) in
  {| header := header c1; includes_ := includes_ c1; sys_includes_ := sys_includes_ c1; after_includes := after_includes c1; trailer := trailer c1;
     include_guard_ := include_guard_ c1; pragma_once := pragma_once c1; no_includes := no_includes c1; package_version := package_version c1;
     autogen_warning := autogen_warning c1; include_version := include_version c1; namespace := namespace c1; namespaces := namespaces c1;
     using_namespaces := using_namespaces c1; braces := braces c1; line_length := line_length c1; tab_width := tab_width c1;
     line_endings := line_endings c1; language := language c1; cpp_compat := cpp_compat c1; style := style c1; sort_by := sort_by c1;
     usize_is_size_t := usize_is_size_t c1; parse := parse c1; export := export c1; layout := layout c1;
     function := {| fn_prefix := fn_prefix fu; fn_postfix := fn_postfix fu; fn_must_use := fn_must_use fu; fn_args := fn_args fu; fn_rename_args := args;
       fn_sort_by := fn_sort_by fu; fn_swift_name_macro := fn_swift_name_macro fu; fn_no_return := fn_no_return fu; fn_deprecated := fn_deprecated fu;
       fn_deprecated_with_note := fn_deprecated_with_note fu |};
     structure := structure c1;
     enumeration := {| en_rename_variants := variants; en_rename_variant_name_fields := en_rename_variant_name_fields en; en_add_sentinel := en_add_sentinel en;
       en_prefix_with_name := en_prefix_with_name en; en_derive_helper_methods := en_derive_helper_methods en; en_derive_const_casts := en_derive_const_casts en;
       en_derive_mut_casts := en_derive_mut_casts en; en_cast_assert_name := en_cast_assert_name en; en_must_use := en_must_use en;
       en_deprecated := en_deprecated en; en_deprecated_with_note := en_deprecated_with_note en; en_deprecated_variant := en_deprecated_variant en;
       en_deprecated_variant_with_note := en_deprecated_variant_with_note en; en_derive_tagged_enum_destructor := en_derive_tagged_enum_destructor en;
       en_derive_tagged_enum_copy_constructor := en_derive_tagged_enum_copy_constructor en;
       en_derive_tagged_enum_copy_assignment := en_derive_tagged_enum_copy_assignment en; en_derive_ostream := en_derive_ostream en;
       en_enum_class := en_enum_class en; en_private_default_tagged_enum_constructor := en_private_default_tagged_enum_constructor en |};
     constant := constant c1; defines := defines c1; documentation := documentation c1; documentation_style := documentation_style c1;
     documentation_length := documentation_length c1; pointer := pointer c1; cython := cython c1; config_path := config_path c1 |}.
Definition c_config : Config := config_with M_Config.C default_export SortNone.
Definition named_int (c : Config) : Library :=
  lib c [] [] [data_enum "Shape" [] [unit_variant "float" None; data_variant "double" (body "double_Body" [] [fld "char" u8; fld "x" u8])]]
    [struct "Words" [] [fld "int" u8; fld "nt" u8; fld "plain" u8]] [] [] []
    [fn "f" [("long", u8); ("y", ty "Words"); ("z", ty "Shape")] void].
Definition names_in (o : outcome Bindings) : outcome (list string * list string * list string) :=
  do b := o in Done (concat (map item_members (b_items b)), concat (map function_arguments (b_functions b)),
    concat (map (fun i => match i with ICEnum e => enumerators e | _ => [] end) (b_items b))).
Example C02_escaped : forall H : Heck,
  names_in (generate 9 (fun x => x) (named_int c_config)) = Done (["int_"; "nt"; "plain"; "char_"; "x"], ["long_"; "y"; "z"], ["float_"; "double_"])
  /\ names_in (generate 9 (fun x => x) (named_int (with_rules c_config (RPrefix "i") RNone (RPrefix "m_")))) =
     Done (["iint"; "int_"; "iplain"; "ichar"; "ix"], ["m_long"; "m_y"; "m_z"], ["float_"; "double_"]).
Proof. intros. split; vm_compute; reflexivity. Qed.
Example C02_no_rule : forall H : Heck, exists b e, generate 9 (fun x => x) (named_int c_config) = Done b /\ In (ICEnum e) (b_items b)
  /\ variants_as_written (l_config (named_int c_config)) e.
Proof. intros H. do 2 eexists. split; [vm_compute; reflexivity|]. split; [right; left; reflexivity|]. split; reflexivity. Qed.

(** ** Where it fails *)
(** Fields of unions are not escaped. *)
Theorem C02_unions_refuted : forall H : Heck, exists l b u, generate 9 (fun x => x) l = Done b /\ In (ICUnion u) (b_items b)
  /\ In "int" (union_members u) /\ In "int" c_keywords /\ ~ In "int" overlooked.
Proof.
  intros H. exists (lib c_config [] [] [] [] [union "Bits" [fld "int" u8]] [] [] [fn "f" [("x", ty "Bits")] void]). do 2 eexists.
  split; [vm_compute; reflexivity|]. split; [left; reflexivity|]. split; [left; reflexivity|]. split; [apply mem_str_In; reflexivity|].
  apply mem_str_false. reflexivity.
Qed.
Print Assumptions C02_unions_refuted.

(** Variants are escaped before the rule that renames them. *)
Theorem C02_renamed_variants_refuted : forall H : Heck, to_lowercase "Int" = "int" -> exists l b e, generate 9 (fun x => x) l = Done b
  /\ In (ICEnum e) (b_items b) /\ map v_name (concat (map e_variants (to_vec (l_enums l)))) = ["Int"] /\ enumerators e = ["int"].
Proof.
  intros H E. exists (lib (with_rules c_config RNone LowerCase RNone) [] [] [plain_enum "Kind" [unit_variant "Int" None]] [] [] [] [] [fn "f" [("x", ty "Kind")] void]).
  do 2 eexists. split; [vm_compute; reflexivity|]. split; [left; reflexivity|]. split; [reflexivity|].
  transitivity [to_lowercase "Int"]; [reflexivity|]. rewrite E. reflexivity.
Qed.
Print Assumptions C02_renamed_variants_refuted.

(** Keywords that are not in the table are kept. *)
Theorem C02_overlooked_refuted : forall H : Heck, exists l b, generate 9 (fun x => x) l = Done b
  /\ map item_members (b_items b) = [overlooked] /\ map function_arguments (b_functions b) = ["x" :: overlooked]
  /\ (forall n, In n overlooked -> In n c_keywords \/ In n cpp_keywords).
Proof.
  intros H. exists (lib c_config [] [] [] [struct "Words" [] (map (fun n => fld n u8) overlooked)] [] [] []
    [fn "f" (("x", ty "Words") :: map (fun n => (n, u8)) overlooked) void]). eexists.
  split; [vm_compute; reflexivity|]. split; [vm_compute; reflexivity|]. split; [vm_compute; reflexivity|].
  assert (A : forallb (fun n => mem_str n c_keywords || mem_str n cpp_keywords) overlooked = true) by (vm_compute; reflexivity).
  intros n Hn. rewrite forallb_forall in A. specialize (A n Hn). apply orb_prop in A as [A|A]; apply mem_str_In in A; auto.
Qed.
Print Assumptions C02_overlooked_refuted.

(** Names of types, functions, constants and globals are not escaped at all. *)
Theorem C02_items_refuted : forall H : Heck, exists l b, generate 9 (fun x => x) l = Done b
  /\ map ic_export_name (b_items b) = ["class"] /\ map f_path (b_functions b) = ["delete"] /\ map c_export_name (b_constants b) = ["new"]
  /\ map g_export_name (b_globals b) = ["this"] /\ incl ["class"; "delete"; "new"; "this"] cpp_keywords.
Proof.
  intros H. exists (lib (config_with Cxx default_export SortNone) [const "new" u8 (LExpr "1")] [static "this" u8] [] [struct "class" [] [fld "x" u8]] [] [] []
    [fn "delete" [("x", ty "class")] void]). eexists.
  split; [vm_compute; reflexivity|]. do 4 (split; [vm_compute; reflexivity|]).
  intros n Hn. apply mem_str_In. destruct Hn as [<-|[<-|[<-|[<-|[]]]]]; reflexivity.
Qed.
Print Assumptions C02_items_refuted.

(** C24.  A field that is escaped or renamed loses its value in struct literals:
    the value is still listed under the old name. *)
Theorem C24_renamed_fields_refuted : forall H : Heck, exists l b, generate 9 (fun x => x) l = Done b
  /\ map s_fields (to_vec (b_struct_map b)) = [[fld "int_" u8; fld "y" u8]]
  /\ map c_value (to_vec (l_constants l)) = [LStruct "Words" "Words" [("int", (LExpr "3", None)); ("y", (LExpr "4", None))]]
  /\ map (fun k => match Constant_write 9 b k None with Done p => run_config (b_config b) p | _ => None end) (b_constants b)
     = [Some ("#define K (Words){ , .y = 4 }")].
Proof.
  intros H. exists (lib c_config [const "K" (ty "Words") (LStruct "Words" "Words" [("int", (LExpr "3", None)); ("y", (LExpr "4", None))])] [] []
    [struct "Words" [] [fld "int" u8; fld "y" u8]] [] [] [] []).
  eexists. split; [vm_compute; reflexivity|]. split; [reflexivity|]. split; [reflexivity|]. vm_compute. reflexivity.
Qed.
Print Assumptions C24_renamed_fields_refuted.

(** ** C41 *)
(** A value that names a variant of an enum is written as a name the enum
    declares, with the scope of the enum where the enum has one. *)
Theorem C41_variants : forall (H : Heck) fuel visit l b p n x, as_loaded l -> bodies_as_enums l ->
  (language (l_config l) = Cxx \/ forall e0, In e0 (to_vec (l_enums l)) -> e_generic_params e0 = []) ->
  generate fuel visit l = Done b ->
  (forall e0, In e0 (to_vec (l_enums l)) -> e_path e0 = p -> In n (map v_name (e_variants e0))) ->
  (forall e, In e (to_vec (b_enum_map b)) -> e_path e = p -> variants_keep_names (l_config l) e) ->
  enum_exists b p = true -> to_known_assoc_constant p n = None ->
  exists e v, In e (to_vec (b_enum_map b)) /\ e_path e = p /\ In v (e_variants e) /\ v_name v = n
    /\ write_literal fuel b (LPath (Some (p, x)) n) = Done (M_Writer.write (seen_from_outside (l_config l) e v)).
Proof.
  intros H fuel visit l b p n x Hl Hb Hg Hgen Hn Hr Hx Hk. destruct (variant_spec H fuel visit l b p n Hl Hb Hg Hgen Hn Hr Hx) as (e & v & A & B & C & D & E).
  exists e, v. split; [exact A|]. split; [exact B|]. split; [exact C|]. split; [exact D|]. apply variant_written; assumption.
Qed.
Print Assumptions C41_variants.

Definition kinds (c : Config) : Library :=
  lib c [const "K" (ty "Kind") (LPath (Some ("Kind", "Kind")) "int")] [] [plain_enum "Kind" [unit_variant "Other" None; unit_variant "int" None]] [] [] [] [] [].
Definition constants_text {H : Heck} (l : Library) : option (list (option string)) :=
  match generate 9 (fun x => x) l with
  | Done b => Some (map (fun k => match Constant_write 9 b k None with Done p => run_config (b_config b) p | _ => None end) (b_constants b))
  | _ => None
  end.
Definition cpp_config : Config := config_with Cxx (export_with [] [] [] [("Kind", "Sort")] None) SortNone.
Example C41_written : forall H : Heck,
  constants_text (kinds c_config) = Some [Some "#define K int_"]
  /\ constants_text (kinds cpp_config) = Some [Some "constexpr static const Sort K = Sort::int_;"].
Proof. intros. split; vm_compute; reflexivity. Qed.
Example C41_applies : forall H : Heck, exists b, let l := kinds c_config in as_loaded l /\ bodies_as_enums l
  /\ (language (l_config l) = Cxx \/ forall e0, In e0 (to_vec (l_enums l)) -> e_generic_params e0 = []) /\ generate 9 (fun x => x) l = Done b
  /\ (forall e0, In e0 (to_vec (l_enums l)) -> e_path e0 = "Kind" -> In "int" (map v_name (e_variants e0)))
  /\ (forall e, In e (to_vec (b_enum_map b)) -> e_path e = "Kind" -> variants_keep_names (l_config l) e)
  /\ enum_exists b "Kind" = true /\ to_known_assoc_constant "Kind" "int" = None.
Proof.
  intros H. eexists. cbv zeta. split; [apply lib_loaded; vm_compute; reflexivity|]. split; [apply bodies_listed; vm_compute; repeat constructor|].
  split; [right; intros e0 [<-|[]]; reflexivity|]. split; [vm_compute; reflexivity|].
  split; [intros e0 [<-|[]] _; right; left; reflexivity|]. split; [intros e [<-|[]] _; reflexivity|]. split; reflexivity.
Qed.

(** C41.  A value that names a constant of a struct is written as the constant
    is declared, when no rule renames such constants and the two places agree
    on where such constants are declared. *)
Theorem C41_associated : forall (H : Heck) b k s p a, c_associated_to k = Some a ->
  rule_or (s_annotations s) "rename-associated-constant" (st_rename_associated_constant (structure (b_config b))) = Some RNone ->
  to_known_assoc_constant p (c_export_name k) = None -> for_items (b_enum_map b) p = [] ->
  st_associated_constants_in_body (structure (b_config b)) = false \/ language (b_config b) <> Cxx
    \/ co_allow_static_const (constant (b_config b)) = true /\ s_is_transparent s = false ->
  constant_name b k (Some s) = Some (written_name b (Some (p, s_export_name s)) (c_export_name k)).
Proof.
  intros H b k s p a Ha Hr Hk He Hw. unfold constant_name, written_name, enum_variant_reference, constant_in_body. rewrite Ha, Hr, Hk, He. cbn [fold_left].
  unfold RenameRule_apply.
  destruct (Language_eqb (language (b_config b)) Cxx) eqn:El.
  - destruct (st_associated_constants_in_body (structure (b_config b))); cbn [andb].
    + destruct Hw as [Hw|[Hw|[-> ->]]]; [discriminate|destruct (language (b_config b)); discriminate || contradiction|reflexivity].
    + destruct (String.eqb (s_export_name s) ""); reflexivity.
  - cbn [andb]. destruct (String.eqb (s_export_name s) ""); reflexivity.
Qed.
Print Assumptions C41_associated.
Definition with_constant (n : string) (v : Literal) (s : Struct) : Struct :=
  add_associated_constant {| c_path := n; c_export_name := n; c_ty := u8; c_value := v; c_cfg := None; c_annotations := AnnotationSet_new;
    c_documentation := []; c_associated_to := Some (s_path s) |} s.
Definition associated (c : Config) (transparent : bool) : Library :=
  let s := Struct_new "Foo" [] [fld "x" u8] false false None transparent None AnnotationSet_new [] in
  lib c [const "K" u8 (LPath (Some ("Foo", "Foo")) "MAX_LEN")] [] [] [with_constant "MAX_LEN" (LExpr "3") s] [] [] [] [].
Definition associated_names {H : Heck} (l : Library) : option (list (option string) * list string) :=
  match generate 9 (fun x => x) l with
  | Done b => Some (concat (map (fun i => match i with ICStruct s => map (fun k => constant_name b k (Some s)) (s_associated_constants s) | _ => [] end) (b_items b)),
                    concat (map (fun k => match c_value k with LPath a n => [written_name b a n] | _ => [] end) (b_constants b)))
  | _ => None
  end.
Example C41_same : forall H : Heck, associated_names (associated c_config false) = Some ([Some "Foo_MAX_LEN"], ["Foo_MAX_LEN"]).
Proof. intros. vm_compute. reflexivity. Qed.

(** *** Where it fails *)
(** A rule that renames variants hides them from such values. *)
Theorem C41_renamed_variants_refuted : forall H : Heck, exists l b, generate 9 (fun x => x) l = Done b
  /\ map enumerators (to_vec (b_enum_map b)) = [["k_Other"; "k_int_"]]
  /\ constants_text l = Some [Some "#define K Kind_int"].
Proof. intros H. exists (kinds (with_rules c_config RNone (RPrefix "k_") RNone)). eexists. split; [vm_compute; reflexivity|]. split; vm_compute; reflexivity. Qed.
Print Assumptions C41_renamed_variants_refuted.

Definition with_struct (c : Config) (in_body : bool) (rule : RenameRule) (static_const : bool) : Config :=
  let so := structure c in
  configured c (style c) {| st_rename_fields := st_rename_fields so; st_derive_constructor := st_derive_constructor so; st_derive_eq := st_derive_eq so;
    st_derive_neq := st_derive_neq so; st_derive_lt := st_derive_lt so; st_derive_lte := st_derive_lte so; st_derive_gt := st_derive_gt so;
    st_derive_gte := st_derive_gte so; st_derive_ostream := st_derive_ostream so; st_associated_constants_in_body := in_body;
    st_rename_associated_constant := rule; st_must_use := st_must_use so; st_deprecated := st_deprecated so;
    st_deprecated_with_note := st_deprecated_with_note so |}
    {| co_allow_static_const := static_const; co_allow_constexpr := co_allow_constexpr (constant c); co_sort_by := co_sort_by (constant c) |}.
(** A rule that renames constants of structs is applied where they are declared only. *)
Theorem C41_renamed_constants_refuted : forall H : Heck,
  associated_names (associated (with_struct c_config false (RPrefix "k") true) false) = Some ([Some "kFoo_MAX_LEN"], ["Foo_MAX_LEN"]).
Proof. intros. vm_compute. reflexivity. Qed.
Print Assumptions C41_renamed_constants_refuted.
(** Constants of transparent structs are not members, nor are any when the constants are macros. *)
Theorem C41_in_body_refuted : forall H : Heck,
  associated_names (associated (with_struct cpp_config true RNone true) true) = Some ([Some "Foo_MAX_LEN"], ["Foo::MAX_LEN"])
  /\ associated_names (associated (with_struct cpp_config true RNone false) false) = Some ([Some "Foo_MAX_LEN"], ["Foo::MAX_LEN"]).
Proof. intros. split; vm_compute; reflexivity. Qed.
Print Assumptions C41_in_body_refuted.
