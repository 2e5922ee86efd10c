(** Example libraries, used to show that the theorems about libraries apply. *)
Require Import Coq.Strings.String Coq.Lists.List Coq.Bool.Bool.
From Verif Require Import Base M_Config M_Cfg M_Type M_Ir M_Item M_Library.
Import ListNotations.
Open Scope string_scope.

Definition ty (n : string) : Ty := TPath (GenericPath_new n []).
Definition ty1 (n : string) (t : Ty) : Ty := TPath (GenericPath_new n [GType t]).
Definition ptr (t : Ty) : Ty := TPtr t false true false.
Definition u8 : Ty := TPrim (PInteger true false B8).
Definition void : Ty := TPrim PVoid.
Definition fld (n : string) (t : Ty) : Field := from_name_and_type n t.
Definition gp (n : string) : GenericParam := {| gp_name_ := n; gp_ty := GPType; gp_default := None |}.
Definition struct (n : string) (gps : GenericParams) (fs : list Field) : Struct :=
  Struct_new n gps fs false false None false None AnnotationSet_new [].
Definition opaque (n : string) : OpaqueItem := OpaqueItem_new n [] None AnnotationSet_new [].
Definition union (n : string) (fs : list Field) : Union := Union_new n [] fs None false None AnnotationSet_new [].
Definition typedef (n : string) (t : Ty) : Typedef := Typedef_new n [] t None AnnotationSet_new [].
Definition repr_c : Repr := {| rp_style := ReprC; rp_ty := None; rp_align := None |}.
Definition unit_variant (n : string) (d : option Literal) : EnumVariant := EnumVariant_new n d (VEmpty AnnotationSet_new) None [].
Definition plain_enum (n : string) (vs : list EnumVariant) : Enum := Enum_new n [] repr_c vs None None AnnotationSet_new [].
Definition body (n : string) (gps : GenericParams) (fs : list Field) : Struct :=
  Struct_new n gps fs false true None false None AnnotationSet_new [].
Definition data_variant (n : string) (s : Struct) : EnumVariant := EnumVariant_new n None (VBody n s false false) None [].
Definition data_enum (n : string) (gps : GenericParams) (vs : list EnumVariant) : Enum :=
  Enum_new n gps repr_c vs (Some "Tag") None AnnotationSet_new [].
Definition fn (n : string) (args : list (string * Ty)) (ret : Ty) : Function :=
  {| f_path := n; f_self_type_path := None; f_ret := ret;
     f_args := map (fun a => {| a_name := Some (fst a); a_ty := snd a; a_array_length := None |}) args;
     f_extern_decl := false; f_cfg := None; f_annotations := AnnotationSet_new; f_documentation := []; f_never_return := false |}.
Definition const (n : string) (t : Ty) (v : Literal) : Constant :=
  {| c_path := n; c_export_name := n; c_ty := t; c_value := v; c_cfg := None; c_annotations := AnnotationSet_new;
     c_documentation := []; c_associated_to := None |}.
Definition static (n : string) (t : Ty) : Static := Static_new n t false None AnnotationSet_new [].

Definition lib (c : Config) (cs : list Constant) (gs : list Static) (es : list Enum) (ss : list Struct) (us : list Union)
  (os : list OpaqueItem) (ts : list Typedef) (fs : list Function) : Library :=
  {| l_config := c; l_constants := insert_all cs []; l_globals := insert_all gs []; l_enums := insert_all es [];
     l_structs := insert_all ss []; l_unions := insert_all us []; l_opaque_items := insert_all os [];
     l_typedefs := insert_all ts []; l_functions := fs; l_source_files := []; l_package_version := "1.0.0" |}.

(** The default configuration for a language, with a chosen [export] section. *)
Definition config_with (lang : Language) (ex : ExportConfig) (key : SortKey) : Config := {|
  header := None; includes_ := []; sys_includes_ := []; after_includes := None; trailer := None;
  include_guard_ := None; pragma_once := false; no_includes := false; package_version := false;
  autogen_warning := None; include_version := false; namespace := None; namespaces := None;
  using_namespaces := None; braces := SameLine; line_length := 100; tab_width := 2;
  line_endings := LF; language := lang; cpp_compat := false; style := Both; sort_by := key;
  usize_is_size_t := false; parse := default_parse; export := ex;
  layout := {| ly_packed := None; ly_aligned_n := None |}; function := default_function;
  structure := default_structure; enumeration := default_enumeration; constant := default_constant;
  defines := []; documentation := true; documentation_style := DocAuto;
  documentation_length := Full;
  pointer := {| pt_non_null_attribute := None; pt_nullable_attribute := None |};
  cython := {| cy_header := None; cy_cimports := [] |}; config_path := None |}.
(** A configuration with other settings for styles, structs and constants. *)
Definition configured (c : Config) (st : Style) (so : StructConfig) (co : ConstantConfig) : Config := {|
  header := header c; includes_ := includes_ c; sys_includes_ := sys_includes_ c; after_includes :=
  after_includes c; trailer := trailer c; include_guard_ := include_guard_ c; pragma_once := pragma_once c;
  no_includes := no_includes c; package_version := package_version c; autogen_warning := autogen_warning c;
  include_version := include_version c; namespace := namespace c; namespaces := namespaces c; using_namespaces
  := using_namespaces c; braces := braces c; line_length := line_length c; tab_width := tab_width c;
  line_endings := line_endings c; language := language c; cpp_compat := cpp_compat c; style := st; sort_by :=
  sort_by c; usize_is_size_t := usize_is_size_t c; parse := parse c; export := export c; layout := layout c;
  function := function c; structure := so; enumeration := enumeration c; constant := co; defines := defines c;
  documentation := documentation c; documentation_style := documentation_style c; documentation_length :=
  documentation_length c; pointer := pointer c; cython := cython c; config_path := config_path c |}.
Definition export_with (include exclude : list string) (types : list ItemType) (rename : list (string * string)) (prefix : option string) : ExportConfig :=
  {| ex_include := include; ex_exclude := exclude; ex_rename := rename; ex_pre_body := []; ex_body := []; ex_prefix := prefix;
     ex_item_types := types; ex_renaming_overrides_prefixing := false; ex_mangle := ex_mangle default_export |}.

Definition paths_of (o : outcome Bindings) : outcome (list string * list string * list string * list string) :=
  do b := o in Done (map ic_path (b_items b), map c_path (b_constants b), map g_path (b_globals b), map f_path (b_functions b)).

(** A cycle through pointers, a chain, opaque types, a fieldless enum, an unused type. *)
Definition demo (c : Config) : Library :=
  lib c [const "LIMIT" u8 (LExpr "3"); const "HIDDEN" u8 (LExpr "4"); const "ALPHA" u8 (LExpr "5")]
    [static "ROOT" (ptr (ty "Node")); static "COUNT" u8]
    [plain_enum "Color" [unit_variant "Red" None; unit_variant "Blue" (Some (LExpr "7"))];
     data_enum "Shape" [] [unit_variant "Nothing" None; data_variant "Circle" (body "Circle_Body" [] [fld "at" (ty "Point")])]]
    [struct "Node" [] [fld "next" (ptr (ty "Edge")); fld "value" (ty "Shape")];
     struct "Edge" [] [fld "to" (ptr (ty "Node")); fld "color" (ty "Color")];
     struct "Point" [] [fld "x" u8; fld "y" (ty "Coord")];
     struct "Unused" [] [fld "x" u8]]
    [union "Bits" [fld "a" u8; fld "b" (ptr (ty "Zed"))]]
    [opaque "Zed"; opaque "Apple"]
    [typedef "Coord" u8]
    [fn "second" [("z", ptr (ty "Zed")); ("a", ptr (ty "Apple")); ("n", ty "Node")] void; fn "first" [] (ty "Bits")].
