(** Model of the data in src/bindgen/config.rs and src/bindgen/rename.rs *)
Require Import Coq.Strings.String Coq.Strings.Ascii Coq.Lists.List Coq.Bool.Bool Coq.Arith.Arith.
From Verif Require Import Base.
Import ListNotations.
Open Scope string_scope.

(** config.rs:22-26 *)
Inductive Language := Cxx | C | Cython.
Definition Language_eqb (a b : Language) : bool :=
  match a, b with Cxx, Cxx | C, C | Cython, Cython => true | _, _ => false end.

(** config.rs:28-48; [None] is the [Err] result. *)
Definition Language_from_str (s : string) : option Language :=
  if mem_str s ["cxx"; "Cxx"; "CXX"; "cpp"; "Cpp"; "CPP"; "c++"; "C++"] then Some Cxx
  else if mem_str s ["c"; "C"] then Some C
  else if mem_str s ["cython"; "Cython"] then Some Cython
  else None.

(** config.rs:53-58 *)
Definition Language_typedef (l : Language) : string :=
  match l with Cxx | C => "typedef" | Cython => "ctypedef" end.

(** config.rs:65-75 *)
Inductive LineEndingStyle := LF | CR | CRLF | Native.

(** config.rs:78-94.  [Native] is modelled for a non-Windows host. *)
Definition LineEndingStyle_as_str (l : LineEndingStyle) : string :=
  match l with
  | LF | Native => String (ascii_of_nat 10) ""
  | CR => String (ascii_of_nat 13) ""
  | CRLF => String (ascii_of_nat 13) (String (ascii_of_nat 10) "")
  end.

(** config.rs:115-118 *)
Inductive Braces := SameLine | NextLine.
(** config.rs:138-142 *)
Inductive Layout := Horizontal | Vertical | Auto.
(** config.rs:164-170 *)
Inductive DocumentationStyle := DocC | DocC99 | DocDoxy | DocCxx | DocAuto.
(** config.rs:192-195 *)
Inductive DocumentationLength := Short | Full.
(** config.rs:213-218 *)
Inductive Style := Both | Tag | Type_.

(** config.rs:221-226 *)
Definition generate_tag (s : Style) : bool :=
  match s with Both | Tag => true | Type_ => false end.
(** config.rs:228-233 *)
Definition generate_typedef (s : Style) : bool :=
  match s with Both | Type_ => true | Tag => false end.
(** config.rs:236-242 *)
Definition cython_def (s : Style) : string :=
  if generate_tag s then "cdef " else "ctypedef ".

(** config.rs:265-274 *)
Inductive ItemType := Constants | Globals | Enums | Structs | Unions | Typedefs | OpaqueItems | Functions.
Definition ItemType_eqb (a b : ItemType) : bool :=
  match a, b with
  | Constants, Constants | Globals, Globals | Enums, Enums | Structs, Structs
  | Unions, Unions | Typedefs, Typedefs | OpaqueItems, OpaqueItems | Functions, Functions => true
  | _, _ => false
  end.

(** config.rs:299-302 *)
Inductive SortKey := SortName | SortNone.

(** rename.rs:10-16 *)
Inductive IdentifierType := StructMember | IEnumVariant (prefix : string) | FunctionArg | IType | IEnum.

(** rename.rs:19-27 *)
Definition IdentifierType_to_str (i : IdentifierType) : string :=
  match i with
  | StructMember => "m"
  | IEnumVariant _ => ""
  | FunctionArg => "a"
  | IType => ""
  | IEnum => ""
  end.

(** rename.rs:33-55 *)
Inductive RenameRule :=
| RNone | GeckoCase | LowerCase | UpperCase | PascalCase | CamelCase | SnakeCase
| ScreamingSnakeCase | QualifiedScreamingSnakeCase | RPrefix (p : string).

(** rename.rs:58-63 *)
Definition not_none (r : RenameRule) : option RenameRule :=
  match r with RNone => None | other => Some other end.

(** The case-conversion functions of the [heck] crate and of [str] that
    rename.rs calls.  They are outside the crate, so they are an argument of
    everything that renames; no theorem fixes them unless it says so. *)
Class Heck := {
  to_upper_camel_case : string -> string;
  to_pascal_case : string -> string;
  to_lower_camel_case : string -> string;
  to_snake_case : string -> string;
  to_shouty_snake_case : string -> string;
  to_lowercase : string -> string;
  to_uppercase : string -> string
}.

(** rename.rs:66-97 *)
Definition RenameRule_apply {H : Heck} (r : RenameRule) (text : string) (context : IdentifierType) : string :=
  if String.eqb text "" then text
  else match r with
  | RNone => text
  | GeckoCase => IdentifierType_to_str context ++ to_upper_camel_case text
  | LowerCase => to_lowercase text
  | UpperCase => to_uppercase text
  | PascalCase => to_pascal_case text
  | CamelCase => to_lower_camel_case text
  | SnakeCase => to_snake_case text
  | ScreamingSnakeCase => to_shouty_snake_case text
  | QualifiedScreamingSnakeCase =>
      match context with
      | IEnumVariant prefix =>
          (if String.eqb prefix "" then prefix else to_shouty_snake_case prefix) ++ "_"
      | _ => ""
      end ++ to_shouty_snake_case text
  | RPrefix p => p ++ text
  end.

(** rename.rs:100-146; [None] is the [Err] result. *)
Definition RenameRule_from_str (s : string) : option RenameRule :=
  if mem_str s ["none"; "None"] then Some RNone
  else if mem_str s ["mGeckoCase"; "GeckoCase"; "gecko_case"] then Some GeckoCase
  else if mem_str s ["lowercase"; "LowerCase"; "lower_case"] then Some LowerCase
  else if mem_str s ["UPPERCASE"; "UpperCase"; "upper_case"] then Some UpperCase
  else if mem_str s ["PascalCase"; "pascal_case"] then Some PascalCase
  else if mem_str s ["camelCase"; "CamelCase"; "camel_case"] then Some CamelCase
  else if mem_str s ["snake_case"; "SnakeCase"] then Some SnakeCase
  else if mem_str s ["SCREAMING_SNAKE_CASE"; "ScreamingSnakeCase"; "screaming_snake_case"]
       then Some ScreamingSnakeCase
  else if mem_str s ["QUALIFIED_SCREAMING_SNAKE_CASE"; "QualifiedScreamingSnakeCase";
                     "qualified_screaming_snake_case"] then Some QualifiedScreamingSnakeCase
  else if starts_with "prefix:" s then Some (RPrefix (sdrop 7 s))
  else None.

(** config.rs:351-356 *)
Record MangleConfig := {
  rename_types : RenameRule;
  remove_underscores : bool
}.

(** config.rs:324-344; the hash maps are association lists used only for lookup. *)
Record ExportConfig := {
  ex_include : list string;
  ex_exclude : list string;
  ex_rename : list (string * string);
  ex_pre_body : list (string * string);
  ex_body : list (string * string);
  ex_prefix : option string;
  ex_item_types : list ItemType;
  ex_renaming_overrides_prefixing : bool;
  ex_mangle : MangleConfig
}.

(** config.rs:359-361 *)
Definition should_generate (e : ExportConfig) (t : ItemType) : bool :=
  match ex_item_types e with
  | [] => true
  | l => existsb (ItemType_eqb t) l
  end.

(** config.rs:371-381 *)
Definition export_rename (e : ExportConfig) (item_name : string) : string :=
  let add_prefix n := match ex_prefix e with Some p => p ++ n | None => n end in
  match lookup item_name (ex_rename e) with
  | Some name => if ex_renaming_overrides_prefixing e then name else add_prefix name
  | None => add_prefix item_name
  end.

(** config.rs:389-395 *)
Record LayoutConfig := { ly_packed : option string; ly_aligned_n : option string }.

(** config.rs:412-433 *)
Record FunctionConfig := {
  fn_prefix : option string;
  fn_postfix : option string;
  fn_must_use : option string;
  fn_deprecated : option string;
  fn_deprecated_with_note : option string;
  fn_args : Layout;
  fn_rename_args : RenameRule;
  fn_swift_name_macro : option string;
  fn_sort_by : option SortKey;
  fn_no_return : option string
}.

(** config.rs:473-505 *)
Record StructConfig := {
  st_rename_fields : RenameRule;
  st_derive_constructor : bool;
  st_derive_eq : bool;
  st_derive_neq : bool;
  st_derive_lt : bool;
  st_derive_lte : bool;
  st_derive_gt : bool;
  st_derive_gte : bool;
  st_derive_ostream : bool;
  st_associated_constants_in_body : bool;
  st_rename_associated_constant : RenameRule;
  st_must_use : option string;
  st_deprecated : option string;
  st_deprecated_with_note : option string
}.

(** config.rs:563-613 *)
Record EnumConfig := {
  en_rename_variants : RenameRule;
  en_rename_variant_name_fields : RenameRule;
  en_add_sentinel : bool;
  en_prefix_with_name : bool;
  en_derive_helper_methods : bool;
  en_derive_const_casts : bool;
  en_derive_mut_casts : bool;
  en_cast_assert_name : option string;
  en_must_use : option string;
  en_deprecated : option string;
  en_deprecated_with_note : option string;
  en_deprecated_variant : option string;
  en_deprecated_variant_with_note : option string;
  en_derive_tagged_enum_destructor : bool;
  en_derive_tagged_enum_copy_constructor : bool;
  en_derive_tagged_enum_copy_assignment : bool;
  en_derive_ostream : bool;
  en_enum_class : bool;
  en_private_default_tagged_enum_constructor : bool
}.

(** config.rs:712-719 *)
Record ConstantConfig := {
  co_allow_static_const : bool;
  co_allow_constexpr : bool;
  co_sort_by : option SortKey
}.

(** config.rs:837-860, the part that decides which crates are parsed. *)
Record ParseConfig := {
  pa_parse_deps : bool;
  pa_include : option (list string);
  pa_exclude : list string;
  pa_expand_crates : list string;
  pa_extra_bindings : list string
}.

(** config.rs:863-874 *)
Definition should_generate_top_level_item (p : ParseConfig) (crate_name binding_crate_name : string) : bool :=
  if String.eqb crate_name binding_crate_name then true
  else mem_str crate_name (pa_extra_bindings p).

(** config.rs:882-887 *)
Record PtrConfig := { pt_non_null_attribute : option string; pt_nullable_attribute : option string }.

(** config.rs:894-900; [cimports] is a BTreeMap, hence sorted by key. *)
Record CythonConfig := { cy_header : option string; cy_cimports : list (string * list string) }.

(** config.rs:907-1035.  Left out: only_target_dependencies (passed to cargo)
    and the expansion settings, which only select command-line flags. *)
Record Config := {
  header : option string;
  includes_ : list string;
  sys_includes_ : list string;
  after_includes : option string;
  trailer : option string;
  include_guard_ : option string;
  pragma_once : bool;
  no_includes : bool;
  package_version : bool;
  autogen_warning : option string;
  include_version : bool;
  namespace : option string;
  namespaces : option (list string);
  using_namespaces : option (list string);
  braces : Braces;
  line_length : nat;
  tab_width : nat;
  line_endings : LineEndingStyle;
  language : Language;
  cpp_compat : bool;
  style : Style;
  sort_by : SortKey;
  usize_is_size_t : bool;
  parse : ParseConfig;
  export : ExportConfig;
  layout : LayoutConfig;
  function : FunctionConfig;
  structure : StructConfig;
  enumeration : EnumConfig;
  constant : ConstantConfig;
  defines : list (string * string);
  documentation : bool;
  documentation_style : DocumentationStyle;
  documentation_length : DocumentationLength;
  pointer : PtrConfig;
  cython : CythonConfig;
  config_path : option string
}.

(** config.rs:1084-1086 *)
Definition cpp_compatible_c (c : Config) : bool :=
  Language_eqb (language c) M_Config.C && cpp_compat c.
(** config.rs:1088-1094 *)
Definition include_guard (c : Config) : option string :=
  if Language_eqb (language c) Cython then None else include_guard_ c.
(** config.rs:1096-1102 *)
Definition includes (c : Config) : list string :=
  if Language_eqb (language c) Cython then [] else includes_ c.
(** config.rs:1104-1110 *)
Definition sys_includes (c : Config) : list string :=
  if Language_eqb (language c) Cython then [] else sys_includes_ c.

Definition default_mangle : MangleConfig := {| rename_types := RNone; remove_underscores := false |}.
Definition default_export : ExportConfig := {|
  ex_include := []; ex_exclude := []; ex_rename := []; ex_pre_body := []; ex_body := [];
  ex_prefix := None; ex_item_types := []; ex_renaming_overrides_prefixing := false;
  ex_mangle := default_mangle |}.
(** config.rs:435-450 *)
Definition default_function : FunctionConfig := {|
  fn_prefix := None; fn_postfix := None; fn_must_use := None; fn_deprecated := None;
  fn_deprecated_with_note := None; fn_args := Auto; fn_rename_args := RNone;
  fn_swift_name_macro := None; fn_sort_by := None; fn_no_return := None |}.
Definition default_structure : StructConfig := {|
  st_rename_fields := RNone; st_derive_constructor := false; st_derive_eq := false;
  st_derive_neq := false; st_derive_lt := false; st_derive_lte := false; st_derive_gt := false;
  st_derive_gte := false; st_derive_ostream := false; st_associated_constants_in_body := false;
  st_rename_associated_constant := RNone; st_must_use := None; st_deprecated := None;
  st_deprecated_with_note := None |}.
(** config.rs:615-639 *)
Definition default_enumeration : EnumConfig := {|
  en_rename_variants := RNone; en_rename_variant_name_fields := SnakeCase; en_add_sentinel := false;
  en_prefix_with_name := false; en_derive_helper_methods := false; en_derive_const_casts := false;
  en_derive_mut_casts := false; en_cast_assert_name := None; en_must_use := None;
  en_deprecated := None; en_deprecated_with_note := None; en_deprecated_variant := None;
  en_deprecated_variant_with_note := None; en_derive_tagged_enum_destructor := false;
  en_derive_tagged_enum_copy_constructor := false; en_derive_tagged_enum_copy_assignment := false;
  en_derive_ostream := false; en_enum_class := true;
  en_private_default_tagged_enum_constructor := false |}.
(** config.rs:721-729 *)
Definition default_constant : ConstantConfig := {|
  co_allow_static_const := true; co_allow_constexpr := true; co_sort_by := None |}.
Definition default_parse : ParseConfig := {|
  pa_parse_deps := false; pa_include := None; pa_exclude := []; pa_expand_crates := [];
  pa_extra_bindings := [] |}.

(** config.rs:1037-1081 *)
Definition default_config : Config := {|
  header := None; includes_ := []; sys_includes_ := []; after_includes := None; trailer := None;
  include_guard_ := None; pragma_once := false; no_includes := false; package_version := false;
  autogen_warning := None; include_version := false; namespace := None; namespaces := None;
  using_namespaces := None; braces := SameLine; line_length := 100; tab_width := 2;
  line_endings := LF; language := Cxx; cpp_compat := false; style := Both; sort_by := SortNone;
  usize_is_size_t := false; parse := default_parse; export := default_export;
  layout := {| ly_packed := None; ly_aligned_n := None |}; function := default_function;
  structure := default_structure; enumeration := default_enumeration; constant := default_constant;
  defines := []; documentation := true; documentation_style := DocAuto;
  documentation_length := Full;
  pointer := {| pt_non_null_attribute := None; pt_nullable_attribute := None |};
  cython := {| cy_header := None; cy_cimports := [] |}; config_path := None |}.
