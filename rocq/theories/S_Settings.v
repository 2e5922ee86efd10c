(** What a configuration file means: the keys it may have, the values they
    take, the setting each one decides and what holds when it is left out
    (docs.md, "Configuration", and the comments in src/bindgen/config.rs). *)
Require Import Coq.Strings.String Coq.Lists.List Coq.ZArith.ZArith.
From Verif Require Import Base M_Config M_Settings S_Sort.
Import ListNotations.
Open Scope string_scope.

(** ** Values *)

Definition text (v : toml) (a : string) : Prop := v = TmString a.
Definition flag (v : toml) (a : bool) : Prop := v = TmBoolean a.
Definition number (v : toml) (a : nat) : Prop := v = TmInteger (Z.of_nat a).
Definition array {A} (R : toml -> A -> Prop) (v : toml) (a : list A) : Prop := exists l, v = TmArray l /\ Forall2 R l a.
Definition given {A} (R : toml -> A -> Prop) (v : toml) (a : option A) : Prop := exists b, a = Some b /\ R v b.
Definition mapping {A} (R : toml -> A -> Prop) (v : toml) (a : list (string * A)) : Prop :=
  exists l, v = TmTable l /\ Forall2 (fun kv ka => fst kv = fst ka /\ R (snd kv) (snd ka)) l a.
Definition sorted_mapping {A} (R : toml -> A -> Prop) (v : toml) (a : list (string * A)) : Prop :=
  exists b, mapping R v b /\ stable_sort_of (fun x y => str_leb (fst x) (fst y)) b a.
(** one of these words *)
Definition word {A} (words : list (string * A)) (v : toml) (a : A) : Prop := exists s, v = TmString s /\ In (s, a) words.
(** … in any case *)
Definition any_case {H : Heck} {A} (words : list (string * A)) (v : toml) (a : A) : Prop :=
  exists s, v = TmString s /\ In (to_lowercase s, a) words.

Definition languages : list (string * Language) :=
  [("C", C); ("c", C); ("Cython", Cython); ("cython", Cython); ("C++", Cxx); ("c++", Cxx);
   ("cxx", Cxx); ("Cxx", Cxx); ("CXX", Cxx); ("cpp", Cxx); ("Cpp", Cxx); ("CPP", Cxx)].
Definition styles : list (string * Style) :=
  [("type", Type_); ("tag", Tag); ("both", Both); ("Type", Type_); ("Tag", Tag); ("Both", Both)].
Definition profiles : list (string * Profile) :=
  [("debug", Debug); ("Debug", Debug); ("release", Release); ("Release", Release)].
Definition brace_styles : list (string * Braces) :=
  [("SameLine", SameLine); ("NextLine", NextLine); ("same_line", SameLine); ("next_line", NextLine)].
Definition layouts : list (string * Layout) :=
  [("horizontal", Horizontal); ("vertical", Vertical); ("auto", Auto);
   ("Horizontal", Horizontal); ("Vertical", Vertical); ("Auto", Auto)].
Definition line_ends : list (string * LineEndingStyle) := [("lf", LF); ("cr", CR); ("crlf", CRLF); ("native", Native)].
Definition doc_styles : list (string * DocumentationStyle) :=
  [("c", DocC); ("c99", DocC99); ("c++", DocCxx); ("cxx", DocCxx); ("doxy", DocDoxy); ("auto", DocAuto)].
Definition doc_lengths : list (string * DocumentationLength) := [("short", Short); ("full", Full)].
Definition item_kinds : list (string * ItemType) :=
  [("constants", Constants); ("globals", Globals); ("enums", Enums); ("structs", Structs); ("unions", Unions);
   ("typedefs", Typedefs); ("opaque", OpaqueItems); ("functions", Functions)].
Definition orders : list (string * SortKey) := [("name", SortName); ("none", SortNone)].
Definition rules : list (string * RenameRule) :=
  [("None", RNone); ("none", RNone);
   ("GeckoCase", GeckoCase); ("gecko_case", GeckoCase); ("mGeckoCase", GeckoCase);
   ("LowerCase", LowerCase); ("lower_case", LowerCase); ("lowercase", LowerCase);
   ("UpperCase", UpperCase); ("upper_case", UpperCase); ("UPPERCASE", UpperCase);
   ("PascalCase", PascalCase); ("pascal_case", PascalCase);
   ("CamelCase", CamelCase); ("camel_case", CamelCase); ("camelCase", CamelCase);
   ("SnakeCase", SnakeCase); ("snake_case", SnakeCase);
   ("ScreamingSnakeCase", ScreamingSnakeCase); ("screaming_snake_case", ScreamingSnakeCase);
   ("SCREAMING_SNAKE_CASE", ScreamingSnakeCase);
   ("QualifiedScreamingSnakeCase", QualifiedScreamingSnakeCase);
   ("qualified_screaming_snake_case", QualifiedScreamingSnakeCase);
   ("QUALIFIED_SCREAMING_SNAKE_CASE", QualifiedScreamingSnakeCase)].
Definition rule (v : toml) (a : RenameRule) : Prop :=
  word rules v a \/ exists p, v = TmString ("prefix:" ++ p) /\ a = RPrefix p.

(** ** Tables *)

(** A key of a table: the values it takes, what holds without it, and what it
    decides in the settings [R] of the table *)
Record entry (R : Type) := Entry {
  key : string;
  what : Type;
  takes : toml -> what -> Prop;
  otherwise : what -> Prop;
  decides : R -> what
}.
Arguments Entry {R} key {what} takes otherwise decides.
Arguments key {R}. Arguments what {R}. Arguments takes {R}. Arguments otherwise {R}. Arguments decides {R}.
(** In a table with the entries [l], the setting is as its key says *)
Definition settled {R} (l : list (string * toml)) (r : R) (e : entry R) : Prop :=
  match lookup (key e) l with
  | Some v => takes e v (decides e r)
  | None => otherwise e (decides e r)
  end.
(** The table has these keys only, and every setting is as its key says. *)
Definition table {R} (entries : list (entry R)) (v : toml) (r : R) : Prop :=
  exists l, v = TmTable l /\ (forall k x, In (k, x) l -> In k (map key entries)) /\ Forall (settled l r) entries.

(** A key with a value, and one with a table of its own: without it, that
    table is empty. *)
Definition Value {R A} (k : string) (takes : toml -> A -> Prop) (dflt : A) (get : R -> A) : entry R :=
  Entry k takes (fun a => a = dflt) get.
Definition Subtable {R A} (k : string) (takes : toml -> A -> Prop) (get : R -> A) : entry R :=
  Entry k takes (takes (TmTable [])) get.

Notation words_ := (given text).
Notation list_ := (array text).
Notation order := (any_case orders).

Section Tables.
  Context {H : Heck}.

  Definition mangle_table : list (entry MangleConfig) :=
    [ Value "rename_types" rule RNone rename_types;
      Value "remove_underscores" flag false remove_underscores ].
  Definition export_table : list (entry ExportConfig) :=
    [ Value "include" list_ [] ex_include;
      Value "exclude" list_ [] ex_exclude;
      Value "prefix" words_ None ex_prefix;
      Value "item_types" (array (any_case item_kinds)) [] ex_item_types;
      Value "renaming_overrides_prefixing" flag false ex_renaming_overrides_prefixing;
      Value "rename" (mapping text) [] ex_rename;
      Value "pre_body" (mapping text) [] ex_pre_body;
      Value "body" (mapping text) [] ex_body;
      Subtable "mangle" (table mangle_table) ex_mangle ].
  Definition layout_table : list (entry LayoutConfig) :=
    [ Value "packed" words_ None ly_packed; Value "aligned_n" words_ None ly_aligned_n ].
  Definition fn_table : list (entry FunctionConfig) :=
    [ Value "prefix" words_ None fn_prefix;
      Value "postfix" words_ None fn_postfix;
      Value "args" (word layouts) Auto fn_args;
      Value "must_use" words_ None fn_must_use;
      Value "deprecated" words_ None fn_deprecated;
      Value "deprecated_with_note" words_ None fn_deprecated_with_note;
      Value "no_return" words_ None fn_no_return;
      Value "swift_name_macro" words_ None fn_swift_name_macro;
      Value "rename_args" rule RNone fn_rename_args;
      Value "sort_by" (given order) None fn_sort_by ].
  Definition struct_table : list (entry StructConfig) :=
    [ Value "rename_fields" rule RNone st_rename_fields;
      Value "must_use" words_ None st_must_use;
      Value "deprecated" words_ None st_deprecated;
      Value "deprecated_with_note" words_ None st_deprecated_with_note;
      Value "associated_constants_in_body" flag false st_associated_constants_in_body;
      Value "rename_associated_constant" rule RNone st_rename_associated_constant;
      Value "derive_constructor" flag false st_derive_constructor;
      Value "derive_eq" flag false st_derive_eq;
      Value "derive_neq" flag false st_derive_neq;
      Value "derive_lt" flag false st_derive_lt;
      Value "derive_lte" flag false st_derive_lte;
      Value "derive_gt" flag false st_derive_gt;
      Value "derive_gte" flag false st_derive_gte;
      Value "derive_ostream" flag false st_derive_ostream ].
  Definition enum_table : list (entry EnumConfig) :=
    [ Value "rename_variants" rule RNone en_rename_variants;
      Value "rename_variant_name_fields" rule SnakeCase en_rename_variant_name_fields;
      Value "add_sentinel" flag false en_add_sentinel;
      Value "prefix_with_name" flag false en_prefix_with_name;
      Value "enum_class" flag true en_enum_class;
      Value "derive_helper_methods" flag false en_derive_helper_methods;
      Value "derive_const_casts" flag false en_derive_const_casts;
      Value "derive_mut_casts" flag false en_derive_mut_casts;
      Value "cast_assert_name" words_ None en_cast_assert_name;
      Value "must_use" words_ None en_must_use;
      Value "deprecated" words_ None en_deprecated;
      Value "deprecated_with_note" words_ None en_deprecated_with_note;
      Value "deprecated_variant" words_ None en_deprecated_variant;
      Value "deprecated_variant_with_note" words_ None en_deprecated_variant_with_note;
      Value "derive_tagged_enum_destructor" flag false en_derive_tagged_enum_destructor;
      Value "derive_tagged_enum_copy_constructor" flag false en_derive_tagged_enum_copy_constructor;
      Value "derive_tagged_enum_copy_assignment" flag false en_derive_tagged_enum_copy_assignment;
      Value "private_default_tagged_enum_constructor" flag false en_private_default_tagged_enum_constructor;
      Value "derive_ostream" flag false en_derive_ostream ].
  Definition const_table : list (entry ConstantConfig) :=
    [ Value "allow_static_const" flag true co_allow_static_const;
      Value "allow_constexpr" flag true co_allow_constexpr;
      Value "sort_by" (given order) None co_sort_by ].
  Definition macro_table : list (entry bool) := [ Value "bitflags" flag false (fun b => b) ].

  (** The crates to expand and how: a table, or the crates alone, which turns
      all their features on *)
  Definition expanding : Type := list string * ExpandConfig.
  Definition expand_table : list (entry expanding) :=
    [ Value "crates" list_ [] fst;
      Value "all_features" flag false (fun x => xp_all_features (snd x));
      Value "default_features" flag true (fun x => xp_default_features (snd x));
      Value "features" (given list_) None (fun x => xp_features (snd x));
      Value "profile" (word profiles) Debug (fun x => xp_profile (snd x)) ].
  Definition shorthand (v : toml) : toml :=
    match v with TmArray _ => TmTable [("crates", v); ("all_features", TmBoolean true)] | _ => v end.
  Definition expand_value (v : toml) (x : expanding) : Prop := table expand_table (shorthand v) x.

  Definition parsing_ : Type := ParseConfig * bool * ExpandConfig.
  Definition parse_table : list (entry parsing_) :=
    [ Value "parse_deps" flag false (fun p => pa_parse_deps (fst (fst p)));
      Value "include" (given list_) None (fun p => pa_include (fst (fst p)));
      Value "exclude" list_ [] (fun p => pa_exclude (fst (fst p)));
      Value "clean" flag false (fun p => snd (fst p));
      Value "extra_bindings" list_ [] (fun p => pa_extra_bindings (fst (fst p)));
      Subtable "expand" expand_value (fun p => (pa_expand_crates (fst (fst p)), snd p)) ].
  Definition ptr_table : list (entry PtrConfig) :=
    [ Value "non_null_attribute" words_ None pt_non_null_attribute;
      Value "nullable_attribute" words_ None pt_nullable_attribute ].
  Definition cython_table : list (entry CythonConfig) :=
    [ Value "header" words_ None cy_header; Value "cimports" (sorted_mapping list_) [] cy_cimports ].

  Definition of_config {A} (f : Config -> A) (s : Settings) : A := f (se_config s).
  Definition file_table : list (entry Settings) :=
    [ Value "header" words_ None (of_config header);
      Value "trailer" words_ None (of_config trailer);
      Value "include_guard" words_ None (of_config include_guard_);
      Value "pragma_once" flag false (of_config pragma_once);
      Value "autogen_warning" words_ None (of_config autogen_warning);
      Value "include_version" flag false (of_config include_version);
      Value "package_version" flag false (of_config package_version);
      Value "namespace" words_ None (of_config namespace);
      Value "namespaces" (given list_) None (of_config namespaces);
      Value "using_namespaces" (given list_) None (of_config using_namespaces);
      Value "sys_includes" list_ [] (of_config sys_includes_);
      Value "includes" list_ [] (of_config includes_);
      Value "no_includes" flag false (of_config no_includes);
      Value "after_includes" words_ None (of_config after_includes);
      Value "cpp_compat" flag false (of_config cpp_compat);
      Value "braces" (word brace_styles) SameLine (of_config braces);
      Value "line_length" number 100 (of_config line_length);
      Value "tab_width" number 2 (of_config tab_width);
      Value "line_endings" (any_case line_ends) LF (of_config line_endings);
      Value "documentation" flag true (of_config documentation);
      Value "documentation_style" (any_case doc_styles) DocAuto (of_config documentation_style);
      Value "documentation_length" (any_case doc_lengths) Full (of_config documentation_length);
      Value "language" (word languages) Cxx (of_config language);
      Value "style" (word styles) Both (of_config style);
      Value "sort_by" order SortNone (of_config sort_by);
      Value "usize_is_size_t" flag false (of_config usize_is_size_t);
      Value "only_target_dependencies" flag false se_only_target;
      Value "defines" (mapping text) [] (of_config defines);
      Subtable "export" (table export_table) (of_config export);
      Subtable "layout" (table layout_table) (of_config layout);
      Subtable "fn" (table fn_table) (of_config function);
      Subtable "struct" (table struct_table) (of_config structure);
      Subtable "enum" (table enum_table) (of_config enumeration);
      Subtable "const" (table const_table) (of_config constant);
      Subtable "macro_expansion" (table macro_table) se_bitflags;
      Subtable "parse" (table parse_table)
            (fun s => (parse (se_config s), se_clean s, se_expand s));
      Subtable "ptr" (table ptr_table) (of_config pointer);
      Subtable "cython" (table cython_table) (of_config cython) ].
End Tables.
