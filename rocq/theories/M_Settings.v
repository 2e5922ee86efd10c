(** Model of how src/bindgen/config.rs and src/bindgen/mod.rs read a
    configuration file: the [FromStr] implementations, the [Deserialize]
    implementations that serde derives for the configuration structs, and
    [Config::from_file] / [Config::from_root_or_default].

    Outside: the TOML syntax.  A file is given as the value the [toml] crate
    reads from it.

    Simplified: serde also lets a struct be given as an array of its fields in
    order; here that is an error.  The text of errors is left out. *)
Require Import Coq.Strings.String Coq.Lists.List Coq.Bool.Bool Coq.Arith.Arith Coq.ZArith.ZArith.
From Verif Require Import Base M_Config M_Type M_Ir M_Item M_Library.
Import ListNotations.
Open Scope string_scope.

(** [toml::Value]; the keys of a table are distinct.  [TmOther]: floats and
    dates, which no setting takes. *)
Inductive toml :=
| TmString (s : string)
| TmInteger (z : Z)
| TmBoolean (b : bool)
| TmArray (l : list toml)
| TmTable (l : list (string * toml))
| TmOther.

(** config.rs:743-758 *)
Inductive Profile := Debug | Release.
Definition Profile_from_str (s : string) : option Profile :=
  if mem_str s ["debug"; "Debug"] then Some Debug
  else if mem_str s ["release"; "Release"] then Some Release
  else None.
(** config.rs:762-792, without the list of crates, which is in [ParseConfig] *)
Record ExpandConfig := {
  xp_all_features : bool;
  xp_default_features : bool;
  xp_features : option (list string);
  xp_profile : Profile
}.
Definition default_expand : ExpandConfig :=
  {| xp_all_features := false; xp_default_features := true; xp_features := None; xp_profile := Debug |}.
(** config.rs:907-1035 again, with the settings that [Config] leaves out:
    [macro_expansion.bitflags], [only_target_dependencies], [parse.clean] and
    the settings of [parse.expand]. *)
Record Settings := {
  se_config : Config;
  se_bitflags : bool;
  se_only_target : bool;
  se_clean : bool;
  se_expand : ExpandConfig
}.
(** config.rs:1037-1081, 731-739, 781-792 *)
Definition default_settings : Settings :=
  {| se_config := default_config; se_bitflags := false; se_only_target := false; se_clean := false; se_expand := default_expand |}.

(** ** Values given as text *)

(** config.rs:96-108 *)
Definition LineEndingStyle_from_str {H : Heck} (s : string) : option LineEndingStyle :=
  let l := to_lowercase s in
  if String.eqb l "native" then Some Native
  else if String.eqb l "lf" then Some LF
  else if String.eqb l "crlf" then Some CRLF
  else if String.eqb l "cr" then Some CR
  else None.
(** config.rs:120-132 *)
Definition Braces_from_str (s : string) : option Braces :=
  if mem_str s ["SameLine"; "same_line"] then Some SameLine
  else if mem_str s ["NextLine"; "next_line"] then Some NextLine
  else None.
(** config.rs:144-158 *)
Definition Layout_from_str (s : string) : option Layout :=
  if mem_str s ["Horizontal"; "horizontal"] then Some Horizontal
  else if mem_str s ["Vertical"; "vertical"] then Some Vertical
  else if mem_str s ["Auto"; "auto"] then Some Auto
  else None.
(** config.rs:172-186 *)
Definition DocumentationStyle_from_str {H : Heck} (s : string) : option DocumentationStyle :=
  let l := to_lowercase s in
  if String.eqb l "c" then Some DocC
  else if String.eqb l "c99" then Some DocC99
  else if mem_str l ["cxx"; "c++"] then Some DocCxx
  else if String.eqb l "doxy" then Some DocDoxy
  else if String.eqb l "auto" then Some DocAuto
  else None.
(** config.rs:197-207 *)
Definition DocumentationLength_from_str {H : Heck} (s : string) : option DocumentationLength :=
  let l := to_lowercase s in
  if String.eqb l "short" then Some Short else if String.eqb l "full" then Some Full else None.
(** config.rs:245-259 *)
Definition Style_from_str (s : string) : option Style :=
  if mem_str s ["Both"; "both"] then Some Both
  else if mem_str s ["Tag"; "tag"] then Some Tag
  else if mem_str s ["Type"; "type"] then Some Type_
  else None.
(** config.rs:276-293 *)
Definition ItemType_from_str {H : Heck} (s : string) : option ItemType :=
  lookup (to_lowercase s)
    [("constants", Constants); ("globals", Globals); ("enums", Enums); ("structs", Structs); ("unions", Unions);
     ("typedefs", Typedefs); ("opaque", OpaqueItems); ("functions", Functions)].
(** config.rs:304-315 *)
Definition SortKey_from_str {H : Heck} (s : string) : option SortKey :=
  let l := to_lowercase s in
  if String.eqb l "name" then Some SortName else if String.eqb l "none" then Some SortNone else None.

(** ** Values *)

(** serde's [Deserialize] for [String], [bool], [usize], [Vec], [Option] and
    the maps; [None] is the [Err] result. *)
Definition as_string (t : toml) : option string := match t with TmString s => Some s | _ => None end.
Definition as_bool (t : toml) : option bool := match t with TmBoolean b => Some b | _ => None end.
Definition as_usize (t : toml) : option nat :=
  match t with TmInteger z => if Z.ltb z 0 then None else Some (Z.to_nat z) | _ => None end.
Definition as_vec {A} (d : toml -> option A) (t : toml) : option (list A) :=
  match t with TmArray l => map_opt d l | _ => None end.
Definition as_some {A} (d : toml -> option A) (t : toml) : option (option A) := option_map Some (d t).
Definition as_map {A} (d : toml -> option A) (t : toml) : option (list (string * A)) :=
  match t with TmTable l => map_opt (fun kv => option_map (pair (fst kv)) (d (snd kv))) l | _ => None end.
(** a [BTreeMap]: sorted by key *)
Definition as_btree {A} (d : toml -> option A) (t : toml) : option (list (string * A)) :=
  option_map (sort_by_le (fun a b => str_leb (fst a) (fst b))) (as_map d t).
(** mod.rs:8-37 *)
Definition as_enum {A} (from_str : string -> option A) (t : toml) : option A :=
  match t with TmString s => from_str s | _ => None end.

(** What serde derives for a struct with [default] and [deny_unknown_fields] *)
Definition fields (known : list string) (t : toml) : option (list (string * toml)) :=
  match t with
  | TmTable l => if forallb (fun kv => mem_str (fst kv) known) l then Some l else None
  | _ => None
  end.
Definition field {A} (l : list (string * toml)) (key : string) (d : toml -> option A) (dflt : A) : option A :=
  match lookup key l with Some t => d t | None => Some dflt end.

(** config.rs:346-356 *)
Definition as_mangle (t : toml) : option MangleConfig :=
  let? l := fields ["rename_types"; "remove_underscores"] t in
  let? rename := field l "rename_types" (as_enum RenameRule_from_str) RNone in
  let? remove := field l "remove_underscores" as_bool false in
  Some {| rename_types := rename; remove_underscores := remove |}.
(** config.rs:319-344 *)
Definition as_export {H : Heck} (t : toml) : option ExportConfig :=
  let? l := fields ["include"; "exclude"; "rename"; "pre_body"; "body"; "prefix"; "item_types";
                    "renaming_overrides_prefixing"; "mangle"] t in
  let? include := field l "include" (as_vec as_string) [] in
  let? exclude := field l "exclude" (as_vec as_string) [] in
  let? rename := field l "rename" (as_map as_string) [] in
  let? pre_body := field l "pre_body" (as_map as_string) [] in
  let? body := field l "body" (as_map as_string) [] in
  let? prefix := field l "prefix" (as_some as_string) None in
  let? item_types := field l "item_types" (as_vec (as_enum ItemType_from_str)) [] in
  let? overrides := field l "renaming_overrides_prefixing" as_bool false in
  let? mangle := field l "mangle" as_mangle default_mangle in
  Some {| ex_include := include; ex_exclude := exclude; ex_rename := rename; ex_pre_body := pre_body; ex_body := body;
          ex_prefix := prefix; ex_item_types := item_types; ex_renaming_overrides_prefixing := overrides;
          ex_mangle := mangle |}.
(** config.rs:384-395 *)
Definition as_layout (t : toml) : option LayoutConfig :=
  let? l := fields ["packed"; "aligned_n"] t in
  let? packed := field l "packed" (as_some as_string) None in
  let? aligned := field l "aligned_n" (as_some as_string) None in
  Some {| ly_packed := packed; ly_aligned_n := aligned |}.
(** config.rs:408-450 *)
Definition as_function {H : Heck} (t : toml) : option FunctionConfig :=
  let? l := fields ["prefix"; "postfix"; "must_use"; "deprecated"; "deprecated_with_note"; "args"; "rename_args";
                    "swift_name_macro"; "sort_by"; "no_return"] t in
  let? prefix := field l "prefix" (as_some as_string) None in
  let? postfix := field l "postfix" (as_some as_string) None in
  let? must := field l "must_use" (as_some as_string) None in
  let? deprecated := field l "deprecated" (as_some as_string) None in
  let? noted := field l "deprecated_with_note" (as_some as_string) None in
  let? args := field l "args" (as_enum Layout_from_str) Auto in
  let? rename := field l "rename_args" (as_enum RenameRule_from_str) RNone in
  let? swift := field l "swift_name_macro" (as_some as_string) None in
  let? sort := field l "sort_by" (as_some (as_enum SortKey_from_str)) None in
  let? no_return := field l "no_return" (as_some as_string) None in
  Some {| fn_prefix := prefix; fn_postfix := postfix; fn_must_use := must; fn_deprecated := deprecated;
          fn_deprecated_with_note := noted; fn_args := args; fn_rename_args := rename; fn_swift_name_macro := swift;
          fn_sort_by := sort; fn_no_return := no_return |}.
(** config.rs:468-505 *)
Definition as_structure (t : toml) : option StructConfig :=
  let? l := fields ["rename_fields"; "derive_constructor"; "derive_eq"; "derive_neq"; "derive_lt"; "derive_lte"; "derive_gt";
                    "derive_gte"; "derive_ostream"; "associated_constants_in_body"; "rename_associated_constant"; "must_use";
                    "deprecated"; "deprecated_with_note"] t in
  let? rename := field l "rename_fields" (as_enum RenameRule_from_str) RNone in
  let? ctor := field l "derive_constructor" as_bool false in
  let? eq := field l "derive_eq" as_bool false in
  let? neq := field l "derive_neq" as_bool false in
  let? lt := field l "derive_lt" as_bool false in
  let? lte := field l "derive_lte" as_bool false in
  let? gt := field l "derive_gt" as_bool false in
  let? gte := field l "derive_gte" as_bool false in
  let? ostream := field l "derive_ostream" as_bool false in
  let? inside := field l "associated_constants_in_body" as_bool false in
  let? rename_const := field l "rename_associated_constant" (as_enum RenameRule_from_str) RNone in
  let? must := field l "must_use" (as_some as_string) None in
  let? deprecated := field l "deprecated" (as_some as_string) None in
  let? noted := field l "deprecated_with_note" (as_some as_string) None in
  Some {| st_rename_fields := rename; st_derive_constructor := ctor; st_derive_eq := eq; st_derive_neq := neq;
          st_derive_lt := lt; st_derive_lte := lte; st_derive_gt := gt; st_derive_gte := gte; st_derive_ostream := ostream;
          st_associated_constants_in_body := inside; st_rename_associated_constant := rename_const; st_must_use := must;
          st_deprecated := deprecated; st_deprecated_with_note := noted |}.
(** config.rs:558-639 *)
Definition as_enumeration (t : toml) : option EnumConfig :=
  let? l := fields ["rename_variants"; "rename_variant_name_fields"; "add_sentinel"; "prefix_with_name";
                    "derive_helper_methods"; "derive_const_casts"; "derive_mut_casts"; "cast_assert_name"; "must_use";
                    "deprecated"; "deprecated_with_note"; "deprecated_variant"; "deprecated_variant_with_note";
                    "derive_tagged_enum_destructor"; "derive_tagged_enum_copy_constructor";
                    "derive_tagged_enum_copy_assignment"; "derive_ostream"; "enum_class";
                    "private_default_tagged_enum_constructor"] t in
  let? rename := field l "rename_variants" (as_enum RenameRule_from_str) RNone in
  let? rename_names := field l "rename_variant_name_fields" (as_enum RenameRule_from_str) SnakeCase in
  let? sentinel := field l "add_sentinel" as_bool false in
  let? prefixed := field l "prefix_with_name" as_bool false in
  let? helpers := field l "derive_helper_methods" as_bool false in
  let? const_casts := field l "derive_const_casts" as_bool false in
  let? mut_casts := field l "derive_mut_casts" as_bool false in
  let? assert_name := field l "cast_assert_name" (as_some as_string) None in
  let? must := field l "must_use" (as_some as_string) None in
  let? deprecated := field l "deprecated" (as_some as_string) None in
  let? noted := field l "deprecated_with_note" (as_some as_string) None in
  let? variant := field l "deprecated_variant" (as_some as_string) None in
  let? variant_noted := field l "deprecated_variant_with_note" (as_some as_string) None in
  let? destructor := field l "derive_tagged_enum_destructor" as_bool false in
  let? copy := field l "derive_tagged_enum_copy_constructor" as_bool false in
  let? assign := field l "derive_tagged_enum_copy_assignment" as_bool false in
  let? ostream := field l "derive_ostream" as_bool false in
  let? class := field l "enum_class" as_bool true in
  let? private := field l "private_default_tagged_enum_constructor" as_bool false in
  Some {| en_rename_variants := rename; en_rename_variant_name_fields := rename_names; en_add_sentinel := sentinel;
          en_prefix_with_name := prefixed; en_derive_helper_methods := helpers; en_derive_const_casts := const_casts;
          en_derive_mut_casts := mut_casts; en_cast_assert_name := assert_name; en_must_use := must;
          en_deprecated := deprecated; en_deprecated_with_note := noted; en_deprecated_variant := variant;
          en_deprecated_variant_with_note := variant_noted; en_derive_tagged_enum_destructor := destructor;
          en_derive_tagged_enum_copy_constructor := copy; en_derive_tagged_enum_copy_assignment := assign;
          en_derive_ostream := ostream; en_enum_class := class; en_private_default_tagged_enum_constructor := private |}.
(** config.rs:707-729 *)
Definition as_constant {H : Heck} (t : toml) : option ConstantConfig :=
  let? l := fields ["allow_static_const"; "allow_constexpr"; "sort_by"] t in
  let? static_const := field l "allow_static_const" as_bool true in
  let? constexpr := field l "allow_constexpr" as_bool true in
  let? sort := field l "sort_by" (as_some (as_enum SortKey_from_str)) None in
  Some {| co_allow_static_const := static_const; co_allow_constexpr := constexpr; co_sort_by := sort |}.
(** config.rs:731-739 *)
Definition as_macro_expansion (t : toml) : option bool :=
  let? l := fields ["bitflags"] t in field l "bitflags" as_bool false.
(** config.rs:762-830: the crates to expand and how.  As an array it is the
    crates alone, and turns on all features. *)
Definition as_expand (t : toml) : option (list string * ExpandConfig) :=
  match t with
  | TmArray _ =>
      let? crates := as_vec as_string t in
      Some (crates, {| xp_all_features := true; xp_default_features := true; xp_features := None; xp_profile := Debug |})
  | _ =>
      let? l := fields ["crates"; "all_features"; "default_features"; "features"; "profile"] t in
      let? crates := field l "crates" (as_vec as_string) [] in
      let? all := field l "all_features" as_bool false in
      let? default := field l "default_features" as_bool true in
      let? features := field l "features" (as_some (as_vec as_string)) None in
      let? profile := field l "profile" (as_enum Profile_from_str) Debug in
      Some (crates, {| xp_all_features := all; xp_default_features := default; xp_features := features; xp_profile := profile |})
  end.
(** config.rs:832-860 *)
Definition as_parse (t : toml) : option (ParseConfig * bool * ExpandConfig) :=
  let? l := fields ["parse_deps"; "include"; "exclude"; "expand"; "clean"; "extra_bindings"] t in
  let? deps := field l "parse_deps" as_bool false in
  let? include := field l "include" (as_some (as_vec as_string)) None in
  let? exclude := field l "exclude" (as_vec as_string) [] in
  let? expand := field l "expand" as_expand ([], default_expand) in
  let? clean := field l "clean" as_bool false in
  let? extra := field l "extra_bindings" (as_vec as_string) [] in
  Some ({| pa_parse_deps := deps; pa_include := include; pa_exclude := exclude; pa_expand_crates := fst expand;
           pa_extra_bindings := extra |}, clean, snd expand).
(** config.rs:877-887 *)
Definition as_pointer (t : toml) : option PtrConfig :=
  let? l := fields ["non_null_attribute"; "nullable_attribute"] t in
  let? non_null := field l "non_null_attribute" (as_some as_string) None in
  let? nullable := field l "nullable_attribute" (as_some as_string) None in
  Some {| pt_non_null_attribute := non_null; pt_nullable_attribute := nullable |}.
(** config.rs:889-900 *)
Definition as_cython (t : toml) : option CythonConfig :=
  let? l := fields ["header"; "cimports"] t in
  let? header := field l "header" (as_some as_string) None in
  let? cimports := field l "cimports" (as_btree (as_vec as_string)) [] in
  Some {| cy_header := header; cy_cimports := cimports |}.

(** config.rs:902-1035: [toml::from_str::<Config>] *)
Definition as_settings {H : Heck} (t : toml) : option Settings :=
  let? l := fields ["header"; "includes"; "sys_includes"; "after_includes"; "trailer"; "include_guard"; "pragma_once";
                    "no_includes"; "package_version"; "autogen_warning"; "include_version"; "namespace"; "namespaces";
                    "using_namespaces"; "braces"; "line_length"; "tab_width"; "line_endings"; "language"; "cpp_compat";
                    "style"; "sort_by"; "usize_is_size_t"; "parse"; "export"; "macro_expansion"; "layout"; "fn"; "struct";
                    "enum"; "const"; "defines"; "documentation"; "documentation_style"; "documentation_length"; "ptr";
                    "only_target_dependencies"; "cython"] t in
  let? hd := field l "header" (as_some as_string) None in
  let? incl := field l "includes" (as_vec as_string) [] in
  let? sys := field l "sys_includes" (as_vec as_string) [] in
  let? after := field l "after_includes" (as_some as_string) None in
  let? tl := field l "trailer" (as_some as_string) None in
  let? guard := field l "include_guard" (as_some as_string) None in
  let? once := field l "pragma_once" as_bool false in
  let? no_incl := field l "no_includes" as_bool false in
  let? pkg := field l "package_version" as_bool false in
  let? warning := field l "autogen_warning" (as_some as_string) None in
  let? version := field l "include_version" as_bool false in
  let? ns := field l "namespace" (as_some as_string) None in
  let? nss := field l "namespaces" (as_some (as_vec as_string)) None in
  let? uses := field l "using_namespaces" (as_some (as_vec as_string)) None in
  let? br := field l "braces" (as_enum Braces_from_str) SameLine in
  let? length_ := field l "line_length" as_usize 100 in
  let? tab := field l "tab_width" as_usize 2 in
  let? endings := field l "line_endings" (as_enum LineEndingStyle_from_str) LF in
  let? lang := field l "language" (as_enum Language_from_str) Cxx in
  let? compat := field l "cpp_compat" as_bool false in
  let? st := field l "style" (as_enum Style_from_str) Both in
  let? sort := field l "sort_by" (as_enum SortKey_from_str) SortNone in
  let? size := field l "usize_is_size_t" as_bool false in
  let? pa := field l "parse" as_parse (default_parse, false, default_expand) in
  let? ex := field l "export" as_export default_export in
  let? bitflags := field l "macro_expansion" as_macro_expansion false in
  let? ly := field l "layout" as_layout {| ly_packed := None; ly_aligned_n := None |} in
  let? fn := field l "fn" as_function default_function in
  let? str := field l "struct" as_structure default_structure in
  let? enm := field l "enum" as_enumeration default_enumeration in
  let? cst := field l "const" as_constant default_constant in
  let? defs := field l "defines" (as_map as_string) [] in
  let? docs := field l "documentation" as_bool true in
  let? doc_style := field l "documentation_style" (as_enum DocumentationStyle_from_str) DocAuto in
  let? doc_length := field l "documentation_length" (as_enum DocumentationLength_from_str) Full in
  let? ptr := field l "ptr" as_pointer {| pt_non_null_attribute := None; pt_nullable_attribute := None |} in
  let? only := field l "only_target_dependencies" as_bool false in
  let? cy := field l "cython" as_cython {| cy_header := None; cy_cimports := [] |} in
  Some {| se_config :=
            {| header := hd; includes_ := incl; sys_includes_ := sys; after_includes := after; trailer := tl;
               include_guard_ := guard; pragma_once := once; no_includes := no_incl; package_version := pkg;
               autogen_warning := warning; include_version := version; namespace := ns; namespaces := nss;
               using_namespaces := uses; braces := br; line_length := length_; tab_width := tab; line_endings := endings;
               language := lang; cpp_compat := compat; style := st; sort_by := sort; usize_is_size_t := size;
               parse := fst (fst pa); export := ex; layout := ly; function := fn; structure := str; enumeration := enm;
               constant := cst; defines := defs; documentation := docs; documentation_style := doc_style;
               documentation_length := doc_length; pointer := ptr; cython := cy; config_path := None |};
          se_bitflags := bitflags; se_only_target := only; se_clean := snd (fst pa); se_expand := snd pa |}.
