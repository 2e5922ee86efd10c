{
 "claims": [
  {
   "property": "C01",
   "status": "proved",
   "theorems": [
    "C01_escape_exact",
    "C01_escape_collisions",
    "C01_escape_injective_refuted"
   ],
   "note": "Escaping is exact on the keyword table; collisions and non-injectivity are characterised and refuted."
  },
  {
   "property": "C02",
   "status": "proved",
   "theorems": [
    "C02_cython_refuted",
    "C02_members",
    "C02_arguments",
    "C02_variants",
    "C02_unions_refuted",
    "C02_renamed_variants_refuted",
    "C02_overlooked_refuted",
    "C02_items_refuted"
   ],
   "note": "All libraries and configurations, through the whole pipeline. Refuted: union fields, renamed variants, keywords missing from the table, names of items."
  },
  {
   "property": "C03",
   "status": "proved",
   "theorems": [
    "C03_attributes_meaning",
    "C03_unparsable_attribute_refuted",
    "C03_guard_text_exact",
    "C03_empty_any_refuted",
    "C03_nested_cfg_meaning",
    "C03_define_order_irrelevant",
    "C03_define_order_refuted"
   ],
   "note": "End to end from attribute to printed text, under the stated side conditions; empty any(), unparsable attributes and duplicate define spellings are refuted."
  },
  {
   "property": "C04",
   "status": "proved",
   "theorems": [
    "C04_guard_reads_back"
   ],
   "note": "Printed guards are lexed and parsed back by an independent reader."
  },
  {
   "property": "C05",
   "status": "proved",
   "theorems": [
    "C05_balanced",
    "C05_declaration_balanced",
    "C05_guard_wraps",
    "C05_guard_wraps_exact",
    "C05_no_guard",
    "C05_variant_guard_wraps",
    "C05_field_guard_wraps",
    "C05_typedef_constants_refuted",
    "C05_field_semicolon_refuted",
    "C05_cython_members_refuted",
    "C05_layout_refuted"
   ],
   "note": "The whole file and every declaration are balanced for every truth assignment of the conditions, for all bindings whose user-provided texts are themselves balanced (tame); guarded declarations, fields and variants are the unguarded text between #if and #endif. Refuted: constants of a transparent struct, semicolon of a conditional field, Cython members, layout."
  },
  {
   "property": "C06",
   "status": "proved",
   "theorems": [
    "C06_unknown_atoms_only_weaken",
    "C06_unknown_in_all_only",
    "C06_unknown_under_any_refuted"
   ],
   "note": "Exact polarity condition plus the simple case; refuted for unknown atoms under any()."
  },
  {
   "property": "C07",
   "status": "proved",
   "theorems": [
    "C07_history",
    "C07_no_mixing",
    "C07_lookup_path"
   ],
   "note": "Every history of insertions, removals and updates refines the independent table specification."
  },
  {
   "property": "C08",
   "status": "proved",
   "theorems": [
    "C08_filter_items",
    "C08_filter_no_empty_entry",
    "C08_filter_lookup",
    "C08_rebuild_keeps",
    "C08_rebuild_adds_none",
    "C08_rebuild_identity"
   ],
   "note": "Filtering, rebuilding and lookups."
  },
  {
   "property": "C09",
   "status": "proved",
   "theorems": [
    "C09_constants_refuted",
    "C09_dependencies",
    "C09_bindings",
    "C09_final_order",
    "C09_enum_discriminant_refuted"
   ],
   "note": "Termination, exact reachability and order; the final order is refuted for enums without fields whose discriminants use a struct."
  },
  {
   "property": "C10",
   "status": "proved",
   "theorems": [
    "C10_layers",
    "C10_any_stable_sort",
    "C10_is_stable_sort",
    "C10_comparison_total",
    "C10_comparison_antisymmetric"
   ],
   "note": "The three layers, stability and independence from the sorting algorithm."
  },
  {
   "property": "C11",
   "status": "proved",
   "theorems": [
    "C11_only_wanted",
    "C11_wanted_found",
    "C11_functions_kept"
   ],
   "note": "Only wanted kinds, and every wanted kind."
  },
  {
   "property": "C12",
   "status": "proved",
   "theorems": [
    "C12_excluded",
    "C12_C37_functions",
    "C12_C37_constants",
    "C12_C37_globals",
    "C12_others_kept"
   ],
   "note": "Nothing excluded is present; nothing else is removed. Instances of an excluded generic type are not excluded (example)."
  },
  {
   "property": "C13",
   "status": "proved",
   "theorems": [
    "C13_references",
    "C13_agree",
    "C13_constants",
    "C13_sources"
   ],
   "note": "Every reference at any depth and every definition, through all passes; plain constants in literals too."
  },
  {
   "property": "C14",
   "status": "proved",
   "theorems": [
    "C14_idempotent",
    "C14_no_wrapper_left",
    "C14_others_unchanged",
    "C14_same_representation",
    "C14_option_of_cell_refuted"
   ],
   "note": "Idempotence, completeness, and representation preservation outside Option over a cell, which is refuted."
  },
  {
   "property": "C15",
   "status": "proved",
   "theorems": [
    "C15_simultaneous_substitution",
    "C15_no_other_names",
    "C15_no_parameter_left",
    "C15_parameters_by_position",
    "C15_dependent_default_refuted"
   ],
   "note": "Semantic substitution theorem in every interpretation, names, closedness; dependent defaults refuted."
  },
  {
   "property": "C16",
   "status": "partial",
   "theorems": [
    "C16_mangling_injective_partial",
    "C16_pointer_order_refuted",
    "C16_pointer_to_array_refuted",
    "C16_underscore_refuted",
    "C16_nullability_refuted",
    "C16_remove_underscores_refuted",
    "C16_deep_pointers_refuted",
    "C16_function_pointer_refuted"
   ],
   "note": "Injective on the fragment described in T_Type.v; refuted outside it by seven collisions, one or more for each restriction."
  },
  {
   "property": "C17",
   "status": "proved",
   "theorems": [
    "C17_mangled_names_are_identifiers"
   ],
   "note": "Every mangled name is an identifier when the names it is built from are."
  },
  {
   "property": "C18",
   "status": "proved",
   "theorems": [
    "C18_no_generic_left",
    "C18_items",
    "C18_instance",
    "C18_functions",
    "C18_defined",
    "C18_bindings",
    "C18_terminates",
    "C18_recursive_enum_refuted",
    "C18_growing_refuted",
    "C18_globals_refuted",
    "C18_constants_refuted",
    "C18_taken_refuted",
    "C18_once_refuted",
    "C18_sources"
   ],
   "note": "The pass itself (definitions, functions, completeness, termination) and the final bindings. Refuted: recursive generic enums and growing recursion never end, globals are not visited, instances are dropped when their name is taken, guarded enums can be written twice."
  },
  {
   "property": "C19",
   "status": "proved",
   "theorems": [
    "C19_field",
    "C19_type",
    "C19_function",
    "C19_one_reading",
    "C19_same_text",
    "C19_never_panics",
    "C19_functions_never_panic",
    "C19_const_refuted",
    "C19_nullable_refuted",
    "C19_array_result_refuted",
    "C19_va_list_refuted"
   ],
   "note": "For every type that can be declared in C, with attributes that are single words. Refuted: const is lost on pointers to function pointers, non-null function pointers get the nullable attribute, functions returning arrays and named VaList parameters are written as text that is not C."
  },
  {
   "property": "C20",
   "status": "proved",
   "theorems": [
    "C20_try_write_transparent",
    "C20_fitting_layout_is_used",
    "C20_column_counter_refuted"
   ],
   "note": "Trial layouts leave no trace; the column counter after a multi-line trial is refuted."
  },
  {
   "property": "C21",
   "status": "proved",
   "theorems": [
    "C21_bindings_bracket",
    "C21_guards_bracket",
    "C21_indentation_restored",
    "C21_braces_bracket",
    "C21_lists_bracket",
    "C21_next_tab_stop",
    "C21_zero_tab_width_refuted"
   ],
   "note": "Indentation restored, and all three back ends bracket their indentation; zero tab width refuted."
  },
  {
   "property": "C22",
   "status": "proved",
   "theorems": [
    "C22_file",
    "C22_noop",
    "C22_no_export_constant_refuted",
    "C22_empty_block_refuted"
   ],
   "note": "Layout of the file and order of declarations for all bindings; no-export constants and empty blocks refuted."
  },
  {
   "property": "C23",
   "status": "proved",
   "theorems": [
    "C23_layers"
   ],
   "note": "What is open in each part of the file, for all configurations and bindings whose user-provided texts are balanced."
  },
  {
   "property": "C24",
   "status": "proved",
   "theorems": [
    "C24_union_refuted",
    "C24_structure",
    "C24_operand",
    "C24_fields",
    "C24_unknown_left_out",
    "C24_known",
    "C24_double_minus_refuted",
    "C24_update_syntax_refuted",
    "C24_tag_style_refuted",
    "C24_define_lines_refuted",
    "C24_unknown_field_refuted",
    "C24_renamed_fields_refuted"
   ],
   "note": "For all values of any depth with casts to numbers, named types and pointers to them; an independent C lexer and expression reader. Refuted: double minus, struct update syntax, tag-only style, multi-line #define."
  },
  {
   "property": "C25",
   "status": "proved",
   "theorems": [
    "C25_values",
    "C25_text",
    "C25_constants",
    "C25_not_bool_refuted",
    "C25_complement_refuted",
    "C25_overflow_refuted",
    "C25_smallest_refuted",
    "C25_limit_refuted",
    "C25_character_refuted"
   ],
   "note": "For all integer and boolean expressions (8 to 64 bits, casts, limits, characters, references to other constants) whose parts fit the types C computes them in, a condition stated in full; a syntactic discipline implies it for whole chains of constants. Refuted outside: !true, ! on small or unsuffixed unsigned, unsuffixed overflow, smallest i64, unsigned MIN, non-basic characters. 64-bit usize, 32-bit int."
  },
  {
   "property": "C26",
   "status": "proved",
   "theorems": [
    "C26_honest",
    "C26_succeeds",
    "C26_up_to_date",
    "C26_idempotent",
    "C26_noop",
    "C26_crash",
    "C26_recovers",
    "C26_failures",
    "C26_panic_keeps",
    "C26_history",
    "C26_history_other",
    "C26_panic_partial_file_refuted",
    "C26_exit_codes",
    "C26_verify_refuted",
    "C26_noop_program_refuted"
   ],
   "note": "All file systems, contents, crash points, failures and histories, and the program's exit codes. Refuted: a panic while a new file is generated leaves a partial file, --verify overwrites the file it verifies, no-op bindings still overwrite the dependency and symbol files."
  },
  {
   "property": "C27",
   "status": "proved",
   "theorems": [
    "C27_rule",
    "C27_file",
    "C27_special_refuted"
   ],
   "note": "For all paths without characters special to make, spaces allowed; refuted for # and $."
  },
  {
   "property": "C28",
   "status": "proved",
   "theorems": [
    "C28_symbols",
    "C28_file",
    "C28_touches",
    "C28_lost_error_refuted"
   ],
   "note": "Text and file; refuted: an error in the last write is ignored."
  },
  {
   "property": "C29",
   "status": "proved",
   "theorems": [
    "C29_every_field_once",
    "C29_single",
    "C29_keeps",
    "C29_respects",
    "C29_three_refuted",
    "C29_memo",
    "C29_ends",
    "C29_self_alias_refuted"
   ],
   "note": "Every field once, order kept for one definition and for definitions that agree with the merged order, memo correct for every history of calls, termination for acyclic typedefs. Refuted: three definitions agreeing pairwise, and a typedef named like the struct it aliases never ends."
  },
  {
   "property": "C30",
   "status": "proved",
   "theorems": [
    "C30_split",
    "C30_split_unique",
    "C30_last_wins",
    "C30_says_one",
    "C30_malformed",
    "C30_malformed_lines",
    "C30_text_kept",
    "C30_empty_list_refuted"
   ],
   "note": "All attribute lists. Refuted: an empty list is one empty name."
  },
  {
   "property": "C31",
   "status": "proved",
   "theorems": [
    "C31_accepts",
    "C31_meaning",
    "C31_order",
    "C31_hint_order",
    "C31_align",
    "C31_conflict_refuted",
    "C31_literals_refuted",
    "C31_repeated_refuted"
   ],
   "note": "Exact characterisation, order independence, powers of two. Refuted: C with transparent depends on the order; hexadecimal, suffixed and repeated alignments are rejected."
  },
  {
   "property": "C32",
   "status": "proved",
   "theorems": [
    "C32_module",
    "C32_callable_unique",
    "C32_bound_or_unsupported",
    "C32_left_out",
    "C32_other_crates",
    "C32_library",
    "C32_foreign_ignore_refuted",
    "C32_link_name_refuted",
    "C32_self_reference_refuted",
    "C32_sources"
   ],
   "note": "Whole modules, crates and libraries: exactly the exported functions, once each, or signatures that cannot be represented. Refuted: ignore annotations in extern blocks, link_name, self: &Self."
  },
  {
   "property": "C33",
   "status": "proved",
   "theorems": [
    "C33_conditions",
    "C33_visits_unique",
    "C33_library",
    "C33_types_found",
    "C33_impl_block_refuted",
    "C33_bitflags_refuted",
    "C33_static_name_refuted",
    "C33_private_constant_refuted",
    "C33_constant_order_refuted",
    "C33_generics_panic_refuted",
    "C33_sources"
   ],
   "note": "Conditions of every item through any nesting of modules and dependencies, uniqueness of visits, every definition found. Refuted: impl blocks, bitflags, private associated constants, constants before their struct, static names, unsupported generics."
  },
  {
   "property": "C34",
   "status": "proved",
   "theorems": [
    "C34_listed",
    "C34_is_listed",
    "C34_binding_crate",
    "C34_no_binding_crate",
    "C34_source",
    "C34_one_word_target_refuted",
    "C34_crates",
    "C34_allowed",
    "C34_only_allowed",
    "C34_all_reached",
    "C34_ends",
    "C34_two_versions_refuted",
    "C34_diamond_refuted",
    "C34_sources"
   ],
   "note": "All dependency graphs: exactly the allowed reachable crates (if no two versions of a crate are reachable), once each, with termination; dependencies are read from the lock file and the metadata as these say. Refuted: two versions, diamonds with conditions."
  },
  {
   "property": "C35",
   "status": "proved",
   "theorems": [
    "C35_comment",
    "C35_text",
    "C35_style",
    "C35_one_line",
    "C35_block_closed_refuted",
    "C35_leading_slash_refuted",
    "C35_backslash_refuted",
    "C35_c_style_backslash_refuted",
    "C35_cython_cr_refuted",
    "C35_cr_refuted"
   ],
   "note": "All texts, styles, indentations and languages, for safe lines; each condition is shown to be needed by a leaking witness."
  },
  {
   "property": "C36",
   "status": "proved",
   "theorems": [
    "C36_references",
    "C36_definition",
    "C36_no_keyword",
    "C36_two_kinds_refuted",
    "C36_excluded_refuted",
    "C36_sources"
   ],
   "note": "Every reference carries the registered keyword, and none outside C with tags; refuted for a name defined as two kinds and for excluded names."
  },
  {
   "property": "C37",
   "status": "proved",
   "theorems": [
    "C12_C37_functions",
    "C12_C37_constants",
    "C12_C37_globals"
   ],
   "note": "Stable sort by path or original order, for functions, constants and globals."
  },
  {
   "property": "C38",
   "status": "proved",
   "theorems": [
    "C38_any_order",
    "C38_effect"
   ],
   "note": "Exact effect, and independence from the iteration order."
  },
  {
   "property": "C39",
   "status": "proved",
   "theorems": [
    "C39_same_items",
    "C39_hash_order_refuted"
   ],
   "note": "The set of items is independent of the order; the order of items is refuted with a witness."
  },
  {
   "property": "C40",
   "status": "proved",
   "theorems": [
    "C40_files",
    "C40_path_attribute",
    "C40_all_read",
    "C40_ends",
    "C40_path_shadowed_refuted",
    "C40_path_directory_refuted",
    "C40_inline_path_refuted",
    "C40_circle_refuted"
   ],
   "note": "All file systems and module trees: files by Rust's rules, all modules read, termination when no file includes itself. Refuted: path attributes that are shadowed, on inline modules, with submodules, or in a circle."
  },
  {
   "property": "C41",
   "status": "proved",
   "theorems": [
    "C41_variants",
    "C41_associated",
    "C41_renamed_variants_refuted",
    "C41_renamed_constants_refuted",
    "C41_in_body_refuted",
    "C41_sources"
   ],
   "note": "Variants through the whole pipeline; associated constants for all configurations that agree on their place. Refuted: rename rules, transparent structs and macros with members asked for."
  },
  {
   "property": "C42",
   "status": "proved",
   "theorems": [
    "C42_declaration",
    "C42_file",
    "C42_struct_fields",
    "C42_union_fields",
    "C42_variants"
   ],
   "note": "All declarations of all kinds in C, C++ and Cython, alone and in the whole file; types are read back as C types where C19 covers them."
  },
  {
   "property": "C43",
   "status": "proved",
   "theorems": [
    "C43_pointer_arrays_refuted",
    "C43_hidden_arrays_refuted",
    "C43_hidden_type_refuted",
    "C43_undeclared_refuted",
    "C43_sources",
    "C43_bindings",
    "C43_niche_refuted",
    "C43_static_pointer_refuted",
    "C43_not_recognised_refuted"
   ],
   "note": "From any source files and crates to the written text, for all signatures S_Signature gives a C type (in C, types of generic instances are not among them; in C++, wrappers that become templates are not). Refuted: Option<Cell<&T>>, immutable statics that are pointers, NonZeroUsize and NonZeroIsize, wrappers of ()."
  },
  {
   "property": "C44",
   "status": "proved",
   "theorems": [
    "C44_bindings",
    "C44_text",
    "C44_generic_static_refuted",
    "C44_static_array_refuted",
    "C44_tuple_rename_refuted",
    "C44_unit_argument_refuted",
    "C44_array_length_refuted",
    "C44_hidden_type_refuted",
    "C44_empty_refuted",
    "C44_tuple_names_refuted",
    "C44_renamed_tag_refuted"
   ],
   "note": "From any source files and crates to the bindings and the text, for the Rust types S_Signature gives a C type; instances of generic definitions in C are only known by their name here (C18 says how they are made). Refuted: statics of generic type in C, immutable arrays of pointers, tuple structs with a renaming rule, () as an argument, casts in array lengths."
  },
  {
   "property": "C45",
   "status": "proved",
   "theorems": [
    "C45_bindings",
    "C45_text",
    "C45_unknown_condition_refuted",
    "C45_transparent_refuted",
    "C45_raw_variant_refuted",
    "C45_tag_field_refuted",
    "C45_empty_struct_refuted"
   ],
   "note": "From any source files and crates to the bindings and the text of C and C++ headers; numbers for all discriminants S_Value covers that fit the types C computes them in. Refuted: conditions without a macro, repr(transparent) enums, raw identifiers of variants with data, fields called tag."
  },
  {
   "property": "C46",
   "status": "proved",
   "theorems": [
    "C46_bindings",
    "C46_text",
    "C46_types_refuted",
    "C46_pointer_refuted",
    "C46_raw_names_refuted"
   ],
   "note": "From any source files and crates to the bindings and the text of C and C++ headers; values in the text for the numeric expressions S_Value covers that fit the types C computes them in (struct literals with one field, such as flags, in the bindings only). Refuted: types of constants are not made instances or given tags, pointer constants can be assigned in C++."
  },
  {
   "property": "C47",
   "status": "proved",
   "theorems": [
    "C47_layouts",
    "C47_transparent_refuted",
    "C47_conditional_refuted",
    "C47_tag_refuted",
    "C47_variable_size_refuted"
   ],
   "note": "From any source files and crates to the bindings, for all types both S_Signature gives a C type and the layout rules of S_Layout cover (C43-C45 connect the bindings to the text). That a C layout exists whenever the Rust one does is not stated. Refuted: transparent structs with an empty or conditional first field, a type named Tag in C++, pointers to types of variable size."
  },
  {
   "property": "C48",
   "status": "proved",
   "theorems": [
    "C48_variant_constructor",
    "C48_cast",
    "C48_constructor",
    "C48_cast_renamed_refuted",
    "C48_result_field_refuted",
    "C48_constructor_fields_refuted",
    "C48_stream_variant_refuted",
    "C48_index_field_refuted",
    "C48_comparisons",
    "C48_flags_bool",
    "C48_flags_complement",
    "C48_flags_operators",
    "C48_equality",
    "C48_inequality",
    "C48_is",
    "C48_destructor",
    "C48_copy",
    "C48_hidden_field_refuted",
    "C48_conditional_field_refuted",
    "C48_no_fields_refuted"
   ],
   "note": "For comparisons of structs, operators of flags and, for enums with data, equality, inequality, IsV, destructor, copy constructor, casts and the functions that make variants (fields other than arrays), and for the constructors of structs. Copy assignment and stream output are shown in C42 only as text. Refuted: a field called like the parameter or result, conditional fields, variants without fields, casts of renamed fields."
  },
  {
   "property": "C49",
   "status": "proved",
   "theorems": [
    "C49_cython_version_refuted",
    "C49_file",
    "C49_includes",
    "C49_cython_lines",
    "C49_types_declared",
    "C49_assert_declared",
    "C49_undeclared_refuted",
    "C49_assert_refuted"
   ],
   "note": "Exact text of head and tail for all configurations and languages. Refuted: ptrdiff_t, ssize_t and assert can be undeclared."
  },
  {
   "property": "C50",
   "status": "proved",
   "theorems": [
    "C50_file",
    "C50_unknown_key",
    "C50_wrong_value",
    "C50_unknown_key_in_section",
    "C50_defaults"
   ],
   "note": "Exact for all TOML values; TOML syntax is outside, and serde accepting a struct as an array of its fields is left out."
  },
  {
   "property": "C51",
   "status": "proved",
   "theorems": [
    "C51_options",
    "C51_options_accepted",
    "C51_source_file",
    "C51_crate",
    "C51_fails",
    "C51_changes",
    "C51_prints",
    "C51_success",
    "C51_bindings",
    "C51_whole",
    "C51_usage",
    "C51_only_target_refuted",
    "C51_clean_refuted",
    "C51_features_refuted"
   ],
   "note": "All command lines and answers of the outside world; clap is outside except for the words it accepts. Refuted: only_target_dependencies and parse.clean of the file are ignored, all_features with features."
  },
  {
   "property": "C52",
   "status": "proved",
   "theorems": [
    "C52_associated",
    "C52_associated_text",
    "C52_constants",
    "C52_constants_text",
    "C52_statics",
    "C52_statics_text",
    "C52_associated_refuted",
    "C52_conditional_refuted"
   ],
   "note": "Module-level constants and statics with plain types (names without arguments, references, pointers, arrays) and values without method calls; constants of impl blocks for types that are no structs behind no private one; constants of structs and flags are not covered by the existence direction. Refuted where names coincide: conditional before unconditional in another module, and a constant named like an associated one with its type."
  },
  {
   "property": "C53",
   "status": "proved",
   "theorems": [
    "C53_call",
    "C53_refused",
    "C53_last",
    "C53_order",
    "C53_new",
    "C53_generate",
    "C53_crate",
    "C53_recursive"
   ],
   "note": "All 43 methods and all sequences of them. with_cargo, which the command uses, is part of C51; running cargo itself is outside."
  },
  {
   "property": "C54",
   "status": "proved",
   "theorems": [
    "C54_found",
    "C54_must_use",
    "C54_said",
    "C54_unsaid",
    "C54_since_refuted",
    "C54_control_refuted",
    "C54_alias_refuted"
   ],
   "note": "For all attributes, reasons and configurations. That the words stand in the declaration is C42; three boundaries are refuted: since without a note, control characters, annotated aliases."
  },
  {
   "property": "C55",
   "status": "proved",
   "theorems": [
    "C55_types",
    "C55_values",
    "C55_names",
    "C55_prefix",
    "C55_variants_refuted",
    "C55_helpers_refuted",
    "C55_modules_refuted",
    "C55_kinds_refuted"
   ],
   "note": "For all libraries and, for the C names, all parsed sources. The structs and tags that go with enums are outside, where it is refuted."
  },
  {
   "property": "C56",
   "status": "proved",
   "theorems": [
    "C56_members",
    "C56_variants",
    "C56_letters",
    "C56_apart",
    "C56_same_refuted",
    "C56_nameless_refuted",
    "C56_digit_refuted",
    "C56_prefix_refuted",
    "C56_macro_refuted"
   ],
   "note": "For all ASCII names; the conversions of the heck crate are those of S_Heck, an ASCII reading of that crate. Five boundaries are refuted: three from underscores that are dropped, the enum named twice, and arguments named like macros."
  }
 ]
}