{"id": "C01", "title": "Keyword escaping is exact", "statement": "Passing an identifier through keyword escaping leaves it unchanged when it is not one of the C/C++ keywords cbindgen knows, appends exactly one underscore when it is, and never yields a keyword.", "quantifier": "every string used as an identifier and every keyword in the table", "why_tests_cant": "The lookup is a binary search, right only if the whole table is sorted bytewise; tests sample a few words, not all strings.", "anchors": ["src/bindgen/reserved.rs: RESERVED_KEYWORDS, escape"]}
{"id": "C02", "title": "Emitted member and argument names are not keywords", "statement": "After renaming under any configuration, every struct field name, every field of the data of an enum variant and every function argument name in the bindings is not a C or C++ keyword (except those missing from the program's table, which are listed), and neither are variants when no rename rule applies to them. Boundaries: union fields and names of items are not escaped, variants are escaped before a rename rule is applied, and 30 keywords are missing from the table.", "quantifier": "all structs, unions, enums and functions, all rename rules and annotations", "why_tests_cant": "Depends on the order of renaming and escaping for every rule and every name; tests only use a few names per rule.", "anchors": ["src/bindgen/ir/structure.rs: Struct::rename_for_config", "src/bindgen/ir/union.rs: Union::rename_for_config", "src/bindgen/ir/enumeration.rs: Enum::rename_for_config", "src/bindgen/ir/function.rs: Function::rename_for_config"]}
{"id": "C03", "title": "Preprocessor guards mean what the Rust cfg means", "statement": "If every atom in an item's #[cfg] has a define in the configuration, the emitted #if condition holds under a set of macros exactly when the Rust cfg holds for the corresponding compilation settings. The claim is about every nesting of any/all/not; cfgs with no operand (any()) and atoms with no define are the boundary and are settled separately.", "quantifier": "all cfg expressions of any depth, all define tables, all macro environments", "why_tests_cant": "The set of cfg expressions is infinite and the claim is semantic equivalence in all environments.", "anchors": ["src/bindgen/ir/cfg.rs: Cfg::load, ToCondition::to_condition, DefineKey::load"]}
{"id": "C04", "title": "Printed guards read back as the same condition", "statement": "The text after #if (or IF in Cython) parsed with C (Python) operator precedence denotes the same condition that cbindgen computed, for any nesting.", "quantifier": "all conditions of any depth, both output languages", "why_tests_cant": "Parenthesisation bugs appear only for particular nestings.", "anchors": ["src/bindgen/ir/cfg.rs: ConditionWrite::write, Condition::write"]}
{"id": "C05", "title": "Conditional blocks are balanced", "statement": "Every #if written for an item, field, variant or constant is closed by exactly one #endif after it, and blocks nest properly, for any list of guarded declarations.", "quantifier": "all sequences and nestings of guarded declarations", "why_tests_cant": "Must hold for every combination of present/absent conditions.", "anchors": ["src/bindgen/ir/cfg.rs: ConditionWrite::write_before, write_after"]}
{"id": "C06", "title": "A cfg mapping never changes the meaning silently when an atom is unknown", "statement": "If some atoms have no define, the declaration should still be visible whenever the Rust item exists. This holds exactly when unknown atoms occur only where dropping them can only weaken the guard (no unknown atom below any() in positive position, nor below all() in negative position); in general it is false: any(a, unknown) becomes just a.", "quantifier": "all cfg expressions with partial define tables", "why_tests_cant": "Needs all positions of the unknown atom in all expressions.", "anchors": ["src/bindgen/ir/cfg.rs: ToCondition::to_condition"]}
{"id": "C07", "title": "Item tables keep every definition, in order, under the right path", "statement": "Adding items one at a time: the first unguarded item with a path wins, later ones are rejected and reported; guarded items with the same path accumulate; a guarded and an unguarded definition never coexist; lookups return exactly the accepted items for that path in insertion order; iteration visits paths in order of first insertion.", "quantifier": "all histories of insertions, filters and lookups", "why_tests_cant": "History-quantified invariant.", "anchors": ["src/bindgen/ir/item.rs: ItemMap::try_insert, get_items, filter, rebuild, for_items, to_vec"]}
{"id": "C08", "title": "Filtering and rebuilding item tables lose nothing else", "statement": "Removing items by a predicate removes exactly the matching ones and keeps the order of the rest, with no empty entries left; rebuilding after renaming keeps every item unless two of them now clash.", "quantifier": "all tables and predicates", "why_tests_cant": "Universally quantified over tables and predicates.", "anchors": ["src/bindgen/ir/item.rs: ItemMap::filter, rebuild"]}
{"id": "C09", "title": "Declarations come out once, after what they depend on", "statement": "In the generated item list no type is listed twice, every type reachable from an exported function, global, constant or explicitly included name is listed, nothing unreachable is listed, and unless types refer to each other in a cycle each type is listed after all types it mentions (before the final reordering).", "quantifier": "all libraries of items with arbitrary reference graphs, including cyclic ones", "why_tests_cant": "Graph-quantified; cyclic and shared graphs of any size.", "anchors": ["src/bindgen/dependencies.rs: Dependencies", "src/bindgen/library.rs: Library::generate, get_items"]}
{"id": "C10", "title": "The final reordering is a stable three-class sort", "statement": "The final reordering permutes the items, puts fieldless enums first, then opaque types by name, then all other items, keeps the relative order of fieldless enums and of the other items, and does not depend on the sorting algorithm used.", "quantifier": "all item lists", "why_tests_cant": "All permutations of all lists.", "anchors": ["src/bindgen/dependencies.rs: Dependencies::sort"]}
{"id": "C11", "title": "Only requested kinds of item are generated", "statement": "If the configuration lists item types, no type declaration, constant, global or function of an unlisted kind appears, and an empty list means all kinds are generated.", "quantifier": "all configurations and libraries", "why_tests_cant": "Every combination of kinds and references between them.", "anchors": ["src/bindgen/config.rs: ExportConfig::should_generate", "src/bindgen/library.rs: get_items, generate"]}
{"id": "C12", "title": "Excluded names never appear, other names are unaffected", "statement": "No function, global, constant or type whose path is in the exclude list is in the bindings; excluding a name removes no definition with a different name from the tables.", "quantifier": "all libraries and exclude lists", "why_tests_cant": "All combinations of names and item kinds.", "anchors": ["src/bindgen/library.rs: Library::remove_excluded"]}
{"id": "C13", "title": "Definitions and references are renamed alike", "statement": "After renaming, every reference to a type that is not a generic parameter prints with the same name as the type's own declaration, for every prefix, rename table and override flag.", "quantifier": "all items, types of any nesting and rename configurations", "why_tests_cant": "Renaming happens in separate traversals for definitions and references; agreement must hold for every type shape.", "anchors": ["src/bindgen/config.rs: ExportConfig::rename", "src/bindgen/ir/generic_path.rs: rename_for_config", "src/bindgen/ir/ty.rs: Type::rename_for_config", "src/bindgen/library.rs: rename_items"]}
{"id": "C14", "title": "Standard-library wrappers vanish consistently", "statement": "Simplification maps Box/NonNull/Option/Cell/ManuallyDrop/Pin/NonZero wrappers to types with the same representation in memory, at every depth, is idempotent, leaves none of them behind and leaves all other types alone. The one exception is Option applied to a cell or MaybeUninit, which is written as if the cell did not hide the niche.", "quantifier": "all types of any depth, both settings", "why_tests_cant": "Infinite type grammar; idempotence over all nestings.", "anchors": ["src/bindgen/ir/ty.rs: simplified_type, simplify_standard_types, make_nullable, make_zeroable"]}
{"id": "C15", "title": "Generic instantiation is simultaneous capture-free substitution", "statement": "Instantiating a generic definition replaces each parameter by its argument simultaneously at every depth (pointers, arrays, array lengths, function pointers, nested generics), changes nothing else, and leaves no parameter behind when the arguments mention none. Defaults that mention other parameters are the exception: they are not instantiated.", "quantifier": "all types of any depth, all parameter lists and arguments", "why_tests_cant": "Infinite type grammar and arbitrary argument types.", "anchors": ["src/bindgen/ir/ty.rs: Type::specialize, ConstExpr::specialize", "src/bindgen/ir/generic_path.rs: GenericArgument::specialize, GenericParams::call"]}
{"id": "C16", "title": "Different instantiations get different names", "statement": "In C, two different instantiations get different mangled names. Proved when arguments are built from underscore-free type names with consistent generics; refuted in general (for example *mut *const T against *const *mut T).", "quantifier": "all generic argument lists of any depth, default mangling settings", "why_tests_cant": "Injectivity over an infinite set.", "anchors": ["src/bindgen/mangle.rs: Mangler, Separator"]}
{"id": "C17", "title": "Mangled names are C identifiers", "statement": "A mangled name built from identifier-shaped names is itself identifier-shaped under every mangling setting.", "quantifier": "all types, settings", "why_tests_cant": "Infinite set of types.", "anchors": ["src/bindgen/mangle.rs: mangle_name, mangle_path"]}
{"id": "C18", "title": "Each instantiation is created exactly once and every use is redirected to it", "statement": "Collecting instantiations adds one monomorph per distinct instantiation of a known generic item, the recorded replacement for it is its mangled path, and after the pass no known generic type is left among the emitted definitions and uses of it carry the mangled name.", "quantifier": "all libraries whose set of instantiations is finite", "why_tests_cant": "Worklist over arbitrary item graphs.", "anchors": ["src/bindgen/monomorph.rs: Monomorphs", "src/bindgen/library.rs: instantiate_monomorphs"]}
{"id": "C19", "title": "C declarations declare the intended type", "statement": "The text emitted for a field, argument, typedef or function read back with the C declarator rules declares the given name with the type cbindgen was given: same pointers, array lengths, parameters and const qualifiers at every level, for every nesting and layout.", "quantifier": "all types of any depth, all identifiers, all three layouts and line widths", "why_tests_cant": "C's inside-out syntax: correctness for all nestings of pointer, array and function.", "anchors": ["src/bindgen/cdecl.rs: CDecl, write_field, write_func, write_type"]}
{"id": "C20", "title": "Trying a one-line layout has no side effect and keeps the width", "statement": "When a trial layout does not fit, the output is exactly as if it had not been tried; when it fits, the output is exactly what writing it directly would give and no line of it exceeds the configured width.", "quantifier": "all writer states, all written fragments, all widths", "why_tests_cant": "State-machine property over arbitrary fragments and nesting.", "anchors": ["src/bindgen/writer.rs: SourceWriter::try_write, InnerWriter"]}
{"id": "C21", "title": "Indentation is restored", "statement": "Any well-bracketed sequence of writer operations restores the indentation it started with, never underflows the indentation stack, and emits braces and parentheses in matched pairs.", "quantifier": "all well-bracketed operation sequences", "why_tests_cant": "All histories of operations.", "anchors": ["src/bindgen/writer.rs: push_tab, pop_tab, open_brace, close_brace, new_line"]}
{"id": "C22", "title": "Every item, function and constant of the bindings is written, in order, unless opted out", "statement": "The written header consists of the header part, primitive constants, items, other constants, globals, functions and trailer in that order, and exactly those declarations not annotated no-export are present.", "quantifier": "all bindings", "why_tests_cant": "All lists of declarations and annotations.", "anchors": ["src/bindgen/language_backend/mod.rs: write_bindings, write_items, write_functions, write_globals"]}
{"id": "C23", "title": "Namespaces, extern C blocks and include guards are closed in reverse order", "statement": "Everything the header opens (include guard, C++ compatibility blocks, namespaces, extern \"C\") is closed, in reverse order, for every configuration and whether or not there are functions or globals.", "quantifier": "all configurations and bindings", "why_tests_cant": "2^n configuration combinations and any number of namespaces.", "anchors": ["src/bindgen/language_backend/clike.rs: open_close_namespaces, write_headers, write_footers, write_functions, write_globals"]}
{"id": "C24", "title": "Constant expressions keep their structure", "statement": "The C or C++ text of a constant's expression is read back, with C's tokens, precedence, casts and initialisers, as the expression tree it stands for, wherever it is written; values other than brace lists are a single operand, so a #define can be used next to any operator; struct values go to the right fields. A constant whose value uses a struct or an enum the header does not have is left out, and only such a constant. Exceptions: a minus directly inside a minus (written as a decrement), struct update syntax (values lost, or in C++ given to the wrong fields), struct values under tag-only style, struct values in a #define with a pointer inside (spread over several lines), unknown structs inside the fields of a known one, which are written, and unions, which are left out.", "quantifier": "all literal expressions of any depth", "why_tests_cant": "Operator nesting is unbounded.", "anchors": ["src/bindgen/ir/constant.rs: Literal::load", "src/bindgen/language_backend/clike.rs: write_literal"]}
{"id": "C25", "title": "Constant values are preserved", "statement": "An emitted integer or boolean constant has in C the value it has in Rust, by C's rules for the types of constants, promotions, conversions and overflow, whenever every intermediate value fits the C type it is computed in; this is so for every chain of constants in which u32, u64 and i64 literals have suffixes, ! is used on signed or wide types and << on wide unsigned ones. Exceptions: bool negation, complements of small or unsuffixed unsigned numbers, unsuffixed arithmetic beyond int, the smallest i64, MIN of unsigned types and characters outside the basic set.", "quantifier": "all integer and boolean constant expressions", "why_tests_cant": "All expressions and operand values.", "anchors": ["src/bindgen/ir/constant.rs: Literal::load, to_known_assoc_constant", "src/bindgen/language_backend/clike.rs: write_literal"]}
{"id": "C26", "title": "Writing bindings to a file is idempotent and honest", "statement": "Writing reports true exactly when the file's content changed, leaves the file equal to the generated text, writes nothing when it is already equal, touches nothing else but missing directories above it, and does nothing at all for no-op bindings; a second write always reports false. Stopped at any point it leaves the old content or a beginning of the new text, and the next write repairs it. The program exits with 0 only if the file is up to date, and with 2 only if verification was asked for and it was not. Boundaries: --verify overwrites the file it verifies, a panic during generation leaves a partial new file, and no-op bindings still overwrite dependency and symbol files.", "quantifier": "all file-system states and bindings, all sequences of writes", "why_tests_cant": "All prior contents and histories.", "anchors": ["src/bindgen/bindings.rs: Bindings::write_to_file"]}
{"id": "C27", "title": "Dependency files list exactly the inputs", "statement": "The dependency file parsed by make rules lists the header as target and exactly the source files (and configuration file) as prerequisites, in sorted order, for paths with spaces; paths with other make-special characters are the boundary.", "quantifier": "all lists of paths", "why_tests_cant": "All characters in all paths.", "anchors": ["src/bindgen/bindings.rs: Bindings::generate_depfile"]}
{"id": "C28", "title": "Symbol files list exactly the exported symbols", "statement": "The symbol file contains one line per exported function and global, in order, and nothing else. Boundary: a failure of the last write is not reported.", "quantifier": "all bindings", "why_tests_cant": "All lists.", "anchors": ["src/bindgen/bindings.rs: Bindings::generate_symfile, dynamic_symbols_names"]}
{"id": "C29", "title": "Merged field order respects every variant of a struct", "statement": "When a struct has several cfg-guarded definitions, the merged field list has every field exactly once, a single definition's fields come out in declaration order, a further definition keeps the order so far, and its own order too if it agrees on the common fields. Typedefs are followed to the struct (the last of several guarded aliases counts), and the answer does not depend on earlier questions. Boundaries: three definitions that agree only pairwise, and typedefs named like the struct they alias, for which the question never ends.", "quantifier": "all lists of definitions", "why_tests_cant": "All interleavings of field lists.", "anchors": ["src/bindgen/bindings.rs: Bindings::struct_field_names"]}
{"id": "C30", "title": "Annotations: last value wins, comments are split cleanly", "statement": "Each doc comment line is either an annotation or documentation and never both, and no text is lost; for every name the value given last is the one used; loading fails exactly for annotation lines with more than one equals sign. Boundary: an empty list is read as a list of one empty name.", "quantifier": "all lists of comment lines", "why_tests_cant": "All comment texts.", "anchors": ["src/bindgen/ir/annotation.rs: AnnotationSet::load", "src/bindgen/ir/documentation.rs: Documentation::load"]}
{"id": "C31", "title": "repr attributes decide representation deterministically", "statement": "Hints are accepted exactly when all are known and at most one integer type and at most one alignment is given; the result is what they ask for, does not depend on the order of attributes and hints, and an accepted alignment is a power of two. Boundaries: C together with transparent is accepted and the last one wins; alignments not in plain decimal and repeated alignments, which Rust accepts, are rejected.", "quantifier": "all lists of repr hints", "why_tests_cant": "All permutations of hints.", "anchors": ["src/bindgen/ir/repr.rs: Repr::load"]}
{"id": "C32", "title": "Only exported functions are bound", "statement": "A function is bound exactly when it is declared in the crate bindings are made for (or one listed for binding generation), in a module that is not test-only, without an ignore annotation, and is either a no_mangle or export_name function with a C-compatible ABI, or a foreign declaration in an extern C block; visibility plays no role. The symbol name follows export_name before no_mangle, also inside unsafe(). Each is bound once, unless its signature cannot be represented. Boundaries: ignore annotations inside extern blocks are not heeded, link_name is ignored, and self: &Self becomes a pointer to a pointer.", "quantifier": "all combinations of visibility, ABI and attributes", "why_tests_cant": "All attribute lists.", "anchors": ["src/bindgen/parser.rs: load_fn_declaration", "src/bindgen/utilities.rs: exported_name"]}
{"id": "C33", "title": "cfg context is the conjunction of enclosing modules", "statement": "Every item of the library carries exactly the conjunction of the conditions of the dependencies and modules leading to it and of its own, for any nesting, and the context is restored after each module; every struct, union, enum, opaque type, typedef, constant and static a module defines is found in the library or hidden by an earlier one of the same path that may coexist with it. Boundaries: conditions on impl blocks and on bitflags are lost, a private associated constant hides public ones, associated constants depend on the order of items, statics ignore unsafe(export_name), and an unsupported generic parameter panics.", "quantifier": "all module trees", "why_tests_cant": "Unbounded nesting.", "anchors": ["src/bindgen/parser.rs: process_mod, load_syn_crate_mod", "src/bindgen/ir/cfg.rs: Cfg::join, append"]}
{"id": "C34", "title": "Each crate is parsed at most once and only if allowed", "statement": "Following dependencies visits each crate at most once, terminates on every dependency graph including cyclic ones, visits exactly the crates reachable through allowed crates, never one that is excluded or outside the include list, and the recorded source files are those read. The dependencies of a package are the lines of its entry in the lock file, in order, with the version in the line or that of the only package of the name, on the targets the metadata give; the source of a package is its first library target; the crate bindings are made for has the given name, and the given manifest if one has it. Boundaries: of two versions of one crate only the first is read, and a crate reached along two paths keeps the conditions of the first only.", "quantifier": "all crate graphs and parse settings", "why_tests_cant": "Graph-quantified.", "anchors": ["src/bindgen/parser.rs: parse_crate, should_parse_dependency"]}
{"id": "C35", "title": "Doc comments cannot leak into code", "statement": "Documentation is written as comments only: whatever follows is read as if it were not there, for every style and indentation, if no line closes its block comment (in Doxygen style also no line starting with a slash), no line ends in a backslash where that matters, and line ends are not bare CR. Each condition is needed: without it documentation leaks into the code or swallows it. All lines are written, or just the first if so configured.", "quantifier": "all documentation lines and styles", "why_tests_cant": "All texts.", "anchors": ["src/bindgen/language_backend/clike.rs: write_documentation"]}
{"id": "C36", "title": "Type declarations in C use one tag kind per name", "statement": "With tag-style output each reference to a known struct, union or enum carries the keyword of the kind it was first registered with, and references to names never registered carry none.", "quantifier": "all libraries", "why_tests_cant": "All collections of items and references.", "anchors": ["src/bindgen/declarationtyperesolver.rs", "src/bindgen/library.rs: resolve_declaration_types"]}
{"id": "C37", "title": "Functions and constants are sorted stably by name on request", "statement": "With name sorting the output is the stable sorted permutation of the input; with no sorting it is the input order.", "quantifier": "all lists", "why_tests_cant": "All permutations.", "anchors": ["src/bindgen/library.rs: Library::generate", "src/bindgen/config.rs: SortKey"]}
{"id": "C38", "title": "Typedef annotations move to the definition, in any hash order", "statement": "The annotations of the first annotated typedef of a type are copied to those definitions of that type that have none, in the first kind (enum, struct, union, opaque type) that has one; nothing else changes, and the result does not depend on the iteration order of the hash map holding them.", "quantifier": "all libraries and all iteration orders of the map", "why_tests_cant": "Hash iteration order varies from run to run.", "anchors": ["src/bindgen/library.rs: transfer_annotations", "src/bindgen/ir/typedef.rs: Typedef::transfer_annotations"]}
{"id": "C39", "title": "Output does not depend on hash iteration order of struct literals", "statement": "For the same source the set of written items and their order do not depend on the order in which the hash map of a struct literal's fields is visited. The set does not; the order does, so two runs can write different headers.", "quantifier": "all libraries and all iteration orders of the maps", "why_tests_cant": "Hash iteration order varies from run to run.", "anchors": ["src/bindgen/ir/constant.rs: Literal::add_dependencies, Literal::Struct", "src/bindgen/library.rs: Library::generate"]}
{"id": "C40", "title": "Modules are read from the files Rust reads", "statement": "An out-of-line module is read from the file Rust's rules name for it (name.rs or name/mod.rs below the directory of the module containing it, or the file its path attribute names), all modules of the crate that are not test-only are read, each from the place it is declared at, and reading ends when no file declares itself again. Boundaries: a path attribute is ignored when the default file exists or the module is inline, a file loaded by a path attribute looks for its submodules in the wrong directory, and files including each other in a circle are read for ever.", "quantifier": "all file systems, module trees and attributes", "why_tests_cant": "Unbounded nesting of files and modules.", "anchors": ["src/bindgen/parser.rs: parse_mod, process_mod, load_syn_crate_mod"]}
{"id": "C41", "title": "Values refer to variants and associated constants by the names they are declared with", "statement": "A constant whose value names an enum variant is written with the name the enum declares in the header, with the enum's scope where it has one; a value that names a struct's associated constant is written with the name that constant is declared with. Boundaries: rename rules for variants and for associated constants, and constants that are not members although members are asked for.", "quantifier": "all libraries, configurations and values", "why_tests_cant": "Any combination of renaming, prefixes, languages and enum styles.", "anchors": ["src/bindgen/bindings.rs: enum_variant_reference", "src/bindgen/language_backend/clike.rs: write_literal", "src/bindgen/ir/constant.rs: Constant::write", "src/bindgen/ir/enumeration.rs: Enum::rename_for_config"]}
{"id": "C42", "title": "Every declaration is written with all its parts", "statement": "The text of each declaration consists, up to white space, of exactly its guards, documentation, keywords and notes, its name, and for every field, variant or argument, in the order of the Rust declaration, a C declaration of that name with the C type standing for its Rust type (or the variant's name and value), followed by the derived functions asked for, with nothing left out, added or moved, and no two words run together. This holds alone and in the written file.", "quantifier": "all declarations, languages, configurations and bindings", "why_tests_cant": "Any number of members of any types under any combination of several dozen options.", "anchors": ["src/bindgen/language_backend/clike.rs", "src/bindgen/language_backend/cython.rs", "src/bindgen/language_backend/mod.rs", "src/bindgen/bindings.rs: Bindings::write"]}
{"id": "C43", "title": "A Rust signature is declared with the C type it stands for", "statement": "Every exported function of the sources whose parameters and result are built from Rust's primitive types, the C types of std::ffi, references, raw pointers, arrays, function pointers, known structs, enums and unions, Self, and the usual wrappers (Option, Box, NonNull, NonZero, Cell, ManuallyDrop, Pin, ...) is declared in the header, under its symbol, with the C type those types stand for by Rust's ABI rules: same parameters in the same order, same integer widths, pointers to constant data for shared references and *const, nothing for types without a size, and the function's variadic and diverging marks. Boundary: arrays that function pointers take or return are written as arrays, which C reads as pointers or rejects, and so are arrays passed by value behind an alias, a transparent struct or a wrapper.", "quantifier": "all source files, crates, signatures and configurations", "why_tests_cant": "Types nest without bound and every pass between the source and the text rewrites them.", "anchors": ["src/bindgen/ir/ty.rs: Type::load, simplify_standard_types", "src/bindgen/ir/function.rs: Function::load", "src/bindgen/parser.rs: load_syn_fn", "src/bindgen/builder.rs: Builder::generate", "src/bindgen/library.rs: Library::generate", "src/bindgen/cdecl.rs"]}
{"id": "C44", "title": "Data types and statics are declared with the fields and types of their definitions", "statement": "Every struct, union, type alias and static of the bindings comes from a definition in the sources (or is an instance of a generic one). It is declared under the definition's name, with its layout attributes, documentation and condition. Its fields are those of the definition, in the same order and no others (fields without a size are left out), each with its name after renaming, its own condition and the C type its Rust type stands for; a transparent struct is an alias of its only field; a static is const unless it is mutable.", "quantifier": "all source files, crates, definitions and configurations", "why_tests_cant": "A dropped, reordered or mistyped field changes the memory layout C code assumes; fields nest types without bound and each pass rewrites them.", "anchors": ["src/bindgen/ir/structure.rs: Struct::load, rename_for_config", "src/bindgen/ir/union.rs: Union::load", "src/bindgen/ir/typedef.rs: Typedef::load", "src/bindgen/ir/global.rs: Static::load", "src/bindgen/ir/field.rs: Field::load", "src/bindgen/parser.rs: load_syn_struct, load_syn_union, load_syn_ty, load_syn_static", "src/bindgen/library.rs: Library::generate"]}
{"id": "C45", "title": "Enums are declared with the variants, numbers and data of their definitions", "statement": "Every enum of the bindings comes from a definition in the sources (or is an instance of a generic one), with its name, layout, documentation and condition. Its variants are those of the definition, in the same order, followed only by the ones annotations or configuration add; each has its name after prefixing and renaming, its own condition, its notes, and the data of the Rust variant with the C types of its fields. In the header every variant has the number it has in Rust, for every platform, provided the configuration has a macro for every condition; otherwise a conditional variant is always declared and the variants after it get other numbers.", "quantifier": "all source files, crates, enums, discriminant expressions, platforms and configurations", "why_tests_cant": "A wrong number silently exchanges variants between Rust and C; discriminants are arbitrary expressions and conditions combine freely.", "anchors": ["src/bindgen/ir/enumeration.rs: Enum::load, EnumVariant::load, rename_for_config", "src/bindgen/ir/constant.rs: Literal::load", "src/bindgen/parser.rs: load_syn_enum", "src/bindgen/language_backend/clike.rs: write_enum, write_enum_variant", "src/bindgen/library.rs: Library::generate"]}
{"id": "C46", "title": "Constants are declared with the names, types and values of their definitions", "statement": "Every constant of the bindings is a public constant of a module that was read, a public constant of an impl block in it, or a flag of a bitflags invocation, with its name, condition, annotations and documentation, the C type of its Rust type and its value. In a C or C++ header every constant whose value is a number is declared under the condition of the source, with the documentation, with its name (after the name of its type, if it belongs to one) and with an expression that C evaluates to the value Rust gives it: as a macro whose value is on the same line, or as a constant object of the C type. Boundary: in values, names of other constants keep their r#.", "quantifier": "all source files, crates, constants, values that are numeric expressions, and configurations", "why_tests_cant": "A wrong value or a lost condition compiles and changes what programs compute; values are arbitrary nested expressions naming other constants.", "anchors": ["src/bindgen/ir/constant.rs: Constant::load, Constant::write, Literal::load, Literal::write", "src/bindgen/parser.rs: load_syn_const, load_syn_assoc_const, load_syn_macro", "src/bindgen/bitflags.rs: Bitflags::expand", "src/bindgen/ir/structure.rs: Struct::add_associated_constant", "src/bindgen/library.rs: Library::generate"]}
{"id": "C47", "title": "Data has the same layout in C as in Rust", "statement": "On every machine and platform, a type of the header has the size and the alignment of the Rust type it stands for, and each field of a struct is at the offset it has in Rust: for structs (also packed, aligned and transparent ones, with conditional fields and markers), unions, enums without and with data in both representations, aliases, arrays with constant lengths, pointers, references, function pointers, optional pointers, cells and boxes, nested in any way. It holds when both layouts are known, the configuration has a macro for each condition, different types have different names in C, and a transparent struct has one field that is no marker.", "quantifier": "all source files, crates, types, machines, platforms and configurations", "why_tests_cant": "A different layout compiles without a warning and corrupts memory; layouts depend on nested definitions in many files, on the platform and on the machine.", "anchors": ["src/bindgen/ir/structure.rs: Struct::load, Struct::as_typedef, write_struct", "src/bindgen/ir/union.rs: Union::load", "src/bindgen/ir/enumeration.rs: Enum::load, EnumVariant::load", "src/bindgen/ir/typedef.rs: Typedef::load", "src/bindgen/ir/ty.rs: Type::load, simplify_standard_types", "src/bindgen/ir/repr.rs: Repr::load", "src/bindgen/cdecl.rs: CDecl::from_type"]}
{"id": "C48", "title": "Functions derived for C++ types do what they are for", "statement": "In a C++ header, every struct for which a comparison is asked and possible has a method that, whatever comparing the fields means, says whether the comparison holds of every field (for != of some field) of the two objects; structs of flags have a conversion to bool and operators ~, |, &, ^ and their assignments that work on the bits; an enum with data has an equality that compares tags first and then the data of that variant only, an inequality that negates it, IsV methods that say whether the object is of variant V, a destructor that destroys the data of the current variant and nothing else, and a copy constructor that takes over the tag and copies the data of that variant and nothing else; the static function V returns an object with the tag of V and each field of its data set to the argument given for it, AsV asserts IsV and returns the data (or the only field of a tuple of one), and the constructor of a struct sets each field to the argument given for it. None of the others changes anything else. It holds when no member is called like the parameter and no variant is under a condition. Boundaries: a field called like the parameter is not compared, conditional fields are compared although they may be missing, a variant without fields gets a comparison without a value, casts do not follow renamed fields, and a field called result breaks the function making its variant.", "quantifier": "all bindings, configurations, structs and enums, and all values and meanings of the operators on them", "why_tests_cant": "A comparison that skips a field or reads the data of the wrong variant compiles and fails only for particular values.", "anchors": ["src/bindgen/language_backend/clike.rs: write_struct, write_derived_cpp_ops, write_enum", "src/bindgen/ir/enumeration.rs: write_derived_functions_data, write_derived_functions_enum", "src/bindgen/ir/structure.rs: can_derive_eq", "src/bindgen/bitflags.rs: Bitflags::expand"]}
{"id": "C49", "title": "What surrounds the declarations", "statement": "The text above the declarations of a header is exactly what the configuration asks for, in a fixed order: package version, header text, include guard, pragma once, program version, warning, standard includes, system includes, own includes, the text after the includes and the opened namespaces. Below the declarations the namespaces are closed in reverse order, the include guard is closed and the trailer ends with a line end. Every include that is asked for stands on its own line. Every primitive type written is built into the language or declared by a standard header that is included. Boundaries: ptrdiff_t is declared only with usize_is_size_t, ssize_t never, and assert is not declared when an annotation asks for casts.", "quantifier": "all bindings, configurations of the three languages, and primitive types", "why_tests_cant": "tests compare whole files for the configurations in the test suite; which parts appear, in which order and with which empty lines depends on all combinations of more than ten settings", "anchors": ["src/bindgen/language_backend/clike.rs: write_headers, open_namespaces, close_namespaces, write_footers", "src/bindgen/language_backend/cython.rs: write_headers, open_namespaces", "src/bindgen/language_backend/mod.rs: write_trailer", "src/bindgen/ir/ty.rs: PrimitiveType::to_repr_c"]}
{"id": "C50", "title": "A configuration file means what its documentation says", "statement": "A configuration file is accepted exactly if it has only keys that the documented tables list, at the top and in every section, and each has a value of the documented kind; then every setting has the value of its key, and every setting whose key is left out has the documented default. A misspelt key or a word that is none is an error, never ignored. A list for parse.expand means these crates with all features.", "quantifier": "all values TOML can give, with any keys, sections and nesting", "why_tests_cant": "there are over a hundred keys with their own words and defaults; a test sets a few of them and does not notice that another key has changed its default or is ignored", "anchors": ["src/bindgen/config.rs: Config, Config::from_file, Config::from_root_or_default, FromStr implementations, retrocomp_parse_expand_config_deserialize", "src/bindgen/mod.rs: deserialize_enum_str", "src/bindgen/rename.rs: RenameRule::from_str"]}
{"id": "C51", "title": "The command line: settings, sources and exit status", "statement": "The cbindgen command takes its settings from the file named by --config, else from cbindgen.toml beside the source file or beside the manifest of the package that bindings are made for, else the defaults. Options given win over the file, flags only turn things on, and every setting no option is about stays as it was. For a source file only that file is read; for a crate cargo is asked about that crate with the lock file, metadata, profile and features given. Status 0 means that bindings were generated from these sources with these settings and that their text is in the file or was printed; without bindings or without an output file no file changes; a wrong word or --verify without a file is a usage error with status 2. Boundaries: only_target_dependencies and parse.clean in the file are ignored by the command, and all_features is passed although features is set.", "quantifier": "all command lines, configurations, answers of cargo and file systems", "why_tests_cant": "tests run the command with a few option combinations in one directory layout; which of several sources of a setting wins concerns all combinations", "anchors": ["src/main.rs: main, load_bindings, apply_config_overrides", "src/bindgen/cargo/cargo.rs: Cargo::load, find_crate_dir, expand_crate", "src/bindgen/cargo/cargo_expand.rs: expand", "src/bindgen/builder.rs: Builder::generate"]}
{"id": "C52", "title": "No constant and no static is lost", "statement": "For every public constant at module level, and every static with a fixed symbol, in a module whose items are bound, the bindings have a declaration of that name, if its type and value can be said in a header and the configuration neither excludes it nor leaves its kind out. If nothing else has its name, or everything that has it is conditional, then it is this very constant or static that is declared, with its own condition, type and value, and the text of the header says so. The same holds for the public constants of impl blocks for types that are no structs, in every crate read, where no private constant comes before them in the block. Boundaries: of two constants with one name in different modules the second is lost although the first may be conditional, and a constant MAXLevel makes the associated constant Level::MAX disappear.", "quantifier": "all source files, crates, module trees, conditions, configurations and fuel for which generation succeeds", "why_tests_cant": "a test compares the expected output for a few files; that nothing can go missing on the way through modules, crates, merging, sorting and filtering concerns all inputs", "anchors": ["src/bindgen/parser.rs: load_syn_const, load_syn_static, load_syn_assoc_consts_from_impl, Parse::extend_with", "src/bindgen/ir/item.rs: ItemMap::try_insert, extend_with", "src/bindgen/library.rs: generate", "src/bindgen/ir/constant.rs: Constant::load", "src/bindgen/ir/global.rs: Static::load"]}
{"id": "C53", "title": "The interface for build scripts", "statement": "Each method of the builder gives its one setting the value it is called with, or adds to a list or map, and changes no other setting, source or crate; of the calls about one thing the last counts, and the order of calls about different things does not matter. A new builder has the documented defaults. Generating reads exactly the files and the crate that were given, with these settings, and asks cargo with them. generate(dir) uses the settings of cbindgen.toml in that directory, or the defaults if there is none. Run inside another run of cbindgen, nothing is read and no file is written.", "quantifier": "all sequences of calls, all values, all file systems and answers of cargo", "why_tests_cant": "there are 43 methods and any sequence of them is a program; a test makes a few calls and looks at one setting", "anchors": ["src/bindgen/builder.rs: Builder::new, Builder::with_*, Builder::include_item, exclude_item, rename_item, Builder::generate", "src/lib.rs: generate, generate_with_config"]}
{"id": "C54", "title": "Deprecation and must_use", "statement": "A function, struct, union, enum or variant with #[deprecated], #[deprecated = reason] or a note in #[deprecated(...)] is known as deprecated with exactly that reason, one without the attribute is not, and must_use is seen exactly when it is given. A C or C++ header says so with the words configured for that kind of item, the reason standing as a string literal that C reads as the reason in place of each {}; it is silent only if no words are configured. Boundaries: since without a note does not count; control characters are written with escapes C does not have; an annotated type alias takes the mark from a struct without annotations.", "quantifier": "all lists of attributes, reasons, configurations and kinds of item", "why_tests_cant": "the attribute has five forms, reasons are arbitrary text that is escaped, and templates are arbitrary; tests cover two reasons", "anchors": ["src/bindgen/utilities.rs: SynAttributeHelpers::find_deprecated_note, attr_name_value_lookup, has_attr_word", "src/bindgen/ir/annotation.rs: AnnotationSet::load, deprecated_note, must_use", "src/bindgen/config.rs: FunctionConfig, StructConfig, EnumConfig (deprecated, deprecated_with_note, must_use)"]}
{"id": "C55", "title": "No name is defined twice", "statement": "Two type definitions in a header are of one name only if both stand under a condition and are of the same kind; likewise for constants and statics. This holds for the C names whenever the configuration does not rename two types alike, in particular whenever it only adds a prefix. Boundaries: variants of the same name in two enums define their number and their data struct twice; a type named like such a struct or like the tag of an enum is defined next to it; of types with one name in different modules, or of different kinds on different platforms, only one is known, and functions taking the other are declared with it.", "quantifier": "all sources, configurations, module trees and crates", "why_tests_cant": "a second definition makes a header unusable, and it can come from any combination of modules, crates, generics and conditions; tests only show combinations that work", "anchors": ["src/bindgen/ir/item.rs: ItemMap::try_insert, rebuild", "src/bindgen/library.rs: generate, get_items, rename_items", "src/bindgen/dependencies.rs: Dependencies", "src/bindgen/ir/enumeration.rs: Enum::load, EnumVariant::load"]}
{"id": "C56", "title": "Rename rules do what they are documented to do", "statement": "For an argument or field written in snake_case and a variant written in PascalCase, every rename rule gives exactly the name the documentation shows: my_arg becomes myArg, MyArg, aMyArg or mMyArg, MY_ARG or stays, and MyVariant of EnumName becomes myVariant, my_variant, MY_VARIANT, ENUM_NAME_MY_VARIANT and so on. For any ASCII name the letters and digits are kept in order, up to case, behind what the rule puts in front, so names that differ in more than case and underscores stay different. Boundaries: underscores at the ends are dropped even by the rules that are said to change nothing, so two fields can become one name, a name of underscores vanishes, and a variant _2D becomes 2D; the qualified rule together with prefix_with_name names the enum twice; a renamed argument can be the name of a macro.", "quantifier": "all words and names in ASCII, rename rules and kinds of identifier", "why_tests_cant": "tests convert a handful of names; whether words are split and joined as promised, and whether names can collide, is a question about all strings", "anchors": ["src/bindgen/rename.rs: RenameRule::apply, IdentifierType::to_str", "docs.md: rename_args, rename_fields, rename_variants"]}
