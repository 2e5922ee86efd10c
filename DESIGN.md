# A Rocq model of cbindgen: design

Source: mozilla/cbindgen, read as text in `/repo` (never built or run here).
Prover: Coq 8.16.1, standard library only.

## Layout of `rocq/theories`

| Kind of file | Content |
|---|---|
| `Base*.v` | Rust standard-library functions the code calls, on `string` (a Rust `String` is a byte sequence; Coq's `string` is a list of bytes) and on lists |
| `M_*.v` | the model: one definition per Rust function, each with a comment citing the file and lines it models. No proofs |
| `S_*.v` | small specifications written without the model's helpers (C declarator reader, cfg semantics, graph reachability, ...) |
| `P_*.v` | proofs |
| `T_*.v` | the property theorems, each `exact lemma`, followed by `Print Assumptions`, next to an `Example` showing that a non-trivial case meets the hypotheses |

## Modelling conventions

* `&mut` functions return the new value. `Result`/`Option` stay data. A panic is an explicit error value.
* Loops are structural recursion or folds. Loops without a structural measure take fuel and have a distinct
  out-of-fuel result; the theorems prove that the fuel is enough.
* `HashMap` used only for lookup is an association list; where iteration order could matter this is said in the
  comment and the theorem quantifies over the order.
* Things outside the crate (`syn`, `toml`, `heck`, the file system, `cargo`) are inputs of the model or parameters
  of a section, never axioms.
* Warnings and log output are not modelled unless a property speaks about them.

## Per property: what is modelled, how it is proved

| Property | Modelled | Proof | Theorems |
|---|---|---|---|
| C01 | `escape` with the actual binary search over the actual table | table sortedness by computation, binary search correctness by induction on the search window | `T_Reserved` |
| C02 | `rename_for_config` of all items; rename rules are a parameter (the `heck` crate) | independent keyword lists; stage lemmas; refutations by computation | `T_Members` |
| C03, C06 | `Cfg`, `DefineKey::load`, `to_condition` | induction on cfg; two evaluation semantics as specification | `T_Cfg` |
| C04 | `Condition::write` as text | specification is a lexer and precedence parser for preprocessor expressions; induction on conditions | `T_Cfg` |
| C05 | `write_before`/`write_after` and all of the three back ends (`M_Backend`) | an independent reader of C text (`S_Outline`: comments, literals, directives, brackets, conditional blocks under any truth assignment); Hoare triples over writer programs (`P_Triples`), one per writing function; guarded text = `#if` + unguarded text + `#endif` by replacing guards in the writer program | `T_Backend`, `S_Tame`, `S_Guarded` |
| C07, C08 | `ItemMap` over an insertion-ordered association list | abstract specification: list of accepted items; refinement and invariant by induction over histories | `T_Item` |
| C09 | `Dependencies::add` with fuel | DFS invariant; reachability specification; topological order for acyclic graphs | `T_Library` |
| C10, C37 | comparator and a stable sort | uniqueness of stable sort; permutation and order | `T_Library` |
| C11, C12, C13 | `Library::generate` pipeline | invariants through each stage | `T_Library`, `T_Names` |
| C14, C15 | `Type` traversals | mutual induction on types | `T_Type` |
| C16, C17 | `Mangler` | decoder for the injective fragment; character-class invariant; counterexamples by computation | `T_Type` |
| C18 | `Monomorphs` with fuel, and the pipeline after it | worklist invariant; measure for termination | `T_Mono` |
| C19 | `CDecl` building and writing | declarator reader as specification; induction on types | `T_Cdecl` |
| C20, C21 | `SourceWriter` | state invariant over operation sequences | `T_Writer`, `T_Cfg` |
| C22, C23 | `write_bindings`, the C-like and Cython back ends (`M_Backend`) | the file as head, texts of declarations, tail (`S_File`), by induction over lists; what the reader has open in each part (`S_Layers`) | `T_Backend` |
| C24 | `Literal`, `write_literal` | independent C lexer and expression reader; induction on values; which values are known (`S_Known`) | `T_Literal` |
| C25 | the same, and `Literal::load` | integer semantics of Rust and of C in Z | `T_Value` |
| C26, C27, C28, C29 | `Bindings` methods over an abstract file system with failures and crash points | case analysis, make-rule reader, list induction | `T_Bindings` |
| C30 | `AnnotationSet::load`, `Documentation::load` | list induction | `T_Attr` |
| C31 | `Repr::load` | fold invariants, permutations, specification of the hints as written (`S_Hints`) | `T_Attr` |
| C32 | `load_fn_declaration`, `exported_name`, foreign modules, impl blocks | decision of which items are callable, then induction over modules and crates | `T_Parse` |
| C33, C34, C40 | `Parser` over an abstract file system and an abstract `cargo metadata` graph | relational specification of visits; induction; visited-set DFS with termination measure; the lock file and metadata by a specification of their lines (`S_Cargo`) | `T_Parse`, `T_Cargo` |
| C35 | `write_documentation` | comment-scanner specification | `T_Attr` |
| C36 | `DeclarationTypeResolver` | first-wins invariant | `T_Names` |
| C38 | `transfer_annotations` | order independence by permutation invariance | `T_Transfer` |
| C41 | references in values (`enum_variant_reference`, `constant_name`) | origin of every enum through the stages | `T_Members` |
| C42 | the writers of `M_Backend` | a list of parts for every kind of declaration (`S_Shown`), compared with the text by a calculus of emitted pieces (`P_Shown`); only white space is left open, and only where no two words run together | `T_Shown` |
| C43 | `Type::load`, `Function::load` and every pass up to the text | a translation of Rust types into C types that skips all steps in between (`S_Signature`), induction on the type; what the loaders leave empty (`P_Fresh`), what is read (`S_Sources`), what the passes do to a type (`P_SigLib`) | `T_Signature`, `T_Sources` |
| C44 | `Struct::load`, `Union::load`, `Typedef::load`, `Static::load`, every pass up to the text | where each thing of the bindings comes from (`P_Made`), what the passes do to a definition (`P_ItemPasses`), what a definition stands for (`S_Datatypes`), and the pieces of its text (`S_Shown`) | `T_Datatypes` |
| C45 | `Enum::load`, `EnumVariant::load`, `Enum::rename_for_config`, every pass up to the text | what an enum stands for and how Rust and C number it (`S_Enums`), through loading and all passes (`P_Enums`), the enumerators read back from the text (`P_EnumText`) | `T_Enums` |
| C46 | `Constant::load`, impl blocks, `bitflags!`, every pass up to the text | what a constant stands for (`S_Constants`), through loading and all passes (`P_ConstMade`, `P_Constants`), its declaration and value read back from the text (`P_ConstText`) | `T_Constants` |
| C47 | the same as C44 and C45 | layout rules of Rust for the sources and of C for the declarations, on a machine given by four numbers (`S_Layout`); induction on the Rust layout through what C44 and C45 say of each declaration (`P_Layout`) | `T_Layout` |
| C48 | the derived functions in `M_Backend` | a reader for C++ methods and what their statements do for any meaning of the operators (`S_Method`), which methods a type gets (`S_Derived`), a reader for the functions that make objects and what they leave in them (`S_Maker`); from the parts of C42 to tokens, statements and results (`P_MethodLex`, `P_Method`, `P_Derived`, `P_Maker`) | `T_Method`, `T_Maker` |
| C49 | `write_headers`, namespaces, footers and trailer in `M_Backend` | the head and the tail as a text built from paragraphs, and a table of what standard headers declare (`S_Head`); the writer from line start to line start (`P_Head`) | `T_Head` |
| C50 | `FromStr` and `Deserialize` of `config.rs` on TOML values in `M_Settings` | a table of keys, values, defaults and the settings they decide (`S_Settings`); each decoder is exact for its relation (`P_Settings`) | `T_Settings` |
| C51 | `main.rs`, `Cargo::load`, `Builder::generate` in `M_Cli`, over given answers of cargo and the file system | what options do to the settings, where settings come from, what cargo is asked (`S_Cli`); cases of the run (`P_Cli`) | `T_Cli` |
| C52 | the loaders of `M_Loader`/`M_Parser`, tables of `M_Item`, the passes and the writer as for C46 and C44 | what is to be bound (`S_Complete`): an entry once in a table stays or is replaced by one of its name, through modules, crates, merging, passes and filters (`P_Complete`, `P_CompText`); constants of impl blocks likewise, as long as no struct has the name of the type (`P_Assoc`, `P_AssocText`) | `T_Complete`, `T_Assoc` |
| C53 | `builder.rs`, `lib.rs` in `M_Builder`: the calls as data, the builder as a record, `generate` over the outside world of C51 | for each call the key of the configuration it is about and the value afterwards (`S_Builder`); that all other keys keep their value uses the key tables of C50; `generate` is unfolded to the parse and passes other properties speak about | `T_Builder` |
| C54 | `find_deprecated_note`, `AnnotationSet::load`, `deprecated_note` in `M_Attr`, `M_Backend` | the forms of the attribute, the configured words, holes and C string literals (`S_Marks`); the lookups over attributes and the escaping (`P_Marks`) | `T_Marks` |
| C55 | the tables of `M_Item` and `finish` in `M_Library` | any two members with one name are alternatives (`S_Twice`); entries of a table, NoDup of the dependency order, permutation by sorting (`P_Twice`) | `T_Twice` |
| C56 | `RenameRule_apply` in `M_Config` with the ASCII `heck` of `S_Heck` | names made of words, the letters of a name (`S_Rename`); the word splitter on words joined by underscores or capitals, and letters kept in general (`P_Rename`) | `T_Rename` |
| C39 | struct literals as maps with an arbitrary visiting order | relation between pipelines run with two orders | `T_Transfer` |

A theorem whose name ends in `_refuted` states that the property fails outside the hypotheses of the positive
theorems and gives the witness. A theorem whose name ends in `_partial` proves less than its property.

## What is modelled

| Source (`/repo/src`) | Model |
|---|---|
| `bindgen/reserved.rs` | `M_Reserved` (all) |
| `bindgen/config.rs`, `rename.rs` | `M_Config` (the data and the functions on it), `M_Settings` (decoding of TOML values) |
| `bindgen/writer.rs` | `M_Writer` (all, including measuring) |
| `bindgen/ir/cfg.rs` | `M_Cfg` (all, on parsed meta items) |
| `bindgen/ir/ty.rs`, `generic_path.rs`, `path.rs`, `mangle.rs` | `M_Type` |
| `bindgen/ir/{annotation,documentation,repr,field,...}.rs`, `utilities.rs` | `M_Ir`, `M_Attr` |
| `bindgen/ir/item.rs` | `M_Item` |
| `bindgen/library.rs`, `dependencies.rs`, `monomorph.rs`, `declarationtyperesolver.rs`, `ir/{structure,union,enumeration,typedef,opaque,function,constant,global}.rs` (passes) | `M_Library` |
| `bindgen/cdecl.rs` | `M_Cdecl` |
| `bindgen/bindings.rs`, `main.rs` (output part) | `M_Bindings`, `M_Files` |
| `bindgen/language_backend/*.rs`: documentation, literals, constants, guards | `M_Docs`, `M_Literal`, `M_Cfg` |
| `syn` types and expressions, `Type::load`, `Literal::load` | `M_Syn` |
| `load` functions of all items, `bitflags.rs`, `parser.rs` (items) | `M_Loader` |
| `parser.rs` (modules, crates), `cargo/cargo.rs` (graph), `builder.rs` (loading) | `M_Parser` |
| `main.rs` (the rest), `cargo/cargo.rs` (`Cargo::load`), `cargo/cargo_expand.rs` (arguments) | `M_Cli` |
| `builder.rs`, `lib.rs` | `M_Builder` |

Not modelled: the parser library `syn` and the lexical form of Rust (inputs of the model are syntax trees), running
`cargo metadata` and `rustc --pretty=expanded` (their results are inputs), the syntax of TOML and `clap` (a file is a TOML value, a command line the options found), the case
conversions of `heck` (a parameter; where a theorem needs something of them it says so), the text of warnings and
errors.

## Does the model say what the code does?

The model runs. `S_Suite*.v` contain the project's own test suite: every source in `tests/rust` (140 files and 11
crates) with its configuration as Coq terms, and everything the tests compare with `tests/expectations` and
`tests/expectations-symbols` - C with and without C++ compatibility in three styles, C++, Cython in two styles, and
the symbol file. The model goes from syntax trees to text through loading, `Library::generate` and the back ends and
gives the expected text byte for byte in all 1359 runs. Left out are the seven crates that need `rustc` to expand
macros. Syntax trees are made by a script (`suite/emit.py`), not by `syn`; `S_Heck.v` gives the case conversions for
ASCII text. This is a test of the model, not of the theorems.

## Findings

Each of these is a theorem about the model with a concrete witness; all were then checked again against the Rust
text. Theorem names are given where the English above does not say it.

* Guards: attributes that cannot be parsed are dropped (`C03_unparsable_attribute_refuted`); `any()` gets no guard
  (`C03_empty_any_refuted`); two spellings of one key in `[defines]` are decided by hash order
  (`C03_define_order_refuted`); an unknown atom under `any` hides items that exist (`C06_unknown_under_any_refuted`).
* Keywords: escaping is not injective (`C01_escape_injective_refuted`); union fields and item names are not escaped,
  variants are escaped before they are renamed, 30 keywords are unknown (`C02_*_refuted`).
* References: rename rules for variants or associated constants break values that name them; so do associated
  constants that are not written as members (`C41_*_refuted`). Renamed or escaped fields lose their values in
  struct literals, leaving a stray comma (`C24_renamed_fields_refuted`). A struct the header does not have is written
  when it occurs inside another struct's value (`C24_unknown_field_refuted`).
* Back ends: associated constants of a guarded transparent struct come after its `#endif`; the `;` of a conditional
  field stands outside its guard; Cython members lose their conditions; a guard's width counts when arguments are
  laid out (`C05_*_refuted`). Constants ignore `no-export`; with nothing but `no-export` items the Cython block is
  empty and has no `pass` (`C22_*_refuted`).
* Writer: a zero tab width panics; the column counter is stale after a failed multi-line attempt.
* Types: `Option<Cell<&T>>` and the like are larger than a pointer and declared as one; `static X: *mut u8` is
  declared `extern const uint8_t *X`, constant in the wrong place (`C43_*_refuted`); an immutable static array of pointers gets `const`
  twice, an error in C++ (`C44_static_array_refuted`); a rename rule on a tuple struct gives fields `0`, `1`
  (`C44_tuple_rename_refuted`); defaults of generic parameters that mention other
  parameters are not instantiated; five kinds of mangling collisions.
* Enums: a variant under a condition without a macro is always declared and shifts the numbers after it
  (`C45_unknown_condition_refuted`); a `repr(transparent)` enum is declared with a tag, of a type that is not declared
  (`C45_transparent_refuted`); a variant `r#loop` with data gets `struct r#loop_Body` (`C45_raw_variant_refuted`).
* Order: a fieldless enum can precede the struct whose constant its discriminant uses; the order of items depends
  on the hash order of struct literals (`C39_hash_order_refuted`).
* Instances: recursive generic enums and growing recursion never end; generics in globals are not instantiated
  (`static X: Wrap<u8>` becomes `extern const Wrap<uint8_t> X;` in C, `C44_generic_static_refuted`); an
  instance is dropped when its name is taken; guarded generic enums can be written twice; associated constants of
  generic structs are lost.
* Tags: one name defined as two kinds, and excluded types, get a wrong or no keyword.
* Declarators: const lost on `*const fn()`; non-null function pointers get the nullable attribute; functions
  returning arrays and named `VaList` parameters are not C.
* Files: `--verify` overwrites the file; no-op bindings still overwrite the dependency and symbol files; a panic
  leaves a partial new file; the last write error of the symbol file is lost; `#` and `$` in dependency paths.
* Queries: a typedef aliasing its own name never ends; three definitions lose field order.
* Attributes: `[]` is a list of one empty name; `repr(C, transparent)` depends on order; hexadecimal, suffixed and
  repeated alignments rejected.
* Documentation leaks into code in six ways (`C35_*_refuted`).
* Types in constants are not prepared like others: `0 as *const Foo<u8>` becomes `(const Foo<uint8_t>*)0` in C, and
  with tag style types of constants lack their keyword (`C46_types_refuted`); a constant that is a pointer to
  constant data is a variable in C++ (`C46_pointer_refuted`).
* Layouts: a transparent struct is declared as its first field even if that is empty or conditional
  (`C47_transparent_refuted`, `C47_conditional_refuted`); in C++ a type named `Tag` in a field of an enum means the
  tag of the enum (`C47_tag_refuted`); pointers to structs of variable size are thin (`C47_variable_size_refuted`).
* Derived C++ functions: a field named like the parameter (`other`) is hidden by it (`C48_hidden_field_refuted`);
  fields under a condition are compared even if they are not declared (`C48_conditional_field_refuted`); a variant
  without fields in an enum with inline tags gets `return ;` (`C48_no_fields_refuted`); casts say `._0` though the
  field was renamed (`C48_cast_renamed_refuted`); a field called `result` is declared twice in the function that makes
  the variant (`C48_result_field_refuted`); arrays in constructors become arrays of references, and constructors and
  stream output use conditional fields and variants unconditionally (`C48_constructor_fields_refuted`,
  `C48_stream_variant_refuted`); an array called `i` hides the counter (`C48_index_field_refuted`).
* Rename rules for fields leave the fields of tuples with numbers for names (`C44_tuple_names_refuted`) and rename the
  tag that is part of a variant, which can clash with a field or its type (`C44_renamed_tag_refuted`).
* Includes: without `usize_is_size_t` nothing declares `ptrdiff_t`, and `ssize_t` is never declared
  (`C49_undeclared_refuted`); casts asked for by an annotation use `assert` without `<cassert>` (`C49_assert_refuted`).
* Types: `()` as an argument of a type is dropped, which moves the arguments after it and can change the layout
  without a sign, or ends in a panic (`C44_unit_argument_refuted`), and leaves `NonNull` or `Box` undeclared;
  `NonZeroUsize` and `NonZeroIsize` are misspelt in the table (`C43_not_recognised_refuted`); casts in the length of
  an array are dropped (`C44_array_length_refuted`); a field called `tag` clashes with the tag
  (`C45_tag_field_refuted`).
* Command line: `only_target_dependencies` and `parse.clean` of the configuration file have no effect when the command
  is given a crate (`C51_only_target_refuted`, `C51_clean_refuted`); `--all-features` is passed although `features` is
  set, which the documentation denies (`C51_features_refuted`).
* Seen while reading, not modelled: with `parse.clean`, `cargo_expand.rs:83` moves the temporary directory out of its
  drop guard, so it is deleted before cargo runs, and what cargo then makes in its place is never removed.
* Constants in different modules with one name: only the first is declared even if it is conditional, so that elsewhere
  none is (`C52_conditional_refuted`). Associated constants are kept under their name followed by that of their type:
  a constant `MAXLevel` makes `Level::MAX` disappear (`C52_associated_refuted`).
* Deprecation: `#[deprecated(since = …)]` without a note leaves no mark (`C54_since_refuted`); control characters in
  the reason become `\u{7}`, which C does not read (`C54_control_refuted`); a type alias with an annotation removes the
  mark of a struct that has no annotations, since deprecation does not count as one (`C54_alias_refuted`).
* Double definitions: data structs and numbers of variants with one name in two enums (`C55_variants_refuted`); types
  named `V_Body` or `E_Tag` (`C55_helpers_refuted`). Of two types with one name in different modules only the first is
  known and stands for both (`C55_modules_refuted`); of a struct and an alias for different platforms only the struct
  is declared, so that on the other platform nothing is (`C55_kinds_refuted`).
* Rename rules drop underscores at the ends, also `SnakeCase`, which is documented to change nothing: fields `a` and `_a`
  get one name, a field `__` is left without a name, a variant `_2D` becomes `2D` (C56_same_refuted,
  C56_nameless_refuted, C56_digit_refuted). `QualifiedScreamingSnakeCase` with `prefix_with_name` gives the name of the
  enum twice (C56_prefix_refuted); a renamed argument can be the name of a macro (C56_macro_refuted).
* Cython: keywords of Python are not escaped (C02_cython_refuted), and `include_version` writes a C comment
  (C49_cython_version_refuted). A variant with nothing but a field without size becomes a struct without members
  (C45_empty_struct_refuted). In values, names keep their `r#` (C46_raw_names_refuted), and function pointers may take
  and return arrays (C43_pointer_arrays_refuted). Functions that take arrays are left out, but not if the array is behind
  an alias, a transparent struct or `ManuallyDrop`: C then passes a pointer where Rust expects the array
  (C43_hidden_arrays_refuted). In C++ a constant can come before one its value uses (C09_constants_refuted), and
  constants that are unions are left out (C24_union_refuted). Names of arguments, and in C++ of fields, can hide types
  used after them (C43_hidden_type_refuted, C44_hidden_type_refuted); structs without fields have no members in C
  (C44_empty_refuted); unknown types such as `u128` and `str` are used without a declaration
  (C43_undeclared_refuted). All these are in `T_Further`.
* Constants: double minus, struct update syntax, tag-only struct literals, multi-line `#define`; and eight kinds of
  changed values (`C25_*_refuted`).
* Parsing: conditions on impl blocks and bitflags lost; statics ignore `unsafe(export_name)`; private associated
  constants hide public ones; associated constants depend on item order; unsupported generics panic; ignore
  annotations in extern blocks; `link_name`; `self: &Self`; two versions of a crate; diamond dependencies; dependency targets of one word (`C34_one_word_target_refuted`); four
  problems with `#[path]`.

## Trusted base

* Coq's kernel (and `coqchk`).
* The transcription from Rust to Gallina, as cited definition by definition, and the inputs listed above as not
  modelled.
* The specifications `S_*.v`: C's grammar for declarators and expressions, the preprocessor's expressions, C's and
  Rust's integer rules (64-bit `usize`, 32-bit `int`), make's rule syntax, comment syntax, Rust's rules for module
  files, each for the fragment that occurs.
* `Print Assumptions` answers `Closed under the global context` for every theorem in `T_*.v`: no axiom is used, not
  even of the standard library. (`coqchk` lists seven axioms of `Coq.ssr.ssrunder`, a module type of the standard
  library that the `lia`/`ssreflect` plugin files load; no theorem here depends on them.)

## Wrong programs

`seeded/LOG.jsonl` records edits of the model that a realistic bug would make, and which theorems stop proving. An
edit that survives either changes nothing a property speaks about (the entry says so) or led to a stronger theorem.
