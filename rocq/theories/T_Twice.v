(** C55: no name is defined twice. *)
Require Import Coq.Strings.String Coq.Strings.Ascii Coq.Lists.List Coq.Bool.Bool.
From Verif Require Import Base M_Config M_Cfg M_Type M_Ir M_Item M_Attr M_Syn M_Library M_Bindings M_Loader M_Parser S_Library S_Names S_Heck S_Suite S_Twice P_Fresh P_Twice
  T_Parse T_Signature T_Datatypes T_Enums.
Import ListNotations.
Open Scope string_scope.

(** C55.  If two of the type definitions in the bindings are of one Rust name,
    then both are under a condition and they are of the same kind. *)
Theorem C55_types : forall (H : Heck) fuel visit l b, generate fuel visit l = Done b -> only_alternatives ic_path condition_of kind_of (b_items b).
Proof. exact types_once. Qed.
Print Assumptions C55_types.
(** C55.  The same for constants and for statics. *)
Theorem C55_values : forall (H : Heck) fuel visit l b, generate fuel visit l = Done b ->
  only_alternatives c_path c_cfg (fun _ => tt) (b_constants b) /\ only_alternatives g_path g_cfg (fun _ => tt) (b_globals b).
Proof. exact values_once. Qed.
Print Assumptions C55_values.
(** C55.  It holds for the names in C, too, if the configuration renames
    different types differently, … *)
Theorem C55_names : forall (H : Heck) d c bitflags mfuel pfuel std srcs lib l fuel visit b, parse_all d c bitflags mfuel pfuel std srcs lib = Parsed l ->
  generate fuel visit l = Done b -> told_apart (l_config l) (map ic_path (b_items b)) -> only_alternatives ic_export_name condition_of kind_of (b_items b).
Proof. intros H d c bitflags mfuel pfuel std srcs lib l fuel visit b P. exact (names_once H fuel visit l b (proj1 (parsed_fresh d c bitflags mfuel pfuel std srcs lib l P))). Qed.
Print Assumptions C55_names.
(** … which it does if it only adds a prefix. *)
Theorem C55_prefix : forall c names, ex_rename (export c) = [] -> told_apart c names.
Proof. exact no_renames_apart. Qed.
Print Assumptions C55_prefix.

(** Two definitions under conditions are both declared; a third one, without a
    condition, is left out. *)
Definition struct_ (attrs : attributes) (n f t : string) : sitem := ItemStruct (repr_c_ :: attrs) n [] (FieldsNamed [fld_ f t]).
Definition fun_ (n : string) (args : list sfnarg) : sitem := ItemFn [no_mangle] true (sig_ n args None).
Example C55_alternatives : run_items (H := ascii_heck) c_defines
  [struct_ [cfg_ "unix"] "Foo" "a" "u8"; struct_ [cfg_ "windows"] "Foo" "b" "u16"; struct_ [] "Foo" "c" "u32"; fun_ "go" [arg_ "x" (named "Foo")]]
  = c_headed ["#if defined(UNIX)"; "struct Foo {"; "  uint8_t a;"; "};"; "#endif"; "";
              "#if defined(WINDOWS)"; "struct Foo {"; "  uint16_t b;"; "};"; "#endif"; ""; "void go(struct Foo x);"].
Proof. vm_compute. reflexivity. Qed.

(** ** Where it fails *)
(** Variants of the same name with data: the number and the struct for the data
    are defined once for each enum. *)
Theorem C55_variants_refuted : run_items (H := ascii_heck) c_tags
  [ItemEnum [repr_c_] "A" [] [variant_ [] "V" (FieldsNamed [fld_ "a" "u8"; fld_ "b" "u8"]) None];
   ItemEnum [repr_c_] "B" [] [variant_ [] "V" (FieldsNamed [fld_ "c" "u64"; fld_ "d" "u64"]) None];
   fun_ "go" [arg_ "a" (named "A"); arg_ "b" (named "B")]]
  = c_headed ["enum A_Tag {"; "  V,"; "};"; ""; "struct V_Body {"; "  uint8_t a;"; "  uint8_t b;"; "};"; "";
              "struct A {"; "  enum A_Tag tag;"; "  union {"; "    struct V_Body v;"; "  };"; "};"; "";
              "enum B_Tag {"; "  V,"; "};"; ""; "struct V_Body {"; "  uint64_t c;"; "  uint64_t d;"; "};"; "";
              "struct B {"; "  enum B_Tag tag;"; "  union {"; "    struct V_Body v;"; "  };"; "};"; "";
              "void go(struct A a, struct B b);"].
Proof. vm_compute. reflexivity. Qed.
Print Assumptions C55_variants_refuted.
(** A type of the program that is called like the struct for the data of a
    variant, or like the tag of an enum, is defined next to it. *)
Theorem C55_helpers_refuted : run_items (H := ascii_heck) c_tags
  [ItemEnum [repr_c_] "A" [] [variant_ [] "V" (FieldsNamed [fld_ "a" "u8"; fld_ "b" "u8"]) None];
   struct_ [] "V_Body" "x" "u64"; struct_ [] "A_Tag" "y" "u32"; fun_ "go" [arg_ "a" (named "A"); arg_ "b" (named "V_Body"); arg_ "c" (named "A_Tag")]]
  = c_headed ["enum A_Tag {"; "  V,"; "};"; ""; "struct V_Body {"; "  uint8_t a;"; "  uint8_t b;"; "};"; "";
              "struct A {"; "  enum A_Tag tag;"; "  union {"; "    struct V_Body v;"; "  };"; "};"; "";
              "struct V_Body {"; "  uint64_t x;"; "};"; ""; "struct A_Tag {"; "  uint32_t y;"; "};"; "";
              "void go(struct A a, struct V_Body b, struct A_Tag c);"].
Proof. vm_compute. reflexivity. Qed.
Print Assumptions C55_helpers_refuted.
(** Types of the same name in different modules: only the first is defined, and
    the functions that take the other are declared with it. *)
Theorem C55_modules_refuted : run_items (H := ascii_heck) c_tags
  [ItemMod [] "a" (Some [struct_ [] "Foo" "x" "u8"; fun_ "f" [arg_ "x" (named "Foo")]]);
   ItemMod [] "b" (Some [struct_ [] "Foo" "y" "u64"; fun_ "g" [arg_ "y" (named "Foo")]])]
  = c_headed ["struct Foo {"; "  uint8_t x;"; "};"; ""; "void f(struct Foo x);"; ""; "void g(struct Foo y);"].
Proof. vm_compute. reflexivity. Qed.
Print Assumptions C55_modules_refuted.
(** One name for different kinds of type on different platforms: only the kind
    that is looked for first is defined, so that on Unix nothing is. *)
Theorem C55_kinds_refuted : run_items (H := ascii_heck) c_defines
  [ItemType [cfg_ "unix"] "Id" [] (named "u32"); struct_ [cfg_ "windows"] "Id" "high" "u64"; fun_ "go" [arg_ "x" (named "Id")]]
  = c_headed ["#if defined(WINDOWS)"; "struct Id {"; "  uint64_t high;"; "};"; "#endif"; ""; "void go(struct Id x);"].
Proof. vm_compute. reflexivity. Qed.
Print Assumptions C55_kinds_refuted.
