(** C45: enums are declared with the variants, the numbers and the data they have
    in the sources. *)
Require Import Coq.Strings.String Coq.Strings.Ascii Coq.Lists.List Coq.Bool.Bool Coq.Arith.Arith Coq.NArith.NArith Coq.ZArith.ZArith.
From Verif Require Import Base S_Lex M_Config M_Cfg S_Cfg M_Type M_Ir M_Item M_Attr M_Syn M_Library M_Bindings M_Backend S_Decl M_Loader M_Parser S_Parse S_Library S_Names S_Expr S_Literal S_Value S_File S_Heck S_Suite
  S_Sources S_Signature S_Shown S_Datatypes S_Enums P_Enums P_EnumText T_Value T_Parse T_Signature T_Datatypes.
Import ListNotations.
Open Scope string_scope.

(** In the bindings.  Every enum there is one of a module that was read: it has
    its name, its condition, its documentation and its layout; its variants are
    those of the source, in the same order, and after them the ones that the
    annotations or the configuration add; each has its name, its condition, its
    documentation, its note, the number of its discriminant as C computes it, and
    its data with the C types of the fields; or it is an instance of a generic
    enum. *)
Theorem C45_bindings : forall (H : Heck) d c bitflags mfuel fuel std srcs lib l, parse_all d c bitflags mfuel fuel std srcs lib = Parsed l ->
  exists vss rs, sources_read d (parse c) srcs lib vss rs
    /\ forall pfuel visit l' b, prepare pfuel visit l = Done l' -> finish l' = Done b -> enums_from_sources c (keyword_in l') vss rs b.
Proof. exact enums_sources. Qed.
Print Assumptions C45_bindings.

(** In the text of a C or C++ header: what stands between the braces of an enum
    are the variants of the source, in order, each under its condition, and the
    added ones; and if the configuration has a macro for every condition, each
    variant gets in C the number it has in Rust. *)
Theorem C45_text : forall (H : Heck) d c bitflags mfuel fuel std srcs lib l, parse_all d c bitflags mfuel fuel std srcs lib = Parsed l ->
  exists vss rs, sources_read d (parse c) srcs lib vss rs
    /\ forall pfuel visit l' b wfuel t types names c_names, prepare pfuel visit l = Done l' -> finish l' = Done b -> bindings_text wfuel b = Done t ->
         proper_attributes c = true -> tab_width c <> 0 -> language c <> Cython ->
         (forall k m, In (k, m) (defines c) -> macro_name false m = true) ->
         standard_types types -> Forall (fun a => S_Lex.is_ident a = true /\ S_Value.named_type a = None) (pointer_words (dialect_of c)) ->
         constants_known c names c_names -> enums_written c types names c_names vss rs b t.
Proof. exact enums_text. Qed.
Print Assumptions C45_text.

(** ** An example *)
Definition with_defines (l : list (string * string)) (c : Config) : Config :=
  {| header := header c; includes_ := includes_ c; sys_includes_ := sys_includes_ c; after_includes := after_includes c; trailer := trailer c;
     include_guard_ := include_guard_ c; pragma_once := pragma_once c; no_includes := no_includes c; package_version := package_version c;
     autogen_warning := autogen_warning c; include_version := include_version c; namespace := namespace c; namespaces := namespaces c;
     using_namespaces := using_namespaces c; braces := braces c; line_length := line_length c; tab_width := tab_width c;
     line_endings := line_endings c; language := language c; cpp_compat := cpp_compat c; style := style c; sort_by := sort_by c;
     usize_is_size_t := usize_is_size_t c; parse := parse c; export := export c; layout := layout c; function := function c;
     structure := structure c; enumeration := enumeration c; M_Config.constant := M_Config.constant c; defines := l; documentation := documentation c;
     documentation_style := documentation_style c; documentation_length := documentation_length c; M_Config.pointer := M_Config.pointer c;
     cython := cython c; config_path := config_path c |}.
Definition variant_ (attrs : attributes) (n : string) (f : sfields) (d : option rexpr) : svariant :=
  {| sv_attrs := attrs; sv_ident := n; sv_fields := f; sv_discriminant := option_map syntax d |}.
Definition lit (n : N) : rexpr := RLit (RSize true) false n.
Definition enum_items : list sitem :=
  [ItemConst [] true "N" (named "u32") (XLit (LitInt 4 ""));
   ItemEnum [repr_c_; doc_ " cbindgen:add-sentinel=true"] "Level" []
     [variant_ [] "Low" FieldsUnit (Some (RNeg (lit 3))); variant_ [cfg_ "unix"] "r#int" FieldsUnit (Some (RArith AMul (RParen (RArith AAdd (RName "N") (lit 1))) (lit 3)));
      variant_ [] "Mid" FieldsUnit None; variant_ [cfg_ "windows"] "Win" FieldsUnit None; variant_ [doc_ " the most"] "High" FieldsUnit None];
   ItemEnum [repr_c_; doc_ " cbindgen:prefix-with-name=true"] "Shape" []
     [variant_ [] "Nothing" FieldsUnit None;
      variant_ [] "Circle" (FieldsNamed [fld_ "x" "i32"; of_type "next" (SPtr false (named "Self"))]) None;
      variant_ [] "Square" (FieldsUnnamed [bare (named "Level")]) None];
   ItemFn [no_mangle] true (sig_ "go" [arg_ "l" (named "Level"); arg_ "s" (named "Shape")] None)].
Definition c_defines : Config := with_defines [("unix", "UNIX"); ("windows", "WINDOWS")] c_tags.
Example C45_example : run_items (H := ascii_heck) c_defines enum_items = c_headed
  ["#define N 4"; "";
   "enum Level {"; "  Low = -3,"; "#if defined(UNIX)"; "  int_ = ((N + 1) * 3),"; "#endif"; "  Mid,"; "#if defined(WINDOWS)"; "  Win,"; "#endif";
   "  /**"; "   * the most"; "   */"; "  High,"; "  /**"; "   * Must be last for serialization purposes"; "   */"; "  Sentinel,"; "};"; "";
   "enum Shape_Tag {"; "  Shape_Nothing,"; "  Shape_Circle,"; "  Shape_Square,"; "};"; "";
   "struct Shape_Circle_Body {"; "  int32_t x;"; "  const struct Shape *next;"; "};"; "";
   "struct Shape {"; "  enum Shape_Tag tag;"; "  union {"; "    struct Shape_Circle_Body circle;"; "    struct {"; "      enum Level square;"; "    };"; "  };"; "};"; "";
   "void go(enum Level l, struct Shape s);"].
Proof. vm_compute. reflexivity. Qed.
(** The discriminants of [Level] meet the hypotheses, and its numbers are those
    of Rust on either system: on Unix [Low] is -3, [int] is 15, [Mid] 16 and
    [High] 17; on Windows [Mid] is -2, [Win] -1 and [High] 0. *)
Definition level_discriminants : list (option rexpr) :=
  [Some (RNeg (lit 3)); Some (RArith AMul (RParen (RArith AAdd (RName "N") (lit 1))) (lit 3)); None; None; None].
Definition level_variants : list svariant := match nth 1 enum_items (ItemEnum [] "" [] []) with ItemEnum _ _ _ vs => vs | _ => [] end.
Definition names_of_rust (x : string) : option (rtype * Z) := if String.eqb x "N" then Some (RSize true, 4%Z) else None.
Definition on (system : string) (a : atom) : bool := match a with Flag w => String.eqb w system | KeyVal _ _ => false end.
Example C45_example_meets :
  Forall2 (fun v d => sv_discriminant v = option_map syntax d) level_variants level_discriminants
  /\ Forall (fun d => forall x, d = Some x -> kept_in_c c_defines names_of_rust n_in_c x
       /\ writable (fun n => value_word standard (export_rename (export c_defines) n) = true) x) level_discriminants
  /\ constants_known c_defines names_of_rust n_in_c
  /\ Forall (fun v => known_opt c_defines (Cfg_of_attrs (sv_attrs v))) level_variants
  /\ map (fun system => option_map fst (rust_numbers names_of_rust 0 (combine (map (fun v => attrs_hold (on system) (sv_attrs v)) level_variants) level_discriminants)))
       ["unix"; "windows"]
     = [Some [Some (-3); Some 15; Some 16; None; Some 17]; Some [Some (-3); None; Some (-2); Some (-1); Some 0]]%Z.
Proof.
  split; [repeat constructor|]. split; [|split; [|split; [|vm_compute; reflexivity]]].
  - repeat first [apply Forall_cons | apply Forall_nil]; intros x E; injection E as <- || discriminate E; split.
    + split; [cbn [fits lit]; repeat split; try reflexivity; discriminate|]. split; [exact Logic.I|constructor].
    + cbn [writable lit]. repeat split; reflexivity.
    + split; [cbn [fits divides lit]; unfold both_fit; repeat split; try reflexivity; discriminate|]. split; [cbn; auto|]. constructor; [intro; reflexivity|constructor].
    + cbn [writable lit]. repeat split; reflexivity.
  - intros x t v E. unfold names_of_rust in E. destruct (String.eqb_spec x "N") as [->|]; [|discriminate]. injection E as <- <-.
    split; [vm_compute; repeat split; discriminate|]. exists int. reflexivity.
  - repeat first [apply Forall_cons | apply Forall_nil]; try exact Logic.I; (split; [|reflexivity]); intros a [<-|[]].
    + exists "unix", "UNIX". split; [left; reflexivity|]. constructor. reflexivity.
    + exists "windows", "WINDOWS". split; [right; left; reflexivity|]. constructor. reflexivity.
Qed.

(** ** Where the property fails *)
(** A variant under a condition for which the configuration has no macro is
    always declared, and all variants after it get other numbers: here [C] is 1
    in Rust when not on Windows, and 2 in C. *)
Definition plainly (n : string) : enumerator := {| er_condition := None; er_docs := []; er_name := n; er_note := None; er_value := None |}.
Definition shifted : list svariant := [variant_ [] "A" FieldsUnit None; variant_ [cfg_ "windows"] "B" FieldsUnit None; variant_ [] "C" FieldsUnit None].
Theorem C45_unknown_condition_refuted :
  run_items (H := ascii_heck) c_tags [ItemEnum [repr_c_] "E" [] shifted; ItemFn [no_mangle] true (sig_ "go" [arg_ "e" (named "E")] None)]
    = c_headed ["enum E {"; "  A,"; "  B,"; "  C,"; "};"; ""; "void go(enum E e);"]
  /\ option_map fst (rust_numbers no_names 0 (combine (map (fun v => attrs_hold (on "unix") (sv_attrs v)) shifted) [None; None; None])) = Some [Some 0; None; Some 1]%Z
  /\ c_numbers no_names (fun _ => false) 0 (map plainly ["A"; "B"; "C"]) = Some [Some 0; Some 1; Some 2]%Z.
Proof. repeat split; vm_compute; reflexivity. Qed.
Print Assumptions C45_unknown_condition_refuted.
(** An enum that is [repr(transparent)] is its only field in Rust; it is declared
    with a tag, once with a type there is no declaration of. *)
Theorem C45_transparent_refuted :
  run_items (H := ascii_heck) c_tags [ItemEnum [transparent_] "E" [] [variant_ [] "V" (FieldsUnnamed [bare (named "u8")]) None];
                                      ItemFn [no_mangle] true (sig_ "go" [arg_ "e" (named "E")] None)]
    = c_headed ["enum E_Tag {"; "  V,"; "};"; ""; "union E {"; "  enum E_Tag tag;"; "  struct {"; "    Tag v_tag;"; "    uint8_t v;"; "  };"; "};"; ""; "void go(union E e);"].
Proof. vm_compute. reflexivity. Qed.
Print Assumptions C45_transparent_refuted.
(** The struct for the data of a variant with a raw identifier keeps [r#]. *)
Theorem C45_raw_variant_refuted :
  run_items (H := ascii_heck) c_tags [ItemEnum [repr_c_] "E" [] [variant_ [] "r#loop" (FieldsNamed [fld_ "a" "u8"]) None];
                                      ItemFn [no_mangle] true (sig_ "go" [arg_ "e" (named "E")] None)]
    = c_headed ["enum E_Tag {"; "  loop,"; "};"; ""; "struct r#loop_Body {"; "  uint8_t a;"; "};"; "";
                "struct E {"; "  enum E_Tag tag;"; "  union {"; "    struct r#loop_Body loop;"; "  };"; "};"; ""; "void go(struct E e);"].
Proof. vm_compute. reflexivity. Qed.
Print Assumptions C45_raw_variant_refuted.
(** In an enum whose tag is inside the data, a field called [tag] is declared
    beside the tag of that name. *)
Definition tagged_field : list sitem :=
  [ItemEnum [att (AList (Some "repr") [APath (Some "u8")])] "E" [] [variant_ [] "A" (FieldsNamed [fld_ "tag" "u16"]) None];
   ItemFn [no_mangle] true (sig_ "go" [arg_ "e" (named "E")] None)].
Theorem C45_tag_field_refuted :
  exists before after, run_items (H := ascii_heck) c_tags tagged_field
    = Some (before ++ T_Signature.written ["struct A_Body {"; "  E_Tag tag;"; "  uint16_t tag;"; "};"] ++ after).
Proof.
  eexists (T_Signature.written ["#include <stdarg.h>"; "#include <stdbool.h>"; "#include <stdint.h>"; "#include <stdlib.h>"; "";
    "enum E_Tag"; "#if __STDC_VERSION__ >= 202311L"; "  : uint8_t"; "#endif // __STDC_VERSION__ >= 202311L"; " {"; "  A,"; "};";
    "#if __STDC_VERSION__ >= 202311L"; "typedef enum E_Tag E_Tag;"; "#else"; "typedef uint8_t E_Tag;"; "#endif // __STDC_VERSION__ >= 202311L"; ""]),
    (T_Signature.written [""; "union E {"; "  E_Tag tag;"; "  struct A_Body a;"; "};"; ""; "void go(union E e);"]).
  vm_compute. reflexivity.
Qed.
Print Assumptions C45_tag_field_refuted.
