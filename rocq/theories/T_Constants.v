(** C46: constants are declared with the names, the types and the values they
    have in the sources. *)
Require Import Coq.Strings.String Coq.Strings.Ascii Coq.Lists.List Coq.Bool.Bool Coq.Arith.Arith Coq.NArith.NArith Coq.ZArith.ZArith.
From Verif Require Import Base S_Lex M_Config M_Cfg S_Cfg M_Type M_Ir M_Item M_Attr M_Syn M_Library M_Bindings M_Backend S_Decl M_Loader M_Parser S_Parse S_Library S_Names S_Expr S_Literal S_Value S_File S_Heck S_Suite
  S_Sources S_Signature S_Shown S_Datatypes S_Enums S_Constants P_Constants P_ConstText T_Value T_Parse T_Signature T_Datatypes T_Enums.
Import ListNotations.
Open Scope string_scope.

(** In the bindings.  Every constant there is a public one of a module that was
    read, of an impl block in it, or a flag of [bitflags!]: it has its name, its
    C type, its condition, its documentation, and its value as C computes it. *)
Theorem C46_bindings : forall (H : Heck) d c bitflags mfuel fuel std srcs lib l, parse_all d c bitflags mfuel fuel std srcs lib = Parsed l ->
  exists vss rs, sources_read d (parse c) srcs lib vss rs
    /\ forall pfuel visit l' b, prepare pfuel visit l = Done l' -> finish l' = Done b -> constants_from_sources c vss rs b.
Proof. exact constants_sources. Qed.
Print Assumptions C46_bindings.

(** In the text of a C or C++ header: each constant whose value is a number is
    declared, under the condition of the source and with its documentation, with
    its name (after that of its type) and an expression which C reads as the
    value it has in Rust; as a macro on one line, or as an object of the C type
    of its Rust type. *)
Theorem C46_text : forall (H : Heck) d c bitflags mfuel fuel std srcs lib l, parse_all d c bitflags mfuel fuel std srcs lib = Parsed l ->
  exists vss rs, sources_read d (parse c) srcs lib vss rs
    /\ forall pfuel visit l' b wfuel t types names c_names, prepare pfuel visit l = Done l' -> finish l' = Done b -> bindings_text wfuel b = Done t ->
         proper_attributes c = true -> tab_width c <> 0 -> language c <> Cython ->
         (forall k m, In (k, m) (defines c) -> macro_name false m = true) ->
         standard_types types -> Forall (fun a => S_Lex.is_ident a = true /\ S_Value.named_type a = None) (pointer_words (dialect_of c)) ->
         constants_known c names c_names -> constants_written c types names c_names vss rs b t.
Proof. exact constants_text. Qed.
Print Assumptions C46_text.

(** ** An example *)
Definition mask : rexpr := RNeg (RParen (RArith AAdd (RCast (RName "N") i64) (RLit i64 false 1))).
Definition constant_items : list sitem :=
  [ItemConst [doc_ " how many"] true "N" (named "u32") (syntax (lit 4));
   ItemConst [cfg_ "unix"] true "r#mask" (named "i64") (syntax mask);
   ItemConst [] false "hidden" (named "u8") (syntax (lit 1));
   ItemEnum [repr_c_] "Level" [] [variant_ [] "Low" FieldsUnit None];
   ItemImpl [] (named "Level") [ImplConst [] true "MAX" (named "u8") (syntax (lit 9))];
   ItemStruct [repr_c_] "Point" [] (FieldsNamed [fld_ "x" "i32"]);
   ItemImpl [] (named "Point")
     [ImplConst [] true "LIMIT" (named "i32") (syntax (RNeg (lit 7)));
      ImplConst [] true "ORIGIN" (named "Self") (XStruct (SegPath [] "Point" NoArgs) [([], Named "x", syntax (lit 0))] None)];
   ItemFn [no_mangle] true (sig_ "go" [arg_ "l" (named "Level"); arg_ "s" (named "Point")] None)].
Definition c_types : Config := with_defines [("unix", "UNIX")] (with_run (RunC false Type_) (deps_config [])).
Example C46_example_c : run_items (H := ascii_heck) c_types constant_items = c_headed
  ["/**"; " * how many"; " */"; "#define N 4"; ""; "#if defined(UNIX)"; "#define mask -((int64_t)N + 1)"; "#endif"; ""; "#define Level_MAX 9"; "";
   "typedef enum {"; "  Low,"; "} Level;"; "";
   "typedef struct {"; "  int32_t x;"; "} Point;"; "#define Point_LIMIT -7"; "#define Point_ORIGIN (Point){ .x = 0 }"; "";
   "void go(Level l, Point s);"].
Proof. vm_compute. reflexivity. Qed.
Definition cxx_headed (l : list string) : option string :=
  Some (written (["#include <cstdarg>"; "#include <cstdint>"; "#include <cstdlib>"; "#include <ostream>"; "#include <new>"; ""] ++ l)%list).
Definition in_cxx_defines : Config := with_defines [("unix", "UNIX")] (with_run RunCxx (deps_config [])).
Example C46_example_cxx : run_items (H := ascii_heck) in_cxx_defines constant_items = cxx_headed
  ["/// how many"; "constexpr static const uint32_t N = 4;"; ""; "#if defined(UNIX)"; "constexpr static const int64_t mask = -((int64_t)N + 1);"; "#endif"; "";
   "constexpr static const uint8_t Level_MAX = 9;"; "";
   "enum class Level {"; "  Low,"; "};"; "";
   "struct Point {"; "  int32_t x;"; "};"; "constexpr static const int32_t Point_LIMIT = -7;"; "constexpr static const Point Point_ORIGIN = Point{"; "  /* .x = */ 0"; "};"; "";
   "extern ""C"" {"; ""; "void go(Level l, Point s);"; ""; "}  // extern ""C"""].
Proof. vm_compute. reflexivity. Qed.
(** The value of [mask] meets the hypotheses; it is -5. *)
Definition n_of_rust (x : string) : option (rtype * Z) := if String.eqb x "N" then Some (u32, 4%Z) else None.
Example C46_example_meets :
  S_Value.rust_value n_of_rust mask = Some (i64, (-5)%Z) /\ kept_in_c c_types n_of_rust n_in_c mask
  /\ writable (fun n => value_word standard (export_rename (export c_types) n) = true) mask
  /\ constants_known c_types n_of_rust n_in_c
  /\ proper_attributes c_types = true /\ proper_attributes in_cxx_defines = true
  /\ (forall k m, In (k, m) (defines c_types) -> macro_name false m = true)
  /\ Forall (fun a => S_Lex.is_ident a = true /\ S_Value.named_type a = None) (pointer_words (dialect_of c_types)).
Proof.
  split; [vm_compute; reflexivity|]. split; [|split; [|split; [|repeat split; try reflexivity]]].
  - split; [cbn [fits divides lit mask]; unfold both_fit; repeat split; try reflexivity; discriminate|]. split; [cbn; auto|]. constructor; [intro; reflexivity|constructor].
  - cbn [writable lit mask]. repeat split; reflexivity.
  - intros x t v E. unfold n_of_rust in E. destruct (String.eqb_spec x "N") as [->|]; [|discriminate]. injection E as <- <-.
    split; [vm_compute; repeat split; discriminate|]. exists int. reflexivity.
  - intros k m [E|[]]. injection E as <- <-. reflexivity.
  - constructor.
Qed.

(** ** Where the property fails *)
(** Types in constants are not prepared like those of other declarations: an
    instance of a generic type is written with angle brackets in C, and with tag
    style the keyword of an enum or struct is missing. *)
Definition null_at (t : sty) : sitem := ItemConst [] true "P" (SPtr false t) (XCast (syntax (lit 0)) (SPtr false t)).
Theorem C46_types_refuted : 
  run_items (H := ascii_heck) c_types [ItemStruct [repr_c_] "Foo" [SGType "T" None] (FieldsNamed [fld_ "x" "T"]); null_at (of_ "Foo" (named "u8"))]
    = c_headed ["#define P (const Foo<uint8_t>*)0"]
  /\ run_items (H := ascii_heck) c_tags [ItemEnum [repr_c_] "Level" [] [variant_ [] "Low" FieldsUnit None]; null_at (named "Level"); ItemFn [no_mangle] true (sig_ "go" [arg_ "l" (named "Level")] None)]
    = c_headed ["enum Level {"; "  Low,"; "};"; ""; "#define P (const Level*)0"; ""; "void go(enum Level l);"]
  /\ run_items (H := ascii_heck) c_tags [ItemStruct [repr_c_] "Point" [] (FieldsNamed [fld_ "x" "i32"]);
       ItemConst [] true "O" (named "Point") (XStruct (SegPath [] "Point" NoArgs) [([], Named "x", syntax (lit 0))] None); ItemFn [no_mangle] true (sig_ "go" [arg_ "p" (named "Point")] None)]
    = c_headed ["struct Point {"; "  int32_t x;"; "};"; ""; "#define O (Point){ .x = 0 }"; ""; "void go(struct Point p);"].
Proof. repeat split; vm_compute; reflexivity. Qed.
Print Assumptions C46_types_refuted.
(** A constant that is a pointer to constant data can be assigned to in C++: it
    is declared without the [const] of the other constants. *)
Theorem C46_pointer_refuted :
  run_items (H := ascii_heck) in_cxx_defines [null_at (named "u8")] = cxx_headed ["static const uint8_t *P = (const uint8_t*)0;"].
Proof. vm_compute. reflexivity. Qed.
Print Assumptions C46_pointer_refuted.
