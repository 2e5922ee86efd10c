(** Further boundaries of earlier properties, on whole files. *)
Require Import Coq.Strings.String Coq.Strings.Ascii Coq.Lists.List Coq.Bool.Bool Coq.NArith.NArith.
From Verif Require Import Base M_Config M_Type M_Attr M_Syn M_Loader M_Parser M_Settings S_Heck.
From Verif Require T_Parse T_Signature T_Datatypes T_Enums T_Marks T_Method T_Rename.
Import ListNotations.
Open Scope string_scope.

Definition settings (l : list (string * toml)) : toml := TmTable (("no_includes", TmBoolean true) :: l).

(** C02 is about the keywords of C and C++.  In a Cython file the keywords of
    Python and Cython are left as they are. *)
Theorem C02_cython_refuted : T_Marks.with_settings (H := ascii_heck) (settings [("language", TmString "Cython")])
  [ItemStruct [T_Parse.repr_c_] "Foo" [] (FieldsNamed [T_Parse.fld_ "class" "u8"; T_Parse.fld_ "def" "u8"; T_Parse.fld_ "cdef" "u8"]);
   T_Rename.takes [T_Signature.arg_ "from" (T_Parse.named "Foo"); T_Signature.arg_ "lambda" (T_Parse.named "u8")]]
  = Some (T_Method.printed [""; "cdef extern from *:"; ""; "  cdef struct Foo:"; "    uint8_t class_;"; "    uint8_t def;"; "    uint8_t cdef;"; "";
                            "  void go(Foo from, uint8_t lambda);"]).
Proof. vm_compute. reflexivity. Qed.
Print Assumptions C02_cython_refuted.

(** C45: a variant whose only field has no size becomes a struct without
    members, which is not C. *)
Theorem C45_empty_struct_refuted : T_Marks.with_settings (H := ascii_heck) (settings [("language", TmString "C"); ("style", TmString "tag")])
  [ItemEnum [T_Parse.repr_c_] "A" []
     [T_Enums.variant_ [] "V" (FieldsUnnamed [T_Datatypes.bare (T_Signature.of_ "PhantomData" (T_Parse.named "u8"))]) None;
      T_Enums.variant_ [] "W" (FieldsUnnamed [T_Datatypes.bare (T_Parse.named "u8")]) None];
   T_Rename.takes [T_Signature.arg_ "a" (T_Parse.named "A")]]
  = Some (T_Method.printed ["enum A_Tag {"; "  V,"; "  W,"; "};"; ""; "struct A {"; "  enum A_Tag tag;"; "  union {"; "    struct {"; ""; "    };";
                            "    struct {"; "      uint8_t w;"; "    };"; "  };"; "};"; ""; "void go(struct A a);"]).
Proof. vm_compute. reflexivity. Qed.
Print Assumptions C45_empty_struct_refuted.

(** C49: the line with the version is a comment in C, but not in Cython. *)
Theorem C49_cython_version_refuted : T_Marks.with_settings (H := ascii_heck) (settings [("language", TmString "Cython"); ("include_version", TmBoolean true)])
  [T_Rename.takes [T_Signature.arg_ "a" (T_Parse.named "u8")]]
  = Some (T_Method.printed ["/* Generated with cbindgen:0.29.4 */"; ""; "cdef extern from *:"; ""; "  void go(uint8_t a);"]).
Proof. vm_compute. reflexivity. Qed.
Print Assumptions C49_cython_version_refuted.

(** C46: in the value of a constant, names of other constants keep their [r#];
    the constants themselves lose it.  A constant of a type with such a name is
    not found, and the one that uses it is left out. *)
Theorem C46_raw_names_refuted :
  T_Marks.with_settings (H := ascii_heck) (settings [("language", TmString "C")])
    [ItemConst [] true "r#loop" (T_Parse.named "u32") (XLit (LitInt 3 "")); ItemConst [] true "A" (T_Parse.named "u32") (XPath (SegPath [] "r#loop" NoArgs))]
  = Some (T_Method.printed ["#define loop 3"; ""; "#define A r#loop"])
  /\ T_Marks.with_settings (H := ascii_heck) (settings [("language", TmString "C")])
    [ItemEnum [T_Parse.repr_c_] "r#move" [] [T_Enums.variant_ [] "Up" FieldsUnit None];
     ItemImpl [] (T_Parse.named "r#move") [ImplConst [] true "K" (T_Parse.named "u8") (XLit (LitInt 4 ""))];
     ItemConst [] true "A" (T_Parse.named "u8") (XPath (SegPath ["r#move"] "K" NoArgs))]
  = Some (T_Method.printed [""; ""; "#define move_K 4"]).
Proof. split; vm_compute; reflexivity. Qed.
Print Assumptions C46_raw_names_refuted.

(** C43: a function that takes an array is left out, since C has no such
    functions.  In the types of function pointers arrays are written: an
    argument is then a pointer in C, and a result is an error. *)
Definition four_bytes : sty := SArray (T_Parse.named "u8") (XLit (LitInt 4 "")).
Theorem C43_pointer_arrays_refuted :
  T_Marks.with_settings (H := ascii_heck) (settings [("language", TmString "C")]) [T_Rename.takes [T_Signature.arg_ "a" four_bytes]] = Some ""
  /\ T_Marks.with_settings (H := ascii_heck) (settings [("language", TmString "C")])
    [T_Rename.takes [T_Signature.arg_ "f" (SFnPtr [(None, four_bytes)] false None); T_Signature.arg_ "g" (SFnPtr [(Some "x", T_Parse.named "u8")] false (Some four_bytes))]]
  = Some (T_Method.printed ["void go(void (*f)(uint8_t[4]), uint8_t ((*g)(uint8_t x))[4]);"]).
Proof. split; vm_compute; reflexivity. Qed.
Print Assumptions C43_pointer_arrays_refuted.

(** The same for arrays behind an alias, a transparent struct or a wrapper: the
    function is declared and C takes the argument for a pointer, while Rust expects
    the four bytes; and no C function returns an array. *)
Definition passes (ty : sty) : sitem := ItemFn [T_Parse.no_mangle] true (T_Parse.sig_ "go" [T_Signature.arg_ "a" ty] None).
Theorem C43_hidden_arrays_refuted :
  let shown l := T_Marks.with_settings (H := ascii_heck) (settings [("language", TmString "C")]) l in
  shown [ItemType [] "Four" [] four_bytes; passes (T_Parse.named "Four")] = Some (T_Method.printed ["typedef uint8_t Four[4];"; ""; "void go(Four a);"])
  /\ shown [ItemStruct [T_Datatypes.transparent_] "Four" [] (FieldsUnnamed [T_Datatypes.bare four_bytes]); passes (T_Parse.named "Four")]
     = Some (T_Method.printed ["typedef uint8_t Four[4];"; ""; "void go(Four a);"])
  /\ shown [passes (T_Signature.of_ "ManuallyDrop" four_bytes)] = Some (T_Method.printed ["void go(uint8_t a[4]);"])
  /\ shown [ItemFn [T_Parse.no_mangle] true (T_Parse.sig_ "go" [] (Some four_bytes))] = Some (T_Method.printed ["uint8_t (go(void))[4];"]).
Proof. repeat split; vm_compute; reflexivity. Qed.
Print Assumptions C43_hidden_arrays_refuted.

(** C09 is about types.  Constants come in the order of the sources, which in
    Rust need not be that of their use: as C++ objects they are then used before
    they are declared. *)
Theorem C09_constants_refuted : T_Marks.with_settings (H := ascii_heck) (settings [("language", TmString "C++")])
  [ItemConst [] true "A" (T_Parse.named "u32") (XPath (SegPath [] "Z" NoArgs)); ItemConst [] true "Z" (T_Parse.named "u32") (XLit (LitInt 3 ""))]
  = Some (T_Method.printed ["constexpr static const uint32_t A = Z;"; ""; "constexpr static const uint32_t Z = 3;"]).
Proof. vm_compute. reflexivity. Qed.
Print Assumptions C09_constants_refuted.

(** C24: a constant that is a union is left out although the union is declared. *)
Theorem C24_union_refuted : T_Marks.with_settings (H := ascii_heck) (settings [("language", TmString "C")])
  [ItemUnion [T_Parse.repr_c_] "U" [] [T_Parse.fld_ "a" "u8"; T_Parse.fld_ "b" "u32"];
   ItemConst [] true "K" (T_Parse.named "U") (XStruct (SegPath [] "U" NoArgs) [([], Named "b", XLit (LitInt 7 ""))] None);
   T_Rename.takes [T_Signature.arg_ "u" (T_Parse.named "U")]]
  = Some (T_Method.printed ["typedef union U {"; "  uint8_t a;"; "  uint32_t b;"; "} U;"; ""; ""; ""; "void go(union U u);"]).
Proof. vm_compute. reflexivity. Qed.
Print Assumptions C24_union_refuted.

(** C43, C44: the name of an argument, or in C++ of a field, can be that of a
    type used after it, which it then hides. *)
Theorem C43_hidden_type_refuted :
  T_Marks.with_settings (H := ascii_heck) (settings [("language", TmString "C")])
    [T_Rename.takes [T_Signature.arg_ "uint8_t" (T_Parse.named "u8"); T_Signature.arg_ "b" (T_Parse.named "u8")]]
  = Some (T_Method.printed ["void go(uint8_t uint8_t, uint8_t b);"])
  /\ T_Marks.with_settings (H := ascii_heck) (settings [("language", TmString "C"); ("style", TmString "type")])
    [ItemStruct [T_Parse.repr_c_] "Foo" [] (FieldsNamed [T_Parse.fld_ "x" "u8"]);
     T_Rename.takes [T_Signature.arg_ "Foo" (T_Parse.named "Foo"); T_Signature.arg_ "b" (T_Parse.named "Foo")]]
  = Some (T_Method.printed ["typedef struct {"; "  uint8_t x;"; "} Foo;"; ""; "void go(Foo Foo, Foo b);"]).
Proof. split; vm_compute; reflexivity. Qed.
Print Assumptions C43_hidden_type_refuted.
Theorem C44_hidden_type_refuted : T_Marks.with_settings (H := ascii_heck) (settings [("language", TmString "C++")])
  [ItemStruct [T_Parse.repr_c_] "Foo" [] (FieldsNamed [T_Parse.fld_ "uint8_t" "u8"; T_Parse.fld_ "y" "u8"]); T_Rename.takes [T_Signature.arg_ "b" (T_Parse.named "Foo")]]
  = Some (T_Method.printed ["struct Foo {"; "  uint8_t uint8_t;"; "  uint8_t y;"; "};"; ""; "extern ""C"" {"; ""; "void go(Foo b);"; ""; "}  // extern ""C"""]).
Proof. vm_compute. reflexivity. Qed.
Print Assumptions C44_hidden_type_refuted.

(** C44: a struct without fields is declared without members, which is not C. *)
Theorem C44_empty_refuted : T_Marks.with_settings (H := ascii_heck) (settings [("language", TmString "C")])
  [ItemStruct [T_Parse.repr_c_] "Foo" [] (FieldsNamed []); T_Rename.takes [T_Signature.arg_ "b" (T_Parse.named "Foo")]]
  = Some (T_Method.printed ["typedef struct Foo {"; ""; "} Foo;"; ""; "void go(struct Foo b);"]).
Proof. vm_compute. reflexivity. Qed.
Print Assumptions C44_empty_refuted.

(** C43: a type that is not known is written by its name, though nothing declares
    it.  A reference to [str] becomes one pointer; in Rust it is two words. *)
Theorem C43_undeclared_refuted : T_Marks.with_settings (H := ascii_heck) (settings [("language", TmString "C")])
  [T_Rename.takes [T_Signature.arg_ "a" (T_Parse.named "u128"); T_Signature.arg_ "b" (SRef false (T_Parse.named "str"))]]
  = Some (T_Method.printed ["void go(u128 a, const str *b);"]).
Proof. vm_compute. reflexivity. Qed.
Print Assumptions C43_undeclared_refuted.
