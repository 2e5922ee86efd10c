(** See S_Suite.v; generated. *)
Require Import Coq.Strings.String Coq.Strings.Ascii Coq.Lists.List Coq.Bool.Bool Coq.NArith.NArith.
From Verif Require Import Base M_Config M_Cfg M_Type M_Ir M_Item M_Attr M_Syn M_Library M_Loader M_Parser M_Bindings M_Backend S_Heck S_Suite.
Import ListNotations.
Open Scope string_scope.

(** ** tests/rust/documentation_block.rs *)
Definition documentation_block_rs : list sitem := [
  (ItemFn [{| at_meta := ANameValue (Some "doc") (Some "
The root of all evil.

But at least it contains some more documentation as someone would expect
from a simple test case like this.

# Hint
Always ensure that everything is properly documented, even if you feel lazy.
**Sometimes** it is also helpful to include some markdown formatting.

////////////////////////////////////////////////////////////////////////////

Attention:

   This is an indentation test.
   The indentation should be preserved in the generated documentation.

...and here is my shopping list to check that we do not mess with line breaks and indentation:
- Bread
   - Brown
   - White
- Milk
- Eggs
");
  at_outer := true |}; {| at_meta := (APath (Some "no_mangle")); at_outer := true |}] true {| sg_ident := "root"; sg_abi := (Some
  (Some "C")); sg_inputs := []; sg_variadic := false; sg_output := None |});
  (ItemStatic [{| at_meta := ANameValue (Some "doc") (Some "
Some docs.
"); at_outer := true |}; {| at_meta := (APath (Some "no_mangle"));
  at_outer := true |}] "FOO" false (SPath (SegPath [] "u32" NoArgs)));
  (ItemMod [] "abc" (Some [(ItemFn [{| at_meta := ANameValue (Some "doc") (Some "
    In this block, we're testing indentation handling.
    Since all of these lines are equally indented, we want to discard the common leading whitespace,
       but preserve the relative indentation and line breaks.

       Including between paragraphs,

    - And
      - within
      - Lists
    ");
  at_outer := true |}; {| at_meta := (APath (Some "no_mangle")); at_outer := true |}] true {| sg_ident := "block_function"; sg_abi
  := (Some (Some "C")); sg_inputs := []; sg_variadic := false; sg_output := None |})]))].
(** tests/expectations/documentation_block.compat.c *)
Definition documentation_block_compat : string := "#include <stdarg.h>
#include <stdbool.h>
#include <stdint.h>
#include <stdlib.h>

#ifdef __cplusplus
extern ""C"" {
#endif // __cplusplus

/**
 * Some docs.
 */
extern const uint32_t FOO;

/**
 * The root of all evil.
 *
 * But at least it contains some more documentation as someone would expect
 * from a simple test case like this.
 *
 * # Hint
 * Always ensure that everything is properly documented, even if you feel lazy.
 * **Sometimes** it is also helpful to include some markdown formatting.
 *
 * ////////////////////////////////////////////////////////////////////////////
 *
 * Attention:
 *
 *    This is an indentation test.
 *    The indentation should be preserved in the generated documentation.
 *
 * ...and here is my shopping list to check that we do not mess with line breaks and indentation:
 * - Bread
 *    - Brown
 *    - White
 * - Milk
 * - Eggs
 */
void root(void);

/**
 * In this block, we're testing indentation handling.
 * Since all of these lines are equally indented, we want to discard the common leading whitespace,
 *    but preserve the relative indentation and line breaks.
 *
 *    Including between paragraphs,
 *
 * - And
 *   - within
 *   - Lists
 */
void block_function(void);

#ifdef __cplusplus
}  // extern ""C""
#endif  // __cplusplus
".
(** tests/expectations/documentation_block.c *)
Definition documentation_block_c : string := "#include <stdarg.h>
#include <stdbool.h>
#include <stdint.h>
#include <stdlib.h>

/**
 * Some docs.
 */
extern const uint32_t FOO;

/**
 * The root of all evil.
 *
 * But at least it contains some more documentation as someone would expect
 * from a simple test case like this.
 *
 * # Hint
 * Always ensure that everything is properly documented, even if you feel lazy.
 * **Sometimes** it is also helpful to include some markdown formatting.
 *
 * ////////////////////////////////////////////////////////////////////////////
 *
 * Attention:
 *
 *    This is an indentation test.
 *    The indentation should be preserved in the generated documentation.
 *
 * ...and here is my shopping list to check that we do not mess with line breaks and indentation:
 * - Bread
 *    - Brown
 *    - White
 * - Milk
 * - Eggs
 */
void root(void);

/**
 * In this block, we're testing indentation handling.
 * Since all of these lines are equally indented, we want to discard the common leading whitespace,
 *    but preserve the relative indentation and line breaks.
 *
 *    Including between paragraphs,
 *
 * - And
 *   - within
 *   - Lists
 */
void block_function(void);
".
(** tests/expectations/documentation_block.cpp *)
Definition documentation_block_cpp : string := "#include <cstdarg>
#include <cstdint>
#include <cstdlib>
#include <ostream>
#include <new>

extern ""C"" {

/// Some docs.
extern const uint32_t FOO;

/// The root of all evil.
///
/// But at least it contains some more documentation as someone would expect
/// from a simple test case like this.
///
/// # Hint
/// Always ensure that everything is properly documented, even if you feel lazy.
/// **Sometimes** it is also helpful to include some markdown formatting.
///
/// ////////////////////////////////////////////////////////////////////////////
///
/// Attention:
///
///    This is an indentation test.
///    The indentation should be preserved in the generated documentation.
///
/// ...and here is my shopping list to check that we do not mess with line breaks and indentation:
/// - Bread
///    - Brown
///    - White
/// - Milk
/// - Eggs
void root();

/// In this block, we're testing indentation handling.
/// Since all of these lines are equally indented, we want to discard the common leading whitespace,
///    but preserve the relative indentation and line breaks.
///
///    Including between paragraphs,
///
/// - And
///   - within
///   - Lists
void block_function();

}  // extern ""C""
".
(** tests/expectations/documentation_block.pyx *)
Definition documentation_block_pyx : string := "from libc.stdint cimport int8_t, int16_t, int32_t, int64_t, intptr_t
from libc.stdint cimport uint8_t, uint16_t, uint32_t, uint64_t, uintptr_t
cdef extern from *:
  ctypedef bint bool
  ctypedef struct va_list

cdef extern from *:

  # Some docs.
  extern const uint32_t FOO;

  # The root of all evil.
  #
  # But at least it contains some more documentation as someone would expect
  # from a simple test case like this.
  #
  # # Hint
  # Always ensure that everything is properly documented, even if you feel lazy.
  # **Sometimes** it is also helpful to include some markdown formatting.
  #
  # ////////////////////////////////////////////////////////////////////////////
  #
  # Attention:
  #
  #    This is an indentation test.
  #    The indentation should be preserved in the generated documentation.
  #
  # ...and here is my shopping list to check that we do not mess with line breaks and indentation:
  # - Bread
  #    - Brown
  #    - White
  # - Milk
  # - Eggs
  void root();

  # In this block, we're testing indentation handling.
  # Since all of these lines are equally indented, we want to discard the common leading whitespace,
  #    but preserve the relative indentation and line breaks.
  #
  #    Including between paragraphs,
  #
  # - And
  #   - within
  #   - Lists
  void block_function();
".
Example documentation_block_reproduced : reproduces (in_file documentation_block_rs) false default_config (Some "{
root;
block_function;
FOO;
};")
  [(RunC true Type_, [documentation_block_compat]);
   (RunC true Tag, [documentation_block_compat]);
   (RunC true Both, [documentation_block_compat]);
   (RunC false Type_, [documentation_block_c]);
   (RunC false Tag, [documentation_block_compat; documentation_block_c]);
   (RunC false Both, [documentation_block_compat; documentation_block_c]);
   (RunCxx, [documentation_block_cpp]);
   (RunCython Type_, [documentation_block_pyx]);
   (RunCython Tag, [documentation_block_pyx])] = true.
Proof. vm_compute. reflexivity. Qed.

(** ** tests/rust/duplicated_constants.rs *)
Definition duplicated_constants_rs : list sitem := [
  (ItemStruct [{| at_meta := (AList (Some "repr") [(APath (Some "C"))]); at_outer := true |}] "Foo" [] (FieldsNamed [{| sf_attrs :=
  []; sf_ident := (Some "field"); sf_ty := (SPath (SegPath [] "u32" NoArgs)) |}]));
  (ItemImpl [] (SPath (SegPath [] "Foo" NoArgs)) [(ImplConst [] true "FIELD_RELATED_CONSTANT" (SPath (SegPath [] "u32" NoArgs)) (XLit
  (LitInt 0 "")))]);
  (ItemStruct [{| at_meta := (AList (Some "repr") [(APath (Some "C"))]); at_outer := true |}] "Bar" [] (FieldsNamed [{| sf_attrs :=
  []; sf_ident := (Some "field"); sf_ty := (SPath (SegPath [] "u32" NoArgs)) |}]));
  (ItemImpl [] (SPath (SegPath [] "Bar" NoArgs)) [(ImplConst [] true "FIELD_RELATED_CONSTANT" (SPath (SegPath [] "u32" NoArgs)) (XLit
  (LitInt 0 "")))]);
  (ItemFn [{| at_meta := (APath (Some "no_mangle")); at_outer := true |}] true {| sg_ident := "root"; sg_abi := (Some (Some "C")); sg_inputs
  := [(FnTyped (PatIdent "a") (SPath (SegPath [] "Foo" NoArgs))); (FnTyped (PatIdent "b") (SPath (SegPath [] "Bar" NoArgs)))]; sg_variadic
  := false; sg_output := None |})].
(** tests/expectations/duplicated_constants.compat.c *)
Definition duplicated_constants_compat : string := "#include <stdarg.h>
#include <stdbool.h>
#include <stdint.h>
#include <stdlib.h>

typedef struct {
  uint32_t field;
} Foo;
#define Foo_FIELD_RELATED_CONSTANT 0

typedef struct {
  uint32_t field;
} Bar;
#define Bar_FIELD_RELATED_CONSTANT 0

#ifdef __cplusplus
extern ""C"" {
#endif // __cplusplus

void root(Foo a, Bar b);

#ifdef __cplusplus
}  // extern ""C""
#endif  // __cplusplus
".
(** tests/expectations/duplicated_constants_tag.compat.c *)
Definition duplicated_constants_compat_tag : string := "#include <stdarg.h>
#include <stdbool.h>
#include <stdint.h>
#include <stdlib.h>

struct Foo {
  uint32_t field;
};
#define Foo_FIELD_RELATED_CONSTANT 0

struct Bar {
  uint32_t field;
};
#define Bar_FIELD_RELATED_CONSTANT 0

#ifdef __cplusplus
extern ""C"" {
#endif // __cplusplus

void root(struct Foo a, struct Bar b);

#ifdef __cplusplus
}  // extern ""C""
#endif  // __cplusplus
".
(** tests/expectations/duplicated_constants_both.compat.c *)
Definition duplicated_constants_compat_both : string := "#include <stdarg.h>
#include <stdbool.h>
#include <stdint.h>
#include <stdlib.h>

typedef struct Foo {
  uint32_t field;
} Foo;
#define Foo_FIELD_RELATED_CONSTANT 0

typedef struct Bar {
  uint32_t field;
} Bar;
#define Bar_FIELD_RELATED_CONSTANT 0

#ifdef __cplusplus
extern ""C"" {
#endif // __cplusplus

void root(struct Foo a, struct Bar b);

#ifdef __cplusplus
}  // extern ""C""
#endif  // __cplusplus
".
(** tests/expectations/duplicated_constants.c *)
Definition duplicated_constants_c : string := "#include <stdarg.h>
#include <stdbool.h>
#include <stdint.h>
#include <stdlib.h>

typedef struct {
  uint32_t field;
} Foo;
#define Foo_FIELD_RELATED_CONSTANT 0

typedef struct {
  uint32_t field;
} Bar;
#define Bar_FIELD_RELATED_CONSTANT 0

void root(Foo a, Bar b);
".
(** tests/expectations/duplicated_constants_tag.c *)
Definition duplicated_constants_c_tag : string := "#include <stdarg.h>
#include <stdbool.h>
#include <stdint.h>
#include <stdlib.h>

struct Foo {
  uint32_t field;
};
#define Foo_FIELD_RELATED_CONSTANT 0

struct Bar {
  uint32_t field;
};
#define Bar_FIELD_RELATED_CONSTANT 0

void root(struct Foo a, struct Bar b);
".
(** tests/expectations/duplicated_constants_both.c *)
Definition duplicated_constants_c_both : string := "#include <stdarg.h>
#include <stdbool.h>
#include <stdint.h>
#include <stdlib.h>

typedef struct Foo {
  uint32_t field;
} Foo;
#define Foo_FIELD_RELATED_CONSTANT 0

typedef struct Bar {
  uint32_t field;
} Bar;
#define Bar_FIELD_RELATED_CONSTANT 0

void root(struct Foo a, struct Bar b);
".
(** tests/expectations/duplicated_constants.cpp *)
Definition duplicated_constants_cpp : string := "#include <cstdarg>
#include <cstdint>
#include <cstdlib>
#include <ostream>
#include <new>

struct Foo {
  uint32_t field;
};
constexpr static const uint32_t Foo_FIELD_RELATED_CONSTANT = 0;

struct Bar {
  uint32_t field;
};
constexpr static const uint32_t Bar_FIELD_RELATED_CONSTANT = 0;

extern ""C"" {

void root(Foo a, Bar b);

}  // extern ""C""
".
(** tests/expectations/duplicated_constants.pyx *)
Definition duplicated_constants_pyx : string := "from libc.stdint cimport int8_t, int16_t, int32_t, int64_t, intptr_t
from libc.stdint cimport uint8_t, uint16_t, uint32_t, uint64_t, uintptr_t
cdef extern from *:
  ctypedef bint bool
  ctypedef struct va_list

cdef extern from *:

  ctypedef struct Foo:
    uint32_t field;
  const uint32_t Foo_FIELD_RELATED_CONSTANT # = 0

  ctypedef struct Bar:
    uint32_t field;
  const uint32_t Bar_FIELD_RELATED_CONSTANT # = 0

  void root(Foo a, Bar b);
".
(** tests/expectations/duplicated_constants_tag.pyx *)
Definition duplicated_constants_pyx_tag : string := "from libc.stdint cimport int8_t, int16_t, int32_t, int64_t, intptr_t
from libc.stdint cimport uint8_t, uint16_t, uint32_t, uint64_t, uintptr_t
cdef extern from *:
  ctypedef bint bool
  ctypedef struct va_list

cdef extern from *:

  cdef struct Foo:
    uint32_t field;
  const uint32_t Foo_FIELD_RELATED_CONSTANT # = 0

  cdef struct Bar:
    uint32_t field;
  const uint32_t Bar_FIELD_RELATED_CONSTANT # = 0

  void root(Foo a, Bar b);
".
Example duplicated_constants_reproduced : reproduces (in_file duplicated_constants_rs) false default_config (Some "{
root;
};")
  [(RunC true Type_, [duplicated_constants_compat]);
   (RunC true Tag, [duplicated_constants_compat_tag]);
   (RunC true Both, [duplicated_constants_compat_both]);
   (RunC false Type_, [duplicated_constants_c]);
   (RunC false Tag, [duplicated_constants_c_tag]);
   (RunC false Both, [duplicated_constants_c_both]);
   (RunCxx, [duplicated_constants_cpp]);
   (RunCython Type_, [duplicated_constants_pyx]);
   (RunCython Tag, [duplicated_constants_pyx_tag])] = true.
Proof. vm_compute. reflexivity. Qed.

(** ** tests/rust/enum.rs *)
Definition enum_rs : list sitem := [
  (ItemEnum [] "Opaque" [] [{| sv_attrs := []; sv_ident := "Foo"; sv_fields := (FieldsUnnamed [{| sf_attrs := []; sf_ident := None;
  sf_ty := (SPath (SegPath [] "i32" NoArgs)) |}]); sv_discriminant := None |}; {| sv_attrs := []; sv_ident := "Bar"; sv_fields :=
  FieldsUnit; sv_discriminant := None |}]);
  (ItemEnum [{| at_meta := (AList (Some "repr") [(APath (Some "u64"))]); at_outer := true |}] "A" [] [{| sv_attrs := []; sv_ident :=
  "a1"; sv_fields := FieldsUnit; sv_discriminant := (Some (XLit (LitInt 0 ""))) |}; {| sv_attrs := []; sv_ident := "a2"; sv_fields
  := FieldsUnit; sv_discriminant := (Some (XLit (LitInt 2 ""))) |}; {| sv_attrs := []; sv_ident := "a3"; sv_fields := FieldsUnit;
  sv_discriminant := None |}; {| sv_attrs := []; sv_ident := "a4"; sv_fields := FieldsUnit; sv_discriminant := (Some (XLit (LitInt
  5 ""))) |}]);
  (ItemEnum [{| at_meta := (AList (Some "repr") [(APath (Some "u32"))]); at_outer := true |}] "B" [] [{| sv_attrs := []; sv_ident :=
  "b1"; sv_fields := FieldsUnit; sv_discriminant := (Some (XLit (LitInt 0 ""))) |}; {| sv_attrs := []; sv_ident := "b2"; sv_fields
  := FieldsUnit; sv_discriminant := (Some (XLit (LitInt 2 ""))) |}; {| sv_attrs := []; sv_ident := "b3"; sv_fields := FieldsUnit;
  sv_discriminant := None |}; {| sv_attrs := []; sv_ident := "b4"; sv_fields := FieldsUnit; sv_discriminant := (Some (XLit (LitInt
  5 ""))) |}]);
  (ItemEnum [{| at_meta := (AList (Some "repr") [(APath (Some "u16"))]); at_outer := true |}] "C" [] [{| sv_attrs := []; sv_ident :=
  "c1"; sv_fields := FieldsUnit; sv_discriminant := (Some (XLit (LitInt 0 ""))) |}; {| sv_attrs := []; sv_ident := "c2"; sv_fields
  := FieldsUnit; sv_discriminant := (Some (XLit (LitInt 2 ""))) |}; {| sv_attrs := []; sv_ident := "c3"; sv_fields := FieldsUnit;
  sv_discriminant := None |}; {| sv_attrs := []; sv_ident := "c4"; sv_fields := FieldsUnit; sv_discriminant := (Some (XLit (LitInt
  5 ""))) |}]);
  (ItemEnum [{| at_meta := (AList (Some "repr") [(APath (Some "u8"))]); at_outer := true |}] "D" [] [{| sv_attrs := []; sv_ident :=
  "d1"; sv_fields := FieldsUnit; sv_discriminant := (Some (XLit (LitInt 0 ""))) |}; {| sv_attrs := []; sv_ident := "d2"; sv_fields
  := FieldsUnit; sv_discriminant := (Some (XLit (LitInt 2 ""))) |}; {| sv_attrs := []; sv_ident := "d3"; sv_fields := FieldsUnit;
  sv_discriminant := None |}; {| sv_attrs := []; sv_ident := "d4"; sv_fields := FieldsUnit; sv_discriminant := (Some (XLit (LitInt
  5 ""))) |}]);
  (ItemEnum [{| at_meta := (AList (Some "repr") [(APath (Some "usize"))]); at_outer := true |}] "E" [] [{| sv_attrs := []; sv_ident
  := "e1"; sv_fields := FieldsUnit; sv_discriminant := (Some (XLit (LitInt 0 ""))) |}; {| sv_attrs := []; sv_ident := "e2"; sv_fields
  := FieldsUnit; sv_discriminant := (Some (XLit (LitInt 2 ""))) |}; {| sv_attrs := []; sv_ident := "e3"; sv_fields := FieldsUnit;
  sv_discriminant := None |}; {| sv_attrs := []; sv_ident := "e4"; sv_fields := FieldsUnit; sv_discriminant := (Some (XLit (LitInt
  5 ""))) |}]);
  (ItemEnum [{| at_meta := (AList (Some "repr") [(APath (Some "isize"))]); at_outer := true |}] "F" [] [{| sv_attrs := []; sv_ident
  := "f1"; sv_fields := FieldsUnit; sv_discriminant := (Some (XLit (LitInt 0 ""))) |}; {| sv_attrs := []; sv_ident := "f2"; sv_fields
  := FieldsUnit; sv_discriminant := (Some (XLit (LitInt 2 ""))) |}; {| sv_attrs := []; sv_ident := "f3"; sv_fields := FieldsUnit;
  sv_discriminant := None |}; {| sv_attrs := []; sv_ident := "f4"; sv_fields := FieldsUnit; sv_discriminant := (Some (XLit (LitInt
  5 ""))) |}]);
  (ItemEnum [{| at_meta := (AList (Some "repr") [(APath (Some "u8"))]); at_outer := true |}] "G" [] [{| sv_attrs := []; sv_ident :=
  "Foo"; sv_fields := (FieldsUnnamed [{| sf_attrs := []; sf_ident := None; sf_ty := (SPath (SegPath [] "i16" NoArgs)) |}]); sv_discriminant
  := None |}; {| sv_attrs := []; sv_ident := "Bar"; sv_fields := (FieldsNamed [{| sf_attrs := []; sf_ident := (Some "x"); sf_ty :=
  (SPath (SegPath [] "u8" NoArgs)) |}; {| sf_attrs := []; sf_ident := (Some "y"); sf_ty := (SPath (SegPath [] "i16" NoArgs)) |}]);
  sv_discriminant := None |}; {| sv_attrs := []; sv_ident := "Baz"; sv_fields := FieldsUnit; sv_discriminant := None |}]);
  (ItemEnum [{| at_meta := ANameValue (Some "doc") (Some " cbindgen:prefix-with-name"); at_outer := true |}; {| at_meta := (AList (Some
  "repr") [(APath (Some "C"))]); at_outer := true |}] "H" [] [{| sv_attrs := []; sv_ident := "Foo"; sv_fields := (FieldsUnnamed [{|
  sf_attrs := []; sf_ident := None; sf_ty := (SPath (SegPath [] "i16" NoArgs)) |}]); sv_discriminant := None |}; {| sv_attrs := [];
  sv_ident := "Bar"; sv_fields := (FieldsNamed [{| sf_attrs := []; sf_ident := (Some "x"); sf_ty := (SPath (SegPath [] "u8" NoArgs))
  |}; {| sf_attrs := []; sf_ident := (Some "y"); sf_ty := (SPath (SegPath [] "i16" NoArgs)) |}]); sv_discriminant := None |}; {| sv_attrs
  := []; sv_ident := "Baz"; sv_fields := FieldsUnit; sv_discriminant := None |}]);
  (ItemEnum [{| at_meta := ANameValue (Some "doc") (Some " cbindgen:prefix-with-name"); at_outer := true |}; {| at_meta := (AList (Some
  "repr") [(APath (Some "C")); (APath (Some "u8"))]); at_outer := true |}] "I" [] [{| sv_attrs := []; sv_ident := "Foo"; sv_fields
  := (FieldsUnnamed [{| sf_attrs := []; sf_ident := None; sf_ty := (SPath (SegPath [] "i16" NoArgs)) |}]); sv_discriminant := None
  |}; {| sv_attrs := []; sv_ident := "Bar"; sv_fields := (FieldsNamed [{| sf_attrs := []; sf_ident := (Some "x"); sf_ty := (SPath
  (SegPath [] "u8" NoArgs)) |}; {| sf_attrs := []; sf_ident := (Some "y"); sf_ty := (SPath (SegPath [] "i16" NoArgs)) |}]); sv_discriminant
  := None |}; {| sv_attrs := []; sv_ident := "Baz"; sv_fields := FieldsUnit; sv_discriminant := None |}]);
  (ItemEnum [{| at_meta := (AList (Some "repr") [(APath (Some "C")); (APath (Some "u8")); (APath (Some "u16"))]); at_outer := true |}]
  "J" [] [{| sv_attrs := []; sv_ident := "Foo"; sv_fields := (FieldsUnnamed [{| sf_attrs := []; sf_ident := None; sf_ty := (SPath
  (SegPath [] "i16" NoArgs)) |}]); sv_discriminant := None |}; {| sv_attrs := []; sv_ident := "Bar"; sv_fields := (FieldsNamed [{|
  sf_attrs := []; sf_ident := (Some "x"); sf_ty := (SPath (SegPath [] "u8" NoArgs)) |}; {| sf_attrs := []; sf_ident := (Some "y");
  sf_ty := (SPath (SegPath [] "i16" NoArgs)) |}]); sv_discriminant := None |}; {| sv_attrs := []; sv_ident := "Baz"; sv_fields :=
  FieldsUnit; sv_discriminant := None |}]);
  (ItemEnum [{| at_meta := (AList (Some "repr") [(APath (Some "C")); (APath (Some "u8")); (APath (Some "unknown_hint"))]); at_outer
  := true |}] "K" [] [{| sv_attrs := []; sv_ident := "Foo"; sv_fields := (FieldsUnnamed [{| sf_attrs := []; sf_ident := None; sf_ty
  := (SPath (SegPath [] "i16" NoArgs)) |}]); sv_discriminant := None |}; {| sv_attrs := []; sv_ident := "Bar"; sv_fields := (FieldsNamed
  [{| sf_attrs := []; sf_ident := (Some "x"); sf_ty := (SPath (SegPath [] "u8" NoArgs)) |}; {| sf_attrs := []; sf_ident := (Some "y");
  sf_ty := (SPath (SegPath [] "i16" NoArgs)) |}]); sv_discriminant := None |}; {| sv_attrs := []; sv_ident := "Baz"; sv_fields :=
  FieldsUnit; sv_discriminant := None |}]);
  (ItemEnum [{| at_meta := (AList (Some "repr") [(APath (Some "C"))]); at_outer := true |}] "L" [] [{| sv_attrs := []; sv_ident := "l1";
  sv_fields := FieldsUnit; sv_discriminant := None |}; {| sv_attrs := []; sv_ident := "l2"; sv_fields := FieldsUnit; sv_discriminant
  := None |}; {| sv_attrs := []; sv_ident := "l3"; sv_fields := FieldsUnit; sv_discriminant := None |}; {| sv_attrs := []; sv_ident
  := "l4"; sv_fields := FieldsUnit; sv_discriminant := None |}]);
  (ItemEnum [{| at_meta := (AList (Some "repr") [(APath (Some "i8"))]); at_outer := true |}] "M" [] [{| sv_attrs := []; sv_ident :=
  "m1"; sv_fields := FieldsUnit; sv_discriminant := (Some (XUnary Neg (XLit (LitInt 1 "")))) |}; {| sv_attrs := []; sv_ident := "m2";
  sv_fields := FieldsUnit; sv_discriminant := (Some (XLit (LitInt 0 ""))) |}; {| sv_attrs := []; sv_ident := "m3"; sv_fields := FieldsUnit;
  sv_discriminant := (Some (XLit (LitInt 1 ""))) |}]);
  (ItemEnum [{| at_meta := ANameValue (Some "doc") (Some " cbindgen:enum-class=false"); at_outer := true |}; {| at_meta := (AList (Some
  "repr") [(APath (Some "C"))]); at_outer := true |}] "N" [] [{| sv_attrs := []; sv_ident := "n1"; sv_fields := FieldsUnit; sv_discriminant
  := None |}; {| sv_attrs := []; sv_ident := "n2"; sv_fields := FieldsUnit; sv_discriminant := None |}; {| sv_attrs := []; sv_ident
  := "n3"; sv_fields := FieldsUnit; sv_discriminant := None |}; {| sv_attrs := []; sv_ident := "n4"; sv_fields := FieldsUnit; sv_discriminant
  := None |}]);
  (ItemEnum [{| at_meta := ANameValue (Some "doc") (Some " cbindgen:enum-class=false"); at_outer := true |}; {| at_meta := (AList (Some
  "repr") [(APath (Some "i8"))]); at_outer := true |}] "O" [] [{| sv_attrs := []; sv_ident := "o1"; sv_fields := FieldsUnit; sv_discriminant
  := None |}; {| sv_attrs := []; sv_ident := "o2"; sv_fields := FieldsUnit; sv_discriminant := None |}; {| sv_attrs := []; sv_ident
  := "o3"; sv_fields := FieldsUnit; sv_discriminant := None |}; {| sv_attrs := []; sv_ident := "o4"; sv_fields := FieldsUnit; sv_discriminant
  := None |}]);
  (ItemEnum [{| at_meta := (AList (Some "repr") [(APath (Some "C")); (APath (Some "u8"))]); at_outer := true |}] "P" [] [{| sv_attrs
  := []; sv_ident := "P0"; sv_fields := (FieldsUnnamed [{| sf_attrs := []; sf_ident := None; sf_ty := (SPath (SegPath [] "u8" NoArgs))
  |}]); sv_discriminant := None |}; {| sv_attrs := []; sv_ident := "P1"; sv_fields := (FieldsUnnamed [{| sf_attrs := []; sf_ident
  := None; sf_ty := (SPath (SegPath [] "u8" NoArgs)) |}; {| sf_attrs := []; sf_ident := None; sf_ty := (SPath (SegPath [] "u8" NoArgs))
  |}; {| sf_attrs := []; sf_ident := None; sf_ty := (SPath (SegPath [] "u8" NoArgs)) |}]); sv_discriminant := None |}]);
  (ItemEnum [{| at_meta := (AList (Some "repr") [(APath (Some "C"))]); at_outer := true |}] "Q" [] [{| sv_attrs := []; sv_ident := "Ok";
  sv_fields := (FieldsUnnamed [{| sf_attrs := []; sf_ident := None; sf_ty := (SPath (SegPath [] "Box" (AngleArgs [(ArgType (SPath
  (SegPath [] "u32" NoArgs)))]))) |}]); sv_discriminant := None |}; {| sv_attrs := []; sv_ident := "Err"; sv_fields := (FieldsUnnamed
  [{| sf_attrs := []; sf_ident := None; sf_ty := (SPath (SegPath [] "u32" NoArgs)) |}]); sv_discriminant := None |}]);
  (ItemEnum [{| at_meta := ANameValue (Some "doc") (Some " cbindgen:rename-variant-name-fields=None"); at_outer := true |}; {| at_meta
  := (AList (Some "repr") [(APath (Some "C"))]); at_outer := true |}] "R" [] [{| sv_attrs := []; sv_ident := "IRFoo"; sv_fields :=
  (FieldsUnnamed [{| sf_attrs := []; sf_ident := None; sf_ty := (SPath (SegPath [] "i16" NoArgs)) |}]); sv_discriminant := None |};
  {| sv_attrs := []; sv_ident := "IRBar"; sv_fields := (FieldsNamed [{| sf_attrs := []; sf_ident := (Some "x"); sf_ty := (SPath (SegPath
  [] "u8" NoArgs)) |}; {| sf_attrs := []; sf_ident := (Some "y"); sf_ty := (SPath (SegPath [] "i16" NoArgs)) |}]); sv_discriminant
  := None |}; {| sv_attrs := []; sv_ident := "IRBaz"; sv_fields := FieldsUnit; sv_discriminant := None |}]);
  (ItemFn [{| at_meta := (APath (Some "no_mangle")); at_outer := true |}] true {| sg_ident := "root"; sg_abi := (Some (Some "C")); sg_inputs
  := [(FnTyped (PatIdent "opaque") (SPtr true (SPath (SegPath [] "Opaque" NoArgs)))); (FnTyped (PatIdent "a") (SPath (SegPath [] "A"
  NoArgs))); (FnTyped (PatIdent "b") (SPath (SegPath [] "B" NoArgs))); (FnTyped (PatIdent "c") (SPath (SegPath [] "C" NoArgs))); (FnTyped
  (PatIdent "d") (SPath (SegPath [] "D" NoArgs))); (FnTyped (PatIdent "e") (SPath (SegPath [] "E" NoArgs))); (FnTyped (PatIdent "f")
  (SPath (SegPath [] "F" NoArgs))); (FnTyped (PatIdent "g") (SPath (SegPath [] "G" NoArgs))); (FnTyped (PatIdent "h") (SPath (SegPath
  [] "H" NoArgs))); (FnTyped (PatIdent "i") (SPath (SegPath [] "I" NoArgs))); (FnTyped (PatIdent "j") (SPath (SegPath [] "J" NoArgs)));
  (FnTyped (PatIdent "k") (SPath (SegPath [] "K" NoArgs))); (FnTyped (PatIdent "l") (SPath (SegPath [] "L" NoArgs))); (FnTyped (PatIdent
  "m") (SPath (SegPath [] "M" NoArgs))); (FnTyped (PatIdent "n") (SPath (SegPath [] "N" NoArgs))); (FnTyped (PatIdent "o") (SPath
  (SegPath [] "O" NoArgs))); (FnTyped (PatIdent "p") (SPath (SegPath [] "P" NoArgs))); (FnTyped (PatIdent "q") (SPath (SegPath []
  "Q" NoArgs))); (FnTyped (PatIdent "r") (SPath (SegPath [] "R" NoArgs)))]; sg_variadic := false; sg_output := None |})].
Definition enum_toml : Config := {| header := (Some "#if 0
''' '
#endif

#ifdef __cplusplus
template <typename T>
using Box = T*;
#endif

#if 0
' '''
#endif
"); includes_ := []; sys_includes_ := []; after_includes := None; trailer := (Some "#if 0
''' '
#endif

#include <stddef.h>
#include ""testing-helpers.h""
static_assert(offsetof(CBINDGEN_STRUCT(P), tag) == 0, ""unexpected offset for tag"");
static_assert(offsetof(CBINDGEN_STRUCT(P), p0) == 1, ""unexpected offset for p0"");
static_assert(offsetof(CBINDGEN_STRUCT(P), p0) == 1, ""unexpected offset for p1"");
static_assert(sizeof(CBINDGEN_STRUCT(P)) == 4, ""unexpected size for P"");

#if 0
' '''
#endif
");
  include_guard_ := None; pragma_once := false; no_includes := false; package_version := false; autogen_warning := None; include_version := false;
  namespace := None; namespaces := None; using_namespaces := None; braces := SameLine; line_length := 100; tab_width := 2; line_endings := LF;
  language := Cxx; cpp_compat := false; style := Both; sort_by := SortNone; usize_is_size_t := false; parse := default_parse; export := {| ex_include := []; ex_exclude := ["Box"]; ex_rename := [("I", "ExI")]; ex_pre_body := []; ex_body := []; ex_prefix := None; ex_item_types := []; ex_renaming_overrides_prefixing := false; ex_mangle := {| rename_types := RNone; remove_underscores := false |} |};
  layout := {| ly_packed := None; ly_aligned_n := None |}; function := {| fn_prefix := None; fn_postfix := None; fn_must_use := None; fn_deprecated := None; fn_deprecated_with_note := None; fn_args := Auto; fn_rename_args := RNone; fn_swift_name_macro := None; fn_sort_by := None; fn_no_return := None |}; structure := {| st_rename_fields := RNone; st_derive_constructor := false; st_derive_eq := false; st_derive_neq := false; st_derive_lt := false; st_derive_lte := false; st_derive_gt := false; st_derive_gte := false; st_derive_ostream := false; st_associated_constants_in_body := false; st_rename_associated_constant := RNone; st_must_use := None; st_deprecated := None; st_deprecated_with_note := None |}; enumeration := {| en_rename_variants := RNone; en_rename_variant_name_fields := SnakeCase; en_add_sentinel := false; en_prefix_with_name := false; en_derive_helper_methods := false; en_derive_const_casts := false; en_derive_mut_casts := false; en_cast_assert_name := None; en_must_use := None; en_deprecated := None; en_deprecated_with_note := None; en_deprecated_variant := None; en_deprecated_variant_with_note := None; en_derive_tagged_enum_destructor := false; en_derive_tagged_enum_copy_constructor := false; en_derive_tagged_enum_copy_assignment := false; en_derive_ostream := false; en_enum_class := true; en_private_default_tagged_enum_constructor := false |}; constant := {| co_allow_static_const := true; co_allow_constexpr := true; co_sort_by := None |}; defines := []; documentation := true;
  documentation_style := DocAuto; documentation_length := Full; pointer := {| pt_non_null_attribute := None; pt_nullable_attribute := None |}; cython := {| cy_header := None; cy_cimports := [] |}; config_path := None |}.
(** tests/expectations/enum.compat.c *)
Definition enum_compat : string := "#if 0
''' '
#endif

#ifdef __cplusplus
template <typename T>
using Box = T*;
#endif

#if 0
' '''
#endif


#include <stdarg.h>
#include <stdbool.h>
#include <stdint.h>
#include <stdlib.h>

enum A
#if defined(__cplusplus) || __STDC_VERSION__ >= 202311L
  : uint64_t
#endif // defined(__cplusplus) || __STDC_VERSION__ >= 202311L
 {
  a1 = 0,
  a2 = 2,
  a3,
  a4 = 5,
};
#ifndef __cplusplus
#if __STDC_VERSION__ >= 202311L
typedef enum A A;
#else
typedef uint64_t A;
#endif // __STDC_VERSION__ >= 202311L
#endif // __cplusplus

enum B
#if defined(__cplusplus) || __STDC_VERSION__ >= 202311L
  : uint32_t
#endif // defined(__cplusplus) || __STDC_VERSION__ >= 202311L
 {
  b1 = 0,
  b2 = 2,
  b3,
  b4 = 5,
};
#ifndef __cplusplus
#if __STDC_VERSION__ >= 202311L
typedef enum B B;
#else
typedef uint32_t B;
#endif // __STDC_VERSION__ >= 202311L
#endif // __cplusplus

enum C
#if defined(__cplusplus) || __STDC_VERSION__ >= 202311L
  : uint16_t
#endif // defined(__cplusplus) || __STDC_VERSION__ >= 202311L
 {
  c1 = 0,
  c2 = 2,
  c3,
  c4 = 5,
};
#ifndef __cplusplus
#if __STDC_VERSION__ >= 202311L
typedef enum C C;
#else
typedef uint16_t C;
#endif // __STDC_VERSION__ >= 202311L
#endif // __cplusplus

enum D
#if defined(__cplusplus) || __STDC_VERSION__ >= 202311L
  : uint8_t
#endif // defined(__cplusplus) || __STDC_VERSION__ >= 202311L
 {
  d1 = 0,
  d2 = 2,
  d3,
  d4 = 5,
};
#ifndef __cplusplus
#if __STDC_VERSION__ >= 202311L
typedef enum D D;
#else
typedef uint8_t D;
#endif // __STDC_VERSION__ >= 202311L
#endif // __cplusplus

enum E
#if defined(__cplusplus) || __STDC_VERSION__ >= 202311L
  : uintptr_t
#endif // defined(__cplusplus) || __STDC_VERSION__ >= 202311L
 {
  e1 = 0,
  e2 = 2,
  e3,
  e4 = 5,
};
#ifndef __cplusplus
#if __STDC_VERSION__ >= 202311L
typedef enum E E;
#else
typedef uintptr_t E;
#endif // __STDC_VERSION__ >= 202311L
#endif // __cplusplus

enum F
#if defined(__cplusplus) || __STDC_VERSION__ >= 202311L
  : intptr_t
#endif // defined(__cplusplus) || __STDC_VERSION__ >= 202311L
 {
  f1 = 0,
  f2 = 2,
  f3,
  f4 = 5,
};
#ifndef __cplusplus
#if __STDC_VERSION__ >= 202311L
typedef enum F F;
#else
typedef intptr_t F;
#endif // __STDC_VERSION__ >= 202311L
#endif // __cplusplus

typedef enum {
  l1,
  l2,
  l3,
  l4,
} L;

enum M
#if defined(__cplusplus) || __STDC_VERSION__ >= 202311L
  : int8_t
#endif // defined(__cplusplus) || __STDC_VERSION__ >= 202311L
 {
  m1 = -1,
  m2 = 0,
  m3 = 1,
};
#ifndef __cplusplus
#if __STDC_VERSION__ >= 202311L
typedef enum M M;
#else
typedef int8_t M;
#endif // __STDC_VERSION__ >= 202311L
#endif // __cplusplus

typedef enum {
  n1,
  n2,
  n3,
  n4,
} N;

enum O
#if defined(__cplusplus) || __STDC_VERSION__ >= 202311L
  : int8_t
#endif // defined(__cplusplus) || __STDC_VERSION__ >= 202311L
 {
  o1,
  o2,
  o3,
  o4,
};
#ifndef __cplusplus
#if __STDC_VERSION__ >= 202311L
typedef enum O O;
#else
typedef int8_t O;
#endif // __STDC_VERSION__ >= 202311L
#endif // __cplusplus

typedef struct J J;

typedef struct K K;

typedef struct Opaque Opaque;

enum G_Tag
#if defined(__cplusplus) || __STDC_VERSION__ >= 202311L
  : uint8_t
#endif // defined(__cplusplus) || __STDC_VERSION__ >= 202311L
 {
  Foo,
  Bar,
  Baz,
};
#ifndef __cplusplus
#if __STDC_VERSION__ >= 202311L
typedef enum G_Tag G_Tag;
#else
typedef uint8_t G_Tag;
#endif // __STDC_VERSION__ >= 202311L
#endif // __cplusplus

typedef struct {
  G_Tag tag;
  uint8_t x;
  int16_t y;
} Bar_Body;

typedef union {
  G_Tag tag;
  struct {
    G_Tag foo_tag;
    int16_t foo;
  };
  Bar_Body bar;
} G;

typedef enum {
  H_Foo,
  H_Bar,
  H_Baz,
} H_Tag;

typedef struct {
  uint8_t x;
  int16_t y;
} H_Bar_Body;

typedef struct {
  H_Tag tag;
  union {
    struct {
      int16_t foo;
    };
    H_Bar_Body bar;
  };
} H;

enum ExI_Tag
#if defined(__cplusplus) || __STDC_VERSION__ >= 202311L
  : uint8_t
#endif // defined(__cplusplus) || __STDC_VERSION__ >= 202311L
 {
  ExI_Foo,
  ExI_Bar,
  ExI_Baz,
};
#ifndef __cplusplus
#if __STDC_VERSION__ >= 202311L
typedef enum ExI_Tag ExI_Tag;
#else
typedef uint8_t ExI_Tag;
#endif // __STDC_VERSION__ >= 202311L
#endif // __cplusplus

typedef struct {
  uint8_t x;
  int16_t y;
} ExI_Bar_Body;

typedef struct {
  ExI_Tag tag;
  union {
    struct {
      int16_t foo;
    };
    ExI_Bar_Body bar;
  };
} ExI;

enum P_Tag
#if defined(__cplusplus) || __STDC_VERSION__ >= 202311L
  : uint8_t
#endif // defined(__cplusplus) || __STDC_VERSION__ >= 202311L
 {
  P0,
  P1,
};
#ifndef __cplusplus
#if __STDC_VERSION__ >= 202311L
typedef enum P_Tag P_Tag;
#else
typedef uint8_t P_Tag;
#endif // __STDC_VERSION__ >= 202311L
#endif // __cplusplus

typedef struct {
  uint8_t _0;
  uint8_t _1;
  uint8_t _2;
} P1_Body;

typedef struct {
  P_Tag tag;
  union {
    struct {
      uint8_t p0;
    };
    P1_Body p1;
  };
} P;

typedef enum {
  Ok,
  Err,
} Q_Tag;

typedef struct {
  Q_Tag tag;
  union {
    struct {
      uint32_t *ok;
    };
    struct {
      uint32_t err;
    };
  };
} Q;

typedef enum {
  IRFoo,
  IRBar,
  IRBaz,
} R_Tag;

typedef struct {
  uint8_t x;
  int16_t y;
} IRBar_Body;

typedef struct {
  R_Tag tag;
  union {
    struct {
      int16_t IRFoo;
    };
    IRBar_Body IRBar;
  };
} R;

#ifdef __cplusplus
extern ""C"" {
#endif // __cplusplus

void root(Opaque *opaque,
          A a,
          B b,
          C c,
          D d,
          E e,
          F f,
          G g,
          H h,
          ExI i,
          J j,
          K k,
          L l,
          M m,
          N n,
          O o,
          P p,
          Q q,
          R r);

#ifdef __cplusplus
}  // extern ""C""
#endif  // __cplusplus

#if 0
''' '
#endif

#include <stddef.h>
#include ""testing-helpers.h""
static_assert(offsetof(CBINDGEN_STRUCT(P), tag) == 0, ""unexpected offset for tag"");
static_assert(offsetof(CBINDGEN_STRUCT(P), p0) == 1, ""unexpected offset for p0"");
static_assert(offsetof(CBINDGEN_STRUCT(P), p0) == 1, ""unexpected offset for p1"");
static_assert(sizeof(CBINDGEN_STRUCT(P)) == 4, ""unexpected size for P"");

#if 0
' '''
#endif
".
(** tests/expectations/enum_tag.compat.c *)
Definition enum_compat_tag : string := "#if 0
''' '
#endif

#ifdef __cplusplus
template <typename T>
using Box = T*;
#endif

#if 0
' '''
#endif


#include <stdarg.h>
#include <stdbool.h>
#include <stdint.h>
#include <stdlib.h>

enum A
#if defined(__cplusplus) || __STDC_VERSION__ >= 202311L
  : uint64_t
#endif // defined(__cplusplus) || __STDC_VERSION__ >= 202311L
 {
  a1 = 0,
  a2 = 2,
  a3,
  a4 = 5,
};
#ifndef __cplusplus
#if __STDC_VERSION__ >= 202311L
typedef enum A A;
#else
typedef uint64_t A;
#endif // __STDC_VERSION__ >= 202311L
#endif // __cplusplus

enum B
#if defined(__cplusplus) || __STDC_VERSION__ >= 202311L
  : uint32_t
#endif // defined(__cplusplus) || __STDC_VERSION__ >= 202311L
 {
  b1 = 0,
  b2 = 2,
  b3,
  b4 = 5,
};
#ifndef __cplusplus
#if __STDC_VERSION__ >= 202311L
typedef enum B B;
#else
typedef uint32_t B;
#endif // __STDC_VERSION__ >= 202311L
#endif // __cplusplus

enum C
#if defined(__cplusplus) || __STDC_VERSION__ >= 202311L
  : uint16_t
#endif // defined(__cplusplus) || __STDC_VERSION__ >= 202311L
 {
  c1 = 0,
  c2 = 2,
  c3,
  c4 = 5,
};
#ifndef __cplusplus
#if __STDC_VERSION__ >= 202311L
typedef enum C C;
#else
typedef uint16_t C;
#endif // __STDC_VERSION__ >= 202311L
#endif // __cplusplus

enum D
#if defined(__cplusplus) || __STDC_VERSION__ >= 202311L
  : uint8_t
#endif // defined(__cplusplus) || __STDC_VERSION__ >= 202311L
 {
  d1 = 0,
  d2 = 2,
  d3,
  d4 = 5,
};
#ifndef __cplusplus
#if __STDC_VERSION__ >= 202311L
typedef enum D D;
#else
typedef uint8_t D;
#endif // __STDC_VERSION__ >= 202311L
#endif // __cplusplus

enum E
#if defined(__cplusplus) || __STDC_VERSION__ >= 202311L
  : uintptr_t
#endif // defined(__cplusplus) || __STDC_VERSION__ >= 202311L
 {
  e1 = 0,
  e2 = 2,
  e3,
  e4 = 5,
};
#ifndef __cplusplus
#if __STDC_VERSION__ >= 202311L
typedef enum E E;
#else
typedef uintptr_t E;
#endif // __STDC_VERSION__ >= 202311L
#endif // __cplusplus

enum F
#if defined(__cplusplus) || __STDC_VERSION__ >= 202311L
  : intptr_t
#endif // defined(__cplusplus) || __STDC_VERSION__ >= 202311L
 {
  f1 = 0,
  f2 = 2,
  f3,
  f4 = 5,
};
#ifndef __cplusplus
#if __STDC_VERSION__ >= 202311L
typedef enum F F;
#else
typedef intptr_t F;
#endif // __STDC_VERSION__ >= 202311L
#endif // __cplusplus

enum L {
  l1,
  l2,
  l3,
  l4,
};

enum M
#if defined(__cplusplus) || __STDC_VERSION__ >= 202311L
  : int8_t
#endif // defined(__cplusplus) || __STDC_VERSION__ >= 202311L
 {
  m1 = -1,
  m2 = 0,
  m3 = 1,
};
#ifndef __cplusplus
#if __STDC_VERSION__ >= 202311L
typedef enum M M;
#else
typedef int8_t M;
#endif // __STDC_VERSION__ >= 202311L
#endif // __cplusplus

enum N {
  n1,
  n2,
  n3,
  n4,
};

enum O
#if defined(__cplusplus) || __STDC_VERSION__ >= 202311L
  : int8_t
#endif // defined(__cplusplus) || __STDC_VERSION__ >= 202311L
 {
  o1,
  o2,
  o3,
  o4,
};
#ifndef __cplusplus
#if __STDC_VERSION__ >= 202311L
typedef enum O O;
#else
typedef int8_t O;
#endif // __STDC_VERSION__ >= 202311L
#endif // __cplusplus

struct J;

struct K;

struct Opaque;

enum G_Tag
#if defined(__cplusplus) || __STDC_VERSION__ >= 202311L
  : uint8_t
#endif // defined(__cplusplus) || __STDC_VERSION__ >= 202311L
 {
  Foo,
  Bar,
  Baz,
};
#ifndef __cplusplus
#if __STDC_VERSION__ >= 202311L
typedef enum G_Tag G_Tag;
#else
typedef uint8_t G_Tag;
#endif // __STDC_VERSION__ >= 202311L
#endif // __cplusplus

struct Bar_Body {
  G_Tag tag;
  uint8_t x;
  int16_t y;
};

union G {
  G_Tag tag;
  struct {
    G_Tag foo_tag;
    int16_t foo;
  };
  struct Bar_Body bar;
};

enum H_Tag {
  H_Foo,
  H_Bar,
  H_Baz,
};

struct H_Bar_Body {
  uint8_t x;
  int16_t y;
};

struct H {
  enum H_Tag tag;
  union {
    struct {
      int16_t foo;
    };
    struct H_Bar_Body bar;
  };
};

enum ExI_Tag
#if defined(__cplusplus) || __STDC_VERSION__ >= 202311L
  : uint8_t
#endif // defined(__cplusplus) || __STDC_VERSION__ >= 202311L
 {
  ExI_Foo,
  ExI_Bar,
  ExI_Baz,
};
#ifndef __cplusplus
#if __STDC_VERSION__ >= 202311L
typedef enum ExI_Tag ExI_Tag;
#else
typedef uint8_t ExI_Tag;
#endif // __STDC_VERSION__ >= 202311L
#endif // __cplusplus

struct ExI_Bar_Body {
  uint8_t x;
  int16_t y;
};

struct ExI {
  ExI_Tag tag;
  union {
    struct {
      int16_t foo;
    };
    struct ExI_Bar_Body bar;
  };
};

enum P_Tag
#if defined(__cplusplus) || __STDC_VERSION__ >= 202311L
  : uint8_t
#endif // defined(__cplusplus) || __STDC_VERSION__ >= 202311L
 {
  P0,
  P1,
};
#ifndef __cplusplus
#if __STDC_VERSION__ >= 202311L
typedef enum P_Tag P_Tag;
#else
typedef uint8_t P_Tag;
#endif // __STDC_VERSION__ >= 202311L
#endif // __cplusplus

struct P1_Body {
  uint8_t _0;
  uint8_t _1;
  uint8_t _2;
};

struct P {
  P_Tag tag;
  union {
    struct {
      uint8_t p0;
    };
    struct P1_Body p1;
  };
};

enum Q_Tag {
  Ok,
  Err,
};

struct Q {
  enum Q_Tag tag;
  union {
    struct {
      uint32_t *ok;
    };
    struct {
      uint32_t err;
    };
  };
};

enum R_Tag {
  IRFoo,
  IRBar,
  IRBaz,
};

struct IRBar_Body {
  uint8_t x;
  int16_t y;
};

struct R {
  enum R_Tag tag;
  union {
    struct {
      int16_t IRFoo;
    };
    struct IRBar_Body IRBar;
  };
};

#ifdef __cplusplus
extern ""C"" {
#endif // __cplusplus

void root(struct Opaque *opaque,
          A a,
          B b,
          C c,
          D d,
          E e,
          F f,
          union G g,
          struct H h,
          struct ExI i,
          struct J j,
          struct K k,
          enum L l,
          M m,
          enum N n,
          O o,
          struct P p,
          struct Q q,
          struct R r);

#ifdef __cplusplus
}  // extern ""C""
#endif  // __cplusplus

#if 0
''' '
#endif

#include <stddef.h>
#include ""testing-helpers.h""
static_assert(offsetof(CBINDGEN_STRUCT(P), tag) == 0, ""unexpected offset for tag"");
static_assert(offsetof(CBINDGEN_STRUCT(P), p0) == 1, ""unexpected offset for p0"");
static_assert(offsetof(CBINDGEN_STRUCT(P), p0) == 1, ""unexpected offset for p1"");
static_assert(sizeof(CBINDGEN_STRUCT(P)) == 4, ""unexpected size for P"");

#if 0
' '''
#endif
".
(** tests/expectations/enum_both.compat.c *)
Definition enum_compat_both : string := "#if 0
''' '
#endif

#ifdef __cplusplus
template <typename T>
using Box = T*;
#endif

#if 0
' '''
#endif


#include <stdarg.h>
#include <stdbool.h>
#include <stdint.h>
#include <stdlib.h>

enum A
#if defined(__cplusplus) || __STDC_VERSION__ >= 202311L
  : uint64_t
#endif // defined(__cplusplus) || __STDC_VERSION__ >= 202311L
 {
  a1 = 0,
  a2 = 2,
  a3,
  a4 = 5,
};
#ifndef __cplusplus
#if __STDC_VERSION__ >= 202311L
typedef enum A A;
#else
typedef uint64_t A;
#endif // __STDC_VERSION__ >= 202311L
#endif // __cplusplus

enum B
#if defined(__cplusplus) || __STDC_VERSION__ >= 202311L
  : uint32_t
#endif // defined(__cplusplus) || __STDC_VERSION__ >= 202311L
 {
  b1 = 0,
  b2 = 2,
  b3,
  b4 = 5,
};
#ifndef __cplusplus
#if __STDC_VERSION__ >= 202311L
typedef enum B B;
#else
typedef uint32_t B;
#endif // __STDC_VERSION__ >= 202311L
#endif // __cplusplus

enum C
#if defined(__cplusplus) || __STDC_VERSION__ >= 202311L
  : uint16_t
#endif // defined(__cplusplus) || __STDC_VERSION__ >= 202311L
 {
  c1 = 0,
  c2 = 2,
  c3,
  c4 = 5,
};
#ifndef __cplusplus
#if __STDC_VERSION__ >= 202311L
typedef enum C C;
#else
typedef uint16_t C;
#endif // __STDC_VERSION__ >= 202311L
#endif // __cplusplus

enum D
#if defined(__cplusplus) || __STDC_VERSION__ >= 202311L
  : uint8_t
#endif // defined(__cplusplus) || __STDC_VERSION__ >= 202311L
 {
  d1 = 0,
  d2 = 2,
  d3,
  d4 = 5,
};
#ifndef __cplusplus
#if __STDC_VERSION__ >= 202311L
typedef enum D D;
#else
typedef uint8_t D;
#endif // __STDC_VERSION__ >= 202311L
#endif // __cplusplus

enum E
#if defined(__cplusplus) || __STDC_VERSION__ >= 202311L
  : uintptr_t
#endif // defined(__cplusplus) || __STDC_VERSION__ >= 202311L
 {
  e1 = 0,
  e2 = 2,
  e3,
  e4 = 5,
};
#ifndef __cplusplus
#if __STDC_VERSION__ >= 202311L
typedef enum E E;
#else
typedef uintptr_t E;
#endif // __STDC_VERSION__ >= 202311L
#endif // __cplusplus

enum F
#if defined(__cplusplus) || __STDC_VERSION__ >= 202311L
  : intptr_t
#endif // defined(__cplusplus) || __STDC_VERSION__ >= 202311L
 {
  f1 = 0,
  f2 = 2,
  f3,
  f4 = 5,
};
#ifndef __cplusplus
#if __STDC_VERSION__ >= 202311L
typedef enum F F;
#else
typedef intptr_t F;
#endif // __STDC_VERSION__ >= 202311L
#endif // __cplusplus

typedef enum L {
  l1,
  l2,
  l3,
  l4,
} L;

enum M
#if defined(__cplusplus) || __STDC_VERSION__ >= 202311L
  : int8_t
#endif // defined(__cplusplus) || __STDC_VERSION__ >= 202311L
 {
  m1 = -1,
  m2 = 0,
  m3 = 1,
};
#ifndef __cplusplus
#if __STDC_VERSION__ >= 202311L
typedef enum M M;
#else
typedef int8_t M;
#endif // __STDC_VERSION__ >= 202311L
#endif // __cplusplus

typedef enum N {
  n1,
  n2,
  n3,
  n4,
} N;

enum O
#if defined(__cplusplus) || __STDC_VERSION__ >= 202311L
  : int8_t
#endif // defined(__cplusplus) || __STDC_VERSION__ >= 202311L
 {
  o1,
  o2,
  o3,
  o4,
};
#ifndef __cplusplus
#if __STDC_VERSION__ >= 202311L
typedef enum O O;
#else
typedef int8_t O;
#endif // __STDC_VERSION__ >= 202311L
#endif // __cplusplus

typedef struct J J;

typedef struct K K;

typedef struct Opaque Opaque;

enum G_Tag
#if defined(__cplusplus) || __STDC_VERSION__ >= 202311L
  : uint8_t
#endif // defined(__cplusplus) || __STDC_VERSION__ >= 202311L
 {
  Foo,
  Bar,
  Baz,
};
#ifndef __cplusplus
#if __STDC_VERSION__ >= 202311L
typedef enum G_Tag G_Tag;
#else
typedef uint8_t G_Tag;
#endif // __STDC_VERSION__ >= 202311L
#endif // __cplusplus

typedef struct Bar_Body {
  G_Tag tag;
  uint8_t x;
  int16_t y;
} Bar_Body;

typedef union G {
  G_Tag tag;
  struct {
    G_Tag foo_tag;
    int16_t foo;
  };
  Bar_Body bar;
} G;

typedef enum H_Tag {
  H_Foo,
  H_Bar,
  H_Baz,
} H_Tag;

typedef struct H_Bar_Body {
  uint8_t x;
  int16_t y;
} H_Bar_Body;

typedef struct H {
  H_Tag tag;
  union {
    struct {
      int16_t foo;
    };
    H_Bar_Body bar;
  };
} H;

enum ExI_Tag
#if defined(__cplusplus) || __STDC_VERSION__ >= 202311L
  : uint8_t
#endif // defined(__cplusplus) || __STDC_VERSION__ >= 202311L
 {
  ExI_Foo,
  ExI_Bar,
  ExI_Baz,
};
#ifndef __cplusplus
#if __STDC_VERSION__ >= 202311L
typedef enum ExI_Tag ExI_Tag;
#else
typedef uint8_t ExI_Tag;
#endif // __STDC_VERSION__ >= 202311L
#endif // __cplusplus

typedef struct ExI_Bar_Body {
  uint8_t x;
  int16_t y;
} ExI_Bar_Body;

typedef struct ExI {
  ExI_Tag tag;
  union {
    struct {
      int16_t foo;
    };
    ExI_Bar_Body bar;
  };
} ExI;

enum P_Tag
#if defined(__cplusplus) || __STDC_VERSION__ >= 202311L
  : uint8_t
#endif // defined(__cplusplus) || __STDC_VERSION__ >= 202311L
 {
  P0,
  P1,
};
#ifndef __cplusplus
#if __STDC_VERSION__ >= 202311L
typedef enum P_Tag P_Tag;
#else
typedef uint8_t P_Tag;
#endif // __STDC_VERSION__ >= 202311L
#endif // __cplusplus

typedef struct P1_Body {
  uint8_t _0;
  uint8_t _1;
  uint8_t _2;
} P1_Body;

typedef struct P {
  P_Tag tag;
  union {
    struct {
      uint8_t p0;
    };
    P1_Body p1;
  };
} P;

typedef enum Q_Tag {
  Ok,
  Err,
} Q_Tag;

typedef struct Q {
  Q_Tag tag;
  union {
    struct {
      uint32_t *ok;
    };
    struct {
      uint32_t err;
    };
  };
} Q;

typedef enum R_Tag {
  IRFoo,
  IRBar,
  IRBaz,
} R_Tag;

typedef struct IRBar_Body {
  uint8_t x;
  int16_t y;
} IRBar_Body;

typedef struct R {
  R_Tag tag;
  union {
    struct {
      int16_t IRFoo;
    };
    IRBar_Body IRBar;
  };
} R;

#ifdef __cplusplus
extern ""C"" {
#endif // __cplusplus

void root(struct Opaque *opaque,
          A a,
          B b,
          C c,
          D d,
          E e,
          F f,
          union G g,
          struct H h,
          struct ExI i,
          struct J j,
          struct K k,
          enum L l,
          M m,
          enum N n,
          O o,
          struct P p,
          struct Q q,
          struct R r);

#ifdef __cplusplus
}  // extern ""C""
#endif  // __cplusplus

#if 0
''' '
#endif

#include <stddef.h>
#include ""testing-helpers.h""
static_assert(offsetof(CBINDGEN_STRUCT(P), tag) == 0, ""unexpected offset for tag"");
static_assert(offsetof(CBINDGEN_STRUCT(P), p0) == 1, ""unexpected offset for p0"");
static_assert(offsetof(CBINDGEN_STRUCT(P), p0) == 1, ""unexpected offset for p1"");
static_assert(sizeof(CBINDGEN_STRUCT(P)) == 4, ""unexpected size for P"");

#if 0
' '''
#endif
".
(** tests/expectations/enum.c *)
Definition enum_c : string := "#if 0
''' '
#endif

#ifdef __cplusplus
template <typename T>
using Box = T*;
#endif

#if 0
' '''
#endif


#include <stdarg.h>
#include <stdbool.h>
#include <stdint.h>
#include <stdlib.h>

enum A
#if __STDC_VERSION__ >= 202311L
  : uint64_t
#endif // __STDC_VERSION__ >= 202311L
 {
  a1 = 0,
  a2 = 2,
  a3,
  a4 = 5,
};
#if __STDC_VERSION__ >= 202311L
typedef enum A A;
#else
typedef uint64_t A;
#endif // __STDC_VERSION__ >= 202311L

enum B
#if __STDC_VERSION__ >= 202311L
  : uint32_t
#endif // __STDC_VERSION__ >= 202311L
 {
  b1 = 0,
  b2 = 2,
  b3,
  b4 = 5,
};
#if __STDC_VERSION__ >= 202311L
typedef enum B B;
#else
typedef uint32_t B;
#endif // __STDC_VERSION__ >= 202311L

enum C
#if __STDC_VERSION__ >= 202311L
  : uint16_t
#endif // __STDC_VERSION__ >= 202311L
 {
  c1 = 0,
  c2 = 2,
  c3,
  c4 = 5,
};
#if __STDC_VERSION__ >= 202311L
typedef enum C C;
#else
typedef uint16_t C;
#endif // __STDC_VERSION__ >= 202311L

enum D
#if __STDC_VERSION__ >= 202311L
  : uint8_t
#endif // __STDC_VERSION__ >= 202311L
 {
  d1 = 0,
  d2 = 2,
  d3,
  d4 = 5,
};
#if __STDC_VERSION__ >= 202311L
typedef enum D D;
#else
typedef uint8_t D;
#endif // __STDC_VERSION__ >= 202311L

enum E
#if __STDC_VERSION__ >= 202311L
  : uintptr_t
#endif // __STDC_VERSION__ >= 202311L
 {
  e1 = 0,
  e2 = 2,
  e3,
  e4 = 5,
};
#if __STDC_VERSION__ >= 202311L
typedef enum E E;
#else
typedef uintptr_t E;
#endif // __STDC_VERSION__ >= 202311L

enum F
#if __STDC_VERSION__ >= 202311L
  : intptr_t
#endif // __STDC_VERSION__ >= 202311L
 {
  f1 = 0,
  f2 = 2,
  f3,
  f4 = 5,
};
#if __STDC_VERSION__ >= 202311L
typedef enum F F;
#else
typedef intptr_t F;
#endif // __STDC_VERSION__ >= 202311L

typedef enum {
  l1,
  l2,
  l3,
  l4,
} L;

enum M
#if __STDC_VERSION__ >= 202311L
  : int8_t
#endif // __STDC_VERSION__ >= 202311L
 {
  m1 = -1,
  m2 = 0,
  m3 = 1,
};
#if __STDC_VERSION__ >= 202311L
typedef enum M M;
#else
typedef int8_t M;
#endif // __STDC_VERSION__ >= 202311L

typedef enum {
  n1,
  n2,
  n3,
  n4,
} N;

enum O
#if __STDC_VERSION__ >= 202311L
  : int8_t
#endif // __STDC_VERSION__ >= 202311L
 {
  o1,
  o2,
  o3,
  o4,
};
#if __STDC_VERSION__ >= 202311L
typedef enum O O;
#else
typedef int8_t O;
#endif // __STDC_VERSION__ >= 202311L

typedef struct J J;

typedef struct K K;

typedef struct Opaque Opaque;

enum G_Tag
#if __STDC_VERSION__ >= 202311L
  : uint8_t
#endif // __STDC_VERSION__ >= 202311L
 {
  Foo,
  Bar,
  Baz,
};
#if __STDC_VERSION__ >= 202311L
typedef enum G_Tag G_Tag;
#else
typedef uint8_t G_Tag;
#endif // __STDC_VERSION__ >= 202311L

typedef struct {
  G_Tag tag;
  uint8_t x;
  int16_t y;
} Bar_Body;

typedef union {
  G_Tag tag;
  struct {
    G_Tag foo_tag;
    int16_t foo;
  };
  Bar_Body bar;
} G;

typedef enum {
  H_Foo,
  H_Bar,
  H_Baz,
} H_Tag;

typedef struct {
  uint8_t x;
  int16_t y;
} H_Bar_Body;

typedef struct {
  H_Tag tag;
  union {
    struct {
      int16_t foo;
    };
    H_Bar_Body bar;
  };
} H;

enum ExI_Tag
#if __STDC_VERSION__ >= 202311L
  : uint8_t
#endif // __STDC_VERSION__ >= 202311L
 {
  ExI_Foo,
  ExI_Bar,
  ExI_Baz,
};
#if __STDC_VERSION__ >= 202311L
typedef enum ExI_Tag ExI_Tag;
#else
typedef uint8_t ExI_Tag;
#endif // __STDC_VERSION__ >= 202311L

typedef struct {
  uint8_t x;
  int16_t y;
} ExI_Bar_Body;

typedef struct {
  ExI_Tag tag;
  union {
    struct {
      int16_t foo;
    };
    ExI_Bar_Body bar;
  };
} ExI;

enum P_Tag
#if __STDC_VERSION__ >= 202311L
  : uint8_t
#endif // __STDC_VERSION__ >= 202311L
 {
  P0,
  P1,
};
#if __STDC_VERSION__ >= 202311L
typedef enum P_Tag P_Tag;
#else
typedef uint8_t P_Tag;
#endif // __STDC_VERSION__ >= 202311L

typedef struct {
  uint8_t _0;
  uint8_t _1;
  uint8_t _2;
} P1_Body;

typedef struct {
  P_Tag tag;
  union {
    struct {
      uint8_t p0;
    };
    P1_Body p1;
  };
} P;

typedef enum {
  Ok,
  Err,
} Q_Tag;

typedef struct {
  Q_Tag tag;
  union {
    struct {
      uint32_t *ok;
    };
    struct {
      uint32_t err;
    };
  };
} Q;

typedef enum {
  IRFoo,
  IRBar,
  IRBaz,
} R_Tag;

typedef struct {
  uint8_t x;
  int16_t y;
} IRBar_Body;

typedef struct {
  R_Tag tag;
  union {
    struct {
      int16_t IRFoo;
    };
    IRBar_Body IRBar;
  };
} R;

void root(Opaque *opaque,
          A a,
          B b,
          C c,
          D d,
          E e,
          F f,
          G g,
          H h,
          ExI i,
          J j,
          K k,
          L l,
          M m,
          N n,
          O o,
          P p,
          Q q,
          R r);

#if 0
''' '
#endif

#include <stddef.h>
#include ""testing-helpers.h""
static_assert(offsetof(CBINDGEN_STRUCT(P), tag) == 0, ""unexpected offset for tag"");
static_assert(offsetof(CBINDGEN_STRUCT(P), p0) == 1, ""unexpected offset for p0"");
static_assert(offsetof(CBINDGEN_STRUCT(P), p0) == 1, ""unexpected offset for p1"");
static_assert(sizeof(CBINDGEN_STRUCT(P)) == 4, ""unexpected size for P"");

#if 0
' '''
#endif
".
(** tests/expectations/enum_tag.c *)
Definition enum_c_tag : string := "#if 0
''' '
#endif

#ifdef __cplusplus
template <typename T>
using Box = T*;
#endif

#if 0
' '''
#endif


#include <stdarg.h>
#include <stdbool.h>
#include <stdint.h>
#include <stdlib.h>

enum A
#if __STDC_VERSION__ >= 202311L
  : uint64_t
#endif // __STDC_VERSION__ >= 202311L
 {
  a1 = 0,
  a2 = 2,
  a3,
  a4 = 5,
};
#if __STDC_VERSION__ >= 202311L
typedef enum A A;
#else
typedef uint64_t A;
#endif // __STDC_VERSION__ >= 202311L

enum B
#if __STDC_VERSION__ >= 202311L
  : uint32_t
#endif // __STDC_VERSION__ >= 202311L
 {
  b1 = 0,
  b2 = 2,
  b3,
  b4 = 5,
};
#if __STDC_VERSION__ >= 202311L
typedef enum B B;
#else
typedef uint32_t B;
#endif // __STDC_VERSION__ >= 202311L

enum C
#if __STDC_VERSION__ >= 202311L
  : uint16_t
#endif // __STDC_VERSION__ >= 202311L
 {
  c1 = 0,
  c2 = 2,
  c3,
  c4 = 5,
};
#if __STDC_VERSION__ >= 202311L
typedef enum C C;
#else
typedef uint16_t C;
#endif // __STDC_VERSION__ >= 202311L

enum D
#if __STDC_VERSION__ >= 202311L
  : uint8_t
#endif // __STDC_VERSION__ >= 202311L
 {
  d1 = 0,
  d2 = 2,
  d3,
  d4 = 5,
};
#if __STDC_VERSION__ >= 202311L
typedef enum D D;
#else
typedef uint8_t D;
#endif // __STDC_VERSION__ >= 202311L

enum E
#if __STDC_VERSION__ >= 202311L
  : uintptr_t
#endif // __STDC_VERSION__ >= 202311L
 {
  e1 = 0,
  e2 = 2,
  e3,
  e4 = 5,
};
#if __STDC_VERSION__ >= 202311L
typedef enum E E;
#else
typedef uintptr_t E;
#endif // __STDC_VERSION__ >= 202311L

enum F
#if __STDC_VERSION__ >= 202311L
  : intptr_t
#endif // __STDC_VERSION__ >= 202311L
 {
  f1 = 0,
  f2 = 2,
  f3,
  f4 = 5,
};
#if __STDC_VERSION__ >= 202311L
typedef enum F F;
#else
typedef intptr_t F;
#endif // __STDC_VERSION__ >= 202311L

enum L {
  l1,
  l2,
  l3,
  l4,
};

enum M
#if __STDC_VERSION__ >= 202311L
  : int8_t
#endif // __STDC_VERSION__ >= 202311L
 {
  m1 = -1,
  m2 = 0,
  m3 = 1,
};
#if __STDC_VERSION__ >= 202311L
typedef enum M M;
#else
typedef int8_t M;
#endif // __STDC_VERSION__ >= 202311L

enum N {
  n1,
  n2,
  n3,
  n4,
};

enum O
#if __STDC_VERSION__ >= 202311L
  : int8_t
#endif // __STDC_VERSION__ >= 202311L
 {
  o1,
  o2,
  o3,
  o4,
};
#if __STDC_VERSION__ >= 202311L
typedef enum O O;
#else
typedef int8_t O;
#endif // __STDC_VERSION__ >= 202311L

struct J;

struct K;

struct Opaque;

enum G_Tag
#if __STDC_VERSION__ >= 202311L
  : uint8_t
#endif // __STDC_VERSION__ >= 202311L
 {
  Foo,
  Bar,
  Baz,
};
#if __STDC_VERSION__ >= 202311L
typedef enum G_Tag G_Tag;
#else
typedef uint8_t G_Tag;
#endif // __STDC_VERSION__ >= 202311L

struct Bar_Body {
  G_Tag tag;
  uint8_t x;
  int16_t y;
};

union G {
  G_Tag tag;
  struct {
    G_Tag foo_tag;
    int16_t foo;
  };
  struct Bar_Body bar;
};

enum H_Tag {
  H_Foo,
  H_Bar,
  H_Baz,
};

struct H_Bar_Body {
  uint8_t x;
  int16_t y;
};

struct H {
  enum H_Tag tag;
  union {
    struct {
      int16_t foo;
    };
    struct H_Bar_Body bar;
  };
};

enum ExI_Tag
#if __STDC_VERSION__ >= 202311L
  : uint8_t
#endif // __STDC_VERSION__ >= 202311L
 {
  ExI_Foo,
  ExI_Bar,
  ExI_Baz,
};
#if __STDC_VERSION__ >= 202311L
typedef enum ExI_Tag ExI_Tag;
#else
typedef uint8_t ExI_Tag;
#endif // __STDC_VERSION__ >= 202311L

struct ExI_Bar_Body {
  uint8_t x;
  int16_t y;
};

struct ExI {
  ExI_Tag tag;
  union {
    struct {
      int16_t foo;
    };
    struct ExI_Bar_Body bar;
  };
};

enum P_Tag
#if __STDC_VERSION__ >= 202311L
  : uint8_t
#endif // __STDC_VERSION__ >= 202311L
 {
  P0,
  P1,
};
#if __STDC_VERSION__ >= 202311L
typedef enum P_Tag P_Tag;
#else
typedef uint8_t P_Tag;
#endif // __STDC_VERSION__ >= 202311L

struct P1_Body {
  uint8_t _0;
  uint8_t _1;
  uint8_t _2;
};

struct P {
  P_Tag tag;
  union {
    struct {
      uint8_t p0;
    };
    struct P1_Body p1;
  };
};

enum Q_Tag {
  Ok,
  Err,
};

struct Q {
  enum Q_Tag tag;
  union {
    struct {
      uint32_t *ok;
    };
    struct {
      uint32_t err;
    };
  };
};

enum R_Tag {
  IRFoo,
  IRBar,
  IRBaz,
};

struct IRBar_Body {
  uint8_t x;
  int16_t y;
};

struct R {
  enum R_Tag tag;
  union {
    struct {
      int16_t IRFoo;
    };
    struct IRBar_Body IRBar;
  };
};

void root(struct Opaque *opaque,
          A a,
          B b,
          C c,
          D d,
          E e,
          F f,
          union G g,
          struct H h,
          struct ExI i,
          struct J j,
          struct K k,
          enum L l,
          M m,
          enum N n,
          O o,
          struct P p,
          struct Q q,
          struct R r);

#if 0
''' '
#endif

#include <stddef.h>
#include ""testing-helpers.h""
static_assert(offsetof(CBINDGEN_STRUCT(P), tag) == 0, ""unexpected offset for tag"");
static_assert(offsetof(CBINDGEN_STRUCT(P), p0) == 1, ""unexpected offset for p0"");
static_assert(offsetof(CBINDGEN_STRUCT(P), p0) == 1, ""unexpected offset for p1"");
static_assert(sizeof(CBINDGEN_STRUCT(P)) == 4, ""unexpected size for P"");

#if 0
' '''
#endif
".
(** tests/expectations/enum_both.c *)
Definition enum_c_both : string := "#if 0
''' '
#endif

#ifdef __cplusplus
template <typename T>
using Box = T*;
#endif

#if 0
' '''
#endif


#include <stdarg.h>
#include <stdbool.h>
#include <stdint.h>
#include <stdlib.h>

enum A
#if __STDC_VERSION__ >= 202311L
  : uint64_t
#endif // __STDC_VERSION__ >= 202311L
 {
  a1 = 0,
  a2 = 2,
  a3,
  a4 = 5,
};
#if __STDC_VERSION__ >= 202311L
typedef enum A A;
#else
typedef uint64_t A;
#endif // __STDC_VERSION__ >= 202311L

enum B
#if __STDC_VERSION__ >= 202311L
  : uint32_t
#endif // __STDC_VERSION__ >= 202311L
 {
  b1 = 0,
  b2 = 2,
  b3,
  b4 = 5,
};
#if __STDC_VERSION__ >= 202311L
typedef enum B B;
#else
typedef uint32_t B;
#endif // __STDC_VERSION__ >= 202311L

enum C
#if __STDC_VERSION__ >= 202311L
  : uint16_t
#endif // __STDC_VERSION__ >= 202311L
 {
  c1 = 0,
  c2 = 2,
  c3,
  c4 = 5,
};
#if __STDC_VERSION__ >= 202311L
typedef enum C C;
#else
typedef uint16_t C;
#endif // __STDC_VERSION__ >= 202311L

enum D
#if __STDC_VERSION__ >= 202311L
  : uint8_t
#endif // __STDC_VERSION__ >= 202311L
 {
  d1 = 0,
  d2 = 2,
  d3,
  d4 = 5,
};
#if __STDC_VERSION__ >= 202311L
typedef enum D D;
#else
typedef uint8_t D;
#endif // __STDC_VERSION__ >= 202311L

enum E
#if __STDC_VERSION__ >= 202311L
  : uintptr_t
#endif // __STDC_VERSION__ >= 202311L
 {
  e1 = 0,
  e2 = 2,
  e3,
  e4 = 5,
};
#if __STDC_VERSION__ >= 202311L
typedef enum E E;
#else
typedef uintptr_t E;
#endif // __STDC_VERSION__ >= 202311L

enum F
#if __STDC_VERSION__ >= 202311L
  : intptr_t
#endif // __STDC_VERSION__ >= 202311L
 {
  f1 = 0,
  f2 = 2,
  f3,
  f4 = 5,
};
#if __STDC_VERSION__ >= 202311L
typedef enum F F;
#else
typedef intptr_t F;
#endif // __STDC_VERSION__ >= 202311L

typedef enum L {
  l1,
  l2,
  l3,
  l4,
} L;

enum M
#if __STDC_VERSION__ >= 202311L
  : int8_t
#endif // __STDC_VERSION__ >= 202311L
 {
  m1 = -1,
  m2 = 0,
  m3 = 1,
};
#if __STDC_VERSION__ >= 202311L
typedef enum M M;
#else
typedef int8_t M;
#endif // __STDC_VERSION__ >= 202311L

typedef enum N {
  n1,
  n2,
  n3,
  n4,
} N;

enum O
#if __STDC_VERSION__ >= 202311L
  : int8_t
#endif // __STDC_VERSION__ >= 202311L
 {
  o1,
  o2,
  o3,
  o4,
};
#if __STDC_VERSION__ >= 202311L
typedef enum O O;
#else
typedef int8_t O;
#endif // __STDC_VERSION__ >= 202311L

typedef struct J J;

typedef struct K K;

typedef struct Opaque Opaque;

enum G_Tag
#if __STDC_VERSION__ >= 202311L
  : uint8_t
#endif // __STDC_VERSION__ >= 202311L
 {
  Foo,
  Bar,
  Baz,
};
#if __STDC_VERSION__ >= 202311L
typedef enum G_Tag G_Tag;
#else
typedef uint8_t G_Tag;
#endif // __STDC_VERSION__ >= 202311L

typedef struct Bar_Body {
  G_Tag tag;
  uint8_t x;
  int16_t y;
} Bar_Body;

typedef union G {
  G_Tag tag;
  struct {
    G_Tag foo_tag;
    int16_t foo;
  };
  Bar_Body bar;
} G;

typedef enum H_Tag {
  H_Foo,
  H_Bar,
  H_Baz,
} H_Tag;

typedef struct H_Bar_Body {
  uint8_t x;
  int16_t y;
} H_Bar_Body;

typedef struct H {
  H_Tag tag;
  union {
    struct {
      int16_t foo;
    };
    H_Bar_Body bar;
  };
} H;

enum ExI_Tag
#if __STDC_VERSION__ >= 202311L
  : uint8_t
#endif // __STDC_VERSION__ >= 202311L
 {
  ExI_Foo,
  ExI_Bar,
  ExI_Baz,
};
#if __STDC_VERSION__ >= 202311L
typedef enum ExI_Tag ExI_Tag;
#else
typedef uint8_t ExI_Tag;
#endif // __STDC_VERSION__ >= 202311L

typedef struct ExI_Bar_Body {
  uint8_t x;
  int16_t y;
} ExI_Bar_Body;

typedef struct ExI {
  ExI_Tag tag;
  union {
    struct {
      int16_t foo;
    };
    ExI_Bar_Body bar;
  };
} ExI;

enum P_Tag
#if __STDC_VERSION__ >= 202311L
  : uint8_t
#endif // __STDC_VERSION__ >= 202311L
 {
  P0,
  P1,
};
#if __STDC_VERSION__ >= 202311L
typedef enum P_Tag P_Tag;
#else
typedef uint8_t P_Tag;
#endif // __STDC_VERSION__ >= 202311L

typedef struct P1_Body {
  uint8_t _0;
  uint8_t _1;
  uint8_t _2;
} P1_Body;

typedef struct P {
  P_Tag tag;
  union {
    struct {
      uint8_t p0;
    };
    P1_Body p1;
  };
} P;

typedef enum Q_Tag {
  Ok,
  Err,
} Q_Tag;

typedef struct Q {
  Q_Tag tag;
  union {
    struct {
      uint32_t *ok;
    };
    struct {
      uint32_t err;
    };
  };
} Q;

typedef enum R_Tag {
  IRFoo,
  IRBar,
  IRBaz,
} R_Tag;

typedef struct IRBar_Body {
  uint8_t x;
  int16_t y;
} IRBar_Body;

typedef struct R {
  R_Tag tag;
  union {
    struct {
      int16_t IRFoo;
    };
    IRBar_Body IRBar;
  };
} R;

void root(struct Opaque *opaque,
          A a,
          B b,
          C c,
          D d,
          E e,
          F f,
          union G g,
          struct H h,
          struct ExI i,
          struct J j,
          struct K k,
          enum L l,
          M m,
          enum N n,
          O o,
          struct P p,
          struct Q q,
          struct R r);

#if 0
''' '
#endif

#include <stddef.h>
#include ""testing-helpers.h""
static_assert(offsetof(CBINDGEN_STRUCT(P), tag) == 0, ""unexpected offset for tag"");
static_assert(offsetof(CBINDGEN_STRUCT(P), p0) == 1, ""unexpected offset for p0"");
static_assert(offsetof(CBINDGEN_STRUCT(P), p0) == 1, ""unexpected offset for p1"");
static_assert(sizeof(CBINDGEN_STRUCT(P)) == 4, ""unexpected size for P"");

#if 0
' '''
#endif
".
(** tests/expectations/enum.cpp *)
Definition enum_cpp : string := "#if 0
''' '
#endif

#ifdef __cplusplus
template <typename T>
using Box = T*;
#endif

#if 0
' '''
#endif


#include <cstdarg>
#include <cstdint>
#include <cstdlib>
#include <ostream>
#include <new>

enum class A : uint64_t {
  a1 = 0,
  a2 = 2,
  a3,
  a4 = 5,
};

enum class B : uint32_t {
  b1 = 0,
  b2 = 2,
  b3,
  b4 = 5,
};

enum class C : uint16_t {
  c1 = 0,
  c2 = 2,
  c3,
  c4 = 5,
};

enum class D : uint8_t {
  d1 = 0,
  d2 = 2,
  d3,
  d4 = 5,
};

enum class E : uintptr_t {
  e1 = 0,
  e2 = 2,
  e3,
  e4 = 5,
};

enum class F : intptr_t {
  f1 = 0,
  f2 = 2,
  f3,
  f4 = 5,
};

enum class L {
  l1,
  l2,
  l3,
  l4,
};

enum class M : int8_t {
  m1 = -1,
  m2 = 0,
  m3 = 1,
};

enum N {
  n1,
  n2,
  n3,
  n4,
};

enum O : int8_t {
  o1,
  o2,
  o3,
  o4,
};

struct J;

struct K;

struct Opaque;

union G {
  enum class Tag : uint8_t {
    Foo,
    Bar,
    Baz,
  };

  struct Foo_Body {
    Tag tag;
    int16_t _0;
  };

  struct Bar_Body {
    Tag tag;
    uint8_t x;
    int16_t y;
  };

  struct {
    Tag tag;
  };
  Foo_Body foo;
  Bar_Body bar;
};

struct H {
  enum class Tag {
    H_Foo,
    H_Bar,
    H_Baz,
  };

  struct H_Foo_Body {
    int16_t _0;
  };

  struct H_Bar_Body {
    uint8_t x;
    int16_t y;
  };

  Tag tag;
  union {
    H_Foo_Body foo;
    H_Bar_Body bar;
  };
};

struct ExI {
  enum class Tag : uint8_t {
    ExI_Foo,
    ExI_Bar,
    ExI_Baz,
  };

  struct ExI_Foo_Body {
    int16_t _0;
  };

  struct ExI_Bar_Body {
    uint8_t x;
    int16_t y;
  };

  Tag tag;
  union {
    ExI_Foo_Body foo;
    ExI_Bar_Body bar;
  };
};

struct P {
  enum class Tag : uint8_t {
    P0,
    P1,
  };

  struct P0_Body {
    uint8_t _0;
  };

  struct P1_Body {
    uint8_t _0;
    uint8_t _1;
    uint8_t _2;
  };

  Tag tag;
  union {
    P0_Body p0;
    P1_Body p1;
  };
};

struct Q {
  enum class Tag {
    Ok,
    Err,
  };

  struct Ok_Body {
    Box<uint32_t> _0;
  };

  struct Err_Body {
    uint32_t _0;
  };

  Tag tag;
  union {
    Ok_Body ok;
    Err_Body err;
  };
};

struct R {
  enum class Tag {
    IRFoo,
    IRBar,
    IRBaz,
  };

  struct IRFoo_Body {
    int16_t _0;
  };

  struct IRBar_Body {
    uint8_t x;
    int16_t y;
  };

  Tag tag;
  union {
    IRFoo_Body IRFoo;
    IRBar_Body IRBar;
  };
};

extern ""C"" {

void root(Opaque *opaque,
          A a,
          B b,
          C c,
          D d,
          E e,
          F f,
          G g,
          H h,
          ExI i,
          J j,
          K k,
          L l,
          M m,
          N n,
          O o,
          P p,
          Q q,
          R r);

}  // extern ""C""

#if 0
''' '
#endif

#include <stddef.h>
#include ""testing-helpers.h""
static_assert(offsetof(CBINDGEN_STRUCT(P), tag) == 0, ""unexpected offset for tag"");
static_assert(offsetof(CBINDGEN_STRUCT(P), p0) == 1, ""unexpected offset for p0"");
static_assert(offsetof(CBINDGEN_STRUCT(P), p0) == 1, ""unexpected offset for p1"");
static_assert(sizeof(CBINDGEN_STRUCT(P)) == 4, ""unexpected size for P"");

#if 0
' '''
#endif
".
(** tests/expectations/enum.pyx *)
Definition enum_pyx : string := "#if 0
''' '
#endif

#ifdef __cplusplus
template <typename T>
using Box = T*;
#endif

#if 0
' '''
#endif


from libc.stdint cimport int8_t, int16_t, int32_t, int64_t, intptr_t
from libc.stdint cimport uint8_t, uint16_t, uint32_t, uint64_t, uintptr_t
cdef extern from *:
  ctypedef bint bool
  ctypedef struct va_list

cdef extern from *:

  cdef enum:
    a1 # = 0,
    a2 # = 2,
    a3,
    a4 # = 5,
  ctypedef uint64_t A;

  cdef enum:
    b1 # = 0,
    b2 # = 2,
    b3,
    b4 # = 5,
  ctypedef uint32_t B;

  cdef enum:
    c1 # = 0,
    c2 # = 2,
    c3,
    c4 # = 5,
  ctypedef uint16_t C;

  cdef enum:
    d1 # = 0,
    d2 # = 2,
    d3,
    d4 # = 5,
  ctypedef uint8_t D;

  cdef enum:
    e1 # = 0,
    e2 # = 2,
    e3,
    e4 # = 5,
  ctypedef uintptr_t E;

  cdef enum:
    f1 # = 0,
    f2 # = 2,
    f3,
    f4 # = 5,
  ctypedef intptr_t F;

  ctypedef enum L:
    l1,
    l2,
    l3,
    l4,

  cdef enum:
    m1 # = -1,
    m2 # = 0,
    m3 # = 1,
  ctypedef int8_t M;

  ctypedef enum N:
    n1,
    n2,
    n3,
    n4,

  cdef enum:
    o1,
    o2,
    o3,
    o4,
  ctypedef int8_t O;

  ctypedef struct J:
    pass

  ctypedef struct K:
    pass

  ctypedef struct Opaque:
    pass

  cdef enum:
    Foo,
    Bar,
    Baz,
  ctypedef uint8_t G_Tag;

  ctypedef struct Bar_Body:
    G_Tag tag;
    uint8_t x;
    int16_t y;

  ctypedef union G:
    G_Tag tag;
    int16_t foo;
    Bar_Body bar;

  ctypedef enum H_Tag:
    H_Foo,
    H_Bar,
    H_Baz,

  ctypedef struct H_Bar_Body:
    uint8_t x;
    int16_t y;

  ctypedef struct H:
    H_Tag tag;
    int16_t foo;
    H_Bar_Body bar;

  cdef enum:
    ExI_Foo,
    ExI_Bar,
    ExI_Baz,
  ctypedef uint8_t ExI_Tag;

  ctypedef struct ExI_Bar_Body:
    uint8_t x;
    int16_t y;

  ctypedef struct ExI:
    ExI_Tag tag;
    int16_t foo;
    ExI_Bar_Body bar;

  cdef enum:
    P0,
    P1,
  ctypedef uint8_t P_Tag;

  ctypedef struct P1_Body:
    uint8_t _0;
    uint8_t _1;
    uint8_t _2;

  ctypedef struct P:
    P_Tag tag;
    uint8_t p0;
    P1_Body p1;

  ctypedef enum Q_Tag:
    Ok,
    Err,

  ctypedef struct Q:
    Q_Tag tag;
    uint32_t *ok;
    uint32_t err;

  ctypedef enum R_Tag:
    IRFoo,
    IRBar,
    IRBaz,

  ctypedef struct IRBar_Body:
    uint8_t x;
    int16_t y;

  ctypedef struct R:
    R_Tag tag;
    int16_t IRFoo;
    IRBar_Body IRBar;

  void root(Opaque *opaque,
            A a,
            B b,
            C c,
            D d,
            E e,
            F f,
            G g,
            H h,
            ExI i,
            J j,
            K k,
            L l,
            M m,
            N n,
            O o,
            P p,
            Q q,
            R r);

#if 0
''' '
#endif

#include <stddef.h>
#include ""testing-helpers.h""
static_assert(offsetof(CBINDGEN_STRUCT(P), tag) == 0, ""unexpected offset for tag"");
static_assert(offsetof(CBINDGEN_STRUCT(P), p0) == 1, ""unexpected offset for p0"");
static_assert(offsetof(CBINDGEN_STRUCT(P), p0) == 1, ""unexpected offset for p1"");
static_assert(sizeof(CBINDGEN_STRUCT(P)) == 4, ""unexpected size for P"");

#if 0
' '''
#endif
".
(** tests/expectations/enum_tag.pyx *)
Definition enum_pyx_tag : string := "#if 0
''' '
#endif

#ifdef __cplusplus
template <typename T>
using Box = T*;
#endif

#if 0
' '''
#endif


from libc.stdint cimport int8_t, int16_t, int32_t, int64_t, intptr_t
from libc.stdint cimport uint8_t, uint16_t, uint32_t, uint64_t, uintptr_t
cdef extern from *:
  ctypedef bint bool
  ctypedef struct va_list

cdef extern from *:

  cdef enum:
    a1 # = 0,
    a2 # = 2,
    a3,
    a4 # = 5,
  ctypedef uint64_t A;

  cdef enum:
    b1 # = 0,
    b2 # = 2,
    b3,
    b4 # = 5,
  ctypedef uint32_t B;

  cdef enum:
    c1 # = 0,
    c2 # = 2,
    c3,
    c4 # = 5,
  ctypedef uint16_t C;

  cdef enum:
    d1 # = 0,
    d2 # = 2,
    d3,
    d4 # = 5,
  ctypedef uint8_t D;

  cdef enum:
    e1 # = 0,
    e2 # = 2,
    e3,
    e4 # = 5,
  ctypedef uintptr_t E;

  cdef enum:
    f1 # = 0,
    f2 # = 2,
    f3,
    f4 # = 5,
  ctypedef intptr_t F;

  cdef enum L:
    l1,
    l2,
    l3,
    l4,

  cdef enum:
    m1 # = -1,
    m2 # = 0,
    m3 # = 1,
  ctypedef int8_t M;

  cdef enum N:
    n1,
    n2,
    n3,
    n4,

  cdef enum:
    o1,
    o2,
    o3,
    o4,
  ctypedef int8_t O;

  cdef struct J:
    pass

  cdef struct K:
    pass

  cdef struct Opaque:
    pass

  cdef enum:
    Foo,
    Bar,
    Baz,
  ctypedef uint8_t G_Tag;

  cdef struct Bar_Body:
    G_Tag tag;
    uint8_t x;
    int16_t y;

  cdef union G:
    G_Tag tag;
    int16_t foo;
    Bar_Body bar;

  cdef enum H_Tag:
    H_Foo,
    H_Bar,
    H_Baz,

  cdef struct H_Bar_Body:
    uint8_t x;
    int16_t y;

  cdef struct H:
    H_Tag tag;
    int16_t foo;
    H_Bar_Body bar;

  cdef enum:
    ExI_Foo,
    ExI_Bar,
    ExI_Baz,
  ctypedef uint8_t ExI_Tag;

  cdef struct ExI_Bar_Body:
    uint8_t x;
    int16_t y;

  cdef struct ExI:
    ExI_Tag tag;
    int16_t foo;
    ExI_Bar_Body bar;

  cdef enum:
    P0,
    P1,
  ctypedef uint8_t P_Tag;

  cdef struct P1_Body:
    uint8_t _0;
    uint8_t _1;
    uint8_t _2;

  cdef struct P:
    P_Tag tag;
    uint8_t p0;
    P1_Body p1;

  cdef enum Q_Tag:
    Ok,
    Err,

  cdef struct Q:
    Q_Tag tag;
    uint32_t *ok;
    uint32_t err;

  cdef enum R_Tag:
    IRFoo,
    IRBar,
    IRBaz,

  cdef struct IRBar_Body:
    uint8_t x;
    int16_t y;

  cdef struct R:
    R_Tag tag;
    int16_t IRFoo;
    IRBar_Body IRBar;

  void root(Opaque *opaque,
            A a,
            B b,
            C c,
            D d,
            E e,
            F f,
            G g,
            H h,
            ExI i,
            J j,
            K k,
            L l,
            M m,
            N n,
            O o,
            P p,
            Q q,
            R r);

#if 0
''' '
#endif

#include <stddef.h>
#include ""testing-helpers.h""
static_assert(offsetof(CBINDGEN_STRUCT(P), tag) == 0, ""unexpected offset for tag"");
static_assert(offsetof(CBINDGEN_STRUCT(P), p0) == 1, ""unexpected offset for p0"");
static_assert(offsetof(CBINDGEN_STRUCT(P), p0) == 1, ""unexpected offset for p1"");
static_assert(sizeof(CBINDGEN_STRUCT(P)) == 4, ""unexpected size for P"");

#if 0
' '''
#endif
".
Example enum_reproduced : reproduces (in_file enum_rs) false enum_toml (Some "{
root;
};")
  [(RunC true Type_, [enum_compat]);
   (RunC true Tag, [enum_compat_tag]);
   (RunC true Both, [enum_compat_both]);
   (RunC false Type_, [enum_c]);
   (RunC false Tag, [enum_c_tag]);
   (RunC false Both, [enum_c_both]);
   (RunCxx, [enum_cpp]);
   (RunCython Type_, [enum_pyx]);
   (RunCython Tag, [enum_pyx_tag])] = true.
Proof. vm_compute. reflexivity. Qed.

(** ** tests/rust/enum_discriminant.rs *)
Definition enum_discriminant_rs : list sitem := [
  (ItemConst [] true "FOUR" (SPath (SegPath [] "i8" NoArgs)) (XLit (LitInt 4 "")));
  (ItemEnum [{| at_meta := (AList (Some "repr") [(APath (Some "i8"))]); at_outer := true |}] "E" [] [{| sv_attrs := []; sv_ident :=
  "A"; sv_fields := FieldsUnit; sv_discriminant := (Some (XLit (LitInt 1 ""))) |}; {| sv_attrs := []; sv_ident := "B"; sv_fields :=
  FieldsUnit; sv_discriminant := (Some (XUnary Neg (XLit (LitInt 1 "")))) |}; {| sv_attrs := []; sv_ident := "C"; sv_fields := FieldsUnit;
  sv_discriminant := (Some (XBinary Add (XLit (LitInt 1 "")) (XLit (LitInt 2 "")))) |}; {| sv_attrs := []; sv_ident := "D"; sv_fields
  := FieldsUnit; sv_discriminant := (Some (XPath (SegPath [] "FOUR" NoArgs))) |}; {| sv_attrs := []; sv_ident := "F"; sv_fields :=
  FieldsUnit; sv_discriminant := (Some (XParen (XLit (LitInt 5 "")))) |}; {| sv_attrs := []; sv_ident := "G"; sv_fields := FieldsUnit;
  sv_discriminant := (Some (XCast (XLit (LitByte 54)) (SPath (SegPath [] "i8" NoArgs)))) |}; {| sv_attrs := []; sv_ident := "H"; sv_fields
  := FieldsUnit; sv_discriminant := (Some (XCast (XLit (LitBool false)) (SPath (SegPath [] "i8" NoArgs)))) |}]);
  (ItemFn [{| at_meta := (APath (Some "no_mangle")); at_outer := true |}] true {| sg_ident := "root"; sg_abi := (Some (Some "C")); sg_inputs
  := [(FnTyped PatWild (SRef false (SPath (SegPath [] "E" NoArgs))))]; sg_variadic := false; sg_output := None |})].
Definition enum_discriminant_toml : Config := {| header := None; includes_ := []; sys_includes_ := []; after_includes := None; trailer := None;
  include_guard_ := None; pragma_once := false; no_includes := false; package_version := false; autogen_warning := None; include_version := false;
  namespace := None; namespaces := None; using_namespaces := None; braces := SameLine; line_length := 100; tab_width := 2; line_endings := LF;
  language := Cxx; cpp_compat := false; style := Both; sort_by := SortNone; usize_is_size_t := false; parse := default_parse; export := {| ex_include := []; ex_exclude := []; ex_rename := [("FOUR", "FOURTY_FOUR")]; ex_pre_body := []; ex_body := []; ex_prefix := None; ex_item_types := []; ex_renaming_overrides_prefixing := false; ex_mangle := {| rename_types := RNone; remove_underscores := false |} |};
  layout := {| ly_packed := None; ly_aligned_n := None |}; function := {| fn_prefix := None; fn_postfix := None; fn_must_use := None; fn_deprecated := None; fn_deprecated_with_note := None; fn_args := Auto; fn_rename_args := RNone; fn_swift_name_macro := None; fn_sort_by := None; fn_no_return := None |}; structure := {| st_rename_fields := RNone; st_derive_constructor := false; st_derive_eq := false; st_derive_neq := false; st_derive_lt := false; st_derive_lte := false; st_derive_gt := false; st_derive_gte := false; st_derive_ostream := false; st_associated_constants_in_body := false; st_rename_associated_constant := RNone; st_must_use := None; st_deprecated := None; st_deprecated_with_note := None |}; enumeration := {| en_rename_variants := RNone; en_rename_variant_name_fields := SnakeCase; en_add_sentinel := false; en_prefix_with_name := false; en_derive_helper_methods := false; en_derive_const_casts := false; en_derive_mut_casts := false; en_cast_assert_name := None; en_must_use := None; en_deprecated := None; en_deprecated_with_note := None; en_deprecated_variant := None; en_deprecated_variant_with_note := None; en_derive_tagged_enum_destructor := false; en_derive_tagged_enum_copy_constructor := false; en_derive_tagged_enum_copy_assignment := false; en_derive_ostream := false; en_enum_class := true; en_private_default_tagged_enum_constructor := false |}; constant := {| co_allow_static_const := true; co_allow_constexpr := true; co_sort_by := None |}; defines := []; documentation := true;
  documentation_style := DocAuto; documentation_length := Full; pointer := {| pt_non_null_attribute := None; pt_nullable_attribute := None |}; cython := {| cy_header := None; cy_cimports := [] |}; config_path := None |}.
(** tests/expectations/enum_discriminant.compat.c *)
Definition enum_discriminant_compat : string := "#include <stdarg.h>
#include <stdbool.h>
#include <stdint.h>
#include <stdlib.h>

#define FOURTY_FOUR 4

enum E
#if defined(__cplusplus) || __STDC_VERSION__ >= 202311L
  : int8_t
#endif // defined(__cplusplus) || __STDC_VERSION__ >= 202311L
 {
  A = 1,
  B = -1,
  C = (1 + 2),
  D = FOURTY_FOUR,
  F = 5,
  G = (int8_t)54,
  H = (int8_t)false,
};
#ifndef __cplusplus
#if __STDC_VERSION__ >= 202311L
typedef enum E E;
#else
typedef int8_t E;
#endif // __STDC_VERSION__ >= 202311L
#endif // __cplusplus

#ifdef __cplusplus
extern ""C"" {
#endif // __cplusplus

void root(const E*);

#ifdef __cplusplus
}  // extern ""C""
#endif  // __cplusplus
".
(** tests/expectations/enum_discriminant.c *)
Definition enum_discriminant_c : string := "#include <stdarg.h>
#include <stdbool.h>
#include <stdint.h>
#include <stdlib.h>

#define FOURTY_FOUR 4

enum E
#if __STDC_VERSION__ >= 202311L
  : int8_t
#endif // __STDC_VERSION__ >= 202311L
 {
  A = 1,
  B = -1,
  C = (1 + 2),
  D = FOURTY_FOUR,
  F = 5,
  G = (int8_t)54,
  H = (int8_t)false,
};
#if __STDC_VERSION__ >= 202311L
typedef enum E E;
#else
typedef int8_t E;
#endif // __STDC_VERSION__ >= 202311L

void root(const E*);
".
(** tests/expectations/enum_discriminant.cpp *)
Definition enum_discriminant_cpp : string := "#include <cstdarg>
#include <cstdint>
#include <cstdlib>
#include <ostream>
#include <new>

constexpr static const int8_t FOURTY_FOUR = 4;

enum class E : int8_t {
  A = 1,
  B = -1,
  C = (1 + 2),
  D = FOURTY_FOUR,
  F = 5,
  G = (int8_t)54,
  H = (int8_t)false,
};

extern ""C"" {

void root(const E*);

}  // extern ""C""
".
(** tests/expectations/enum_discriminant.pyx *)
Definition enum_discriminant_pyx : string := "from libc.stdint cimport int8_t, int16_t, int32_t, int64_t, intptr_t
from libc.stdint cimport uint8_t, uint16_t, uint32_t, uint64_t, uintptr_t
cdef extern from *:
  ctypedef bint bool
  ctypedef struct va_list

cdef extern from *:

  const int8_t FOURTY_FOUR # = 4

  cdef enum:
    A # = 1,
    B # = -1,
    C # = (1 + 2),
    D # = FOURTY_FOUR,
    F # = 5,
    G # = <int8_t>54,
    H # = <int8_t>False,
  ctypedef int8_t E;

  void root(const E*);
".
Example enum_discriminant_reproduced : reproduces (in_file enum_discriminant_rs) false enum_discriminant_toml (Some "{
root;
};")
  [(RunC true Type_, [enum_discriminant_compat]);
   (RunC true Tag, [enum_discriminant_compat]);
   (RunC true Both, [enum_discriminant_compat]);
   (RunC false Type_, [enum_discriminant_c]);
   (RunC false Tag, [enum_discriminant_compat; enum_discriminant_c]);
   (RunC false Both, [enum_discriminant_compat; enum_discriminant_c]);
   (RunCxx, [enum_discriminant_cpp]);
   (RunCython Type_, [enum_discriminant_pyx]);
   (RunCython Tag, [enum_discriminant_pyx])] = true.
Proof. vm_compute. reflexivity. Qed.

(** ** tests/rust/enum_self.rs *)
Definition enum_self_rs : list sitem := [
  (ItemStruct [{| at_meta := (AList (Some "repr") [(APath (Some "C"))]); at_outer := true |}] "Foo" [(SGType "T" None)] (FieldsNamed
  [{| sf_attrs := []; sf_ident := (Some "something"); sf_ty := (SPtr false (SPath (SegPath [] "i32" NoArgs))) |}; {| sf_attrs := [];
  sf_ident := (Some "phantom"); sf_ty := (SPath (SegPath ["std"; "marker"] "PhantomData" (AngleArgs [(ArgType (SPath (SegPath [] "T"
  NoArgs)))]))) |}]));
  (ItemEnum [{| at_meta := (AList (Some "repr") [(APath (Some "u8"))]); at_outer := true |}] "Bar" [] [{| sv_attrs := []; sv_ident :=
  "Min"; sv_fields := (FieldsUnnamed [{| sf_attrs := []; sf_ident := None; sf_ty := (SPath (SegPath [] "Foo" (AngleArgs [(ArgType
  (SPath (SegPath [] "Self" NoArgs)))]))) |}]); sv_discriminant := None |}; {| sv_attrs := []; sv_ident := "Max"; sv_fields := (FieldsUnnamed
  [{| sf_attrs := []; sf_ident := None; sf_ty := (SPath (SegPath [] "Foo" (AngleArgs [(ArgType (SPath (SegPath [] "Self" NoArgs)))])))
  |}]); sv_discriminant := None |}; {| sv_attrs := []; sv_ident := "Other"; sv_fields := FieldsUnit; sv_discriminant := None |}]);
  (ItemFn [{| at_meta := (APath (Some "no_mangle")); at_outer := true |}] true {| sg_ident := "root"; sg_abi := (Some (Some "C")); sg_inputs
  := [(FnTyped (PatIdent "b") (SPath (SegPath [] "Bar" NoArgs)))]; sg_variadic := false; sg_output := None |})].
(** tests/expectations/enum_self.compat.c *)
Definition enum_self_compat : string := "#include <stdarg.h>
#include <stdbool.h>
#include <stdint.h>
#include <stdlib.h>

typedef struct {
  const int32_t *something;
} Foo_Bar;

enum Bar_Tag
#if defined(__cplusplus) || __STDC_VERSION__ >= 202311L
  : uint8_t
#endif // defined(__cplusplus) || __STDC_VERSION__ >= 202311L
 {
  Min,
  Max,
  Other,
};
#ifndef __cplusplus
#if __STDC_VERSION__ >= 202311L
typedef enum Bar_Tag Bar_Tag;
#else
typedef uint8_t Bar_Tag;
#endif // __STDC_VERSION__ >= 202311L
#endif // __cplusplus

typedef union {
  Bar_Tag tag;
  struct {
    Bar_Tag min_tag;
    Foo_Bar min;
  };
  struct {
    Bar_Tag max_tag;
    Foo_Bar max;
  };
} Bar;

#ifdef __cplusplus
extern ""C"" {
#endif // __cplusplus

void root(Bar b);

#ifdef __cplusplus
}  // extern ""C""
#endif  // __cplusplus
".
(** tests/expectations/enum_self_tag.compat.c *)
Definition enum_self_compat_tag : string := "#include <stdarg.h>
#include <stdbool.h>
#include <stdint.h>
#include <stdlib.h>

struct Foo_Bar {
  const int32_t *something;
};

enum Bar_Tag
#if defined(__cplusplus) || __STDC_VERSION__ >= 202311L
  : uint8_t
#endif // defined(__cplusplus) || __STDC_VERSION__ >= 202311L
 {
  Min,
  Max,
  Other,
};
#ifndef __cplusplus
#if __STDC_VERSION__ >= 202311L
typedef enum Bar_Tag Bar_Tag;
#else
typedef uint8_t Bar_Tag;
#endif // __STDC_VERSION__ >= 202311L
#endif // __cplusplus

union Bar {
  Bar_Tag tag;
  struct {
    Bar_Tag min_tag;
    struct Foo_Bar min;
  };
  struct {
    Bar_Tag max_tag;
    struct Foo_Bar max;
  };
};

#ifdef __cplusplus
extern ""C"" {
#endif // __cplusplus

void root(union Bar b);

#ifdef __cplusplus
}  // extern ""C""
#endif  // __cplusplus
".
(** tests/expectations/enum_self_both.compat.c *)
Definition enum_self_compat_both : string := "#include <stdarg.h>
#include <stdbool.h>
#include <stdint.h>
#include <stdlib.h>

typedef struct Foo_Bar {
  const int32_t *something;
} Foo_Bar;

enum Bar_Tag
#if defined(__cplusplus) || __STDC_VERSION__ >= 202311L
  : uint8_t
#endif // defined(__cplusplus) || __STDC_VERSION__ >= 202311L
 {
  Min,
  Max,
  Other,
};
#ifndef __cplusplus
#if __STDC_VERSION__ >= 202311L
typedef enum Bar_Tag Bar_Tag;
#else
typedef uint8_t Bar_Tag;
#endif // __STDC_VERSION__ >= 202311L
#endif // __cplusplus

typedef union Bar {
  Bar_Tag tag;
  struct {
    Bar_Tag min_tag;
    struct Foo_Bar min;
  };
  struct {
    Bar_Tag max_tag;
    struct Foo_Bar max;
  };
} Bar;

#ifdef __cplusplus
extern ""C"" {
#endif // __cplusplus

void root(union Bar b);

#ifdef __cplusplus
}  // extern ""C""
#endif  // __cplusplus
".
(** tests/expectations/enum_self.c *)
Definition enum_self_c : string := "#include <stdarg.h>
#include <stdbool.h>
#include <stdint.h>
#include <stdlib.h>

typedef struct {
  const int32_t *something;
} Foo_Bar;

enum Bar_Tag
#if __STDC_VERSION__ >= 202311L
  : uint8_t
#endif // __STDC_VERSION__ >= 202311L
 {
  Min,
  Max,
  Other,
};
#if __STDC_VERSION__ >= 202311L
typedef enum Bar_Tag Bar_Tag;
#else
typedef uint8_t Bar_Tag;
#endif // __STDC_VERSION__ >= 202311L

typedef union {
  Bar_Tag tag;
  struct {
    Bar_Tag min_tag;
    Foo_Bar min;
  };
  struct {
    Bar_Tag max_tag;
    Foo_Bar max;
  };
} Bar;

void root(Bar b);
".
(** tests/expectations/enum_self_tag.c *)
Definition enum_self_c_tag : string := "#include <stdarg.h>
#include <stdbool.h>
#include <stdint.h>
#include <stdlib.h>

struct Foo_Bar {
  const int32_t *something;
};

enum Bar_Tag
#if __STDC_VERSION__ >= 202311L
  : uint8_t
#endif // __STDC_VERSION__ >= 202311L
 {
  Min,
  Max,
  Other,
};
#if __STDC_VERSION__ >= 202311L
typedef enum Bar_Tag Bar_Tag;
#else
typedef uint8_t Bar_Tag;
#endif // __STDC_VERSION__ >= 202311L

union Bar {
  Bar_Tag tag;
  struct {
    Bar_Tag min_tag;
    struct Foo_Bar min;
  };
  struct {
    Bar_Tag max_tag;
    struct Foo_Bar max;
  };
};

void root(union Bar b);
".
(** tests/expectations/enum_self_both.c *)
Definition enum_self_c_both : string := "#include <stdarg.h>
#include <stdbool.h>
#include <stdint.h>
#include <stdlib.h>

typedef struct Foo_Bar {
  const int32_t *something;
} Foo_Bar;

enum Bar_Tag
#if __STDC_VERSION__ >= 202311L
  : uint8_t
#endif // __STDC_VERSION__ >= 202311L
 {
  Min,
  Max,
  Other,
};
#if __STDC_VERSION__ >= 202311L
typedef enum Bar_Tag Bar_Tag;
#else
typedef uint8_t Bar_Tag;
#endif // __STDC_VERSION__ >= 202311L

typedef union Bar {
  Bar_Tag tag;
  struct {
    Bar_Tag min_tag;
    struct Foo_Bar min;
  };
  struct {
    Bar_Tag max_tag;
    struct Foo_Bar max;
  };
} Bar;

void root(union Bar b);
".
(** tests/expectations/enum_self.cpp *)
Definition enum_self_cpp : string := "#include <cstdarg>
#include <cstdint>
#include <cstdlib>
#include <ostream>
#include <new>

template<typename T>
struct Foo {
  const int32_t *something;
};

union Bar {
  enum class Tag : uint8_t {
    Min,
    Max,
    Other,
  };

  struct Min_Body {
    Tag tag;
    Foo<Bar> _0;
  };

  struct Max_Body {
    Tag tag;
    Foo<Bar> _0;
  };

  struct {
    Tag tag;
  };
  Min_Body min;
  Max_Body max;
};

extern ""C"" {

void root(Bar b);

}  // extern ""C""
".
(** tests/expectations/enum_self.pyx *)
Definition enum_self_pyx : string := "from libc.stdint cimport int8_t, int16_t, int32_t, int64_t, intptr_t
from libc.stdint cimport uint8_t, uint16_t, uint32_t, uint64_t, uintptr_t
cdef extern from *:
  ctypedef bint bool
  ctypedef struct va_list

cdef extern from *:

  ctypedef struct Foo_Bar:
    const int32_t *something;

  cdef enum:
    Min,
    Max,
    Other,
  ctypedef uint8_t Bar_Tag;

  ctypedef union Bar:
    Bar_Tag tag;
    Foo_Bar min;
    Foo_Bar max;

  void root(Bar b);
".
(** tests/expectations/enum_self_tag.pyx *)
Definition enum_self_pyx_tag : string := "from libc.stdint cimport int8_t, int16_t, int32_t, int64_t, intptr_t
from libc.stdint cimport uint8_t, uint16_t, uint32_t, uint64_t, uintptr_t
cdef extern from *:
  ctypedef bint bool
  ctypedef struct va_list

cdef extern from *:

  cdef struct Foo_Bar:
    const int32_t *something;

  cdef enum:
    Min,
    Max,
    Other,
  ctypedef uint8_t Bar_Tag;

  cdef union Bar:
    Bar_Tag tag;
    Foo_Bar min;
    Foo_Bar max;

  void root(Bar b);
".
Example enum_self_reproduced : reproduces (in_file enum_self_rs) false default_config (Some "{
root;
};")
  [(RunC true Type_, [enum_self_compat]);
   (RunC true Tag, [enum_self_compat_tag]);
   (RunC true Both, [enum_self_compat_both]);
   (RunC false Type_, [enum_self_c]);
   (RunC false Tag, [enum_self_c_tag]);
   (RunC false Both, [enum_self_c_both]);
   (RunCxx, [enum_self_cpp]);
   (RunCython Type_, [enum_self_pyx]);
   (RunCython Tag, [enum_self_pyx_tag])] = true.
Proof. vm_compute. reflexivity. Qed.

(** ** tests/rust/enum_self_flags.rs *)
Definition enum_self_flags_rs : list sitem := [
  (ItemEnum [{| at_meta := ANameValue (Some "doc") (Some " A three-bit value that represents the axis in which position-area operates on.");
  at_outer := true |}; {| at_meta := ANameValue (Some "doc") (Some " Represented as 3 bits: axis type (physical or logical), direction type (physical or logical),");
  at_outer := true |}; {| at_meta := ANameValue (Some "doc") (Some " axis value."); at_outer := true |}; {| at_meta := (AList (Some
  "repr") [(APath (Some "u8"))]); at_outer := true |}; {| at_meta := (AList (Some "derive") [(APath (Some "Clone")); (APath (Some
  "Copy")); (APath (Some "Debug")); (APath (Some "Eq")); (APath (Some "PartialEq"))]); at_outer := true |}; {| at_meta := (AList (Some
  "allow") [(APath (Some "missing_docs"))]); at_outer := true |}] "PositionAreaAxis" [] [{| sv_attrs := []; sv_ident := "Horizontal";
  sv_fields := FieldsUnit; sv_discriminant := (Some (XLit (LitInt 0 ""))) |}; {| sv_attrs := []; sv_ident := "Vertical"; sv_fields
  := FieldsUnit; sv_discriminant := (Some (XLit (LitInt 1 ""))) |}; {| sv_attrs := []; sv_ident := "X"; sv_fields := FieldsUnit; sv_discriminant
  := (Some (XLit (LitInt 2 ""))) |}; {| sv_attrs := []; sv_ident := "Y"; sv_fields := FieldsUnit; sv_discriminant := (Some (XLit (LitInt
  3 ""))) |}; {| sv_attrs := []; sv_ident := "Inline"; sv_fields := FieldsUnit; sv_discriminant := (Some (XLit (LitInt 6 ""))) |};
  {| sv_attrs := []; sv_ident := "Block"; sv_fields := FieldsUnit; sv_discriminant := (Some (XLit (LitInt 7 ""))) |}]);
  (ItemEnum [{| at_meta := ANameValue (Some "doc") (Some " Specifies which tracks(s) on the axis that the position-area span occupies.");
  at_outer := true |}; {| at_meta := ANameValue (Some "doc") (Some " Represented as 3 bits: start, center, end track."); at_outer
  := true |}; {| at_meta := (AList (Some "repr") [(APath (Some "u8"))]); at_outer := true |}; {| at_meta := (AList (Some "derive")
  [(APath (Some "Clone")); (APath (Some "Copy")); (APath (Some "Debug")); (APath (Some "Eq")); (APath (Some "PartialEq"))]); at_outer
  := true |}] "PositionAreaTrack" [] [{| sv_attrs := [{| at_meta := ANameValue (Some "doc") (Some " First track"); at_outer := true
  |}]; sv_ident := "Start"; sv_fields := FieldsUnit; sv_discriminant := (Some (XLit (LitInt 1 ""))) |}; {| sv_attrs := [{| at_meta
  := ANameValue (Some "doc") (Some " First and center."); at_outer := true |}]; sv_ident := "SpanStart"; sv_fields := FieldsUnit;
  sv_discriminant := (Some (XLit (LitInt 3 ""))) |}; {| sv_attrs := [{| at_meta := ANameValue (Some "doc") (Some " Last track.");
  at_outer := true |}]; sv_ident := "End"; sv_fields := FieldsUnit; sv_discriminant := (Some (XLit (LitInt 4 ""))) |}; {| sv_attrs
  := [{| at_meta := ANameValue (Some "doc") (Some " Last and center."); at_outer := true |}]; sv_ident := "SpanEnd"; sv_fields :=
  FieldsUnit; sv_discriminant := (Some (XLit (LitInt 6 ""))) |}; {| sv_attrs := [{| at_meta := ANameValue (Some "doc") (Some " Center track.");
  at_outer := true |}]; sv_ident := "Center"; sv_fields := FieldsUnit; sv_discriminant := (Some (XLit (LitInt 2 ""))) |}; {| sv_attrs
  := [{| at_meta := ANameValue (Some "doc") (Some " All tracks"); at_outer := true |}]; sv_ident := "SpanAll"; sv_fields := FieldsUnit;
  sv_discriminant := (Some (XLit (LitInt 7 ""))) |}]);
  (ItemConst [] true "AXIS_SHIFT" (SPath (SegPath [] "usize" NoArgs)) (XLit (LitInt 3 "")));
  (ItemConst [] true "SELF_WM_SHIFT" (SPath (SegPath [] "usize" NoArgs)) (XLit (LitInt 6 "")));
  (ItemConst [] true "SELF_WM" (SPath (SegPath [] "u8" NoArgs)) (XBinary Shl (XLit (LitInt 1 "u8")) (XLit (LitInt 6 ""))));
  (ItemEnum [{| at_meta := (AList (Some "derive") [(APath (Some "Clone")); (APath (Some "Copy")); (APath (Some "Debug")); (APath (Some
  "Default")); (APath (Some "Eq")); (APath (Some "PartialEq"))]); at_outer := true |}; {| at_meta := (AList (Some "allow") [(APath
  (Some "missing_docs"))]); at_outer := true |}; {| at_meta := (AList (Some "repr") [(APath (Some "u8"))]); at_outer := true |}; {|
  at_meta := ANameValue (Some "doc") (Some " Possible values for the `position-area` property's keywords."); at_outer := true |};
  {| at_meta := ANameValue (Some "doc") (Some " Represented by [0z xxx yyy], where z means ""self wm resolution"", xxx is the type (as in");
  at_outer := true |}; {| at_meta := ANameValue (Some "doc") (Some " PositionAreaAxis and yyy is the PositionAreaTrack"); at_outer
  := true |}; {| at_meta := ANameValue (Some "doc") (Some " https://drafts.csswg.org/css-anchor-position-1/#propdef-position-area");
  at_outer := true |}] "PositionAreaKeyword" [] [{| sv_attrs := [{| at_meta := (APath (Some "default")); at_outer := true |}]; sv_ident
  := "None"; sv_fields := FieldsUnit; sv_discriminant := (Some (XLit (LitInt 0 ""))) |}; {| sv_attrs := []; sv_ident := "Center";
  sv_fields := FieldsUnit; sv_discriminant := (Some (XCast (XPath (SegPath ["PositionAreaTrack"] "Center" NoArgs)) (SPath (SegPath
  [] "u8" NoArgs)))) |}; {| sv_attrs := []; sv_ident := "SpanAll"; sv_fields := FieldsUnit; sv_discriminant := (Some (XCast (XPath
  (SegPath ["PositionAreaTrack"] "SpanAll" NoArgs)) (SPath (SegPath [] "u8" NoArgs)))) |}; {| sv_attrs := []; sv_ident := "Start";
  sv_fields := FieldsUnit; sv_discriminant := (Some (XCast (XPath (SegPath ["PositionAreaTrack"] "Start" NoArgs)) (SPath (SegPath
  [] "u8" NoArgs)))) |}; {| sv_attrs := []; sv_ident := "End"; sv_fields := FieldsUnit; sv_discriminant := (Some (XCast (XPath (SegPath
  ["PositionAreaTrack"] "End" NoArgs)) (SPath (SegPath [] "u8" NoArgs)))) |}; {| sv_attrs := []; sv_ident := "SpanStart"; sv_fields
  := FieldsUnit; sv_discriminant := (Some (XCast (XPath (SegPath ["PositionAreaTrack"] "SpanStart" NoArgs)) (SPath (SegPath [] "u8"
  NoArgs)))) |}; {| sv_attrs := []; sv_ident := "SpanEnd"; sv_fields := FieldsUnit; sv_discriminant := (Some (XCast (XPath (SegPath
  ["PositionAreaTrack"] "SpanEnd" NoArgs)) (SPath (SegPath [] "u8" NoArgs)))) |}; {| sv_attrs := []; sv_ident := "Top"; sv_fields
  := FieldsUnit; sv_discriminant := (Some (XBinary BitOr (XParen (XBinary Shl (XParen (XCast (XPath (SegPath ["PositionAreaAxis"]
  "Vertical" NoArgs)) (SPath (SegPath [] "u8" NoArgs)))) (XPath (SegPath [] "AXIS_SHIFT" NoArgs)))) (XCast (XPath (SegPath ["PositionAreaTrack"]
  "Start" NoArgs)) (SPath (SegPath [] "u8" NoArgs))))) |}; {| sv_attrs := []; sv_ident := "Bottom"; sv_fields := FieldsUnit; sv_discriminant
  := (Some (XBinary BitOr (XParen (XBinary Shl (XParen (XCast (XPath (SegPath ["PositionAreaAxis"] "Vertical" NoArgs)) (SPath (SegPath
  [] "u8" NoArgs)))) (XPath (SegPath [] "AXIS_SHIFT" NoArgs)))) (XCast (XPath (SegPath ["PositionAreaTrack"] "End" NoArgs)) (SPath
  (SegPath [] "u8" NoArgs))))) |}]);
  (ItemFn [{| at_meta := (APath (Some "no_mangle")); at_outer := true |}] false {| sg_ident := "root"; sg_abi := (Some (Some "C"));
  sg_inputs := [(FnTyped PatWild (SPath (SegPath [] "PositionAreaKeyword" NoArgs))); (FnTyped PatWild (SPath (SegPath [] "PositionAreaTrack"
  NoArgs))); (FnTyped PatWild (SPath (SegPath [] "PositionAreaAxis" NoArgs)))]; sg_variadic := false; sg_output := None |})].
Definition enum_self_flags_toml : Config := {| header := (Some "#if 0
''' '
#endif

// FIXME: Mis-generated in C mode with enum.prefix_with_name = false, and in
// C++ mode with it set to true...
#if defined(__cplusplus) && !defined(CBINDGEN_CPP_COMPAT)
"); includes_ := []; sys_includes_ := []; after_includes := None; trailer := (Some "#endif
#if 0
' '''
#endif
");
  include_guard_ := None; pragma_once := false; no_includes := false; package_version := false; autogen_warning := None; include_version := false;
  namespace := None; namespaces := None; using_namespaces := None; braces := SameLine; line_length := 100; tab_width := 2; line_endings := LF;
  language := Cxx; cpp_compat := false; style := Both; sort_by := SortNone; usize_is_size_t := false; parse := default_parse; export := {| ex_include := []; ex_exclude := []; ex_rename := []; ex_pre_body := []; ex_body := []; ex_prefix := None; ex_item_types := []; ex_renaming_overrides_prefixing := false; ex_mangle := {| rename_types := RNone; remove_underscores := false |} |};
  layout := {| ly_packed := None; ly_aligned_n := None |}; function := {| fn_prefix := None; fn_postfix := None; fn_must_use := None; fn_deprecated := None; fn_deprecated_with_note := None; fn_args := Auto; fn_rename_args := RNone; fn_swift_name_macro := None; fn_sort_by := None; fn_no_return := None |}; structure := {| st_rename_fields := RNone; st_derive_constructor := false; st_derive_eq := false; st_derive_neq := false; st_derive_lt := false; st_derive_lte := false; st_derive_gt := false; st_derive_gte := false; st_derive_ostream := false; st_associated_constants_in_body := true; st_rename_associated_constant := RNone; st_must_use := None; st_deprecated := None; st_deprecated_with_note := None |}; enumeration := {| en_rename_variants := RNone; en_rename_variant_name_fields := SnakeCase; en_add_sentinel := false; en_prefix_with_name := false; en_derive_helper_methods := false; en_derive_const_casts := false; en_derive_mut_casts := false; en_cast_assert_name := None; en_must_use := None; en_deprecated := None; en_deprecated_with_note := None; en_deprecated_variant := None; en_deprecated_variant_with_note := None; en_derive_tagged_enum_destructor := false; en_derive_tagged_enum_copy_constructor := false; en_derive_tagged_enum_copy_assignment := false; en_derive_ostream := false; en_enum_class := true; en_private_default_tagged_enum_constructor := false |}; constant := {| co_allow_static_const := true; co_allow_constexpr := true; co_sort_by := None |}; defines := []; documentation := true;
  documentation_style := DocAuto; documentation_length := Full; pointer := {| pt_non_null_attribute := None; pt_nullable_attribute := None |}; cython := {| cy_header := None; cy_cimports := [] |}; config_path := None |}.
(** tests/expectations/enum_self_flags.compat.c *)
Definition enum_self_flags_compat : string := "#if 0
''' '
#endif

// FIXME: Mis-generated in C mode with enum.prefix_with_name = false, and in
// C++ mode with it set to true...
#if defined(__cplusplus) && !defined(CBINDGEN_CPP_COMPAT)


#include <stdarg.h>
#include <stdbool.h>
#include <stdint.h>
#include <stdlib.h>

#define AXIS_SHIFT 3

#define SELF_WM_SHIFT 6

#define SELF_WM (1 << 6)

/**
 * Specifies which tracks(s) on the axis that the position-area span occupies.
 * Represented as 3 bits: start, center, end track.
 */
enum PositionAreaTrack
#if defined(__cplusplus) || __STDC_VERSION__ >= 202311L
  : uint8_t
#endif // defined(__cplusplus) || __STDC_VERSION__ >= 202311L
 {
  /**
   * First track
   */
  Start = 1,
  /**
   * First and center.
   */
  SpanStart = 3,
  /**
   * Last track.
   */
  End = 4,
  /**
   * Last and center.
   */
  SpanEnd = 6,
  /**
   * Center track.
   */
  Center = 2,
  /**
   * All tracks
   */
  SpanAll = 7,
};
#ifndef __cplusplus
#if __STDC_VERSION__ >= 202311L
typedef enum PositionAreaTrack PositionAreaTrack;
#else
typedef uint8_t PositionAreaTrack;
#endif // __STDC_VERSION__ >= 202311L
#endif // __cplusplus

/**
 * A three-bit value that represents the axis in which position-area operates on.
 * Represented as 3 bits: axis type (physical or logical), direction type (physical or logical),
 * axis value.
 */
enum PositionAreaAxis
#if defined(__cplusplus) || __STDC_VERSION__ >= 202311L
  : uint8_t
#endif // defined(__cplusplus) || __STDC_VERSION__ >= 202311L
 {
  Horizontal = 0,
  Vertical = 1,
  X = 2,
  Y = 3,
  Inline = 6,
  Block = 7,
};
#ifndef __cplusplus
#if __STDC_VERSION__ >= 202311L
typedef enum PositionAreaAxis PositionAreaAxis;
#else
typedef uint8_t PositionAreaAxis;
#endif // __STDC_VERSION__ >= 202311L
#endif // __cplusplus

/**
 * Possible values for the `position-area` property's keywords.
 * Represented by [0z xxx yyy], where z means ""self wm resolution"", xxx is the type (as in
 * PositionAreaAxis and yyy is the PositionAreaTrack
 * https://drafts.csswg.org/css-anchor-position-1/#propdef-position-area
 */
enum PositionAreaKeyword
#if defined(__cplusplus) || __STDC_VERSION__ >= 202311L
  : uint8_t
#endif // defined(__cplusplus) || __STDC_VERSION__ >= 202311L
 {
  None = 0,
  Center = (uint8_t)Center,
  SpanAll = (uint8_t)SpanAll,
  Start = (uint8_t)Start,
  End = (uint8_t)End,
  SpanStart = (uint8_t)SpanStart,
  SpanEnd = (uint8_t)SpanEnd,
  Top = (((uint8_t)Vertical << AXIS_SHIFT) | (uint8_t)Start),
  Bottom = (((uint8_t)Vertical << AXIS_SHIFT) | (uint8_t)End),
};
#ifndef __cplusplus
#if __STDC_VERSION__ >= 202311L
typedef enum PositionAreaKeyword PositionAreaKeyword;
#else
typedef uint8_t PositionAreaKeyword;
#endif // __STDC_VERSION__ >= 202311L
#endif // __cplusplus

#ifdef __cplusplus
extern ""C"" {
#endif // __cplusplus

void root(PositionAreaKeyword, PositionAreaTrack, PositionAreaAxis);

#ifdef __cplusplus
}  // extern ""C""
#endif  // __cplusplus

#endif
#if 0
' '''
#endif
".
(** tests/expectations/enum_self_flags.c *)
Definition enum_self_flags_c : string := "#if 0
''' '
#endif

// FIXME: Mis-generated in C mode with enum.prefix_with_name = false, and in
// C++ mode with it set to true...
#if defined(__cplusplus) && !defined(CBINDGEN_CPP_COMPAT)


#include <stdarg.h>
#include <stdbool.h>
#include <stdint.h>
#include <stdlib.h>

#define AXIS_SHIFT 3

#define SELF_WM_SHIFT 6

#define SELF_WM (1 << 6)

/**
 * Specifies which tracks(s) on the axis that the position-area span occupies.
 * Represented as 3 bits: start, center, end track.
 */
enum PositionAreaTrack
#if __STDC_VERSION__ >= 202311L
  : uint8_t
#endif // __STDC_VERSION__ >= 202311L
 {
  /**
   * First track
   */
  Start = 1,
  /**
   * First and center.
   */
  SpanStart = 3,
  /**
   * Last track.
   */
  End = 4,
  /**
   * Last and center.
   */
  SpanEnd = 6,
  /**
   * Center track.
   */
  Center = 2,
  /**
   * All tracks
   */
  SpanAll = 7,
};
#if __STDC_VERSION__ >= 202311L
typedef enum PositionAreaTrack PositionAreaTrack;
#else
typedef uint8_t PositionAreaTrack;
#endif // __STDC_VERSION__ >= 202311L

/**
 * A three-bit value that represents the axis in which position-area operates on.
 * Represented as 3 bits: axis type (physical or logical), direction type (physical or logical),
 * axis value.
 */
enum PositionAreaAxis
#if __STDC_VERSION__ >= 202311L
  : uint8_t
#endif // __STDC_VERSION__ >= 202311L
 {
  Horizontal = 0,
  Vertical = 1,
  X = 2,
  Y = 3,
  Inline = 6,
  Block = 7,
};
#if __STDC_VERSION__ >= 202311L
typedef enum PositionAreaAxis PositionAreaAxis;
#else
typedef uint8_t PositionAreaAxis;
#endif // __STDC_VERSION__ >= 202311L

/**
 * Possible values for the `position-area` property's keywords.
 * Represented by [0z xxx yyy], where z means ""self wm resolution"", xxx is the type (as in
 * PositionAreaAxis and yyy is the PositionAreaTrack
 * https://drafts.csswg.org/css-anchor-position-1/#propdef-position-area
 */
enum PositionAreaKeyword
#if __STDC_VERSION__ >= 202311L
  : uint8_t
#endif // __STDC_VERSION__ >= 202311L
 {
  None = 0,
  Center = (uint8_t)Center,
  SpanAll = (uint8_t)SpanAll,
  Start = (uint8_t)Start,
  End = (uint8_t)End,
  SpanStart = (uint8_t)SpanStart,
  SpanEnd = (uint8_t)SpanEnd,
  Top = (((uint8_t)Vertical << AXIS_SHIFT) | (uint8_t)Start),
  Bottom = (((uint8_t)Vertical << AXIS_SHIFT) | (uint8_t)End),
};
#if __STDC_VERSION__ >= 202311L
typedef enum PositionAreaKeyword PositionAreaKeyword;
#else
typedef uint8_t PositionAreaKeyword;
#endif // __STDC_VERSION__ >= 202311L

void root(PositionAreaKeyword, PositionAreaTrack, PositionAreaAxis);

#endif
#if 0
' '''
#endif
".
(** tests/expectations/enum_self_flags.cpp *)
Definition enum_self_flags_cpp : string := "#if 0
''' '
#endif

// FIXME: Mis-generated in C mode with enum.prefix_with_name = false, and in
// C++ mode with it set to true...
#if defined(__cplusplus) && !defined(CBINDGEN_CPP_COMPAT)


#include <cstdarg>
#include <cstdint>
#include <cstdlib>
#include <ostream>
#include <new>

constexpr static const uintptr_t AXIS_SHIFT = 3;

constexpr static const uintptr_t SELF_WM_SHIFT = 6;

constexpr static const uint8_t SELF_WM = (1 << 6);

/// Specifies which tracks(s) on the axis that the position-area span occupies.
/// Represented as 3 bits: start, center, end track.
enum class PositionAreaTrack : uint8_t {
  /// First track
  Start = 1,
  /// First and center.
  SpanStart = 3,
  /// Last track.
  End = 4,
  /// Last and center.
  SpanEnd = 6,
  /// Center track.
  Center = 2,
  /// All tracks
  SpanAll = 7,
};

/// A three-bit value that represents the axis in which position-area operates on.
/// Represented as 3 bits: axis type (physical or logical), direction type (physical or logical),
/// axis value.
enum class PositionAreaAxis : uint8_t {
  Horizontal = 0,
  Vertical = 1,
  X = 2,
  Y = 3,
  Inline = 6,
  Block = 7,
};

/// Possible values for the `position-area` property's keywords.
/// Represented by [0z xxx yyy], where z means ""self wm resolution"", xxx is the type (as in
/// PositionAreaAxis and yyy is the PositionAreaTrack
/// https://drafts.csswg.org/css-anchor-position-1/#propdef-position-area
enum class PositionAreaKeyword : uint8_t {
  None = 0,
  Center = (uint8_t)PositionAreaTrack::Center,
  SpanAll = (uint8_t)PositionAreaTrack::SpanAll,
  Start = (uint8_t)PositionAreaTrack::Start,
  End = (uint8_t)PositionAreaTrack::End,
  SpanStart = (uint8_t)PositionAreaTrack::SpanStart,
  SpanEnd = (uint8_t)PositionAreaTrack::SpanEnd,
  Top = (((uint8_t)PositionAreaAxis::Vertical << AXIS_SHIFT) | (uint8_t)PositionAreaTrack::Start),
  Bottom = (((uint8_t)PositionAreaAxis::Vertical << AXIS_SHIFT) | (uint8_t)PositionAreaTrack::End),
};

extern ""C"" {

void root(PositionAreaKeyword, PositionAreaTrack, PositionAreaAxis);

}  // extern ""C""

#endif
#if 0
' '''
#endif
".
(** tests/expectations/enum_self_flags.pyx *)
Definition enum_self_flags_pyx : string := "#if 0
''' '
#endif

// FIXME: Mis-generated in C mode with enum.prefix_with_name = false, and in
// C++ mode with it set to true...
#if defined(__cplusplus) && !defined(CBINDGEN_CPP_COMPAT)


from libc.stdint cimport int8_t, int16_t, int32_t, int64_t, intptr_t
from libc.stdint cimport uint8_t, uint16_t, uint32_t, uint64_t, uintptr_t
cdef extern from *:
  ctypedef bint bool
  ctypedef struct va_list

cdef extern from *:

  const uintptr_t AXIS_SHIFT # = 3

  const uintptr_t SELF_WM_SHIFT # = 6

  const uint8_t SELF_WM # = (1 << 6)

  # Specifies which tracks(s) on the axis that the position-area span occupies.
  # Represented as 3 bits: start, center, end track.
  cdef enum:
    # First track
    Start # = 1,
    # First and center.
    SpanStart # = 3,
    # Last track.
    End # = 4,
    # Last and center.
    SpanEnd # = 6,
    # Center track.
    Center # = 2,
    # All tracks
    SpanAll # = 7,
  ctypedef uint8_t PositionAreaTrack;

  # A three-bit value that represents the axis in which position-area operates on.
  # Represented as 3 bits: axis type (physical or logical), direction type (physical or logical),
  # axis value.
  cdef enum:
    Horizontal # = 0,
    Vertical # = 1,
    X # = 2,
    Y # = 3,
    Inline # = 6,
    Block # = 7,
  ctypedef uint8_t PositionAreaAxis;

  # Possible values for the `position-area` property's keywords.
  # Represented by [0z xxx yyy], where z means ""self wm resolution"", xxx is the type (as in
  # PositionAreaAxis and yyy is the PositionAreaTrack
  # https://drafts.csswg.org/css-anchor-position-1/#propdef-position-area
  cdef enum:
    None # = 0,
    Center # = <uint8_t>Center,
    SpanAll # = <uint8_t>SpanAll,
    Start # = <uint8_t>Start,
    End # = <uint8_t>End,
    SpanStart # = <uint8_t>SpanStart,
    SpanEnd # = <uint8_t>SpanEnd,
    Top # = ((<uint8_t>Vertical << AXIS_SHIFT) | <uint8_t>Start),
    Bottom # = ((<uint8_t>Vertical << AXIS_SHIFT) | <uint8_t>End),
  ctypedef uint8_t PositionAreaKeyword;

  void root(PositionAreaKeyword, PositionAreaTrack, PositionAreaAxis);

#endif
#if 0
' '''
#endif
".
Example enum_self_flags_reproduced : reproduces (in_file enum_self_flags_rs) false enum_self_flags_toml (Some "{
root;
};")
  [(RunC true Type_, [enum_self_flags_compat]);
   (RunC true Tag, [enum_self_flags_compat]);
   (RunC true Both, [enum_self_flags_compat]);
   (RunC false Type_, [enum_self_flags_c]);
   (RunC false Tag, [enum_self_flags_compat; enum_self_flags_c]);
   (RunC false Both, [enum_self_flags_compat; enum_self_flags_c]);
   (RunCxx, [enum_self_flags_cpp]);
   (RunCython Type_, [enum_self_flags_pyx]);
   (RunCython Tag, [enum_self_flags_pyx])] = true.
Proof. vm_compute. reflexivity. Qed.

