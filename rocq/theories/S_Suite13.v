(** See S_Suite.v; generated. *)
Require Import Coq.Strings.String Coq.Strings.Ascii Coq.Lists.List Coq.Bool.Bool Coq.NArith.NArith.
From Verif Require Import Base M_Config M_Cfg M_Type M_Ir M_Item M_Attr M_Syn M_Library M_Loader M_Parser M_Bindings M_Backend S_Heck S_Suite.
Import ListNotations.
Open Scope string_scope.

(** ** tests/rust/sentinel.rs *)
Definition sentinel_rs : list sitem := [
  (ItemEnum [{| at_meta := (AList (Some "repr") [(APath (Some "u8"))]); at_outer := true |}] "A" [] [{| sv_attrs := []; sv_ident :=
  "A1"; sv_fields := FieldsUnit; sv_discriminant := None |}; {| sv_attrs := []; sv_ident := "A2"; sv_fields := FieldsUnit; sv_discriminant
  := None |}; {| sv_attrs := []; sv_ident := "A3"; sv_fields := FieldsUnit; sv_discriminant := None |}]);
  (ItemEnum [{| at_meta := (AList (Some "repr") [(APath (Some "u8"))]); at_outer := true |}] "B" [] [{| sv_attrs := []; sv_ident :=
  "B1"; sv_fields := FieldsUnit; sv_discriminant := None |}; {| sv_attrs := []; sv_ident := "B2"; sv_fields := FieldsUnit; sv_discriminant
  := None |}; {| sv_attrs := []; sv_ident := "B3"; sv_fields := FieldsUnit; sv_discriminant := None |}]);
  (ItemEnum [{| at_meta := (AList (Some "repr") [(APath (Some "u8"))]); at_outer := true |}] "C" [] [{| sv_attrs := []; sv_ident :=
  "C1"; sv_fields := (FieldsNamed [{| sf_attrs := []; sf_ident := (Some "a"); sf_ty := (SPath (SegPath [] "u32" NoArgs)) |}]); sv_discriminant
  := None |}; {| sv_attrs := []; sv_ident := "C2"; sv_fields := (FieldsNamed [{| sf_attrs := []; sf_ident := (Some "b"); sf_ty :=
  (SPath (SegPath [] "u32" NoArgs)) |}]); sv_discriminant := None |}; {| sv_attrs := []; sv_ident := "C3"; sv_fields := FieldsUnit;
  sv_discriminant := None |}]);
  (ItemFn [{| at_meta := (APath (Some "no_mangle")); at_outer := true |}] true {| sg_ident := "root"; sg_abi := (Some (Some "C")); sg_inputs
  := [(FnTyped (PatIdent "a") (SPath (SegPath [] "A" NoArgs))); (FnTyped (PatIdent "b") (SPath (SegPath [] "B" NoArgs))); (FnTyped
  (PatIdent "c") (SPath (SegPath [] "C" NoArgs)))]; sg_variadic := false; sg_output := None |})].
Definition sentinel_toml : Config := {| header := None; includes_ := []; sys_includes_ := []; after_includes := None; trailer := None;
  include_guard_ := None; pragma_once := false; no_includes := false; package_version := false; autogen_warning := None; include_version := false;
  namespace := None; namespaces := None; using_namespaces := None; braces := SameLine; line_length := 100; tab_width := 2; line_endings := LF;
  language := Cxx; cpp_compat := false; style := Both; sort_by := SortNone; usize_is_size_t := false; parse := default_parse; export := {| ex_include := []; ex_exclude := []; ex_rename := []; ex_pre_body := []; ex_body := []; ex_prefix := None; ex_item_types := []; ex_renaming_overrides_prefixing := false; ex_mangle := {| rename_types := RNone; remove_underscores := false |} |};
  layout := {| ly_packed := None; ly_aligned_n := None |}; function := {| fn_prefix := None; fn_postfix := None; fn_must_use := None; fn_deprecated := None; fn_deprecated_with_note := None; fn_args := Auto; fn_rename_args := RNone; fn_swift_name_macro := None; fn_sort_by := None; fn_no_return := None |}; structure := {| st_rename_fields := RNone; st_derive_constructor := false; st_derive_eq := false; st_derive_neq := false; st_derive_lt := false; st_derive_lte := false; st_derive_gt := false; st_derive_gte := false; st_derive_ostream := false; st_associated_constants_in_body := false; st_rename_associated_constant := RNone; st_must_use := None; st_deprecated := None; st_deprecated_with_note := None |}; enumeration := {| en_rename_variants := RNone; en_rename_variant_name_fields := SnakeCase; en_add_sentinel := true; en_prefix_with_name := true; en_derive_helper_methods := false; en_derive_const_casts := false; en_derive_mut_casts := false; en_cast_assert_name := None; en_must_use := None; en_deprecated := None; en_deprecated_with_note := None; en_deprecated_variant := None; en_deprecated_variant_with_note := None; en_derive_tagged_enum_destructor := false; en_derive_tagged_enum_copy_constructor := false; en_derive_tagged_enum_copy_assignment := false; en_derive_ostream := false; en_enum_class := true; en_private_default_tagged_enum_constructor := false |}; constant := {| co_allow_static_const := true; co_allow_constexpr := true; co_sort_by := None |}; defines := []; documentation := true;
  documentation_style := DocAuto; documentation_length := Full; pointer := {| pt_non_null_attribute := None; pt_nullable_attribute := None |}; cython := {| cy_header := None; cy_cimports := [] |}; config_path := None |}.
(** tests/expectations/sentinel.compat.c *)
Definition sentinel_compat : string := "#include <stdarg.h>
#include <stdbool.h>
#include <stdint.h>
#include <stdlib.h>

enum A
#if defined(__cplusplus) || __STDC_VERSION__ >= 202311L
  : uint8_t
#endif // defined(__cplusplus) || __STDC_VERSION__ >= 202311L
 {
  A_A1,
  A_A2,
  A_A3,
  /**
   * Must be last for serialization purposes
   */
  A_Sentinel,
};
#ifndef __cplusplus
#if __STDC_VERSION__ >= 202311L
typedef enum A A;
#else
typedef uint8_t A;
#endif // __STDC_VERSION__ >= 202311L
#endif // __cplusplus

enum B
#if defined(__cplusplus) || __STDC_VERSION__ >= 202311L
  : uint8_t
#endif // defined(__cplusplus) || __STDC_VERSION__ >= 202311L
 {
  B_B1,
  B_B2,
  B_B3,
  /**
   * Must be last for serialization purposes
   */
  B_Sentinel,
};
#ifndef __cplusplus
#if __STDC_VERSION__ >= 202311L
typedef enum B B;
#else
typedef uint8_t B;
#endif // __STDC_VERSION__ >= 202311L
#endif // __cplusplus

enum C_Tag
#if defined(__cplusplus) || __STDC_VERSION__ >= 202311L
  : uint8_t
#endif // defined(__cplusplus) || __STDC_VERSION__ >= 202311L
 {
  C_C1,
  C_C2,
  C_C3,
  /**
   * Must be last for serialization purposes
   */
  C_Sentinel,
};
#ifndef __cplusplus
#if __STDC_VERSION__ >= 202311L
typedef enum C_Tag C_Tag;
#else
typedef uint8_t C_Tag;
#endif // __STDC_VERSION__ >= 202311L
#endif // __cplusplus

typedef struct {
  C_Tag tag;
  uint32_t a;
} C_C1_Body;

typedef struct {
  C_Tag tag;
  uint32_t b;
} C_C2_Body;

typedef union {
  C_Tag tag;
  C_C1_Body c1;
  C_C2_Body c2;
} C;

#ifdef __cplusplus
extern ""C"" {
#endif // __cplusplus

void root(A a, B b, C c);

#ifdef __cplusplus
}  // extern ""C""
#endif  // __cplusplus
".
(** tests/expectations/sentinel_tag.compat.c *)
Definition sentinel_compat_tag : string := "#include <stdarg.h>
#include <stdbool.h>
#include <stdint.h>
#include <stdlib.h>

enum A
#if defined(__cplusplus) || __STDC_VERSION__ >= 202311L
  : uint8_t
#endif // defined(__cplusplus) || __STDC_VERSION__ >= 202311L
 {
  A_A1,
  A_A2,
  A_A3,
  /**
   * Must be last for serialization purposes
   */
  A_Sentinel,
};
#ifndef __cplusplus
#if __STDC_VERSION__ >= 202311L
typedef enum A A;
#else
typedef uint8_t A;
#endif // __STDC_VERSION__ >= 202311L
#endif // __cplusplus

enum B
#if defined(__cplusplus) || __STDC_VERSION__ >= 202311L
  : uint8_t
#endif // defined(__cplusplus) || __STDC_VERSION__ >= 202311L
 {
  B_B1,
  B_B2,
  B_B3,
  /**
   * Must be last for serialization purposes
   */
  B_Sentinel,
};
#ifndef __cplusplus
#if __STDC_VERSION__ >= 202311L
typedef enum B B;
#else
typedef uint8_t B;
#endif // __STDC_VERSION__ >= 202311L
#endif // __cplusplus

enum C_Tag
#if defined(__cplusplus) || __STDC_VERSION__ >= 202311L
  : uint8_t
#endif // defined(__cplusplus) || __STDC_VERSION__ >= 202311L
 {
  C_C1,
  C_C2,
  C_C3,
  /**
   * Must be last for serialization purposes
   */
  C_Sentinel,
};
#ifndef __cplusplus
#if __STDC_VERSION__ >= 202311L
typedef enum C_Tag C_Tag;
#else
typedef uint8_t C_Tag;
#endif // __STDC_VERSION__ >= 202311L
#endif // __cplusplus

struct C_C1_Body {
  C_Tag tag;
  uint32_t a;
};

struct C_C2_Body {
  C_Tag tag;
  uint32_t b;
};

union C {
  C_Tag tag;
  struct C_C1_Body c1;
  struct C_C2_Body c2;
};

#ifdef __cplusplus
extern ""C"" {
#endif // __cplusplus

void root(A a, B b, union C c);

#ifdef __cplusplus
}  // extern ""C""
#endif  // __cplusplus
".
(** tests/expectations/sentinel_both.compat.c *)
Definition sentinel_compat_both : string := "#include <stdarg.h>
#include <stdbool.h>
#include <stdint.h>
#include <stdlib.h>

enum A
#if defined(__cplusplus) || __STDC_VERSION__ >= 202311L
  : uint8_t
#endif // defined(__cplusplus) || __STDC_VERSION__ >= 202311L
 {
  A_A1,
  A_A2,
  A_A3,
  /**
   * Must be last for serialization purposes
   */
  A_Sentinel,
};
#ifndef __cplusplus
#if __STDC_VERSION__ >= 202311L
typedef enum A A;
#else
typedef uint8_t A;
#endif // __STDC_VERSION__ >= 202311L
#endif // __cplusplus

enum B
#if defined(__cplusplus) || __STDC_VERSION__ >= 202311L
  : uint8_t
#endif // defined(__cplusplus) || __STDC_VERSION__ >= 202311L
 {
  B_B1,
  B_B2,
  B_B3,
  /**
   * Must be last for serialization purposes
   */
  B_Sentinel,
};
#ifndef __cplusplus
#if __STDC_VERSION__ >= 202311L
typedef enum B B;
#else
typedef uint8_t B;
#endif // __STDC_VERSION__ >= 202311L
#endif // __cplusplus

enum C_Tag
#if defined(__cplusplus) || __STDC_VERSION__ >= 202311L
  : uint8_t
#endif // defined(__cplusplus) || __STDC_VERSION__ >= 202311L
 {
  C_C1,
  C_C2,
  C_C3,
  /**
   * Must be last for serialization purposes
   */
  C_Sentinel,
};
#ifndef __cplusplus
#if __STDC_VERSION__ >= 202311L
typedef enum C_Tag C_Tag;
#else
typedef uint8_t C_Tag;
#endif // __STDC_VERSION__ >= 202311L
#endif // __cplusplus

typedef struct C_C1_Body {
  C_Tag tag;
  uint32_t a;
} C_C1_Body;

typedef struct C_C2_Body {
  C_Tag tag;
  uint32_t b;
} C_C2_Body;

typedef union C {
  C_Tag tag;
  C_C1_Body c1;
  C_C2_Body c2;
} C;

#ifdef __cplusplus
extern ""C"" {
#endif // __cplusplus

void root(A a, B b, union C c);

#ifdef __cplusplus
}  // extern ""C""
#endif  // __cplusplus
".
(** tests/expectations/sentinel.c *)
Definition sentinel_c : string := "#include <stdarg.h>
#include <stdbool.h>
#include <stdint.h>
#include <stdlib.h>

enum A
#if __STDC_VERSION__ >= 202311L
  : uint8_t
#endif // __STDC_VERSION__ >= 202311L
 {
  A_A1,
  A_A2,
  A_A3,
  /**
   * Must be last for serialization purposes
   */
  A_Sentinel,
};
#if __STDC_VERSION__ >= 202311L
typedef enum A A;
#else
typedef uint8_t A;
#endif // __STDC_VERSION__ >= 202311L

enum B
#if __STDC_VERSION__ >= 202311L
  : uint8_t
#endif // __STDC_VERSION__ >= 202311L
 {
  B_B1,
  B_B2,
  B_B3,
  /**
   * Must be last for serialization purposes
   */
  B_Sentinel,
};
#if __STDC_VERSION__ >= 202311L
typedef enum B B;
#else
typedef uint8_t B;
#endif // __STDC_VERSION__ >= 202311L

enum C_Tag
#if __STDC_VERSION__ >= 202311L
  : uint8_t
#endif // __STDC_VERSION__ >= 202311L
 {
  C_C1,
  C_C2,
  C_C3,
  /**
   * Must be last for serialization purposes
   */
  C_Sentinel,
};
#if __STDC_VERSION__ >= 202311L
typedef enum C_Tag C_Tag;
#else
typedef uint8_t C_Tag;
#endif // __STDC_VERSION__ >= 202311L

typedef struct {
  C_Tag tag;
  uint32_t a;
} C_C1_Body;

typedef struct {
  C_Tag tag;
  uint32_t b;
} C_C2_Body;

typedef union {
  C_Tag tag;
  C_C1_Body c1;
  C_C2_Body c2;
} C;

void root(A a, B b, C c);
".
(** tests/expectations/sentinel_tag.c *)
Definition sentinel_c_tag : string := "#include <stdarg.h>
#include <stdbool.h>
#include <stdint.h>
#include <stdlib.h>

enum A
#if __STDC_VERSION__ >= 202311L
  : uint8_t
#endif // __STDC_VERSION__ >= 202311L
 {
  A_A1,
  A_A2,
  A_A3,
  /**
   * Must be last for serialization purposes
   */
  A_Sentinel,
};
#if __STDC_VERSION__ >= 202311L
typedef enum A A;
#else
typedef uint8_t A;
#endif // __STDC_VERSION__ >= 202311L

enum B
#if __STDC_VERSION__ >= 202311L
  : uint8_t
#endif // __STDC_VERSION__ >= 202311L
 {
  B_B1,
  B_B2,
  B_B3,
  /**
   * Must be last for serialization purposes
   */
  B_Sentinel,
};
#if __STDC_VERSION__ >= 202311L
typedef enum B B;
#else
typedef uint8_t B;
#endif // __STDC_VERSION__ >= 202311L

enum C_Tag
#if __STDC_VERSION__ >= 202311L
  : uint8_t
#endif // __STDC_VERSION__ >= 202311L
 {
  C_C1,
  C_C2,
  C_C3,
  /**
   * Must be last for serialization purposes
   */
  C_Sentinel,
};
#if __STDC_VERSION__ >= 202311L
typedef enum C_Tag C_Tag;
#else
typedef uint8_t C_Tag;
#endif // __STDC_VERSION__ >= 202311L

struct C_C1_Body {
  C_Tag tag;
  uint32_t a;
};

struct C_C2_Body {
  C_Tag tag;
  uint32_t b;
};

union C {
  C_Tag tag;
  struct C_C1_Body c1;
  struct C_C2_Body c2;
};

void root(A a, B b, union C c);
".
(** tests/expectations/sentinel_both.c *)
Definition sentinel_c_both : string := "#include <stdarg.h>
#include <stdbool.h>
#include <stdint.h>
#include <stdlib.h>

enum A
#if __STDC_VERSION__ >= 202311L
  : uint8_t
#endif // __STDC_VERSION__ >= 202311L
 {
  A_A1,
  A_A2,
  A_A3,
  /**
   * Must be last for serialization purposes
   */
  A_Sentinel,
};
#if __STDC_VERSION__ >= 202311L
typedef enum A A;
#else
typedef uint8_t A;
#endif // __STDC_VERSION__ >= 202311L

enum B
#if __STDC_VERSION__ >= 202311L
  : uint8_t
#endif // __STDC_VERSION__ >= 202311L
 {
  B_B1,
  B_B2,
  B_B3,
  /**
   * Must be last for serialization purposes
   */
  B_Sentinel,
};
#if __STDC_VERSION__ >= 202311L
typedef enum B B;
#else
typedef uint8_t B;
#endif // __STDC_VERSION__ >= 202311L

enum C_Tag
#if __STDC_VERSION__ >= 202311L
  : uint8_t
#endif // __STDC_VERSION__ >= 202311L
 {
  C_C1,
  C_C2,
  C_C3,
  /**
   * Must be last for serialization purposes
   */
  C_Sentinel,
};
#if __STDC_VERSION__ >= 202311L
typedef enum C_Tag C_Tag;
#else
typedef uint8_t C_Tag;
#endif // __STDC_VERSION__ >= 202311L

typedef struct C_C1_Body {
  C_Tag tag;
  uint32_t a;
} C_C1_Body;

typedef struct C_C2_Body {
  C_Tag tag;
  uint32_t b;
} C_C2_Body;

typedef union C {
  C_Tag tag;
  C_C1_Body c1;
  C_C2_Body c2;
} C;

void root(A a, B b, union C c);
".
(** tests/expectations/sentinel.cpp *)
Definition sentinel_cpp : string := "#include <cstdarg>
#include <cstdint>
#include <cstdlib>
#include <ostream>
#include <new>

enum class A : uint8_t {
  A_A1,
  A_A2,
  A_A3,
  /// Must be last for serialization purposes
  A_Sentinel,
};

enum class B : uint8_t {
  B_B1,
  B_B2,
  B_B3,
  /// Must be last for serialization purposes
  B_Sentinel,
};

union C {
  enum class Tag : uint8_t {
    C_C1,
    C_C2,
    C_C3,
    /// Must be last for serialization purposes
    C_Sentinel,
  };

  struct C_C1_Body {
    Tag tag;
    uint32_t a;
  };

  struct C_C2_Body {
    Tag tag;
    uint32_t b;
  };

  struct {
    Tag tag;
  };
  C_C1_Body c1;
  C_C2_Body c2;
};

extern ""C"" {

void root(A a, B b, C c);

}  // extern ""C""
".
(** tests/expectations/sentinel.pyx *)
Definition sentinel_pyx : string := "from libc.stdint cimport int8_t, int16_t, int32_t, int64_t, intptr_t
from libc.stdint cimport uint8_t, uint16_t, uint32_t, uint64_t, uintptr_t
cdef extern from *:
  ctypedef bint bool
  ctypedef struct va_list

cdef extern from *:

  cdef enum:
    A_A1,
    A_A2,
    A_A3,
    # Must be last for serialization purposes
    A_Sentinel,
  ctypedef uint8_t A;

  cdef enum:
    B_B1,
    B_B2,
    B_B3,
    # Must be last for serialization purposes
    B_Sentinel,
  ctypedef uint8_t B;

  cdef enum:
    C_C1,
    C_C2,
    C_C3,
    # Must be last for serialization purposes
    C_Sentinel,
  ctypedef uint8_t C_Tag;

  ctypedef struct C_C1_Body:
    C_Tag tag;
    uint32_t a;

  ctypedef struct C_C2_Body:
    C_Tag tag;
    uint32_t b;

  ctypedef union C:
    C_Tag tag;
    C_C1_Body c1;
    C_C2_Body c2;

  void root(A a, B b, C c);
".
(** tests/expectations/sentinel_tag.pyx *)
Definition sentinel_pyx_tag : string := "from libc.stdint cimport int8_t, int16_t, int32_t, int64_t, intptr_t
from libc.stdint cimport uint8_t, uint16_t, uint32_t, uint64_t, uintptr_t
cdef extern from *:
  ctypedef bint bool
  ctypedef struct va_list

cdef extern from *:

  cdef enum:
    A_A1,
    A_A2,
    A_A3,
    # Must be last for serialization purposes
    A_Sentinel,
  ctypedef uint8_t A;

  cdef enum:
    B_B1,
    B_B2,
    B_B3,
    # Must be last for serialization purposes
    B_Sentinel,
  ctypedef uint8_t B;

  cdef enum:
    C_C1,
    C_C2,
    C_C3,
    # Must be last for serialization purposes
    C_Sentinel,
  ctypedef uint8_t C_Tag;

  cdef struct C_C1_Body:
    C_Tag tag;
    uint32_t a;

  cdef struct C_C2_Body:
    C_Tag tag;
    uint32_t b;

  cdef union C:
    C_Tag tag;
    C_C1_Body c1;
    C_C2_Body c2;

  void root(A a, B b, C c);
".
Example sentinel_reproduced : reproduces (in_file sentinel_rs) false sentinel_toml (Some "{
root;
};")
  [(RunC true Type_, [sentinel_compat]);
   (RunC true Tag, [sentinel_compat_tag]);
   (RunC true Both, [sentinel_compat_both]);
   (RunC false Type_, [sentinel_c]);
   (RunC false Tag, [sentinel_c_tag]);
   (RunC false Both, [sentinel_c_both]);
   (RunCxx, [sentinel_cpp]);
   (RunCython Type_, [sentinel_pyx]);
   (RunCython Tag, [sentinel_pyx_tag])] = true.
Proof. vm_compute. reflexivity. Qed.

(** ** tests/rust/simplify_option_ptr.rs *)
Definition simplify_option_ptr_rs : list sitem := [
  (ItemStruct [] "Opaque" [] (FieldsUnnamed []));
  (ItemStruct [{| at_meta := (AList (Some "repr") [(APath (Some "C"))]); at_outer := true |}] "Foo" [] (FieldsNamed [{| sf_attrs :=
  []; sf_ident := (Some "x"); sf_ty := (SPath (SegPath [] "Option" (AngleArgs [(ArgType (SRef false (SPath (SegPath [] "Opaque" NoArgs))))])))
  |}; {| sf_attrs := []; sf_ident := (Some "y"); sf_ty := (SPath (SegPath [] "Option" (AngleArgs [(ArgType (SRef true (SPath (SegPath
  [] "Opaque" NoArgs))))]))) |}; {| sf_attrs := []; sf_ident := (Some "z"); sf_ty := (SPath (SegPath [] "Option" (AngleArgs [(ArgType
  (SFnPtr [] false (Some (STuple []))))]))) |}; {| sf_attrs := []; sf_ident := (Some "zz"); sf_ty := (SPtr true (SPath (SegPath []
  "Option" (AngleArgs [(ArgType (SFnPtr [] false (Some (STuple []))))])))) |}]));
  (ItemUnion [{| at_meta := (AList (Some "repr") [(APath (Some "C"))]); at_outer := true |}] "Bar" [] [{| sf_attrs := []; sf_ident :=
  (Some "x"); sf_ty := (SPath (SegPath [] "Option" (AngleArgs [(ArgType (SRef false (SPath (SegPath [] "Opaque" NoArgs))))]))) |};
  {| sf_attrs := []; sf_ident := (Some "y"); sf_ty := (SPath (SegPath [] "Option" (AngleArgs [(ArgType (SRef true (SPath (SegPath
  [] "Opaque" NoArgs))))]))) |}; {| sf_attrs := []; sf_ident := (Some "z"); sf_ty := (SPath (SegPath [] "Option" (AngleArgs [(ArgType
  (SFnPtr [] false (Some (STuple []))))]))) |}; {| sf_attrs := []; sf_ident := (Some "zz"); sf_ty := (SPtr true (SPath (SegPath []
  "Option" (AngleArgs [(ArgType (SFnPtr [] false (Some (STuple []))))])))) |}]);
  (ItemFn [{| at_meta := (APath (Some "no_mangle")); at_outer := true |}] true {| sg_ident := "root"; sg_abi := (Some (Some "C")); sg_inputs
  := [(FnTyped (PatIdent "a") (SPath (SegPath [] "Option" (AngleArgs [(ArgType (SRef false (SPath (SegPath [] "Opaque" NoArgs))))]))));
  (FnTyped (PatIdent "b") (SPath (SegPath [] "Option" (AngleArgs [(ArgType (SRef true (SPath (SegPath [] "Opaque" NoArgs))))]))));
  (FnTyped (PatIdent "c") (SPath (SegPath [] "Foo" NoArgs))); (FnTyped (PatIdent "d") (SPath (SegPath [] "Bar" NoArgs))); (FnTyped
  (PatIdent "e") (SPtr true (SPath (SegPath [] "Option" (AngleArgs [(ArgType (SPtr true (SPath (SegPath [] "Opaque" NoArgs))))])))));
  (FnTyped (PatIdent "f") (SFnPtr [(None, (SPath (SegPath [] "Option" (AngleArgs [(ArgType (SRef false (SPath (SegPath [] "Opaque"
  NoArgs))))]))))] false None))]; sg_variadic := false; sg_output := None |})].
(** tests/expectations/simplify_option_ptr.compat.c *)
Definition simplify_option_ptr_compat : string := "#include <stdarg.h>
#include <stdbool.h>
#include <stdint.h>
#include <stdlib.h>

typedef struct Opaque Opaque;

typedef struct Option_____Opaque Option_____Opaque;

typedef struct {
  const Opaque *x;
  Opaque *y;
  void (*z)(void);
  void (**zz)(void);
} Foo;

typedef union {
  const Opaque *x;
  Opaque *y;
  void (*z)(void);
  void (**zz)(void);
} Bar;

#ifdef __cplusplus
extern ""C"" {
#endif // __cplusplus

void root(const Opaque *a, Opaque *b, Foo c, Bar d, Option_____Opaque *e, void (*f)(const Opaque*));

#ifdef __cplusplus
}  // extern ""C""
#endif  // __cplusplus
".
(** tests/expectations/simplify_option_ptr_tag.compat.c *)
Definition simplify_option_ptr_compat_tag : string := "#include <stdarg.h>
#include <stdbool.h>
#include <stdint.h>
#include <stdlib.h>

struct Opaque;

struct Option_____Opaque;

struct Foo {
  const struct Opaque *x;
  struct Opaque *y;
  void (*z)(void);
  void (**zz)(void);
};

union Bar {
  const struct Opaque *x;
  struct Opaque *y;
  void (*z)(void);
  void (**zz)(void);
};

#ifdef __cplusplus
extern ""C"" {
#endif // __cplusplus

void root(const struct Opaque *a,
          struct Opaque *b,
          struct Foo c,
          union Bar d,
          struct Option_____Opaque *e,
          void (*f)(const struct Opaque*));

#ifdef __cplusplus
}  // extern ""C""
#endif  // __cplusplus
".
(** tests/expectations/simplify_option_ptr_both.compat.c *)
Definition simplify_option_ptr_compat_both : string := "#include <stdarg.h>
#include <stdbool.h>
#include <stdint.h>
#include <stdlib.h>

typedef struct Opaque Opaque;

typedef struct Option_____Opaque Option_____Opaque;

typedef struct Foo {
  const struct Opaque *x;
  struct Opaque *y;
  void (*z)(void);
  void (**zz)(void);
} Foo;

typedef union Bar {
  const struct Opaque *x;
  struct Opaque *y;
  void (*z)(void);
  void (**zz)(void);
} Bar;

#ifdef __cplusplus
extern ""C"" {
#endif // __cplusplus

void root(const struct Opaque *a,
          struct Opaque *b,
          struct Foo c,
          union Bar d,
          struct Option_____Opaque *e,
          void (*f)(const struct Opaque*));

#ifdef __cplusplus
}  // extern ""C""
#endif  // __cplusplus
".
(** tests/expectations/simplify_option_ptr.c *)
Definition simplify_option_ptr_c : string := "#include <stdarg.h>
#include <stdbool.h>
#include <stdint.h>
#include <stdlib.h>

typedef struct Opaque Opaque;

typedef struct Option_____Opaque Option_____Opaque;

typedef struct {
  const Opaque *x;
  Opaque *y;
  void (*z)(void);
  void (**zz)(void);
} Foo;

typedef union {
  const Opaque *x;
  Opaque *y;
  void (*z)(void);
  void (**zz)(void);
} Bar;

void root(const Opaque *a, Opaque *b, Foo c, Bar d, Option_____Opaque *e, void (*f)(const Opaque*));
".
(** tests/expectations/simplify_option_ptr_tag.c *)
Definition simplify_option_ptr_c_tag : string := "#include <stdarg.h>
#include <stdbool.h>
#include <stdint.h>
#include <stdlib.h>

struct Opaque;

struct Option_____Opaque;

struct Foo {
  const struct Opaque *x;
  struct Opaque *y;
  void (*z)(void);
  void (**zz)(void);
};

union Bar {
  const struct Opaque *x;
  struct Opaque *y;
  void (*z)(void);
  void (**zz)(void);
};

void root(const struct Opaque *a,
          struct Opaque *b,
          struct Foo c,
          union Bar d,
          struct Option_____Opaque *e,
          void (*f)(const struct Opaque*));
".
(** tests/expectations/simplify_option_ptr_both.c *)
Definition simplify_option_ptr_c_both : string := "#include <stdarg.h>
#include <stdbool.h>
#include <stdint.h>
#include <stdlib.h>

typedef struct Opaque Opaque;

typedef struct Option_____Opaque Option_____Opaque;

typedef struct Foo {
  const struct Opaque *x;
  struct Opaque *y;
  void (*z)(void);
  void (**zz)(void);
} Foo;

typedef union Bar {
  const struct Opaque *x;
  struct Opaque *y;
  void (*z)(void);
  void (**zz)(void);
} Bar;

void root(const struct Opaque *a,
          struct Opaque *b,
          struct Foo c,
          union Bar d,
          struct Option_____Opaque *e,
          void (*f)(const struct Opaque*));
".
(** tests/expectations/simplify_option_ptr.cpp *)
Definition simplify_option_ptr_cpp : string := "#include <cstdarg>
#include <cstdint>
#include <cstdlib>
#include <ostream>
#include <new>

struct Opaque;

template<typename T = void>
struct Option;

struct Foo {
  const Opaque *x;
  Opaque *y;
  void (*z)();
  void (**zz)();
};

union Bar {
  const Opaque *x;
  Opaque *y;
  void (*z)();
  void (**zz)();
};

extern ""C"" {

void root(const Opaque *a, Opaque *b, Foo c, Bar d, Option<Opaque*> *e, void (*f)(const Opaque*));

}  // extern ""C""
".
(** tests/expectations/simplify_option_ptr.pyx *)
Definition simplify_option_ptr_pyx : string := "from libc.stdint cimport int8_t, int16_t, int32_t, int64_t, intptr_t
from libc.stdint cimport uint8_t, uint16_t, uint32_t, uint64_t, uintptr_t
cdef extern from *:
  ctypedef bint bool
  ctypedef struct va_list

cdef extern from *:

  ctypedef struct Opaque:
    pass

  ctypedef struct Option_____Opaque:
    pass

  ctypedef struct Foo:
    const Opaque *x;
    Opaque *y;
    void (*z)();
    void (**zz)();

  ctypedef union Bar:
    const Opaque *x;
    Opaque *y;
    void (*z)();
    void (**zz)();

  void root(const Opaque *a,
            Opaque *b,
            Foo c,
            Bar d,
            Option_____Opaque *e,
            void (*f)(const Opaque*));
".
(** tests/expectations/simplify_option_ptr_tag.pyx *)
Definition simplify_option_ptr_pyx_tag : string := "from libc.stdint cimport int8_t, int16_t, int32_t, int64_t, intptr_t
from libc.stdint cimport uint8_t, uint16_t, uint32_t, uint64_t, uintptr_t
cdef extern from *:
  ctypedef bint bool
  ctypedef struct va_list

cdef extern from *:

  cdef struct Opaque:
    pass

  cdef struct Option_____Opaque:
    pass

  cdef struct Foo:
    const Opaque *x;
    Opaque *y;
    void (*z)();
    void (**zz)();

  cdef union Bar:
    const Opaque *x;
    Opaque *y;
    void (*z)();
    void (**zz)();

  void root(const Opaque *a,
            Opaque *b,
            Foo c,
            Bar d,
            Option_____Opaque *e,
            void (*f)(const Opaque*));
".
Example simplify_option_ptr_reproduced : reproduces (in_file simplify_option_ptr_rs) false default_config (Some "{
root;
};")
  [(RunC true Type_, [simplify_option_ptr_compat]);
   (RunC true Tag, [simplify_option_ptr_compat_tag]);
   (RunC true Both, [simplify_option_ptr_compat_both]);
   (RunC false Type_, [simplify_option_ptr_c]);
   (RunC false Tag, [simplify_option_ptr_c_tag]);
   (RunC false Both, [simplify_option_ptr_c_both]);
   (RunCxx, [simplify_option_ptr_cpp]);
   (RunCython Type_, [simplify_option_ptr_pyx]);
   (RunCython Tag, [simplify_option_ptr_pyx_tag])] = true.
Proof. vm_compute. reflexivity. Qed.

(** ** tests/rust/size_types.rs *)
Definition size_types_rs : list sitem := [
  (ItemType [] "Usize" [] (SPath (SegPath [] "usize" NoArgs)));
  (ItemType [] "Isize" [] (SPath (SegPath [] "isize" NoArgs)));
  (ItemEnum [{| at_meta := (AList (Some "repr") [(APath (Some "usize"))]); at_outer := true |}] "UE" [] [{| sv_attrs := []; sv_ident
  := "UV"; sv_fields := FieldsUnit; sv_discriminant := None |}]);
  (ItemEnum [{| at_meta := (AList (Some "repr") [(APath (Some "isize"))]); at_outer := true |}] "IE" [] [{| sv_attrs := []; sv_ident
  := "IV"; sv_fields := FieldsUnit; sv_discriminant := None |}]);
  (ItemFn [{| at_meta := (APath (Some "no_mangle")); at_outer := true |}] true {| sg_ident := "root"; sg_abi := (Some (Some "C")); sg_inputs
  := [(FnTyped PatWild (SPath (SegPath [] "Usize" NoArgs))); (FnTyped PatWild (SPath (SegPath [] "Isize" NoArgs))); (FnTyped PatWild
  (SPath (SegPath [] "UE" NoArgs))); (FnTyped PatWild (SPath (SegPath [] "IE" NoArgs)))]; sg_variadic := false; sg_output := None
  |})].
Definition size_types_toml : Config := {| header := None; includes_ := []; sys_includes_ := []; after_includes := None; trailer := None;
  include_guard_ := None; pragma_once := false; no_includes := false; package_version := false; autogen_warning := None; include_version := false;
  namespace := None; namespaces := None; using_namespaces := None; braces := SameLine; line_length := 100; tab_width := 2; line_endings := LF;
  language := Cxx; cpp_compat := false; style := Both; sort_by := SortNone; usize_is_size_t := true; parse := default_parse; export := {| ex_include := []; ex_exclude := []; ex_rename := []; ex_pre_body := []; ex_body := []; ex_prefix := None; ex_item_types := []; ex_renaming_overrides_prefixing := false; ex_mangle := {| rename_types := RNone; remove_underscores := false |} |};
  layout := {| ly_packed := None; ly_aligned_n := None |}; function := {| fn_prefix := None; fn_postfix := None; fn_must_use := None; fn_deprecated := None; fn_deprecated_with_note := None; fn_args := Auto; fn_rename_args := RNone; fn_swift_name_macro := None; fn_sort_by := None; fn_no_return := None |}; structure := {| st_rename_fields := RNone; st_derive_constructor := false; st_derive_eq := false; st_derive_neq := false; st_derive_lt := false; st_derive_lte := false; st_derive_gt := false; st_derive_gte := false; st_derive_ostream := false; st_associated_constants_in_body := false; st_rename_associated_constant := RNone; st_must_use := None; st_deprecated := None; st_deprecated_with_note := None |}; enumeration := {| en_rename_variants := RNone; en_rename_variant_name_fields := SnakeCase; en_add_sentinel := false; en_prefix_with_name := false; en_derive_helper_methods := false; en_derive_const_casts := false; en_derive_mut_casts := false; en_cast_assert_name := None; en_must_use := None; en_deprecated := None; en_deprecated_with_note := None; en_deprecated_variant := None; en_deprecated_variant_with_note := None; en_derive_tagged_enum_destructor := false; en_derive_tagged_enum_copy_constructor := false; en_derive_tagged_enum_copy_assignment := false; en_derive_ostream := false; en_enum_class := true; en_private_default_tagged_enum_constructor := false |}; constant := {| co_allow_static_const := true; co_allow_constexpr := true; co_sort_by := None |}; defines := []; documentation := true;
  documentation_style := DocAuto; documentation_length := Full; pointer := {| pt_non_null_attribute := None; pt_nullable_attribute := None |}; cython := {| cy_header := None; cy_cimports := [] |}; config_path := None |}.
(** tests/expectations/size_types.compat.c *)
Definition size_types_compat : string := "#include <stdarg.h>
#include <stdbool.h>
#include <stddef.h>
#include <stdint.h>
#include <stdlib.h>

enum UE
#if defined(__cplusplus) || __STDC_VERSION__ >= 202311L
  : size_t
#endif // defined(__cplusplus) || __STDC_VERSION__ >= 202311L
 {
  UV,
};
#ifndef __cplusplus
#if __STDC_VERSION__ >= 202311L
typedef enum UE UE;
#else
typedef size_t UE;
#endif // __STDC_VERSION__ >= 202311L
#endif // __cplusplus

enum IE
#if defined(__cplusplus) || __STDC_VERSION__ >= 202311L
  : ptrdiff_t
#endif // defined(__cplusplus) || __STDC_VERSION__ >= 202311L
 {
  IV,
};
#ifndef __cplusplus
#if __STDC_VERSION__ >= 202311L
typedef enum IE IE;
#else
typedef ptrdiff_t IE;
#endif // __STDC_VERSION__ >= 202311L
#endif // __cplusplus

typedef size_t Usize;

typedef ptrdiff_t Isize;

#ifdef __cplusplus
extern ""C"" {
#endif // __cplusplus

void root(Usize, Isize, UE, IE);

#ifdef __cplusplus
}  // extern ""C""
#endif  // __cplusplus
".
(** tests/expectations/size_types.c *)
Definition size_types_c : string := "#include <stdarg.h>
#include <stdbool.h>
#include <stddef.h>
#include <stdint.h>
#include <stdlib.h>

enum UE
#if __STDC_VERSION__ >= 202311L
  : size_t
#endif // __STDC_VERSION__ >= 202311L
 {
  UV,
};
#if __STDC_VERSION__ >= 202311L
typedef enum UE UE;
#else
typedef size_t UE;
#endif // __STDC_VERSION__ >= 202311L

enum IE
#if __STDC_VERSION__ >= 202311L
  : ptrdiff_t
#endif // __STDC_VERSION__ >= 202311L
 {
  IV,
};
#if __STDC_VERSION__ >= 202311L
typedef enum IE IE;
#else
typedef ptrdiff_t IE;
#endif // __STDC_VERSION__ >= 202311L

typedef size_t Usize;

typedef ptrdiff_t Isize;

void root(Usize, Isize, UE, IE);
".
(** tests/expectations/size_types.cpp *)
Definition size_types_cpp : string := "#include <cstdarg>
#include <cstddef>
#include <cstdint>
#include <cstdlib>
#include <ostream>
#include <new>

enum class UE : size_t {
  UV,
};

enum class IE : ptrdiff_t {
  IV,
};

using Usize = size_t;

using Isize = ptrdiff_t;

extern ""C"" {

void root(Usize, Isize, UE, IE);

}  // extern ""C""
".
(** tests/expectations/size_types.pyx *)
Definition size_types_pyx : string := "from libc.stdint cimport int8_t, int16_t, int32_t, int64_t, intptr_t
from libc.stdint cimport uint8_t, uint16_t, uint32_t, uint64_t, uintptr_t
cdef extern from *:
  ctypedef bint bool
  ctypedef struct va_list

cdef extern from *:

  cdef enum:
    UV,
  ctypedef size_t UE;

  cdef enum:
    IV,
  ctypedef ptrdiff_t IE;

  ctypedef size_t Usize;

  ctypedef ptrdiff_t Isize;

  void root(Usize, Isize, UE, IE);
".
Example size_types_reproduced : reproduces (in_file size_types_rs) false size_types_toml (Some "{
root;
};")
  [(RunC true Type_, [size_types_compat]);
   (RunC true Tag, [size_types_compat]);
   (RunC true Both, [size_types_compat]);
   (RunC false Type_, [size_types_c]);
   (RunC false Tag, [size_types_compat; size_types_c]);
   (RunC false Both, [size_types_compat; size_types_c]);
   (RunCxx, [size_types_cpp]);
   (RunCython Type_, [size_types_pyx]);
   (RunCython Tag, [size_types_pyx])] = true.
Proof. vm_compute. reflexivity. Qed.

(** ** tests/rust/static.rs *)
Definition static_rs : list sitem := [
  (ItemStatic [{| at_meta := (APath (Some "no_mangle")); at_outer := true |}] "NUMBER" false (SPath (SegPath [] "i32" NoArgs)));
  (ItemStruct [{| at_meta := (AList (Some "repr") [(APath (Some "C"))]); at_outer := true |}] "Foo" [] (FieldsNamed []));
  (ItemStruct [] "Bar" [] (FieldsNamed []));
  (ItemStatic [{| at_meta := (APath (Some "no_mangle")); at_outer := true |}] "FOO" true (SPath (SegPath [] "Foo" NoArgs)));
  (ItemStatic [{| at_meta := (APath (Some "no_mangle")); at_outer := true |}] "BAR" false (SPath (SegPath [] "Bar" NoArgs)));
  (ItemFn [{| at_meta := (APath (Some "no_mangle")); at_outer := true |}] true {| sg_ident := "root"; sg_abi := (Some (Some "C")); sg_inputs
  := []; sg_variadic := false; sg_output := None |})].
(** tests/expectations/static.compat.c *)
Definition static_compat : string := "#include <stdarg.h>
#include <stdbool.h>
#include <stdint.h>
#include <stdlib.h>

typedef struct Bar Bar;

typedef struct {

} Foo;

#ifdef __cplusplus
extern ""C"" {
#endif // __cplusplus

extern const int32_t NUMBER;

extern Foo FOO;

extern const Bar BAR;

void root(void);

#ifdef __cplusplus
}  // extern ""C""
#endif  // __cplusplus
".
(** tests/expectations/static_tag.compat.c *)
Definition static_compat_tag : string := "#include <stdarg.h>
#include <stdbool.h>
#include <stdint.h>
#include <stdlib.h>

struct Bar;

struct Foo {

};

#ifdef __cplusplus
extern ""C"" {
#endif // __cplusplus

extern const int32_t NUMBER;

extern struct Foo FOO;

extern const struct Bar BAR;

void root(void);

#ifdef __cplusplus
}  // extern ""C""
#endif  // __cplusplus
".
(** tests/expectations/static_both.compat.c *)
Definition static_compat_both : string := "#include <stdarg.h>
#include <stdbool.h>
#include <stdint.h>
#include <stdlib.h>

typedef struct Bar Bar;

typedef struct Foo {

} Foo;

#ifdef __cplusplus
extern ""C"" {
#endif // __cplusplus

extern const int32_t NUMBER;

extern struct Foo FOO;

extern const struct Bar BAR;

void root(void);

#ifdef __cplusplus
}  // extern ""C""
#endif  // __cplusplus
".
(** tests/expectations/static.c *)
Definition static_c : string := "#include <stdarg.h>
#include <stdbool.h>
#include <stdint.h>
#include <stdlib.h>

typedef struct Bar Bar;

typedef struct {

} Foo;

extern const int32_t NUMBER;

extern Foo FOO;

extern const Bar BAR;

void root(void);
".
(** tests/expectations/static_tag.c *)
Definition static_c_tag : string := "#include <stdarg.h>
#include <stdbool.h>
#include <stdint.h>
#include <stdlib.h>

struct Bar;

struct Foo {

};

extern const int32_t NUMBER;

extern struct Foo FOO;

extern const struct Bar BAR;

void root(void);
".
(** tests/expectations/static_both.c *)
Definition static_c_both : string := "#include <stdarg.h>
#include <stdbool.h>
#include <stdint.h>
#include <stdlib.h>

typedef struct Bar Bar;

typedef struct Foo {

} Foo;

extern const int32_t NUMBER;

extern struct Foo FOO;

extern const struct Bar BAR;

void root(void);
".
(** tests/expectations/static.cpp *)
Definition static_cpp : string := "#include <cstdarg>
#include <cstdint>
#include <cstdlib>
#include <ostream>
#include <new>

struct Bar;

struct Foo {

};

extern ""C"" {

extern const int32_t NUMBER;

extern Foo FOO;

extern const Bar BAR;

void root();

}  // extern ""C""
".
(** tests/expectations/static.pyx *)
Definition static_pyx : string := "from libc.stdint cimport int8_t, int16_t, int32_t, int64_t, intptr_t
from libc.stdint cimport uint8_t, uint16_t, uint32_t, uint64_t, uintptr_t
cdef extern from *:
  ctypedef bint bool
  ctypedef struct va_list

cdef extern from *:

  ctypedef struct Bar:
    pass

  ctypedef struct Foo:
    pass

  extern const int32_t NUMBER;

  extern Foo FOO;

  extern const Bar BAR;

  void root();
".
(** tests/expectations/static_tag.pyx *)
Definition static_pyx_tag : string := "from libc.stdint cimport int8_t, int16_t, int32_t, int64_t, intptr_t
from libc.stdint cimport uint8_t, uint16_t, uint32_t, uint64_t, uintptr_t
cdef extern from *:
  ctypedef bint bool
  ctypedef struct va_list

cdef extern from *:

  cdef struct Bar:
    pass

  cdef struct Foo:
    pass

  extern const int32_t NUMBER;

  extern Foo FOO;

  extern const Bar BAR;

  void root();
".
Example static_reproduced : reproduces (in_file static_rs) false default_config (Some "{
root;
NUMBER;
FOO;
BAR;
};")
  [(RunC true Type_, [static_compat]);
   (RunC true Tag, [static_compat_tag]);
   (RunC true Both, [static_compat_both]);
   (RunC false Type_, [static_c]);
   (RunC false Tag, [static_c_tag]);
   (RunC false Both, [static_c_both]);
   (RunCxx, [static_cpp]);
   (RunCython Type_, [static_pyx]);
   (RunCython Tag, [static_pyx_tag])] = true.
Proof. vm_compute. reflexivity. Qed.

(** ** tests/rust/std_lib.rs *)
Definition std_lib_rs : list sitem := [
  (ItemFn [{| at_meta := (APath (Some "no_mangle")); at_outer := true |}] true {| sg_ident := "root"; sg_abi := (Some (Some "C")); sg_inputs
  := [(FnTyped (PatIdent "a") (SRef false (SPath (SegPath [] "Vec" (AngleArgs [(ArgType (SPath (SegPath [] "String" NoArgs)))])))));
  (FnTyped (PatIdent "b") (SRef false (SPath (SegPath [] "Option" (AngleArgs [(ArgType (SPath (SegPath [] "i32" NoArgs)))]))))); (FnTyped
  (PatIdent "c") (SRef false (SPath (SegPath [] "Result" (AngleArgs [(ArgType (SPath (SegPath [] "i32" NoArgs))); (ArgType (SPath
  (SegPath [] "String" NoArgs)))])))))]; sg_variadic := false; sg_output := None |})].
(** tests/expectations/std_lib.compat.c *)
Definition std_lib_compat : string := "#include <stdarg.h>
#include <stdbool.h>
#include <stdint.h>
#include <stdlib.h>

typedef struct Option_i32 Option_i32;

typedef struct Result_i32__String Result_i32__String;

typedef struct Vec_String Vec_String;

#ifdef __cplusplus
extern ""C"" {
#endif // __cplusplus

void root(const Vec_String *a, const Option_i32 *b, const Result_i32__String *c);

#ifdef __cplusplus
}  // extern ""C""
#endif  // __cplusplus
".
(** tests/expectations/std_lib_tag.compat.c *)
Definition std_lib_compat_tag : string := "#include <stdarg.h>
#include <stdbool.h>
#include <stdint.h>
#include <stdlib.h>

struct Option_i32;

struct Result_i32__String;

struct Vec_String;

#ifdef __cplusplus
extern ""C"" {
#endif // __cplusplus

void root(const struct Vec_String *a,
          const struct Option_i32 *b,
          const struct Result_i32__String *c);

#ifdef __cplusplus
}  // extern ""C""
#endif  // __cplusplus
".
(** tests/expectations/std_lib_both.compat.c *)
Definition std_lib_compat_both : string := "#include <stdarg.h>
#include <stdbool.h>
#include <stdint.h>
#include <stdlib.h>

typedef struct Option_i32 Option_i32;

typedef struct Result_i32__String Result_i32__String;

typedef struct Vec_String Vec_String;

#ifdef __cplusplus
extern ""C"" {
#endif // __cplusplus

void root(const struct Vec_String *a,
          const struct Option_i32 *b,
          const struct Result_i32__String *c);

#ifdef __cplusplus
}  // extern ""C""
#endif  // __cplusplus
".
(** tests/expectations/std_lib.c *)
Definition std_lib_c : string := "#include <stdarg.h>
#include <stdbool.h>
#include <stdint.h>
#include <stdlib.h>

typedef struct Option_i32 Option_i32;

typedef struct Result_i32__String Result_i32__String;

typedef struct Vec_String Vec_String;

void root(const Vec_String *a, const Option_i32 *b, const Result_i32__String *c);
".
(** tests/expectations/std_lib_tag.c *)
Definition std_lib_c_tag : string := "#include <stdarg.h>
#include <stdbool.h>
#include <stdint.h>
#include <stdlib.h>

struct Option_i32;

struct Result_i32__String;

struct Vec_String;

void root(const struct Vec_String *a,
          const struct Option_i32 *b,
          const struct Result_i32__String *c);
".
(** tests/expectations/std_lib_both.c *)
Definition std_lib_c_both : string := "#include <stdarg.h>
#include <stdbool.h>
#include <stdint.h>
#include <stdlib.h>

typedef struct Option_i32 Option_i32;

typedef struct Result_i32__String Result_i32__String;

typedef struct Vec_String Vec_String;

void root(const struct Vec_String *a,
          const struct Option_i32 *b,
          const struct Result_i32__String *c);
".
(** tests/expectations/std_lib.cpp *)
Definition std_lib_cpp : string := "#include <cstdarg>
#include <cstdint>
#include <cstdlib>
#include <ostream>
#include <new>

template<typename T = void>
struct Option;

template<typename T = void, typename E = void>
struct Result;

struct String;

template<typename T = void>
struct Vec;

extern ""C"" {

void root(const Vec<String> *a, const Option<int32_t> *b, const Result<int32_t, String> *c);

}  // extern ""C""
".
(** tests/expectations/std_lib.pyx *)
Definition std_lib_pyx : string := "from libc.stdint cimport int8_t, int16_t, int32_t, int64_t, intptr_t
from libc.stdint cimport uint8_t, uint16_t, uint32_t, uint64_t, uintptr_t
cdef extern from *:
  ctypedef bint bool
  ctypedef struct va_list

cdef extern from *:

  ctypedef struct Option_i32:
    pass

  ctypedef struct Result_i32__String:
    pass

  ctypedef struct Vec_String:
    pass

  void root(const Vec_String *a, const Option_i32 *b, const Result_i32__String *c);
".
(** tests/expectations/std_lib_tag.pyx *)
Definition std_lib_pyx_tag : string := "from libc.stdint cimport int8_t, int16_t, int32_t, int64_t, intptr_t
from libc.stdint cimport uint8_t, uint16_t, uint32_t, uint64_t, uintptr_t
cdef extern from *:
  ctypedef bint bool
  ctypedef struct va_list

cdef extern from *:

  cdef struct Option_i32:
    pass

  cdef struct Result_i32__String:
    pass

  cdef struct Vec_String:
    pass

  void root(const Vec_String *a, const Option_i32 *b, const Result_i32__String *c);
".
Example std_lib_reproduced : reproduces (in_file std_lib_rs) false default_config (Some "{
root;
};")
  [(RunC true Type_, [std_lib_compat]);
   (RunC true Tag, [std_lib_compat_tag]);
   (RunC true Both, [std_lib_compat_both]);
   (RunC false Type_, [std_lib_c]);
   (RunC false Tag, [std_lib_c_tag]);
   (RunC false Both, [std_lib_c_both]);
   (RunCxx, [std_lib_cpp]);
   (RunCython Type_, [std_lib_pyx]);
   (RunCython Tag, [std_lib_pyx_tag])] = true.
Proof. vm_compute. reflexivity. Qed.

(** ** tests/rust/struct.rs *)
Definition struct_rs : list sitem := [
  (ItemOther []);
  (ItemStruct [] "Opaque" [] (FieldsNamed [{| sf_attrs := []; sf_ident := (Some "x"); sf_ty := (SPath (SegPath [] "i32" NoArgs)) |};
  {| sf_attrs := []; sf_ident := (Some "y"); sf_ty := (SPath (SegPath [] "f32" NoArgs)) |}]));
  (ItemStruct [{| at_meta := (AList (Some "repr") [(APath (Some "C"))]); at_outer := true |}] "Normal" [] (FieldsNamed [{| sf_attrs
  := []; sf_ident := (Some "x"); sf_ty := (SPath (SegPath [] "i32" NoArgs)) |}; {| sf_attrs := []; sf_ident := (Some "y"); sf_ty :=
  (SPath (SegPath [] "f32" NoArgs)) |}]));
  (ItemStruct [{| at_meta := (AList (Some "repr") [(APath (Some "C"))]); at_outer := true |}] "NormalWithZST" [] (FieldsNamed [{| sf_attrs
  := []; sf_ident := (Some "x"); sf_ty := (SPath (SegPath [] "i32" NoArgs)) |}; {| sf_attrs := []; sf_ident := (Some "y"); sf_ty :=
  (SPath (SegPath [] "f32" NoArgs)) |}; {| sf_attrs := []; sf_ident := (Some "z"); sf_ty := (STuple []) |}; {| sf_attrs := []; sf_ident
  := (Some "w"); sf_ty := (SPath (SegPath [] "PhantomData" (AngleArgs [(ArgType (SPath (SegPath [] "i32" NoArgs)))]))) |}; {| sf_attrs
  := []; sf_ident := (Some "v"); sf_ty := (SPath (SegPath [] "PhantomPinned" NoArgs)) |}]));
  (ItemStruct [{| at_meta := ANameValue (Some "doc") (Some " cbindgen:rename-all=GeckoCase"); at_outer := true |}; {| at_meta := (AList
  (Some "repr") [(APath (Some "C"))]); at_outer := true |}] "TupleRenamed" [] (FieldsUnnamed [{| sf_attrs := []; sf_ident := None;
  sf_ty := (SPath (SegPath [] "i32" NoArgs)) |}; {| sf_attrs := []; sf_ident := None; sf_ty := (SPath (SegPath [] "f32" NoArgs)) |}]));
  (ItemStruct [{| at_meta := ANameValue (Some "doc") (Some " cbindgen:field-names=[x, y]"); at_outer := true |}; {| at_meta := (AList
  (Some "repr") [(APath (Some "C"))]); at_outer := true |}] "TupleNamed" [] (FieldsUnnamed [{| sf_attrs := []; sf_ident := None; sf_ty
  := (SPath (SegPath [] "i32" NoArgs)) |}; {| sf_attrs := []; sf_ident := None; sf_ty := (SPath (SegPath [] "f32" NoArgs)) |}]));
  (ItemFn [{| at_meta := (APath (Some "no_mangle")); at_outer := true |}] true {| sg_ident := "root"; sg_abi := (Some (Some "C")); sg_inputs
  := [(FnTyped (PatIdent "a") (SPtr true (SPath (SegPath [] "Opaque" NoArgs)))); (FnTyped (PatIdent "b") (SPath (SegPath [] "Normal"
  NoArgs))); (FnTyped (PatIdent "c") (SPath (SegPath [] "NormalWithZST" NoArgs))); (FnTyped (PatIdent "d") (SPath (SegPath [] "TupleRenamed"
  NoArgs))); (FnTyped (PatIdent "e") (SPath (SegPath [] "TupleNamed" NoArgs)))]; sg_variadic := false; sg_output := None |})].
(** tests/expectations/struct.compat.c *)
Definition struct_compat : string := "#include <stdarg.h>
#include <stdbool.h>
#include <stdint.h>
#include <stdlib.h>

typedef struct Opaque Opaque;

typedef struct {
  int32_t x;
  float y;
} Normal;

typedef struct {
  int32_t x;
  float y;
} NormalWithZST;

typedef struct {
  int32_t m0;
  float m1;
} TupleRenamed;

typedef struct {
  int32_t x;
  float y;
} TupleNamed;

#ifdef __cplusplus
extern ""C"" {
#endif // __cplusplus

void root(Opaque *a, Normal b, NormalWithZST c, TupleRenamed d, TupleNamed e);

#ifdef __cplusplus
}  // extern ""C""
#endif  // __cplusplus
".
(** tests/expectations/struct_tag.compat.c *)
Definition struct_compat_tag : string := "#include <stdarg.h>
#include <stdbool.h>
#include <stdint.h>
#include <stdlib.h>

struct Opaque;

struct Normal {
  int32_t x;
  float y;
};

struct NormalWithZST {
  int32_t x;
  float y;
};

struct TupleRenamed {
  int32_t m0;
  float m1;
};

struct TupleNamed {
  int32_t x;
  float y;
};

#ifdef __cplusplus
extern ""C"" {
#endif // __cplusplus

void root(struct Opaque *a,
          struct Normal b,
          struct NormalWithZST c,
          struct TupleRenamed d,
          struct TupleNamed e);

#ifdef __cplusplus
}  // extern ""C""
#endif  // __cplusplus
".
(** tests/expectations/struct_both.compat.c *)
Definition struct_compat_both : string := "#include <stdarg.h>
#include <stdbool.h>
#include <stdint.h>
#include <stdlib.h>

typedef struct Opaque Opaque;

typedef struct Normal {
  int32_t x;
  float y;
} Normal;

typedef struct NormalWithZST {
  int32_t x;
  float y;
} NormalWithZST;

typedef struct TupleRenamed {
  int32_t m0;
  float m1;
} TupleRenamed;

typedef struct TupleNamed {
  int32_t x;
  float y;
} TupleNamed;

#ifdef __cplusplus
extern ""C"" {
#endif // __cplusplus

void root(struct Opaque *a,
          struct Normal b,
          struct NormalWithZST c,
          struct TupleRenamed d,
          struct TupleNamed e);

#ifdef __cplusplus
}  // extern ""C""
#endif  // __cplusplus
".
(** tests/expectations/struct.c *)
Definition struct_c : string := "#include <stdarg.h>
#include <stdbool.h>
#include <stdint.h>
#include <stdlib.h>

typedef struct Opaque Opaque;

typedef struct {
  int32_t x;
  float y;
} Normal;

typedef struct {
  int32_t x;
  float y;
} NormalWithZST;

typedef struct {
  int32_t m0;
  float m1;
} TupleRenamed;

typedef struct {
  int32_t x;
  float y;
} TupleNamed;

void root(Opaque *a, Normal b, NormalWithZST c, TupleRenamed d, TupleNamed e);
".
(** tests/expectations/struct_tag.c *)
Definition struct_c_tag : string := "#include <stdarg.h>
#include <stdbool.h>
#include <stdint.h>
#include <stdlib.h>

struct Opaque;

struct Normal {
  int32_t x;
  float y;
};

struct NormalWithZST {
  int32_t x;
  float y;
};

struct TupleRenamed {
  int32_t m0;
  float m1;
};

struct TupleNamed {
  int32_t x;
  float y;
};

void root(struct Opaque *a,
          struct Normal b,
          struct NormalWithZST c,
          struct TupleRenamed d,
          struct TupleNamed e);
".
(** tests/expectations/struct_both.c *)
Definition struct_c_both : string := "#include <stdarg.h>
#include <stdbool.h>
#include <stdint.h>
#include <stdlib.h>

typedef struct Opaque Opaque;

typedef struct Normal {
  int32_t x;
  float y;
} Normal;

typedef struct NormalWithZST {
  int32_t x;
  float y;
} NormalWithZST;

typedef struct TupleRenamed {
  int32_t m0;
  float m1;
} TupleRenamed;

typedef struct TupleNamed {
  int32_t x;
  float y;
} TupleNamed;

void root(struct Opaque *a,
          struct Normal b,
          struct NormalWithZST c,
          struct TupleRenamed d,
          struct TupleNamed e);
".
(** tests/expectations/struct.cpp *)
Definition struct_cpp : string := "#include <cstdarg>
#include <cstdint>
#include <cstdlib>
#include <ostream>
#include <new>

struct Opaque;

struct Normal {
  int32_t x;
  float y;
};

struct NormalWithZST {
  int32_t x;
  float y;
};

struct TupleRenamed {
  int32_t m0;
  float m1;
};

struct TupleNamed {
  int32_t x;
  float y;
};

extern ""C"" {

void root(Opaque *a, Normal b, NormalWithZST c, TupleRenamed d, TupleNamed e);

}  // extern ""C""
".
(** tests/expectations/struct.pyx *)
Definition struct_pyx : string := "from libc.stdint cimport int8_t, int16_t, int32_t, int64_t, intptr_t
from libc.stdint cimport uint8_t, uint16_t, uint32_t, uint64_t, uintptr_t
cdef extern from *:
  ctypedef bint bool
  ctypedef struct va_list

cdef extern from *:

  ctypedef struct Opaque:
    pass

  ctypedef struct Normal:
    int32_t x;
    float y;

  ctypedef struct NormalWithZST:
    int32_t x;
    float y;

  ctypedef struct TupleRenamed:
    int32_t m0;
    float m1;

  ctypedef struct TupleNamed:
    int32_t x;
    float y;

  void root(Opaque *a, Normal b, NormalWithZST c, TupleRenamed d, TupleNamed e);
".
(** tests/expectations/struct_tag.pyx *)
Definition struct_pyx_tag : string := "from libc.stdint cimport int8_t, int16_t, int32_t, int64_t, intptr_t
from libc.stdint cimport uint8_t, uint16_t, uint32_t, uint64_t, uintptr_t
cdef extern from *:
  ctypedef bint bool
  ctypedef struct va_list

cdef extern from *:

  cdef struct Opaque:
    pass

  cdef struct Normal:
    int32_t x;
    float y;

  cdef struct NormalWithZST:
    int32_t x;
    float y;

  cdef struct TupleRenamed:
    int32_t m0;
    float m1;

  cdef struct TupleNamed:
    int32_t x;
    float y;

  void root(Opaque *a, Normal b, NormalWithZST c, TupleRenamed d, TupleNamed e);
".
Example struct_reproduced : reproduces (in_file struct_rs) false default_config (Some "{
root;
};")
  [(RunC true Type_, [struct_compat]);
   (RunC true Tag, [struct_compat_tag]);
   (RunC true Both, [struct_compat_both]);
   (RunC false Type_, [struct_c]);
   (RunC false Tag, [struct_c_tag]);
   (RunC false Both, [struct_c_both]);
   (RunCxx, [struct_cpp]);
   (RunCython Type_, [struct_pyx]);
   (RunCython Tag, [struct_pyx_tag])] = true.
Proof. vm_compute. reflexivity. Qed.

(** ** tests/rust/struct_literal.rs *)
Definition struct_literal_rs : list sitem := [
  (ItemStruct [{| at_meta := (AList (Some "repr") [(APath (Some "C"))]); at_outer := true |}] "Foo" [] (FieldsNamed [{| sf_attrs :=
  []; sf_ident := (Some "a"); sf_ty := (SPath (SegPath [] "i32" NoArgs)) |}; {| sf_attrs := []; sf_ident := (Some "b"); sf_ty := (SPath
  (SegPath [] "u32" NoArgs)) |}]));
  (ItemStruct [] "Bar" [] (FieldsNamed [{| sf_attrs := []; sf_ident := (Some "a"); sf_ty := (SPath (SegPath [] "i32" NoArgs)) |}; {|
  sf_attrs := []; sf_ident := (Some "b"); sf_ty := (SPath (SegPath [] "u32" NoArgs)) |}]));
  (ItemImpl [] (SPath (SegPath [] "Foo" NoArgs)) [(ImplConst [] true "FOO" (SPath (SegPath [] "Foo" NoArgs)) (XStruct (SegPath [] "Foo"
  NoArgs) [([], (Named "a"), (XLit (LitInt 42 ""))); ([], (Named "b"), (XLit (LitInt 47 "")))] None)); (ImplConst [] true "FOO2" (SPath
  (SegPath [] "Self" NoArgs)) (XStruct (SegPath [] "Foo" NoArgs) [([], (Named "a"), (XLit (LitInt 42 ""))); ([], (Named "b"), (XLit
  (LitInt 47 "")))] None)); (ImplConst [] true "FOO3" (SPath (SegPath [] "Self" NoArgs)) (XStruct (SegPath [] "Self" NoArgs) [([],
  (Named "a"), (XLit (LitInt 42 ""))); ([], (Named "b"), (XLit (LitInt 47 "")))] None)); (ImplConst [] true "BAZ" (SPath (SegPath
  [] "Bar" NoArgs)) (XStruct (SegPath [] "Bar" NoArgs) [([], (Named "a"), (XLit (LitInt 42 ""))); ([], (Named "b"), (XLit (LitInt
  47 "")))] None))]);
  (ItemConst [] true "BAR" (SPath (SegPath [] "Foo" NoArgs)) (XStruct (SegPath [] "Foo" NoArgs) [([], (Named "a"), (XLit (LitInt 42
  ""))); ([], (Named "b"), (XLit (LitInt 1337 "")))] None));
  (ItemConst [] true "BAZZ" (SPath (SegPath [] "Bar" NoArgs)) (XStruct (SegPath [] "Bar" NoArgs) [([], (Named "a"), (XLit (LitInt 42
  ""))); ([], (Named "b"), (XLit (LitInt 1337 "")))] None));
  (ItemFn [{| at_meta := (APath (Some "no_mangle")); at_outer := true |}] true {| sg_ident := "root"; sg_abi := (Some (Some "C")); sg_inputs
  := [(FnTyped (PatIdent "x") (SPath (SegPath [] "Foo" NoArgs))); (FnTyped (PatIdent "bar") (SPath (SegPath [] "Bar" NoArgs)))]; sg_variadic
  := false; sg_output := None |})].
(** tests/expectations/struct_literal.compat.c *)
Definition struct_literal_compat : string := "#include <stdarg.h>
#include <stdbool.h>
#include <stdint.h>
#include <stdlib.h>

typedef struct Bar Bar;

typedef struct {
  int32_t a;
  uint32_t b;
} Foo;
#define Foo_FOO (Foo){ .a = 42, .b = 47 }
#define Foo_FOO2 (Foo){ .a = 42, .b = 47 }
#define Foo_FOO3 (Foo){ .a = 42, .b = 47 }


#define BAR (Foo){ .a = 42, .b = 1337 }



#ifdef __cplusplus
extern ""C"" {
#endif // __cplusplus

void root(Foo x, Bar bar);

#ifdef __cplusplus
}  // extern ""C""
#endif  // __cplusplus
".
(** tests/expectations/struct_literal_tag.compat.c *)
Definition struct_literal_compat_tag : string := "#include <stdarg.h>
#include <stdbool.h>
#include <stdint.h>
#include <stdlib.h>

struct Bar;

struct Foo {
  int32_t a;
  uint32_t b;
};
#define Foo_FOO (Foo){ .a = 42, .b = 47 }
#define Foo_FOO2 (Foo){ .a = 42, .b = 47 }
#define Foo_FOO3 (Foo){ .a = 42, .b = 47 }


#define BAR (Foo){ .a = 42, .b = 1337 }



#ifdef __cplusplus
extern ""C"" {
#endif // __cplusplus

void root(struct Foo x, struct Bar bar);

#ifdef __cplusplus
}  // extern ""C""
#endif  // __cplusplus
".
(** tests/expectations/struct_literal_both.compat.c *)
Definition struct_literal_compat_both : string := "#include <stdarg.h>
#include <stdbool.h>
#include <stdint.h>
#include <stdlib.h>

typedef struct Bar Bar;

typedef struct Foo {
  int32_t a;
  uint32_t b;
} Foo;
#define Foo_FOO (Foo){ .a = 42, .b = 47 }
#define Foo_FOO2 (Foo){ .a = 42, .b = 47 }
#define Foo_FOO3 (Foo){ .a = 42, .b = 47 }


#define BAR (Foo){ .a = 42, .b = 1337 }



#ifdef __cplusplus
extern ""C"" {
#endif // __cplusplus

void root(struct Foo x, struct Bar bar);

#ifdef __cplusplus
}  // extern ""C""
#endif  // __cplusplus
".
(** tests/expectations/struct_literal.c *)
Definition struct_literal_c : string := "#include <stdarg.h>
#include <stdbool.h>
#include <stdint.h>
#include <stdlib.h>

typedef struct Bar Bar;

typedef struct {
  int32_t a;
  uint32_t b;
} Foo;
#define Foo_FOO (Foo){ .a = 42, .b = 47 }
#define Foo_FOO2 (Foo){ .a = 42, .b = 47 }
#define Foo_FOO3 (Foo){ .a = 42, .b = 47 }


#define BAR (Foo){ .a = 42, .b = 1337 }



void root(Foo x, Bar bar);
".
(** tests/expectations/struct_literal_tag.c *)
Definition struct_literal_c_tag : string := "#include <stdarg.h>
#include <stdbool.h>
#include <stdint.h>
#include <stdlib.h>

struct Bar;

struct Foo {
  int32_t a;
  uint32_t b;
};
#define Foo_FOO (Foo){ .a = 42, .b = 47 }
#define Foo_FOO2 (Foo){ .a = 42, .b = 47 }
#define Foo_FOO3 (Foo){ .a = 42, .b = 47 }


#define BAR (Foo){ .a = 42, .b = 1337 }



void root(struct Foo x, struct Bar bar);
".
(** tests/expectations/struct_literal_both.c *)
Definition struct_literal_c_both : string := "#include <stdarg.h>
#include <stdbool.h>
#include <stdint.h>
#include <stdlib.h>

typedef struct Bar Bar;

typedef struct Foo {
  int32_t a;
  uint32_t b;
} Foo;
#define Foo_FOO (Foo){ .a = 42, .b = 47 }
#define Foo_FOO2 (Foo){ .a = 42, .b = 47 }
#define Foo_FOO3 (Foo){ .a = 42, .b = 47 }


#define BAR (Foo){ .a = 42, .b = 1337 }



void root(struct Foo x, struct Bar bar);
".
(** tests/expectations/struct_literal.cpp *)
Definition struct_literal_cpp : string := "#include <cstdarg>
#include <cstdint>
#include <cstdlib>
#include <ostream>
#include <new>

struct Bar;

struct Foo {
  int32_t a;
  uint32_t b;
};
constexpr static const Foo Foo_FOO = Foo{
  /* .a = */ 42,
  /* .b = */ 47
};
constexpr static const Foo Foo_FOO2 = Foo{
  /* .a = */ 42,
  /* .b = */ 47
};
constexpr static const Foo Foo_FOO3 = Foo{
  /* .a = */ 42,
  /* .b = */ 47
};


constexpr static const Foo BAR = Foo{
  /* .a = */ 42,
  /* .b = */ 1337
};



extern ""C"" {

void root(Foo x, Bar bar);

}  // extern ""C""
".
(** tests/expectations/struct_literal.pyx *)
Definition struct_literal_pyx : string := "from libc.stdint cimport int8_t, int16_t, int32_t, int64_t, intptr_t
from libc.stdint cimport uint8_t, uint16_t, uint32_t, uint64_t, uintptr_t
cdef extern from *:
  ctypedef bint bool
  ctypedef struct va_list

cdef extern from *:

  ctypedef struct Bar:
    pass

  ctypedef struct Foo:
    int32_t a;
    uint32_t b;
  const Foo Foo_FOO # = <Foo>{ 42, 47 }
  const Foo Foo_FOO2 # = <Foo>{ 42, 47 }
  const Foo Foo_FOO3 # = <Foo>{ 42, 47 }


  const Foo BAR # = <Foo>{ 42, 1337 }



  void root(Foo x, Bar bar);
".
(** tests/expectations/struct_literal_tag.pyx *)
Definition struct_literal_pyx_tag : string := "from libc.stdint cimport int8_t, int16_t, int32_t, int64_t, intptr_t
from libc.stdint cimport uint8_t, uint16_t, uint32_t, uint64_t, uintptr_t
cdef extern from *:
  ctypedef bint bool
  ctypedef struct va_list

cdef extern from *:

  cdef struct Bar:
    pass

  cdef struct Foo:
    int32_t a;
    uint32_t b;
  const Foo Foo_FOO # = <Foo>{ 42, 47 }
  const Foo Foo_FOO2 # = <Foo>{ 42, 47 }
  const Foo Foo_FOO3 # = <Foo>{ 42, 47 }


  const Foo BAR # = <Foo>{ 42, 1337 }



  void root(Foo x, Bar bar);
".
Example struct_literal_reproduced : reproduces (in_file struct_literal_rs) false default_config (Some "{
root;
};")
  [(RunC true Type_, [struct_literal_compat]);
   (RunC true Tag, [struct_literal_compat_tag]);
   (RunC true Both, [struct_literal_compat_both]);
   (RunC false Type_, [struct_literal_c]);
   (RunC false Tag, [struct_literal_c_tag]);
   (RunC false Both, [struct_literal_c_both]);
   (RunCxx, [struct_literal_cpp]);
   (RunCython Type_, [struct_literal_pyx]);
   (RunCython Tag, [struct_literal_pyx_tag])] = true.
Proof. vm_compute. reflexivity. Qed.

(** ** tests/rust/struct_literal_order.rs *)
Definition struct_literal_order_rs : list sitem := [
  (ItemStruct [{| at_meta := (AList (Some "repr") [(APath (Some "C"))]); at_outer := true |}] "ABC" [] (FieldsNamed [{| sf_attrs :=
  []; sf_ident := (Some "a"); sf_ty := (SPath (SegPath [] "f32" NoArgs)) |}; {| sf_attrs := []; sf_ident := (Some "b"); sf_ty := (SPath
  (SegPath [] "u32" NoArgs)) |}; {| sf_attrs := []; sf_ident := (Some "c"); sf_ty := (SPath (SegPath [] "u32" NoArgs)) |}]));
  (ItemStruct [{| at_meta := (AList (Some "repr") [(APath (Some "C"))]); at_outer := true |}] "BAC" [] (FieldsNamed [{| sf_attrs :=
  []; sf_ident := (Some "b"); sf_ty := (SPath (SegPath [] "u32" NoArgs)) |}; {| sf_attrs := []; sf_ident := (Some "a"); sf_ty := (SPath
  (SegPath [] "f32" NoArgs)) |}; {| sf_attrs := []; sf_ident := (Some "c"); sf_ty := (SPath (SegPath [] "i32" NoArgs)) |}]));
  (ItemImpl [] (SPath (SegPath [] "ABC" NoArgs)) [(ImplConst [] true "abc" (SPath (SegPath [] "ABC" NoArgs)) (XStruct (SegPath [] "ABC"
  NoArgs) [([], (Named "a"), (XLit (LitFloat "1.0"))); ([], (Named "b"), (XLit (LitInt 2 ""))); ([], (Named "c"), (XLit (LitInt 3
  "")))] None)); (ImplConst [] true "bac" (SPath (SegPath [] "ABC" NoArgs)) (XStruct (SegPath [] "ABC" NoArgs) [([], (Named "b"),
  (XLit (LitInt 2 ""))); ([], (Named "a"), (XLit (LitFloat "1.0"))); ([], (Named "c"), (XLit (LitInt 3 "")))] None)); (ImplConst []
  true "cba" (SPath (SegPath [] "ABC" NoArgs)) (XStruct (SegPath [] "ABC" NoArgs) [([], (Named "c"), (XLit (LitInt 3 ""))); ([], (Named
  "b"), (XLit (LitInt 2 ""))); ([], (Named "a"), (XLit (LitFloat "1.0")))] None))]);
  (ItemImpl [] (SPath (SegPath [] "BAC" NoArgs)) [(ImplConst [] true "abc" (SPath (SegPath [] "BAC" NoArgs)) (XStruct (SegPath [] "BAC"
  NoArgs) [([], (Named "a"), (XLit (LitFloat "2.0"))); ([], (Named "b"), (XLit (LitInt 1 ""))); ([], (Named "c"), (XLit (LitInt 3
  "")))] None)); (ImplConst [] true "bac" (SPath (SegPath [] "BAC" NoArgs)) (XStruct (SegPath [] "BAC" NoArgs) [([], (Named "b"),
  (XLit (LitInt 1 ""))); ([], (Named "a"), (XLit (LitFloat "2.0"))); ([], (Named "c"), (XLit (LitInt 3 "")))] None)); (ImplConst []
  true "cba" (SPath (SegPath [] "BAC" NoArgs)) (XStruct (SegPath [] "BAC" NoArgs) [([], (Named "c"), (XLit (LitInt 3 ""))); ([], (Named
  "b"), (XLit (LitInt 1 ""))); ([], (Named "a"), (XLit (LitFloat "2.0")))] None))]);
  (ItemFn [{| at_meta := (APath (Some "no_mangle")); at_outer := true |}] true {| sg_ident := "root"; sg_abi := (Some (Some "C")); sg_inputs
  := [(FnTyped (PatIdent "a1") (SPath (SegPath [] "ABC" NoArgs))); (FnTyped (PatIdent "a2") (SPath (SegPath [] "BAC" NoArgs)))]; sg_variadic
  := false; sg_output := None |})].
(** tests/expectations/struct_literal_order.compat.c *)
Definition struct_literal_order_compat : string := "#include <stdarg.h>
#include <stdbool.h>
#include <stdint.h>
#include <stdlib.h>

typedef struct {
  float a;
  uint32_t b;
  uint32_t c;
} ABC;
#define ABC_abc (ABC){ .a = 1.0, .b = 2, .c = 3 }
#define ABC_bac (ABC){ .a = 1.0, .b = 2, .c = 3 }
#define ABC_cba (ABC){ .a = 1.0, .b = 2, .c = 3 }

typedef struct {
  uint32_t b;
  float a;
  int32_t c;
} BAC;
#define BAC_abc (BAC){ .b = 1, .a = 2.0, .c = 3 }
#define BAC_bac (BAC){ .b = 1, .a = 2.0, .c = 3 }
#define BAC_cba (BAC){ .b = 1, .a = 2.0, .c = 3 }

#ifdef __cplusplus
extern ""C"" {
#endif // __cplusplus

void root(ABC a1, BAC a2);

#ifdef __cplusplus
}  // extern ""C""
#endif  // __cplusplus
".
(** tests/expectations/struct_literal_order_tag.compat.c *)
Definition struct_literal_order_compat_tag : string := "#include <stdarg.h>
#include <stdbool.h>
#include <stdint.h>
#include <stdlib.h>

struct ABC {
  float a;
  uint32_t b;
  uint32_t c;
};
#define ABC_abc (ABC){ .a = 1.0, .b = 2, .c = 3 }
#define ABC_bac (ABC){ .a = 1.0, .b = 2, .c = 3 }
#define ABC_cba (ABC){ .a = 1.0, .b = 2, .c = 3 }

struct BAC {
  uint32_t b;
  float a;
  int32_t c;
};
#define BAC_abc (BAC){ .b = 1, .a = 2.0, .c = 3 }
#define BAC_bac (BAC){ .b = 1, .a = 2.0, .c = 3 }
#define BAC_cba (BAC){ .b = 1, .a = 2.0, .c = 3 }

#ifdef __cplusplus
extern ""C"" {
#endif // __cplusplus

void root(struct ABC a1, struct BAC a2);

#ifdef __cplusplus
}  // extern ""C""
#endif  // __cplusplus
".
(** tests/expectations/struct_literal_order_both.compat.c *)
Definition struct_literal_order_compat_both : string := "#include <stdarg.h>
#include <stdbool.h>
#include <stdint.h>
#include <stdlib.h>

typedef struct ABC {
  float a;
  uint32_t b;
  uint32_t c;
} ABC;
#define ABC_abc (ABC){ .a = 1.0, .b = 2, .c = 3 }
#define ABC_bac (ABC){ .a = 1.0, .b = 2, .c = 3 }
#define ABC_cba (ABC){ .a = 1.0, .b = 2, .c = 3 }

typedef struct BAC {
  uint32_t b;
  float a;
  int32_t c;
} BAC;
#define BAC_abc (BAC){ .b = 1, .a = 2.0, .c = 3 }
#define BAC_bac (BAC){ .b = 1, .a = 2.0, .c = 3 }
#define BAC_cba (BAC){ .b = 1, .a = 2.0, .c = 3 }

#ifdef __cplusplus
extern ""C"" {
#endif // __cplusplus

void root(struct ABC a1, struct BAC a2);

#ifdef __cplusplus
}  // extern ""C""
#endif  // __cplusplus
".
(** tests/expectations/struct_literal_order.c *)
Definition struct_literal_order_c : string := "#include <stdarg.h>
#include <stdbool.h>
#include <stdint.h>
#include <stdlib.h>

typedef struct {
  float a;
  uint32_t b;
  uint32_t c;
} ABC;
#define ABC_abc (ABC){ .a = 1.0, .b = 2, .c = 3 }
#define ABC_bac (ABC){ .a = 1.0, .b = 2, .c = 3 }
#define ABC_cba (ABC){ .a = 1.0, .b = 2, .c = 3 }

typedef struct {
  uint32_t b;
  float a;
  int32_t c;
} BAC;
#define BAC_abc (BAC){ .b = 1, .a = 2.0, .c = 3 }
#define BAC_bac (BAC){ .b = 1, .a = 2.0, .c = 3 }
#define BAC_cba (BAC){ .b = 1, .a = 2.0, .c = 3 }

void root(ABC a1, BAC a2);
".
(** tests/expectations/struct_literal_order_tag.c *)
Definition struct_literal_order_c_tag : string := "#include <stdarg.h>
#include <stdbool.h>
#include <stdint.h>
#include <stdlib.h>

struct ABC {
  float a;
  uint32_t b;
  uint32_t c;
};
#define ABC_abc (ABC){ .a = 1.0, .b = 2, .c = 3 }
#define ABC_bac (ABC){ .a = 1.0, .b = 2, .c = 3 }
#define ABC_cba (ABC){ .a = 1.0, .b = 2, .c = 3 }

struct BAC {
  uint32_t b;
  float a;
  int32_t c;
};
#define BAC_abc (BAC){ .b = 1, .a = 2.0, .c = 3 }
#define BAC_bac (BAC){ .b = 1, .a = 2.0, .c = 3 }
#define BAC_cba (BAC){ .b = 1, .a = 2.0, .c = 3 }

void root(struct ABC a1, struct BAC a2);
".
(** tests/expectations/struct_literal_order_both.c *)
Definition struct_literal_order_c_both : string := "#include <stdarg.h>
#include <stdbool.h>
#include <stdint.h>
#include <stdlib.h>

typedef struct ABC {
  float a;
  uint32_t b;
  uint32_t c;
} ABC;
#define ABC_abc (ABC){ .a = 1.0, .b = 2, .c = 3 }
#define ABC_bac (ABC){ .a = 1.0, .b = 2, .c = 3 }
#define ABC_cba (ABC){ .a = 1.0, .b = 2, .c = 3 }

typedef struct BAC {
  uint32_t b;
  float a;
  int32_t c;
} BAC;
#define BAC_abc (BAC){ .b = 1, .a = 2.0, .c = 3 }
#define BAC_bac (BAC){ .b = 1, .a = 2.0, .c = 3 }
#define BAC_cba (BAC){ .b = 1, .a = 2.0, .c = 3 }

void root(struct ABC a1, struct BAC a2);
".
(** tests/expectations/struct_literal_order.cpp *)
Definition struct_literal_order_cpp : string := "#include <cstdarg>
#include <cstdint>
#include <cstdlib>
#include <ostream>
#include <new>

struct ABC {
  float a;
  uint32_t b;
  uint32_t c;
};
constexpr static const ABC ABC_abc = ABC{
  /* .a = */ 1.0,
  /* .b = */ 2,
  /* .c = */ 3
};
constexpr static const ABC ABC_bac = ABC{
  /* .a = */ 1.0,
  /* .b = */ 2,
  /* .c = */ 3
};
constexpr static const ABC ABC_cba = ABC{
  /* .a = */ 1.0,
  /* .b = */ 2,
  /* .c = */ 3
};

struct BAC {
  uint32_t b;
  float a;
  int32_t c;
};
constexpr static const BAC BAC_abc = BAC{
  /* .b = */ 1,
  /* .a = */ 2.0,
  /* .c = */ 3
};
constexpr static const BAC BAC_bac = BAC{
  /* .b = */ 1,
  /* .a = */ 2.0,
  /* .c = */ 3
};
constexpr static const BAC BAC_cba = BAC{
  /* .b = */ 1,
  /* .a = */ 2.0,
  /* .c = */ 3
};

extern ""C"" {

void root(ABC a1, BAC a2);

}  // extern ""C""
".
(** tests/expectations/struct_literal_order.pyx *)
Definition struct_literal_order_pyx : string := "from libc.stdint cimport int8_t, int16_t, int32_t, int64_t, intptr_t
from libc.stdint cimport uint8_t, uint16_t, uint32_t, uint64_t, uintptr_t
cdef extern from *:
  ctypedef bint bool
  ctypedef struct va_list

cdef extern from *:

  ctypedef struct ABC:
    float a;
    uint32_t b;
    uint32_t c;
  const ABC ABC_abc # = <ABC>{ 1.0, 2, 3 }
  const ABC ABC_bac # = <ABC>{ 1.0, 2, 3 }
  const ABC ABC_cba # = <ABC>{ 1.0, 2, 3 }

  ctypedef struct BAC:
    uint32_t b;
    float a;
    int32_t c;
  const BAC BAC_abc # = <BAC>{ 1, 2.0, 3 }
  const BAC BAC_bac # = <BAC>{ 1, 2.0, 3 }
  const BAC BAC_cba # = <BAC>{ 1, 2.0, 3 }

  void root(ABC a1, BAC a2);
".
(** tests/expectations/struct_literal_order_tag.pyx *)
Definition struct_literal_order_pyx_tag : string := "from libc.stdint cimport int8_t, int16_t, int32_t, int64_t, intptr_t
from libc.stdint cimport uint8_t, uint16_t, uint32_t, uint64_t, uintptr_t
cdef extern from *:
  ctypedef bint bool
  ctypedef struct va_list

cdef extern from *:

  cdef struct ABC:
    float a;
    uint32_t b;
    uint32_t c;
  const ABC ABC_abc # = <ABC>{ 1.0, 2, 3 }
  const ABC ABC_bac # = <ABC>{ 1.0, 2, 3 }
  const ABC ABC_cba # = <ABC>{ 1.0, 2, 3 }

  cdef struct BAC:
    uint32_t b;
    float a;
    int32_t c;
  const BAC BAC_abc # = <BAC>{ 1, 2.0, 3 }
  const BAC BAC_bac # = <BAC>{ 1, 2.0, 3 }
  const BAC BAC_cba # = <BAC>{ 1, 2.0, 3 }

  void root(ABC a1, BAC a2);
".
Example struct_literal_order_reproduced : reproduces (in_file struct_literal_order_rs) false default_config (Some "{
root;
};")
  [(RunC true Type_, [struct_literal_order_compat]);
   (RunC true Tag, [struct_literal_order_compat_tag]);
   (RunC true Both, [struct_literal_order_compat_both]);
   (RunC false Type_, [struct_literal_order_c]);
   (RunC false Tag, [struct_literal_order_c_tag]);
   (RunC false Both, [struct_literal_order_c_both]);
   (RunCxx, [struct_literal_order_cpp]);
   (RunCython Type_, [struct_literal_order_pyx]);
   (RunCython Tag, [struct_literal_order_pyx_tag])] = true.
Proof. vm_compute. reflexivity. Qed.

(** ** tests/rust/struct_self.rs *)
Definition struct_self_rs : list sitem := [
  (ItemStruct [{| at_meta := (AList (Some "repr") [(APath (Some "C"))]); at_outer := true |}] "Foo" [(SGType "T" None)] (FieldsNamed
  [{| sf_attrs := []; sf_ident := (Some "something"); sf_ty := (SPtr false (SPath (SegPath [] "i32" NoArgs))) |}; {| sf_attrs := [];
  sf_ident := (Some "phantom"); sf_ty := (SPath (SegPath ["std"; "marker"] "PhantomData" (AngleArgs [(ArgType (SPath (SegPath [] "T"
  NoArgs)))]))) |}]));
  (ItemStruct [{| at_meta := (AList (Some "repr") [(APath (Some "C"))]); at_outer := true |}] "Bar" [] (FieldsNamed [{| sf_attrs :=
  []; sf_ident := (Some "something"); sf_ty := (SPath (SegPath [] "i32" NoArgs)) |}; {| sf_attrs := []; sf_ident := (Some "subexpressions");
  sf_ty := (SPath (SegPath [] "Foo" (AngleArgs [(ArgType (SPath (SegPath [] "Self" NoArgs)))]))) |}]));
  (ItemFn [{| at_meta := (APath (Some "no_mangle")); at_outer := true |}] true {| sg_ident := "root"; sg_abi := (Some (Some "C")); sg_inputs
  := [(FnTyped (PatIdent "b") (SPath (SegPath [] "Bar" NoArgs)))]; sg_variadic := false; sg_output := None |})].
(** tests/expectations/struct_self.compat.c *)
Definition struct_self_compat : string := "#include <stdarg.h>
#include <stdbool.h>
#include <stdint.h>
#include <stdlib.h>

typedef struct {
  const int32_t *something;
} Foo_Bar;

typedef struct {
  int32_t something;
  Foo_Bar subexpressions;
} Bar;

#ifdef __cplusplus
extern ""C"" {
#endif // __cplusplus

void root(Bar b);

#ifdef __cplusplus
}  // extern ""C""
#endif  // __cplusplus
".
(** tests/expectations/struct_self_tag.compat.c *)
Definition struct_self_compat_tag : string := "#include <stdarg.h>
#include <stdbool.h>
#include <stdint.h>
#include <stdlib.h>

struct Foo_Bar {
  const int32_t *something;
};

struct Bar {
  int32_t something;
  struct Foo_Bar subexpressions;
};

#ifdef __cplusplus
extern ""C"" {
#endif // __cplusplus

void root(struct Bar b);

#ifdef __cplusplus
}  // extern ""C""
#endif  // __cplusplus
".
(** tests/expectations/struct_self_both.compat.c *)
Definition struct_self_compat_both : string := "#include <stdarg.h>
#include <stdbool.h>
#include <stdint.h>
#include <stdlib.h>

typedef struct Foo_Bar {
  const int32_t *something;
} Foo_Bar;

typedef struct Bar {
  int32_t something;
  struct Foo_Bar subexpressions;
} Bar;

#ifdef __cplusplus
extern ""C"" {
#endif // __cplusplus

void root(struct Bar b);

#ifdef __cplusplus
}  // extern ""C""
#endif  // __cplusplus
".
(** tests/expectations/struct_self.c *)
Definition struct_self_c : string := "#include <stdarg.h>
#include <stdbool.h>
#include <stdint.h>
#include <stdlib.h>

typedef struct {
  const int32_t *something;
} Foo_Bar;

typedef struct {
  int32_t something;
  Foo_Bar subexpressions;
} Bar;

void root(Bar b);
".
(** tests/expectations/struct_self_tag.c *)
Definition struct_self_c_tag : string := "#include <stdarg.h>
#include <stdbool.h>
#include <stdint.h>
#include <stdlib.h>

struct Foo_Bar {
  const int32_t *something;
};

struct Bar {
  int32_t something;
  struct Foo_Bar subexpressions;
};

void root(struct Bar b);
".
(** tests/expectations/struct_self_both.c *)
Definition struct_self_c_both : string := "#include <stdarg.h>
#include <stdbool.h>
#include <stdint.h>
#include <stdlib.h>

typedef struct Foo_Bar {
  const int32_t *something;
} Foo_Bar;

typedef struct Bar {
  int32_t something;
  struct Foo_Bar subexpressions;
} Bar;

void root(struct Bar b);
".
(** tests/expectations/struct_self.cpp *)
Definition struct_self_cpp : string := "#include <cstdarg>
#include <cstdint>
#include <cstdlib>
#include <ostream>
#include <new>

template<typename T>
struct Foo {
  const int32_t *something;
};

struct Bar {
  int32_t something;
  Foo<Bar> subexpressions;
};

extern ""C"" {

void root(Bar b);

}  // extern ""C""
".
(** tests/expectations/struct_self.pyx *)
Definition struct_self_pyx : string := "from libc.stdint cimport int8_t, int16_t, int32_t, int64_t, intptr_t
from libc.stdint cimport uint8_t, uint16_t, uint32_t, uint64_t, uintptr_t
cdef extern from *:
  ctypedef bint bool
  ctypedef struct va_list

cdef extern from *:

  ctypedef struct Foo_Bar:
    const int32_t *something;

  ctypedef struct Bar:
    int32_t something;
    Foo_Bar subexpressions;

  void root(Bar b);
".
(** tests/expectations/struct_self_tag.pyx *)
Definition struct_self_pyx_tag : string := "from libc.stdint cimport int8_t, int16_t, int32_t, int64_t, intptr_t
from libc.stdint cimport uint8_t, uint16_t, uint32_t, uint64_t, uintptr_t
cdef extern from *:
  ctypedef bint bool
  ctypedef struct va_list

cdef extern from *:

  cdef struct Foo_Bar:
    const int32_t *something;

  cdef struct Bar:
    int32_t something;
    Foo_Bar subexpressions;

  void root(Bar b);
".
Example struct_self_reproduced : reproduces (in_file struct_self_rs) false default_config (Some "{
root;
};")
  [(RunC true Type_, [struct_self_compat]);
   (RunC true Tag, [struct_self_compat_tag]);
   (RunC true Both, [struct_self_compat_both]);
   (RunC false Type_, [struct_self_c]);
   (RunC false Tag, [struct_self_c_tag]);
   (RunC false Both, [struct_self_c_both]);
   (RunCxx, [struct_self_cpp]);
   (RunCython Type_, [struct_self_pyx]);
   (RunCython Tag, [struct_self_pyx_tag])] = true.
Proof. vm_compute. reflexivity. Qed.

(** ** tests/rust/style_crash.rs *)
Definition style_crash_rs : list sitem := [
  (ItemOther []);
  (ItemImpl [] SOtherType [(ImplConst [] false "SUPPORTED_TYPES" (SPath (SegPath [] "u8" NoArgs)) (XPath (SegPath ["T"] "SUPPORTED_TYPES"
  NoArgs)))])].
(** tests/expectations/style_crash.compat.c *)
Definition style_crash_compat : string := "#include <stdarg.h>
#include <stdbool.h>
#include <stdint.h>
#include <stdlib.h>
".
(** tests/expectations/style_crash.cpp *)
Definition style_crash_cpp : string := "#include <cstdarg>
#include <cstdint>
#include <cstdlib>
#include <ostream>
#include <new>
".
(** tests/expectations/style_crash.pyx *)
Definition style_crash_pyx : string := "from libc.stdint cimport int8_t, int16_t, int32_t, int64_t, intptr_t
from libc.stdint cimport uint8_t, uint16_t, uint32_t, uint64_t, uintptr_t
cdef extern from *:
  ctypedef bint bool
  ctypedef struct va_list

cdef extern from *:
  pass".
Example style_crash_reproduced : reproduces (in_file style_crash_rs) false default_config None
  [(RunC true Type_, [style_crash_compat]);
   (RunC true Tag, [style_crash_compat]);
   (RunC true Both, [style_crash_compat]);
   (RunC false Type_, [style_crash_compat]);
   (RunC false Tag, [style_crash_compat]);
   (RunC false Both, [style_crash_compat]);
   (RunCxx, [style_crash_cpp]);
   (RunCython Type_, [style_crash_pyx]);
   (RunCython Tag, [style_crash_pyx])] = true.
Proof. vm_compute. reflexivity. Qed.

