(** See S_Suite.v; generated. *)
Require Import Coq.Strings.String Coq.Strings.Ascii Coq.Lists.List Coq.Bool.Bool Coq.NArith.NArith.
From Verif Require Import Base M_Config M_Cfg M_Type M_Ir M_Item M_Attr M_Syn M_Library M_Loader M_Parser M_Bindings M_Backend S_Heck S_Suite.
Import ListNotations.
Open Scope string_scope.

(** ** tests/rust/pragma_once.skip_warning_as_error.rs *)
Definition pragma_once_rs : list sitem := [
  (ItemFn [{| at_meta := (APath (Some "no_mangle")); at_outer := true |}] true {| sg_ident := "root"; sg_abi := (Some (Some "C")); sg_inputs
  := []; sg_variadic := false; sg_output := None |})].
Definition pragma_once_toml : Config := {| header := None; includes_ := []; sys_includes_ := []; after_includes := None; trailer := None;
  include_guard_ := None; pragma_once := true; no_includes := false; package_version := false; autogen_warning := None; include_version := false;
  namespace := None; namespaces := None; using_namespaces := None; braces := SameLine; line_length := 100; tab_width := 2; line_endings := LF;
  language := Cxx; cpp_compat := false; style := Both; sort_by := SortNone; usize_is_size_t := false; parse := default_parse; export := {| ex_include := []; ex_exclude := []; ex_rename := []; ex_pre_body := []; ex_body := []; ex_prefix := None; ex_item_types := []; ex_renaming_overrides_prefixing := false; ex_mangle := {| rename_types := RNone; remove_underscores := false |} |};
  layout := {| ly_packed := None; ly_aligned_n := None |}; function := {| fn_prefix := None; fn_postfix := None; fn_must_use := None; fn_deprecated := None; fn_deprecated_with_note := None; fn_args := Auto; fn_rename_args := RNone; fn_swift_name_macro := None; fn_sort_by := None; fn_no_return := None |}; structure := {| st_rename_fields := RNone; st_derive_constructor := false; st_derive_eq := false; st_derive_neq := false; st_derive_lt := false; st_derive_lte := false; st_derive_gt := false; st_derive_gte := false; st_derive_ostream := false; st_associated_constants_in_body := false; st_rename_associated_constant := RNone; st_must_use := None; st_deprecated := None; st_deprecated_with_note := None |}; enumeration := {| en_rename_variants := RNone; en_rename_variant_name_fields := SnakeCase; en_add_sentinel := false; en_prefix_with_name := false; en_derive_helper_methods := false; en_derive_const_casts := false; en_derive_mut_casts := false; en_cast_assert_name := None; en_must_use := None; en_deprecated := None; en_deprecated_with_note := None; en_deprecated_variant := None; en_deprecated_variant_with_note := None; en_derive_tagged_enum_destructor := false; en_derive_tagged_enum_copy_constructor := false; en_derive_tagged_enum_copy_assignment := false; en_derive_ostream := false; en_enum_class := true; en_private_default_tagged_enum_constructor := false |}; constant := {| co_allow_static_const := true; co_allow_constexpr := true; co_sort_by := None |}; defines := []; documentation := true;
  documentation_style := DocAuto; documentation_length := Full; pointer := {| pt_non_null_attribute := None; pt_nullable_attribute := None |}; cython := {| cy_header := None; cy_cimports := [] |}; config_path := None |}.
(** tests/expectations/pragma_once.compat.c *)
Definition pragma_once_compat : string := "#pragma once

#include <stdarg.h>
#include <stdbool.h>
#include <stdint.h>
#include <stdlib.h>

#ifdef __cplusplus
extern ""C"" {
#endif // __cplusplus

void root(void);

#ifdef __cplusplus
}  // extern ""C""
#endif  // __cplusplus
".
(** tests/expectations/pragma_once.c *)
Definition pragma_once_c : string := "#pragma once

#include <stdarg.h>
#include <stdbool.h>
#include <stdint.h>
#include <stdlib.h>

void root(void);
".
(** tests/expectations/pragma_once.cpp *)
Definition pragma_once_cpp : string := "#pragma once

#include <cstdarg>
#include <cstdint>
#include <cstdlib>
#include <ostream>
#include <new>

extern ""C"" {

void root();

}  // extern ""C""
".
(** tests/expectations/pragma_once.pyx *)
Definition pragma_once_pyx : string := "from libc.stdint cimport int8_t, int16_t, int32_t, int64_t, intptr_t
from libc.stdint cimport uint8_t, uint16_t, uint32_t, uint64_t, uintptr_t
cdef extern from *:
  ctypedef bint bool
  ctypedef struct va_list

cdef extern from *:

  void root();
".
Example pragma_once_reproduced : reproduces (in_file pragma_once_rs) false pragma_once_toml (Some "{
root;
};")
  [(RunC true Type_, [pragma_once_compat]);
   (RunC true Tag, [pragma_once_compat]);
   (RunC true Both, [pragma_once_compat]);
   (RunC false Type_, [pragma_once_c]);
   (RunC false Tag, [pragma_once_compat; pragma_once_c]);
   (RunC false Both, [pragma_once_compat; pragma_once_c]);
   (RunCxx, [pragma_once_cpp]);
   (RunCython Type_, [pragma_once_pyx]);
   (RunCython Tag, [pragma_once_pyx])] = true.
Proof. vm_compute. reflexivity. Qed.

(** ** tests/rust/prefix.rs *)
Definition prefix_rs : list sitem := [
  (ItemConst [] true "LEN" (SPath (SegPath [] "i32" NoArgs)) (XLit (LitInt 22 "")));
  (ItemType [] "NamedLenArray" [] (SArray (SPath (SegPath [] "i32" NoArgs)) (XPath (SegPath [] "LEN" NoArgs))));
  (ItemType [] "ValuedLenArray" [] (SArray (SPath (SegPath [] "i32" NoArgs)) (XLit (LitInt 22 ""))));
  (ItemEnum [{| at_meta := (AList (Some "repr") [(APath (Some "u8"))]); at_outer := true |}] "AbsoluteFontWeight" [] [{| sv_attrs :=
  []; sv_ident := "Weight"; sv_fields := (FieldsUnnamed [{| sf_attrs := []; sf_ident := None; sf_ty := (SPath (SegPath [] "f32" NoArgs))
  |}]); sv_discriminant := None |}; {| sv_attrs := []; sv_ident := "Normal"; sv_fields := FieldsUnit; sv_discriminant := None |};
  {| sv_attrs := []; sv_ident := "Bold"; sv_fields := FieldsUnit; sv_discriminant := None |}]);
  (ItemFn [{| at_meta := (APath (Some "no_mangle")); at_outer := true |}] true {| sg_ident := "root"; sg_abi := (Some (Some "C")); sg_inputs
  := [(FnTyped (PatIdent "x") (SPath (SegPath [] "NamedLenArray" NoArgs))); (FnTyped (PatIdent "y") (SPath (SegPath [] "ValuedLenArray"
  NoArgs))); (FnTyped (PatIdent "z") (SPath (SegPath [] "AbsoluteFontWeight" NoArgs)))]; sg_variadic := false; sg_output := None |});
  (ItemConst [{| at_meta := (APath (Some "no_mangle")); at_outer := true |}] true "X" (SPath (SegPath [] "i64" NoArgs)) (XBinary Shl
  (XLit (LitInt 22 "")) (XLit (LitInt 22 ""))));
  (ItemConst [{| at_meta := (APath (Some "no_mangle")); at_outer := true |}] true "Y" (SPath (SegPath [] "i64" NoArgs)) (XBinary Add
  (XPath (SegPath [] "X" NoArgs)) (XPath (SegPath [] "X" NoArgs))))].
Definition prefix_toml : Config := {| header := None; includes_ := []; sys_includes_ := []; after_includes := None; trailer := None;
  include_guard_ := None; pragma_once := false; no_includes := false; package_version := false; autogen_warning := None; include_version := false;
  namespace := None; namespaces := None; using_namespaces := None; braces := SameLine; line_length := 100; tab_width := 2; line_endings := LF;
  language := Cxx; cpp_compat := false; style := Both; sort_by := SortNone; usize_is_size_t := false; parse := default_parse; export := {| ex_include := []; ex_exclude := []; ex_rename := []; ex_pre_body := []; ex_body := []; ex_prefix := (Some "PREFIX_"); ex_item_types := []; ex_renaming_overrides_prefixing := false; ex_mangle := {| rename_types := RNone; remove_underscores := false |} |};
  layout := {| ly_packed := None; ly_aligned_n := None |}; function := {| fn_prefix := None; fn_postfix := None; fn_must_use := None; fn_deprecated := None; fn_deprecated_with_note := None; fn_args := Auto; fn_rename_args := RNone; fn_swift_name_macro := None; fn_sort_by := None; fn_no_return := None |}; structure := {| st_rename_fields := RNone; st_derive_constructor := false; st_derive_eq := false; st_derive_neq := false; st_derive_lt := false; st_derive_lte := false; st_derive_gt := false; st_derive_gte := false; st_derive_ostream := false; st_associated_constants_in_body := false; st_rename_associated_constant := RNone; st_must_use := None; st_deprecated := None; st_deprecated_with_note := None |}; enumeration := {| en_rename_variants := RNone; en_rename_variant_name_fields := SnakeCase; en_add_sentinel := false; en_prefix_with_name := false; en_derive_helper_methods := false; en_derive_const_casts := false; en_derive_mut_casts := false; en_cast_assert_name := None; en_must_use := None; en_deprecated := None; en_deprecated_with_note := None; en_deprecated_variant := None; en_deprecated_variant_with_note := None; en_derive_tagged_enum_destructor := false; en_derive_tagged_enum_copy_constructor := false; en_derive_tagged_enum_copy_assignment := false; en_derive_ostream := false; en_enum_class := true; en_private_default_tagged_enum_constructor := false |}; constant := {| co_allow_static_const := true; co_allow_constexpr := true; co_sort_by := None |}; defines := []; documentation := true;
  documentation_style := DocAuto; documentation_length := Full; pointer := {| pt_non_null_attribute := None; pt_nullable_attribute := None |}; cython := {| cy_header := None; cy_cimports := [] |}; config_path := None |}.
(** tests/expectations/prefix.compat.c *)
Definition prefix_compat : string := "#include <stdarg.h>
#include <stdbool.h>
#include <stdint.h>
#include <stdlib.h>

#define PREFIX_LEN 22

#define PREFIX_X (22 << 22)

#define PREFIX_Y (PREFIX_X + PREFIX_X)

typedef int32_t PREFIX_NamedLenArray[PREFIX_LEN];

typedef int32_t PREFIX_ValuedLenArray[22];

enum PREFIX_AbsoluteFontWeight_Tag
#if defined(__cplusplus) || __STDC_VERSION__ >= 202311L
  : uint8_t
#endif // defined(__cplusplus) || __STDC_VERSION__ >= 202311L
 {
  Weight,
  Normal,
  Bold,
};
#ifndef __cplusplus
#if __STDC_VERSION__ >= 202311L
typedef enum PREFIX_AbsoluteFontWeight_Tag PREFIX_AbsoluteFontWeight_Tag;
#else
typedef uint8_t PREFIX_AbsoluteFontWeight_Tag;
#endif // __STDC_VERSION__ >= 202311L
#endif // __cplusplus

typedef union {
  PREFIX_AbsoluteFontWeight_Tag tag;
  struct {
    PREFIX_AbsoluteFontWeight_Tag weight_tag;
    float weight;
  };
} PREFIX_AbsoluteFontWeight;

#ifdef __cplusplus
extern ""C"" {
#endif // __cplusplus

void root(PREFIX_NamedLenArray x, PREFIX_ValuedLenArray y, PREFIX_AbsoluteFontWeight z);

#ifdef __cplusplus
}  // extern ""C""
#endif  // __cplusplus
".
(** tests/expectations/prefix_tag.compat.c *)
Definition prefix_compat_tag : string := "#include <stdarg.h>
#include <stdbool.h>
#include <stdint.h>
#include <stdlib.h>

#define PREFIX_LEN 22

#define PREFIX_X (22 << 22)

#define PREFIX_Y (PREFIX_X + PREFIX_X)

typedef int32_t PREFIX_NamedLenArray[PREFIX_LEN];

typedef int32_t PREFIX_ValuedLenArray[22];

enum PREFIX_AbsoluteFontWeight_Tag
#if defined(__cplusplus) || __STDC_VERSION__ >= 202311L
  : uint8_t
#endif // defined(__cplusplus) || __STDC_VERSION__ >= 202311L
 {
  Weight,
  Normal,
  Bold,
};
#ifndef __cplusplus
#if __STDC_VERSION__ >= 202311L
typedef enum PREFIX_AbsoluteFontWeight_Tag PREFIX_AbsoluteFontWeight_Tag;
#else
typedef uint8_t PREFIX_AbsoluteFontWeight_Tag;
#endif // __STDC_VERSION__ >= 202311L
#endif // __cplusplus

union PREFIX_AbsoluteFontWeight {
  PREFIX_AbsoluteFontWeight_Tag tag;
  struct {
    PREFIX_AbsoluteFontWeight_Tag weight_tag;
    float weight;
  };
};

#ifdef __cplusplus
extern ""C"" {
#endif // __cplusplus

void root(PREFIX_NamedLenArray x, PREFIX_ValuedLenArray y, union PREFIX_AbsoluteFontWeight z);

#ifdef __cplusplus
}  // extern ""C""
#endif  // __cplusplus
".
(** tests/expectations/prefix_both.compat.c *)
Definition prefix_compat_both : string := "#include <stdarg.h>
#include <stdbool.h>
#include <stdint.h>
#include <stdlib.h>

#define PREFIX_LEN 22

#define PREFIX_X (22 << 22)

#define PREFIX_Y (PREFIX_X + PREFIX_X)

typedef int32_t PREFIX_NamedLenArray[PREFIX_LEN];

typedef int32_t PREFIX_ValuedLenArray[22];

enum PREFIX_AbsoluteFontWeight_Tag
#if defined(__cplusplus) || __STDC_VERSION__ >= 202311L
  : uint8_t
#endif // defined(__cplusplus) || __STDC_VERSION__ >= 202311L
 {
  Weight,
  Normal,
  Bold,
};
#ifndef __cplusplus
#if __STDC_VERSION__ >= 202311L
typedef enum PREFIX_AbsoluteFontWeight_Tag PREFIX_AbsoluteFontWeight_Tag;
#else
typedef uint8_t PREFIX_AbsoluteFontWeight_Tag;
#endif // __STDC_VERSION__ >= 202311L
#endif // __cplusplus

typedef union PREFIX_AbsoluteFontWeight {
  PREFIX_AbsoluteFontWeight_Tag tag;
  struct {
    PREFIX_AbsoluteFontWeight_Tag weight_tag;
    float weight;
  };
} PREFIX_AbsoluteFontWeight;

#ifdef __cplusplus
extern ""C"" {
#endif // __cplusplus

void root(PREFIX_NamedLenArray x, PREFIX_ValuedLenArray y, union PREFIX_AbsoluteFontWeight z);

#ifdef __cplusplus
}  // extern ""C""
#endif  // __cplusplus
".
(** tests/expectations/prefix.c *)
Definition prefix_c : string := "#include <stdarg.h>
#include <stdbool.h>
#include <stdint.h>
#include <stdlib.h>

#define PREFIX_LEN 22

#define PREFIX_X (22 << 22)

#define PREFIX_Y (PREFIX_X + PREFIX_X)

typedef int32_t PREFIX_NamedLenArray[PREFIX_LEN];

typedef int32_t PREFIX_ValuedLenArray[22];

enum PREFIX_AbsoluteFontWeight_Tag
#if __STDC_VERSION__ >= 202311L
  : uint8_t
#endif // __STDC_VERSION__ >= 202311L
 {
  Weight,
  Normal,
  Bold,
};
#if __STDC_VERSION__ >= 202311L
typedef enum PREFIX_AbsoluteFontWeight_Tag PREFIX_AbsoluteFontWeight_Tag;
#else
typedef uint8_t PREFIX_AbsoluteFontWeight_Tag;
#endif // __STDC_VERSION__ >= 202311L

typedef union {
  PREFIX_AbsoluteFontWeight_Tag tag;
  struct {
    PREFIX_AbsoluteFontWeight_Tag weight_tag;
    float weight;
  };
} PREFIX_AbsoluteFontWeight;

void root(PREFIX_NamedLenArray x, PREFIX_ValuedLenArray y, PREFIX_AbsoluteFontWeight z);
".
(** tests/expectations/prefix_tag.c *)
Definition prefix_c_tag : string := "#include <stdarg.h>
#include <stdbool.h>
#include <stdint.h>
#include <stdlib.h>

#define PREFIX_LEN 22

#define PREFIX_X (22 << 22)

#define PREFIX_Y (PREFIX_X + PREFIX_X)

typedef int32_t PREFIX_NamedLenArray[PREFIX_LEN];

typedef int32_t PREFIX_ValuedLenArray[22];

enum PREFIX_AbsoluteFontWeight_Tag
#if __STDC_VERSION__ >= 202311L
  : uint8_t
#endif // __STDC_VERSION__ >= 202311L
 {
  Weight,
  Normal,
  Bold,
};
#if __STDC_VERSION__ >= 202311L
typedef enum PREFIX_AbsoluteFontWeight_Tag PREFIX_AbsoluteFontWeight_Tag;
#else
typedef uint8_t PREFIX_AbsoluteFontWeight_Tag;
#endif // __STDC_VERSION__ >= 202311L

union PREFIX_AbsoluteFontWeight {
  PREFIX_AbsoluteFontWeight_Tag tag;
  struct {
    PREFIX_AbsoluteFontWeight_Tag weight_tag;
    float weight;
  };
};

void root(PREFIX_NamedLenArray x, PREFIX_ValuedLenArray y, union PREFIX_AbsoluteFontWeight z);
".
(** tests/expectations/prefix_both.c *)
Definition prefix_c_both : string := "#include <stdarg.h>
#include <stdbool.h>
#include <stdint.h>
#include <stdlib.h>

#define PREFIX_LEN 22

#define PREFIX_X (22 << 22)

#define PREFIX_Y (PREFIX_X + PREFIX_X)

typedef int32_t PREFIX_NamedLenArray[PREFIX_LEN];

typedef int32_t PREFIX_ValuedLenArray[22];

enum PREFIX_AbsoluteFontWeight_Tag
#if __STDC_VERSION__ >= 202311L
  : uint8_t
#endif // __STDC_VERSION__ >= 202311L
 {
  Weight,
  Normal,
  Bold,
};
#if __STDC_VERSION__ >= 202311L
typedef enum PREFIX_AbsoluteFontWeight_Tag PREFIX_AbsoluteFontWeight_Tag;
#else
typedef uint8_t PREFIX_AbsoluteFontWeight_Tag;
#endif // __STDC_VERSION__ >= 202311L

typedef union PREFIX_AbsoluteFontWeight {
  PREFIX_AbsoluteFontWeight_Tag tag;
  struct {
    PREFIX_AbsoluteFontWeight_Tag weight_tag;
    float weight;
  };
} PREFIX_AbsoluteFontWeight;

void root(PREFIX_NamedLenArray x, PREFIX_ValuedLenArray y, union PREFIX_AbsoluteFontWeight z);
".
(** tests/expectations/prefix.cpp *)
Definition prefix_cpp : string := "#include <cstdarg>
#include <cstdint>
#include <cstdlib>
#include <ostream>
#include <new>

constexpr static const int32_t PREFIX_LEN = 22;

constexpr static const int64_t PREFIX_X = (22 << 22);

constexpr static const int64_t PREFIX_Y = (PREFIX_X + PREFIX_X);

using PREFIX_NamedLenArray = int32_t[PREFIX_LEN];

using PREFIX_ValuedLenArray = int32_t[22];

union PREFIX_AbsoluteFontWeight {
  enum class Tag : uint8_t {
    Weight,
    Normal,
    Bold,
  };

  struct Weight_Body {
    Tag tag;
    float _0;
  };

  struct {
    Tag tag;
  };
  Weight_Body weight;
};

extern ""C"" {

void root(PREFIX_NamedLenArray x, PREFIX_ValuedLenArray y, PREFIX_AbsoluteFontWeight z);

}  // extern ""C""
".
(** tests/expectations/prefix.pyx *)
Definition prefix_pyx : string := "from libc.stdint cimport int8_t, int16_t, int32_t, int64_t, intptr_t
from libc.stdint cimport uint8_t, uint16_t, uint32_t, uint64_t, uintptr_t
cdef extern from *:
  ctypedef bint bool
  ctypedef struct va_list

cdef extern from *:

  const int32_t PREFIX_LEN # = 22

  const int64_t PREFIX_X # = (22 << 22)

  const int64_t PREFIX_Y # = (PREFIX_X + PREFIX_X)

  ctypedef int32_t PREFIX_NamedLenArray[PREFIX_LEN];

  ctypedef int32_t PREFIX_ValuedLenArray[22];

  cdef enum:
    Weight,
    Normal,
    Bold,
  ctypedef uint8_t PREFIX_AbsoluteFontWeight_Tag;

  ctypedef union PREFIX_AbsoluteFontWeight:
    PREFIX_AbsoluteFontWeight_Tag tag;
    float weight;

  void root(PREFIX_NamedLenArray x, PREFIX_ValuedLenArray y, PREFIX_AbsoluteFontWeight z);
".
(** tests/expectations/prefix_tag.pyx *)
Definition prefix_pyx_tag : string := "from libc.stdint cimport int8_t, int16_t, int32_t, int64_t, intptr_t
from libc.stdint cimport uint8_t, uint16_t, uint32_t, uint64_t, uintptr_t
cdef extern from *:
  ctypedef bint bool
  ctypedef struct va_list

cdef extern from *:

  const int32_t PREFIX_LEN # = 22

  const int64_t PREFIX_X # = (22 << 22)

  const int64_t PREFIX_Y # = (PREFIX_X + PREFIX_X)

  ctypedef int32_t PREFIX_NamedLenArray[PREFIX_LEN];

  ctypedef int32_t PREFIX_ValuedLenArray[22];

  cdef enum:
    Weight,
    Normal,
    Bold,
  ctypedef uint8_t PREFIX_AbsoluteFontWeight_Tag;

  cdef union PREFIX_AbsoluteFontWeight:
    PREFIX_AbsoluteFontWeight_Tag tag;
    float weight;

  void root(PREFIX_NamedLenArray x, PREFIX_ValuedLenArray y, PREFIX_AbsoluteFontWeight z);
".
Example prefix_reproduced : reproduces (in_file prefix_rs) false prefix_toml (Some "{
root;
};")
  [(RunC true Type_, [prefix_compat]);
   (RunC true Tag, [prefix_compat_tag]);
   (RunC true Both, [prefix_compat_both]);
   (RunC false Type_, [prefix_c]);
   (RunC false Tag, [prefix_c_tag]);
   (RunC false Both, [prefix_c_both]);
   (RunCxx, [prefix_cpp]);
   (RunCython Type_, [prefix_pyx]);
   (RunCython Tag, [prefix_pyx_tag])] = true.
Proof. vm_compute. reflexivity. Qed.

(** ** tests/rust/prefixed_struct_literal.rs *)
Definition prefixed_struct_literal_rs : list sitem := [
  (ItemStruct [{| at_meta := (AList (Some "repr") [(APath (Some "C"))]); at_outer := true |}] "Foo" [] (FieldsNamed [{| sf_attrs :=
  []; sf_ident := (Some "a"); sf_ty := (SPath (SegPath [] "i32" NoArgs)) |}; {| sf_attrs := []; sf_ident := (Some "b"); sf_ty := (SPath
  (SegPath [] "u32" NoArgs)) |}]));
  (ItemImpl [] (SPath (SegPath [] "Foo" NoArgs)) [(ImplConst [] true "FOO" (SPath (SegPath [] "Foo" NoArgs)) (XStruct (SegPath [] "Foo"
  NoArgs) [([], (Named "a"), (XLit (LitInt 42 ""))); ([], (Named "b"), (XLit (LitInt 47 "")))] None))]);
  (ItemConst [] true "BAR" (SPath (SegPath [] "Foo" NoArgs)) (XStruct (SegPath [] "Foo" NoArgs) [([], (Named "a"), (XLit (LitInt 42
  ""))); ([], (Named "b"), (XLit (LitInt 1337 "")))] None));
  (ItemFn [{| at_meta := (APath (Some "no_mangle")); at_outer := true |}] true {| sg_ident := "root"; sg_abi := (Some (Some "C")); sg_inputs
  := [(FnTyped (PatIdent "x") (SPath (SegPath [] "Foo" NoArgs)))]; sg_variadic := false; sg_output := None |})].
Definition prefixed_struct_literal_toml : Config := {| header := None; includes_ := []; sys_includes_ := []; after_includes := None; trailer := None;
  include_guard_ := None; pragma_once := false; no_includes := false; package_version := false; autogen_warning := None; include_version := false;
  namespace := None; namespaces := None; using_namespaces := None; braces := SameLine; line_length := 100; tab_width := 2; line_endings := LF;
  language := Cxx; cpp_compat := false; style := Both; sort_by := SortNone; usize_is_size_t := false; parse := default_parse; export := {| ex_include := []; ex_exclude := []; ex_rename := []; ex_pre_body := []; ex_body := []; ex_prefix := (Some "PREFIX"); ex_item_types := []; ex_renaming_overrides_prefixing := false; ex_mangle := {| rename_types := RNone; remove_underscores := false |} |};
  layout := {| ly_packed := None; ly_aligned_n := None |}; function := {| fn_prefix := None; fn_postfix := None; fn_must_use := None; fn_deprecated := None; fn_deprecated_with_note := None; fn_args := Auto; fn_rename_args := RNone; fn_swift_name_macro := None; fn_sort_by := None; fn_no_return := None |}; structure := {| st_rename_fields := RNone; st_derive_constructor := false; st_derive_eq := false; st_derive_neq := false; st_derive_lt := false; st_derive_lte := false; st_derive_gt := false; st_derive_gte := false; st_derive_ostream := false; st_associated_constants_in_body := false; st_rename_associated_constant := RNone; st_must_use := None; st_deprecated := None; st_deprecated_with_note := None |}; enumeration := {| en_rename_variants := RNone; en_rename_variant_name_fields := SnakeCase; en_add_sentinel := false; en_prefix_with_name := false; en_derive_helper_methods := false; en_derive_const_casts := false; en_derive_mut_casts := false; en_cast_assert_name := None; en_must_use := None; en_deprecated := None; en_deprecated_with_note := None; en_deprecated_variant := None; en_deprecated_variant_with_note := None; en_derive_tagged_enum_destructor := false; en_derive_tagged_enum_copy_constructor := false; en_derive_tagged_enum_copy_assignment := false; en_derive_ostream := false; en_enum_class := true; en_private_default_tagged_enum_constructor := false |}; constant := {| co_allow_static_const := true; co_allow_constexpr := true; co_sort_by := None |}; defines := []; documentation := true;
  documentation_style := DocAuto; documentation_length := Full; pointer := {| pt_non_null_attribute := None; pt_nullable_attribute := None |}; cython := {| cy_header := None; cy_cimports := [] |}; config_path := None |}.
(** tests/expectations/prefixed_struct_literal.compat.c *)
Definition prefixed_struct_literal_compat : string := "#include <stdarg.h>
#include <stdbool.h>
#include <stdint.h>
#include <stdlib.h>

typedef struct {
  int32_t a;
  uint32_t b;
} PREFIXFoo;
#define PREFIXFoo_FOO (PREFIXFoo){ .a = 42, .b = 47 }

#define PREFIXBAR (PREFIXFoo){ .a = 42, .b = 1337 }

#ifdef __cplusplus
extern ""C"" {
#endif // __cplusplus

void root(PREFIXFoo x);

#ifdef __cplusplus
}  // extern ""C""
#endif  // __cplusplus
".
(** tests/expectations/prefixed_struct_literal_tag.compat.c *)
Definition prefixed_struct_literal_compat_tag : string := "#include <stdarg.h>
#include <stdbool.h>
#include <stdint.h>
#include <stdlib.h>

struct PREFIXFoo {
  int32_t a;
  uint32_t b;
};
#define PREFIXFoo_FOO (PREFIXFoo){ .a = 42, .b = 47 }

#define PREFIXBAR (PREFIXFoo){ .a = 42, .b = 1337 }

#ifdef __cplusplus
extern ""C"" {
#endif // __cplusplus

void root(struct PREFIXFoo x);

#ifdef __cplusplus
}  // extern ""C""
#endif  // __cplusplus
".
(** tests/expectations/prefixed_struct_literal_both.compat.c *)
Definition prefixed_struct_literal_compat_both : string := "#include <stdarg.h>
#include <stdbool.h>
#include <stdint.h>
#include <stdlib.h>

typedef struct PREFIXFoo {
  int32_t a;
  uint32_t b;
} PREFIXFoo;
#define PREFIXFoo_FOO (PREFIXFoo){ .a = 42, .b = 47 }

#define PREFIXBAR (PREFIXFoo){ .a = 42, .b = 1337 }

#ifdef __cplusplus
extern ""C"" {
#endif // __cplusplus

void root(struct PREFIXFoo x);

#ifdef __cplusplus
}  // extern ""C""
#endif  // __cplusplus
".
(** tests/expectations/prefixed_struct_literal.c *)
Definition prefixed_struct_literal_c : string := "#include <stdarg.h>
#include <stdbool.h>
#include <stdint.h>
#include <stdlib.h>

typedef struct {
  int32_t a;
  uint32_t b;
} PREFIXFoo;
#define PREFIXFoo_FOO (PREFIXFoo){ .a = 42, .b = 47 }

#define PREFIXBAR (PREFIXFoo){ .a = 42, .b = 1337 }

void root(PREFIXFoo x);
".
(** tests/expectations/prefixed_struct_literal_tag.c *)
Definition prefixed_struct_literal_c_tag : string := "#include <stdarg.h>
#include <stdbool.h>
#include <stdint.h>
#include <stdlib.h>

struct PREFIXFoo {
  int32_t a;
  uint32_t b;
};
#define PREFIXFoo_FOO (PREFIXFoo){ .a = 42, .b = 47 }

#define PREFIXBAR (PREFIXFoo){ .a = 42, .b = 1337 }

void root(struct PREFIXFoo x);
".
(** tests/expectations/prefixed_struct_literal_both.c *)
Definition prefixed_struct_literal_c_both : string := "#include <stdarg.h>
#include <stdbool.h>
#include <stdint.h>
#include <stdlib.h>

typedef struct PREFIXFoo {
  int32_t a;
  uint32_t b;
} PREFIXFoo;
#define PREFIXFoo_FOO (PREFIXFoo){ .a = 42, .b = 47 }

#define PREFIXBAR (PREFIXFoo){ .a = 42, .b = 1337 }

void root(struct PREFIXFoo x);
".
(** tests/expectations/prefixed_struct_literal.cpp *)
Definition prefixed_struct_literal_cpp : string := "#include <cstdarg>
#include <cstdint>
#include <cstdlib>
#include <ostream>
#include <new>

struct PREFIXFoo {
  int32_t a;
  uint32_t b;
};
constexpr static const PREFIXFoo PREFIXFoo_FOO = PREFIXFoo{
  /* .a = */ 42,
  /* .b = */ 47
};

constexpr static const PREFIXFoo PREFIXBAR = PREFIXFoo{
  /* .a = */ 42,
  /* .b = */ 1337
};

extern ""C"" {

void root(PREFIXFoo x);

}  // extern ""C""
".
(** tests/expectations/prefixed_struct_literal.pyx *)
Definition prefixed_struct_literal_pyx : string := "from libc.stdint cimport int8_t, int16_t, int32_t, int64_t, intptr_t
from libc.stdint cimport uint8_t, uint16_t, uint32_t, uint64_t, uintptr_t
cdef extern from *:
  ctypedef bint bool
  ctypedef struct va_list

cdef extern from *:

  ctypedef struct PREFIXFoo:
    int32_t a;
    uint32_t b;
  const PREFIXFoo PREFIXFoo_FOO # = <PREFIXFoo>{ 42, 47 }

  const PREFIXFoo PREFIXBAR # = <PREFIXFoo>{ 42, 1337 }

  void root(PREFIXFoo x);
".
(** tests/expectations/prefixed_struct_literal_tag.pyx *)
Definition prefixed_struct_literal_pyx_tag : string := "from libc.stdint cimport int8_t, int16_t, int32_t, int64_t, intptr_t
from libc.stdint cimport uint8_t, uint16_t, uint32_t, uint64_t, uintptr_t
cdef extern from *:
  ctypedef bint bool
  ctypedef struct va_list

cdef extern from *:

  cdef struct PREFIXFoo:
    int32_t a;
    uint32_t b;
  const PREFIXFoo PREFIXFoo_FOO # = <PREFIXFoo>{ 42, 47 }

  const PREFIXFoo PREFIXBAR # = <PREFIXFoo>{ 42, 1337 }

  void root(PREFIXFoo x);
".
Example prefixed_struct_literal_reproduced : reproduces (in_file prefixed_struct_literal_rs) false prefixed_struct_literal_toml (Some "{
root;
};")
  [(RunC true Type_, [prefixed_struct_literal_compat]);
   (RunC true Tag, [prefixed_struct_literal_compat_tag]);
   (RunC true Both, [prefixed_struct_literal_compat_both]);
   (RunC false Type_, [prefixed_struct_literal_c]);
   (RunC false Tag, [prefixed_struct_literal_c_tag]);
   (RunC false Both, [prefixed_struct_literal_c_both]);
   (RunCxx, [prefixed_struct_literal_cpp]);
   (RunCython Type_, [prefixed_struct_literal_pyx]);
   (RunCython Tag, [prefixed_struct_literal_pyx_tag])] = true.
Proof. vm_compute. reflexivity. Qed.

(** ** tests/rust/prefixed_struct_literal_deep.rs *)
Definition prefixed_struct_literal_deep_rs : list sitem := [
  (ItemStruct [{| at_meta := (AList (Some "repr") [(APath (Some "C"))]); at_outer := true |}] "Foo" [] (FieldsNamed [{| sf_attrs :=
  []; sf_ident := (Some "a"); sf_ty := (SPath (SegPath [] "i32" NoArgs)) |}; {| sf_attrs := []; sf_ident := (Some "b"); sf_ty := (SPath
  (SegPath [] "u32" NoArgs)) |}; {| sf_attrs := []; sf_ident := (Some "bar"); sf_ty := (SPath (SegPath [] "Bar" NoArgs)) |}]));
  (ItemStruct [{| at_meta := (AList (Some "repr") [(APath (Some "C"))]); at_outer := true |}] "Bar" [] (FieldsNamed [{| sf_attrs :=
  []; sf_ident := (Some "a"); sf_ty := (SPath (SegPath [] "i32" NoArgs)) |}]));
  (ItemConst [] true "VAL" (SPath (SegPath [] "Foo" NoArgs)) (XStruct (SegPath [] "Foo" NoArgs) [([], (Named "a"), (XLit (LitInt 42
  ""))); ([], (Named "b"), (XLit (LitInt 1337 ""))); ([], (Named "bar"), (XStruct (SegPath [] "Bar" NoArgs) [([], (Named "a"), (XLit
  (LitInt 323 "")))] None))] None));
  (ItemFn [{| at_meta := (APath (Some "no_mangle")); at_outer := true |}] true {| sg_ident := "root"; sg_abi := (Some (Some "C")); sg_inputs
  := [(FnTyped (PatIdent "x") (SPath (SegPath [] "Foo" NoArgs)))]; sg_variadic := false; sg_output := None |})].
Definition prefixed_struct_literal_deep_toml : Config := {| header := None; includes_ := []; sys_includes_ := []; after_includes := None; trailer := None;
  include_guard_ := None; pragma_once := false; no_includes := false; package_version := false; autogen_warning := None; include_version := false;
  namespace := None; namespaces := None; using_namespaces := None; braces := SameLine; line_length := 100; tab_width := 2; line_endings := LF;
  language := Cxx; cpp_compat := false; style := Both; sort_by := SortNone; usize_is_size_t := false; parse := default_parse; export := {| ex_include := []; ex_exclude := []; ex_rename := []; ex_pre_body := []; ex_body := []; ex_prefix := (Some "PREFIX"); ex_item_types := []; ex_renaming_overrides_prefixing := false; ex_mangle := {| rename_types := RNone; remove_underscores := false |} |};
  layout := {| ly_packed := None; ly_aligned_n := None |}; function := {| fn_prefix := None; fn_postfix := None; fn_must_use := None; fn_deprecated := None; fn_deprecated_with_note := None; fn_args := Auto; fn_rename_args := RNone; fn_swift_name_macro := None; fn_sort_by := None; fn_no_return := None |}; structure := {| st_rename_fields := RNone; st_derive_constructor := false; st_derive_eq := false; st_derive_neq := false; st_derive_lt := false; st_derive_lte := false; st_derive_gt := false; st_derive_gte := false; st_derive_ostream := false; st_associated_constants_in_body := false; st_rename_associated_constant := RNone; st_must_use := None; st_deprecated := None; st_deprecated_with_note := None |}; enumeration := {| en_rename_variants := RNone; en_rename_variant_name_fields := SnakeCase; en_add_sentinel := false; en_prefix_with_name := false; en_derive_helper_methods := false; en_derive_const_casts := false; en_derive_mut_casts := false; en_cast_assert_name := None; en_must_use := None; en_deprecated := None; en_deprecated_with_note := None; en_deprecated_variant := None; en_deprecated_variant_with_note := None; en_derive_tagged_enum_destructor := false; en_derive_tagged_enum_copy_constructor := false; en_derive_tagged_enum_copy_assignment := false; en_derive_ostream := false; en_enum_class := true; en_private_default_tagged_enum_constructor := false |}; constant := {| co_allow_static_const := true; co_allow_constexpr := true; co_sort_by := None |}; defines := []; documentation := true;
  documentation_style := DocAuto; documentation_length := Full; pointer := {| pt_non_null_attribute := None; pt_nullable_attribute := None |}; cython := {| cy_header := None; cy_cimports := [] |}; config_path := None |}.
(** tests/expectations/prefixed_struct_literal_deep.compat.c *)
Definition prefixed_struct_literal_deep_compat : string := "#include <stdarg.h>
#include <stdbool.h>
#include <stdint.h>
#include <stdlib.h>

typedef struct {
  int32_t a;
} PREFIXBar;

typedef struct {
  int32_t a;
  uint32_t b;
  PREFIXBar bar;
} PREFIXFoo;

#define PREFIXVAL (PREFIXFoo){ .a = 42, .b = 1337, .bar = (PREFIXBar){ .a = 323 } }

#ifdef __cplusplus
extern ""C"" {
#endif // __cplusplus

void root(PREFIXFoo x);

#ifdef __cplusplus
}  // extern ""C""
#endif  // __cplusplus
".
(** tests/expectations/prefixed_struct_literal_deep_tag.compat.c *)
Definition prefixed_struct_literal_deep_compat_tag : string := "#include <stdarg.h>
#include <stdbool.h>
#include <stdint.h>
#include <stdlib.h>

struct PREFIXBar {
  int32_t a;
};

struct PREFIXFoo {
  int32_t a;
  uint32_t b;
  struct PREFIXBar bar;
};

#define PREFIXVAL (PREFIXFoo){ .a = 42, .b = 1337, .bar = (PREFIXBar){ .a = 323 } }

#ifdef __cplusplus
extern ""C"" {
#endif // __cplusplus

void root(struct PREFIXFoo x);

#ifdef __cplusplus
}  // extern ""C""
#endif  // __cplusplus
".
(** tests/expectations/prefixed_struct_literal_deep_both.compat.c *)
Definition prefixed_struct_literal_deep_compat_both : string := "#include <stdarg.h>
#include <stdbool.h>
#include <stdint.h>
#include <stdlib.h>

typedef struct PREFIXBar {
  int32_t a;
} PREFIXBar;

typedef struct PREFIXFoo {
  int32_t a;
  uint32_t b;
  struct PREFIXBar bar;
} PREFIXFoo;

#define PREFIXVAL (PREFIXFoo){ .a = 42, .b = 1337, .bar = (PREFIXBar){ .a = 323 } }

#ifdef __cplusplus
extern ""C"" {
#endif // __cplusplus

void root(struct PREFIXFoo x);

#ifdef __cplusplus
}  // extern ""C""
#endif  // __cplusplus
".
(** tests/expectations/prefixed_struct_literal_deep.c *)
Definition prefixed_struct_literal_deep_c : string := "#include <stdarg.h>
#include <stdbool.h>
#include <stdint.h>
#include <stdlib.h>

typedef struct {
  int32_t a;
} PREFIXBar;

typedef struct {
  int32_t a;
  uint32_t b;
  PREFIXBar bar;
} PREFIXFoo;

#define PREFIXVAL (PREFIXFoo){ .a = 42, .b = 1337, .bar = (PREFIXBar){ .a = 323 } }

void root(PREFIXFoo x);
".
(** tests/expectations/prefixed_struct_literal_deep_tag.c *)
Definition prefixed_struct_literal_deep_c_tag : string := "#include <stdarg.h>
#include <stdbool.h>
#include <stdint.h>
#include <stdlib.h>

struct PREFIXBar {
  int32_t a;
};

struct PREFIXFoo {
  int32_t a;
  uint32_t b;
  struct PREFIXBar bar;
};

#define PREFIXVAL (PREFIXFoo){ .a = 42, .b = 1337, .bar = (PREFIXBar){ .a = 323 } }

void root(struct PREFIXFoo x);
".
(** tests/expectations/prefixed_struct_literal_deep_both.c *)
Definition prefixed_struct_literal_deep_c_both : string := "#include <stdarg.h>
#include <stdbool.h>
#include <stdint.h>
#include <stdlib.h>

typedef struct PREFIXBar {
  int32_t a;
} PREFIXBar;

typedef struct PREFIXFoo {
  int32_t a;
  uint32_t b;
  struct PREFIXBar bar;
} PREFIXFoo;

#define PREFIXVAL (PREFIXFoo){ .a = 42, .b = 1337, .bar = (PREFIXBar){ .a = 323 } }

void root(struct PREFIXFoo x);
".
(** tests/expectations/prefixed_struct_literal_deep.cpp *)
Definition prefixed_struct_literal_deep_cpp : string := "#include <cstdarg>
#include <cstdint>
#include <cstdlib>
#include <ostream>
#include <new>

struct PREFIXBar {
  int32_t a;
};

struct PREFIXFoo {
  int32_t a;
  uint32_t b;
  PREFIXBar bar;
};

constexpr static const PREFIXFoo PREFIXVAL = PREFIXFoo{
  /* .a = */ 42,
  /* .b = */ 1337,
  /* .bar = */ PREFIXBar{
    /* .a = */ 323
  }
};

extern ""C"" {

void root(PREFIXFoo x);

}  // extern ""C""
".
(** tests/expectations/prefixed_struct_literal_deep.pyx *)
Definition prefixed_struct_literal_deep_pyx : string := "from libc.stdint cimport int8_t, int16_t, int32_t, int64_t, intptr_t
from libc.stdint cimport uint8_t, uint16_t, uint32_t, uint64_t, uintptr_t
cdef extern from *:
  ctypedef bint bool
  ctypedef struct va_list

cdef extern from *:

  ctypedef struct PREFIXBar:
    int32_t a;

  ctypedef struct PREFIXFoo:
    int32_t a;
    uint32_t b;
    PREFIXBar bar;

  const PREFIXFoo PREFIXVAL # = <PREFIXFoo>{ 42, 1337, <PREFIXBar>{ 323 } }

  void root(PREFIXFoo x);
".
(** tests/expectations/prefixed_struct_literal_deep_tag.pyx *)
Definition prefixed_struct_literal_deep_pyx_tag : string := "from libc.stdint cimport int8_t, int16_t, int32_t, int64_t, intptr_t
from libc.stdint cimport uint8_t, uint16_t, uint32_t, uint64_t, uintptr_t
cdef extern from *:
  ctypedef bint bool
  ctypedef struct va_list

cdef extern from *:

  cdef struct PREFIXBar:
    int32_t a;

  cdef struct PREFIXFoo:
    int32_t a;
    uint32_t b;
    PREFIXBar bar;

  const PREFIXFoo PREFIXVAL # = <PREFIXFoo>{ 42, 1337, <PREFIXBar>{ 323 } }

  void root(PREFIXFoo x);
".
Example prefixed_struct_literal_deep_reproduced : reproduces (in_file prefixed_struct_literal_deep_rs) false prefixed_struct_literal_deep_toml (Some "{
root;
};")
  [(RunC true Type_, [prefixed_struct_literal_deep_compat]);
   (RunC true Tag, [prefixed_struct_literal_deep_compat_tag]);
   (RunC true Both, [prefixed_struct_literal_deep_compat_both]);
   (RunC false Type_, [prefixed_struct_literal_deep_c]);
   (RunC false Tag, [prefixed_struct_literal_deep_c_tag]);
   (RunC false Both, [prefixed_struct_literal_deep_c_both]);
   (RunCxx, [prefixed_struct_literal_deep_cpp]);
   (RunCython Type_, [prefixed_struct_literal_deep_pyx]);
   (RunCython Tag, [prefixed_struct_literal_deep_pyx_tag])] = true.
Proof. vm_compute. reflexivity. Qed.

(** ** tests/rust/ptrs_as_arrays.rs *)
Definition ptrs_as_arrays_rs : list sitem := [
  (ItemFn [{| at_meta := ANameValue (Some "doc") (Some " cbindgen:ptrs-as-arrays=[[arg;3]]"); at_outer := true |}; {| at_meta := (APath
  (Some "no_mangle")); at_outer := true |}] true {| sg_ident := "ptr_as_array"; sg_abi := (Some (Some "C")); sg_inputs := [(FnTyped
  (PatIdent "n") (SPath (SegPath [] "u32" NoArgs))); (FnTyped (PatIdent "arg") (SPtr false (SPath (SegPath [] "u32" NoArgs)))); (FnTyped
  (PatIdent "v") (SPtr false (SPath (SegPath [] "u64" NoArgs))))]; sg_variadic := false; sg_output := None |});
  (ItemFn [{| at_meta := ANameValue (Some "doc") (Some " cbindgen:ptrs-as-arrays=[[arg;3], [v; 4]]"); at_outer := true |}; {| at_meta
  := (APath (Some "no_mangle")); at_outer := true |}] true {| sg_ident := "ptr_as_array1"; sg_abi := (Some (Some "C")); sg_inputs
  := [(FnTyped (PatIdent "n") (SPath (SegPath [] "u32" NoArgs))); (FnTyped (PatIdent "arg") (SPtr false (SPath (SegPath [] "u32" NoArgs))));
  (FnTyped (PatIdent "v") (SPtr true (SPath (SegPath [] "u64" NoArgs))))]; sg_variadic := false; sg_output := None |});
  (ItemFn [{| at_meta := ANameValue (Some "doc") (Some " cbindgen:ptrs-as-arrays=[[n;2], [arg; ], [v;], [k; 3]]"); at_outer := true
  |}; {| at_meta := (APath (Some "no_mangle")); at_outer := true |}] true {| sg_ident := "ptr_as_array2"; sg_abi := (Some (Some "C"));
  sg_inputs := [(FnTyped (PatIdent "n") (SPath (SegPath [] "u32" NoArgs))); (FnTyped (PatIdent "arg") (SPtr true (SPath (SegPath []
  "u32" NoArgs)))); (FnTyped (PatIdent "v") (SPtr false (SPath (SegPath [] "u64" NoArgs))))]; sg_variadic := false; sg_output := None
  |});
  (ItemFn [{| at_meta := ANameValue (Some "doc") (Some " cbindgen:ptrs-as-arrays=[[a;2;3]]"); at_outer := true |}; {| at_meta := (APath
  (Some "no_mangle")); at_outer := true |}] true {| sg_ident := "ptr_as_array_wrong_syntax"; sg_abi := (Some (Some "C")); sg_inputs
  := [(FnTyped (PatIdent "arg") (SPtr true (SPath (SegPath [] "u32" NoArgs)))); (FnTyped (PatIdent "v") (SPtr false (SPath (SegPath
  [] "u32" NoArgs)))); (FnTyped PatWild (SPtr false (SPath (SegPath [] "u32" NoArgs))))]; sg_variadic := false; sg_output := None
  |});
  (ItemFn [{| at_meta := ANameValue (Some "doc") (Some " cbindgen:ptrs-as-arrays=[[_;2], [_;3]]"); at_outer := true |}; {| at_meta :=
  (APath (Some "no_mangle")); at_outer := true |}] true {| sg_ident := "ptr_as_array_unnamed"; sg_abi := (Some (Some "C")); sg_inputs
  := [(FnTyped PatWild (SPtr true (SPath (SegPath [] "u32" NoArgs)))); (FnTyped PatWild (SPtr false (SPath (SegPath [] "u32" NoArgs))))];
  sg_variadic := false; sg_output := None |})].
(** tests/expectations/ptrs_as_arrays.compat.c *)
Definition ptrs_as_arrays_compat : string := "#include <stdarg.h>
#include <stdbool.h>
#include <stdint.h>
#include <stdlib.h>

#ifdef __cplusplus
extern ""C"" {
#endif // __cplusplus

void ptr_as_array(uint32_t n, const uint32_t arg[3], const uint64_t *v);

void ptr_as_array1(uint32_t n, const uint32_t arg[3], uint64_t v[4]);

void ptr_as_array2(uint32_t n, uint32_t arg[], const uint64_t v[]);

void ptr_as_array_wrong_syntax(uint32_t *arg, const uint32_t *v, const uint32_t*);

void ptr_as_array_unnamed(uint32_t*, const uint32_t*);

#ifdef __cplusplus
}  // extern ""C""
#endif  // __cplusplus
".
(** tests/expectations/ptrs_as_arrays.c *)
Definition ptrs_as_arrays_c : string := "#include <stdarg.h>
#include <stdbool.h>
#include <stdint.h>
#include <stdlib.h>

void ptr_as_array(uint32_t n, const uint32_t arg[3], const uint64_t *v);

void ptr_as_array1(uint32_t n, const uint32_t arg[3], uint64_t v[4]);

void ptr_as_array2(uint32_t n, uint32_t arg[], const uint64_t v[]);

void ptr_as_array_wrong_syntax(uint32_t *arg, const uint32_t *v, const uint32_t*);

void ptr_as_array_unnamed(uint32_t*, const uint32_t*);
".
(** tests/expectations/ptrs_as_arrays.cpp *)
Definition ptrs_as_arrays_cpp : string := "#include <cstdarg>
#include <cstdint>
#include <cstdlib>
#include <ostream>
#include <new>

extern ""C"" {

void ptr_as_array(uint32_t n, const uint32_t arg[3], const uint64_t *v);

void ptr_as_array1(uint32_t n, const uint32_t arg[3], uint64_t v[4]);

void ptr_as_array2(uint32_t n, uint32_t arg[], const uint64_t v[]);

void ptr_as_array_wrong_syntax(uint32_t *arg, const uint32_t *v, const uint32_t*);

void ptr_as_array_unnamed(uint32_t*, const uint32_t*);

}  // extern ""C""
".
(** tests/expectations/ptrs_as_arrays.pyx *)
Definition ptrs_as_arrays_pyx : string := "from libc.stdint cimport int8_t, int16_t, int32_t, int64_t, intptr_t
from libc.stdint cimport uint8_t, uint16_t, uint32_t, uint64_t, uintptr_t
cdef extern from *:
  ctypedef bint bool
  ctypedef struct va_list

cdef extern from *:

  void ptr_as_array(uint32_t n, const uint32_t arg[3], const uint64_t *v);

  void ptr_as_array1(uint32_t n, const uint32_t arg[3], uint64_t v[4]);

  void ptr_as_array2(uint32_t n, uint32_t arg[], const uint64_t v[]);

  void ptr_as_array_wrong_syntax(uint32_t *arg, const uint32_t *v, const uint32_t*);

  void ptr_as_array_unnamed(uint32_t*, const uint32_t*);
".
Example ptrs_as_arrays_reproduced : reproduces (in_file ptrs_as_arrays_rs) false default_config (Some "{
ptr_as_array;
ptr_as_array1;
ptr_as_array2;
ptr_as_array_wrong_syntax;
ptr_as_array_unnamed;
};")
  [(RunC true Type_, [ptrs_as_arrays_compat]);
   (RunC true Tag, [ptrs_as_arrays_compat]);
   (RunC true Both, [ptrs_as_arrays_compat]);
   (RunC false Type_, [ptrs_as_arrays_c]);
   (RunC false Tag, [ptrs_as_arrays_compat; ptrs_as_arrays_c]);
   (RunC false Both, [ptrs_as_arrays_compat; ptrs_as_arrays_c]);
   (RunCxx, [ptrs_as_arrays_cpp]);
   (RunCython Type_, [ptrs_as_arrays_pyx]);
   (RunCython Tag, [ptrs_as_arrays_pyx])] = true.
Proof. vm_compute. reflexivity. Qed.

(** ** tests/rust/raw_ident.rs *)
Definition raw_ident_rs : list sitem := [
  (ItemEnum [{| at_meta := (AList (Some "repr") [(APath (Some "u8"))]); at_outer := true |}] "r#Enum" [] [{| sv_attrs := []; sv_ident
  := "r#a"; sv_fields := FieldsUnit; sv_discriminant := None |}; {| sv_attrs := []; sv_ident := "r#b"; sv_fields := FieldsUnit; sv_discriminant
  := None |}]);
  (ItemStruct [{| at_meta := (AList (Some "repr") [(APath (Some "C"))]); at_outer := true |}] "r#Struct" [] (FieldsNamed [{| sf_attrs
  := []; sf_ident := (Some "r#field"); sf_ty := (SPath (SegPath [] "r#Enum" NoArgs)) |}]));
  (ItemFn [{| at_meta := (APath (Some "no_mangle")); at_outer := true |}] true {| sg_ident := "r#fn"; sg_abi := (Some (Some "C")); sg_inputs
  := [(FnTyped (PatIdent "r#arg") (SPath (SegPath [] "r#Struct" NoArgs)))]; sg_variadic := false; sg_output := None |});
  (ItemMod [] "r#mod" (Some [(ItemStatic [{| at_meta := (APath (Some "no_mangle")); at_outer := true |}] "r#STATIC" false (SPath (SegPath
  [] "r#Enum" NoArgs)))]))].
(** tests/expectations/raw_ident.compat.c *)
Definition raw_ident_compat : string := "#include <stdarg.h>
#include <stdbool.h>
#include <stdint.h>
#include <stdlib.h>

enum Enum
#if defined(__cplusplus) || __STDC_VERSION__ >= 202311L
  : uint8_t
#endif // defined(__cplusplus) || __STDC_VERSION__ >= 202311L
 {
  a,
  b,
};
#ifndef __cplusplus
#if __STDC_VERSION__ >= 202311L
typedef enum Enum Enum;
#else
typedef uint8_t Enum;
#endif // __STDC_VERSION__ >= 202311L
#endif // __cplusplus

typedef struct {
  Enum field;
} Struct;

#ifdef __cplusplus
extern ""C"" {
#endif // __cplusplus

extern const Enum STATIC;

void fn(Struct arg);

#ifdef __cplusplus
}  // extern ""C""
#endif  // __cplusplus
".
(** tests/expectations/raw_ident_tag.compat.c *)
Definition raw_ident_compat_tag : string := "#include <stdarg.h>
#include <stdbool.h>
#include <stdint.h>
#include <stdlib.h>

enum Enum
#if defined(__cplusplus) || __STDC_VERSION__ >= 202311L
  : uint8_t
#endif // defined(__cplusplus) || __STDC_VERSION__ >= 202311L
 {
  a,
  b,
};
#ifndef __cplusplus
#if __STDC_VERSION__ >= 202311L
typedef enum Enum Enum;
#else
typedef uint8_t Enum;
#endif // __STDC_VERSION__ >= 202311L
#endif // __cplusplus

struct Struct {
  Enum field;
};

#ifdef __cplusplus
extern ""C"" {
#endif // __cplusplus

extern const Enum STATIC;

void fn(struct Struct arg);

#ifdef __cplusplus
}  // extern ""C""
#endif  // __cplusplus
".
(** tests/expectations/raw_ident_both.compat.c *)
Definition raw_ident_compat_both : string := "#include <stdarg.h>
#include <stdbool.h>
#include <stdint.h>
#include <stdlib.h>

enum Enum
#if defined(__cplusplus) || __STDC_VERSION__ >= 202311L
  : uint8_t
#endif // defined(__cplusplus) || __STDC_VERSION__ >= 202311L
 {
  a,
  b,
};
#ifndef __cplusplus
#if __STDC_VERSION__ >= 202311L
typedef enum Enum Enum;
#else
typedef uint8_t Enum;
#endif // __STDC_VERSION__ >= 202311L
#endif // __cplusplus

typedef struct Struct {
  Enum field;
} Struct;

#ifdef __cplusplus
extern ""C"" {
#endif // __cplusplus

extern const Enum STATIC;

void fn(struct Struct arg);

#ifdef __cplusplus
}  // extern ""C""
#endif  // __cplusplus
".
(** tests/expectations/raw_ident.c *)
Definition raw_ident_c : string := "#include <stdarg.h>
#include <stdbool.h>
#include <stdint.h>
#include <stdlib.h>

enum Enum
#if __STDC_VERSION__ >= 202311L
  : uint8_t
#endif // __STDC_VERSION__ >= 202311L
 {
  a,
  b,
};
#if __STDC_VERSION__ >= 202311L
typedef enum Enum Enum;
#else
typedef uint8_t Enum;
#endif // __STDC_VERSION__ >= 202311L

typedef struct {
  Enum field;
} Struct;

extern const Enum STATIC;

void fn(Struct arg);
".
(** tests/expectations/raw_ident_tag.c *)
Definition raw_ident_c_tag : string := "#include <stdarg.h>
#include <stdbool.h>
#include <stdint.h>
#include <stdlib.h>

enum Enum
#if __STDC_VERSION__ >= 202311L
  : uint8_t
#endif // __STDC_VERSION__ >= 202311L
 {
  a,
  b,
};
#if __STDC_VERSION__ >= 202311L
typedef enum Enum Enum;
#else
typedef uint8_t Enum;
#endif // __STDC_VERSION__ >= 202311L

struct Struct {
  Enum field;
};

extern const Enum STATIC;

void fn(struct Struct arg);
".
(** tests/expectations/raw_ident_both.c *)
Definition raw_ident_c_both : string := "#include <stdarg.h>
#include <stdbool.h>
#include <stdint.h>
#include <stdlib.h>

enum Enum
#if __STDC_VERSION__ >= 202311L
  : uint8_t
#endif // __STDC_VERSION__ >= 202311L
 {
  a,
  b,
};
#if __STDC_VERSION__ >= 202311L
typedef enum Enum Enum;
#else
typedef uint8_t Enum;
#endif // __STDC_VERSION__ >= 202311L

typedef struct Struct {
  Enum field;
} Struct;

extern const Enum STATIC;

void fn(struct Struct arg);
".
(** tests/expectations/raw_ident.cpp *)
Definition raw_ident_cpp : string := "#include <cstdarg>
#include <cstdint>
#include <cstdlib>
#include <ostream>
#include <new>

enum class Enum : uint8_t {
  a,
  b,
};

struct Struct {
  Enum field;
};

extern ""C"" {

extern const Enum STATIC;

void fn(Struct arg);

}  // extern ""C""
".
(** tests/expectations/raw_ident.pyx *)
Definition raw_ident_pyx : string := "from libc.stdint cimport int8_t, int16_t, int32_t, int64_t, intptr_t
from libc.stdint cimport uint8_t, uint16_t, uint32_t, uint64_t, uintptr_t
cdef extern from *:
  ctypedef bint bool
  ctypedef struct va_list

cdef extern from *:

  cdef enum:
    a,
    b,
  ctypedef uint8_t Enum;

  ctypedef struct Struct:
    Enum field;

  extern const Enum STATIC;

  void fn(Struct arg);
".
(** tests/expectations/raw_ident_tag.pyx *)
Definition raw_ident_pyx_tag : string := "from libc.stdint cimport int8_t, int16_t, int32_t, int64_t, intptr_t
from libc.stdint cimport uint8_t, uint16_t, uint32_t, uint64_t, uintptr_t
cdef extern from *:
  ctypedef bint bool
  ctypedef struct va_list

cdef extern from *:

  cdef enum:
    a,
    b,
  ctypedef uint8_t Enum;

  cdef struct Struct:
    Enum field;

  extern const Enum STATIC;

  void fn(Struct arg);
".
Example raw_ident_reproduced : reproduces (in_file raw_ident_rs) false default_config (Some "{
fn;
STATIC;
};")
  [(RunC true Type_, [raw_ident_compat]);
   (RunC true Tag, [raw_ident_compat_tag]);
   (RunC true Both, [raw_ident_compat_both]);
   (RunC false Type_, [raw_ident_c]);
   (RunC false Tag, [raw_ident_c_tag]);
   (RunC false Both, [raw_ident_c_both]);
   (RunCxx, [raw_ident_cpp]);
   (RunCython Type_, [raw_ident_pyx]);
   (RunCython Tag, [raw_ident_pyx_tag])] = true.
Proof. vm_compute. reflexivity. Qed.

(** ** tests/rust/raw_lines.rs *)
Definition raw_lines_rs : list sitem := [
  (ItemFn [{| at_meta := (APath (Some "no_mangle")); at_outer := true |}] true {| sg_ident := "root"; sg_abi := (Some (Some "C")); sg_inputs
  := []; sg_variadic := false; sg_output := None |})].
Definition raw_lines_toml : Config := {| header := None; includes_ := []; sys_includes_ := []; after_includes := (Some "#define VERSION 1"); trailer := None;
  include_guard_ := (Some "INCLUDE_GUARD_H"); pragma_once := false; no_includes := false; package_version := false; autogen_warning := None; include_version := false;
  namespace := None; namespaces := None; using_namespaces := None; braces := SameLine; line_length := 100; tab_width := 2; line_endings := LF;
  language := Cxx; cpp_compat := false; style := Both; sort_by := SortNone; usize_is_size_t := false; parse := default_parse; export := {| ex_include := []; ex_exclude := []; ex_rename := []; ex_pre_body := []; ex_body := []; ex_prefix := None; ex_item_types := []; ex_renaming_overrides_prefixing := false; ex_mangle := {| rename_types := RNone; remove_underscores := false |} |};
  layout := {| ly_packed := None; ly_aligned_n := None |}; function := {| fn_prefix := None; fn_postfix := None; fn_must_use := None; fn_deprecated := None; fn_deprecated_with_note := None; fn_args := Auto; fn_rename_args := RNone; fn_swift_name_macro := None; fn_sort_by := None; fn_no_return := None |}; structure := {| st_rename_fields := RNone; st_derive_constructor := false; st_derive_eq := false; st_derive_neq := false; st_derive_lt := false; st_derive_lte := false; st_derive_gt := false; st_derive_gte := false; st_derive_ostream := false; st_associated_constants_in_body := false; st_rename_associated_constant := RNone; st_must_use := None; st_deprecated := None; st_deprecated_with_note := None |}; enumeration := {| en_rename_variants := RNone; en_rename_variant_name_fields := SnakeCase; en_add_sentinel := false; en_prefix_with_name := false; en_derive_helper_methods := false; en_derive_const_casts := false; en_derive_mut_casts := false; en_cast_assert_name := None; en_must_use := None; en_deprecated := None; en_deprecated_with_note := None; en_deprecated_variant := None; en_deprecated_variant_with_note := None; en_derive_tagged_enum_destructor := false; en_derive_tagged_enum_copy_constructor := false; en_derive_tagged_enum_copy_assignment := false; en_derive_ostream := false; en_enum_class := true; en_private_default_tagged_enum_constructor := false |}; constant := {| co_allow_static_const := true; co_allow_constexpr := true; co_sort_by := None |}; defines := []; documentation := true;
  documentation_style := DocAuto; documentation_length := Full; pointer := {| pt_non_null_attribute := None; pt_nullable_attribute := None |}; cython := {| cy_header := None; cy_cimports := [] |}; config_path := None |}.
(** tests/expectations/raw_lines.compat.c *)
Definition raw_lines_compat : string := "#ifndef INCLUDE_GUARD_H
#define INCLUDE_GUARD_H

#include <stdarg.h>
#include <stdbool.h>
#include <stdint.h>
#include <stdlib.h>
#define VERSION 1

#ifdef __cplusplus
extern ""C"" {
#endif // __cplusplus

void root(void);

#ifdef __cplusplus
}  // extern ""C""
#endif  // __cplusplus

#endif  /* INCLUDE_GUARD_H */
".
(** tests/expectations/raw_lines.c *)
Definition raw_lines_c : string := "#ifndef INCLUDE_GUARD_H
#define INCLUDE_GUARD_H

#include <stdarg.h>
#include <stdbool.h>
#include <stdint.h>
#include <stdlib.h>
#define VERSION 1

void root(void);

#endif  /* INCLUDE_GUARD_H */
".
(** tests/expectations/raw_lines.cpp *)
Definition raw_lines_cpp : string := "#ifndef INCLUDE_GUARD_H
#define INCLUDE_GUARD_H

#include <cstdarg>
#include <cstdint>
#include <cstdlib>
#include <ostream>
#include <new>
#define VERSION 1

extern ""C"" {

void root();

}  // extern ""C""

#endif  // INCLUDE_GUARD_H
".
(** tests/expectations/raw_lines.pyx *)
Definition raw_lines_pyx : string := "from libc.stdint cimport int8_t, int16_t, int32_t, int64_t, intptr_t
from libc.stdint cimport uint8_t, uint16_t, uint32_t, uint64_t, uintptr_t
cdef extern from *:
  ctypedef bint bool
  ctypedef struct va_list
#define VERSION 1

cdef extern from *:

  void root();
".
Example raw_lines_reproduced : reproduces (in_file raw_lines_rs) false raw_lines_toml (Some "{
root;
};")
  [(RunC true Type_, [raw_lines_compat]);
   (RunC true Tag, [raw_lines_compat]);
   (RunC true Both, [raw_lines_compat]);
   (RunC false Type_, [raw_lines_c]);
   (RunC false Tag, [raw_lines_compat; raw_lines_c]);
   (RunC false Both, [raw_lines_compat; raw_lines_c]);
   (RunCxx, [raw_lines_cpp]);
   (RunCython Type_, [raw_lines_pyx]);
   (RunCython Tag, [raw_lines_pyx])] = true.
Proof. vm_compute. reflexivity. Qed.

(** ** tests/rust/rename.rs *)
Definition rename_rs : list sitem := [
  (ItemStruct [] "A" [] (FieldsNamed [{| sf_attrs := []; sf_ident := (Some "x"); sf_ty := (SPath (SegPath [] "i32" NoArgs)) |}; {| sf_attrs
  := []; sf_ident := (Some "y"); sf_ty := (SPath (SegPath [] "f32" NoArgs)) |}]));
  (ItemStruct [{| at_meta := (AList (Some "repr") [(APath (Some "C"))]); at_outer := true |}] "B" [] (FieldsNamed [{| sf_attrs := [];
  sf_ident := (Some "x"); sf_ty := (SPath (SegPath [] "i32" NoArgs)) |}; {| sf_attrs := []; sf_ident := (Some "y"); sf_ty := (SPath
  (SegPath [] "f32" NoArgs)) |}]));
  (ItemUnion [] "C" [] [{| sf_attrs := []; sf_ident := (Some "x"); sf_ty := (SPath (SegPath [] "i32" NoArgs)) |}; {| sf_attrs := [];
  sf_ident := (Some "y"); sf_ty := (SPath (SegPath [] "f32" NoArgs)) |}]);
  (ItemUnion [{| at_meta := (AList (Some "repr") [(APath (Some "C"))]); at_outer := true |}] "D" [] [{| sf_attrs := []; sf_ident :=
  (Some "x"); sf_ty := (SPath (SegPath [] "i32" NoArgs)) |}; {| sf_attrs := []; sf_ident := (Some "y"); sf_ty := (SPath (SegPath []
  "f32" NoArgs)) |}]);
  (ItemEnum [{| at_meta := (AList (Some "repr") [(APath (Some "u8"))]); at_outer := true |}] "E" [] [{| sv_attrs := []; sv_ident :=
  "x"; sv_fields := FieldsUnit; sv_discriminant := (Some (XLit (LitInt 0 ""))) |}; {| sv_attrs := []; sv_ident := "y"; sv_fields :=
  FieldsUnit; sv_discriminant := (Some (XLit (LitInt 1 ""))) |}]);
  (ItemType [] "F" [] (SPath (SegPath [] "A" NoArgs)));
  (ItemStatic [{| at_meta := (APath (Some "no_mangle")); at_outer := true |}] "G" false (SPath (SegPath [] "i32" NoArgs)));
  (ItemConst [] true "H" (SPath (SegPath [] "i32" NoArgs)) (XLit (LitInt 10 "")));
  (ItemConst [] true "I" (SPath (SegPath [] "isize" NoArgs)) (XCast (XCast (XLit (LitInt 10 "")) (SPtr true (SPath (SegPath [] "F" NoArgs))))
  (SPath (SegPath [] "isize" NoArgs))));
  (ItemFn [{| at_meta := (APath (Some "no_mangle")); at_outer := true |}] true {| sg_ident := "root"; sg_abi := (Some (Some "C")); sg_inputs
  := [(FnTyped (PatIdent "a") (SPtr false (SPath (SegPath [] "A" NoArgs)))); (FnTyped (PatIdent "b") (SPath (SegPath [] "B" NoArgs)));
  (FnTyped (PatIdent "c") (SPath (SegPath [] "C" NoArgs))); (FnTyped (PatIdent "d") (SPath (SegPath [] "D" NoArgs))); (FnTyped (PatIdent
  "e") (SPath (SegPath [] "E" NoArgs))); (FnTyped (PatIdent "f") (SPath (SegPath [] "F" NoArgs)))]; sg_variadic := false; sg_output
  := None |})].
Definition rename_toml : Config := {| header := None; includes_ := []; sys_includes_ := []; after_includes := None; trailer := None;
  include_guard_ := None; pragma_once := false; no_includes := false; package_version := false; autogen_warning := None; include_version := false;
  namespace := None; namespaces := None; using_namespaces := None; braces := SameLine; line_length := 100; tab_width := 2; line_endings := LF;
  language := Cxx; cpp_compat := false; style := Both; sort_by := SortNone; usize_is_size_t := false; parse := default_parse; export := {| ex_include := []; ex_exclude := []; ex_rename := [("B", "AwesomeB")]; ex_pre_body := []; ex_body := []; ex_prefix := (Some "C_"); ex_item_types := []; ex_renaming_overrides_prefixing := false; ex_mangle := {| rename_types := RNone; remove_underscores := false |} |};
  layout := {| ly_packed := None; ly_aligned_n := None |}; function := {| fn_prefix := None; fn_postfix := None; fn_must_use := None; fn_deprecated := None; fn_deprecated_with_note := None; fn_args := Auto; fn_rename_args := RNone; fn_swift_name_macro := None; fn_sort_by := None; fn_no_return := None |}; structure := {| st_rename_fields := RNone; st_derive_constructor := false; st_derive_eq := false; st_derive_neq := false; st_derive_lt := false; st_derive_lte := false; st_derive_gt := false; st_derive_gte := false; st_derive_ostream := false; st_associated_constants_in_body := false; st_rename_associated_constant := RNone; st_must_use := None; st_deprecated := None; st_deprecated_with_note := None |}; enumeration := {| en_rename_variants := RNone; en_rename_variant_name_fields := SnakeCase; en_add_sentinel := false; en_prefix_with_name := false; en_derive_helper_methods := false; en_derive_const_casts := false; en_derive_mut_casts := false; en_cast_assert_name := None; en_must_use := None; en_deprecated := None; en_deprecated_with_note := None; en_deprecated_variant := None; en_deprecated_variant_with_note := None; en_derive_tagged_enum_destructor := false; en_derive_tagged_enum_copy_constructor := false; en_derive_tagged_enum_copy_assignment := false; en_derive_ostream := false; en_enum_class := true; en_private_default_tagged_enum_constructor := false |}; constant := {| co_allow_static_const := true; co_allow_constexpr := true; co_sort_by := None |}; defines := []; documentation := true;
  documentation_style := DocAuto; documentation_length := Full; pointer := {| pt_non_null_attribute := None; pt_nullable_attribute := None |}; cython := {| cy_header := None; cy_cimports := [] |}; config_path := None |}.
(** tests/expectations/rename.compat.c *)
Definition rename_compat : string := "#include <stdarg.h>
#include <stdbool.h>
#include <stdint.h>
#include <stdlib.h>

#define C_H 10

enum C_E
#if defined(__cplusplus) || __STDC_VERSION__ >= 202311L
  : uint8_t
#endif // defined(__cplusplus) || __STDC_VERSION__ >= 202311L
 {
  x = 0,
  y = 1,
};
#ifndef __cplusplus
#if __STDC_VERSION__ >= 202311L
typedef enum C_E C_E;
#else
typedef uint8_t C_E;
#endif // __STDC_VERSION__ >= 202311L
#endif // __cplusplus

typedef struct C_A C_A;

typedef struct C_C C_C;

typedef struct {
  int32_t x;
  float y;
} C_AwesomeB;

typedef union {
  int32_t x;
  float y;
} C_D;

typedef C_A C_F;

#define C_I (intptr_t)(C_F*)10

#ifdef __cplusplus
extern ""C"" {
#endif // __cplusplus

extern const int32_t G;

void root(const C_A *a, C_AwesomeB b, C_C c, C_D d, C_E e, C_F f);

#ifdef __cplusplus
}  // extern ""C""
#endif  // __cplusplus
".
(** tests/expectations/rename_tag.compat.c *)
Definition rename_compat_tag : string := "#include <stdarg.h>
#include <stdbool.h>
#include <stdint.h>
#include <stdlib.h>

#define C_H 10

enum C_E
#if defined(__cplusplus) || __STDC_VERSION__ >= 202311L
  : uint8_t
#endif // defined(__cplusplus) || __STDC_VERSION__ >= 202311L
 {
  x = 0,
  y = 1,
};
#ifndef __cplusplus
#if __STDC_VERSION__ >= 202311L
typedef enum C_E C_E;
#else
typedef uint8_t C_E;
#endif // __STDC_VERSION__ >= 202311L
#endif // __cplusplus

struct C_A;

struct C_C;

struct C_AwesomeB {
  int32_t x;
  float y;
};

union C_D {
  int32_t x;
  float y;
};

typedef struct C_A C_F;

#define C_I (intptr_t)(C_F*)10

#ifdef __cplusplus
extern ""C"" {
#endif // __cplusplus

extern const int32_t G;

void root(const struct C_A *a, struct C_AwesomeB b, struct C_C c, union C_D d, C_E e, C_F f);

#ifdef __cplusplus
}  // extern ""C""
#endif  // __cplusplus
".
(** tests/expectations/rename_both.compat.c *)
Definition rename_compat_both : string := "#include <stdarg.h>
#include <stdbool.h>
#include <stdint.h>
#include <stdlib.h>

#define C_H 10

enum C_E
#if defined(__cplusplus) || __STDC_VERSION__ >= 202311L
  : uint8_t
#endif // defined(__cplusplus) || __STDC_VERSION__ >= 202311L
 {
  x = 0,
  y = 1,
};
#ifndef __cplusplus
#if __STDC_VERSION__ >= 202311L
typedef enum C_E C_E;
#else
typedef uint8_t C_E;
#endif // __STDC_VERSION__ >= 202311L
#endif // __cplusplus

typedef struct C_A C_A;

typedef struct C_C C_C;

typedef struct C_AwesomeB {
  int32_t x;
  float y;
} C_AwesomeB;

typedef union C_D {
  int32_t x;
  float y;
} C_D;

typedef struct C_A C_F;

#define C_I (intptr_t)(C_F*)10

#ifdef __cplusplus
extern ""C"" {
#endif // __cplusplus

extern const int32_t G;

void root(const struct C_A *a, struct C_AwesomeB b, struct C_C c, union C_D d, C_E e, C_F f);

#ifdef __cplusplus
}  // extern ""C""
#endif  // __cplusplus
".
(** tests/expectations/rename.c *)
Definition rename_c : string := "#include <stdarg.h>
#include <stdbool.h>
#include <stdint.h>
#include <stdlib.h>

#define C_H 10

enum C_E
#if __STDC_VERSION__ >= 202311L
  : uint8_t
#endif // __STDC_VERSION__ >= 202311L
 {
  x = 0,
  y = 1,
};
#if __STDC_VERSION__ >= 202311L
typedef enum C_E C_E;
#else
typedef uint8_t C_E;
#endif // __STDC_VERSION__ >= 202311L

typedef struct C_A C_A;

typedef struct C_C C_C;

typedef struct {
  int32_t x;
  float y;
} C_AwesomeB;

typedef union {
  int32_t x;
  float y;
} C_D;

typedef C_A C_F;

#define C_I (intptr_t)(C_F*)10

extern const int32_t G;

void root(const C_A *a, C_AwesomeB b, C_C c, C_D d, C_E e, C_F f);
".
(** tests/expectations/rename_tag.c *)
Definition rename_c_tag : string := "#include <stdarg.h>
#include <stdbool.h>
#include <stdint.h>
#include <stdlib.h>

#define C_H 10

enum C_E
#if __STDC_VERSION__ >= 202311L
  : uint8_t
#endif // __STDC_VERSION__ >= 202311L
 {
  x = 0,
  y = 1,
};
#if __STDC_VERSION__ >= 202311L
typedef enum C_E C_E;
#else
typedef uint8_t C_E;
#endif // __STDC_VERSION__ >= 202311L

struct C_A;

struct C_C;

struct C_AwesomeB {
  int32_t x;
  float y;
};

union C_D {
  int32_t x;
  float y;
};

typedef struct C_A C_F;

#define C_I (intptr_t)(C_F*)10

extern const int32_t G;

void root(const struct C_A *a, struct C_AwesomeB b, struct C_C c, union C_D d, C_E e, C_F f);
".
(** tests/expectations/rename_both.c *)
Definition rename_c_both : string := "#include <stdarg.h>
#include <stdbool.h>
#include <stdint.h>
#include <stdlib.h>

#define C_H 10

enum C_E
#if __STDC_VERSION__ >= 202311L
  : uint8_t
#endif // __STDC_VERSION__ >= 202311L
 {
  x = 0,
  y = 1,
};
#if __STDC_VERSION__ >= 202311L
typedef enum C_E C_E;
#else
typedef uint8_t C_E;
#endif // __STDC_VERSION__ >= 202311L

typedef struct C_A C_A;

typedef struct C_C C_C;

typedef struct C_AwesomeB {
  int32_t x;
  float y;
} C_AwesomeB;

typedef union C_D {
  int32_t x;
  float y;
} C_D;

typedef struct C_A C_F;

#define C_I (intptr_t)(C_F*)10

extern const int32_t G;

void root(const struct C_A *a, struct C_AwesomeB b, struct C_C c, union C_D d, C_E e, C_F f);
".
(** tests/expectations/rename.cpp *)
Definition rename_cpp : string := "#include <cstdarg>
#include <cstdint>
#include <cstdlib>
#include <ostream>
#include <new>

constexpr static const int32_t C_H = 10;

enum class C_E : uint8_t {
  x = 0,
  y = 1,
};

struct C_A;

struct C_C;

struct C_AwesomeB {
  int32_t x;
  float y;
};

union C_D {
  int32_t x;
  float y;
};

using C_F = C_A;

static const intptr_t C_I = (intptr_t)(C_F*)10;

extern ""C"" {

extern const int32_t G;

void root(const C_A *a, C_AwesomeB b, C_C c, C_D d, C_E e, C_F f);

}  // extern ""C""
".
(** tests/expectations/rename.pyx *)
Definition rename_pyx : string := "from libc.stdint cimport int8_t, int16_t, int32_t, int64_t, intptr_t
from libc.stdint cimport uint8_t, uint16_t, uint32_t, uint64_t, uintptr_t
cdef extern from *:
  ctypedef bint bool
  ctypedef struct va_list

cdef extern from *:

  const int32_t C_H # = 10

  cdef enum:
    x # = 0,
    y # = 1,
  ctypedef uint8_t C_E;

  ctypedef struct C_A:
    pass

  ctypedef struct C_C:
    pass

  ctypedef struct C_AwesomeB:
    int32_t x;
    float y;

  ctypedef union C_D:
    int32_t x;
    float y;

  ctypedef C_A C_F;

  const intptr_t C_I # = <intptr_t><C_F*>10

  extern const int32_t G;

  void root(const C_A *a, C_AwesomeB b, C_C c, C_D d, C_E e, C_F f);
".
(** tests/expectations/rename_tag.pyx *)
Definition rename_pyx_tag : string := "from libc.stdint cimport int8_t, int16_t, int32_t, int64_t, intptr_t
from libc.stdint cimport uint8_t, uint16_t, uint32_t, uint64_t, uintptr_t
cdef extern from *:
  ctypedef bint bool
  ctypedef struct va_list

cdef extern from *:

  const int32_t C_H # = 10

  cdef enum:
    x # = 0,
    y # = 1,
  ctypedef uint8_t C_E;

  cdef struct C_A:
    pass

  cdef struct C_C:
    pass

  cdef struct C_AwesomeB:
    int32_t x;
    float y;

  cdef union C_D:
    int32_t x;
    float y;

  ctypedef C_A C_F;

  const intptr_t C_I # = <intptr_t><C_F*>10

  extern const int32_t G;

  void root(const C_A *a, C_AwesomeB b, C_C c, C_D d, C_E e, C_F f);
".
Example rename_reproduced : reproduces (in_file rename_rs) false rename_toml (Some "{
root;
G;
};")
  [(RunC true Type_, [rename_compat]);
   (RunC true Tag, [rename_compat_tag]);
   (RunC true Both, [rename_compat_both]);
   (RunC false Type_, [rename_c]);
   (RunC false Tag, [rename_c_tag]);
   (RunC false Both, [rename_c_both]);
   (RunCxx, [rename_cpp]);
   (RunCython Type_, [rename_pyx]);
   (RunCython Tag, [rename_pyx_tag])] = true.
Proof. vm_compute. reflexivity. Qed.

(** ** tests/rust/rename_associated_constant.rs *)
Definition rename_associated_constant_rs : list sitem := [
  (ItemStruct [{| at_meta := ANameValue (Some "doc") (Some " cbindgen:rename-associated-constant=UpperCase"); at_outer := true |}; {|
  at_meta := (AList (Some "repr") [(APath (Some "C"))]); at_outer := true |}] "Foo" [] (FieldsNamed []));
  (ItemImpl [] (SPath (SegPath [] "Foo" NoArgs)) [(ImplConst [] true "GA" (SPath (SegPath [] "i32" NoArgs)) (XLit (LitInt 10 "")));
  (ImplConst [] true "ZO" (SPath (SegPath [] "f32" NoArgs)) (XLit (LitFloat "3.14")))]);
  (ItemFn [{| at_meta := (APath (Some "no_mangle")); at_outer := true |}] true {| sg_ident := "root"; sg_abi := (Some (Some "C")); sg_inputs
  := [(FnTyped (PatIdent "x") (SPath (SegPath [] "Foo" NoArgs)))]; sg_variadic := false; sg_output := None |})].
Definition rename_associated_constant_toml : Config := {| header := None; includes_ := []; sys_includes_ := []; after_includes := None; trailer := None;
  include_guard_ := None; pragma_once := false; no_includes := false; package_version := false; autogen_warning := None; include_version := false;
  namespace := None; namespaces := None; using_namespaces := None; braces := SameLine; line_length := 100; tab_width := 2; line_endings := LF;
  language := Cxx; cpp_compat := false; style := Both; sort_by := SortNone; usize_is_size_t := false; parse := default_parse; export := {| ex_include := []; ex_exclude := []; ex_rename := []; ex_pre_body := []; ex_body := []; ex_prefix := None; ex_item_types := []; ex_renaming_overrides_prefixing := false; ex_mangle := {| rename_types := RNone; remove_underscores := false |} |};
  layout := {| ly_packed := None; ly_aligned_n := None |}; function := {| fn_prefix := None; fn_postfix := None; fn_must_use := None; fn_deprecated := None; fn_deprecated_with_note := None; fn_args := Auto; fn_rename_args := RNone; fn_swift_name_macro := None; fn_sort_by := None; fn_no_return := None |}; structure := {| st_rename_fields := RNone; st_derive_constructor := false; st_derive_eq := false; st_derive_neq := false; st_derive_lt := false; st_derive_lte := false; st_derive_gt := false; st_derive_gte := false; st_derive_ostream := false; st_associated_constants_in_body := false; st_rename_associated_constant := UpperCase; st_must_use := None; st_deprecated := None; st_deprecated_with_note := None |}; enumeration := {| en_rename_variants := RNone; en_rename_variant_name_fields := SnakeCase; en_add_sentinel := false; en_prefix_with_name := false; en_derive_helper_methods := false; en_derive_const_casts := false; en_derive_mut_casts := false; en_cast_assert_name := None; en_must_use := None; en_deprecated := None; en_deprecated_with_note := None; en_deprecated_variant := None; en_deprecated_variant_with_note := None; en_derive_tagged_enum_destructor := false; en_derive_tagged_enum_copy_constructor := false; en_derive_tagged_enum_copy_assignment := false; en_derive_ostream := false; en_enum_class := true; en_private_default_tagged_enum_constructor := false |}; constant := {| co_allow_static_const := true; co_allow_constexpr := true; co_sort_by := None |}; defines := []; documentation := true;
  documentation_style := DocAuto; documentation_length := Full; pointer := {| pt_non_null_attribute := None; pt_nullable_attribute := None |}; cython := {| cy_header := None; cy_cimports := [] |}; config_path := None |}.
(** tests/expectations/rename_associated_constant.compat.c *)
Definition rename_associated_constant_compat : string := "#include <stdarg.h>
#include <stdbool.h>
#include <stdint.h>
#include <stdlib.h>

typedef struct {

} Foo;
#define FOO_GA 10
#define FOO_ZO 3.14

#ifdef __cplusplus
extern ""C"" {
#endif // __cplusplus

void root(Foo x);

#ifdef __cplusplus
}  // extern ""C""
#endif  // __cplusplus
".
(** tests/expectations/rename_associated_constant_tag.compat.c *)
Definition rename_associated_constant_compat_tag : string := "#include <stdarg.h>
#include <stdbool.h>
#include <stdint.h>
#include <stdlib.h>

struct Foo {

};
#define FOO_GA 10
#define FOO_ZO 3.14

#ifdef __cplusplus
extern ""C"" {
#endif // __cplusplus

void root(struct Foo x);

#ifdef __cplusplus
}  // extern ""C""
#endif  // __cplusplus
".
(** tests/expectations/rename_associated_constant_both.compat.c *)
Definition rename_associated_constant_compat_both : string := "#include <stdarg.h>
#include <stdbool.h>
#include <stdint.h>
#include <stdlib.h>

typedef struct Foo {

} Foo;
#define FOO_GA 10
#define FOO_ZO 3.14

#ifdef __cplusplus
extern ""C"" {
#endif // __cplusplus

void root(struct Foo x);

#ifdef __cplusplus
}  // extern ""C""
#endif  // __cplusplus
".
(** tests/expectations/rename_associated_constant.c *)
Definition rename_associated_constant_c : string := "#include <stdarg.h>
#include <stdbool.h>
#include <stdint.h>
#include <stdlib.h>

typedef struct {

} Foo;
#define FOO_GA 10
#define FOO_ZO 3.14

void root(Foo x);
".
(** tests/expectations/rename_associated_constant_tag.c *)
Definition rename_associated_constant_c_tag : string := "#include <stdarg.h>
#include <stdbool.h>
#include <stdint.h>
#include <stdlib.h>

struct Foo {

};
#define FOO_GA 10
#define FOO_ZO 3.14

void root(struct Foo x);
".
(** tests/expectations/rename_associated_constant_both.c *)
Definition rename_associated_constant_c_both : string := "#include <stdarg.h>
#include <stdbool.h>
#include <stdint.h>
#include <stdlib.h>

typedef struct Foo {

} Foo;
#define FOO_GA 10
#define FOO_ZO 3.14

void root(struct Foo x);
".
(** tests/expectations/rename_associated_constant.cpp *)
Definition rename_associated_constant_cpp : string := "#include <cstdarg>
#include <cstdint>
#include <cstdlib>
#include <ostream>
#include <new>

struct Foo {

};
constexpr static const int32_t FOO_GA = 10;
constexpr static const float FOO_ZO = 3.14;

extern ""C"" {

void root(Foo x);

}  // extern ""C""
".
(** tests/expectations/rename_associated_constant.pyx *)
Definition rename_associated_constant_pyx : string := "from libc.stdint cimport int8_t, int16_t, int32_t, int64_t, intptr_t
from libc.stdint cimport uint8_t, uint16_t, uint32_t, uint64_t, uintptr_t
cdef extern from *:
  ctypedef bint bool
  ctypedef struct va_list

cdef extern from *:

  ctypedef struct Foo:
    pass
  const int32_t FOO_GA # = 10
  const float FOO_ZO # = 3.14

  void root(Foo x);
".
(** tests/expectations/rename_associated_constant_tag.pyx *)
Definition rename_associated_constant_pyx_tag : string := "from libc.stdint cimport int8_t, int16_t, int32_t, int64_t, intptr_t
from libc.stdint cimport uint8_t, uint16_t, uint32_t, uint64_t, uintptr_t
cdef extern from *:
  ctypedef bint bool
  ctypedef struct va_list

cdef extern from *:

  cdef struct Foo:
    pass
  const int32_t FOO_GA # = 10
  const float FOO_ZO # = 3.14

  void root(Foo x);
".
Example rename_associated_constant_reproduced : reproduces (in_file rename_associated_constant_rs) false rename_associated_constant_toml (Some "{
root;
};")
  [(RunC true Type_, [rename_associated_constant_compat]);
   (RunC true Tag, [rename_associated_constant_compat_tag]);
   (RunC true Both, [rename_associated_constant_compat_both]);
   (RunC false Type_, [rename_associated_constant_c]);
   (RunC false Tag, [rename_associated_constant_c_tag]);
   (RunC false Both, [rename_associated_constant_c_both]);
   (RunCxx, [rename_associated_constant_cpp]);
   (RunCython Type_, [rename_associated_constant_pyx]);
   (RunCython Tag, [rename_associated_constant_pyx_tag])] = true.
Proof. vm_compute. reflexivity. Qed.

(** ** tests/rust/rename_case.rs *)
Definition rename_case_rs : list sitem := [
  (ItemFn [{| at_meta := ANameValue (Some "doc") (Some " cbindgen:rename-all=CamelCase"); at_outer := true |}; {| at_meta := (APath
  (Some "no_mangle")); at_outer := true |}] true {| sg_ident := "test_camel_case"; sg_abi := (Some (Some "C")); sg_inputs := [(FnTyped
  (PatIdent "foo_bar") (SPath (SegPath [] "i32" NoArgs)))]; sg_variadic := false; sg_output := None |});
  (ItemFn [{| at_meta := ANameValue (Some "doc") (Some " cbindgen:rename-all=PascalCase"); at_outer := true |}; {| at_meta := (APath
  (Some "no_mangle")); at_outer := true |}] true {| sg_ident := "test_pascal_case"; sg_abi := (Some (Some "C")); sg_inputs := [(FnTyped
  (PatIdent "foo_bar") (SPath (SegPath [] "i32" NoArgs)))]; sg_variadic := false; sg_output := None |});
  (ItemFn [{| at_meta := ANameValue (Some "doc") (Some " cbindgen:rename-all=SnakeCase"); at_outer := true |}; {| at_meta := (APath
  (Some "no_mangle")); at_outer := true |}] true {| sg_ident := "test_snake_case"; sg_abi := (Some (Some "C")); sg_inputs := [(FnTyped
  (PatIdent "foo_bar") (SPath (SegPath [] "i32" NoArgs)))]; sg_variadic := false; sg_output := None |});
  (ItemFn [{| at_meta := ANameValue (Some "doc") (Some " cbindgen:rename-all=ScreamingSnakeCase"); at_outer := true |}; {| at_meta :=
  (APath (Some "no_mangle")); at_outer := true |}] true {| sg_ident := "test_screaming_snake_case"; sg_abi := (Some (Some "C")); sg_inputs
  := [(FnTyped (PatIdent "foo_bar") (SPath (SegPath [] "i32" NoArgs)))]; sg_variadic := false; sg_output := None |});
  (ItemFn [{| at_meta := ANameValue (Some "doc") (Some " cbindgen:rename-all=GeckoCase"); at_outer := true |}; {| at_meta := (APath
  (Some "no_mangle")); at_outer := true |}] true {| sg_ident := "test_gecko_case"; sg_abi := (Some (Some "C")); sg_inputs := [(FnTyped
  (PatIdent "foo_bar") (SPath (SegPath [] "i32" NoArgs)))]; sg_variadic := false; sg_output := None |});
  (ItemFn [{| at_meta := ANameValue (Some "doc") (Some " cbindgen:rename-all=prefix:prefix_"); at_outer := true |}; {| at_meta := (APath
  (Some "no_mangle")); at_outer := true |}] true {| sg_ident := "test_prefix"; sg_abi := (Some (Some "C")); sg_inputs := [(FnTyped
  (PatIdent "foo_bar") (SPath (SegPath [] "i32" NoArgs)))]; sg_variadic := false; sg_output := None |})].
(** tests/expectations/rename_case.compat.c *)
Definition rename_case_compat : string := "#include <stdarg.h>
#include <stdbool.h>
#include <stdint.h>
#include <stdlib.h>

#ifdef __cplusplus
extern ""C"" {
#endif // __cplusplus

void test_camel_case(int32_t fooBar);

void test_pascal_case(int32_t FooBar);

void test_snake_case(int32_t foo_bar);

void test_screaming_snake_case(int32_t FOO_BAR);

void test_gecko_case(int32_t aFooBar);

void test_prefix(int32_t prefix_foo_bar);

#ifdef __cplusplus
}  // extern ""C""
#endif  // __cplusplus
".
(** tests/expectations/rename_case.c *)
Definition rename_case_c : string := "#include <stdarg.h>
#include <stdbool.h>
#include <stdint.h>
#include <stdlib.h>

void test_camel_case(int32_t fooBar);

void test_pascal_case(int32_t FooBar);

void test_snake_case(int32_t foo_bar);

void test_screaming_snake_case(int32_t FOO_BAR);

void test_gecko_case(int32_t aFooBar);

void test_prefix(int32_t prefix_foo_bar);
".
(** tests/expectations/rename_case.cpp *)
Definition rename_case_cpp : string := "#include <cstdarg>
#include <cstdint>
#include <cstdlib>
#include <ostream>
#include <new>

extern ""C"" {

void test_camel_case(int32_t fooBar);

void test_pascal_case(int32_t FooBar);

void test_snake_case(int32_t foo_bar);

void test_screaming_snake_case(int32_t FOO_BAR);

void test_gecko_case(int32_t aFooBar);

void test_prefix(int32_t prefix_foo_bar);

}  // extern ""C""
".
(** tests/expectations/rename_case.pyx *)
Definition rename_case_pyx : string := "from libc.stdint cimport int8_t, int16_t, int32_t, int64_t, intptr_t
from libc.stdint cimport uint8_t, uint16_t, uint32_t, uint64_t, uintptr_t
cdef extern from *:
  ctypedef bint bool
  ctypedef struct va_list

cdef extern from *:

  void test_camel_case(int32_t fooBar);

  void test_pascal_case(int32_t FooBar);

  void test_snake_case(int32_t foo_bar);

  void test_screaming_snake_case(int32_t FOO_BAR);

  void test_gecko_case(int32_t aFooBar);

  void test_prefix(int32_t prefix_foo_bar);
".
Example rename_case_reproduced : reproduces (in_file rename_case_rs) false default_config (Some "{
test_camel_case;
test_pascal_case;
test_snake_case;
test_screaming_snake_case;
test_gecko_case;
test_prefix;
};")
  [(RunC true Type_, [rename_case_compat]);
   (RunC true Tag, [rename_case_compat]);
   (RunC true Both, [rename_case_compat]);
   (RunC false Type_, [rename_case_c]);
   (RunC false Tag, [rename_case_compat; rename_case_c]);
   (RunC false Both, [rename_case_compat; rename_case_c]);
   (RunCxx, [rename_case_cpp]);
   (RunCython Type_, [rename_case_pyx]);
   (RunCython Tag, [rename_case_pyx])] = true.
Proof. vm_compute. reflexivity. Qed.

(** ** tests/rust/renaming_overrides_prefixing.rs *)
Definition renaming_overrides_prefixing_rs : list sitem := [
  (ItemStruct [] "A" [] (FieldsNamed [{| sf_attrs := []; sf_ident := (Some "x"); sf_ty := (SPath (SegPath [] "i32" NoArgs)) |}; {| sf_attrs
  := []; sf_ident := (Some "y"); sf_ty := (SPath (SegPath [] "f32" NoArgs)) |}]));
  (ItemStruct [{| at_meta := (AList (Some "repr") [(APath (Some "C"))]); at_outer := true |}] "B" [] (FieldsNamed [{| sf_attrs := [];
  sf_ident := (Some "x"); sf_ty := (SPath (SegPath [] "i32" NoArgs)) |}; {| sf_attrs := []; sf_ident := (Some "y"); sf_ty := (SPath
  (SegPath [] "f32" NoArgs)) |}]));
  (ItemFn [{| at_meta := (APath (Some "no_mangle")); at_outer := true |}] true {| sg_ident := "root"; sg_abi := (Some (Some "C")); sg_inputs
  := [(FnTyped (PatIdent "a") (SPtr false (SPath (SegPath [] "A" NoArgs)))); (FnTyped (PatIdent "b") (SPath (SegPath [] "B" NoArgs)))];
  sg_variadic := false; sg_output := None |})].
Definition renaming_overrides_prefixing_toml : Config := {| header := None; includes_ := []; sys_includes_ := []; after_includes := None; trailer := None;
  include_guard_ := None; pragma_once := false; no_includes := false; package_version := false; autogen_warning := None; include_version := false;
  namespace := None; namespaces := None; using_namespaces := None; braces := SameLine; line_length := 100; tab_width := 2; line_endings := LF;
  language := Cxx; cpp_compat := false; style := Both; sort_by := SortNone; usize_is_size_t := false; parse := default_parse; export := {| ex_include := []; ex_exclude := []; ex_rename := [("B", "B")]; ex_pre_body := []; ex_body := []; ex_prefix := (Some "Style"); ex_item_types := []; ex_renaming_overrides_prefixing := true; ex_mangle := {| rename_types := RNone; remove_underscores := false |} |};
  layout := {| ly_packed := None; ly_aligned_n := None |}; function := {| fn_prefix := None; fn_postfix := None; fn_must_use := None; fn_deprecated := None; fn_deprecated_with_note := None; fn_args := Auto; fn_rename_args := RNone; fn_swift_name_macro := None; fn_sort_by := None; fn_no_return := None |}; structure := {| st_rename_fields := RNone; st_derive_constructor := false; st_derive_eq := false; st_derive_neq := false; st_derive_lt := false; st_derive_lte := false; st_derive_gt := false; st_derive_gte := false; st_derive_ostream := false; st_associated_constants_in_body := false; st_rename_associated_constant := RNone; st_must_use := None; st_deprecated := None; st_deprecated_with_note := None |}; enumeration := {| en_rename_variants := RNone; en_rename_variant_name_fields := SnakeCase; en_add_sentinel := false; en_prefix_with_name := false; en_derive_helper_methods := false; en_derive_const_casts := false; en_derive_mut_casts := false; en_cast_assert_name := None; en_must_use := None; en_deprecated := None; en_deprecated_with_note := None; en_deprecated_variant := None; en_deprecated_variant_with_note := None; en_derive_tagged_enum_destructor := false; en_derive_tagged_enum_copy_constructor := false; en_derive_tagged_enum_copy_assignment := false; en_derive_ostream := false; en_enum_class := true; en_private_default_tagged_enum_constructor := false |}; constant := {| co_allow_static_const := true; co_allow_constexpr := true; co_sort_by := None |}; defines := []; documentation := true;
  documentation_style := DocAuto; documentation_length := Full; pointer := {| pt_non_null_attribute := None; pt_nullable_attribute := None |}; cython := {| cy_header := None; cy_cimports := [] |}; config_path := None |}.
(** tests/expectations/renaming_overrides_prefixing.compat.c *)
Definition renaming_overrides_prefixing_compat : string := "#include <stdarg.h>
#include <stdbool.h>
#include <stdint.h>
#include <stdlib.h>

typedef struct StyleA StyleA;

typedef struct {
  int32_t x;
  float y;
} B;

#ifdef __cplusplus
extern ""C"" {
#endif // __cplusplus

void root(const StyleA *a, B b);

#ifdef __cplusplus
}  // extern ""C""
#endif  // __cplusplus
".
(** tests/expectations/renaming_overrides_prefixing_tag.compat.c *)
Definition renaming_overrides_prefixing_compat_tag : string := "#include <stdarg.h>
#include <stdbool.h>
#include <stdint.h>
#include <stdlib.h>

struct StyleA;

struct B {
  int32_t x;
  float y;
};

#ifdef __cplusplus
extern ""C"" {
#endif // __cplusplus

void root(const struct StyleA *a, struct B b);

#ifdef __cplusplus
}  // extern ""C""
#endif  // __cplusplus
".
(** tests/expectations/renaming_overrides_prefixing_both.compat.c *)
Definition renaming_overrides_prefixing_compat_both : string := "#include <stdarg.h>
#include <stdbool.h>
#include <stdint.h>
#include <stdlib.h>

typedef struct StyleA StyleA;

typedef struct B {
  int32_t x;
  float y;
} B;

#ifdef __cplusplus
extern ""C"" {
#endif // __cplusplus

void root(const struct StyleA *a, struct B b);

#ifdef __cplusplus
}  // extern ""C""
#endif  // __cplusplus
".
(** tests/expectations/renaming_overrides_prefixing.c *)
Definition renaming_overrides_prefixing_c : string := "#include <stdarg.h>
#include <stdbool.h>
#include <stdint.h>
#include <stdlib.h>

typedef struct StyleA StyleA;

typedef struct {
  int32_t x;
  float y;
} B;

void root(const StyleA *a, B b);
".
(** tests/expectations/renaming_overrides_prefixing_tag.c *)
Definition renaming_overrides_prefixing_c_tag : string := "#include <stdarg.h>
#include <stdbool.h>
#include <stdint.h>
#include <stdlib.h>

struct StyleA;

struct B {
  int32_t x;
  float y;
};

void root(const struct StyleA *a, struct B b);
".
(** tests/expectations/renaming_overrides_prefixing_both.c *)
Definition renaming_overrides_prefixing_c_both : string := "#include <stdarg.h>
#include <stdbool.h>
#include <stdint.h>
#include <stdlib.h>

typedef struct StyleA StyleA;

typedef struct B {
  int32_t x;
  float y;
} B;

void root(const struct StyleA *a, struct B b);
".
(** tests/expectations/renaming_overrides_prefixing.cpp *)
Definition renaming_overrides_prefixing_cpp : string := "#include <cstdarg>
#include <cstdint>
#include <cstdlib>
#include <ostream>
#include <new>

struct StyleA;

struct B {
  int32_t x;
  float y;
};

extern ""C"" {

void root(const StyleA *a, B b);

}  // extern ""C""
".
(** tests/expectations/renaming_overrides_prefixing.pyx *)
Definition renaming_overrides_prefixing_pyx : string := "from libc.stdint cimport int8_t, int16_t, int32_t, int64_t, intptr_t
from libc.stdint cimport uint8_t, uint16_t, uint32_t, uint64_t, uintptr_t
cdef extern from *:
  ctypedef bint bool
  ctypedef struct va_list

cdef extern from *:

  ctypedef struct StyleA:
    pass

  ctypedef struct B:
    int32_t x;
    float y;

  void root(const StyleA *a, B b);
".
(** tests/expectations/renaming_overrides_prefixing_tag.pyx *)
Definition renaming_overrides_prefixing_pyx_tag : string := "from libc.stdint cimport int8_t, int16_t, int32_t, int64_t, intptr_t
from libc.stdint cimport uint8_t, uint16_t, uint32_t, uint64_t, uintptr_t
cdef extern from *:
  ctypedef bint bool
  ctypedef struct va_list

cdef extern from *:

  cdef struct StyleA:
    pass

  cdef struct B:
    int32_t x;
    float y;

  void root(const StyleA *a, B b);
".
Example renaming_overrides_prefixing_reproduced : reproduces (in_file renaming_overrides_prefixing_rs) false renaming_overrides_prefixing_toml (Some "{
root;
};")
  [(RunC true Type_, [renaming_overrides_prefixing_compat]);
   (RunC true Tag, [renaming_overrides_prefixing_compat_tag]);
   (RunC true Both, [renaming_overrides_prefixing_compat_both]);
   (RunC false Type_, [renaming_overrides_prefixing_c]);
   (RunC false Tag, [renaming_overrides_prefixing_c_tag]);
   (RunC false Both, [renaming_overrides_prefixing_c_both]);
   (RunCxx, [renaming_overrides_prefixing_cpp]);
   (RunCython Type_, [renaming_overrides_prefixing_pyx]);
   (RunCython Tag, [renaming_overrides_prefixing_pyx_tag])] = true.
Proof. vm_compute. reflexivity. Qed.

(** ** tests/rust/reserved.rs *)
Definition reserved_rs : list sitem := [
  (ItemStruct [{| at_meta := (AList (Some "repr") [(APath (Some "C"))]); at_outer := true |}] "A" [] (FieldsNamed [{| sf_attrs := [];
  sf_ident := (Some "namespace"); sf_ty := (SPath (SegPath [] "i32" NoArgs)) |}; {| sf_attrs := []; sf_ident := (Some "float"); sf_ty
  := (SPath (SegPath [] "f32" NoArgs)) |}]));
  (ItemStruct [{| at_meta := ANameValue (Some "doc") (Some " cbindgen:field-names=[namespace, float]"); at_outer := true |}; {| at_meta
  := (AList (Some "repr") [(APath (Some "C"))]); at_outer := true |}] "B" [] (FieldsUnnamed [{| sf_attrs := []; sf_ident := None;
  sf_ty := (SPath (SegPath [] "i32" NoArgs)) |}; {| sf_attrs := []; sf_ident := None; sf_ty := (SPath (SegPath [] "f32" NoArgs)) |}]));
  (ItemEnum [{| at_meta := (AList (Some "repr") [(APath (Some "C")); (APath (Some "u8"))]); at_outer := true |}] "C" [] [{| sv_attrs
  := []; sv_ident := "D"; sv_fields := (FieldsNamed [{| sf_attrs := []; sf_ident := (Some "namespace"); sf_ty := (SPath (SegPath []
  "i32" NoArgs)) |}; {| sf_attrs := []; sf_ident := (Some "float"); sf_ty := (SPath (SegPath [] "f32" NoArgs)) |}]); sv_discriminant
  := None |}]);
  (ItemEnum [{| at_meta := (AList (Some "repr") [(APath (Some "C")); (APath (Some "u8"))]); at_outer := true |}] "E" [] [{| sv_attrs
  := []; sv_ident := "Double"; sv_fields := (FieldsUnnamed [{| sf_attrs := []; sf_ident := None; sf_ty := (SPath (SegPath [] "f64"
  NoArgs)) |}]); sv_discriminant := None |}; {| sv_attrs := []; sv_ident := "Float"; sv_fields := (FieldsUnnamed [{| sf_attrs := [];
  sf_ident := None; sf_ty := (SPath (SegPath [] "f32" NoArgs)) |}]); sv_discriminant := None |}]);
  (ItemEnum [{| at_meta := (AList (Some "repr") [(APath (Some "C")); (APath (Some "u8"))]); at_outer := true |}] "F" [] [{| sv_attrs
  := []; sv_ident := "double"; sv_fields := (FieldsUnnamed [{| sf_attrs := []; sf_ident := None; sf_ty := (SPath (SegPath [] "f64"
  NoArgs)) |}]); sv_discriminant := None |}; {| sv_attrs := []; sv_ident := "float"; sv_fields := (FieldsUnnamed [{| sf_attrs := [];
  sf_ident := None; sf_ty := (SPath (SegPath [] "f32" NoArgs)) |}]); sv_discriminant := None |}]);
  (ItemFn [{| at_meta := (APath (Some "no_mangle")); at_outer := true |}] true {| sg_ident := "root"; sg_abi := (Some (Some "C")); sg_inputs
  := [(FnTyped (PatIdent "a") (SPath (SegPath [] "A" NoArgs))); (FnTyped (PatIdent "b") (SPath (SegPath [] "B" NoArgs))); (FnTyped
  (PatIdent "c") (SPath (SegPath [] "C" NoArgs))); (FnTyped (PatIdent "e") (SPath (SegPath [] "E" NoArgs))); (FnTyped (PatIdent "f")
  (SPath (SegPath [] "F" NoArgs))); (FnTyped (PatIdent "namespace") (SPath (SegPath [] "i32" NoArgs))); (FnTyped (PatIdent "float")
  (SPath (SegPath [] "f32" NoArgs)))]; sg_variadic := false; sg_output := None |})].
(** tests/expectations/reserved.compat.c *)
Definition reserved_compat : string := "#include <stdarg.h>
#include <stdbool.h>
#include <stdint.h>
#include <stdlib.h>

typedef struct {
  int32_t namespace_;
  float float_;
} A;

typedef struct {
  int32_t namespace_;
  float float_;
} B;

enum C_Tag
#if defined(__cplusplus) || __STDC_VERSION__ >= 202311L
  : uint8_t
#endif // defined(__cplusplus) || __STDC_VERSION__ >= 202311L
 {
  D,
};
#ifndef __cplusplus
#if __STDC_VERSION__ >= 202311L
typedef enum C_Tag C_Tag;
#else
typedef uint8_t C_Tag;
#endif // __STDC_VERSION__ >= 202311L
#endif // __cplusplus

typedef struct {
  int32_t namespace_;
  float float_;
} D_Body;

typedef struct {
  C_Tag tag;
  union {
    D_Body d;
  };
} C;

enum E_Tag
#if defined(__cplusplus) || __STDC_VERSION__ >= 202311L
  : uint8_t
#endif // defined(__cplusplus) || __STDC_VERSION__ >= 202311L
 {
  Double,
  Float,
};
#ifndef __cplusplus
#if __STDC_VERSION__ >= 202311L
typedef enum E_Tag E_Tag;
#else
typedef uint8_t E_Tag;
#endif // __STDC_VERSION__ >= 202311L
#endif // __cplusplus

typedef struct {
  E_Tag tag;
  union {
    struct {
      double double_;
    };
    struct {
      float float_;
    };
  };
} E;

enum F_Tag
#if defined(__cplusplus) || __STDC_VERSION__ >= 202311L
  : uint8_t
#endif // defined(__cplusplus) || __STDC_VERSION__ >= 202311L
 {
  double_,
  float_,
};
#ifndef __cplusplus
#if __STDC_VERSION__ >= 202311L
typedef enum F_Tag F_Tag;
#else
typedef uint8_t F_Tag;
#endif // __STDC_VERSION__ >= 202311L
#endif // __cplusplus

typedef struct {
  F_Tag tag;
  union {
    struct {
      double double_;
    };
    struct {
      float float_;
    };
  };
} F;

#ifdef __cplusplus
extern ""C"" {
#endif // __cplusplus

void root(A a, B b, C c, E e, F f, int32_t namespace_, float float_);

#ifdef __cplusplus
}  // extern ""C""
#endif  // __cplusplus
".
(** tests/expectations/reserved_tag.compat.c *)
Definition reserved_compat_tag : string := "#include <stdarg.h>
#include <stdbool.h>
#include <stdint.h>
#include <stdlib.h>

struct A {
  int32_t namespace_;
  float float_;
};

struct B {
  int32_t namespace_;
  float float_;
};

enum C_Tag
#if defined(__cplusplus) || __STDC_VERSION__ >= 202311L
  : uint8_t
#endif // defined(__cplusplus) || __STDC_VERSION__ >= 202311L
 {
  D,
};
#ifndef __cplusplus
#if __STDC_VERSION__ >= 202311L
typedef enum C_Tag C_Tag;
#else
typedef uint8_t C_Tag;
#endif // __STDC_VERSION__ >= 202311L
#endif // __cplusplus

struct D_Body {
  int32_t namespace_;
  float float_;
};

struct C {
  C_Tag tag;
  union {
    struct D_Body d;
  };
};

enum E_Tag
#if defined(__cplusplus) || __STDC_VERSION__ >= 202311L
  : uint8_t
#endif // defined(__cplusplus) || __STDC_VERSION__ >= 202311L
 {
  Double,
  Float,
};
#ifndef __cplusplus
#if __STDC_VERSION__ >= 202311L
typedef enum E_Tag E_Tag;
#else
typedef uint8_t E_Tag;
#endif // __STDC_VERSION__ >= 202311L
#endif // __cplusplus

struct E {
  E_Tag tag;
  union {
    struct {
      double double_;
    };
    struct {
      float float_;
    };
  };
};

enum F_Tag
#if defined(__cplusplus) || __STDC_VERSION__ >= 202311L
  : uint8_t
#endif // defined(__cplusplus) || __STDC_VERSION__ >= 202311L
 {
  double_,
  float_,
};
#ifndef __cplusplus
#if __STDC_VERSION__ >= 202311L
typedef enum F_Tag F_Tag;
#else
typedef uint8_t F_Tag;
#endif // __STDC_VERSION__ >= 202311L
#endif // __cplusplus

struct F {
  F_Tag tag;
  union {
    struct {
      double double_;
    };
    struct {
      float float_;
    };
  };
};

#ifdef __cplusplus
extern ""C"" {
#endif // __cplusplus

void root(struct A a,
          struct B b,
          struct C c,
          struct E e,
          struct F f,
          int32_t namespace_,
          float float_);

#ifdef __cplusplus
}  // extern ""C""
#endif  // __cplusplus
".
(** tests/expectations/reserved_both.compat.c *)
Definition reserved_compat_both : string := "#include <stdarg.h>
#include <stdbool.h>
#include <stdint.h>
#include <stdlib.h>

typedef struct A {
  int32_t namespace_;
  float float_;
} A;

typedef struct B {
  int32_t namespace_;
  float float_;
} B;

enum C_Tag
#if defined(__cplusplus) || __STDC_VERSION__ >= 202311L
  : uint8_t
#endif // defined(__cplusplus) || __STDC_VERSION__ >= 202311L
 {
  D,
};
#ifndef __cplusplus
#if __STDC_VERSION__ >= 202311L
typedef enum C_Tag C_Tag;
#else
typedef uint8_t C_Tag;
#endif // __STDC_VERSION__ >= 202311L
#endif // __cplusplus

typedef struct D_Body {
  int32_t namespace_;
  float float_;
} D_Body;

typedef struct C {
  C_Tag tag;
  union {
    D_Body d;
  };
} C;

enum E_Tag
#if defined(__cplusplus) || __STDC_VERSION__ >= 202311L
  : uint8_t
#endif // defined(__cplusplus) || __STDC_VERSION__ >= 202311L
 {
  Double,
  Float,
};
#ifndef __cplusplus
#if __STDC_VERSION__ >= 202311L
typedef enum E_Tag E_Tag;
#else
typedef uint8_t E_Tag;
#endif // __STDC_VERSION__ >= 202311L
#endif // __cplusplus

typedef struct E {
  E_Tag tag;
  union {
    struct {
      double double_;
    };
    struct {
      float float_;
    };
  };
} E;

enum F_Tag
#if defined(__cplusplus) || __STDC_VERSION__ >= 202311L
  : uint8_t
#endif // defined(__cplusplus) || __STDC_VERSION__ >= 202311L
 {
  double_,
  float_,
};
#ifndef __cplusplus
#if __STDC_VERSION__ >= 202311L
typedef enum F_Tag F_Tag;
#else
typedef uint8_t F_Tag;
#endif // __STDC_VERSION__ >= 202311L
#endif // __cplusplus

typedef struct F {
  F_Tag tag;
  union {
    struct {
      double double_;
    };
    struct {
      float float_;
    };
  };
} F;

#ifdef __cplusplus
extern ""C"" {
#endif // __cplusplus

void root(struct A a,
          struct B b,
          struct C c,
          struct E e,
          struct F f,
          int32_t namespace_,
          float float_);

#ifdef __cplusplus
}  // extern ""C""
#endif  // __cplusplus
".
(** tests/expectations/reserved.c *)
Definition reserved_c : string := "#include <stdarg.h>
#include <stdbool.h>
#include <stdint.h>
#include <stdlib.h>

typedef struct {
  int32_t namespace_;
  float float_;
} A;

typedef struct {
  int32_t namespace_;
  float float_;
} B;

enum C_Tag
#if __STDC_VERSION__ >= 202311L
  : uint8_t
#endif // __STDC_VERSION__ >= 202311L
 {
  D,
};
#if __STDC_VERSION__ >= 202311L
typedef enum C_Tag C_Tag;
#else
typedef uint8_t C_Tag;
#endif // __STDC_VERSION__ >= 202311L

typedef struct {
  int32_t namespace_;
  float float_;
} D_Body;

typedef struct {
  C_Tag tag;
  union {
    D_Body d;
  };
} C;

enum E_Tag
#if __STDC_VERSION__ >= 202311L
  : uint8_t
#endif // __STDC_VERSION__ >= 202311L
 {
  Double,
  Float,
};
#if __STDC_VERSION__ >= 202311L
typedef enum E_Tag E_Tag;
#else
typedef uint8_t E_Tag;
#endif // __STDC_VERSION__ >= 202311L

typedef struct {
  E_Tag tag;
  union {
    struct {
      double double_;
    };
    struct {
      float float_;
    };
  };
} E;

enum F_Tag
#if __STDC_VERSION__ >= 202311L
  : uint8_t
#endif // __STDC_VERSION__ >= 202311L
 {
  double_,
  float_,
};
#if __STDC_VERSION__ >= 202311L
typedef enum F_Tag F_Tag;
#else
typedef uint8_t F_Tag;
#endif // __STDC_VERSION__ >= 202311L

typedef struct {
  F_Tag tag;
  union {
    struct {
      double double_;
    };
    struct {
      float float_;
    };
  };
} F;

void root(A a, B b, C c, E e, F f, int32_t namespace_, float float_);
".
(** tests/expectations/reserved_tag.c *)
Definition reserved_c_tag : string := "#include <stdarg.h>
#include <stdbool.h>
#include <stdint.h>
#include <stdlib.h>

struct A {
  int32_t namespace_;
  float float_;
};

struct B {
  int32_t namespace_;
  float float_;
};

enum C_Tag
#if __STDC_VERSION__ >= 202311L
  : uint8_t
#endif // __STDC_VERSION__ >= 202311L
 {
  D,
};
#if __STDC_VERSION__ >= 202311L
typedef enum C_Tag C_Tag;
#else
typedef uint8_t C_Tag;
#endif // __STDC_VERSION__ >= 202311L

struct D_Body {
  int32_t namespace_;
  float float_;
};

struct C {
  C_Tag tag;
  union {
    struct D_Body d;
  };
};

enum E_Tag
#if __STDC_VERSION__ >= 202311L
  : uint8_t
#endif // __STDC_VERSION__ >= 202311L
 {
  Double,
  Float,
};
#if __STDC_VERSION__ >= 202311L
typedef enum E_Tag E_Tag;
#else
typedef uint8_t E_Tag;
#endif // __STDC_VERSION__ >= 202311L

struct E {
  E_Tag tag;
  union {
    struct {
      double double_;
    };
    struct {
      float float_;
    };
  };
};

enum F_Tag
#if __STDC_VERSION__ >= 202311L
  : uint8_t
#endif // __STDC_VERSION__ >= 202311L
 {
  double_,
  float_,
};
#if __STDC_VERSION__ >= 202311L
typedef enum F_Tag F_Tag;
#else
typedef uint8_t F_Tag;
#endif // __STDC_VERSION__ >= 202311L

struct F {
  F_Tag tag;
  union {
    struct {
      double double_;
    };
    struct {
      float float_;
    };
  };
};

void root(struct A a,
          struct B b,
          struct C c,
          struct E e,
          struct F f,
          int32_t namespace_,
          float float_);
".
(** tests/expectations/reserved_both.c *)
Definition reserved_c_both : string := "#include <stdarg.h>
#include <stdbool.h>
#include <stdint.h>
#include <stdlib.h>

typedef struct A {
  int32_t namespace_;
  float float_;
} A;

typedef struct B {
  int32_t namespace_;
  float float_;
} B;

enum C_Tag
#if __STDC_VERSION__ >= 202311L
  : uint8_t
#endif // __STDC_VERSION__ >= 202311L
 {
  D,
};
#if __STDC_VERSION__ >= 202311L
typedef enum C_Tag C_Tag;
#else
typedef uint8_t C_Tag;
#endif // __STDC_VERSION__ >= 202311L

typedef struct D_Body {
  int32_t namespace_;
  float float_;
} D_Body;

typedef struct C {
  C_Tag tag;
  union {
    D_Body d;
  };
} C;

enum E_Tag
#if __STDC_VERSION__ >= 202311L
  : uint8_t
#endif // __STDC_VERSION__ >= 202311L
 {
  Double,
  Float,
};
#if __STDC_VERSION__ >= 202311L
typedef enum E_Tag E_Tag;
#else
typedef uint8_t E_Tag;
#endif // __STDC_VERSION__ >= 202311L

typedef struct E {
  E_Tag tag;
  union {
    struct {
      double double_;
    };
    struct {
      float float_;
    };
  };
} E;

enum F_Tag
#if __STDC_VERSION__ >= 202311L
  : uint8_t
#endif // __STDC_VERSION__ >= 202311L
 {
  double_,
  float_,
};
#if __STDC_VERSION__ >= 202311L
typedef enum F_Tag F_Tag;
#else
typedef uint8_t F_Tag;
#endif // __STDC_VERSION__ >= 202311L

typedef struct F {
  F_Tag tag;
  union {
    struct {
      double double_;
    };
    struct {
      float float_;
    };
  };
} F;

void root(struct A a,
          struct B b,
          struct C c,
          struct E e,
          struct F f,
          int32_t namespace_,
          float float_);
".
(** tests/expectations/reserved.cpp *)
Definition reserved_cpp : string := "#include <cstdarg>
#include <cstdint>
#include <cstdlib>
#include <ostream>
#include <new>

struct A {
  int32_t namespace_;
  float float_;
};

struct B {
  int32_t namespace_;
  float float_;
};

struct C {
  enum class Tag : uint8_t {
    D,
  };

  struct D_Body {
    int32_t namespace_;
    float float_;
  };

  Tag tag;
  union {
    D_Body d;
  };
};

struct E {
  enum class Tag : uint8_t {
    Double,
    Float,
  };

  struct Double_Body {
    double _0;
  };

  struct Float_Body {
    float _0;
  };

  Tag tag;
  union {
    Double_Body double_;
    Float_Body float_;
  };
};

struct F {
  enum class Tag : uint8_t {
    double_,
    float_,
  };

  struct double_Body {
    double _0;
  };

  struct float_Body {
    float _0;
  };

  Tag tag;
  union {
    double_Body double_;
    float_Body float_;
  };
};

extern ""C"" {

void root(A a, B b, C c, E e, F f, int32_t namespace_, float float_);

}  // extern ""C""
".
(** tests/expectations/reserved.pyx *)
Definition reserved_pyx : string := "from libc.stdint cimport int8_t, int16_t, int32_t, int64_t, intptr_t
from libc.stdint cimport uint8_t, uint16_t, uint32_t, uint64_t, uintptr_t
cdef extern from *:
  ctypedef bint bool
  ctypedef struct va_list

cdef extern from *:

  ctypedef struct A:
    int32_t namespace_;
    float float_;

  ctypedef struct B:
    int32_t namespace_;
    float float_;

  cdef enum:
    D,
  ctypedef uint8_t C_Tag;

  ctypedef struct D_Body:
    int32_t namespace_;
    float float_;

  ctypedef struct C:
    C_Tag tag;
    D_Body d;

  cdef enum:
    Double,
    Float,
  ctypedef uint8_t E_Tag;

  ctypedef struct E:
    E_Tag tag;
    double double_;
    float float_;

  cdef enum:
    double_,
    float_,
  ctypedef uint8_t F_Tag;

  ctypedef struct F:
    F_Tag tag;
    double double_;
    float float_;

  void root(A a, B b, C c, E e, F f, int32_t namespace_, float float_);
".
(** tests/expectations/reserved_tag.pyx *)
Definition reserved_pyx_tag : string := "from libc.stdint cimport int8_t, int16_t, int32_t, int64_t, intptr_t
from libc.stdint cimport uint8_t, uint16_t, uint32_t, uint64_t, uintptr_t
cdef extern from *:
  ctypedef bint bool
  ctypedef struct va_list

cdef extern from *:

  cdef struct A:
    int32_t namespace_;
    float float_;

  cdef struct B:
    int32_t namespace_;
    float float_;

  cdef enum:
    D,
  ctypedef uint8_t C_Tag;

  cdef struct D_Body:
    int32_t namespace_;
    float float_;

  cdef struct C:
    C_Tag tag;
    D_Body d;

  cdef enum:
    Double,
    Float,
  ctypedef uint8_t E_Tag;

  cdef struct E:
    E_Tag tag;
    double double_;
    float float_;

  cdef enum:
    double_,
    float_,
  ctypedef uint8_t F_Tag;

  cdef struct F:
    F_Tag tag;
    double double_;
    float float_;

  void root(A a, B b, C c, E e, F f, int32_t namespace_, float float_);
".
Example reserved_reproduced : reproduces (in_file reserved_rs) false default_config (Some "{
root;
};")
  [(RunC true Type_, [reserved_compat]);
   (RunC true Tag, [reserved_compat_tag]);
   (RunC true Both, [reserved_compat_both]);
   (RunC false Type_, [reserved_c]);
   (RunC false Tag, [reserved_c_tag]);
   (RunC false Both, [reserved_c_both]);
   (RunCxx, [reserved_cpp]);
   (RunCython Type_, [reserved_pyx]);
   (RunCython Tag, [reserved_pyx_tag])] = true.
Proof. vm_compute. reflexivity. Qed.

