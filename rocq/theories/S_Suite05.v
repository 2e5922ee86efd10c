(** See S_Suite.v; generated. *)
Require Import Coq.Strings.String Coq.Strings.Ascii Coq.Lists.List Coq.Bool.Bool Coq.NArith.NArith.
From Verif Require Import Base M_Config M_Cfg M_Type M_Ir M_Item M_Attr M_Syn M_Library M_Loader M_Parser M_Bindings M_Backend S_Heck S_Suite.
Import ListNotations.
Open Scope string_scope.

(** ** tests/rust/deprecated.rs *)
Definition deprecated_rs : list sitem := [
  (ItemFn [{| at_meta := (APath (Some "no_mangle")); at_outer := true |}; {| at_meta := (APath (Some "deprecated")); at_outer := true
  |}] true {| sg_ident := "deprecated_without_note"; sg_abi := (Some (Some "C")); sg_inputs := []; sg_variadic := false; sg_output
  := None |});
  (ItemFn [{| at_meta := (APath (Some "no_mangle")); at_outer := true |}; {| at_meta := (ANameValue (Some "deprecated") (Some "This is a note"));
  at_outer := true |}] true {| sg_ident := "deprecated_without_bracket"; sg_abi := (Some (Some "C")); sg_inputs := []; sg_variadic
  := false; sg_output := None |});
  (ItemFn [{| at_meta := (APath (Some "no_mangle")); at_outer := true |}; {| at_meta := (AList (Some "deprecated") [(ANameValue (Some
  "note") (Some "This is a note"))]); at_outer := true |}] true {| sg_ident := "deprecated_with_note"; sg_abi := (Some (Some "C"));
  sg_inputs := []; sg_variadic := false; sg_output := None |});
  (ItemFn [{| at_meta := (APath (Some "no_mangle")); at_outer := true |}; {| at_meta := (AList (Some "deprecated") [(ANameValue (Some
  "note") (Some "This is a note")); (ANameValue (Some "since") (Some "1.0.0"))]); at_outer := true |}] true {| sg_ident := "deprecated_with_note_and_since";
  sg_abi := (Some (Some "C")); sg_inputs := []; sg_variadic := false; sg_output := None |});
  (ItemFn [{| at_meta := (APath (Some "no_mangle")); at_outer := true |}; {| at_meta := (AList (Some "deprecated") [(ANameValue (Some
  "note") (Some "This quote "" requires to be quoted, and this [
] requires to be escaped"))]); at_outer := true |}] true {| sg_ident
  := "deprecated_with_note_which_requires_to_be_escaped"; sg_abi := (Some (Some "C")); sg_inputs := []; sg_variadic := false; sg_output
  := None |});
  (ItemEnum [{| at_meta := (AList (Some "repr") [(APath (Some "i32"))]); at_outer := true |}; {| at_meta := (APath (Some "deprecated"));
  at_outer := true |}] "DeprecatedEnum" [] [{| sv_attrs := []; sv_ident := "A"; sv_fields := FieldsUnit; sv_discriminant := (Some
  (XLit (LitInt 0 ""))) |}]);
  (ItemEnum [{| at_meta := (AList (Some "repr") [(APath (Some "i32"))]); at_outer := true |}; {| at_meta := (AList (Some "deprecated")
  [(ANameValue (Some "note") (Some "This is a note"))]); at_outer := true |}] "DeprecatedEnumWithNote" [] [{| sv_attrs := []; sv_ident
  := "B"; sv_fields := FieldsUnit; sv_discriminant := (Some (XLit (LitInt 0 ""))) |}]);
  (ItemEnum [{| at_meta := (AList (Some "repr") [(APath (Some "i32"))]); at_outer := true |}] "EnumWithDeprecatedVariants" [] [{| sv_attrs
  := []; sv_ident := "C"; sv_fields := FieldsUnit; sv_discriminant := (Some (XLit (LitInt 0 ""))) |}; {| sv_attrs := [{| at_meta :=
  (APath (Some "deprecated")); at_outer := true |}]; sv_ident := "D"; sv_fields := FieldsUnit; sv_discriminant := (Some (XLit (LitInt
  1 ""))) |}; {| sv_attrs := [{| at_meta := (AList (Some "deprecated") [(ANameValue (Some "note") (Some "This is a note"))]); at_outer
  := true |}]; sv_ident := "E"; sv_fields := FieldsUnit; sv_discriminant := (Some (XLit (LitInt 2 ""))) |}; {| sv_attrs := [{| at_meta
  := (AList (Some "deprecated") [(ANameValue (Some "note") (Some "This is a note")); (ANameValue (Some "since") (Some "1.0.0"))]);
  at_outer := true |}]; sv_ident := "F"; sv_fields := FieldsUnit; sv_discriminant := (Some (XLit (LitInt 3 ""))) |}]);
  (ItemEnum [{| at_meta := (AList (Some "repr") [(APath (Some "u8"))]); at_outer := true |}] "EnumWithDeprecatedStructVariants" [] [{|
  sv_attrs := []; sv_ident := "Foo"; sv_fields := (FieldsUnnamed [{| sf_attrs := []; sf_ident := None; sf_ty := (SPath (SegPath []
  "i16" NoArgs)) |}]); sv_discriminant := None |}; {| sv_attrs := [{| at_meta := (APath (Some "deprecated")); at_outer := true |}];
  sv_ident := "Bar"; sv_fields := (FieldsNamed [{| sf_attrs := []; sf_ident := (Some "x"); sf_ty := (SPath (SegPath [] "u8" NoArgs))
  |}; {| sf_attrs := []; sf_ident := (Some "y"); sf_ty := (SPath (SegPath [] "i16" NoArgs)) |}]); sv_discriminant := None |}; {| sv_attrs
  := [{| at_meta := (AList (Some "deprecated") [(ANameValue (Some "note") (Some "This is a note"))]); at_outer := true |}]; sv_ident
  := "Baz"; sv_fields := (FieldsNamed [{| sf_attrs := []; sf_ident := (Some "x"); sf_ty := (SPath (SegPath [] "u8" NoArgs)) |}; {|
  sf_attrs := []; sf_ident := (Some "y"); sf_ty := (SPath (SegPath [] "u8" NoArgs)) |}]); sv_discriminant := None |}]);
  (ItemStruct [{| at_meta := (AList (Some "repr") [(APath (Some "C"))]); at_outer := true |}; {| at_meta := (APath (Some "deprecated"));
  at_outer := true |}] "DeprecatedStruct" [] (FieldsNamed [{| sf_attrs := []; sf_ident := (Some "a"); sf_ty := (SPath (SegPath []
  "i32" NoArgs)) |}]));
  (ItemStruct [{| at_meta := (AList (Some "repr") [(APath (Some "C"))]); at_outer := true |}; {| at_meta := (AList (Some "deprecated")
  [(ANameValue (Some "note") (Some "This is a note"))]); at_outer := true |}] "DeprecatedStructWithNote" [] (FieldsNamed [{| sf_attrs
  := []; sf_ident := (Some "a"); sf_ty := (SPath (SegPath [] "i32" NoArgs)) |}]));
  (ItemFn [{| at_meta := (APath (Some "no_mangle")); at_outer := true |}] true {| sg_ident := "dummy"; sg_abi := (Some (Some "C"));
  sg_inputs := [(FnTyped (PatIdent "a") (SPath (SegPath [] "DeprecatedEnum" NoArgs))); (FnTyped (PatIdent "b") (SPath (SegPath []
  "DeprecatedEnumWithNote" NoArgs))); (FnTyped (PatIdent "c") (SPath (SegPath [] "EnumWithDeprecatedVariants" NoArgs))); (FnTyped
  (PatIdent "d") (SPath (SegPath [] "DeprecatedStruct" NoArgs))); (FnTyped (PatIdent "e") (SPath (SegPath [] "DeprecatedStructWithNote"
  NoArgs))); (FnTyped (PatIdent "f") (SPath (SegPath [] "EnumWithDeprecatedStructVariants" NoArgs)))]; sg_variadic := false; sg_output
  := (Some (SPath (SegPath [] "void" NoArgs))) |})].
Definition deprecated_toml : Config := {| header := (Some "#define DEPRECATED_FUNC __attribute__((deprecated))
#define DEPRECATED_STRUCT __attribute__((deprecated))
#define DEPRECATED_ENUM __attribute__((deprecated))
#define DEPRECATED_ENUM_VARIANT __attribute__((deprecated))
#define DEPRECATED_FUNC_WITH_NOTE(...) __attribute__((deprecated(__VA_ARGS__)))
#define DEPRECATED_STRUCT_WITH_NOTE(...) __attribute__((deprecated(__VA_ARGS__)))
#define DEPRECATED_ENUM_WITH_NOTE(...) __attribute__((deprecated(__VA_ARGS__)))
#define DEPRECATED_ENUM_VARIANT_WITH_NOTE(...) __attribute__((deprecated(__VA_ARGS__)))
"); includes_ := []; sys_includes_ := []; after_includes := None; trailer := None;
  include_guard_ := None; pragma_once := false; no_includes := false; package_version := false; autogen_warning := None; include_version := false;
  namespace := None; namespaces := None; using_namespaces := None; braces := SameLine; line_length := 100; tab_width := 2; line_endings := LF;
  language := Cxx; cpp_compat := false; style := Both; sort_by := SortNone; usize_is_size_t := false; parse := default_parse; export := {| ex_include := []; ex_exclude := []; ex_rename := []; ex_pre_body := []; ex_body := []; ex_prefix := None; ex_item_types := []; ex_renaming_overrides_prefixing := false; ex_mangle := {| rename_types := RNone; remove_underscores := false |} |};
  layout := {| ly_packed := None; ly_aligned_n := None |}; function := {| fn_prefix := None; fn_postfix := None; fn_must_use := None; fn_deprecated := (Some "DEPRECATED_FUNC"); fn_deprecated_with_note := (Some "DEPRECATED_FUNC_WITH_NOTE({})"); fn_args := Auto; fn_rename_args := RNone; fn_swift_name_macro := None; fn_sort_by := None; fn_no_return := None |}; structure := {| st_rename_fields := RNone; st_derive_constructor := false; st_derive_eq := false; st_derive_neq := false; st_derive_lt := false; st_derive_lte := false; st_derive_gt := false; st_derive_gte := false; st_derive_ostream := false; st_associated_constants_in_body := false; st_rename_associated_constant := RNone; st_must_use := None; st_deprecated := (Some "DEPRECATED_STRUCT"); st_deprecated_with_note := (Some "DEPRECATED_STRUCT_WITH_NOTE({})") |}; enumeration := {| en_rename_variants := RNone; en_rename_variant_name_fields := SnakeCase; en_add_sentinel := false; en_prefix_with_name := false; en_derive_helper_methods := false; en_derive_const_casts := false; en_derive_mut_casts := false; en_cast_assert_name := None; en_must_use := None; en_deprecated := (Some "DEPRECATED_ENUM"); en_deprecated_with_note := (Some "DEPRECATED_ENUM_WITH_NOTE({})"); en_deprecated_variant := (Some "DEPRECATED_ENUM_VARIANT"); en_deprecated_variant_with_note := (Some "DEPRECATED_ENUM_VARIANT_WITH_NOTE({})"); en_derive_tagged_enum_destructor := false; en_derive_tagged_enum_copy_constructor := false; en_derive_tagged_enum_copy_assignment := false; en_derive_ostream := false; en_enum_class := true; en_private_default_tagged_enum_constructor := false |}; constant := {| co_allow_static_const := true; co_allow_constexpr := true; co_sort_by := None |}; defines := []; documentation := true;
  documentation_style := DocAuto; documentation_length := Full; pointer := {| pt_non_null_attribute := None; pt_nullable_attribute := None |}; cython := {| cy_header := None; cy_cimports := [] |}; config_path := None |}.
(** tests/expectations/deprecated.compat.c *)
Definition deprecated_compat : string := "#define DEPRECATED_FUNC __attribute__((deprecated))
#define DEPRECATED_STRUCT __attribute__((deprecated))
#define DEPRECATED_ENUM __attribute__((deprecated))
#define DEPRECATED_ENUM_VARIANT __attribute__((deprecated))
#define DEPRECATED_FUNC_WITH_NOTE(...) __attribute__((deprecated(__VA_ARGS__)))
#define DEPRECATED_STRUCT_WITH_NOTE(...) __attribute__((deprecated(__VA_ARGS__)))
#define DEPRECATED_ENUM_WITH_NOTE(...) __attribute__((deprecated(__VA_ARGS__)))
#define DEPRECATED_ENUM_VARIANT_WITH_NOTE(...) __attribute__((deprecated(__VA_ARGS__)))


#include <stdarg.h>
#include <stdbool.h>
#include <stdint.h>
#include <stdlib.h>

enum DEPRECATED_ENUM DeprecatedEnum
#if defined(__cplusplus) || __STDC_VERSION__ >= 202311L
  : int32_t
#endif // defined(__cplusplus) || __STDC_VERSION__ >= 202311L
 {
  A = 0,
};
#ifndef __cplusplus
#if __STDC_VERSION__ >= 202311L
typedef enum DeprecatedEnum DeprecatedEnum;
#else
typedef int32_t DeprecatedEnum;
#endif // __STDC_VERSION__ >= 202311L
#endif // __cplusplus

enum DEPRECATED_ENUM_WITH_NOTE(""This is a note"") DeprecatedEnumWithNote
#if defined(__cplusplus) || __STDC_VERSION__ >= 202311L
  : int32_t
#endif // defined(__cplusplus) || __STDC_VERSION__ >= 202311L
 {
  B = 0,
};
#ifndef __cplusplus
#if __STDC_VERSION__ >= 202311L
typedef enum DeprecatedEnumWithNote DeprecatedEnumWithNote;
#else
typedef int32_t DeprecatedEnumWithNote;
#endif // __STDC_VERSION__ >= 202311L
#endif // __cplusplus

enum EnumWithDeprecatedVariants
#if defined(__cplusplus) || __STDC_VERSION__ >= 202311L
  : int32_t
#endif // defined(__cplusplus) || __STDC_VERSION__ >= 202311L
 {
  C = 0,
  D DEPRECATED_ENUM_VARIANT = 1,
  E DEPRECATED_ENUM_VARIANT_WITH_NOTE(""This is a note"") = 2,
  F DEPRECATED_ENUM_VARIANT_WITH_NOTE(""This is a note"") = 3,
};
#ifndef __cplusplus
#if __STDC_VERSION__ >= 202311L
typedef enum EnumWithDeprecatedVariants EnumWithDeprecatedVariants;
#else
typedef int32_t EnumWithDeprecatedVariants;
#endif // __STDC_VERSION__ >= 202311L
#endif // __cplusplus

typedef struct DEPRECATED_STRUCT {
  int32_t a;
} DeprecatedStruct;

typedef struct DEPRECATED_STRUCT_WITH_NOTE(""This is a note"") {
  int32_t a;
} DeprecatedStructWithNote;

enum EnumWithDeprecatedStructVariants_Tag
#if defined(__cplusplus) || __STDC_VERSION__ >= 202311L
  : uint8_t
#endif // defined(__cplusplus) || __STDC_VERSION__ >= 202311L
 {
  Foo,
  Bar DEPRECATED_ENUM_VARIANT,
  Baz DEPRECATED_ENUM_VARIANT_WITH_NOTE(""This is a note""),
};
#ifndef __cplusplus
#if __STDC_VERSION__ >= 202311L
typedef enum EnumWithDeprecatedStructVariants_Tag EnumWithDeprecatedStructVariants_Tag;
#else
typedef uint8_t EnumWithDeprecatedStructVariants_Tag;
#endif // __STDC_VERSION__ >= 202311L
#endif // __cplusplus

typedef struct DEPRECATED_STRUCT {
  EnumWithDeprecatedStructVariants_Tag tag;
  uint8_t x;
  int16_t y;
} Bar_Body;

typedef struct DEPRECATED_STRUCT_WITH_NOTE(""This is a note"") {
  EnumWithDeprecatedStructVariants_Tag tag;
  uint8_t x;
  uint8_t y;
} Baz_Body;

typedef union {
  EnumWithDeprecatedStructVariants_Tag tag;
  struct {
    EnumWithDeprecatedStructVariants_Tag foo_tag;
    int16_t foo;
  };
  Bar_Body bar;
  Baz_Body baz;
} EnumWithDeprecatedStructVariants;

#ifdef __cplusplus
extern ""C"" {
#endif // __cplusplus

DEPRECATED_FUNC void deprecated_without_note(void);

DEPRECATED_FUNC_WITH_NOTE(""This is a note"") void deprecated_without_bracket(void);

DEPRECATED_FUNC_WITH_NOTE(""This is a note"") void deprecated_with_note(void);

DEPRECATED_FUNC_WITH_NOTE(""This is a note"") void deprecated_with_note_and_since(void);

DEPRECATED_FUNC_WITH_NOTE(""This quote \"" requires to be quoted, and this [\n] requires to be escaped"")
void deprecated_with_note_which_requires_to_be_escaped(void);

void dummy(DeprecatedEnum a,
           DeprecatedEnumWithNote b,
           EnumWithDeprecatedVariants c,
           DeprecatedStruct d,
           DeprecatedStructWithNote e,
           EnumWithDeprecatedStructVariants f);

#ifdef __cplusplus
}  // extern ""C""
#endif  // __cplusplus
".
(** tests/expectations/deprecated_tag.compat.c *)
Definition deprecated_compat_tag : string := "#define DEPRECATED_FUNC __attribute__((deprecated))
#define DEPRECATED_STRUCT __attribute__((deprecated))
#define DEPRECATED_ENUM __attribute__((deprecated))
#define DEPRECATED_ENUM_VARIANT __attribute__((deprecated))
#define DEPRECATED_FUNC_WITH_NOTE(...) __attribute__((deprecated(__VA_ARGS__)))
#define DEPRECATED_STRUCT_WITH_NOTE(...) __attribute__((deprecated(__VA_ARGS__)))
#define DEPRECATED_ENUM_WITH_NOTE(...) __attribute__((deprecated(__VA_ARGS__)))
#define DEPRECATED_ENUM_VARIANT_WITH_NOTE(...) __attribute__((deprecated(__VA_ARGS__)))


#include <stdarg.h>
#include <stdbool.h>
#include <stdint.h>
#include <stdlib.h>

enum DEPRECATED_ENUM DeprecatedEnum
#if defined(__cplusplus) || __STDC_VERSION__ >= 202311L
  : int32_t
#endif // defined(__cplusplus) || __STDC_VERSION__ >= 202311L
 {
  A = 0,
};
#ifndef __cplusplus
#if __STDC_VERSION__ >= 202311L
typedef enum DeprecatedEnum DeprecatedEnum;
#else
typedef int32_t DeprecatedEnum;
#endif // __STDC_VERSION__ >= 202311L
#endif // __cplusplus

enum DEPRECATED_ENUM_WITH_NOTE(""This is a note"") DeprecatedEnumWithNote
#if defined(__cplusplus) || __STDC_VERSION__ >= 202311L
  : int32_t
#endif // defined(__cplusplus) || __STDC_VERSION__ >= 202311L
 {
  B = 0,
};
#ifndef __cplusplus
#if __STDC_VERSION__ >= 202311L
typedef enum DeprecatedEnumWithNote DeprecatedEnumWithNote;
#else
typedef int32_t DeprecatedEnumWithNote;
#endif // __STDC_VERSION__ >= 202311L
#endif // __cplusplus

enum EnumWithDeprecatedVariants
#if defined(__cplusplus) || __STDC_VERSION__ >= 202311L
  : int32_t
#endif // defined(__cplusplus) || __STDC_VERSION__ >= 202311L
 {
  C = 0,
  D DEPRECATED_ENUM_VARIANT = 1,
  E DEPRECATED_ENUM_VARIANT_WITH_NOTE(""This is a note"") = 2,
  F DEPRECATED_ENUM_VARIANT_WITH_NOTE(""This is a note"") = 3,
};
#ifndef __cplusplus
#if __STDC_VERSION__ >= 202311L
typedef enum EnumWithDeprecatedVariants EnumWithDeprecatedVariants;
#else
typedef int32_t EnumWithDeprecatedVariants;
#endif // __STDC_VERSION__ >= 202311L
#endif // __cplusplus

struct DEPRECATED_STRUCT DeprecatedStruct {
  int32_t a;
};

struct DEPRECATED_STRUCT_WITH_NOTE(""This is a note"") DeprecatedStructWithNote {
  int32_t a;
};

enum EnumWithDeprecatedStructVariants_Tag
#if defined(__cplusplus) || __STDC_VERSION__ >= 202311L
  : uint8_t
#endif // defined(__cplusplus) || __STDC_VERSION__ >= 202311L
 {
  Foo,
  Bar DEPRECATED_ENUM_VARIANT,
  Baz DEPRECATED_ENUM_VARIANT_WITH_NOTE(""This is a note""),
};
#ifndef __cplusplus
#if __STDC_VERSION__ >= 202311L
typedef enum EnumWithDeprecatedStructVariants_Tag EnumWithDeprecatedStructVariants_Tag;
#else
typedef uint8_t EnumWithDeprecatedStructVariants_Tag;
#endif // __STDC_VERSION__ >= 202311L
#endif // __cplusplus

struct DEPRECATED_STRUCT Bar_Body {
  EnumWithDeprecatedStructVariants_Tag tag;
  uint8_t x;
  int16_t y;
};

struct DEPRECATED_STRUCT_WITH_NOTE(""This is a note"") Baz_Body {
  EnumWithDeprecatedStructVariants_Tag tag;
  uint8_t x;
  uint8_t y;
};

union EnumWithDeprecatedStructVariants {
  EnumWithDeprecatedStructVariants_Tag tag;
  struct {
    EnumWithDeprecatedStructVariants_Tag foo_tag;
    int16_t foo;
  };
  struct Bar_Body bar;
  struct Baz_Body baz;
};

#ifdef __cplusplus
extern ""C"" {
#endif // __cplusplus

DEPRECATED_FUNC void deprecated_without_note(void);

DEPRECATED_FUNC_WITH_NOTE(""This is a note"") void deprecated_without_bracket(void);

DEPRECATED_FUNC_WITH_NOTE(""This is a note"") void deprecated_with_note(void);

DEPRECATED_FUNC_WITH_NOTE(""This is a note"") void deprecated_with_note_and_since(void);

DEPRECATED_FUNC_WITH_NOTE(""This quote \"" requires to be quoted, and this [\n] requires to be escaped"")
void deprecated_with_note_which_requires_to_be_escaped(void);

void dummy(DeprecatedEnum a,
           DeprecatedEnumWithNote b,
           EnumWithDeprecatedVariants c,
           struct DeprecatedStruct d,
           struct DeprecatedStructWithNote e,
           union EnumWithDeprecatedStructVariants f);

#ifdef __cplusplus
}  // extern ""C""
#endif  // __cplusplus
".
(** tests/expectations/deprecated_both.compat.c *)
Definition deprecated_compat_both : string := "#define DEPRECATED_FUNC __attribute__((deprecated))
#define DEPRECATED_STRUCT __attribute__((deprecated))
#define DEPRECATED_ENUM __attribute__((deprecated))
#define DEPRECATED_ENUM_VARIANT __attribute__((deprecated))
#define DEPRECATED_FUNC_WITH_NOTE(...) __attribute__((deprecated(__VA_ARGS__)))
#define DEPRECATED_STRUCT_WITH_NOTE(...) __attribute__((deprecated(__VA_ARGS__)))
#define DEPRECATED_ENUM_WITH_NOTE(...) __attribute__((deprecated(__VA_ARGS__)))
#define DEPRECATED_ENUM_VARIANT_WITH_NOTE(...) __attribute__((deprecated(__VA_ARGS__)))


#include <stdarg.h>
#include <stdbool.h>
#include <stdint.h>
#include <stdlib.h>

enum DEPRECATED_ENUM DeprecatedEnum
#if defined(__cplusplus) || __STDC_VERSION__ >= 202311L
  : int32_t
#endif // defined(__cplusplus) || __STDC_VERSION__ >= 202311L
 {
  A = 0,
};
#ifndef __cplusplus
#if __STDC_VERSION__ >= 202311L
typedef enum DeprecatedEnum DeprecatedEnum;
#else
typedef int32_t DeprecatedEnum;
#endif // __STDC_VERSION__ >= 202311L
#endif // __cplusplus

enum DEPRECATED_ENUM_WITH_NOTE(""This is a note"") DeprecatedEnumWithNote
#if defined(__cplusplus) || __STDC_VERSION__ >= 202311L
  : int32_t
#endif // defined(__cplusplus) || __STDC_VERSION__ >= 202311L
 {
  B = 0,
};
#ifndef __cplusplus
#if __STDC_VERSION__ >= 202311L
typedef enum DeprecatedEnumWithNote DeprecatedEnumWithNote;
#else
typedef int32_t DeprecatedEnumWithNote;
#endif // __STDC_VERSION__ >= 202311L
#endif // __cplusplus

enum EnumWithDeprecatedVariants
#if defined(__cplusplus) || __STDC_VERSION__ >= 202311L
  : int32_t
#endif // defined(__cplusplus) || __STDC_VERSION__ >= 202311L
 {
  C = 0,
  D DEPRECATED_ENUM_VARIANT = 1,
  E DEPRECATED_ENUM_VARIANT_WITH_NOTE(""This is a note"") = 2,
  F DEPRECATED_ENUM_VARIANT_WITH_NOTE(""This is a note"") = 3,
};
#ifndef __cplusplus
#if __STDC_VERSION__ >= 202311L
typedef enum EnumWithDeprecatedVariants EnumWithDeprecatedVariants;
#else
typedef int32_t EnumWithDeprecatedVariants;
#endif // __STDC_VERSION__ >= 202311L
#endif // __cplusplus

typedef struct DEPRECATED_STRUCT DeprecatedStruct {
  int32_t a;
} DeprecatedStruct;

typedef struct DEPRECATED_STRUCT_WITH_NOTE(""This is a note"") DeprecatedStructWithNote {
  int32_t a;
} DeprecatedStructWithNote;

enum EnumWithDeprecatedStructVariants_Tag
#if defined(__cplusplus) || __STDC_VERSION__ >= 202311L
  : uint8_t
#endif // defined(__cplusplus) || __STDC_VERSION__ >= 202311L
 {
  Foo,
  Bar DEPRECATED_ENUM_VARIANT,
  Baz DEPRECATED_ENUM_VARIANT_WITH_NOTE(""This is a note""),
};
#ifndef __cplusplus
#if __STDC_VERSION__ >= 202311L
typedef enum EnumWithDeprecatedStructVariants_Tag EnumWithDeprecatedStructVariants_Tag;
#else
typedef uint8_t EnumWithDeprecatedStructVariants_Tag;
#endif // __STDC_VERSION__ >= 202311L
#endif // __cplusplus

typedef struct DEPRECATED_STRUCT Bar_Body {
  EnumWithDeprecatedStructVariants_Tag tag;
  uint8_t x;
  int16_t y;
} Bar_Body;

typedef struct DEPRECATED_STRUCT_WITH_NOTE(""This is a note"") Baz_Body {
  EnumWithDeprecatedStructVariants_Tag tag;
  uint8_t x;
  uint8_t y;
} Baz_Body;

typedef union EnumWithDeprecatedStructVariants {
  EnumWithDeprecatedStructVariants_Tag tag;
  struct {
    EnumWithDeprecatedStructVariants_Tag foo_tag;
    int16_t foo;
  };
  Bar_Body bar;
  Baz_Body baz;
} EnumWithDeprecatedStructVariants;

#ifdef __cplusplus
extern ""C"" {
#endif // __cplusplus

DEPRECATED_FUNC void deprecated_without_note(void);

DEPRECATED_FUNC_WITH_NOTE(""This is a note"") void deprecated_without_bracket(void);

DEPRECATED_FUNC_WITH_NOTE(""This is a note"") void deprecated_with_note(void);

DEPRECATED_FUNC_WITH_NOTE(""This is a note"") void deprecated_with_note_and_since(void);

DEPRECATED_FUNC_WITH_NOTE(""This quote \"" requires to be quoted, and this [\n] requires to be escaped"")
void deprecated_with_note_which_requires_to_be_escaped(void);

void dummy(DeprecatedEnum a,
           DeprecatedEnumWithNote b,
           EnumWithDeprecatedVariants c,
           struct DeprecatedStruct d,
           struct DeprecatedStructWithNote e,
           union EnumWithDeprecatedStructVariants f);

#ifdef __cplusplus
}  // extern ""C""
#endif  // __cplusplus
".
(** tests/expectations/deprecated.c *)
Definition deprecated_c : string := "#define DEPRECATED_FUNC __attribute__((deprecated))
#define DEPRECATED_STRUCT __attribute__((deprecated))
#define DEPRECATED_ENUM __attribute__((deprecated))
#define DEPRECATED_ENUM_VARIANT __attribute__((deprecated))
#define DEPRECATED_FUNC_WITH_NOTE(...) __attribute__((deprecated(__VA_ARGS__)))
#define DEPRECATED_STRUCT_WITH_NOTE(...) __attribute__((deprecated(__VA_ARGS__)))
#define DEPRECATED_ENUM_WITH_NOTE(...) __attribute__((deprecated(__VA_ARGS__)))
#define DEPRECATED_ENUM_VARIANT_WITH_NOTE(...) __attribute__((deprecated(__VA_ARGS__)))


#include <stdarg.h>
#include <stdbool.h>
#include <stdint.h>
#include <stdlib.h>

enum DEPRECATED_ENUM DeprecatedEnum
#if __STDC_VERSION__ >= 202311L
  : int32_t
#endif // __STDC_VERSION__ >= 202311L
 {
  A = 0,
};
#if __STDC_VERSION__ >= 202311L
typedef enum DeprecatedEnum DeprecatedEnum;
#else
typedef int32_t DeprecatedEnum;
#endif // __STDC_VERSION__ >= 202311L

enum DEPRECATED_ENUM_WITH_NOTE(""This is a note"") DeprecatedEnumWithNote
#if __STDC_VERSION__ >= 202311L
  : int32_t
#endif // __STDC_VERSION__ >= 202311L
 {
  B = 0,
};
#if __STDC_VERSION__ >= 202311L
typedef enum DeprecatedEnumWithNote DeprecatedEnumWithNote;
#else
typedef int32_t DeprecatedEnumWithNote;
#endif // __STDC_VERSION__ >= 202311L

enum EnumWithDeprecatedVariants
#if __STDC_VERSION__ >= 202311L
  : int32_t
#endif // __STDC_VERSION__ >= 202311L
 {
  C = 0,
  D DEPRECATED_ENUM_VARIANT = 1,
  E DEPRECATED_ENUM_VARIANT_WITH_NOTE(""This is a note"") = 2,
  F DEPRECATED_ENUM_VARIANT_WITH_NOTE(""This is a note"") = 3,
};
#if __STDC_VERSION__ >= 202311L
typedef enum EnumWithDeprecatedVariants EnumWithDeprecatedVariants;
#else
typedef int32_t EnumWithDeprecatedVariants;
#endif // __STDC_VERSION__ >= 202311L

typedef struct DEPRECATED_STRUCT {
  int32_t a;
} DeprecatedStruct;

typedef struct DEPRECATED_STRUCT_WITH_NOTE(""This is a note"") {
  int32_t a;
} DeprecatedStructWithNote;

enum EnumWithDeprecatedStructVariants_Tag
#if __STDC_VERSION__ >= 202311L
  : uint8_t
#endif // __STDC_VERSION__ >= 202311L
 {
  Foo,
  Bar DEPRECATED_ENUM_VARIANT,
  Baz DEPRECATED_ENUM_VARIANT_WITH_NOTE(""This is a note""),
};
#if __STDC_VERSION__ >= 202311L
typedef enum EnumWithDeprecatedStructVariants_Tag EnumWithDeprecatedStructVariants_Tag;
#else
typedef uint8_t EnumWithDeprecatedStructVariants_Tag;
#endif // __STDC_VERSION__ >= 202311L

typedef struct DEPRECATED_STRUCT {
  EnumWithDeprecatedStructVariants_Tag tag;
  uint8_t x;
  int16_t y;
} Bar_Body;

typedef struct DEPRECATED_STRUCT_WITH_NOTE(""This is a note"") {
  EnumWithDeprecatedStructVariants_Tag tag;
  uint8_t x;
  uint8_t y;
} Baz_Body;

typedef union {
  EnumWithDeprecatedStructVariants_Tag tag;
  struct {
    EnumWithDeprecatedStructVariants_Tag foo_tag;
    int16_t foo;
  };
  Bar_Body bar;
  Baz_Body baz;
} EnumWithDeprecatedStructVariants;

DEPRECATED_FUNC void deprecated_without_note(void);

DEPRECATED_FUNC_WITH_NOTE(""This is a note"") void deprecated_without_bracket(void);

DEPRECATED_FUNC_WITH_NOTE(""This is a note"") void deprecated_with_note(void);

DEPRECATED_FUNC_WITH_NOTE(""This is a note"") void deprecated_with_note_and_since(void);

DEPRECATED_FUNC_WITH_NOTE(""This quote \"" requires to be quoted, and this [\n] requires to be escaped"")
void deprecated_with_note_which_requires_to_be_escaped(void);

void dummy(DeprecatedEnum a,
           DeprecatedEnumWithNote b,
           EnumWithDeprecatedVariants c,
           DeprecatedStruct d,
           DeprecatedStructWithNote e,
           EnumWithDeprecatedStructVariants f);
".
(** tests/expectations/deprecated_tag.c *)
Definition deprecated_c_tag : string := "#define DEPRECATED_FUNC __attribute__((deprecated))
#define DEPRECATED_STRUCT __attribute__((deprecated))
#define DEPRECATED_ENUM __attribute__((deprecated))
#define DEPRECATED_ENUM_VARIANT __attribute__((deprecated))
#define DEPRECATED_FUNC_WITH_NOTE(...) __attribute__((deprecated(__VA_ARGS__)))
#define DEPRECATED_STRUCT_WITH_NOTE(...) __attribute__((deprecated(__VA_ARGS__)))
#define DEPRECATED_ENUM_WITH_NOTE(...) __attribute__((deprecated(__VA_ARGS__)))
#define DEPRECATED_ENUM_VARIANT_WITH_NOTE(...) __attribute__((deprecated(__VA_ARGS__)))


#include <stdarg.h>
#include <stdbool.h>
#include <stdint.h>
#include <stdlib.h>

enum DEPRECATED_ENUM DeprecatedEnum
#if __STDC_VERSION__ >= 202311L
  : int32_t
#endif // __STDC_VERSION__ >= 202311L
 {
  A = 0,
};
#if __STDC_VERSION__ >= 202311L
typedef enum DeprecatedEnum DeprecatedEnum;
#else
typedef int32_t DeprecatedEnum;
#endif // __STDC_VERSION__ >= 202311L

enum DEPRECATED_ENUM_WITH_NOTE(""This is a note"") DeprecatedEnumWithNote
#if __STDC_VERSION__ >= 202311L
  : int32_t
#endif // __STDC_VERSION__ >= 202311L
 {
  B = 0,
};
#if __STDC_VERSION__ >= 202311L
typedef enum DeprecatedEnumWithNote DeprecatedEnumWithNote;
#else
typedef int32_t DeprecatedEnumWithNote;
#endif // __STDC_VERSION__ >= 202311L

enum EnumWithDeprecatedVariants
#if __STDC_VERSION__ >= 202311L
  : int32_t
#endif // __STDC_VERSION__ >= 202311L
 {
  C = 0,
  D DEPRECATED_ENUM_VARIANT = 1,
  E DEPRECATED_ENUM_VARIANT_WITH_NOTE(""This is a note"") = 2,
  F DEPRECATED_ENUM_VARIANT_WITH_NOTE(""This is a note"") = 3,
};
#if __STDC_VERSION__ >= 202311L
typedef enum EnumWithDeprecatedVariants EnumWithDeprecatedVariants;
#else
typedef int32_t EnumWithDeprecatedVariants;
#endif // __STDC_VERSION__ >= 202311L

struct DEPRECATED_STRUCT DeprecatedStruct {
  int32_t a;
};

struct DEPRECATED_STRUCT_WITH_NOTE(""This is a note"") DeprecatedStructWithNote {
  int32_t a;
};

enum EnumWithDeprecatedStructVariants_Tag
#if __STDC_VERSION__ >= 202311L
  : uint8_t
#endif // __STDC_VERSION__ >= 202311L
 {
  Foo,
  Bar DEPRECATED_ENUM_VARIANT,
  Baz DEPRECATED_ENUM_VARIANT_WITH_NOTE(""This is a note""),
};
#if __STDC_VERSION__ >= 202311L
typedef enum EnumWithDeprecatedStructVariants_Tag EnumWithDeprecatedStructVariants_Tag;
#else
typedef uint8_t EnumWithDeprecatedStructVariants_Tag;
#endif // __STDC_VERSION__ >= 202311L

struct DEPRECATED_STRUCT Bar_Body {
  EnumWithDeprecatedStructVariants_Tag tag;
  uint8_t x;
  int16_t y;
};

struct DEPRECATED_STRUCT_WITH_NOTE(""This is a note"") Baz_Body {
  EnumWithDeprecatedStructVariants_Tag tag;
  uint8_t x;
  uint8_t y;
};

union EnumWithDeprecatedStructVariants {
  EnumWithDeprecatedStructVariants_Tag tag;
  struct {
    EnumWithDeprecatedStructVariants_Tag foo_tag;
    int16_t foo;
  };
  struct Bar_Body bar;
  struct Baz_Body baz;
};

DEPRECATED_FUNC void deprecated_without_note(void);

DEPRECATED_FUNC_WITH_NOTE(""This is a note"") void deprecated_without_bracket(void);

DEPRECATED_FUNC_WITH_NOTE(""This is a note"") void deprecated_with_note(void);

DEPRECATED_FUNC_WITH_NOTE(""This is a note"") void deprecated_with_note_and_since(void);

DEPRECATED_FUNC_WITH_NOTE(""This quote \"" requires to be quoted, and this [\n] requires to be escaped"")
void deprecated_with_note_which_requires_to_be_escaped(void);

void dummy(DeprecatedEnum a,
           DeprecatedEnumWithNote b,
           EnumWithDeprecatedVariants c,
           struct DeprecatedStruct d,
           struct DeprecatedStructWithNote e,
           union EnumWithDeprecatedStructVariants f);
".
(** tests/expectations/deprecated_both.c *)
Definition deprecated_c_both : string := "#define DEPRECATED_FUNC __attribute__((deprecated))
#define DEPRECATED_STRUCT __attribute__((deprecated))
#define DEPRECATED_ENUM __attribute__((deprecated))
#define DEPRECATED_ENUM_VARIANT __attribute__((deprecated))
#define DEPRECATED_FUNC_WITH_NOTE(...) __attribute__((deprecated(__VA_ARGS__)))
#define DEPRECATED_STRUCT_WITH_NOTE(...) __attribute__((deprecated(__VA_ARGS__)))
#define DEPRECATED_ENUM_WITH_NOTE(...) __attribute__((deprecated(__VA_ARGS__)))
#define DEPRECATED_ENUM_VARIANT_WITH_NOTE(...) __attribute__((deprecated(__VA_ARGS__)))


#include <stdarg.h>
#include <stdbool.h>
#include <stdint.h>
#include <stdlib.h>

enum DEPRECATED_ENUM DeprecatedEnum
#if __STDC_VERSION__ >= 202311L
  : int32_t
#endif // __STDC_VERSION__ >= 202311L
 {
  A = 0,
};
#if __STDC_VERSION__ >= 202311L
typedef enum DeprecatedEnum DeprecatedEnum;
#else
typedef int32_t DeprecatedEnum;
#endif // __STDC_VERSION__ >= 202311L

enum DEPRECATED_ENUM_WITH_NOTE(""This is a note"") DeprecatedEnumWithNote
#if __STDC_VERSION__ >= 202311L
  : int32_t
#endif // __STDC_VERSION__ >= 202311L
 {
  B = 0,
};
#if __STDC_VERSION__ >= 202311L
typedef enum DeprecatedEnumWithNote DeprecatedEnumWithNote;
#else
typedef int32_t DeprecatedEnumWithNote;
#endif // __STDC_VERSION__ >= 202311L

enum EnumWithDeprecatedVariants
#if __STDC_VERSION__ >= 202311L
  : int32_t
#endif // __STDC_VERSION__ >= 202311L
 {
  C = 0,
  D DEPRECATED_ENUM_VARIANT = 1,
  E DEPRECATED_ENUM_VARIANT_WITH_NOTE(""This is a note"") = 2,
  F DEPRECATED_ENUM_VARIANT_WITH_NOTE(""This is a note"") = 3,
};
#if __STDC_VERSION__ >= 202311L
typedef enum EnumWithDeprecatedVariants EnumWithDeprecatedVariants;
#else
typedef int32_t EnumWithDeprecatedVariants;
#endif // __STDC_VERSION__ >= 202311L

typedef struct DEPRECATED_STRUCT DeprecatedStruct {
  int32_t a;
} DeprecatedStruct;

typedef struct DEPRECATED_STRUCT_WITH_NOTE(""This is a note"") DeprecatedStructWithNote {
  int32_t a;
} DeprecatedStructWithNote;

enum EnumWithDeprecatedStructVariants_Tag
#if __STDC_VERSION__ >= 202311L
  : uint8_t
#endif // __STDC_VERSION__ >= 202311L
 {
  Foo,
  Bar DEPRECATED_ENUM_VARIANT,
  Baz DEPRECATED_ENUM_VARIANT_WITH_NOTE(""This is a note""),
};
#if __STDC_VERSION__ >= 202311L
typedef enum EnumWithDeprecatedStructVariants_Tag EnumWithDeprecatedStructVariants_Tag;
#else
typedef uint8_t EnumWithDeprecatedStructVariants_Tag;
#endif // __STDC_VERSION__ >= 202311L

typedef struct DEPRECATED_STRUCT Bar_Body {
  EnumWithDeprecatedStructVariants_Tag tag;
  uint8_t x;
  int16_t y;
} Bar_Body;

typedef struct DEPRECATED_STRUCT_WITH_NOTE(""This is a note"") Baz_Body {
  EnumWithDeprecatedStructVariants_Tag tag;
  uint8_t x;
  uint8_t y;
} Baz_Body;

typedef union EnumWithDeprecatedStructVariants {
  EnumWithDeprecatedStructVariants_Tag tag;
  struct {
    EnumWithDeprecatedStructVariants_Tag foo_tag;
    int16_t foo;
  };
  Bar_Body bar;
  Baz_Body baz;
} EnumWithDeprecatedStructVariants;

DEPRECATED_FUNC void deprecated_without_note(void);

DEPRECATED_FUNC_WITH_NOTE(""This is a note"") void deprecated_without_bracket(void);

DEPRECATED_FUNC_WITH_NOTE(""This is a note"") void deprecated_with_note(void);

DEPRECATED_FUNC_WITH_NOTE(""This is a note"") void deprecated_with_note_and_since(void);

DEPRECATED_FUNC_WITH_NOTE(""This quote \"" requires to be quoted, and this [\n] requires to be escaped"")
void deprecated_with_note_which_requires_to_be_escaped(void);

void dummy(DeprecatedEnum a,
           DeprecatedEnumWithNote b,
           EnumWithDeprecatedVariants c,
           struct DeprecatedStruct d,
           struct DeprecatedStructWithNote e,
           union EnumWithDeprecatedStructVariants f);
".
(** tests/expectations/deprecated.cpp *)
Definition deprecated_cpp : string := "#define DEPRECATED_FUNC __attribute__((deprecated))
#define DEPRECATED_STRUCT __attribute__((deprecated))
#define DEPRECATED_ENUM __attribute__((deprecated))
#define DEPRECATED_ENUM_VARIANT __attribute__((deprecated))
#define DEPRECATED_FUNC_WITH_NOTE(...) __attribute__((deprecated(__VA_ARGS__)))
#define DEPRECATED_STRUCT_WITH_NOTE(...) __attribute__((deprecated(__VA_ARGS__)))
#define DEPRECATED_ENUM_WITH_NOTE(...) __attribute__((deprecated(__VA_ARGS__)))
#define DEPRECATED_ENUM_VARIANT_WITH_NOTE(...) __attribute__((deprecated(__VA_ARGS__)))


#include <cstdarg>
#include <cstdint>
#include <cstdlib>
#include <ostream>
#include <new>

enum class DEPRECATED_ENUM DeprecatedEnum : int32_t {
  A = 0,
};

enum class DEPRECATED_ENUM_WITH_NOTE(""This is a note"") DeprecatedEnumWithNote : int32_t {
  B = 0,
};

enum class EnumWithDeprecatedVariants : int32_t {
  C = 0,
  D DEPRECATED_ENUM_VARIANT = 1,
  E DEPRECATED_ENUM_VARIANT_WITH_NOTE(""This is a note"") = 2,
  F DEPRECATED_ENUM_VARIANT_WITH_NOTE(""This is a note"") = 3,
};

struct DEPRECATED_STRUCT DeprecatedStruct {
  int32_t a;
};

struct DEPRECATED_STRUCT_WITH_NOTE(""This is a note"") DeprecatedStructWithNote {
  int32_t a;
};

union EnumWithDeprecatedStructVariants {
  enum class Tag : uint8_t {
    Foo,
    Bar DEPRECATED_ENUM_VARIANT,
    Baz DEPRECATED_ENUM_VARIANT_WITH_NOTE(""This is a note""),
  };

  struct Foo_Body {
    Tag tag;
    int16_t _0;
  };

  struct DEPRECATED_STRUCT Bar_Body {
    Tag tag;
    uint8_t x;
    int16_t y;
  };

  struct DEPRECATED_STRUCT_WITH_NOTE(""This is a note"") Baz_Body {
    Tag tag;
    uint8_t x;
    uint8_t y;
  };

  struct {
    Tag tag;
  };
  Foo_Body foo;
  Bar_Body bar;
  Baz_Body baz;
};

extern ""C"" {

DEPRECATED_FUNC void deprecated_without_note();

DEPRECATED_FUNC_WITH_NOTE(""This is a note"") void deprecated_without_bracket();

DEPRECATED_FUNC_WITH_NOTE(""This is a note"") void deprecated_with_note();

DEPRECATED_FUNC_WITH_NOTE(""This is a note"") void deprecated_with_note_and_since();

DEPRECATED_FUNC_WITH_NOTE(""This quote \"" requires to be quoted, and this [\n] requires to be escaped"")
void deprecated_with_note_which_requires_to_be_escaped();

void dummy(DeprecatedEnum a,
           DeprecatedEnumWithNote b,
           EnumWithDeprecatedVariants c,
           DeprecatedStruct d,
           DeprecatedStructWithNote e,
           EnumWithDeprecatedStructVariants f);

}  // extern ""C""
".
(** tests/expectations/deprecated.pyx *)
Definition deprecated_pyx : string := "#define DEPRECATED_FUNC __attribute__((deprecated))
#define DEPRECATED_STRUCT __attribute__((deprecated))
#define DEPRECATED_ENUM __attribute__((deprecated))
#define DEPRECATED_ENUM_VARIANT __attribute__((deprecated))
#define DEPRECATED_FUNC_WITH_NOTE(...) __attribute__((deprecated(__VA_ARGS__)))
#define DEPRECATED_STRUCT_WITH_NOTE(...) __attribute__((deprecated(__VA_ARGS__)))
#define DEPRECATED_ENUM_WITH_NOTE(...) __attribute__((deprecated(__VA_ARGS__)))
#define DEPRECATED_ENUM_VARIANT_WITH_NOTE(...) __attribute__((deprecated(__VA_ARGS__)))


from libc.stdint cimport int8_t, int16_t, int32_t, int64_t, intptr_t
from libc.stdint cimport uint8_t, uint16_t, uint32_t, uint64_t, uintptr_t
cdef extern from *:
  ctypedef bint bool
  ctypedef struct va_list

cdef extern from *:

  cdef enum:
    A # = 0,
  ctypedef int32_t DeprecatedEnum;

  cdef enum:
    B # = 0,
  ctypedef int32_t DeprecatedEnumWithNote;

  cdef enum:
    C # = 0,
    D # = 1,
    E # = 2,
    F # = 3,
  ctypedef int32_t EnumWithDeprecatedVariants;

  ctypedef struct DeprecatedStruct:
    int32_t a;

  ctypedef struct DeprecatedStructWithNote:
    int32_t a;

  cdef enum:
    Foo,
    Bar,
    Baz,
  ctypedef uint8_t EnumWithDeprecatedStructVariants_Tag;

  ctypedef struct Bar_Body:
    EnumWithDeprecatedStructVariants_Tag tag;
    uint8_t x;
    int16_t y;

  ctypedef struct Baz_Body:
    EnumWithDeprecatedStructVariants_Tag tag;
    uint8_t x;
    uint8_t y;

  ctypedef union EnumWithDeprecatedStructVariants:
    EnumWithDeprecatedStructVariants_Tag tag;
    int16_t foo;
    Bar_Body bar;
    Baz_Body baz;

  void deprecated_without_note();

  void deprecated_without_bracket();

  void deprecated_with_note();

  void deprecated_with_note_and_since();

  void deprecated_with_note_which_requires_to_be_escaped();

  void dummy(DeprecatedEnum a,
             DeprecatedEnumWithNote b,
             EnumWithDeprecatedVariants c,
             DeprecatedStruct d,
             DeprecatedStructWithNote e,
             EnumWithDeprecatedStructVariants f);
".
(** tests/expectations/deprecated_tag.pyx *)
Definition deprecated_pyx_tag : string := "#define DEPRECATED_FUNC __attribute__((deprecated))
#define DEPRECATED_STRUCT __attribute__((deprecated))
#define DEPRECATED_ENUM __attribute__((deprecated))
#define DEPRECATED_ENUM_VARIANT __attribute__((deprecated))
#define DEPRECATED_FUNC_WITH_NOTE(...) __attribute__((deprecated(__VA_ARGS__)))
#define DEPRECATED_STRUCT_WITH_NOTE(...) __attribute__((deprecated(__VA_ARGS__)))
#define DEPRECATED_ENUM_WITH_NOTE(...) __attribute__((deprecated(__VA_ARGS__)))
#define DEPRECATED_ENUM_VARIANT_WITH_NOTE(...) __attribute__((deprecated(__VA_ARGS__)))


from libc.stdint cimport int8_t, int16_t, int32_t, int64_t, intptr_t
from libc.stdint cimport uint8_t, uint16_t, uint32_t, uint64_t, uintptr_t
cdef extern from *:
  ctypedef bint bool
  ctypedef struct va_list

cdef extern from *:

  cdef enum:
    A # = 0,
  ctypedef int32_t DeprecatedEnum;

  cdef enum:
    B # = 0,
  ctypedef int32_t DeprecatedEnumWithNote;

  cdef enum:
    C # = 0,
    D # = 1,
    E # = 2,
    F # = 3,
  ctypedef int32_t EnumWithDeprecatedVariants;

  cdef struct DeprecatedStruct:
    int32_t a;

  cdef struct DeprecatedStructWithNote:
    int32_t a;

  cdef enum:
    Foo,
    Bar,
    Baz,
  ctypedef uint8_t EnumWithDeprecatedStructVariants_Tag;

  cdef struct Bar_Body:
    EnumWithDeprecatedStructVariants_Tag tag;
    uint8_t x;
    int16_t y;

  cdef struct Baz_Body:
    EnumWithDeprecatedStructVariants_Tag tag;
    uint8_t x;
    uint8_t y;

  cdef union EnumWithDeprecatedStructVariants:
    EnumWithDeprecatedStructVariants_Tag tag;
    int16_t foo;
    Bar_Body bar;
    Baz_Body baz;

  void deprecated_without_note();

  void deprecated_without_bracket();

  void deprecated_with_note();

  void deprecated_with_note_and_since();

  void deprecated_with_note_which_requires_to_be_escaped();

  void dummy(DeprecatedEnum a,
             DeprecatedEnumWithNote b,
             EnumWithDeprecatedVariants c,
             DeprecatedStruct d,
             DeprecatedStructWithNote e,
             EnumWithDeprecatedStructVariants f);
".
Example deprecated_reproduced : reproduces (in_file deprecated_rs) false deprecated_toml (Some "{
deprecated_without_note;
deprecated_without_bracket;
deprecated_with_note;
deprecated_with_note_and_since;
deprecated_with_note_which_requires_to_be_escaped;
dummy;
};")
  [(RunC true Type_, [deprecated_compat]);
   (RunC true Tag, [deprecated_compat_tag]);
   (RunC true Both, [deprecated_compat_both]);
   (RunC false Type_, [deprecated_c]);
   (RunC false Tag, [deprecated_c_tag]);
   (RunC false Both, [deprecated_c_both]);
   (RunCxx, [deprecated_cpp]);
   (RunCython Type_, [deprecated_pyx]);
   (RunCython Tag, [deprecated_pyx_tag])] = true.
Proof. vm_compute. reflexivity. Qed.

(** ** tests/rust/derive_ostream.rs *)
Definition derive_ostream_rs : list sitem := [
  (ItemStruct [{| at_meta := ANameValue (Some "doc") (Some " cbindgen:derive-ostream"); at_outer := true |}; {| at_meta := (AList (Some
  "repr") [(APath (Some "C"))]); at_outer := true |}] "A" [] (FieldsUnnamed [{| sf_attrs := []; sf_ident := None; sf_ty := (SPath
  (SegPath [] "i32" NoArgs)) |}]));
  (ItemStruct [{| at_meta := ANameValue (Some "doc") (Some " cbindgen:field-names=[x, y]"); at_outer := true |}; {| at_meta := ANameValue
  (Some "doc") (Some " cbindgen:derive-ostream"); at_outer := true |}; {| at_meta := (AList (Some "repr") [(APath (Some "C"))]); at_outer
  := true |}] "B" [] (FieldsUnnamed [{| sf_attrs := []; sf_ident := None; sf_ty := (SPath (SegPath [] "i32" NoArgs)) |}; {| sf_attrs
  := []; sf_ident := None; sf_ty := (SPath (SegPath [] "f32" NoArgs)) |}]));
  (ItemEnum [{| at_meta := ANameValue (Some "doc") (Some " cbindgen:derive-ostream"); at_outer := true |}; {| at_meta := (AList (Some
  "repr") [(APath (Some "u32"))]); at_outer := true |}] "C" [] [{| sv_attrs := []; sv_ident := "X"; sv_fields := FieldsUnit; sv_discriminant
  := (Some (XLit (LitInt 2 ""))) |}; {| sv_attrs := []; sv_ident := "Y"; sv_fields := FieldsUnit; sv_discriminant := None |}]);
  (ItemStruct [{| at_meta := ANameValue (Some "doc") (Some " cbindgen:derive-ostream"); at_outer := true |}; {| at_meta := (AList (Some
  "repr") [(APath (Some "C"))]); at_outer := true |}] "D" [] (FieldsNamed [{| sf_attrs := []; sf_ident := (Some "List"); sf_ty :=
  (SPath (SegPath [] "u8" NoArgs)) |}; {| sf_attrs := []; sf_ident := (Some "Of"); sf_ty := (SPath (SegPath [] "usize" NoArgs)) |};
  {| sf_attrs := []; sf_ident := (Some "Things"); sf_ty := (SPath (SegPath [] "B" NoArgs)) |}]));
  (ItemEnum [{| at_meta := ANameValue (Some "doc") (Some " cbindgen:derive-ostream"); at_outer := true |}; {| at_meta := (AList (Some
  "repr") [(APath (Some "u8"))]); at_outer := true |}] "F" [] [{| sv_attrs := []; sv_ident := "Foo"; sv_fields := (FieldsUnnamed [{|
  sf_attrs := []; sf_ident := None; sf_ty := (SPath (SegPath [] "i16" NoArgs)) |}]); sv_discriminant := None |}; {| sv_attrs := [];
  sv_ident := "Bar"; sv_fields := (FieldsNamed [{| sf_attrs := []; sf_ident := (Some "x"); sf_ty := (SPath (SegPath [] "u8" NoArgs))
  |}; {| sf_attrs := []; sf_ident := (Some "y"); sf_ty := (SPath (SegPath [] "i16" NoArgs)) |}]); sv_discriminant := None |}; {| sv_attrs
  := []; sv_ident := "Baz"; sv_fields := FieldsUnit; sv_discriminant := None |}]);
  (ItemEnum [{| at_meta := ANameValue (Some "doc") (Some " cbindgen:derive-ostream"); at_outer := true |}; {| at_meta := (AList (Some
  "repr") [(APath (Some "C")); (APath (Some "u8"))]); at_outer := true |}] "H" [] [{| sv_attrs := []; sv_ident := "Hello"; sv_fields
  := (FieldsUnnamed [{| sf_attrs := []; sf_ident := None; sf_ty := (SPath (SegPath [] "i16" NoArgs)) |}]); sv_discriminant := None
  |}; {| sv_attrs := []; sv_ident := "There"; sv_fields := (FieldsNamed [{| sf_attrs := []; sf_ident := (Some "x"); sf_ty := (SPath
  (SegPath [] "u8" NoArgs)) |}; {| sf_attrs := []; sf_ident := (Some "y"); sf_ty := (SPath (SegPath [] "i16" NoArgs)) |}]); sv_discriminant
  := None |}; {| sv_attrs := []; sv_ident := "Everyone"; sv_fields := FieldsUnit; sv_discriminant := None |}]);
  (ItemEnum [{| at_meta := ANameValue (Some "doc") (Some " cbindgen:derive-ostream=false"); at_outer := true |}; {| at_meta := (AList
  (Some "repr") [(APath (Some "C")); (APath (Some "u8"))]); at_outer := true |}] "I" [] [{| sv_attrs := [{| at_meta := ANameValue
  (Some "doc") (Some " cbindgen:derive-ostream=true"); at_outer := true |}]; sv_ident := "ThereAgain"; sv_fields := (FieldsNamed [{|
  sf_attrs := []; sf_ident := (Some "x"); sf_ty := (SPath (SegPath [] "u8" NoArgs)) |}; {| sf_attrs := []; sf_ident := (Some "y");
  sf_ty := (SPath (SegPath [] "i16" NoArgs)) |}]); sv_discriminant := None |}; {| sv_attrs := []; sv_ident := "SomethingElse"; sv_fields
  := FieldsUnit; sv_discriminant := None |}]);
  (ItemFn [{| at_meta := (APath (Some "no_mangle")); at_outer := true |}] true {| sg_ident := "root"; sg_abi := (Some (Some "C")); sg_inputs
  := [(FnTyped (PatIdent "a") (SPath (SegPath [] "A" NoArgs))); (FnTyped (PatIdent "b") (SPath (SegPath [] "B" NoArgs))); (FnTyped
  (PatIdent "c") (SPath (SegPath [] "C" NoArgs))); (FnTyped (PatIdent "d") (SPath (SegPath [] "D" NoArgs))); (FnTyped (PatIdent "f")
  (SPath (SegPath [] "F" NoArgs))); (FnTyped (PatIdent "h") (SPath (SegPath [] "H" NoArgs))); (FnTyped (PatIdent "i") (SPath (SegPath
  [] "I" NoArgs)))]; sg_variadic := false; sg_output := None |})].
(** tests/expectations/derive_ostream.compat.c *)
Definition derive_ostream_compat : string := "#include <stdarg.h>
#include <stdbool.h>
#include <stdint.h>
#include <stdlib.h>

enum C
#if defined(__cplusplus) || __STDC_VERSION__ >= 202311L
  : uint32_t
#endif // defined(__cplusplus) || __STDC_VERSION__ >= 202311L
 {
  X = 2,
  Y,
};
#ifndef __cplusplus
#if __STDC_VERSION__ >= 202311L
typedef enum C C;
#else
typedef uint32_t C;
#endif // __STDC_VERSION__ >= 202311L
#endif // __cplusplus

typedef struct {
  int32_t _0;
} A;

typedef struct {
  int32_t x;
  float y;
} B;

typedef struct {
  uint8_t List;
  uintptr_t Of;
  B Things;
} D;

enum F_Tag
#if defined(__cplusplus) || __STDC_VERSION__ >= 202311L
  : uint8_t
#endif // defined(__cplusplus) || __STDC_VERSION__ >= 202311L
 {
  Foo,
  Bar,
  Baz,
};
#ifndef __cplusplus
#if __STDC_VERSION__ >= 202311L
typedef enum F_Tag F_Tag;
#else
typedef uint8_t F_Tag;
#endif // __STDC_VERSION__ >= 202311L
#endif // __cplusplus

typedef struct {
  F_Tag tag;
  uint8_t x;
  int16_t y;
} Bar_Body;

typedef union {
  F_Tag tag;
  struct {
    F_Tag foo_tag;
    int16_t foo;
  };
  Bar_Body bar;
} F;

enum H_Tag
#if defined(__cplusplus) || __STDC_VERSION__ >= 202311L
  : uint8_t
#endif // defined(__cplusplus) || __STDC_VERSION__ >= 202311L
 {
  Hello,
  There,
  Everyone,
};
#ifndef __cplusplus
#if __STDC_VERSION__ >= 202311L
typedef enum H_Tag H_Tag;
#else
typedef uint8_t H_Tag;
#endif // __STDC_VERSION__ >= 202311L
#endif // __cplusplus

typedef struct {
  uint8_t x;
  int16_t y;
} There_Body;

typedef struct {
  H_Tag tag;
  union {
    struct {
      int16_t hello;
    };
    There_Body there;
  };
} H;

enum I_Tag
#if defined(__cplusplus) || __STDC_VERSION__ >= 202311L
  : uint8_t
#endif // defined(__cplusplus) || __STDC_VERSION__ >= 202311L
 {
  ThereAgain,
  SomethingElse,
};
#ifndef __cplusplus
#if __STDC_VERSION__ >= 202311L
typedef enum I_Tag I_Tag;
#else
typedef uint8_t I_Tag;
#endif // __STDC_VERSION__ >= 202311L
#endif // __cplusplus

typedef struct {
  uint8_t x;
  int16_t y;
} ThereAgain_Body;

typedef struct {
  I_Tag tag;
  union {
    ThereAgain_Body there_again;
  };
} I;

#ifdef __cplusplus
extern ""C"" {
#endif // __cplusplus

void root(A a, B b, C c, D d, F f, H h, I i);

#ifdef __cplusplus
}  // extern ""C""
#endif  // __cplusplus
".
(** tests/expectations/derive_ostream_tag.compat.c *)
Definition derive_ostream_compat_tag : string := "#include <stdarg.h>
#include <stdbool.h>
#include <stdint.h>
#include <stdlib.h>

enum C
#if defined(__cplusplus) || __STDC_VERSION__ >= 202311L
  : uint32_t
#endif // defined(__cplusplus) || __STDC_VERSION__ >= 202311L
 {
  X = 2,
  Y,
};
#ifndef __cplusplus
#if __STDC_VERSION__ >= 202311L
typedef enum C C;
#else
typedef uint32_t C;
#endif // __STDC_VERSION__ >= 202311L
#endif // __cplusplus

struct A {
  int32_t _0;
};

struct B {
  int32_t x;
  float y;
};

struct D {
  uint8_t List;
  uintptr_t Of;
  struct B Things;
};

enum F_Tag
#if defined(__cplusplus) || __STDC_VERSION__ >= 202311L
  : uint8_t
#endif // defined(__cplusplus) || __STDC_VERSION__ >= 202311L
 {
  Foo,
  Bar,
  Baz,
};
#ifndef __cplusplus
#if __STDC_VERSION__ >= 202311L
typedef enum F_Tag F_Tag;
#else
typedef uint8_t F_Tag;
#endif // __STDC_VERSION__ >= 202311L
#endif // __cplusplus

struct Bar_Body {
  F_Tag tag;
  uint8_t x;
  int16_t y;
};

union F {
  F_Tag tag;
  struct {
    F_Tag foo_tag;
    int16_t foo;
  };
  struct Bar_Body bar;
};

enum H_Tag
#if defined(__cplusplus) || __STDC_VERSION__ >= 202311L
  : uint8_t
#endif // defined(__cplusplus) || __STDC_VERSION__ >= 202311L
 {
  Hello,
  There,
  Everyone,
};
#ifndef __cplusplus
#if __STDC_VERSION__ >= 202311L
typedef enum H_Tag H_Tag;
#else
typedef uint8_t H_Tag;
#endif // __STDC_VERSION__ >= 202311L
#endif // __cplusplus

struct There_Body {
  uint8_t x;
  int16_t y;
};

struct H {
  H_Tag tag;
  union {
    struct {
      int16_t hello;
    };
    struct There_Body there;
  };
};

enum I_Tag
#if defined(__cplusplus) || __STDC_VERSION__ >= 202311L
  : uint8_t
#endif // defined(__cplusplus) || __STDC_VERSION__ >= 202311L
 {
  ThereAgain,
  SomethingElse,
};
#ifndef __cplusplus
#if __STDC_VERSION__ >= 202311L
typedef enum I_Tag I_Tag;
#else
typedef uint8_t I_Tag;
#endif // __STDC_VERSION__ >= 202311L
#endif // __cplusplus

struct ThereAgain_Body {
  uint8_t x;
  int16_t y;
};

struct I {
  I_Tag tag;
  union {
    struct ThereAgain_Body there_again;
  };
};

#ifdef __cplusplus
extern ""C"" {
#endif // __cplusplus

void root(struct A a, struct B b, C c, struct D d, union F f, struct H h, struct I i);

#ifdef __cplusplus
}  // extern ""C""
#endif  // __cplusplus
".
(** tests/expectations/derive_ostream_both.compat.c *)
Definition derive_ostream_compat_both : string := "#include <stdarg.h>
#include <stdbool.h>
#include <stdint.h>
#include <stdlib.h>

enum C
#if defined(__cplusplus) || __STDC_VERSION__ >= 202311L
  : uint32_t
#endif // defined(__cplusplus) || __STDC_VERSION__ >= 202311L
 {
  X = 2,
  Y,
};
#ifndef __cplusplus
#if __STDC_VERSION__ >= 202311L
typedef enum C C;
#else
typedef uint32_t C;
#endif // __STDC_VERSION__ >= 202311L
#endif // __cplusplus

typedef struct A {
  int32_t _0;
} A;

typedef struct B {
  int32_t x;
  float y;
} B;

typedef struct D {
  uint8_t List;
  uintptr_t Of;
  struct B Things;
} D;

enum F_Tag
#if defined(__cplusplus) || __STDC_VERSION__ >= 202311L
  : uint8_t
#endif // defined(__cplusplus) || __STDC_VERSION__ >= 202311L
 {
  Foo,
  Bar,
  Baz,
};
#ifndef __cplusplus
#if __STDC_VERSION__ >= 202311L
typedef enum F_Tag F_Tag;
#else
typedef uint8_t F_Tag;
#endif // __STDC_VERSION__ >= 202311L
#endif // __cplusplus

typedef struct Bar_Body {
  F_Tag tag;
  uint8_t x;
  int16_t y;
} Bar_Body;

typedef union F {
  F_Tag tag;
  struct {
    F_Tag foo_tag;
    int16_t foo;
  };
  Bar_Body bar;
} F;

enum H_Tag
#if defined(__cplusplus) || __STDC_VERSION__ >= 202311L
  : uint8_t
#endif // defined(__cplusplus) || __STDC_VERSION__ >= 202311L
 {
  Hello,
  There,
  Everyone,
};
#ifndef __cplusplus
#if __STDC_VERSION__ >= 202311L
typedef enum H_Tag H_Tag;
#else
typedef uint8_t H_Tag;
#endif // __STDC_VERSION__ >= 202311L
#endif // __cplusplus

typedef struct There_Body {
  uint8_t x;
  int16_t y;
} There_Body;

typedef struct H {
  H_Tag tag;
  union {
    struct {
      int16_t hello;
    };
    There_Body there;
  };
} H;

enum I_Tag
#if defined(__cplusplus) || __STDC_VERSION__ >= 202311L
  : uint8_t
#endif // defined(__cplusplus) || __STDC_VERSION__ >= 202311L
 {
  ThereAgain,
  SomethingElse,
};
#ifndef __cplusplus
#if __STDC_VERSION__ >= 202311L
typedef enum I_Tag I_Tag;
#else
typedef uint8_t I_Tag;
#endif // __STDC_VERSION__ >= 202311L
#endif // __cplusplus

typedef struct ThereAgain_Body {
  uint8_t x;
  int16_t y;
} ThereAgain_Body;

typedef struct I {
  I_Tag tag;
  union {
    ThereAgain_Body there_again;
  };
} I;

#ifdef __cplusplus
extern ""C"" {
#endif // __cplusplus

void root(struct A a, struct B b, C c, struct D d, union F f, struct H h, struct I i);

#ifdef __cplusplus
}  // extern ""C""
#endif  // __cplusplus
".
(** tests/expectations/derive_ostream.c *)
Definition derive_ostream_c : string := "#include <stdarg.h>
#include <stdbool.h>
#include <stdint.h>
#include <stdlib.h>

enum C
#if __STDC_VERSION__ >= 202311L
  : uint32_t
#endif // __STDC_VERSION__ >= 202311L
 {
  X = 2,
  Y,
};
#if __STDC_VERSION__ >= 202311L
typedef enum C C;
#else
typedef uint32_t C;
#endif // __STDC_VERSION__ >= 202311L

typedef struct {
  int32_t _0;
} A;

typedef struct {
  int32_t x;
  float y;
} B;

typedef struct {
  uint8_t List;
  uintptr_t Of;
  B Things;
} D;

enum F_Tag
#if __STDC_VERSION__ >= 202311L
  : uint8_t
#endif // __STDC_VERSION__ >= 202311L
 {
  Foo,
  Bar,
  Baz,
};
#if __STDC_VERSION__ >= 202311L
typedef enum F_Tag F_Tag;
#else
typedef uint8_t F_Tag;
#endif // __STDC_VERSION__ >= 202311L

typedef struct {
  F_Tag tag;
  uint8_t x;
  int16_t y;
} Bar_Body;

typedef union {
  F_Tag tag;
  struct {
    F_Tag foo_tag;
    int16_t foo;
  };
  Bar_Body bar;
} F;

enum H_Tag
#if __STDC_VERSION__ >= 202311L
  : uint8_t
#endif // __STDC_VERSION__ >= 202311L
 {
  Hello,
  There,
  Everyone,
};
#if __STDC_VERSION__ >= 202311L
typedef enum H_Tag H_Tag;
#else
typedef uint8_t H_Tag;
#endif // __STDC_VERSION__ >= 202311L

typedef struct {
  uint8_t x;
  int16_t y;
} There_Body;

typedef struct {
  H_Tag tag;
  union {
    struct {
      int16_t hello;
    };
    There_Body there;
  };
} H;

enum I_Tag
#if __STDC_VERSION__ >= 202311L
  : uint8_t
#endif // __STDC_VERSION__ >= 202311L
 {
  ThereAgain,
  SomethingElse,
};
#if __STDC_VERSION__ >= 202311L
typedef enum I_Tag I_Tag;
#else
typedef uint8_t I_Tag;
#endif // __STDC_VERSION__ >= 202311L

typedef struct {
  uint8_t x;
  int16_t y;
} ThereAgain_Body;

typedef struct {
  I_Tag tag;
  union {
    ThereAgain_Body there_again;
  };
} I;

void root(A a, B b, C c, D d, F f, H h, I i);
".
(** tests/expectations/derive_ostream_tag.c *)
Definition derive_ostream_c_tag : string := "#include <stdarg.h>
#include <stdbool.h>
#include <stdint.h>
#include <stdlib.h>

enum C
#if __STDC_VERSION__ >= 202311L
  : uint32_t
#endif // __STDC_VERSION__ >= 202311L
 {
  X = 2,
  Y,
};
#if __STDC_VERSION__ >= 202311L
typedef enum C C;
#else
typedef uint32_t C;
#endif // __STDC_VERSION__ >= 202311L

struct A {
  int32_t _0;
};

struct B {
  int32_t x;
  float y;
};

struct D {
  uint8_t List;
  uintptr_t Of;
  struct B Things;
};

enum F_Tag
#if __STDC_VERSION__ >= 202311L
  : uint8_t
#endif // __STDC_VERSION__ >= 202311L
 {
  Foo,
  Bar,
  Baz,
};
#if __STDC_VERSION__ >= 202311L
typedef enum F_Tag F_Tag;
#else
typedef uint8_t F_Tag;
#endif // __STDC_VERSION__ >= 202311L

struct Bar_Body {
  F_Tag tag;
  uint8_t x;
  int16_t y;
};

union F {
  F_Tag tag;
  struct {
    F_Tag foo_tag;
    int16_t foo;
  };
  struct Bar_Body bar;
};

enum H_Tag
#if __STDC_VERSION__ >= 202311L
  : uint8_t
#endif // __STDC_VERSION__ >= 202311L
 {
  Hello,
  There,
  Everyone,
};
#if __STDC_VERSION__ >= 202311L
typedef enum H_Tag H_Tag;
#else
typedef uint8_t H_Tag;
#endif // __STDC_VERSION__ >= 202311L

struct There_Body {
  uint8_t x;
  int16_t y;
};

struct H {
  H_Tag tag;
  union {
    struct {
      int16_t hello;
    };
    struct There_Body there;
  };
};

enum I_Tag
#if __STDC_VERSION__ >= 202311L
  : uint8_t
#endif // __STDC_VERSION__ >= 202311L
 {
  ThereAgain,
  SomethingElse,
};
#if __STDC_VERSION__ >= 202311L
typedef enum I_Tag I_Tag;
#else
typedef uint8_t I_Tag;
#endif // __STDC_VERSION__ >= 202311L

struct ThereAgain_Body {
  uint8_t x;
  int16_t y;
};

struct I {
  I_Tag tag;
  union {
    struct ThereAgain_Body there_again;
  };
};

void root(struct A a, struct B b, C c, struct D d, union F f, struct H h, struct I i);
".
(** tests/expectations/derive_ostream_both.c *)
Definition derive_ostream_c_both : string := "#include <stdarg.h>
#include <stdbool.h>
#include <stdint.h>
#include <stdlib.h>

enum C
#if __STDC_VERSION__ >= 202311L
  : uint32_t
#endif // __STDC_VERSION__ >= 202311L
 {
  X = 2,
  Y,
};
#if __STDC_VERSION__ >= 202311L
typedef enum C C;
#else
typedef uint32_t C;
#endif // __STDC_VERSION__ >= 202311L

typedef struct A {
  int32_t _0;
} A;

typedef struct B {
  int32_t x;
  float y;
} B;

typedef struct D {
  uint8_t List;
  uintptr_t Of;
  struct B Things;
} D;

enum F_Tag
#if __STDC_VERSION__ >= 202311L
  : uint8_t
#endif // __STDC_VERSION__ >= 202311L
 {
  Foo,
  Bar,
  Baz,
};
#if __STDC_VERSION__ >= 202311L
typedef enum F_Tag F_Tag;
#else
typedef uint8_t F_Tag;
#endif // __STDC_VERSION__ >= 202311L

typedef struct Bar_Body {
  F_Tag tag;
  uint8_t x;
  int16_t y;
} Bar_Body;

typedef union F {
  F_Tag tag;
  struct {
    F_Tag foo_tag;
    int16_t foo;
  };
  Bar_Body bar;
} F;

enum H_Tag
#if __STDC_VERSION__ >= 202311L
  : uint8_t
#endif // __STDC_VERSION__ >= 202311L
 {
  Hello,
  There,
  Everyone,
};
#if __STDC_VERSION__ >= 202311L
typedef enum H_Tag H_Tag;
#else
typedef uint8_t H_Tag;
#endif // __STDC_VERSION__ >= 202311L

typedef struct There_Body {
  uint8_t x;
  int16_t y;
} There_Body;

typedef struct H {
  H_Tag tag;
  union {
    struct {
      int16_t hello;
    };
    There_Body there;
  };
} H;

enum I_Tag
#if __STDC_VERSION__ >= 202311L
  : uint8_t
#endif // __STDC_VERSION__ >= 202311L
 {
  ThereAgain,
  SomethingElse,
};
#if __STDC_VERSION__ >= 202311L
typedef enum I_Tag I_Tag;
#else
typedef uint8_t I_Tag;
#endif // __STDC_VERSION__ >= 202311L

typedef struct ThereAgain_Body {
  uint8_t x;
  int16_t y;
} ThereAgain_Body;

typedef struct I {
  I_Tag tag;
  union {
    ThereAgain_Body there_again;
  };
} I;

void root(struct A a, struct B b, C c, struct D d, union F f, struct H h, struct I i);
".
(** tests/expectations/derive_ostream.cpp *)
Definition derive_ostream_cpp : string := "#include <cstdarg>
#include <cstdint>
#include <cstdlib>
#include <ostream>
#include <new>

enum class C : uint32_t {
  X = 2,
  Y,
};

inline std::ostream& operator<<(std::ostream& stream, const C& instance) {
  switch (instance) {
    case C::X: stream << ""X""; break;
    case C::Y: stream << ""Y""; break;
  }
  return stream;
}

struct A {
  int32_t _0;

  friend std::ostream& operator<<(std::ostream& stream, const A& instance) {
    return stream << ""{ "" << ""_0="" << instance._0 << "" }"";
  }
};

struct B {
  int32_t x;
  float y;

  friend std::ostream& operator<<(std::ostream& stream, const B& instance) {
    return stream << ""{ "" << ""x="" << instance.x << "", ""
                          << ""y="" << instance.y << "" }"";
  }
};

struct D {
  uint8_t List;
  uintptr_t Of;
  B Things;

  friend std::ostream& operator<<(std::ostream& stream, const D& instance) {
    return stream << ""{ "" << ""List="" << instance.List << "", ""
                          << ""Of="" << instance.Of << "", ""
                          << ""Things="" << instance.Things << "" }"";
  }
};

union F {
  enum class Tag : uint8_t {
    Foo,
    Bar,
    Baz,
  };

  friend std::ostream& operator<<(std::ostream& stream, const Tag& instance) {
    using Tag = F::Tag;
    switch (instance) {
      case Tag::Foo: stream << ""Foo""; break;
      case Tag::Bar: stream << ""Bar""; break;
      case Tag::Baz: stream << ""Baz""; break;
    }
    return stream;
  }

  friend std::ostream& operator<<(std::ostream& stream, const F& instance) {
    using Tag = F::Tag;
    switch (instance.tag) {
      case Tag::Foo: stream << instance.foo; break;
      case Tag::Bar: stream << instance.bar; break;
      case Tag::Baz: stream << ""Baz""; break;
    }
    return stream;
  }

  struct Foo_Body {
    Tag tag;
    int16_t _0;

    friend std::ostream& operator<<(std::ostream& stream, const Foo_Body& instance) {
      return stream << ""{ "" << ""tag="" << instance.tag << "", ""
                            << ""_0="" << instance._0 << "" }"";
    }
  };

  struct Bar_Body {
    Tag tag;
    uint8_t x;
    int16_t y;

    friend std::ostream& operator<<(std::ostream& stream, const Bar_Body& instance) {
      return stream << ""{ "" << ""tag="" << instance.tag << "", ""
                            << ""x="" << instance.x << "", ""
                            << ""y="" << instance.y << "" }"";
    }
  };

  struct {
    Tag tag;
  };
  Foo_Body foo;
  Bar_Body bar;
};

struct H {
  enum class Tag : uint8_t {
    Hello,
    There,
    Everyone,
  };

  friend std::ostream& operator<<(std::ostream& stream, const Tag& instance) {
    using Tag = H::Tag;
    switch (instance) {
      case Tag::Hello: stream << ""Hello""; break;
      case Tag::There: stream << ""There""; break;
      case Tag::Everyone: stream << ""Everyone""; break;
    }
    return stream;
  }

  friend std::ostream& operator<<(std::ostream& stream, const H& instance) {
    using Tag = H::Tag;
    switch (instance.tag) {
      case Tag::Hello: stream << ""Hello"" << instance.hello; break;
      case Tag::There: stream << ""There"" << instance.there; break;
      case Tag::Everyone: stream << ""Everyone""; break;
    }
    return stream;
  }

  struct Hello_Body {
    int16_t _0;

    friend std::ostream& operator<<(std::ostream& stream, const Hello_Body& instance) {
      return stream << ""{ "" << ""_0="" << instance._0 << "" }"";
    }
  };

  struct There_Body {
    uint8_t x;
    int16_t y;

    friend std::ostream& operator<<(std::ostream& stream, const There_Body& instance) {
      return stream << ""{ "" << ""x="" << instance.x << "", ""
                            << ""y="" << instance.y << "" }"";
    }
  };

  Tag tag;
  union {
    Hello_Body hello;
    There_Body there;
  };
};

struct I {
  enum class Tag : uint8_t {
    ThereAgain,
    SomethingElse,
  };

  struct ThereAgain_Body {
    uint8_t x;
    int16_t y;

    friend std::ostream& operator<<(std::ostream& stream, const ThereAgain_Body& instance) {
      return stream << ""{ "" << ""x="" << instance.x << "", ""
                            << ""y="" << instance.y << "" }"";
    }
  };

  Tag tag;
  union {
    ThereAgain_Body there_again;
  };
};

extern ""C"" {

void root(A a, B b, C c, D d, F f, H h, I i);

}  // extern ""C""
".
(** tests/expectations/derive_ostream.pyx *)
Definition derive_ostream_pyx : string := "from libc.stdint cimport int8_t, int16_t, int32_t, int64_t, intptr_t
from libc.stdint cimport uint8_t, uint16_t, uint32_t, uint64_t, uintptr_t
cdef extern from *:
  ctypedef bint bool
  ctypedef struct va_list

cdef extern from *:

  cdef enum:
    X # = 2,
    Y,
  ctypedef uint32_t C;

  ctypedef struct A:
    int32_t _0;

  ctypedef struct B:
    int32_t x;
    float y;

  ctypedef struct D:
    uint8_t List;
    uintptr_t Of;
    B Things;

  cdef enum:
    Foo,
    Bar,
    Baz,
  ctypedef uint8_t F_Tag;

  ctypedef struct Bar_Body:
    F_Tag tag;
    uint8_t x;
    int16_t y;

  ctypedef union F:
    F_Tag tag;
    int16_t foo;
    Bar_Body bar;

  cdef enum:
    Hello,
    There,
    Everyone,
  ctypedef uint8_t H_Tag;

  ctypedef struct There_Body:
    uint8_t x;
    int16_t y;

  ctypedef struct H:
    H_Tag tag;
    int16_t hello;
    There_Body there;

  cdef enum:
    ThereAgain,
    SomethingElse,
  ctypedef uint8_t I_Tag;

  ctypedef struct ThereAgain_Body:
    uint8_t x;
    int16_t y;

  ctypedef struct I:
    I_Tag tag;
    ThereAgain_Body there_again;

  void root(A a, B b, C c, D d, F f, H h, I i);
".
(** tests/expectations/derive_ostream_tag.pyx *)
Definition derive_ostream_pyx_tag : string := "from libc.stdint cimport int8_t, int16_t, int32_t, int64_t, intptr_t
from libc.stdint cimport uint8_t, uint16_t, uint32_t, uint64_t, uintptr_t
cdef extern from *:
  ctypedef bint bool
  ctypedef struct va_list

cdef extern from *:

  cdef enum:
    X # = 2,
    Y,
  ctypedef uint32_t C;

  cdef struct A:
    int32_t _0;

  cdef struct B:
    int32_t x;
    float y;

  cdef struct D:
    uint8_t List;
    uintptr_t Of;
    B Things;

  cdef enum:
    Foo,
    Bar,
    Baz,
  ctypedef uint8_t F_Tag;

  cdef struct Bar_Body:
    F_Tag tag;
    uint8_t x;
    int16_t y;

  cdef union F:
    F_Tag tag;
    int16_t foo;
    Bar_Body bar;

  cdef enum:
    Hello,
    There,
    Everyone,
  ctypedef uint8_t H_Tag;

  cdef struct There_Body:
    uint8_t x;
    int16_t y;

  cdef struct H:
    H_Tag tag;
    int16_t hello;
    There_Body there;

  cdef enum:
    ThereAgain,
    SomethingElse,
  ctypedef uint8_t I_Tag;

  cdef struct ThereAgain_Body:
    uint8_t x;
    int16_t y;

  cdef struct I:
    I_Tag tag;
    ThereAgain_Body there_again;

  void root(A a, B b, C c, D d, F f, H h, I i);
".
Example derive_ostream_reproduced : reproduces (in_file derive_ostream_rs) false default_config (Some "{
root;
};")
  [(RunC true Type_, [derive_ostream_compat]);
   (RunC true Tag, [derive_ostream_compat_tag]);
   (RunC true Both, [derive_ostream_compat_both]);
   (RunC false Type_, [derive_ostream_c]);
   (RunC false Tag, [derive_ostream_c_tag]);
   (RunC false Both, [derive_ostream_c_both]);
   (RunCxx, [derive_ostream_cpp]);
   (RunCython Type_, [derive_ostream_pyx]);
   (RunCython Tag, [derive_ostream_pyx_tag])] = true.
Proof. vm_compute. reflexivity. Qed.

