(** See S_Suite.v; generated. *)
Require Import Coq.Strings.String Coq.Strings.Ascii Coq.Lists.List Coq.Bool.Bool Coq.NArith.NArith.
From Verif Require Import Base M_Config M_Cfg M_Type M_Ir M_Item M_Attr M_Syn M_Library M_Loader M_Parser M_Bindings M_Backend S_Heck S_Suite.
Import ListNotations.
Open Scope string_scope.

(** ** tests/rust/cfg.rs *)
Definition cfg_rs : list sitem := [
  (ItemEnum [{| at_meta := (AList (Some "cfg") [(AList (Some "all") [(APath (Some "unix")); (APath (Some "x11"))])]); at_outer := true
  |}; {| at_meta := (AList (Some "repr") [(APath (Some "u32"))]); at_outer := true |}] "FooType" [] [{| sv_attrs := []; sv_ident :=
  "A"; sv_fields := FieldsUnit; sv_discriminant := None |}; {| sv_attrs := []; sv_ident := "B"; sv_fields := FieldsUnit; sv_discriminant
  := None |}; {| sv_attrs := []; sv_ident := "C"; sv_fields := FieldsUnit; sv_discriminant := None |}]);
  (ItemStruct [{| at_meta := (AList (Some "repr") [(APath (Some "C"))]); at_outer := true |}] "Flags" [] (FieldsUnnamed [{| sf_attrs
  := []; sf_ident := None; sf_ty := (SPath (SegPath [] "u8" NoArgs)) |}]));
  (ItemMacro [] "bitflags" (Some {| bf_attrs := None; bf_name := "Flags"; bf_repr := (SPath (SegPath [] "u8" NoArgs)); bf_flags := [([{|
  at_meta := ANameValue (Some "doc") (Some " none"); at_outer := true |}], "NONE", (XLit (LitInt 0 ""))); ([{| at_meta := (AList (Some
  "cfg") [(APath (Some "windows"))]); at_outer := true |}], "A", (XBinary Shl (XLit (LitInt 1 "")) (XLit (LitInt 0 "")))); ([{| at_meta
  := (AList (Some "cfg") [(APath (Some "unix"))]); at_outer := true |}], "A", (XBinary Shl (XLit (LitInt 1 "")) (XLit (LitInt 1 ""))));
  ([{| at_meta := (AList (Some "cfg") [(APath (Some "windows"))]); at_outer := true |}], "B", (XBinary BitOr (XMethod (XPath (SegPath
  ["Self"] "A" NoArgs)) "bits" []) (XParen (XBinary Shl (XLit (LitInt 1 "")) (XLit (LitInt 3 "")))))); ([{| at_meta := (AList (Some
  "cfg") [(APath (Some "unix"))]); at_outer := true |}], "B", (XBinary BitOr (XMethod (XPath (SegPath ["Self"] "A" NoArgs)) "bits"
  []) (XParen (XBinary Shl (XLit (LitInt 1 "")) (XLit (LitInt 4 ""))))))] |}));
  (ItemStruct [{| at_meta := (AList (Some "cfg") [(AList (Some "all") [(APath (Some "unix")); (APath (Some "x11"))])]); at_outer :=
  true |}; {| at_meta := (AList (Some "repr") [(APath (Some "C"))]); at_outer := true |}] "FooHandle" [] (FieldsNamed [{| sf_attrs
  := []; sf_ident := (Some "ty"); sf_ty := (SPath (SegPath [] "FooType" NoArgs)) |}; {| sf_attrs := []; sf_ident := (Some "flags");
  sf_ty := (SPath (SegPath [] "Flags" NoArgs)) |}; {| sf_attrs := []; sf_ident := (Some "x"); sf_ty := (SPath (SegPath [] "i32" NoArgs))
  |}; {| sf_attrs := []; sf_ident := (Some "y"); sf_ty := (SPath (SegPath [] "f32" NoArgs)) |}]));
  (ItemEnum [{| at_meta := (AList (Some "cfg") [(AList (Some "any") [(APath (Some "windows")); (ANameValue (Some "target_pointer_width")
  (Some "32"))])]); at_outer := true |}; {| at_meta := (AList (Some "repr") [(APath (Some "u32"))]); at_outer := true |}] "BarType"
  [] [{| sv_attrs := []; sv_ident := "A"; sv_fields := FieldsUnit; sv_discriminant := None |}; {| sv_attrs := []; sv_ident := "B";
  sv_fields := FieldsUnit; sv_discriminant := None |}; {| sv_attrs := []; sv_ident := "C"; sv_fields := FieldsUnit; sv_discriminant
  := None |}]);
  (ItemEnum [{| at_meta := (AList (Some "repr") [(APath (Some "u8"))]); at_outer := true |}] "C" [] [{| sv_attrs := []; sv_ident :=
  "C1"; sv_fields := FieldsUnit; sv_discriminant := None |}; {| sv_attrs := []; sv_ident := "C2"; sv_fields := FieldsUnit; sv_discriminant
  := None |}; {| sv_attrs := [{| at_meta := (AList (Some "cfg") [(APath (Some "windows"))]); at_outer := true |}]; sv_ident := "C3";
  sv_fields := FieldsUnit; sv_discriminant := None |}; {| sv_attrs := [{| at_meta := (AList (Some "cfg") [(APath (Some "unix"))]);
  at_outer := true |}]; sv_ident := "C5"; sv_fields := (FieldsNamed [{| sf_attrs := []; sf_ident := (Some "int"); sf_ty := (SPath
  (SegPath [] "i32" NoArgs)) |}]); sv_discriminant := None |}]);
  (ItemStruct [{| at_meta := (AList (Some "cfg") [(AList (Some "any") [(APath (Some "windows")); (ANameValue (Some "target_pointer_width")
  (Some "32"))])]); at_outer := true |}; {| at_meta := (AList (Some "repr") [(APath (Some "C"))]); at_outer := true |}] "BarHandle"
  [] (FieldsNamed [{| sf_attrs := []; sf_ident := (Some "ty"); sf_ty := (SPath (SegPath [] "BarType" NoArgs)) |}; {| sf_attrs := [];
  sf_ident := (Some "x"); sf_ty := (SPath (SegPath [] "i32" NoArgs)) |}; {| sf_attrs := []; sf_ident := (Some "y"); sf_ty := (SPath
  (SegPath [] "f32" NoArgs)) |}]));
  (ItemStruct [{| at_meta := ANameValue (Some "doc") (Some " cbindgen:derive-eq=false"); at_outer := true |}; {| at_meta := ANameValue
  (Some "doc") (Some " cbindgen:derive-neq=false"); at_outer := true |}; {| at_meta := (AList (Some "repr") [(APath (Some "C"))]);
  at_outer := true |}] "ConditionalField" [] (FieldsNamed [{| sf_attrs := [{| at_meta := (AList (Some "cfg") [(APath (Some "x11"))]);
  at_outer := true |}]; sf_ident := (Some "field"); sf_ty := (SPath (SegPath [] "i32" NoArgs)) |}]));
  (ItemImpl [] (SPath (SegPath [] "ConditionalField" NoArgs)) [(ImplConst [] true "ZERO" (SPath (SegPath [] "Self" NoArgs)) (XStruct
  (SegPath [] "Self" NoArgs) [([{| at_meta := (AList (Some "cfg") [(APath (Some "x11"))]); at_outer := true |}], (Named "field"),
  (XLit (LitInt 0 "")))] None)); (ImplConst [] true "ONE" (SPath (SegPath [] "Self" NoArgs)) (XStruct (SegPath [] "Self" NoArgs) [([{|
  at_meta := (AList (Some "cfg") [(APath (Some "x11"))]); at_outer := true |}], (Named "field"), (XLit (LitInt 1 "")))] None))]);
  (ItemFn [{| at_meta := (AList (Some "cfg") [(AList (Some "all") [(APath (Some "unix")); (APath (Some "x11"))])]); at_outer := true
  |}; {| at_meta := (APath (Some "no_mangle")); at_outer := true |}] true {| sg_ident := "root"; sg_abi := (Some (Some "C")); sg_inputs
  := [(FnTyped (PatIdent "a") (SPath (SegPath [] "FooHandle" NoArgs))); (FnTyped (PatIdent "c") (SPath (SegPath [] "C" NoArgs)))];
  sg_variadic := false; sg_output := None |});
  (ItemFn [{| at_meta := (AList (Some "cfg") [(AList (Some "any") [(APath (Some "windows")); (ANameValue (Some "target_pointer_width")
  (Some "32"))])]); at_outer := true |}; {| at_meta := (APath (Some "no_mangle")); at_outer := true |}] true {| sg_ident := "root";
  sg_abi := (Some (Some "C")); sg_inputs := [(FnTyped (PatIdent "a") (SPath (SegPath [] "BarHandle" NoArgs))); (FnTyped (PatIdent
  "c") (SPath (SegPath [] "C" NoArgs)))]; sg_variadic := false; sg_output := None |});
  (ItemFn [{| at_meta := (APath (Some "no_mangle")); at_outer := true |}] true {| sg_ident := "cond"; sg_abi := (Some (Some "C")); sg_inputs
  := [(FnTyped (PatIdent "a") (SPath (SegPath [] "ConditionalField" NoArgs)))]; sg_variadic := false; sg_output := None |});
  (ItemStruct [{| at_meta := (AList (Some "repr") [(APath (Some "C"))]); at_outer := true |}] "Normal" [] (FieldsNamed [{| sf_attrs
  := []; sf_ident := (Some "x"); sf_ty := (SPath (SegPath [] "i32" NoArgs)) |}; {| sf_attrs := []; sf_ident := (Some "y"); sf_ty :=
  (SPath (SegPath [] "f32" NoArgs)) |}]));
  (ItemForeignMod [{| at_meta := (AList (Some "cfg") [(APath (Some "windows"))]); at_outer := true |}] (Some "C") [(Some ([], {| sg_ident
  := "foo"; sg_abi := None; sg_inputs := []; sg_variadic := false; sg_output := (Some (SPath (SegPath [] "i32" NoArgs))) |})); (Some
  ([], {| sg_ident := "bar"; sg_abi := None; sg_inputs := [(FnTyped (PatIdent "a") (SPath (SegPath [] "Normal" NoArgs)))]; sg_variadic
  := false; sg_output := None |}))]);
  (ItemStatic [{| at_meta := (AList (Some "cfg") [(APath (Some "windows"))]); at_outer := true |}; {| at_meta := (APath (Some "no_mangle"));
  at_outer := true |}] "global_array_with_different_sizes" true (SArray (SPath (SegPath [] "i32" NoArgs)) (XLit (LitInt 2 ""))));
  (ItemStatic [{| at_meta := (AList (Some "cfg") [(APath (Some "unix"))]); at_outer := true |}; {| at_meta := (APath (Some "no_mangle"));
  at_outer := true |}] "global_array_with_different_sizes" true (SArray (SPath (SegPath [] "i32" NoArgs)) (XLit (LitInt 1 ""))))].
Definition cfg_toml : Config := {| header := (Some "#if 0
DEF PLATFORM_UNIX = 0
DEF PLATFORM_WIN = 0
DEF X11 = 0
DEF M_32 = 0
#endif
#define PLATFORM_UNIX 1
"); includes_ := []; sys_includes_ := []; after_includes := None; trailer := None;
  include_guard_ := None; pragma_once := false; no_includes := false; package_version := false; autogen_warning := None; include_version := false;
  namespace := None; namespaces := None; using_namespaces := None; braces := SameLine; line_length := 100; tab_width := 2; line_endings := LF;
  language := Cxx; cpp_compat := false; style := Both; sort_by := SortNone; usize_is_size_t := false; parse := default_parse; export := {| ex_include := []; ex_exclude := []; ex_rename := []; ex_pre_body := []; ex_body := []; ex_prefix := None; ex_item_types := []; ex_renaming_overrides_prefixing := false; ex_mangle := {| rename_types := RNone; remove_underscores := false |} |};
  layout := {| ly_packed := None; ly_aligned_n := None |}; function := {| fn_prefix := None; fn_postfix := None; fn_must_use := None; fn_deprecated := None; fn_deprecated_with_note := None; fn_args := Auto; fn_rename_args := RNone; fn_swift_name_macro := None; fn_sort_by := None; fn_no_return := None |}; structure := {| st_rename_fields := RNone; st_derive_constructor := false; st_derive_eq := true; st_derive_neq := true; st_derive_lt := false; st_derive_lte := false; st_derive_gt := false; st_derive_gte := false; st_derive_ostream := false; st_associated_constants_in_body := false; st_rename_associated_constant := RNone; st_must_use := None; st_deprecated := None; st_deprecated_with_note := None |}; enumeration := {| en_rename_variants := RNone; en_rename_variant_name_fields := SnakeCase; en_add_sentinel := false; en_prefix_with_name := false; en_derive_helper_methods := true; en_derive_const_casts := false; en_derive_mut_casts := false; en_cast_assert_name := None; en_must_use := None; en_deprecated := None; en_deprecated_with_note := None; en_deprecated_variant := None; en_deprecated_variant_with_note := None; en_derive_tagged_enum_destructor := true; en_derive_tagged_enum_copy_constructor := true; en_derive_tagged_enum_copy_assignment := true; en_derive_ostream := false; en_enum_class := true; en_private_default_tagged_enum_constructor := true |}; constant := {| co_allow_static_const := true; co_allow_constexpr := true; co_sort_by := None |}; defines := [("unix", "PLATFORM_UNIX"); ("windows", "PLATFORM_WIN"); ("x11", "X11"); ("target_pointer_width = 32", "M_32")]; documentation := true;
  documentation_style := DocAuto; documentation_length := Full; pointer := {| pt_non_null_attribute := None; pt_nullable_attribute := None |}; cython := {| cy_header := None; cy_cimports := [] |}; config_path := None |}.
(** tests/expectations/cfg.compat.c *)
Definition cfg_compat : string := "#if 0
DEF PLATFORM_UNIX = 0
DEF PLATFORM_WIN = 0
DEF X11 = 0
DEF M_32 = 0
#endif
#define PLATFORM_UNIX 1


#include <stdarg.h>
#include <stdbool.h>
#include <stdint.h>
#include <stdlib.h>

#if (defined(PLATFORM_UNIX) && defined(X11))
enum FooType
#if defined(__cplusplus) || __STDC_VERSION__ >= 202311L
  : uint32_t
#endif // defined(__cplusplus) || __STDC_VERSION__ >= 202311L
 {
  A,
  B,
  C,
};
#ifndef __cplusplus
#if __STDC_VERSION__ >= 202311L
typedef enum FooType FooType;
#else
typedef uint32_t FooType;
#endif // __STDC_VERSION__ >= 202311L
#endif // __cplusplus
#endif

#if (defined(PLATFORM_WIN) || defined(M_32))
enum BarType
#if defined(__cplusplus) || __STDC_VERSION__ >= 202311L
  : uint32_t
#endif // defined(__cplusplus) || __STDC_VERSION__ >= 202311L
 {
  A,
  B,
  C,
};
#ifndef __cplusplus
#if __STDC_VERSION__ >= 202311L
typedef enum BarType BarType;
#else
typedef uint32_t BarType;
#endif // __STDC_VERSION__ >= 202311L
#endif // __cplusplus
#endif

typedef struct {
  uint8_t _0;
} Flags;
/**
 * none
 */
#define Flags_NONE (Flags){ ._0 = (uint8_t)0 }
#if defined(PLATFORM_WIN)
#define Flags_A (Flags){ ._0 = (uint8_t)(1 << 0) }
#endif
#if defined(PLATFORM_UNIX)
#define Flags_A (Flags){ ._0 = (uint8_t)(1 << 1) }
#endif
#if defined(PLATFORM_WIN)
#define Flags_B (Flags){ ._0 = (uint8_t)((Flags_A)._0 | (1 << 3)) }
#endif
#if defined(PLATFORM_UNIX)
#define Flags_B (Flags){ ._0 = (uint8_t)((Flags_A)._0 | (1 << 4)) }
#endif

#if (defined(PLATFORM_UNIX) && defined(X11))
typedef struct {
  FooType ty;
  Flags flags;
  int32_t x;
  float y;
} FooHandle;
#endif

enum C_Tag
#if defined(__cplusplus) || __STDC_VERSION__ >= 202311L
  : uint8_t
#endif // defined(__cplusplus) || __STDC_VERSION__ >= 202311L
 {
  C1,
  C2,
#if defined(PLATFORM_WIN)
  C3,
#endif
#if defined(PLATFORM_UNIX)
  C5,
#endif
};
#ifndef __cplusplus
#if __STDC_VERSION__ >= 202311L
typedef enum C_Tag C_Tag;
#else
typedef uint8_t C_Tag;
#endif // __STDC_VERSION__ >= 202311L
#endif // __cplusplus

#if defined(PLATFORM_UNIX)
typedef struct {
  C_Tag tag;
  int32_t int_;
} C5_Body;
#endif

typedef union {
  C_Tag tag;
#if defined(PLATFORM_UNIX)
  C5_Body c5;
#endif
} C;

#if (defined(PLATFORM_WIN) || defined(M_32))
typedef struct {
  BarType ty;
  int32_t x;
  float y;
} BarHandle;
#endif

typedef struct {
#if defined(X11)
  int32_t field
#endif
  ;
} ConditionalField;
#define ConditionalField_ZERO (ConditionalField){ .field = 0 }
#define ConditionalField_ONE (ConditionalField){ .field = 1 }

typedef struct {
  int32_t x;
  float y;
} Normal;

#ifdef __cplusplus
extern ""C"" {
#endif // __cplusplus

#if defined(PLATFORM_WIN)
extern int32_t global_array_with_different_sizes[2];
#endif

#if defined(PLATFORM_UNIX)
extern int32_t global_array_with_different_sizes[1];
#endif

#if (defined(PLATFORM_UNIX) && defined(X11))
void root(FooHandle a, C c);
#endif

#if (defined(PLATFORM_WIN) || defined(M_32))
void root(BarHandle a, C c);
#endif

void cond(ConditionalField a);

#if defined(PLATFORM_WIN)
extern int32_t foo(void);
#endif

#if defined(PLATFORM_WIN)
extern void bar(Normal a);
#endif

#ifdef __cplusplus
}  // extern ""C""
#endif  // __cplusplus
".
(** tests/expectations/cfg_tag.compat.c *)
Definition cfg_compat_tag : string := "#if 0
DEF PLATFORM_UNIX = 0
DEF PLATFORM_WIN = 0
DEF X11 = 0
DEF M_32 = 0
#endif
#define PLATFORM_UNIX 1


#include <stdarg.h>
#include <stdbool.h>
#include <stdint.h>
#include <stdlib.h>

#if (defined(PLATFORM_UNIX) && defined(X11))
enum FooType
#if defined(__cplusplus) || __STDC_VERSION__ >= 202311L
  : uint32_t
#endif // defined(__cplusplus) || __STDC_VERSION__ >= 202311L
 {
  A,
  B,
  C,
};
#ifndef __cplusplus
#if __STDC_VERSION__ >= 202311L
typedef enum FooType FooType;
#else
typedef uint32_t FooType;
#endif // __STDC_VERSION__ >= 202311L
#endif // __cplusplus
#endif

#if (defined(PLATFORM_WIN) || defined(M_32))
enum BarType
#if defined(__cplusplus) || __STDC_VERSION__ >= 202311L
  : uint32_t
#endif // defined(__cplusplus) || __STDC_VERSION__ >= 202311L
 {
  A,
  B,
  C,
};
#ifndef __cplusplus
#if __STDC_VERSION__ >= 202311L
typedef enum BarType BarType;
#else
typedef uint32_t BarType;
#endif // __STDC_VERSION__ >= 202311L
#endif // __cplusplus
#endif

struct Flags {
  uint8_t _0;
};
/**
 * none
 */
#define Flags_NONE (Flags){ ._0 = (uint8_t)0 }
#if defined(PLATFORM_WIN)
#define Flags_A (Flags){ ._0 = (uint8_t)(1 << 0) }
#endif
#if defined(PLATFORM_UNIX)
#define Flags_A (Flags){ ._0 = (uint8_t)(1 << 1) }
#endif
#if defined(PLATFORM_WIN)
#define Flags_B (Flags){ ._0 = (uint8_t)((Flags_A)._0 | (1 << 3)) }
#endif
#if defined(PLATFORM_UNIX)
#define Flags_B (Flags){ ._0 = (uint8_t)((Flags_A)._0 | (1 << 4)) }
#endif

#if (defined(PLATFORM_UNIX) && defined(X11))
struct FooHandle {
  FooType ty;
  struct Flags flags;
  int32_t x;
  float y;
};
#endif

enum C_Tag
#if defined(__cplusplus) || __STDC_VERSION__ >= 202311L
  : uint8_t
#endif // defined(__cplusplus) || __STDC_VERSION__ >= 202311L
 {
  C1,
  C2,
#if defined(PLATFORM_WIN)
  C3,
#endif
#if defined(PLATFORM_UNIX)
  C5,
#endif
};
#ifndef __cplusplus
#if __STDC_VERSION__ >= 202311L
typedef enum C_Tag C_Tag;
#else
typedef uint8_t C_Tag;
#endif // __STDC_VERSION__ >= 202311L
#endif // __cplusplus

#if defined(PLATFORM_UNIX)
struct C5_Body {
  C_Tag tag;
  int32_t int_;
};
#endif

union C {
  C_Tag tag;
#if defined(PLATFORM_UNIX)
  struct C5_Body c5;
#endif
};

#if (defined(PLATFORM_WIN) || defined(M_32))
struct BarHandle {
  BarType ty;
  int32_t x;
  float y;
};
#endif

struct ConditionalField {
#if defined(X11)
  int32_t field
#endif
  ;
};
#define ConditionalField_ZERO (ConditionalField){ .field = 0 }
#define ConditionalField_ONE (ConditionalField){ .field = 1 }

struct Normal {
  int32_t x;
  float y;
};

#ifdef __cplusplus
extern ""C"" {
#endif // __cplusplus

#if defined(PLATFORM_WIN)
extern int32_t global_array_with_different_sizes[2];
#endif

#if defined(PLATFORM_UNIX)
extern int32_t global_array_with_different_sizes[1];
#endif

#if (defined(PLATFORM_UNIX) && defined(X11))
void root(struct FooHandle a, union C c);
#endif

#if (defined(PLATFORM_WIN) || defined(M_32))
void root(struct BarHandle a, union C c);
#endif

void cond(struct ConditionalField a);

#if defined(PLATFORM_WIN)
extern int32_t foo(void);
#endif

#if defined(PLATFORM_WIN)
extern void bar(struct Normal a);
#endif

#ifdef __cplusplus
}  // extern ""C""
#endif  // __cplusplus
".
(** tests/expectations/cfg_both.compat.c *)
Definition cfg_compat_both : string := "#if 0
DEF PLATFORM_UNIX = 0
DEF PLATFORM_WIN = 0
DEF X11 = 0
DEF M_32 = 0
#endif
#define PLATFORM_UNIX 1


#include <stdarg.h>
#include <stdbool.h>
#include <stdint.h>
#include <stdlib.h>

#if (defined(PLATFORM_UNIX) && defined(X11))
enum FooType
#if defined(__cplusplus) || __STDC_VERSION__ >= 202311L
  : uint32_t
#endif // defined(__cplusplus) || __STDC_VERSION__ >= 202311L
 {
  A,
  B,
  C,
};
#ifndef __cplusplus
#if __STDC_VERSION__ >= 202311L
typedef enum FooType FooType;
#else
typedef uint32_t FooType;
#endif // __STDC_VERSION__ >= 202311L
#endif // __cplusplus
#endif

#if (defined(PLATFORM_WIN) || defined(M_32))
enum BarType
#if defined(__cplusplus) || __STDC_VERSION__ >= 202311L
  : uint32_t
#endif // defined(__cplusplus) || __STDC_VERSION__ >= 202311L
 {
  A,
  B,
  C,
};
#ifndef __cplusplus
#if __STDC_VERSION__ >= 202311L
typedef enum BarType BarType;
#else
typedef uint32_t BarType;
#endif // __STDC_VERSION__ >= 202311L
#endif // __cplusplus
#endif

typedef struct Flags {
  uint8_t _0;
} Flags;
/**
 * none
 */
#define Flags_NONE (Flags){ ._0 = (uint8_t)0 }
#if defined(PLATFORM_WIN)
#define Flags_A (Flags){ ._0 = (uint8_t)(1 << 0) }
#endif
#if defined(PLATFORM_UNIX)
#define Flags_A (Flags){ ._0 = (uint8_t)(1 << 1) }
#endif
#if defined(PLATFORM_WIN)
#define Flags_B (Flags){ ._0 = (uint8_t)((Flags_A)._0 | (1 << 3)) }
#endif
#if defined(PLATFORM_UNIX)
#define Flags_B (Flags){ ._0 = (uint8_t)((Flags_A)._0 | (1 << 4)) }
#endif

#if (defined(PLATFORM_UNIX) && defined(X11))
typedef struct FooHandle {
  FooType ty;
  struct Flags flags;
  int32_t x;
  float y;
} FooHandle;
#endif

enum C_Tag
#if defined(__cplusplus) || __STDC_VERSION__ >= 202311L
  : uint8_t
#endif // defined(__cplusplus) || __STDC_VERSION__ >= 202311L
 {
  C1,
  C2,
#if defined(PLATFORM_WIN)
  C3,
#endif
#if defined(PLATFORM_UNIX)
  C5,
#endif
};
#ifndef __cplusplus
#if __STDC_VERSION__ >= 202311L
typedef enum C_Tag C_Tag;
#else
typedef uint8_t C_Tag;
#endif // __STDC_VERSION__ >= 202311L
#endif // __cplusplus

#if defined(PLATFORM_UNIX)
typedef struct C5_Body {
  C_Tag tag;
  int32_t int_;
} C5_Body;
#endif

typedef union C {
  C_Tag tag;
#if defined(PLATFORM_UNIX)
  C5_Body c5;
#endif
} C;

#if (defined(PLATFORM_WIN) || defined(M_32))
typedef struct BarHandle {
  BarType ty;
  int32_t x;
  float y;
} BarHandle;
#endif

typedef struct ConditionalField {
#if defined(X11)
  int32_t field
#endif
  ;
} ConditionalField;
#define ConditionalField_ZERO (ConditionalField){ .field = 0 }
#define ConditionalField_ONE (ConditionalField){ .field = 1 }

typedef struct Normal {
  int32_t x;
  float y;
} Normal;

#ifdef __cplusplus
extern ""C"" {
#endif // __cplusplus

#if defined(PLATFORM_WIN)
extern int32_t global_array_with_different_sizes[2];
#endif

#if defined(PLATFORM_UNIX)
extern int32_t global_array_with_different_sizes[1];
#endif

#if (defined(PLATFORM_UNIX) && defined(X11))
void root(struct FooHandle a, union C c);
#endif

#if (defined(PLATFORM_WIN) || defined(M_32))
void root(struct BarHandle a, union C c);
#endif

void cond(struct ConditionalField a);

#if defined(PLATFORM_WIN)
extern int32_t foo(void);
#endif

#if defined(PLATFORM_WIN)
extern void bar(struct Normal a);
#endif

#ifdef __cplusplus
}  // extern ""C""
#endif  // __cplusplus
".
(** tests/expectations/cfg.c *)
Definition cfg_c : string := "#if 0
DEF PLATFORM_UNIX = 0
DEF PLATFORM_WIN = 0
DEF X11 = 0
DEF M_32 = 0
#endif
#define PLATFORM_UNIX 1


#include <stdarg.h>
#include <stdbool.h>
#include <stdint.h>
#include <stdlib.h>

#if (defined(PLATFORM_UNIX) && defined(X11))
enum FooType
#if __STDC_VERSION__ >= 202311L
  : uint32_t
#endif // __STDC_VERSION__ >= 202311L
 {
  A,
  B,
  C,
};
#if __STDC_VERSION__ >= 202311L
typedef enum FooType FooType;
#else
typedef uint32_t FooType;
#endif // __STDC_VERSION__ >= 202311L
#endif

#if (defined(PLATFORM_WIN) || defined(M_32))
enum BarType
#if __STDC_VERSION__ >= 202311L
  : uint32_t
#endif // __STDC_VERSION__ >= 202311L
 {
  A,
  B,
  C,
};
#if __STDC_VERSION__ >= 202311L
typedef enum BarType BarType;
#else
typedef uint32_t BarType;
#endif // __STDC_VERSION__ >= 202311L
#endif

typedef struct {
  uint8_t _0;
} Flags;
/**
 * none
 */
#define Flags_NONE (Flags){ ._0 = (uint8_t)0 }
#if defined(PLATFORM_WIN)
#define Flags_A (Flags){ ._0 = (uint8_t)(1 << 0) }
#endif
#if defined(PLATFORM_UNIX)
#define Flags_A (Flags){ ._0 = (uint8_t)(1 << 1) }
#endif
#if defined(PLATFORM_WIN)
#define Flags_B (Flags){ ._0 = (uint8_t)((Flags_A)._0 | (1 << 3)) }
#endif
#if defined(PLATFORM_UNIX)
#define Flags_B (Flags){ ._0 = (uint8_t)((Flags_A)._0 | (1 << 4)) }
#endif

#if (defined(PLATFORM_UNIX) && defined(X11))
typedef struct {
  FooType ty;
  Flags flags;
  int32_t x;
  float y;
} FooHandle;
#endif

enum C_Tag
#if __STDC_VERSION__ >= 202311L
  : uint8_t
#endif // __STDC_VERSION__ >= 202311L
 {
  C1,
  C2,
#if defined(PLATFORM_WIN)
  C3,
#endif
#if defined(PLATFORM_UNIX)
  C5,
#endif
};
#if __STDC_VERSION__ >= 202311L
typedef enum C_Tag C_Tag;
#else
typedef uint8_t C_Tag;
#endif // __STDC_VERSION__ >= 202311L

#if defined(PLATFORM_UNIX)
typedef struct {
  C_Tag tag;
  int32_t int_;
} C5_Body;
#endif

typedef union {
  C_Tag tag;
#if defined(PLATFORM_UNIX)
  C5_Body c5;
#endif
} C;

#if (defined(PLATFORM_WIN) || defined(M_32))
typedef struct {
  BarType ty;
  int32_t x;
  float y;
} BarHandle;
#endif

typedef struct {
#if defined(X11)
  int32_t field
#endif
  ;
} ConditionalField;
#define ConditionalField_ZERO (ConditionalField){ .field = 0 }
#define ConditionalField_ONE (ConditionalField){ .field = 1 }

typedef struct {
  int32_t x;
  float y;
} Normal;

#if defined(PLATFORM_WIN)
extern int32_t global_array_with_different_sizes[2];
#endif

#if defined(PLATFORM_UNIX)
extern int32_t global_array_with_different_sizes[1];
#endif

#if (defined(PLATFORM_UNIX) && defined(X11))
void root(FooHandle a, C c);
#endif

#if (defined(PLATFORM_WIN) || defined(M_32))
void root(BarHandle a, C c);
#endif

void cond(ConditionalField a);

#if defined(PLATFORM_WIN)
extern int32_t foo(void);
#endif

#if defined(PLATFORM_WIN)
extern void bar(Normal a);
#endif
".
(** tests/expectations/cfg_tag.c *)
Definition cfg_c_tag : string := "#if 0
DEF PLATFORM_UNIX = 0
DEF PLATFORM_WIN = 0
DEF X11 = 0
DEF M_32 = 0
#endif
#define PLATFORM_UNIX 1


#include <stdarg.h>
#include <stdbool.h>
#include <stdint.h>
#include <stdlib.h>

#if (defined(PLATFORM_UNIX) && defined(X11))
enum FooType
#if __STDC_VERSION__ >= 202311L
  : uint32_t
#endif // __STDC_VERSION__ >= 202311L
 {
  A,
  B,
  C,
};
#if __STDC_VERSION__ >= 202311L
typedef enum FooType FooType;
#else
typedef uint32_t FooType;
#endif // __STDC_VERSION__ >= 202311L
#endif

#if (defined(PLATFORM_WIN) || defined(M_32))
enum BarType
#if __STDC_VERSION__ >= 202311L
  : uint32_t
#endif // __STDC_VERSION__ >= 202311L
 {
  A,
  B,
  C,
};
#if __STDC_VERSION__ >= 202311L
typedef enum BarType BarType;
#else
typedef uint32_t BarType;
#endif // __STDC_VERSION__ >= 202311L
#endif

struct Flags {
  uint8_t _0;
};
/**
 * none
 */
#define Flags_NONE (Flags){ ._0 = (uint8_t)0 }
#if defined(PLATFORM_WIN)
#define Flags_A (Flags){ ._0 = (uint8_t)(1 << 0) }
#endif
#if defined(PLATFORM_UNIX)
#define Flags_A (Flags){ ._0 = (uint8_t)(1 << 1) }
#endif
#if defined(PLATFORM_WIN)
#define Flags_B (Flags){ ._0 = (uint8_t)((Flags_A)._0 | (1 << 3)) }
#endif
#if defined(PLATFORM_UNIX)
#define Flags_B (Flags){ ._0 = (uint8_t)((Flags_A)._0 | (1 << 4)) }
#endif

#if (defined(PLATFORM_UNIX) && defined(X11))
struct FooHandle {
  FooType ty;
  struct Flags flags;
  int32_t x;
  float y;
};
#endif

enum C_Tag
#if __STDC_VERSION__ >= 202311L
  : uint8_t
#endif // __STDC_VERSION__ >= 202311L
 {
  C1,
  C2,
#if defined(PLATFORM_WIN)
  C3,
#endif
#if defined(PLATFORM_UNIX)
  C5,
#endif
};
#if __STDC_VERSION__ >= 202311L
typedef enum C_Tag C_Tag;
#else
typedef uint8_t C_Tag;
#endif // __STDC_VERSION__ >= 202311L

#if defined(PLATFORM_UNIX)
struct C5_Body {
  C_Tag tag;
  int32_t int_;
};
#endif

union C {
  C_Tag tag;
#if defined(PLATFORM_UNIX)
  struct C5_Body c5;
#endif
};

#if (defined(PLATFORM_WIN) || defined(M_32))
struct BarHandle {
  BarType ty;
  int32_t x;
  float y;
};
#endif

struct ConditionalField {
#if defined(X11)
  int32_t field
#endif
  ;
};
#define ConditionalField_ZERO (ConditionalField){ .field = 0 }
#define ConditionalField_ONE (ConditionalField){ .field = 1 }

struct Normal {
  int32_t x;
  float y;
};

#if defined(PLATFORM_WIN)
extern int32_t global_array_with_different_sizes[2];
#endif

#if defined(PLATFORM_UNIX)
extern int32_t global_array_with_different_sizes[1];
#endif

#if (defined(PLATFORM_UNIX) && defined(X11))
void root(struct FooHandle a, union C c);
#endif

#if (defined(PLATFORM_WIN) || defined(M_32))
void root(struct BarHandle a, union C c);
#endif

void cond(struct ConditionalField a);

#if defined(PLATFORM_WIN)
extern int32_t foo(void);
#endif

#if defined(PLATFORM_WIN)
extern void bar(struct Normal a);
#endif
".
(** tests/expectations/cfg_both.c *)
Definition cfg_c_both : string := "#if 0
DEF PLATFORM_UNIX = 0
DEF PLATFORM_WIN = 0
DEF X11 = 0
DEF M_32 = 0
#endif
#define PLATFORM_UNIX 1


#include <stdarg.h>
#include <stdbool.h>
#include <stdint.h>
#include <stdlib.h>

#if (defined(PLATFORM_UNIX) && defined(X11))
enum FooType
#if __STDC_VERSION__ >= 202311L
  : uint32_t
#endif // __STDC_VERSION__ >= 202311L
 {
  A,
  B,
  C,
};
#if __STDC_VERSION__ >= 202311L
typedef enum FooType FooType;
#else
typedef uint32_t FooType;
#endif // __STDC_VERSION__ >= 202311L
#endif

#if (defined(PLATFORM_WIN) || defined(M_32))
enum BarType
#if __STDC_VERSION__ >= 202311L
  : uint32_t
#endif // __STDC_VERSION__ >= 202311L
 {
  A,
  B,
  C,
};
#if __STDC_VERSION__ >= 202311L
typedef enum BarType BarType;
#else
typedef uint32_t BarType;
#endif // __STDC_VERSION__ >= 202311L
#endif

typedef struct Flags {
  uint8_t _0;
} Flags;
/**
 * none
 */
#define Flags_NONE (Flags){ ._0 = (uint8_t)0 }
#if defined(PLATFORM_WIN)
#define Flags_A (Flags){ ._0 = (uint8_t)(1 << 0) }
#endif
#if defined(PLATFORM_UNIX)
#define Flags_A (Flags){ ._0 = (uint8_t)(1 << 1) }
#endif
#if defined(PLATFORM_WIN)
#define Flags_B (Flags){ ._0 = (uint8_t)((Flags_A)._0 | (1 << 3)) }
#endif
#if defined(PLATFORM_UNIX)
#define Flags_B (Flags){ ._0 = (uint8_t)((Flags_A)._0 | (1 << 4)) }
#endif

#if (defined(PLATFORM_UNIX) && defined(X11))
typedef struct FooHandle {
  FooType ty;
  struct Flags flags;
  int32_t x;
  float y;
} FooHandle;
#endif

enum C_Tag
#if __STDC_VERSION__ >= 202311L
  : uint8_t
#endif // __STDC_VERSION__ >= 202311L
 {
  C1,
  C2,
#if defined(PLATFORM_WIN)
  C3,
#endif
#if defined(PLATFORM_UNIX)
  C5,
#endif
};
#if __STDC_VERSION__ >= 202311L
typedef enum C_Tag C_Tag;
#else
typedef uint8_t C_Tag;
#endif // __STDC_VERSION__ >= 202311L

#if defined(PLATFORM_UNIX)
typedef struct C5_Body {
  C_Tag tag;
  int32_t int_;
} C5_Body;
#endif

typedef union C {
  C_Tag tag;
#if defined(PLATFORM_UNIX)
  C5_Body c5;
#endif
} C;

#if (defined(PLATFORM_WIN) || defined(M_32))
typedef struct BarHandle {
  BarType ty;
  int32_t x;
  float y;
} BarHandle;
#endif

typedef struct ConditionalField {
#if defined(X11)
  int32_t field
#endif
  ;
} ConditionalField;
#define ConditionalField_ZERO (ConditionalField){ .field = 0 }
#define ConditionalField_ONE (ConditionalField){ .field = 1 }

typedef struct Normal {
  int32_t x;
  float y;
} Normal;

#if defined(PLATFORM_WIN)
extern int32_t global_array_with_different_sizes[2];
#endif

#if defined(PLATFORM_UNIX)
extern int32_t global_array_with_different_sizes[1];
#endif

#if (defined(PLATFORM_UNIX) && defined(X11))
void root(struct FooHandle a, union C c);
#endif

#if (defined(PLATFORM_WIN) || defined(M_32))
void root(struct BarHandle a, union C c);
#endif

void cond(struct ConditionalField a);

#if defined(PLATFORM_WIN)
extern int32_t foo(void);
#endif

#if defined(PLATFORM_WIN)
extern void bar(struct Normal a);
#endif
".
(** tests/expectations/cfg.cpp *)
Definition cfg_cpp : string := "#if 0
DEF PLATFORM_UNIX = 0
DEF PLATFORM_WIN = 0
DEF X11 = 0
DEF M_32 = 0
#endif
#define PLATFORM_UNIX 1


#include <cstdarg>
#include <cstdint>
#include <cstdlib>
#include <ostream>
#include <new>

#if (defined(PLATFORM_UNIX) && defined(X11))
enum class FooType : uint32_t {
  A,
  B,
  C,
};
#endif

#if (defined(PLATFORM_WIN) || defined(M_32))
enum class BarType : uint32_t {
  A,
  B,
  C,
};
#endif

struct Flags {
  uint8_t _0;

  constexpr explicit operator bool() const {
    return !!_0;
  }
  constexpr Flags operator~() const {
    return Flags { static_cast<decltype(_0)>(~_0) };
  }
  constexpr Flags operator|(const Flags& other) const {
    return Flags { static_cast<decltype(_0)>(this->_0 | other._0) };
  }
  Flags& operator|=(const Flags& other) {
    *this = (*this | other);
    return *this;
  }
  constexpr Flags operator&(const Flags& other) const {
    return Flags { static_cast<decltype(_0)>(this->_0 & other._0) };
  }
  Flags& operator&=(const Flags& other) {
    *this = (*this & other);
    return *this;
  }
  constexpr Flags operator^(const Flags& other) const {
    return Flags { static_cast<decltype(_0)>(this->_0 ^ other._0) };
  }
  Flags& operator^=(const Flags& other) {
    *this = (*this ^ other);
    return *this;
  }
  bool operator==(const Flags& other) const {
    return _0 == other._0;
  }
  bool operator!=(const Flags& other) const {
    return _0 != other._0;
  }
};
/// none
constexpr static const Flags Flags_NONE = Flags{
  /* ._0 = */ (uint8_t)0
};
#if defined(PLATFORM_WIN)
constexpr static const Flags Flags_A = Flags{
  /* ._0 = */ (uint8_t)(1 << 0)
};
#endif
#if defined(PLATFORM_UNIX)
constexpr static const Flags Flags_A = Flags{
  /* ._0 = */ (uint8_t)(1 << 1)
};
#endif
#if defined(PLATFORM_WIN)
constexpr static const Flags Flags_B = Flags{
  /* ._0 = */ (uint8_t)((Flags_A)._0 | (1 << 3))
};
#endif
#if defined(PLATFORM_UNIX)
constexpr static const Flags Flags_B = Flags{
  /* ._0 = */ (uint8_t)((Flags_A)._0 | (1 << 4))
};
#endif

#if (defined(PLATFORM_UNIX) && defined(X11))
struct FooHandle {
  FooType ty;
  Flags flags;
  int32_t x;
  float y;

  bool operator==(const FooHandle& other) const {
    return ty == other.ty &&
           flags == other.flags &&
           x == other.x &&
           y == other.y;
  }
  bool operator!=(const FooHandle& other) const {
    return ty != other.ty ||
           flags != other.flags ||
           x != other.x ||
           y != other.y;
  }
};
#endif

union C {
  enum class Tag : uint8_t {
    C1,
    C2,
#if defined(PLATFORM_WIN)
    C3,
#endif
#if defined(PLATFORM_UNIX)
    C5,
#endif
  };

#if defined(PLATFORM_UNIX)
  struct C5_Body {
    Tag tag;
    int32_t int_;

    bool operator==(const C5_Body& other) const {
      return int_ == other.int_;
    }
    bool operator!=(const C5_Body& other) const {
      return int_ != other.int_;
    }
  };
#endif

  struct {
    Tag tag;
  };
#if defined(PLATFORM_UNIX)
  C5_Body c5;
#endif

  static C C1() {
    C result;
    result.tag = Tag::C1;
    return result;
  }

  bool IsC1() const {
    return tag == Tag::C1;
  }

  static C C2() {
    C result;
    result.tag = Tag::C2;
    return result;
  }

  bool IsC2() const {
    return tag == Tag::C2;
  }

#if defined(PLATFORM_WIN)
  static C C3() {
    C result;
    result.tag = Tag::C3;
    return result;
  }

  bool IsC3() const {
    return tag == Tag::C3;
  }
#endif

#if defined(PLATFORM_UNIX)
  static C C5(const int32_t &int_) {
    C result;
    ::new (&result.c5.int_) (int32_t)(int_);
    result.tag = Tag::C5;
    return result;
  }

  bool IsC5() const {
    return tag == Tag::C5;
  }
#endif

  bool operator==(const C& other) const {
    if (tag != other.tag) {
      return false;
    }
    switch (tag) {
#if defined(PLATFORM_UNIX)
      case Tag::C5: return c5 == other.c5;
#endif
      default: break;
    }
    return true;
  }

  bool operator!=(const C& other) const {
    return !(*this == other);
  }

  private:
  C() {

  }
  public:


  ~C() {
    switch (tag) {
#if defined(PLATFORM_UNIX)
      case Tag::C5: c5.~C5_Body(); break;
#endif
      default: break;
    }
  }

  C(const C& other)
   : tag(other.tag) {
    switch (tag) {
#if defined(PLATFORM_UNIX)
      case Tag::C5: ::new (&c5) (C5_Body)(other.c5); break;
#endif
      default: break;
    }
  }
  C& operator=(const C& other) {
    if (this != &other) {
      this->~C();
      new (this) C(other);
    }
    return *this;
  }
};

#if (defined(PLATFORM_WIN) || defined(M_32))
struct BarHandle {
  BarType ty;
  int32_t x;
  float y;

  bool operator==(const BarHandle& other) const {
    return ty == other.ty &&
           x == other.x &&
           y == other.y;
  }
  bool operator!=(const BarHandle& other) const {
    return ty != other.ty ||
           x != other.x ||
           y != other.y;
  }
};
#endif

struct ConditionalField {
#if defined(X11)
  int32_t field
#endif
  ;
};
constexpr static const ConditionalField ConditionalField_ZERO = ConditionalField{
#if defined(X11)
  /* .field = */ 0
#endif
};
constexpr static const ConditionalField ConditionalField_ONE = ConditionalField{
#if defined(X11)
  /* .field = */ 1
#endif
};

struct Normal {
  int32_t x;
  float y;

  bool operator==(const Normal& other) const {
    return x == other.x &&
           y == other.y;
  }
  bool operator!=(const Normal& other) const {
    return x != other.x ||
           y != other.y;
  }
};

extern ""C"" {

#if defined(PLATFORM_WIN)
extern int32_t global_array_with_different_sizes[2];
#endif

#if defined(PLATFORM_UNIX)
extern int32_t global_array_with_different_sizes[1];
#endif

#if (defined(PLATFORM_UNIX) && defined(X11))
void root(FooHandle a, C c);
#endif

#if (defined(PLATFORM_WIN) || defined(M_32))
void root(BarHandle a, C c);
#endif

void cond(ConditionalField a);

#if defined(PLATFORM_WIN)
extern int32_t foo();
#endif

#if defined(PLATFORM_WIN)
extern void bar(Normal a);
#endif

}  // extern ""C""
".
(** tests/expectations/cfg.pyx *)
Definition cfg_pyx : string := "#if 0
DEF PLATFORM_UNIX = 0
DEF PLATFORM_WIN = 0
DEF X11 = 0
DEF M_32 = 0
#endif
#define PLATFORM_UNIX 1


from libc.stdint cimport int8_t, int16_t, int32_t, int64_t, intptr_t
from libc.stdint cimport uint8_t, uint16_t, uint32_t, uint64_t, uintptr_t
cdef extern from *:
  ctypedef bint bool
  ctypedef struct va_list

cdef extern from *:

  IF (PLATFORM_UNIX and X11):
    cdef enum:
      A,
      B,
      C,
    ctypedef uint32_t FooType;

  IF (PLATFORM_WIN or M_32):
    cdef enum:
      A,
      B,
      C,
    ctypedef uint32_t BarType;

  ctypedef struct Flags:
    uint8_t _0;
  # none
  const Flags Flags_NONE # = <Flags>{ <uint8_t>0 }
  IF PLATFORM_WIN:
    const Flags Flags_A # = <Flags>{ <uint8_t>(1 << 0) }
  IF PLATFORM_UNIX:
    const Flags Flags_A # = <Flags>{ <uint8_t>(1 << 1) }
  IF PLATFORM_WIN:
    const Flags Flags_B # = <Flags>{ <uint8_t>((Flags_A)._0 | (1 << 3)) }
  IF PLATFORM_UNIX:
    const Flags Flags_B # = <Flags>{ <uint8_t>((Flags_A)._0 | (1 << 4)) }

  IF (PLATFORM_UNIX and X11):
    ctypedef struct FooHandle:
      FooType ty;
      Flags flags;
      int32_t x;
      float y;

  cdef enum:
    C1,
    C2,
    C3,
    C5,
  ctypedef uint8_t C_Tag;

  ctypedef struct C5_Body:
    C_Tag tag;
    int32_t int_;

  ctypedef union C:
    C_Tag tag;
    C5_Body c5;

  IF (PLATFORM_WIN or M_32):
    ctypedef struct BarHandle:
      BarType ty;
      int32_t x;
      float y;

  ctypedef struct ConditionalField:
    int32_t field;
  const ConditionalField ConditionalField_ZERO # = <ConditionalField>{ 0 }
  const ConditionalField ConditionalField_ONE # = <ConditionalField>{ 1 }

  ctypedef struct Normal:
    int32_t x;
    float y;

  IF PLATFORM_WIN:
    extern int32_t global_array_with_different_sizes[2];

  IF PLATFORM_UNIX:
    extern int32_t global_array_with_different_sizes[1];

  IF (PLATFORM_UNIX and X11):
    void root(FooHandle a, C c);

  IF (PLATFORM_WIN or M_32):
    void root(BarHandle a, C c);

  void cond(ConditionalField a);

  IF PLATFORM_WIN:
    extern int32_t foo();

  IF PLATFORM_WIN:
    extern void bar(Normal a);
".
(** tests/expectations/cfg_tag.pyx *)
Definition cfg_pyx_tag : string := "#if 0
DEF PLATFORM_UNIX = 0
DEF PLATFORM_WIN = 0
DEF X11 = 0
DEF M_32 = 0
#endif
#define PLATFORM_UNIX 1


from libc.stdint cimport int8_t, int16_t, int32_t, int64_t, intptr_t
from libc.stdint cimport uint8_t, uint16_t, uint32_t, uint64_t, uintptr_t
cdef extern from *:
  ctypedef bint bool
  ctypedef struct va_list

cdef extern from *:

  IF (PLATFORM_UNIX and X11):
    cdef enum:
      A,
      B,
      C,
    ctypedef uint32_t FooType;

  IF (PLATFORM_WIN or M_32):
    cdef enum:
      A,
      B,
      C,
    ctypedef uint32_t BarType;

  cdef struct Flags:
    uint8_t _0;
  # none
  const Flags Flags_NONE # = <Flags>{ <uint8_t>0 }
  IF PLATFORM_WIN:
    const Flags Flags_A # = <Flags>{ <uint8_t>(1 << 0) }
  IF PLATFORM_UNIX:
    const Flags Flags_A # = <Flags>{ <uint8_t>(1 << 1) }
  IF PLATFORM_WIN:
    const Flags Flags_B # = <Flags>{ <uint8_t>((Flags_A)._0 | (1 << 3)) }
  IF PLATFORM_UNIX:
    const Flags Flags_B # = <Flags>{ <uint8_t>((Flags_A)._0 | (1 << 4)) }

  IF (PLATFORM_UNIX and X11):
    cdef struct FooHandle:
      FooType ty;
      Flags flags;
      int32_t x;
      float y;

  cdef enum:
    C1,
    C2,
    C3,
    C5,
  ctypedef uint8_t C_Tag;

  cdef struct C5_Body:
    C_Tag tag;
    int32_t int_;

  cdef union C:
    C_Tag tag;
    C5_Body c5;

  IF (PLATFORM_WIN or M_32):
    cdef struct BarHandle:
      BarType ty;
      int32_t x;
      float y;

  cdef struct ConditionalField:
    int32_t field;
  const ConditionalField ConditionalField_ZERO # = <ConditionalField>{ 0 }
  const ConditionalField ConditionalField_ONE # = <ConditionalField>{ 1 }

  cdef struct Normal:
    int32_t x;
    float y;

  IF PLATFORM_WIN:
    extern int32_t global_array_with_different_sizes[2];

  IF PLATFORM_UNIX:
    extern int32_t global_array_with_different_sizes[1];

  IF (PLATFORM_UNIX and X11):
    void root(FooHandle a, C c);

  IF (PLATFORM_WIN or M_32):
    void root(BarHandle a, C c);

  void cond(ConditionalField a);

  IF PLATFORM_WIN:
    extern int32_t foo();

  IF PLATFORM_WIN:
    extern void bar(Normal a);
".
Example cfg_reproduced : reproduces (in_file cfg_rs) true cfg_toml (Some "{
root;
root;
cond;
foo;
bar;
global_array_with_different_sizes;
global_array_with_different_sizes;
};")
  [(RunC true Type_, [cfg_compat]);
   (RunC true Tag, [cfg_compat_tag]);
   (RunC true Both, [cfg_compat_both]);
   (RunC false Type_, [cfg_c]);
   (RunC false Tag, [cfg_c_tag]);
   (RunC false Both, [cfg_c_both]);
   (RunCxx, [cfg_cpp]);
   (RunCython Type_, [cfg_pyx]);
   (RunCython Tag, [cfg_pyx_tag])] = true.
Proof. vm_compute. reflexivity. Qed.

(** ** tests/rust/cfg_2.rs *)
Definition cfg_2_rs : list sitem := [
  (ItemStruct [{| at_meta := (AList (Some "cfg") [(AList (Some "any") [(APath (Some "windows")); (APath (Some "unix"))])]); at_outer
  := true |}; {| at_meta := (AList (Some "repr") [(APath (Some "C"))]); at_outer := true |}] "Foo" [] (FieldsNamed [{| sf_attrs :=
  []; sf_ident := (Some "x"); sf_ty := (SPath (SegPath [] "i32" NoArgs)) |}]));
  (ItemStruct [{| at_meta := (AList (Some "cfg") [(APath (Some "windows"))]); at_outer := true |}; {| at_meta := (AList (Some "repr")
  [(APath (Some "C"))]); at_outer := true |}] "Bar" [] (FieldsNamed [{| sf_attrs := []; sf_ident := (Some "y"); sf_ty := (SPath (SegPath
  [] "Foo" NoArgs)) |}]));
  (ItemStruct [{| at_meta := (AList (Some "cfg") [(APath (Some "unix"))]); at_outer := true |}; {| at_meta := (AList (Some "repr") [(APath
  (Some "C"))]); at_outer := true |}] "Bar" [] (FieldsNamed [{| sf_attrs := []; sf_ident := (Some "z"); sf_ty := (SPath (SegPath []
  "Foo" NoArgs)) |}]));
  (ItemStruct [{| at_meta := (AList (Some "repr") [(APath (Some "C"))]); at_outer := true |}] "Root" [] (FieldsNamed [{| sf_attrs :=
  []; sf_ident := (Some "w"); sf_ty := (SPath (SegPath [] "Bar" NoArgs)) |}]));
  (ItemConst [{| at_meta := (AList (Some "cfg") [(APath (Some "windows"))]); at_outer := true |}] true "DEFAULT_X" (SPath (SegPath []
  "i32" NoArgs)) (XLit (LitInt 8 "")));
  (ItemConst [{| at_meta := (AList (Some "cfg") [(APath (Some "unix"))]); at_outer := true |}] true "DEFAULT_X" (SPath (SegPath [] "i32"
  NoArgs)) (XLit (LitInt 42 "")));
  (ItemFn [{| at_meta := (APath (Some "no_mangle")); at_outer := true |}] true {| sg_ident := "root"; sg_abi := (Some (Some "C")); sg_inputs
  := [(FnTyped (PatIdent "a") (SPath (SegPath [] "Root" NoArgs)))]; sg_variadic := false; sg_output := None |})].
Definition cfg_2_toml : Config := {| header := (Some "#if 0
DEF DEFINED = 1
DEF NOT_DEFINED = 0
#endif
"); includes_ := []; sys_includes_ := []; after_includes := None; trailer := None;
  include_guard_ := None; pragma_once := false; no_includes := false; package_version := false; autogen_warning := None; include_version := false;
  namespace := None; namespaces := None; using_namespaces := None; braces := SameLine; line_length := 100; tab_width := 2; line_endings := LF;
  language := Cxx; cpp_compat := false; style := Both; sort_by := SortNone; usize_is_size_t := false; parse := default_parse; export := {| ex_include := []; ex_exclude := []; ex_rename := []; ex_pre_body := []; ex_body := []; ex_prefix := None; ex_item_types := []; ex_renaming_overrides_prefixing := false; ex_mangle := {| rename_types := RNone; remove_underscores := false |} |};
  layout := {| ly_packed := None; ly_aligned_n := None |}; function := {| fn_prefix := None; fn_postfix := None; fn_must_use := None; fn_deprecated := None; fn_deprecated_with_note := None; fn_args := Auto; fn_rename_args := RNone; fn_swift_name_macro := None; fn_sort_by := None; fn_no_return := None |}; structure := {| st_rename_fields := RNone; st_derive_constructor := false; st_derive_eq := false; st_derive_neq := false; st_derive_lt := false; st_derive_lte := false; st_derive_gt := false; st_derive_gte := false; st_derive_ostream := false; st_associated_constants_in_body := false; st_rename_associated_constant := RNone; st_must_use := None; st_deprecated := None; st_deprecated_with_note := None |}; enumeration := {| en_rename_variants := RNone; en_rename_variant_name_fields := SnakeCase; en_add_sentinel := false; en_prefix_with_name := false; en_derive_helper_methods := false; en_derive_const_casts := false; en_derive_mut_casts := false; en_cast_assert_name := None; en_must_use := None; en_deprecated := None; en_deprecated_with_note := None; en_deprecated_variant := None; en_deprecated_variant_with_note := None; en_derive_tagged_enum_destructor := false; en_derive_tagged_enum_copy_constructor := false; en_derive_tagged_enum_copy_assignment := false; en_derive_ostream := false; en_enum_class := true; en_private_default_tagged_enum_constructor := false |}; constant := {| co_allow_static_const := true; co_allow_constexpr := true; co_sort_by := None |}; defines := [("unix", "DEFINED"); ("macos", "NOT_DEFINED"); ("windows", "NOT_DEFINED")]; documentation := true;
  documentation_style := DocAuto; documentation_length := Full; pointer := {| pt_non_null_attribute := None; pt_nullable_attribute := None |}; cython := {| cy_header := None; cy_cimports := [] |}; config_path := None |}.
(** tests/expectations/cfg_2.compat.c *)
Definition cfg_2_compat : string := "#if 0
DEF DEFINED = 1
DEF NOT_DEFINED = 0
#endif


#include <stdarg.h>
#include <stdbool.h>
#include <stdint.h>
#include <stdlib.h>

#if defined(NOT_DEFINED)
#define DEFAULT_X 8
#endif

#if defined(DEFINED)
#define DEFAULT_X 42
#endif

#if (defined(NOT_DEFINED) || defined(DEFINED))
typedef struct {
  int32_t x;
} Foo;
#endif

#if defined(NOT_DEFINED)
typedef struct {
  Foo y;
} Bar;
#endif

#if defined(DEFINED)
typedef struct {
  Foo z;
} Bar;
#endif

typedef struct {
  Bar w;
} Root;

#ifdef __cplusplus
extern ""C"" {
#endif // __cplusplus

void root(Root a);

#ifdef __cplusplus
}  // extern ""C""
#endif  // __cplusplus
".
(** tests/expectations/cfg_2_tag.compat.c *)
Definition cfg_2_compat_tag : string := "#if 0
DEF DEFINED = 1
DEF NOT_DEFINED = 0
#endif


#include <stdarg.h>
#include <stdbool.h>
#include <stdint.h>
#include <stdlib.h>

#if defined(NOT_DEFINED)
#define DEFAULT_X 8
#endif

#if defined(DEFINED)
#define DEFAULT_X 42
#endif

#if (defined(NOT_DEFINED) || defined(DEFINED))
struct Foo {
  int32_t x;
};
#endif

#if defined(NOT_DEFINED)
struct Bar {
  struct Foo y;
};
#endif

#if defined(DEFINED)
struct Bar {
  struct Foo z;
};
#endif

struct Root {
  struct Bar w;
};

#ifdef __cplusplus
extern ""C"" {
#endif // __cplusplus

void root(struct Root a);

#ifdef __cplusplus
}  // extern ""C""
#endif  // __cplusplus
".
(** tests/expectations/cfg_2_both.compat.c *)
Definition cfg_2_compat_both : string := "#if 0
DEF DEFINED = 1
DEF NOT_DEFINED = 0
#endif


#include <stdarg.h>
#include <stdbool.h>
#include <stdint.h>
#include <stdlib.h>

#if defined(NOT_DEFINED)
#define DEFAULT_X 8
#endif

#if defined(DEFINED)
#define DEFAULT_X 42
#endif

#if (defined(NOT_DEFINED) || defined(DEFINED))
typedef struct Foo {
  int32_t x;
} Foo;
#endif

#if defined(NOT_DEFINED)
typedef struct Bar {
  struct Foo y;
} Bar;
#endif

#if defined(DEFINED)
typedef struct Bar {
  struct Foo z;
} Bar;
#endif

typedef struct Root {
  struct Bar w;
} Root;

#ifdef __cplusplus
extern ""C"" {
#endif // __cplusplus

void root(struct Root a);

#ifdef __cplusplus
}  // extern ""C""
#endif  // __cplusplus
".
(** tests/expectations/cfg_2.c *)
Definition cfg_2_c : string := "#if 0
DEF DEFINED = 1
DEF NOT_DEFINED = 0
#endif


#include <stdarg.h>
#include <stdbool.h>
#include <stdint.h>
#include <stdlib.h>

#if defined(NOT_DEFINED)
#define DEFAULT_X 8
#endif

#if defined(DEFINED)
#define DEFAULT_X 42
#endif

#if (defined(NOT_DEFINED) || defined(DEFINED))
typedef struct {
  int32_t x;
} Foo;
#endif

#if defined(NOT_DEFINED)
typedef struct {
  Foo y;
} Bar;
#endif

#if defined(DEFINED)
typedef struct {
  Foo z;
} Bar;
#endif

typedef struct {
  Bar w;
} Root;

void root(Root a);
".
(** tests/expectations/cfg_2_tag.c *)
Definition cfg_2_c_tag : string := "#if 0
DEF DEFINED = 1
DEF NOT_DEFINED = 0
#endif


#include <stdarg.h>
#include <stdbool.h>
#include <stdint.h>
#include <stdlib.h>

#if defined(NOT_DEFINED)
#define DEFAULT_X 8
#endif

#if defined(DEFINED)
#define DEFAULT_X 42
#endif

#if (defined(NOT_DEFINED) || defined(DEFINED))
struct Foo {
  int32_t x;
};
#endif

#if defined(NOT_DEFINED)
struct Bar {
  struct Foo y;
};
#endif

#if defined(DEFINED)
struct Bar {
  struct Foo z;
};
#endif

struct Root {
  struct Bar w;
};

void root(struct Root a);
".
(** tests/expectations/cfg_2_both.c *)
Definition cfg_2_c_both : string := "#if 0
DEF DEFINED = 1
DEF NOT_DEFINED = 0
#endif


#include <stdarg.h>
#include <stdbool.h>
#include <stdint.h>
#include <stdlib.h>

#if defined(NOT_DEFINED)
#define DEFAULT_X 8
#endif

#if defined(DEFINED)
#define DEFAULT_X 42
#endif

#if (defined(NOT_DEFINED) || defined(DEFINED))
typedef struct Foo {
  int32_t x;
} Foo;
#endif

#if defined(NOT_DEFINED)
typedef struct Bar {
  struct Foo y;
} Bar;
#endif

#if defined(DEFINED)
typedef struct Bar {
  struct Foo z;
} Bar;
#endif

typedef struct Root {
  struct Bar w;
} Root;

void root(struct Root a);
".
(** tests/expectations/cfg_2.cpp *)
Definition cfg_2_cpp : string := "#if 0
DEF DEFINED = 1
DEF NOT_DEFINED = 0
#endif


#include <cstdarg>
#include <cstdint>
#include <cstdlib>
#include <ostream>
#include <new>

#if defined(NOT_DEFINED)
constexpr static const int32_t DEFAULT_X = 8;
#endif

#if defined(DEFINED)
constexpr static const int32_t DEFAULT_X = 42;
#endif

#if (defined(NOT_DEFINED) || defined(DEFINED))
struct Foo {
  int32_t x;
};
#endif

#if defined(NOT_DEFINED)
struct Bar {
  Foo y;
};
#endif

#if defined(DEFINED)
struct Bar {
  Foo z;
};
#endif

struct Root {
  Bar w;
};

extern ""C"" {

void root(Root a);

}  // extern ""C""
".
(** tests/expectations/cfg_2.pyx *)
Definition cfg_2_pyx : string := "#if 0
DEF DEFINED = 1
DEF NOT_DEFINED = 0
#endif


from libc.stdint cimport int8_t, int16_t, int32_t, int64_t, intptr_t
from libc.stdint cimport uint8_t, uint16_t, uint32_t, uint64_t, uintptr_t
cdef extern from *:
  ctypedef bint bool
  ctypedef struct va_list

cdef extern from *:

  IF NOT_DEFINED:
    const int32_t DEFAULT_X # = 8

  IF DEFINED:
    const int32_t DEFAULT_X # = 42

  IF (NOT_DEFINED or DEFINED):
    ctypedef struct Foo:
      int32_t x;

  IF NOT_DEFINED:
    ctypedef struct Bar:
      Foo y;

  IF DEFINED:
    ctypedef struct Bar:
      Foo z;

  ctypedef struct Root:
    Bar w;

  void root(Root a);
".
(** tests/expectations/cfg_2_tag.pyx *)
Definition cfg_2_pyx_tag : string := "#if 0
DEF DEFINED = 1
DEF NOT_DEFINED = 0
#endif


from libc.stdint cimport int8_t, int16_t, int32_t, int64_t, intptr_t
from libc.stdint cimport uint8_t, uint16_t, uint32_t, uint64_t, uintptr_t
cdef extern from *:
  ctypedef bint bool
  ctypedef struct va_list

cdef extern from *:

  IF NOT_DEFINED:
    const int32_t DEFAULT_X # = 8

  IF DEFINED:
    const int32_t DEFAULT_X # = 42

  IF (NOT_DEFINED or DEFINED):
    cdef struct Foo:
      int32_t x;

  IF NOT_DEFINED:
    cdef struct Bar:
      Foo y;

  IF DEFINED:
    cdef struct Bar:
      Foo z;

  cdef struct Root:
    Bar w;

  void root(Root a);
".
Example cfg_2_reproduced : reproduces (in_file cfg_2_rs) false cfg_2_toml (Some "{
root;
};")
  [(RunC true Type_, [cfg_2_compat]);
   (RunC true Tag, [cfg_2_compat_tag]);
   (RunC true Both, [cfg_2_compat_both]);
   (RunC false Type_, [cfg_2_c]);
   (RunC false Tag, [cfg_2_c_tag]);
   (RunC false Both, [cfg_2_c_both]);
   (RunCxx, [cfg_2_cpp]);
   (RunCython Type_, [cfg_2_pyx]);
   (RunCython Tag, [cfg_2_pyx_tag])] = true.
Proof. vm_compute. reflexivity. Qed.

(** ** tests/rust/cfg_field.rs *)
Definition cfg_field_rs : list sitem := [
  (ItemStruct [] "Foo" [] (FieldsNamed [{| sf_attrs := [{| at_meta := (AList (Some "cfg") [(APath (Some "windows"))]); at_outer := true
  |}]; sf_ident := (Some "x"); sf_ty := (SPath (SegPath [] "i32" NoArgs)) |}]));
  (ItemFn [] true {| sg_ident := "foo"; sg_abi := None; sg_inputs := []; sg_variadic := false; sg_output := None |})].
(** tests/expectations/cfg_field.compat.c *)
Definition cfg_field_compat : string := "#include <stdarg.h>
#include <stdbool.h>
#include <stdint.h>
#include <stdlib.h>
".
(** tests/expectations/cfg_field.cpp *)
Definition cfg_field_cpp : string := "#include <cstdarg>
#include <cstdint>
#include <cstdlib>
#include <ostream>
#include <new>
".
(** tests/expectations/cfg_field.pyx *)
Definition cfg_field_pyx : string := "from libc.stdint cimport int8_t, int16_t, int32_t, int64_t, intptr_t
from libc.stdint cimport uint8_t, uint16_t, uint32_t, uint64_t, uintptr_t
cdef extern from *:
  ctypedef bint bool
  ctypedef struct va_list

cdef extern from *:
  pass".
Example cfg_field_reproduced : reproduces (in_file cfg_field_rs) false default_config None
  [(RunC true Type_, [cfg_field_compat]);
   (RunC true Tag, [cfg_field_compat]);
   (RunC true Both, [cfg_field_compat]);
   (RunC false Type_, [cfg_field_compat]);
   (RunC false Tag, [cfg_field_compat]);
   (RunC false Both, [cfg_field_compat]);
   (RunCxx, [cfg_field_cpp]);
   (RunCython Type_, [cfg_field_pyx]);
   (RunCython Tag, [cfg_field_pyx])] = true.
Proof. vm_compute. reflexivity. Qed.

(** ** tests/rust/char.rs *)
Definition char_rs : list sitem := [
  (ItemStruct [{| at_meta := (AList (Some "repr") [(APath (Some "C"))]); at_outer := true |}] "Foo" [] (FieldsNamed [{| sf_attrs :=
  []; sf_ident := (Some "a"); sf_ty := (SPath (SegPath [] "char" NoArgs)) |}]));
  (ItemFn [{| at_meta := (APath (Some "no_mangle")); at_outer := true |}] true {| sg_ident := "root"; sg_abi := (Some (Some "C")); sg_inputs
  := [(FnTyped (PatIdent "a") (SPath (SegPath [] "Foo" NoArgs)))]; sg_variadic := false; sg_output := None |})].
(** tests/expectations/char.compat.c *)
Definition char_compat : string := "#include <stdarg.h>
#include <stdbool.h>
#include <stdint.h>
#include <stdlib.h>

typedef struct {
  uint32_t a;
} Foo;

#ifdef __cplusplus
extern ""C"" {
#endif // __cplusplus

void root(Foo a);

#ifdef __cplusplus
}  // extern ""C""
#endif  // __cplusplus
".
(** tests/expectations/char_tag.compat.c *)
Definition char_compat_tag : string := "#include <stdarg.h>
#include <stdbool.h>
#include <stdint.h>
#include <stdlib.h>

struct Foo {
  uint32_t a;
};

#ifdef __cplusplus
extern ""C"" {
#endif // __cplusplus

void root(struct Foo a);

#ifdef __cplusplus
}  // extern ""C""
#endif  // __cplusplus
".
(** tests/expectations/char_both.compat.c *)
Definition char_compat_both : string := "#include <stdarg.h>
#include <stdbool.h>
#include <stdint.h>
#include <stdlib.h>

typedef struct Foo {
  uint32_t a;
} Foo;

#ifdef __cplusplus
extern ""C"" {
#endif // __cplusplus

void root(struct Foo a);

#ifdef __cplusplus
}  // extern ""C""
#endif  // __cplusplus
".
(** tests/expectations/char.c *)
Definition char_c : string := "#include <stdarg.h>
#include <stdbool.h>
#include <stdint.h>
#include <stdlib.h>

typedef struct {
  uint32_t a;
} Foo;

void root(Foo a);
".
(** tests/expectations/char_tag.c *)
Definition char_c_tag : string := "#include <stdarg.h>
#include <stdbool.h>
#include <stdint.h>
#include <stdlib.h>

struct Foo {
  uint32_t a;
};

void root(struct Foo a);
".
(** tests/expectations/char_both.c *)
Definition char_c_both : string := "#include <stdarg.h>
#include <stdbool.h>
#include <stdint.h>
#include <stdlib.h>

typedef struct Foo {
  uint32_t a;
} Foo;

void root(struct Foo a);
".
(** tests/expectations/char.cpp *)
Definition char_cpp : string := "#include <cstdarg>
#include <cstdint>
#include <cstdlib>
#include <ostream>
#include <new>

struct Foo {
  uint32_t a;
};

extern ""C"" {

void root(Foo a);

}  // extern ""C""
".
(** tests/expectations/char.pyx *)
Definition char_pyx : string := "from libc.stdint cimport int8_t, int16_t, int32_t, int64_t, intptr_t
from libc.stdint cimport uint8_t, uint16_t, uint32_t, uint64_t, uintptr_t
cdef extern from *:
  ctypedef bint bool
  ctypedef struct va_list

cdef extern from *:

  ctypedef struct Foo:
    uint32_t a;

  void root(Foo a);
".
(** tests/expectations/char_tag.pyx *)
Definition char_pyx_tag : string := "from libc.stdint cimport int8_t, int16_t, int32_t, int64_t, intptr_t
from libc.stdint cimport uint8_t, uint16_t, uint32_t, uint64_t, uintptr_t
cdef extern from *:
  ctypedef bint bool
  ctypedef struct va_list

cdef extern from *:

  cdef struct Foo:
    uint32_t a;

  void root(Foo a);
".
Example char_reproduced : reproduces (in_file char_rs) false default_config (Some "{
root;
};")
  [(RunC true Type_, [char_compat]);
   (RunC true Tag, [char_compat_tag]);
   (RunC true Both, [char_compat_both]);
   (RunC false Type_, [char_c]);
   (RunC false Tag, [char_c_tag]);
   (RunC false Both, [char_c_both]);
   (RunCxx, [char_cpp]);
   (RunCython Type_, [char_pyx]);
   (RunCython Tag, [char_pyx_tag])] = true.
Proof. vm_compute. reflexivity. Qed.

(** ** tests/rust/cmse.rs *)
Definition cmse_rs : list sitem := [
  (ItemFn [{| at_meta := (APath (Some "no_mangle")); at_outer := true |}] true {| sg_ident := "foo"; sg_abi := (Some (Some "cmse-nonsecure-entry"));
  sg_inputs := []; sg_variadic := false; sg_output := None |});
  (ItemFn [{| at_meta := (APath (Some "no_mangle")); at_outer := true |}] true {| sg_ident := "bar"; sg_abi := (Some (Some "cmse-nonsecure-call"));
  sg_inputs := []; sg_variadic := false; sg_output := None |})].
(** tests/expectations/cmse.compat.c *)
Definition cmse_compat : string := "#include <stdarg.h>
#include <stdbool.h>
#include <stdint.h>
#include <stdlib.h>

#ifdef __cplusplus
extern ""C"" {
#endif // __cplusplus

void foo(void);

void bar(void);

#ifdef __cplusplus
}  // extern ""C""
#endif  // __cplusplus
".
(** tests/expectations/cmse.c *)
Definition cmse_c : string := "#include <stdarg.h>
#include <stdbool.h>
#include <stdint.h>
#include <stdlib.h>

void foo(void);

void bar(void);
".
(** tests/expectations/cmse.cpp *)
Definition cmse_cpp : string := "#include <cstdarg>
#include <cstdint>
#include <cstdlib>
#include <ostream>
#include <new>

extern ""C"" {

void foo();

void bar();

}  // extern ""C""
".
(** tests/expectations/cmse.pyx *)
Definition cmse_pyx : string := "from libc.stdint cimport int8_t, int16_t, int32_t, int64_t, intptr_t
from libc.stdint cimport uint8_t, uint16_t, uint32_t, uint64_t, uintptr_t
cdef extern from *:
  ctypedef bint bool
  ctypedef struct va_list

cdef extern from *:

  void foo();

  void bar();
".
Example cmse_reproduced : reproduces (in_file cmse_rs) false default_config (Some "{
foo;
bar;
};")
  [(RunC true Type_, [cmse_compat]);
   (RunC true Tag, [cmse_compat]);
   (RunC true Both, [cmse_compat]);
   (RunC false Type_, [cmse_c]);
   (RunC false Tag, [cmse_compat; cmse_c]);
   (RunC false Both, [cmse_compat; cmse_c]);
   (RunCxx, [cmse_cpp]);
   (RunCython Type_, [cmse_pyx]);
   (RunCython Tag, [cmse_pyx])] = true.
Proof. vm_compute. reflexivity. Qed.

(** ** tests/rust/const_conflict.rs *)
Definition const_conflict_rs : list sitem := [
  (ItemStruct [{| at_meta := (AList (Some "repr") [(APath (Some "C"))]); at_outer := true |}] "Foo" [] (FieldsNamed []));
  (ItemImpl [] (SPath (SegPath [] "Foo" NoArgs)) [(ImplConst [] false "FOO" (SPath (SegPath [] "i32" NoArgs)) (XLit (LitInt 0 "")))]);
  (ItemConst [] true "Foo_FOO" (SPath (SegPath [] "u32" NoArgs)) (XLit (LitInt 42 "")))].
(** tests/expectations/const_conflict.compat.c *)
Definition const_conflict_compat : string := "#include <stdarg.h>
#include <stdbool.h>
#include <stdint.h>
#include <stdlib.h>

#define Foo_FOO 42
".
(** tests/expectations/const_conflict.cpp *)
Definition const_conflict_cpp : string := "#include <cstdarg>
#include <cstdint>
#include <cstdlib>
#include <ostream>
#include <new>

constexpr static const uint32_t Foo_FOO = 42;
".
(** tests/expectations/const_conflict.pyx *)
Definition const_conflict_pyx : string := "from libc.stdint cimport int8_t, int16_t, int32_t, int64_t, intptr_t
from libc.stdint cimport uint8_t, uint16_t, uint32_t, uint64_t, uintptr_t
cdef extern from *:
  ctypedef bint bool
  ctypedef struct va_list

cdef extern from *:

  const uint32_t Foo_FOO # = 42
".
Example const_conflict_reproduced : reproduces (in_file const_conflict_rs) false default_config None
  [(RunC true Type_, [const_conflict_compat]);
   (RunC true Tag, [const_conflict_compat]);
   (RunC true Both, [const_conflict_compat]);
   (RunC false Type_, [const_conflict_compat]);
   (RunC false Tag, [const_conflict_compat]);
   (RunC false Both, [const_conflict_compat]);
   (RunCxx, [const_conflict_cpp]);
   (RunCython Type_, [const_conflict_pyx]);
   (RunCython Tag, [const_conflict_pyx])] = true.
Proof. vm_compute. reflexivity. Qed.

(** ** tests/rust/const_enum.rs *)
Definition const_enum_rs : list sitem := [
  (ItemEnum [{| at_meta := (AList (Some "repr") [(APath (Some "u8"))]); at_outer := true |}] "FillRule" [] [{| sv_attrs := []; sv_ident
  := "Nonzero"; sv_fields := FieldsUnit; sv_discriminant := None |}; {| sv_attrs := []; sv_ident := "Evenodd"; sv_fields := FieldsUnit;
  sv_discriminant := None |}]);
  (ItemConst [] true "DEFAULT_FILL_RULE" (SPath (SegPath [] "FillRule" NoArgs)) (XPath (SegPath ["FillRule"] "Nonzero" NoArgs)));
  (ItemConst [] true "ALL_FILL_RULES" (SArray (SPath (SegPath [] "FillRule" NoArgs)) (XLit (LitInt 2 ""))) (XArray [(XPath (SegPath
  ["FillRule"] "Nonzero" NoArgs)); (XPath (SegPath ["FillRule"] "Evenodd" NoArgs))]));
  (ItemStruct [{| at_meta := (AList (Some "repr") [(APath (Some "C"))]); at_outer := true |}] "Style" [] (FieldsNamed [{| sf_attrs :=
  []; sf_ident := (Some "rule"); sf_ty := (SPath (SegPath [] "FillRule" NoArgs)) |}]));
  (ItemImpl [] (SPath (SegPath [] "Style" NoArgs)) [(ImplConst [] true "DEFAULT_RULE" (SPath (SegPath [] "FillRule" NoArgs)) (XPath
  (SegPath ["FillRule"] "Nonzero" NoArgs))); (ImplConst [] true "ALL_RULES" (SArray (SPath (SegPath [] "FillRule" NoArgs)) (XLit (LitInt
  2 ""))) (XArray [(XPath (SegPath ["FillRule"] "Nonzero" NoArgs)); (XPath (SegPath ["FillRule"] "Evenodd" NoArgs))]))]);
  (ItemFn [{| at_meta := (APath (Some "no_mangle")); at_outer := true |}] true {| sg_ident := "root"; sg_abi := (Some (Some "C")); sg_inputs
  := [(FnTyped (PatIdent "rule") (SPath (SegPath [] "FillRule" NoArgs))); (FnTyped (PatIdent "style") (SPath (SegPath [] "Style" NoArgs)))];
  sg_variadic := false; sg_output := None |})].
(** tests/expectations/const_enum.compat.c *)
Definition const_enum_compat : string := "#include <stdarg.h>
#include <stdbool.h>
#include <stdint.h>
#include <stdlib.h>

enum FillRule
#if defined(__cplusplus) || __STDC_VERSION__ >= 202311L
  : uint8_t
#endif // defined(__cplusplus) || __STDC_VERSION__ >= 202311L
 {
  Nonzero,
  Evenodd,
};
#ifndef __cplusplus
#if __STDC_VERSION__ >= 202311L
typedef enum FillRule FillRule;
#else
typedef uint8_t FillRule;
#endif // __STDC_VERSION__ >= 202311L
#endif // __cplusplus

typedef struct {
  FillRule rule;
} Style;
#define Style_DEFAULT_RULE Nonzero
#define Style_ALL_RULES { Nonzero, Evenodd, }

#define DEFAULT_FILL_RULE Nonzero

#define ALL_FILL_RULES { Nonzero, Evenodd, }

#ifdef __cplusplus
extern ""C"" {
#endif // __cplusplus

void root(FillRule rule, Style style);

#ifdef __cplusplus
}  // extern ""C""
#endif  // __cplusplus
".
(** tests/expectations/const_enum_tag.compat.c *)
Definition const_enum_compat_tag : string := "#include <stdarg.h>
#include <stdbool.h>
#include <stdint.h>
#include <stdlib.h>

enum FillRule
#if defined(__cplusplus) || __STDC_VERSION__ >= 202311L
  : uint8_t
#endif // defined(__cplusplus) || __STDC_VERSION__ >= 202311L
 {
  Nonzero,
  Evenodd,
};
#ifndef __cplusplus
#if __STDC_VERSION__ >= 202311L
typedef enum FillRule FillRule;
#else
typedef uint8_t FillRule;
#endif // __STDC_VERSION__ >= 202311L
#endif // __cplusplus

struct Style {
  FillRule rule;
};
#define Style_DEFAULT_RULE Nonzero
#define Style_ALL_RULES { Nonzero, Evenodd, }

#define DEFAULT_FILL_RULE Nonzero

#define ALL_FILL_RULES { Nonzero, Evenodd, }

#ifdef __cplusplus
extern ""C"" {
#endif // __cplusplus

void root(FillRule rule, struct Style style);

#ifdef __cplusplus
}  // extern ""C""
#endif  // __cplusplus
".
(** tests/expectations/const_enum_both.compat.c *)
Definition const_enum_compat_both : string := "#include <stdarg.h>
#include <stdbool.h>
#include <stdint.h>
#include <stdlib.h>

enum FillRule
#if defined(__cplusplus) || __STDC_VERSION__ >= 202311L
  : uint8_t
#endif // defined(__cplusplus) || __STDC_VERSION__ >= 202311L
 {
  Nonzero,
  Evenodd,
};
#ifndef __cplusplus
#if __STDC_VERSION__ >= 202311L
typedef enum FillRule FillRule;
#else
typedef uint8_t FillRule;
#endif // __STDC_VERSION__ >= 202311L
#endif // __cplusplus

typedef struct Style {
  FillRule rule;
} Style;
#define Style_DEFAULT_RULE Nonzero
#define Style_ALL_RULES { Nonzero, Evenodd, }

#define DEFAULT_FILL_RULE Nonzero

#define ALL_FILL_RULES { Nonzero, Evenodd, }

#ifdef __cplusplus
extern ""C"" {
#endif // __cplusplus

void root(FillRule rule, struct Style style);

#ifdef __cplusplus
}  // extern ""C""
#endif  // __cplusplus
".
(** tests/expectations/const_enum.c *)
Definition const_enum_c : string := "#include <stdarg.h>
#include <stdbool.h>
#include <stdint.h>
#include <stdlib.h>

enum FillRule
#if __STDC_VERSION__ >= 202311L
  : uint8_t
#endif // __STDC_VERSION__ >= 202311L
 {
  Nonzero,
  Evenodd,
};
#if __STDC_VERSION__ >= 202311L
typedef enum FillRule FillRule;
#else
typedef uint8_t FillRule;
#endif // __STDC_VERSION__ >= 202311L

typedef struct {
  FillRule rule;
} Style;
#define Style_DEFAULT_RULE Nonzero
#define Style_ALL_RULES { Nonzero, Evenodd, }

#define DEFAULT_FILL_RULE Nonzero

#define ALL_FILL_RULES { Nonzero, Evenodd, }

void root(FillRule rule, Style style);
".
(** tests/expectations/const_enum_tag.c *)
Definition const_enum_c_tag : string := "#include <stdarg.h>
#include <stdbool.h>
#include <stdint.h>
#include <stdlib.h>

enum FillRule
#if __STDC_VERSION__ >= 202311L
  : uint8_t
#endif // __STDC_VERSION__ >= 202311L
 {
  Nonzero,
  Evenodd,
};
#if __STDC_VERSION__ >= 202311L
typedef enum FillRule FillRule;
#else
typedef uint8_t FillRule;
#endif // __STDC_VERSION__ >= 202311L

struct Style {
  FillRule rule;
};
#define Style_DEFAULT_RULE Nonzero
#define Style_ALL_RULES { Nonzero, Evenodd, }

#define DEFAULT_FILL_RULE Nonzero

#define ALL_FILL_RULES { Nonzero, Evenodd, }

void root(FillRule rule, struct Style style);
".
(** tests/expectations/const_enum_both.c *)
Definition const_enum_c_both : string := "#include <stdarg.h>
#include <stdbool.h>
#include <stdint.h>
#include <stdlib.h>

enum FillRule
#if __STDC_VERSION__ >= 202311L
  : uint8_t
#endif // __STDC_VERSION__ >= 202311L
 {
  Nonzero,
  Evenodd,
};
#if __STDC_VERSION__ >= 202311L
typedef enum FillRule FillRule;
#else
typedef uint8_t FillRule;
#endif // __STDC_VERSION__ >= 202311L

typedef struct Style {
  FillRule rule;
} Style;
#define Style_DEFAULT_RULE Nonzero
#define Style_ALL_RULES { Nonzero, Evenodd, }

#define DEFAULT_FILL_RULE Nonzero

#define ALL_FILL_RULES { Nonzero, Evenodd, }

void root(FillRule rule, struct Style style);
".
(** tests/expectations/const_enum.cpp *)
Definition const_enum_cpp : string := "#include <cstdarg>
#include <cstdint>
#include <cstdlib>
#include <ostream>
#include <new>

enum class FillRule : uint8_t {
  Nonzero,
  Evenodd,
};

struct Style {
  FillRule rule;
};
constexpr static const FillRule Style_DEFAULT_RULE = FillRule::Nonzero;
constexpr static const FillRule Style_ALL_RULES[2] = { FillRule::Nonzero, FillRule::Evenodd, };

constexpr static const FillRule DEFAULT_FILL_RULE = FillRule::Nonzero;

constexpr static const FillRule ALL_FILL_RULES[2] = { FillRule::Nonzero, FillRule::Evenodd, };

extern ""C"" {

void root(FillRule rule, Style style);

}  // extern ""C""
".
(** tests/expectations/const_enum.pyx *)
Definition const_enum_pyx : string := "from libc.stdint cimport int8_t, int16_t, int32_t, int64_t, intptr_t
from libc.stdint cimport uint8_t, uint16_t, uint32_t, uint64_t, uintptr_t
cdef extern from *:
  ctypedef bint bool
  ctypedef struct va_list

cdef extern from *:

  cdef enum:
    Nonzero,
    Evenodd,
  ctypedef uint8_t FillRule;

  ctypedef struct Style:
    FillRule rule;
  const FillRule Style_DEFAULT_RULE # = Nonzero
  const FillRule Style_ALL_RULES[2] # = [ Nonzero, Evenodd, ]

  const FillRule DEFAULT_FILL_RULE # = Nonzero

  const FillRule ALL_FILL_RULES[2] # = [ Nonzero, Evenodd, ]

  void root(FillRule rule, Style style);
".
(** tests/expectations/const_enum_tag.pyx *)
Definition const_enum_pyx_tag : string := "from libc.stdint cimport int8_t, int16_t, int32_t, int64_t, intptr_t
from libc.stdint cimport uint8_t, uint16_t, uint32_t, uint64_t, uintptr_t
cdef extern from *:
  ctypedef bint bool
  ctypedef struct va_list

cdef extern from *:

  cdef enum:
    Nonzero,
    Evenodd,
  ctypedef uint8_t FillRule;

  cdef struct Style:
    FillRule rule;
  const FillRule Style_DEFAULT_RULE # = Nonzero
  const FillRule Style_ALL_RULES[2] # = [ Nonzero, Evenodd, ]

  const FillRule DEFAULT_FILL_RULE # = Nonzero

  const FillRule ALL_FILL_RULES[2] # = [ Nonzero, Evenodd, ]

  void root(FillRule rule, Style style);
".
Example const_enum_reproduced : reproduces (in_file const_enum_rs) false default_config (Some "{
root;
};")
  [(RunC true Type_, [const_enum_compat]);
   (RunC true Tag, [const_enum_compat_tag]);
   (RunC true Both, [const_enum_compat_both]);
   (RunC false Type_, [const_enum_c]);
   (RunC false Tag, [const_enum_c_tag]);
   (RunC false Both, [const_enum_c_both]);
   (RunCxx, [const_enum_cpp]);
   (RunCython Type_, [const_enum_pyx]);
   (RunCython Tag, [const_enum_pyx_tag])] = true.
Proof. vm_compute. reflexivity. Qed.

(** ** tests/rust/const_generics.rs *)
Definition const_generics_rs : list sitem := [
  (ItemStruct [{| at_meta := (AList (Some "repr") [(APath (Some "transparent"))]); at_outer := true |}] "CArrayString" [(SGConst "CAP"
  (SPath (SegPath [] "usize" NoArgs)) None)] (FieldsNamed [{| sf_attrs := []; sf_ident := (Some "chars"); sf_ty := (SArray (SPath
  (SegPath [] "i8" NoArgs)) (XPath (SegPath [] "CAP" NoArgs))) |}]));
  (ItemConst [] true "TITLE_SIZE" (SPath (SegPath [] "usize" NoArgs)) (XLit (LitInt 80 "")));
  (ItemStruct [{| at_meta := (AList (Some "repr") [(APath (Some "C"))]); at_outer := true |}] "Book" [] (FieldsNamed [{| sf_attrs :=
  []; sf_ident := (Some "title"); sf_ty := (SPath (SegPath [] "CArrayString" (AngleArgs [(ArgType (SPath (SegPath [] "TITLE_SIZE"
  NoArgs)))]))) |}; {| sf_attrs := []; sf_ident := (Some "author"); sf_ty := (SPath (SegPath [] "CArrayString" (AngleArgs [(ArgConst
  (XLit (LitInt 40 "")))]))) |}]));
  (ItemFn [{| at_meta := (APath (Some "no_mangle")); at_outer := true |}] true {| sg_ident := "root"; sg_abi := (Some (Some "C")); sg_inputs
  := [(FnTyped (PatIdent "a") (SPtr true (SPath (SegPath [] "Book" NoArgs))))]; sg_variadic := false; sg_output := None |})].
(** tests/expectations/const_generics.compat.c *)
Definition const_generics_compat : string := "#include <stdarg.h>
#include <stdbool.h>
#include <stdint.h>
#include <stdlib.h>

#define TITLE_SIZE 80

typedef int8_t CArrayString_TITLE_SIZE[TITLE_SIZE];

typedef int8_t CArrayString_40[40];

typedef struct {
  CArrayString_TITLE_SIZE title;
  CArrayString_40 author;
} Book;

#ifdef __cplusplus
extern ""C"" {
#endif // __cplusplus

void root(Book *a);

#ifdef __cplusplus
}  // extern ""C""
#endif  // __cplusplus
".
(** tests/expectations/const_generics_tag.compat.c *)
Definition const_generics_compat_tag : string := "#include <stdarg.h>
#include <stdbool.h>
#include <stdint.h>
#include <stdlib.h>

#define TITLE_SIZE 80

typedef int8_t CArrayString_TITLE_SIZE[TITLE_SIZE];

typedef int8_t CArrayString_40[40];

struct Book {
  CArrayString_TITLE_SIZE title;
  CArrayString_40 author;
};

#ifdef __cplusplus
extern ""C"" {
#endif // __cplusplus

void root(struct Book *a);

#ifdef __cplusplus
}  // extern ""C""
#endif  // __cplusplus
".
(** tests/expectations/const_generics_both.compat.c *)
Definition const_generics_compat_both : string := "#include <stdarg.h>
#include <stdbool.h>
#include <stdint.h>
#include <stdlib.h>

#define TITLE_SIZE 80

typedef int8_t CArrayString_TITLE_SIZE[TITLE_SIZE];

typedef int8_t CArrayString_40[40];

typedef struct Book {
  CArrayString_TITLE_SIZE title;
  CArrayString_40 author;
} Book;

#ifdef __cplusplus
extern ""C"" {
#endif // __cplusplus

void root(struct Book *a);

#ifdef __cplusplus
}  // extern ""C""
#endif  // __cplusplus
".
(** tests/expectations/const_generics.c *)
Definition const_generics_c : string := "#include <stdarg.h>
#include <stdbool.h>
#include <stdint.h>
#include <stdlib.h>

#define TITLE_SIZE 80

typedef int8_t CArrayString_TITLE_SIZE[TITLE_SIZE];

typedef int8_t CArrayString_40[40];

typedef struct {
  CArrayString_TITLE_SIZE title;
  CArrayString_40 author;
} Book;

void root(Book *a);
".
(** tests/expectations/const_generics_tag.c *)
Definition const_generics_c_tag : string := "#include <stdarg.h>
#include <stdbool.h>
#include <stdint.h>
#include <stdlib.h>

#define TITLE_SIZE 80

typedef int8_t CArrayString_TITLE_SIZE[TITLE_SIZE];

typedef int8_t CArrayString_40[40];

struct Book {
  CArrayString_TITLE_SIZE title;
  CArrayString_40 author;
};

void root(struct Book *a);
".
(** tests/expectations/const_generics_both.c *)
Definition const_generics_c_both : string := "#include <stdarg.h>
#include <stdbool.h>
#include <stdint.h>
#include <stdlib.h>

#define TITLE_SIZE 80

typedef int8_t CArrayString_TITLE_SIZE[TITLE_SIZE];

typedef int8_t CArrayString_40[40];

typedef struct Book {
  CArrayString_TITLE_SIZE title;
  CArrayString_40 author;
} Book;

void root(struct Book *a);
".
(** tests/expectations/const_generics.cpp *)
Definition const_generics_cpp : string := "#include <cstdarg>
#include <cstdint>
#include <cstdlib>
#include <ostream>
#include <new>

constexpr static const uintptr_t TITLE_SIZE = 80;

template<uintptr_t CAP>
using CArrayString = int8_t[CAP];

struct Book {
  CArrayString<TITLE_SIZE> title;
  CArrayString<40> author;
};

extern ""C"" {

void root(Book *a);

}  // extern ""C""
".
(** tests/expectations/const_generics.pyx *)
Definition const_generics_pyx : string := "from libc.stdint cimport int8_t, int16_t, int32_t, int64_t, intptr_t
from libc.stdint cimport uint8_t, uint16_t, uint32_t, uint64_t, uintptr_t
cdef extern from *:
  ctypedef bint bool
  ctypedef struct va_list

cdef extern from *:

  const uintptr_t TITLE_SIZE # = 80

  ctypedef int8_t CArrayString_TITLE_SIZE[TITLE_SIZE];

  ctypedef int8_t CArrayString_40[40];

  ctypedef struct Book:
    CArrayString_TITLE_SIZE title;
    CArrayString_40 author;

  void root(Book *a);
".
(** tests/expectations/const_generics_tag.pyx *)
Definition const_generics_pyx_tag : string := "from libc.stdint cimport int8_t, int16_t, int32_t, int64_t, intptr_t
from libc.stdint cimport uint8_t, uint16_t, uint32_t, uint64_t, uintptr_t
cdef extern from *:
  ctypedef bint bool
  ctypedef struct va_list

cdef extern from *:

  const uintptr_t TITLE_SIZE # = 80

  ctypedef int8_t CArrayString_TITLE_SIZE[TITLE_SIZE];

  ctypedef int8_t CArrayString_40[40];

  cdef struct Book:
    CArrayString_TITLE_SIZE title;
    CArrayString_40 author;

  void root(Book *a);
".
Example const_generics_reproduced : reproduces (in_file const_generics_rs) false default_config (Some "{
root;
};")
  [(RunC true Type_, [const_generics_compat]);
   (RunC true Tag, [const_generics_compat_tag]);
   (RunC true Both, [const_generics_compat_both]);
   (RunC false Type_, [const_generics_c]);
   (RunC false Tag, [const_generics_c_tag]);
   (RunC false Both, [const_generics_c_both]);
   (RunCxx, [const_generics_cpp]);
   (RunCython Type_, [const_generics_pyx]);
   (RunCython Tag, [const_generics_pyx_tag])] = true.
Proof. vm_compute. reflexivity. Qed.

(** ** tests/rust/const_generics_arrayvec.rs *)
Definition const_generics_arrayvec_rs : list sitem := [
  (ItemStruct [{| at_meta := (AList (Some "repr") [(APath (Some "C"))]); at_outer := true |}] "ArrayVec" [(SGType "T" None); (SGConst
  "CAP" (SPath (SegPath [] "usize" NoArgs)) None)] (FieldsNamed [{| sf_attrs := []; sf_ident := (Some "xs"); sf_ty := (SArray (SPath
  (SegPath [] "T" NoArgs)) (XPath (SegPath [] "CAP" NoArgs))) |}; {| sf_attrs := []; sf_ident := (Some "len"); sf_ty := (SPath (SegPath
  [] "u32" NoArgs)) |}]));
  (ItemFn [{| at_meta := (APath (Some "no_mangle")); at_outer := true |}] true {| sg_ident := "push"; sg_abi := (Some (Some "C")); sg_inputs
  := [(FnTyped (PatIdent "v") (SPtr true (SPath (SegPath [] "ArrayVec" (AngleArgs [(ArgType (SPtr true (SPath (SegPath [] "u8" NoArgs))));
  (ArgConst (XLit (LitInt 100 "")))]))))); (FnTyped (PatIdent "elem") (SPtr true (SPath (SegPath [] "u8" NoArgs))))]; sg_variadic
  := false; sg_output := (Some (SPath (SegPath [] "i32" NoArgs))) |})].
(** tests/expectations/const_generics_arrayvec.compat.c *)
Definition const_generics_arrayvec_compat : string := "#include <stdarg.h>
#include <stdbool.h>
#include <stdint.h>
#include <stdlib.h>

typedef struct {
  uint8_t *xs[100];
  uint32_t len;
} ArrayVec_____u8__100;

#ifdef __cplusplus
extern ""C"" {
#endif // __cplusplus

int32_t push(ArrayVec_____u8__100 *v, uint8_t *elem);

#ifdef __cplusplus
}  // extern ""C""
#endif  // __cplusplus
".
(** tests/expectations/const_generics_arrayvec_tag.compat.c *)
Definition const_generics_arrayvec_compat_tag : string := "#include <stdarg.h>
#include <stdbool.h>
#include <stdint.h>
#include <stdlib.h>

struct ArrayVec_____u8__100 {
  uint8_t *xs[100];
  uint32_t len;
};

#ifdef __cplusplus
extern ""C"" {
#endif // __cplusplus

int32_t push(struct ArrayVec_____u8__100 *v, uint8_t *elem);

#ifdef __cplusplus
}  // extern ""C""
#endif  // __cplusplus
".
(** tests/expectations/const_generics_arrayvec_both.compat.c *)
Definition const_generics_arrayvec_compat_both : string := "#include <stdarg.h>
#include <stdbool.h>
#include <stdint.h>
#include <stdlib.h>

typedef struct ArrayVec_____u8__100 {
  uint8_t *xs[100];
  uint32_t len;
} ArrayVec_____u8__100;

#ifdef __cplusplus
extern ""C"" {
#endif // __cplusplus

int32_t push(struct ArrayVec_____u8__100 *v, uint8_t *elem);

#ifdef __cplusplus
}  // extern ""C""
#endif  // __cplusplus
".
(** tests/expectations/const_generics_arrayvec.c *)
Definition const_generics_arrayvec_c : string := "#include <stdarg.h>
#include <stdbool.h>
#include <stdint.h>
#include <stdlib.h>

typedef struct {
  uint8_t *xs[100];
  uint32_t len;
} ArrayVec_____u8__100;

int32_t push(ArrayVec_____u8__100 *v, uint8_t *elem);
".
(** tests/expectations/const_generics_arrayvec_tag.c *)
Definition const_generics_arrayvec_c_tag : string := "#include <stdarg.h>
#include <stdbool.h>
#include <stdint.h>
#include <stdlib.h>

struct ArrayVec_____u8__100 {
  uint8_t *xs[100];
  uint32_t len;
};

int32_t push(struct ArrayVec_____u8__100 *v, uint8_t *elem);
".
(** tests/expectations/const_generics_arrayvec_both.c *)
Definition const_generics_arrayvec_c_both : string := "#include <stdarg.h>
#include <stdbool.h>
#include <stdint.h>
#include <stdlib.h>

typedef struct ArrayVec_____u8__100 {
  uint8_t *xs[100];
  uint32_t len;
} ArrayVec_____u8__100;

int32_t push(struct ArrayVec_____u8__100 *v, uint8_t *elem);
".
(** tests/expectations/const_generics_arrayvec.cpp *)
Definition const_generics_arrayvec_cpp : string := "#include <cstdarg>
#include <cstdint>
#include <cstdlib>
#include <ostream>
#include <new>

template<typename T, uintptr_t CAP>
struct ArrayVec {
  T xs[CAP];
  uint32_t len;
};

extern ""C"" {

int32_t push(ArrayVec<uint8_t*, 100> *v, uint8_t *elem);

}  // extern ""C""
".
(** tests/expectations/const_generics_arrayvec.pyx *)
Definition const_generics_arrayvec_pyx : string := "from libc.stdint cimport int8_t, int16_t, int32_t, int64_t, intptr_t
from libc.stdint cimport uint8_t, uint16_t, uint32_t, uint64_t, uintptr_t
cdef extern from *:
  ctypedef bint bool
  ctypedef struct va_list

cdef extern from *:

  ctypedef struct ArrayVec_____u8__100:
    uint8_t *xs[100];
    uint32_t len;

  int32_t push(ArrayVec_____u8__100 *v, uint8_t *elem);
".
(** tests/expectations/const_generics_arrayvec_tag.pyx *)
Definition const_generics_arrayvec_pyx_tag : string := "from libc.stdint cimport int8_t, int16_t, int32_t, int64_t, intptr_t
from libc.stdint cimport uint8_t, uint16_t, uint32_t, uint64_t, uintptr_t
cdef extern from *:
  ctypedef bint bool
  ctypedef struct va_list

cdef extern from *:

  cdef struct ArrayVec_____u8__100:
    uint8_t *xs[100];
    uint32_t len;

  int32_t push(ArrayVec_____u8__100 *v, uint8_t *elem);
".
Example const_generics_arrayvec_reproduced : reproduces (in_file const_generics_arrayvec_rs) false default_config (Some "{
push;
};")
  [(RunC true Type_, [const_generics_arrayvec_compat]);
   (RunC true Tag, [const_generics_arrayvec_compat_tag]);
   (RunC true Both, [const_generics_arrayvec_compat_both]);
   (RunC false Type_, [const_generics_arrayvec_c]);
   (RunC false Tag, [const_generics_arrayvec_c_tag]);
   (RunC false Both, [const_generics_arrayvec_c_both]);
   (RunCxx, [const_generics_arrayvec_cpp]);
   (RunCython Type_, [const_generics_arrayvec_pyx]);
   (RunCython Tag, [const_generics_arrayvec_pyx_tag])] = true.
Proof. vm_compute. reflexivity. Qed.

(** ** tests/rust/const_generics_bool.rs *)
Definition const_generics_bool_rs : list sitem := [
  (ItemOther []);
  (ItemOther []);
  (ItemStruct [{| at_meta := (AList (Some "repr") [(APath (Some "C"))]); at_outer := true |}] "HashTable" [(SGType "K" None); (SGType
  "V" None); (SGConst "IS_MAP" (SPath (SegPath [] "bool" NoArgs)) None)] (FieldsNamed [{| sf_attrs := []; sf_ident := (Some "num_buckets");
  sf_ty := (SPath (SegPath [] "usize" NoArgs)) |}; {| sf_attrs := []; sf_ident := (Some "capacity"); sf_ty := (SPath (SegPath [] "usize"
  NoArgs)) |}; {| sf_attrs := []; sf_ident := (Some "occupied"); sf_ty := (SPtr true (SPath (SegPath [] "u8" NoArgs))) |}; {| sf_attrs
  := []; sf_ident := (Some "keys"); sf_ty := (SPtr true (SPath (SegPath [] "MaybeUninit" (AngleArgs [(ArgType (SPath (SegPath [] "K"
  NoArgs)))])))) |}; {| sf_attrs := []; sf_ident := (Some "vals"); sf_ty := (SPtr true (SPath (SegPath [] "MaybeUninit" (AngleArgs
  [(ArgType (SPath (SegPath [] "V" NoArgs)))])))) |}]));
  (ItemType [] "Str" [] (SPtr false (SPath (SegPath [] "c_char" NoArgs))));
  (ItemType [] "HashMap" [(SGType "K" None); (SGType "V" None)] (SPath (SegPath [] "HashTable" (AngleArgs [(ArgType (SPath (SegPath
  [] "K" NoArgs))); (ArgType (SPath (SegPath [] "V" NoArgs))); (ArgConst (XLit (LitBool true)))]))));
  (ItemType [] "HashSet" [(SGType "K" None)] (SPath (SegPath [] "HashTable" (AngleArgs [(ArgType (SPath (SegPath [] "K" NoArgs))); (ArgType
  (SPath (SegPath [] "u8" NoArgs))); (ArgConst (XLit (LitBool false)))]))));
  (ItemImpl [] (SPath (SegPath [] "HashTable" (AngleArgs [(ArgType (SPath (SegPath [] "K" NoArgs))); (ArgType (SPath (SegPath [] "V"
  NoArgs))); (ArgType (SPath (SegPath [] "IS_MAP" NoArgs)))]))) [(ImplFn [] true {| sg_ident := "new"; sg_abi := None; sg_inputs :=
  []; sg_variadic := false; sg_output := (Some (SPath (SegPath [] "Self" NoArgs))) |})]);
  (ItemType [] "MySet" [] (SPath (SegPath [] "HashTable" (AngleArgs [(ArgType (SPath (SegPath [] "Str" NoArgs))); (ArgType (SPath (SegPath
  [] "c_char" NoArgs))); (ArgConst (XLit (LitBool false)))]))));
  (ItemFn [{| at_meta := (APath (Some "no_mangle")); at_outer := true |}] true {| sg_ident := "new_set"; sg_abi := (Some (Some "C"));
  sg_inputs := []; sg_variadic := false; sg_output := (Some (SPtr true (SPath (SegPath [] "MySet" NoArgs)))) |});
  (ItemType [] "SetCallback" [] (SFnPtr [((Some "key"), (SPath (SegPath [] "Str" NoArgs)))] false None));
  (ItemFn [{| at_meta := (APath (Some "no_mangle")); at_outer := true |}] true {| sg_ident := "set_for_each"; sg_abi := (Some (Some
  "C")); sg_inputs := [(FnTyped (PatIdent "set") (SPtr false (SPath (SegPath [] "MySet" NoArgs)))); (FnTyped (PatIdent "callback")
  (SPath (SegPath [] "SetCallback" NoArgs)))]; sg_variadic := false; sg_output := None |});
  (ItemFn [{| at_meta := (APath (Some "no_mangle")); at_outer := true |}] true {| sg_ident := "new_map"; sg_abi := (Some (Some "C"));
  sg_inputs := []; sg_variadic := false; sg_output := (Some (SPtr true (SPath (SegPath [] "HashTable" (AngleArgs [(ArgType (SPath
  (SegPath [] "Str" NoArgs))); (ArgType (SPath (SegPath [] "u64" NoArgs))); (ArgConst (XLit (LitBool true)))]))))) |});
  (ItemType [] "MapCallback" [] (SFnPtr [((Some "key"), (SPath (SegPath [] "Str" NoArgs))); ((Some "val"), (SPath (SegPath [] "u64"
  NoArgs)))] false None));
  (ItemFn [{| at_meta := (APath (Some "no_mangle")); at_outer := true |}] true {| sg_ident := "map_for_each"; sg_abi := (Some (Some
  "C")); sg_inputs := [(FnTyped (PatIdent "map") (SPtr false (SPath (SegPath [] "HashTable" (AngleArgs [(ArgType (SPath (SegPath []
  "Str" NoArgs))); (ArgType (SPath (SegPath [] "u64" NoArgs))); (ArgConst (XLit (LitBool true)))]))))); (FnTyped (PatIdent "callback")
  (SPath (SegPath [] "MapCallback" NoArgs)))]; sg_variadic := false; sg_output := None |})].
(** tests/expectations/const_generics_bool.compat.c *)
Definition const_generics_bool_compat : string := "#include <stdarg.h>
#include <stdbool.h>
#include <stdint.h>
#include <stdlib.h>

typedef const char *Str;

typedef struct {
  uintptr_t num_buckets;
  uintptr_t capacity;
  uint8_t *occupied;
  Str *keys;
  char *vals;
} HashTable_Str__c_char__false;

typedef HashTable_Str__c_char__false MySet;

typedef void (*SetCallback)(Str key);

typedef struct {
  uintptr_t num_buckets;
  uintptr_t capacity;
  uint8_t *occupied;
  Str *keys;
  uint64_t *vals;
} HashTable_Str__u64__true;

typedef void (*MapCallback)(Str key, uint64_t val);

#ifdef __cplusplus
extern ""C"" {
#endif // __cplusplus

MySet *new_set(void);

void set_for_each(const MySet *set, SetCallback callback);

HashTable_Str__u64__true *new_map(void);

void map_for_each(const HashTable_Str__u64__true *map, MapCallback callback);

#ifdef __cplusplus
}  // extern ""C""
#endif  // __cplusplus
".
(** tests/expectations/const_generics_bool_tag.compat.c *)
Definition const_generics_bool_compat_tag : string := "#include <stdarg.h>
#include <stdbool.h>
#include <stdint.h>
#include <stdlib.h>

typedef const char *Str;

struct HashTable_Str__c_char__false {
  uintptr_t num_buckets;
  uintptr_t capacity;
  uint8_t *occupied;
  Str *keys;
  char *vals;
};

typedef struct HashTable_Str__c_char__false MySet;

typedef void (*SetCallback)(Str key);

struct HashTable_Str__u64__true {
  uintptr_t num_buckets;
  uintptr_t capacity;
  uint8_t *occupied;
  Str *keys;
  uint64_t *vals;
};

typedef void (*MapCallback)(Str key, uint64_t val);

#ifdef __cplusplus
extern ""C"" {
#endif // __cplusplus

MySet *new_set(void);

void set_for_each(const MySet *set, SetCallback callback);

struct HashTable_Str__u64__true *new_map(void);

void map_for_each(const struct HashTable_Str__u64__true *map, MapCallback callback);

#ifdef __cplusplus
}  // extern ""C""
#endif  // __cplusplus
".
(** tests/expectations/const_generics_bool_both.compat.c *)
Definition const_generics_bool_compat_both : string := "#include <stdarg.h>
#include <stdbool.h>
#include <stdint.h>
#include <stdlib.h>

typedef const char *Str;

typedef struct HashTable_Str__c_char__false {
  uintptr_t num_buckets;
  uintptr_t capacity;
  uint8_t *occupied;
  Str *keys;
  char *vals;
} HashTable_Str__c_char__false;

typedef struct HashTable_Str__c_char__false MySet;

typedef void (*SetCallback)(Str key);

typedef struct HashTable_Str__u64__true {
  uintptr_t num_buckets;
  uintptr_t capacity;
  uint8_t *occupied;
  Str *keys;
  uint64_t *vals;
} HashTable_Str__u64__true;

typedef void (*MapCallback)(Str key, uint64_t val);

#ifdef __cplusplus
extern ""C"" {
#endif // __cplusplus

MySet *new_set(void);

void set_for_each(const MySet *set, SetCallback callback);

struct HashTable_Str__u64__true *new_map(void);

void map_for_each(const struct HashTable_Str__u64__true *map, MapCallback callback);

#ifdef __cplusplus
}  // extern ""C""
#endif  // __cplusplus
".
(** tests/expectations/const_generics_bool.c *)
Definition const_generics_bool_c : string := "#include <stdarg.h>
#include <stdbool.h>
#include <stdint.h>
#include <stdlib.h>

typedef const char *Str;

typedef struct {
  uintptr_t num_buckets;
  uintptr_t capacity;
  uint8_t *occupied;
  Str *keys;
  char *vals;
} HashTable_Str__c_char__false;

typedef HashTable_Str__c_char__false MySet;

typedef void (*SetCallback)(Str key);

typedef struct {
  uintptr_t num_buckets;
  uintptr_t capacity;
  uint8_t *occupied;
  Str *keys;
  uint64_t *vals;
} HashTable_Str__u64__true;

typedef void (*MapCallback)(Str key, uint64_t val);

MySet *new_set(void);

void set_for_each(const MySet *set, SetCallback callback);

HashTable_Str__u64__true *new_map(void);

void map_for_each(const HashTable_Str__u64__true *map, MapCallback callback);
".
(** tests/expectations/const_generics_bool_tag.c *)
Definition const_generics_bool_c_tag : string := "#include <stdarg.h>
#include <stdbool.h>
#include <stdint.h>
#include <stdlib.h>

typedef const char *Str;

struct HashTable_Str__c_char__false {
  uintptr_t num_buckets;
  uintptr_t capacity;
  uint8_t *occupied;
  Str *keys;
  char *vals;
};

typedef struct HashTable_Str__c_char__false MySet;

typedef void (*SetCallback)(Str key);

struct HashTable_Str__u64__true {
  uintptr_t num_buckets;
  uintptr_t capacity;
  uint8_t *occupied;
  Str *keys;
  uint64_t *vals;
};

typedef void (*MapCallback)(Str key, uint64_t val);

MySet *new_set(void);

void set_for_each(const MySet *set, SetCallback callback);

struct HashTable_Str__u64__true *new_map(void);

void map_for_each(const struct HashTable_Str__u64__true *map, MapCallback callback);
".
(** tests/expectations/const_generics_bool_both.c *)
Definition const_generics_bool_c_both : string := "#include <stdarg.h>
#include <stdbool.h>
#include <stdint.h>
#include <stdlib.h>

typedef const char *Str;

typedef struct HashTable_Str__c_char__false {
  uintptr_t num_buckets;
  uintptr_t capacity;
  uint8_t *occupied;
  Str *keys;
  char *vals;
} HashTable_Str__c_char__false;

typedef struct HashTable_Str__c_char__false MySet;

typedef void (*SetCallback)(Str key);

typedef struct HashTable_Str__u64__true {
  uintptr_t num_buckets;
  uintptr_t capacity;
  uint8_t *occupied;
  Str *keys;
  uint64_t *vals;
} HashTable_Str__u64__true;

typedef void (*MapCallback)(Str key, uint64_t val);

MySet *new_set(void);

void set_for_each(const MySet *set, SetCallback callback);

struct HashTable_Str__u64__true *new_map(void);

void map_for_each(const struct HashTable_Str__u64__true *map, MapCallback callback);
".
(** tests/expectations/const_generics_bool.cpp *)
Definition const_generics_bool_cpp : string := "#include <cstdarg>
#include <cstdint>
#include <cstdlib>
#include <ostream>
#include <new>

template<typename T = void>
struct MaybeUninit;

using Str = const char*;

template<typename K, typename V, bool IS_MAP>
struct HashTable {
  uintptr_t num_buckets;
  uintptr_t capacity;
  uint8_t *occupied;
  MaybeUninit<K> *keys;
  MaybeUninit<V> *vals;
};

using MySet = HashTable<Str, char, false>;

using SetCallback = void(*)(Str key);

using MapCallback = void(*)(Str key, uint64_t val);

extern ""C"" {

MySet *new_set();

void set_for_each(const MySet *set, SetCallback callback);

HashTable<Str, uint64_t, true> *new_map();

void map_for_each(const HashTable<Str, uint64_t, true> *map, MapCallback callback);

}  // extern ""C""
".
(** tests/expectations/const_generics_bool.pyx *)
Definition const_generics_bool_pyx : string := "from libc.stdint cimport int8_t, int16_t, int32_t, int64_t, intptr_t
from libc.stdint cimport uint8_t, uint16_t, uint32_t, uint64_t, uintptr_t
cdef extern from *:
  ctypedef bint bool
  ctypedef struct va_list

cdef extern from *:

  ctypedef const char *Str;

  ctypedef struct HashTable_Str__c_char__false:
    uintptr_t num_buckets;
    uintptr_t capacity;
    uint8_t *occupied;
    Str *keys;
    char *vals;

  ctypedef HashTable_Str__c_char__false MySet;

  ctypedef void (*SetCallback)(Str key);

  ctypedef struct HashTable_Str__u64__true:
    uintptr_t num_buckets;
    uintptr_t capacity;
    uint8_t *occupied;
    Str *keys;
    uint64_t *vals;

  ctypedef void (*MapCallback)(Str key, uint64_t val);

  MySet *new_set();

  void set_for_each(const MySet *set, SetCallback callback);

  HashTable_Str__u64__true *new_map();

  void map_for_each(const HashTable_Str__u64__true *map, MapCallback callback);
".
(** tests/expectations/const_generics_bool_tag.pyx *)
Definition const_generics_bool_pyx_tag : string := "from libc.stdint cimport int8_t, int16_t, int32_t, int64_t, intptr_t
from libc.stdint cimport uint8_t, uint16_t, uint32_t, uint64_t, uintptr_t
cdef extern from *:
  ctypedef bint bool
  ctypedef struct va_list

cdef extern from *:

  ctypedef const char *Str;

  cdef struct HashTable_Str__c_char__false:
    uintptr_t num_buckets;
    uintptr_t capacity;
    uint8_t *occupied;
    Str *keys;
    char *vals;

  ctypedef HashTable_Str__c_char__false MySet;

  ctypedef void (*SetCallback)(Str key);

  cdef struct HashTable_Str__u64__true:
    uintptr_t num_buckets;
    uintptr_t capacity;
    uint8_t *occupied;
    Str *keys;
    uint64_t *vals;

  ctypedef void (*MapCallback)(Str key, uint64_t val);

  MySet *new_set();

  void set_for_each(const MySet *set, SetCallback callback);

  HashTable_Str__u64__true *new_map();

  void map_for_each(const HashTable_Str__u64__true *map, MapCallback callback);
".
Example const_generics_bool_reproduced : reproduces (in_file const_generics_bool_rs) false default_config (Some "{
new_set;
set_for_each;
new_map;
map_for_each;
};")
  [(RunC true Type_, [const_generics_bool_compat]);
   (RunC true Tag, [const_generics_bool_compat_tag]);
   (RunC true Both, [const_generics_bool_compat_both]);
   (RunC false Type_, [const_generics_bool_c]);
   (RunC false Tag, [const_generics_bool_c_tag]);
   (RunC false Both, [const_generics_bool_c_both]);
   (RunCxx, [const_generics_bool_cpp]);
   (RunCython Type_, [const_generics_bool_pyx]);
   (RunCython Tag, [const_generics_bool_pyx_tag])] = true.
Proof. vm_compute. reflexivity. Qed.

(** ** tests/rust/const_generics_byte.rs *)
Definition const_generics_byte_rs : list sitem := [
  (ItemStruct [{| at_meta := (AList (Some "repr") [(APath (Some "C"))]); at_outer := true |}] "Parser" [(SGConst "OPEN" (SPath (SegPath
  [] "u8" NoArgs)) None); (SGConst "CLOSE" (SPath (SegPath [] "u8" NoArgs)) None)] (FieldsNamed [{| sf_attrs := []; sf_ident := (Some
  "buf"); sf_ty := (SPtr true (SPath (SegPath [] "u8" NoArgs))) |}; {| sf_attrs := []; sf_ident := (Some "len"); sf_ty := (SPath (SegPath
  [] "usize" NoArgs)) |}]));
  (ItemFn [{| at_meta := (APath (Some "no_mangle")); at_outer := true |}] true {| sg_ident := "init_parens_parser"; sg_abi := (Some
  (Some "C")); sg_inputs := [(FnTyped (PatIdent "p") (SPtr true (SPath (SegPath [] "Parser" (AngleArgs [(ArgConst (XLit (LitByte 40)));
  (ArgConst (XLit (LitByte 41)))]))))); (FnTyped (PatIdent "buf") (SPtr true (SPath (SegPath [] "u8" NoArgs)))); (FnTyped (PatIdent
  "len") (SPath (SegPath [] "usize" NoArgs)))]; sg_variadic := false; sg_output := None |});
  (ItemFn [{| at_meta := (APath (Some "no_mangle")); at_outer := true |}] true {| sg_ident := "destroy_parens_parser"; sg_abi := (Some
  (Some "C")); sg_inputs := [(FnTyped (PatIdent "p") (SPtr true (SPath (SegPath [] "Parser" (AngleArgs [(ArgConst (XLit (LitInt 40
  ""))); (ArgConst (XLit (LitInt 41 "")))])))))]; sg_variadic := false; sg_output := None |});
  (ItemFn [{| at_meta := (APath (Some "no_mangle")); at_outer := true |}] true {| sg_ident := "init_braces_parser"; sg_abi := (Some
  (Some "C")); sg_inputs := [(FnTyped (PatIdent "p") (SPtr true (SPath (SegPath [] "Parser" (AngleArgs [(ArgConst (XLit (LitByte 123)));
  (ArgConst (XLit (LitByte 125)))]))))); (FnTyped (PatIdent "buf") (SPtr true (SPath (SegPath [] "u8" NoArgs)))); (FnTyped (PatIdent
  "len") (SPath (SegPath [] "usize" NoArgs)))]; sg_variadic := false; sg_output := None |})].
(** tests/expectations/const_generics_byte.compat.c *)
Definition const_generics_byte_compat : string := "#include <stdarg.h>
#include <stdbool.h>
#include <stdint.h>
#include <stdlib.h>

typedef struct {
  uint8_t *buf;
  uintptr_t len;
} Parser_40__41;

typedef struct {
  uint8_t *buf;
  uintptr_t len;
} Parser_123__125;

#ifdef __cplusplus
extern ""C"" {
#endif // __cplusplus

void init_parens_parser(Parser_40__41 *p, uint8_t *buf, uintptr_t len);

void destroy_parens_parser(Parser_40__41 *p);

void init_braces_parser(Parser_123__125 *p, uint8_t *buf, uintptr_t len);

#ifdef __cplusplus
}  // extern ""C""
#endif  // __cplusplus
".
(** tests/expectations/const_generics_byte_tag.compat.c *)
Definition const_generics_byte_compat_tag : string := "#include <stdarg.h>
#include <stdbool.h>
#include <stdint.h>
#include <stdlib.h>

struct Parser_40__41 {
  uint8_t *buf;
  uintptr_t len;
};

struct Parser_123__125 {
  uint8_t *buf;
  uintptr_t len;
};

#ifdef __cplusplus
extern ""C"" {
#endif // __cplusplus

void init_parens_parser(struct Parser_40__41 *p, uint8_t *buf, uintptr_t len);

void destroy_parens_parser(struct Parser_40__41 *p);

void init_braces_parser(struct Parser_123__125 *p, uint8_t *buf, uintptr_t len);

#ifdef __cplusplus
}  // extern ""C""
#endif  // __cplusplus
".
(** tests/expectations/const_generics_byte_both.compat.c *)
Definition const_generics_byte_compat_both : string := "#include <stdarg.h>
#include <stdbool.h>
#include <stdint.h>
#include <stdlib.h>

typedef struct Parser_40__41 {
  uint8_t *buf;
  uintptr_t len;
} Parser_40__41;

typedef struct Parser_123__125 {
  uint8_t *buf;
  uintptr_t len;
} Parser_123__125;

#ifdef __cplusplus
extern ""C"" {
#endif // __cplusplus

void init_parens_parser(struct Parser_40__41 *p, uint8_t *buf, uintptr_t len);

void destroy_parens_parser(struct Parser_40__41 *p);

void init_braces_parser(struct Parser_123__125 *p, uint8_t *buf, uintptr_t len);

#ifdef __cplusplus
}  // extern ""C""
#endif  // __cplusplus
".
(** tests/expectations/const_generics_byte.c *)
Definition const_generics_byte_c : string := "#include <stdarg.h>
#include <stdbool.h>
#include <stdint.h>
#include <stdlib.h>

typedef struct {
  uint8_t *buf;
  uintptr_t len;
} Parser_40__41;

typedef struct {
  uint8_t *buf;
  uintptr_t len;
} Parser_123__125;

void init_parens_parser(Parser_40__41 *p, uint8_t *buf, uintptr_t len);

void destroy_parens_parser(Parser_40__41 *p);

void init_braces_parser(Parser_123__125 *p, uint8_t *buf, uintptr_t len);
".
(** tests/expectations/const_generics_byte_tag.c *)
Definition const_generics_byte_c_tag : string := "#include <stdarg.h>
#include <stdbool.h>
#include <stdint.h>
#include <stdlib.h>

struct Parser_40__41 {
  uint8_t *buf;
  uintptr_t len;
};

struct Parser_123__125 {
  uint8_t *buf;
  uintptr_t len;
};

void init_parens_parser(struct Parser_40__41 *p, uint8_t *buf, uintptr_t len);

void destroy_parens_parser(struct Parser_40__41 *p);

void init_braces_parser(struct Parser_123__125 *p, uint8_t *buf, uintptr_t len);
".
(** tests/expectations/const_generics_byte_both.c *)
Definition const_generics_byte_c_both : string := "#include <stdarg.h>
#include <stdbool.h>
#include <stdint.h>
#include <stdlib.h>

typedef struct Parser_40__41 {
  uint8_t *buf;
  uintptr_t len;
} Parser_40__41;

typedef struct Parser_123__125 {
  uint8_t *buf;
  uintptr_t len;
} Parser_123__125;

void init_parens_parser(struct Parser_40__41 *p, uint8_t *buf, uintptr_t len);

void destroy_parens_parser(struct Parser_40__41 *p);

void init_braces_parser(struct Parser_123__125 *p, uint8_t *buf, uintptr_t len);
".
(** tests/expectations/const_generics_byte.cpp *)
Definition const_generics_byte_cpp : string := "#include <cstdarg>
#include <cstdint>
#include <cstdlib>
#include <ostream>
#include <new>

template<uint8_t OPEN, uint8_t CLOSE>
struct Parser {
  uint8_t *buf;
  uintptr_t len;
};

extern ""C"" {

void init_parens_parser(Parser<40, 41> *p, uint8_t *buf, uintptr_t len);

void destroy_parens_parser(Parser<40, 41> *p);

void init_braces_parser(Parser<123, 125> *p, uint8_t *buf, uintptr_t len);

}  // extern ""C""
".
(** tests/expectations/const_generics_byte.pyx *)
Definition const_generics_byte_pyx : string := "from libc.stdint cimport int8_t, int16_t, int32_t, int64_t, intptr_t
from libc.stdint cimport uint8_t, uint16_t, uint32_t, uint64_t, uintptr_t
cdef extern from *:
  ctypedef bint bool
  ctypedef struct va_list

cdef extern from *:

  ctypedef struct Parser_40__41:
    uint8_t *buf;
    uintptr_t len;

  ctypedef struct Parser_123__125:
    uint8_t *buf;
    uintptr_t len;

  void init_parens_parser(Parser_40__41 *p, uint8_t *buf, uintptr_t len);

  void destroy_parens_parser(Parser_40__41 *p);

  void init_braces_parser(Parser_123__125 *p, uint8_t *buf, uintptr_t len);
".
(** tests/expectations/const_generics_byte_tag.pyx *)
Definition const_generics_byte_pyx_tag : string := "from libc.stdint cimport int8_t, int16_t, int32_t, int64_t, intptr_t
from libc.stdint cimport uint8_t, uint16_t, uint32_t, uint64_t, uintptr_t
cdef extern from *:
  ctypedef bint bool
  ctypedef struct va_list

cdef extern from *:

  cdef struct Parser_40__41:
    uint8_t *buf;
    uintptr_t len;

  cdef struct Parser_123__125:
    uint8_t *buf;
    uintptr_t len;

  void init_parens_parser(Parser_40__41 *p, uint8_t *buf, uintptr_t len);

  void destroy_parens_parser(Parser_40__41 *p);

  void init_braces_parser(Parser_123__125 *p, uint8_t *buf, uintptr_t len);
".
Example const_generics_byte_reproduced : reproduces (in_file const_generics_byte_rs) false default_config (Some "{
init_parens_parser;
destroy_parens_parser;
init_braces_parser;
};")
  [(RunC true Type_, [const_generics_byte_compat]);
   (RunC true Tag, [const_generics_byte_compat_tag]);
   (RunC true Both, [const_generics_byte_compat_both]);
   (RunC false Type_, [const_generics_byte_c]);
   (RunC false Tag, [const_generics_byte_c_tag]);
   (RunC false Both, [const_generics_byte_c_both]);
   (RunCxx, [const_generics_byte_cpp]);
   (RunCython Type_, [const_generics_byte_pyx]);
   (RunCython Tag, [const_generics_byte_pyx_tag])] = true.
Proof. vm_compute. reflexivity. Qed.

(** ** tests/rust/const_generics_char.rs *)
Definition const_generics_char_rs : list sitem := [
  (ItemOther []);
  (ItemStruct [{| at_meta := (AList (Some "repr") [(APath (Some "C"))]); at_outer := true |}] "TakeUntil" [SGLifetime; (SGConst "V"
  (SPath (SegPath [] "char" NoArgs)) None)] (FieldsNamed [{| sf_attrs := []; sf_ident := (Some "marker"); sf_ty := (SPath (SegPath
  [] "PhantomData" (AngleArgs [(ArgType (SRef false (SPath (SegPath [] "str" NoArgs))))]))) |}; {| sf_attrs := []; sf_ident := (Some
  "start"); sf_ty := (SPtr false (SPath (SegPath [] "u8" NoArgs))) |}; {| sf_attrs := []; sf_ident := (Some "len"); sf_ty := (SPath
  (SegPath [] "usize" NoArgs)) |}; {| sf_attrs := []; sf_ident := (Some "point"); sf_ty := (SPath (SegPath [] "usize" NoArgs)) |}]));
  (ItemFn [{| at_meta := (APath (Some "no_mangle")); at_outer := true |}] true {| sg_ident := "until_nul"; sg_abi := (Some (Some "C"));
  sg_inputs := [(FnTyped (PatIdent "start") (SPtr false (SPath (SegPath [] "u8" NoArgs)))); (FnTyped (PatIdent "len") (SPath (SegPath
  [] "usize" NoArgs)))]; sg_variadic := false; sg_output := (Some (SPath (SegPath [] "TakeUntil" (AngleArgs [ArgLifetime; (ArgConst
  (XLit (LitChar 0)))])))) |})].
(** tests/expectations/const_generics_char.compat.c *)
Definition const_generics_char_compat : string := "#include <stdarg.h>
#include <stdbool.h>
#include <stdint.h>
#include <stdlib.h>

typedef struct {
  const uint8_t *start;
  uintptr_t len;
  uintptr_t point;
} TakeUntil_0;

#ifdef __cplusplus
extern ""C"" {
#endif // __cplusplus

TakeUntil_0 until_nul(const uint8_t *start, uintptr_t len);

#ifdef __cplusplus
}  // extern ""C""
#endif  // __cplusplus
".
(** tests/expectations/const_generics_char_tag.compat.c *)
Definition const_generics_char_compat_tag : string := "#include <stdarg.h>
#include <stdbool.h>
#include <stdint.h>
#include <stdlib.h>

struct TakeUntil_0 {
  const uint8_t *start;
  uintptr_t len;
  uintptr_t point;
};

#ifdef __cplusplus
extern ""C"" {
#endif // __cplusplus

struct TakeUntil_0 until_nul(const uint8_t *start, uintptr_t len);

#ifdef __cplusplus
}  // extern ""C""
#endif  // __cplusplus
".
(** tests/expectations/const_generics_char_both.compat.c *)
Definition const_generics_char_compat_both : string := "#include <stdarg.h>
#include <stdbool.h>
#include <stdint.h>
#include <stdlib.h>

typedef struct TakeUntil_0 {
  const uint8_t *start;
  uintptr_t len;
  uintptr_t point;
} TakeUntil_0;

#ifdef __cplusplus
extern ""C"" {
#endif // __cplusplus

struct TakeUntil_0 until_nul(const uint8_t *start, uintptr_t len);

#ifdef __cplusplus
}  // extern ""C""
#endif  // __cplusplus
".
(** tests/expectations/const_generics_char.c *)
Definition const_generics_char_c : string := "#include <stdarg.h>
#include <stdbool.h>
#include <stdint.h>
#include <stdlib.h>

typedef struct {
  const uint8_t *start;
  uintptr_t len;
  uintptr_t point;
} TakeUntil_0;

TakeUntil_0 until_nul(const uint8_t *start, uintptr_t len);
".
(** tests/expectations/const_generics_char_tag.c *)
Definition const_generics_char_c_tag : string := "#include <stdarg.h>
#include <stdbool.h>
#include <stdint.h>
#include <stdlib.h>

struct TakeUntil_0 {
  const uint8_t *start;
  uintptr_t len;
  uintptr_t point;
};

struct TakeUntil_0 until_nul(const uint8_t *start, uintptr_t len);
".
(** tests/expectations/const_generics_char_both.c *)
Definition const_generics_char_c_both : string := "#include <stdarg.h>
#include <stdbool.h>
#include <stdint.h>
#include <stdlib.h>

typedef struct TakeUntil_0 {
  const uint8_t *start;
  uintptr_t len;
  uintptr_t point;
} TakeUntil_0;

struct TakeUntil_0 until_nul(const uint8_t *start, uintptr_t len);
".
(** tests/expectations/const_generics_char.cpp *)
Definition const_generics_char_cpp : string := "#include <cstdarg>
#include <cstdint>
#include <cstdlib>
#include <ostream>
#include <new>

template<uint32_t V>
struct TakeUntil {
  const uint8_t *start;
  uintptr_t len;
  uintptr_t point;
};

extern ""C"" {

TakeUntil<0> until_nul(const uint8_t *start, uintptr_t len);

}  // extern ""C""
".
(** tests/expectations/const_generics_char.pyx *)
Definition const_generics_char_pyx : string := "from libc.stdint cimport int8_t, int16_t, int32_t, int64_t, intptr_t
from libc.stdint cimport uint8_t, uint16_t, uint32_t, uint64_t, uintptr_t
cdef extern from *:
  ctypedef bint bool
  ctypedef struct va_list

cdef extern from *:

  ctypedef struct TakeUntil_0:
    const uint8_t *start;
    uintptr_t len;
    uintptr_t point;

  TakeUntil_0 until_nul(const uint8_t *start, uintptr_t len);
".
(** tests/expectations/const_generics_char_tag.pyx *)
Definition const_generics_char_pyx_tag : string := "from libc.stdint cimport int8_t, int16_t, int32_t, int64_t, intptr_t
from libc.stdint cimport uint8_t, uint16_t, uint32_t, uint64_t, uintptr_t
cdef extern from *:
  ctypedef bint bool
  ctypedef struct va_list

cdef extern from *:

  cdef struct TakeUntil_0:
    const uint8_t *start;
    uintptr_t len;
    uintptr_t point;

  TakeUntil_0 until_nul(const uint8_t *start, uintptr_t len);
".
Example const_generics_char_reproduced : reproduces (in_file const_generics_char_rs) false default_config (Some "{
until_nul;
};")
  [(RunC true Type_, [const_generics_char_compat]);
   (RunC true Tag, [const_generics_char_compat_tag]);
   (RunC true Both, [const_generics_char_compat_both]);
   (RunC false Type_, [const_generics_char_c]);
   (RunC false Tag, [const_generics_char_c_tag]);
   (RunC false Both, [const_generics_char_c_both]);
   (RunCxx, [const_generics_char_cpp]);
   (RunCython Type_, [const_generics_char_pyx]);
   (RunCython Tag, [const_generics_char_pyx_tag])] = true.
Proof. vm_compute. reflexivity. Qed.

