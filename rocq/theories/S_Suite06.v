(** See S_Suite.v; generated. *)
Require Import Coq.Strings.String Coq.Strings.Ascii Coq.Lists.List Coq.Bool.Bool Coq.NArith.NArith.
From Verif Require Import Base M_Config M_Cfg M_Type M_Ir M_Item M_Attr M_Syn M_Library M_Loader M_Parser M_Bindings M_Backend S_Heck S_Suite.
Import ListNotations.
Open Scope string_scope.

(** ** tests/rust/destructor_and_copy_ctor.rs *)
Definition destructor_and_copy_ctor_rs : list sitem := [
  (ItemOther []);
  (ItemStruct [{| at_meta := ANameValue (Some "doc") (Some " This will have a destructor manually implemented via variant_body, and");
  at_outer := true |}; {| at_meta := ANameValue (Some "doc") (Some " similarly a Drop impl in Rust."); at_outer := true |}; {| at_meta
  := (AList (Some "repr") [(APath (Some "C"))]); at_outer := true |}] "OwnedSlice" [(SGType "T" None)] (FieldsNamed [{| sf_attrs :=
  []; sf_ident := (Some "len"); sf_ty := (SPath (SegPath [] "usize" NoArgs)) |}; {| sf_attrs := []; sf_ident := (Some "ptr"); sf_ty
  := (SPath (SegPath [] "NonNull" (AngleArgs [(ArgType (SPath (SegPath [] "T" NoArgs)))]))) |}]));
  (ItemEnum [{| at_meta := (AList (Some "repr") [(APath (Some "u8"))]); at_outer := true |}] "FillRule" [] [{| sv_attrs := []; sv_ident
  := "A"; sv_fields := FieldsUnit; sv_discriminant := None |}; {| sv_attrs := []; sv_ident := "B"; sv_fields := FieldsUnit; sv_discriminant
  := None |}]);
  (ItemStruct [{| at_meta := (AList (Some "repr") [(APath (Some "C"))]); at_outer := true |}] "Polygon" [(SGType "LengthPercentage"
  None)] (FieldsNamed [{| sf_attrs := []; sf_ident := (Some "fill"); sf_ty := (SPath (SegPath [] "FillRule" NoArgs)) |}; {| sf_attrs
  := []; sf_ident := (Some "coordinates"); sf_ty := (SPath (SegPath [] "OwnedSlice" (AngleArgs [(ArgType (SPath (SegPath [] "LengthPercentage"
  NoArgs)))]))) |}]));
  (ItemEnum [{| at_meta := (AList (Some "repr") [(APath (Some "C")); (APath (Some "u8"))]); at_outer := true |}] "Foo" [(SGType "T"
  None)] [{| sv_attrs := []; sv_ident := "Bar"; sv_fields := FieldsUnit; sv_discriminant := None |}; {| sv_attrs := []; sv_ident :=
  "Polygon1"; sv_fields := (FieldsUnnamed [{| sf_attrs := []; sf_ident := None; sf_ty := (SPath (SegPath [] "Polygon" (AngleArgs [(ArgType
  (SPath (SegPath [] "T" NoArgs)))]))) |}]); sv_discriminant := None |}; {| sv_attrs := []; sv_ident := "Slice1"; sv_fields := (FieldsUnnamed
  [{| sf_attrs := []; sf_ident := None; sf_ty := (SPath (SegPath [] "OwnedSlice" (AngleArgs [(ArgType (SPath (SegPath [] "T" NoArgs)))])))
  |}]); sv_discriminant := None |}; {| sv_attrs := []; sv_ident := "Slice2"; sv_fields := (FieldsUnnamed [{| sf_attrs := []; sf_ident
  := None; sf_ty := (SPath (SegPath [] "OwnedSlice" (AngleArgs [(ArgType (SPath (SegPath [] "i32" NoArgs)))]))) |}]); sv_discriminant
  := None |}; {| sv_attrs := []; sv_ident := "Slice3"; sv_fields := (FieldsNamed [{| sf_attrs := []; sf_ident := (Some "fill"); sf_ty
  := (SPath (SegPath [] "FillRule" NoArgs)) |}; {| sf_attrs := []; sf_ident := (Some "coords"); sf_ty := (SPath (SegPath [] "OwnedSlice"
  (AngleArgs [(ArgType (SPath (SegPath [] "T" NoArgs)))]))) |}]); sv_discriminant := None |}; {| sv_attrs := []; sv_ident := "Slice4";
  sv_fields := (FieldsNamed [{| sf_attrs := []; sf_ident := (Some "fill"); sf_ty := (SPath (SegPath [] "FillRule" NoArgs)) |}; {|
  sf_attrs := []; sf_ident := (Some "coords"); sf_ty := (SPath (SegPath [] "OwnedSlice" (AngleArgs [(ArgType (SPath (SegPath [] "i32"
  NoArgs)))]))) |}]); sv_discriminant := None |}]);
  (ItemEnum [{| at_meta := (AList (Some "repr") [(APath (Some "u8"))]); at_outer := true |}] "Baz" [(SGType "T" None)] [{| sv_attrs
  := []; sv_ident := "Bar2"; sv_fields := FieldsUnit; sv_discriminant := None |}; {| sv_attrs := []; sv_ident := "Polygon21"; sv_fields
  := (FieldsUnnamed [{| sf_attrs := []; sf_ident := None; sf_ty := (SPath (SegPath [] "Polygon" (AngleArgs [(ArgType (SPath (SegPath
  [] "T" NoArgs)))]))) |}]); sv_discriminant := None |}; {| sv_attrs := []; sv_ident := "Slice21"; sv_fields := (FieldsUnnamed [{|
  sf_attrs := []; sf_ident := None; sf_ty := (SPath (SegPath [] "OwnedSlice" (AngleArgs [(ArgType (SPath (SegPath [] "T" NoArgs)))])))
  |}]); sv_discriminant := None |}; {| sv_attrs := []; sv_ident := "Slice22"; sv_fields := (FieldsUnnamed [{| sf_attrs := []; sf_ident
  := None; sf_ty := (SPath (SegPath [] "OwnedSlice" (AngleArgs [(ArgType (SPath (SegPath [] "i32" NoArgs)))]))) |}]); sv_discriminant
  := None |}; {| sv_attrs := []; sv_ident := "Slice23"; sv_fields := (FieldsNamed [{| sf_attrs := []; sf_ident := (Some "fill"); sf_ty
  := (SPath (SegPath [] "FillRule" NoArgs)) |}; {| sf_attrs := []; sf_ident := (Some "coords"); sf_ty := (SPath (SegPath [] "OwnedSlice"
  (AngleArgs [(ArgType (SPath (SegPath [] "T" NoArgs)))]))) |}]); sv_discriminant := None |}; {| sv_attrs := []; sv_ident := "Slice24";
  sv_fields := (FieldsNamed [{| sf_attrs := []; sf_ident := (Some "fill"); sf_ty := (SPath (SegPath [] "FillRule" NoArgs)) |}; {|
  sf_attrs := []; sf_ident := (Some "coords"); sf_ty := (SPath (SegPath [] "OwnedSlice" (AngleArgs [(ArgType (SPath (SegPath [] "i32"
  NoArgs)))]))) |}]); sv_discriminant := None |}]);
  (ItemEnum [{| at_meta := (AList (Some "repr") [(APath (Some "u8"))]); at_outer := true |}] "Taz" [] [{| sv_attrs := []; sv_ident :=
  "Bar3"; sv_fields := FieldsUnit; sv_discriminant := None |}; {| sv_attrs := []; sv_ident := "Taz1"; sv_fields := (FieldsUnnamed
  [{| sf_attrs := []; sf_ident := None; sf_ty := (SPath (SegPath [] "i32" NoArgs)) |}]); sv_discriminant := None |}; {| sv_attrs :=
  []; sv_ident := "Taz3"; sv_fields := (FieldsUnnamed [{| sf_attrs := []; sf_ident := None; sf_ty := (SPath (SegPath [] "OwnedSlice"
  (AngleArgs [(ArgType (SPath (SegPath [] "i32" NoArgs)))]))) |}]); sv_discriminant := None |}]);
  (ItemEnum [{| at_meta := ANameValue (Some "doc") (Some " cbindgen:derive-tagged-enum-destructor=false"); at_outer := true |}; {| at_meta
  := ANameValue (Some "doc") (Some " cbindgen:derive-tagged-enum-copy-constructor=false"); at_outer := true |}; {| at_meta := (AList
  (Some "repr") [(APath (Some "u8"))]); at_outer := true |}] "Tazz" [] [{| sv_attrs := []; sv_ident := "Bar4"; sv_fields := FieldsUnit;
  sv_discriminant := None |}; {| sv_attrs := []; sv_ident := "Taz2"; sv_fields := (FieldsUnnamed [{| sf_attrs := []; sf_ident := None;
  sf_ty := (SPath (SegPath [] "i32" NoArgs)) |}]); sv_discriminant := None |}]);
  (ItemEnum [{| at_meta := ANameValue (Some "doc") (Some " cbindgen:derive-tagged-enum-copy-assignment=false"); at_outer := true |};
  {| at_meta := (AList (Some "repr") [(APath (Some "u8"))]); at_outer := true |}] "Tazzz" [] [{| sv_attrs := []; sv_ident := "Bar5";
  sv_fields := FieldsUnit; sv_discriminant := None |}; {| sv_attrs := []; sv_ident := "Taz5"; sv_fields := (FieldsUnnamed [{| sf_attrs
  := []; sf_ident := None; sf_ty := (SPath (SegPath [] "i32" NoArgs)) |}]); sv_discriminant := None |}]);
  (ItemEnum [{| at_meta := (AList (Some "repr") [(APath (Some "u8"))]); at_outer := true |}] "Tazzzz" [] [{| sv_attrs := []; sv_ident
  := "Taz6"; sv_fields := (FieldsUnnamed [{| sf_attrs := []; sf_ident := None; sf_ty := (SPath (SegPath [] "i32" NoArgs)) |}]); sv_discriminant
  := None |}; {| sv_attrs := []; sv_ident := "Taz7"; sv_fields := (FieldsUnnamed [{| sf_attrs := []; sf_ident := None; sf_ty := (SPath
  (SegPath [] "u32" NoArgs)) |}]); sv_discriminant := None |}]);
  (ItemEnum [{| at_meta := ANameValue (Some "doc") (Some " cbindgen:derive-eq=true"); at_outer := true |}; {| at_meta := ANameValue
  (Some "doc") (Some " cbindgen:derive-neq=true"); at_outer := true |}; {| at_meta := ANameValue (Some "doc") (Some " cbindgen:neq-attributes=NODISCARD");
  at_outer := true |}; {| at_meta := ANameValue (Some "doc") (Some " cbindgen:eq-attributes=NODISCARD"); at_outer := true |}; {| at_meta
  := ANameValue (Some "doc") (Some " cbindgen:destructor-attributes=NOINLINE"); at_outer := true |}; {| at_meta := ANameValue (Some
  "doc") (Some " cbindgen:copy-constructor-attributes=NOINLINE"); at_outer := true |}; {| at_meta := ANameValue (Some "doc") (Some
  " cbindgen:copy-assignment-attributes=NOINLINE"); at_outer := true |}; {| at_meta := (AList (Some "repr") [(APath (Some "u8"))]);
  at_outer := true |}] "Qux" [] [{| sv_attrs := [{| at_meta := ANameValue (Some "doc") (Some " cbindgen:derive-eq=true"); at_outer
  := true |}]; sv_ident := "Qux1"; sv_fields := (FieldsUnnamed [{| sf_attrs := []; sf_ident := None; sf_ty := (SPath (SegPath [] "i32"
  NoArgs)) |}]); sv_discriminant := None |}; {| sv_attrs := [{| at_meta := ANameValue (Some "doc") (Some " cbindgen:derive-eq=true");
  at_outer := true |}]; sv_ident := "Qux2"; sv_fields := (FieldsUnnamed [{| sf_attrs := []; sf_ident := None; sf_ty := (SPath (SegPath
  [] "u32" NoArgs)) |}]); sv_discriminant := None |}]);
  (ItemFn [{| at_meta := (APath (Some "no_mangle")); at_outer := true |}] true {| sg_ident := "root"; sg_abi := (Some (Some "C")); sg_inputs
  := [(FnTyped (PatIdent "a") (SRef false (SPath (SegPath [] "Foo" (AngleArgs [(ArgType (SPath (SegPath [] "u32" NoArgs)))])))));
  (FnTyped (PatIdent "b") (SRef false (SPath (SegPath [] "Baz" (AngleArgs [(ArgType (SPath (SegPath [] "i32" NoArgs)))]))))); (FnTyped
  (PatIdent "c") (SRef false (SPath (SegPath [] "Taz" NoArgs)))); (FnTyped (PatIdent "d") (SPath (SegPath [] "Tazz" NoArgs))); (FnTyped
  (PatIdent "e") (SRef false (SPath (SegPath [] "Tazzz" NoArgs)))); (FnTyped (PatIdent "f") (SRef false (SPath (SegPath [] "Tazzzz"
  NoArgs)))); (FnTyped (PatIdent "g") (SRef false (SPath (SegPath [] "Qux" NoArgs))))]; sg_variadic := false; sg_output := None |})].
Definition destructor_and_copy_ctor_toml : Config := {| header := (Some "#define NOINLINE __attribute__((noinline))
#define NODISCARD [[nodiscard]]
"); includes_ := []; sys_includes_ := []; after_includes := None; trailer := None;
  include_guard_ := None; pragma_once := false; no_includes := false; package_version := false; autogen_warning := None; include_version := false;
  namespace := None; namespaces := None; using_namespaces := None; braces := SameLine; line_length := 100; tab_width := 2; line_endings := LF;
  language := Cxx; cpp_compat := false; style := Both; sort_by := SortNone; usize_is_size_t := false; parse := default_parse; export := {| ex_include := []; ex_exclude := []; ex_rename := []; ex_pre_body := []; ex_body := [("OwnedSlice", "  ~OwnedSlice() {}
")]; ex_prefix := None; ex_item_types := []; ex_renaming_overrides_prefixing := false; ex_mangle := {| rename_types := RNone; remove_underscores := false |} |};
  layout := {| ly_packed := None; ly_aligned_n := None |}; function := {| fn_prefix := None; fn_postfix := None; fn_must_use := None; fn_deprecated := None; fn_deprecated_with_note := None; fn_args := Auto; fn_rename_args := RNone; fn_swift_name_macro := None; fn_sort_by := None; fn_no_return := None |}; structure := {| st_rename_fields := RNone; st_derive_constructor := false; st_derive_eq := false; st_derive_neq := false; st_derive_lt := false; st_derive_lte := false; st_derive_gt := false; st_derive_gte := false; st_derive_ostream := false; st_associated_constants_in_body := false; st_rename_associated_constant := RNone; st_must_use := None; st_deprecated := None; st_deprecated_with_note := None |}; enumeration := {| en_rename_variants := RNone; en_rename_variant_name_fields := SnakeCase; en_add_sentinel := false; en_prefix_with_name := false; en_derive_helper_methods := true; en_derive_const_casts := false; en_derive_mut_casts := false; en_cast_assert_name := None; en_must_use := None; en_deprecated := None; en_deprecated_with_note := None; en_deprecated_variant := None; en_deprecated_variant_with_note := None; en_derive_tagged_enum_destructor := true; en_derive_tagged_enum_copy_constructor := true; en_derive_tagged_enum_copy_assignment := true; en_derive_ostream := false; en_enum_class := true; en_private_default_tagged_enum_constructor := true |}; constant := {| co_allow_static_const := true; co_allow_constexpr := true; co_sort_by := None |}; defines := []; documentation := true;
  documentation_style := DocAuto; documentation_length := Full; pointer := {| pt_non_null_attribute := None; pt_nullable_attribute := None |}; cython := {| cy_header := None; cy_cimports := [] |}; config_path := None |}.
(** tests/expectations/destructor_and_copy_ctor.compat.c *)
Definition destructor_and_copy_ctor_compat : string := "#define NOINLINE __attribute__((noinline))
#define NODISCARD [[nodiscard]]


#include <stdarg.h>
#include <stdbool.h>
#include <stdint.h>
#include <stdlib.h>

enum FillRule
#if defined(__cplusplus) || __STDC_VERSION__ >= 202311L
  : uint8_t
#endif // defined(__cplusplus) || __STDC_VERSION__ >= 202311L
 {
  A,
  B,
};
#ifndef __cplusplus
#if __STDC_VERSION__ >= 202311L
typedef enum FillRule FillRule;
#else
typedef uint8_t FillRule;
#endif // __STDC_VERSION__ >= 202311L
#endif // __cplusplus

/**
 * This will have a destructor manually implemented via variant_body, and
 * similarly a Drop impl in Rust.
 */
typedef struct {
  uintptr_t len;
  uint32_t *ptr;
} OwnedSlice_u32;

typedef struct {
  FillRule fill;
  OwnedSlice_u32 coordinates;
} Polygon_u32;

/**
 * This will have a destructor manually implemented via variant_body, and
 * similarly a Drop impl in Rust.
 */
typedef struct {
  uintptr_t len;
  int32_t *ptr;
} OwnedSlice_i32;

enum Foo_u32_Tag
#if defined(__cplusplus) || __STDC_VERSION__ >= 202311L
  : uint8_t
#endif // defined(__cplusplus) || __STDC_VERSION__ >= 202311L
 {
  Bar_u32,
  Polygon1_u32,
  Slice1_u32,
  Slice2_u32,
  Slice3_u32,
  Slice4_u32,
};
#ifndef __cplusplus
#if __STDC_VERSION__ >= 202311L
typedef enum Foo_u32_Tag Foo_u32_Tag;
#else
typedef uint8_t Foo_u32_Tag;
#endif // __STDC_VERSION__ >= 202311L
#endif // __cplusplus

typedef struct {
  FillRule fill;
  OwnedSlice_u32 coords;
} Slice3_Body_u32;

typedef struct {
  FillRule fill;
  OwnedSlice_i32 coords;
} Slice4_Body_u32;

typedef struct {
  Foo_u32_Tag tag;
  union {
    struct {
      Polygon_u32 polygon1;
    };
    struct {
      OwnedSlice_u32 slice1;
    };
    struct {
      OwnedSlice_i32 slice2;
    };
    Slice3_Body_u32 slice3;
    Slice4_Body_u32 slice4;
  };
} Foo_u32;

typedef struct {
  FillRule fill;
  OwnedSlice_i32 coordinates;
} Polygon_i32;

enum Baz_i32_Tag
#if defined(__cplusplus) || __STDC_VERSION__ >= 202311L
  : uint8_t
#endif // defined(__cplusplus) || __STDC_VERSION__ >= 202311L
 {
  Bar2_i32,
  Polygon21_i32,
  Slice21_i32,
  Slice22_i32,
  Slice23_i32,
  Slice24_i32,
};
#ifndef __cplusplus
#if __STDC_VERSION__ >= 202311L
typedef enum Baz_i32_Tag Baz_i32_Tag;
#else
typedef uint8_t Baz_i32_Tag;
#endif // __STDC_VERSION__ >= 202311L
#endif // __cplusplus

typedef struct {
  Baz_i32_Tag tag;
  FillRule fill;
  OwnedSlice_i32 coords;
} Slice23_Body_i32;

typedef struct {
  Baz_i32_Tag tag;
  FillRule fill;
  OwnedSlice_i32 coords;
} Slice24_Body_i32;

typedef union {
  Baz_i32_Tag tag;
  struct {
    Baz_i32_Tag polygon21_tag;
    Polygon_i32 polygon21;
  };
  struct {
    Baz_i32_Tag slice21_tag;
    OwnedSlice_i32 slice21;
  };
  struct {
    Baz_i32_Tag slice22_tag;
    OwnedSlice_i32 slice22;
  };
  Slice23_Body_i32 slice23;
  Slice24_Body_i32 slice24;
} Baz_i32;

enum Taz_Tag
#if defined(__cplusplus) || __STDC_VERSION__ >= 202311L
  : uint8_t
#endif // defined(__cplusplus) || __STDC_VERSION__ >= 202311L
 {
  Bar3,
  Taz1,
  Taz3,
};
#ifndef __cplusplus
#if __STDC_VERSION__ >= 202311L
typedef enum Taz_Tag Taz_Tag;
#else
typedef uint8_t Taz_Tag;
#endif // __STDC_VERSION__ >= 202311L
#endif // __cplusplus

typedef union {
  Taz_Tag tag;
  struct {
    Taz_Tag taz1_tag;
    int32_t taz1;
  };
  struct {
    Taz_Tag taz3_tag;
    OwnedSlice_i32 taz3;
  };
} Taz;

enum Tazz_Tag
#if defined(__cplusplus) || __STDC_VERSION__ >= 202311L
  : uint8_t
#endif // defined(__cplusplus) || __STDC_VERSION__ >= 202311L
 {
  Bar4,
  Taz2,
};
#ifndef __cplusplus
#if __STDC_VERSION__ >= 202311L
typedef enum Tazz_Tag Tazz_Tag;
#else
typedef uint8_t Tazz_Tag;
#endif // __STDC_VERSION__ >= 202311L
#endif // __cplusplus

typedef union {
  Tazz_Tag tag;
  struct {
    Tazz_Tag taz2_tag;
    int32_t taz2;
  };
} Tazz;

enum Tazzz_Tag
#if defined(__cplusplus) || __STDC_VERSION__ >= 202311L
  : uint8_t
#endif // defined(__cplusplus) || __STDC_VERSION__ >= 202311L
 {
  Bar5,
  Taz5,
};
#ifndef __cplusplus
#if __STDC_VERSION__ >= 202311L
typedef enum Tazzz_Tag Tazzz_Tag;
#else
typedef uint8_t Tazzz_Tag;
#endif // __STDC_VERSION__ >= 202311L
#endif // __cplusplus

typedef union {
  Tazzz_Tag tag;
  struct {
    Tazzz_Tag taz5_tag;
    int32_t taz5;
  };
} Tazzz;

enum Tazzzz_Tag
#if defined(__cplusplus) || __STDC_VERSION__ >= 202311L
  : uint8_t
#endif // defined(__cplusplus) || __STDC_VERSION__ >= 202311L
 {
  Taz6,
  Taz7,
};
#ifndef __cplusplus
#if __STDC_VERSION__ >= 202311L
typedef enum Tazzzz_Tag Tazzzz_Tag;
#else
typedef uint8_t Tazzzz_Tag;
#endif // __STDC_VERSION__ >= 202311L
#endif // __cplusplus

typedef union {
  Tazzzz_Tag tag;
  struct {
    Tazzzz_Tag taz6_tag;
    int32_t taz6;
  };
  struct {
    Tazzzz_Tag taz7_tag;
    uint32_t taz7;
  };
} Tazzzz;

enum Qux_Tag
#if defined(__cplusplus) || __STDC_VERSION__ >= 202311L
  : uint8_t
#endif // defined(__cplusplus) || __STDC_VERSION__ >= 202311L
 {
  Qux1,
  Qux2,
};
#ifndef __cplusplus
#if __STDC_VERSION__ >= 202311L
typedef enum Qux_Tag Qux_Tag;
#else
typedef uint8_t Qux_Tag;
#endif // __STDC_VERSION__ >= 202311L
#endif // __cplusplus

typedef union {
  Qux_Tag tag;
  struct {
    Qux_Tag qux1_tag;
    int32_t qux1;
  };
  struct {
    Qux_Tag qux2_tag;
    uint32_t qux2;
  };
} Qux;

#ifdef __cplusplus
extern ""C"" {
#endif // __cplusplus

void root(const Foo_u32 *a,
          const Baz_i32 *b,
          const Taz *c,
          Tazz d,
          const Tazzz *e,
          const Tazzzz *f,
          const Qux *g);

#ifdef __cplusplus
}  // extern ""C""
#endif  // __cplusplus
".
(** tests/expectations/destructor_and_copy_ctor_tag.compat.c *)
Definition destructor_and_copy_ctor_compat_tag : string := "#define NOINLINE __attribute__((noinline))
#define NODISCARD [[nodiscard]]


#include <stdarg.h>
#include <stdbool.h>
#include <stdint.h>
#include <stdlib.h>

enum FillRule
#if defined(__cplusplus) || __STDC_VERSION__ >= 202311L
  : uint8_t
#endif // defined(__cplusplus) || __STDC_VERSION__ >= 202311L
 {
  A,
  B,
};
#ifndef __cplusplus
#if __STDC_VERSION__ >= 202311L
typedef enum FillRule FillRule;
#else
typedef uint8_t FillRule;
#endif // __STDC_VERSION__ >= 202311L
#endif // __cplusplus

/**
 * This will have a destructor manually implemented via variant_body, and
 * similarly a Drop impl in Rust.
 */
struct OwnedSlice_u32 {
  uintptr_t len;
  uint32_t *ptr;
};

struct Polygon_u32 {
  FillRule fill;
  struct OwnedSlice_u32 coordinates;
};

/**
 * This will have a destructor manually implemented via variant_body, and
 * similarly a Drop impl in Rust.
 */
struct OwnedSlice_i32 {
  uintptr_t len;
  int32_t *ptr;
};

enum Foo_u32_Tag
#if defined(__cplusplus) || __STDC_VERSION__ >= 202311L
  : uint8_t
#endif // defined(__cplusplus) || __STDC_VERSION__ >= 202311L
 {
  Bar_u32,
  Polygon1_u32,
  Slice1_u32,
  Slice2_u32,
  Slice3_u32,
  Slice4_u32,
};
#ifndef __cplusplus
#if __STDC_VERSION__ >= 202311L
typedef enum Foo_u32_Tag Foo_u32_Tag;
#else
typedef uint8_t Foo_u32_Tag;
#endif // __STDC_VERSION__ >= 202311L
#endif // __cplusplus

struct Slice3_Body_u32 {
  FillRule fill;
  struct OwnedSlice_u32 coords;
};

struct Slice4_Body_u32 {
  FillRule fill;
  struct OwnedSlice_i32 coords;
};

struct Foo_u32 {
  Foo_u32_Tag tag;
  union {
    struct {
      struct Polygon_u32 polygon1;
    };
    struct {
      struct OwnedSlice_u32 slice1;
    };
    struct {
      struct OwnedSlice_i32 slice2;
    };
    struct Slice3_Body_u32 slice3;
    struct Slice4_Body_u32 slice4;
  };
};

struct Polygon_i32 {
  FillRule fill;
  struct OwnedSlice_i32 coordinates;
};

enum Baz_i32_Tag
#if defined(__cplusplus) || __STDC_VERSION__ >= 202311L
  : uint8_t
#endif // defined(__cplusplus) || __STDC_VERSION__ >= 202311L
 {
  Bar2_i32,
  Polygon21_i32,
  Slice21_i32,
  Slice22_i32,
  Slice23_i32,
  Slice24_i32,
};
#ifndef __cplusplus
#if __STDC_VERSION__ >= 202311L
typedef enum Baz_i32_Tag Baz_i32_Tag;
#else
typedef uint8_t Baz_i32_Tag;
#endif // __STDC_VERSION__ >= 202311L
#endif // __cplusplus

struct Slice23_Body_i32 {
  Baz_i32_Tag tag;
  FillRule fill;
  struct OwnedSlice_i32 coords;
};

struct Slice24_Body_i32 {
  Baz_i32_Tag tag;
  FillRule fill;
  struct OwnedSlice_i32 coords;
};

union Baz_i32 {
  Baz_i32_Tag tag;
  struct {
    Baz_i32_Tag polygon21_tag;
    struct Polygon_i32 polygon21;
  };
  struct {
    Baz_i32_Tag slice21_tag;
    struct OwnedSlice_i32 slice21;
  };
  struct {
    Baz_i32_Tag slice22_tag;
    struct OwnedSlice_i32 slice22;
  };
  struct Slice23_Body_i32 slice23;
  struct Slice24_Body_i32 slice24;
};

enum Taz_Tag
#if defined(__cplusplus) || __STDC_VERSION__ >= 202311L
  : uint8_t
#endif // defined(__cplusplus) || __STDC_VERSION__ >= 202311L
 {
  Bar3,
  Taz1,
  Taz3,
};
#ifndef __cplusplus
#if __STDC_VERSION__ >= 202311L
typedef enum Taz_Tag Taz_Tag;
#else
typedef uint8_t Taz_Tag;
#endif // __STDC_VERSION__ >= 202311L
#endif // __cplusplus

union Taz {
  Taz_Tag tag;
  struct {
    Taz_Tag taz1_tag;
    int32_t taz1;
  };
  struct {
    Taz_Tag taz3_tag;
    struct OwnedSlice_i32 taz3;
  };
};

enum Tazz_Tag
#if defined(__cplusplus) || __STDC_VERSION__ >= 202311L
  : uint8_t
#endif // defined(__cplusplus) || __STDC_VERSION__ >= 202311L
 {
  Bar4,
  Taz2,
};
#ifndef __cplusplus
#if __STDC_VERSION__ >= 202311L
typedef enum Tazz_Tag Tazz_Tag;
#else
typedef uint8_t Tazz_Tag;
#endif // __STDC_VERSION__ >= 202311L
#endif // __cplusplus

union Tazz {
  Tazz_Tag tag;
  struct {
    Tazz_Tag taz2_tag;
    int32_t taz2;
  };
};

enum Tazzz_Tag
#if defined(__cplusplus) || __STDC_VERSION__ >= 202311L
  : uint8_t
#endif // defined(__cplusplus) || __STDC_VERSION__ >= 202311L
 {
  Bar5,
  Taz5,
};
#ifndef __cplusplus
#if __STDC_VERSION__ >= 202311L
typedef enum Tazzz_Tag Tazzz_Tag;
#else
typedef uint8_t Tazzz_Tag;
#endif // __STDC_VERSION__ >= 202311L
#endif // __cplusplus

union Tazzz {
  Tazzz_Tag tag;
  struct {
    Tazzz_Tag taz5_tag;
    int32_t taz5;
  };
};

enum Tazzzz_Tag
#if defined(__cplusplus) || __STDC_VERSION__ >= 202311L
  : uint8_t
#endif // defined(__cplusplus) || __STDC_VERSION__ >= 202311L
 {
  Taz6,
  Taz7,
};
#ifndef __cplusplus
#if __STDC_VERSION__ >= 202311L
typedef enum Tazzzz_Tag Tazzzz_Tag;
#else
typedef uint8_t Tazzzz_Tag;
#endif // __STDC_VERSION__ >= 202311L
#endif // __cplusplus

union Tazzzz {
  Tazzzz_Tag tag;
  struct {
    Tazzzz_Tag taz6_tag;
    int32_t taz6;
  };
  struct {
    Tazzzz_Tag taz7_tag;
    uint32_t taz7;
  };
};

enum Qux_Tag
#if defined(__cplusplus) || __STDC_VERSION__ >= 202311L
  : uint8_t
#endif // defined(__cplusplus) || __STDC_VERSION__ >= 202311L
 {
  Qux1,
  Qux2,
};
#ifndef __cplusplus
#if __STDC_VERSION__ >= 202311L
typedef enum Qux_Tag Qux_Tag;
#else
typedef uint8_t Qux_Tag;
#endif // __STDC_VERSION__ >= 202311L
#endif // __cplusplus

union Qux {
  Qux_Tag tag;
  struct {
    Qux_Tag qux1_tag;
    int32_t qux1;
  };
  struct {
    Qux_Tag qux2_tag;
    uint32_t qux2;
  };
};

#ifdef __cplusplus
extern ""C"" {
#endif // __cplusplus

void root(const struct Foo_u32 *a,
          const union Baz_i32 *b,
          const union Taz *c,
          union Tazz d,
          const union Tazzz *e,
          const union Tazzzz *f,
          const union Qux *g);

#ifdef __cplusplus
}  // extern ""C""
#endif  // __cplusplus
".
(** tests/expectations/destructor_and_copy_ctor_both.compat.c *)
Definition destructor_and_copy_ctor_compat_both : string := "#define NOINLINE __attribute__((noinline))
#define NODISCARD [[nodiscard]]


#include <stdarg.h>
#include <stdbool.h>
#include <stdint.h>
#include <stdlib.h>

enum FillRule
#if defined(__cplusplus) || __STDC_VERSION__ >= 202311L
  : uint8_t
#endif // defined(__cplusplus) || __STDC_VERSION__ >= 202311L
 {
  A,
  B,
};
#ifndef __cplusplus
#if __STDC_VERSION__ >= 202311L
typedef enum FillRule FillRule;
#else
typedef uint8_t FillRule;
#endif // __STDC_VERSION__ >= 202311L
#endif // __cplusplus

/**
 * This will have a destructor manually implemented via variant_body, and
 * similarly a Drop impl in Rust.
 */
typedef struct OwnedSlice_u32 {
  uintptr_t len;
  uint32_t *ptr;
} OwnedSlice_u32;

typedef struct Polygon_u32 {
  FillRule fill;
  struct OwnedSlice_u32 coordinates;
} Polygon_u32;

/**
 * This will have a destructor manually implemented via variant_body, and
 * similarly a Drop impl in Rust.
 */
typedef struct OwnedSlice_i32 {
  uintptr_t len;
  int32_t *ptr;
} OwnedSlice_i32;

enum Foo_u32_Tag
#if defined(__cplusplus) || __STDC_VERSION__ >= 202311L
  : uint8_t
#endif // defined(__cplusplus) || __STDC_VERSION__ >= 202311L
 {
  Bar_u32,
  Polygon1_u32,
  Slice1_u32,
  Slice2_u32,
  Slice3_u32,
  Slice4_u32,
};
#ifndef __cplusplus
#if __STDC_VERSION__ >= 202311L
typedef enum Foo_u32_Tag Foo_u32_Tag;
#else
typedef uint8_t Foo_u32_Tag;
#endif // __STDC_VERSION__ >= 202311L
#endif // __cplusplus

typedef struct Slice3_Body_u32 {
  FillRule fill;
  struct OwnedSlice_u32 coords;
} Slice3_Body_u32;

typedef struct Slice4_Body_u32 {
  FillRule fill;
  struct OwnedSlice_i32 coords;
} Slice4_Body_u32;

typedef struct Foo_u32 {
  Foo_u32_Tag tag;
  union {
    struct {
      struct Polygon_u32 polygon1;
    };
    struct {
      struct OwnedSlice_u32 slice1;
    };
    struct {
      struct OwnedSlice_i32 slice2;
    };
    Slice3_Body_u32 slice3;
    Slice4_Body_u32 slice4;
  };
} Foo_u32;

typedef struct Polygon_i32 {
  FillRule fill;
  struct OwnedSlice_i32 coordinates;
} Polygon_i32;

enum Baz_i32_Tag
#if defined(__cplusplus) || __STDC_VERSION__ >= 202311L
  : uint8_t
#endif // defined(__cplusplus) || __STDC_VERSION__ >= 202311L
 {
  Bar2_i32,
  Polygon21_i32,
  Slice21_i32,
  Slice22_i32,
  Slice23_i32,
  Slice24_i32,
};
#ifndef __cplusplus
#if __STDC_VERSION__ >= 202311L
typedef enum Baz_i32_Tag Baz_i32_Tag;
#else
typedef uint8_t Baz_i32_Tag;
#endif // __STDC_VERSION__ >= 202311L
#endif // __cplusplus

typedef struct Slice23_Body_i32 {
  Baz_i32_Tag tag;
  FillRule fill;
  struct OwnedSlice_i32 coords;
} Slice23_Body_i32;

typedef struct Slice24_Body_i32 {
  Baz_i32_Tag tag;
  FillRule fill;
  struct OwnedSlice_i32 coords;
} Slice24_Body_i32;

typedef union Baz_i32 {
  Baz_i32_Tag tag;
  struct {
    Baz_i32_Tag polygon21_tag;
    struct Polygon_i32 polygon21;
  };
  struct {
    Baz_i32_Tag slice21_tag;
    struct OwnedSlice_i32 slice21;
  };
  struct {
    Baz_i32_Tag slice22_tag;
    struct OwnedSlice_i32 slice22;
  };
  Slice23_Body_i32 slice23;
  Slice24_Body_i32 slice24;
} Baz_i32;

enum Taz_Tag
#if defined(__cplusplus) || __STDC_VERSION__ >= 202311L
  : uint8_t
#endif // defined(__cplusplus) || __STDC_VERSION__ >= 202311L
 {
  Bar3,
  Taz1,
  Taz3,
};
#ifndef __cplusplus
#if __STDC_VERSION__ >= 202311L
typedef enum Taz_Tag Taz_Tag;
#else
typedef uint8_t Taz_Tag;
#endif // __STDC_VERSION__ >= 202311L
#endif // __cplusplus

typedef union Taz {
  Taz_Tag tag;
  struct {
    Taz_Tag taz1_tag;
    int32_t taz1;
  };
  struct {
    Taz_Tag taz3_tag;
    struct OwnedSlice_i32 taz3;
  };
} Taz;

enum Tazz_Tag
#if defined(__cplusplus) || __STDC_VERSION__ >= 202311L
  : uint8_t
#endif // defined(__cplusplus) || __STDC_VERSION__ >= 202311L
 {
  Bar4,
  Taz2,
};
#ifndef __cplusplus
#if __STDC_VERSION__ >= 202311L
typedef enum Tazz_Tag Tazz_Tag;
#else
typedef uint8_t Tazz_Tag;
#endif // __STDC_VERSION__ >= 202311L
#endif // __cplusplus

typedef union Tazz {
  Tazz_Tag tag;
  struct {
    Tazz_Tag taz2_tag;
    int32_t taz2;
  };
} Tazz;

enum Tazzz_Tag
#if defined(__cplusplus) || __STDC_VERSION__ >= 202311L
  : uint8_t
#endif // defined(__cplusplus) || __STDC_VERSION__ >= 202311L
 {
  Bar5,
  Taz5,
};
#ifndef __cplusplus
#if __STDC_VERSION__ >= 202311L
typedef enum Tazzz_Tag Tazzz_Tag;
#else
typedef uint8_t Tazzz_Tag;
#endif // __STDC_VERSION__ >= 202311L
#endif // __cplusplus

typedef union Tazzz {
  Tazzz_Tag tag;
  struct {
    Tazzz_Tag taz5_tag;
    int32_t taz5;
  };
} Tazzz;

enum Tazzzz_Tag
#if defined(__cplusplus) || __STDC_VERSION__ >= 202311L
  : uint8_t
#endif // defined(__cplusplus) || __STDC_VERSION__ >= 202311L
 {
  Taz6,
  Taz7,
};
#ifndef __cplusplus
#if __STDC_VERSION__ >= 202311L
typedef enum Tazzzz_Tag Tazzzz_Tag;
#else
typedef uint8_t Tazzzz_Tag;
#endif // __STDC_VERSION__ >= 202311L
#endif // __cplusplus

typedef union Tazzzz {
  Tazzzz_Tag tag;
  struct {
    Tazzzz_Tag taz6_tag;
    int32_t taz6;
  };
  struct {
    Tazzzz_Tag taz7_tag;
    uint32_t taz7;
  };
} Tazzzz;

enum Qux_Tag
#if defined(__cplusplus) || __STDC_VERSION__ >= 202311L
  : uint8_t
#endif // defined(__cplusplus) || __STDC_VERSION__ >= 202311L
 {
  Qux1,
  Qux2,
};
#ifndef __cplusplus
#if __STDC_VERSION__ >= 202311L
typedef enum Qux_Tag Qux_Tag;
#else
typedef uint8_t Qux_Tag;
#endif // __STDC_VERSION__ >= 202311L
#endif // __cplusplus

typedef union Qux {
  Qux_Tag tag;
  struct {
    Qux_Tag qux1_tag;
    int32_t qux1;
  };
  struct {
    Qux_Tag qux2_tag;
    uint32_t qux2;
  };
} Qux;

#ifdef __cplusplus
extern ""C"" {
#endif // __cplusplus

void root(const struct Foo_u32 *a,
          const union Baz_i32 *b,
          const union Taz *c,
          union Tazz d,
          const union Tazzz *e,
          const union Tazzzz *f,
          const union Qux *g);

#ifdef __cplusplus
}  // extern ""C""
#endif  // __cplusplus
".
(** tests/expectations/destructor_and_copy_ctor.c *)
Definition destructor_and_copy_ctor_c : string := "#define NOINLINE __attribute__((noinline))
#define NODISCARD [[nodiscard]]


#include <stdarg.h>
#include <stdbool.h>
#include <stdint.h>
#include <stdlib.h>

enum FillRule
#if __STDC_VERSION__ >= 202311L
  : uint8_t
#endif // __STDC_VERSION__ >= 202311L
 {
  A,
  B,
};
#if __STDC_VERSION__ >= 202311L
typedef enum FillRule FillRule;
#else
typedef uint8_t FillRule;
#endif // __STDC_VERSION__ >= 202311L

/**
 * This will have a destructor manually implemented via variant_body, and
 * similarly a Drop impl in Rust.
 */
typedef struct {
  uintptr_t len;
  uint32_t *ptr;
} OwnedSlice_u32;

typedef struct {
  FillRule fill;
  OwnedSlice_u32 coordinates;
} Polygon_u32;

/**
 * This will have a destructor manually implemented via variant_body, and
 * similarly a Drop impl in Rust.
 */
typedef struct {
  uintptr_t len;
  int32_t *ptr;
} OwnedSlice_i32;

enum Foo_u32_Tag
#if __STDC_VERSION__ >= 202311L
  : uint8_t
#endif // __STDC_VERSION__ >= 202311L
 {
  Bar_u32,
  Polygon1_u32,
  Slice1_u32,
  Slice2_u32,
  Slice3_u32,
  Slice4_u32,
};
#if __STDC_VERSION__ >= 202311L
typedef enum Foo_u32_Tag Foo_u32_Tag;
#else
typedef uint8_t Foo_u32_Tag;
#endif // __STDC_VERSION__ >= 202311L

typedef struct {
  FillRule fill;
  OwnedSlice_u32 coords;
} Slice3_Body_u32;

typedef struct {
  FillRule fill;
  OwnedSlice_i32 coords;
} Slice4_Body_u32;

typedef struct {
  Foo_u32_Tag tag;
  union {
    struct {
      Polygon_u32 polygon1;
    };
    struct {
      OwnedSlice_u32 slice1;
    };
    struct {
      OwnedSlice_i32 slice2;
    };
    Slice3_Body_u32 slice3;
    Slice4_Body_u32 slice4;
  };
} Foo_u32;

typedef struct {
  FillRule fill;
  OwnedSlice_i32 coordinates;
} Polygon_i32;

enum Baz_i32_Tag
#if __STDC_VERSION__ >= 202311L
  : uint8_t
#endif // __STDC_VERSION__ >= 202311L
 {
  Bar2_i32,
  Polygon21_i32,
  Slice21_i32,
  Slice22_i32,
  Slice23_i32,
  Slice24_i32,
};
#if __STDC_VERSION__ >= 202311L
typedef enum Baz_i32_Tag Baz_i32_Tag;
#else
typedef uint8_t Baz_i32_Tag;
#endif // __STDC_VERSION__ >= 202311L

typedef struct {
  Baz_i32_Tag tag;
  FillRule fill;
  OwnedSlice_i32 coords;
} Slice23_Body_i32;

typedef struct {
  Baz_i32_Tag tag;
  FillRule fill;
  OwnedSlice_i32 coords;
} Slice24_Body_i32;

typedef union {
  Baz_i32_Tag tag;
  struct {
    Baz_i32_Tag polygon21_tag;
    Polygon_i32 polygon21;
  };
  struct {
    Baz_i32_Tag slice21_tag;
    OwnedSlice_i32 slice21;
  };
  struct {
    Baz_i32_Tag slice22_tag;
    OwnedSlice_i32 slice22;
  };
  Slice23_Body_i32 slice23;
  Slice24_Body_i32 slice24;
} Baz_i32;

enum Taz_Tag
#if __STDC_VERSION__ >= 202311L
  : uint8_t
#endif // __STDC_VERSION__ >= 202311L
 {
  Bar3,
  Taz1,
  Taz3,
};
#if __STDC_VERSION__ >= 202311L
typedef enum Taz_Tag Taz_Tag;
#else
typedef uint8_t Taz_Tag;
#endif // __STDC_VERSION__ >= 202311L

typedef union {
  Taz_Tag tag;
  struct {
    Taz_Tag taz1_tag;
    int32_t taz1;
  };
  struct {
    Taz_Tag taz3_tag;
    OwnedSlice_i32 taz3;
  };
} Taz;

enum Tazz_Tag
#if __STDC_VERSION__ >= 202311L
  : uint8_t
#endif // __STDC_VERSION__ >= 202311L
 {
  Bar4,
  Taz2,
};
#if __STDC_VERSION__ >= 202311L
typedef enum Tazz_Tag Tazz_Tag;
#else
typedef uint8_t Tazz_Tag;
#endif // __STDC_VERSION__ >= 202311L

typedef union {
  Tazz_Tag tag;
  struct {
    Tazz_Tag taz2_tag;
    int32_t taz2;
  };
} Tazz;

enum Tazzz_Tag
#if __STDC_VERSION__ >= 202311L
  : uint8_t
#endif // __STDC_VERSION__ >= 202311L
 {
  Bar5,
  Taz5,
};
#if __STDC_VERSION__ >= 202311L
typedef enum Tazzz_Tag Tazzz_Tag;
#else
typedef uint8_t Tazzz_Tag;
#endif // __STDC_VERSION__ >= 202311L

typedef union {
  Tazzz_Tag tag;
  struct {
    Tazzz_Tag taz5_tag;
    int32_t taz5;
  };
} Tazzz;

enum Tazzzz_Tag
#if __STDC_VERSION__ >= 202311L
  : uint8_t
#endif // __STDC_VERSION__ >= 202311L
 {
  Taz6,
  Taz7,
};
#if __STDC_VERSION__ >= 202311L
typedef enum Tazzzz_Tag Tazzzz_Tag;
#else
typedef uint8_t Tazzzz_Tag;
#endif // __STDC_VERSION__ >= 202311L

typedef union {
  Tazzzz_Tag tag;
  struct {
    Tazzzz_Tag taz6_tag;
    int32_t taz6;
  };
  struct {
    Tazzzz_Tag taz7_tag;
    uint32_t taz7;
  };
} Tazzzz;

enum Qux_Tag
#if __STDC_VERSION__ >= 202311L
  : uint8_t
#endif // __STDC_VERSION__ >= 202311L
 {
  Qux1,
  Qux2,
};
#if __STDC_VERSION__ >= 202311L
typedef enum Qux_Tag Qux_Tag;
#else
typedef uint8_t Qux_Tag;
#endif // __STDC_VERSION__ >= 202311L

typedef union {
  Qux_Tag tag;
  struct {
    Qux_Tag qux1_tag;
    int32_t qux1;
  };
  struct {
    Qux_Tag qux2_tag;
    uint32_t qux2;
  };
} Qux;

void root(const Foo_u32 *a,
          const Baz_i32 *b,
          const Taz *c,
          Tazz d,
          const Tazzz *e,
          const Tazzzz *f,
          const Qux *g);
".
(** tests/expectations/destructor_and_copy_ctor_tag.c *)
Definition destructor_and_copy_ctor_c_tag : string := "#define NOINLINE __attribute__((noinline))
#define NODISCARD [[nodiscard]]


#include <stdarg.h>
#include <stdbool.h>
#include <stdint.h>
#include <stdlib.h>

enum FillRule
#if __STDC_VERSION__ >= 202311L
  : uint8_t
#endif // __STDC_VERSION__ >= 202311L
 {
  A,
  B,
};
#if __STDC_VERSION__ >= 202311L
typedef enum FillRule FillRule;
#else
typedef uint8_t FillRule;
#endif // __STDC_VERSION__ >= 202311L

/**
 * This will have a destructor manually implemented via variant_body, and
 * similarly a Drop impl in Rust.
 */
struct OwnedSlice_u32 {
  uintptr_t len;
  uint32_t *ptr;
};

struct Polygon_u32 {
  FillRule fill;
  struct OwnedSlice_u32 coordinates;
};

/**
 * This will have a destructor manually implemented via variant_body, and
 * similarly a Drop impl in Rust.
 */
struct OwnedSlice_i32 {
  uintptr_t len;
  int32_t *ptr;
};

enum Foo_u32_Tag
#if __STDC_VERSION__ >= 202311L
  : uint8_t
#endif // __STDC_VERSION__ >= 202311L
 {
  Bar_u32,
  Polygon1_u32,
  Slice1_u32,
  Slice2_u32,
  Slice3_u32,
  Slice4_u32,
};
#if __STDC_VERSION__ >= 202311L
typedef enum Foo_u32_Tag Foo_u32_Tag;
#else
typedef uint8_t Foo_u32_Tag;
#endif // __STDC_VERSION__ >= 202311L

struct Slice3_Body_u32 {
  FillRule fill;
  struct OwnedSlice_u32 coords;
};

struct Slice4_Body_u32 {
  FillRule fill;
  struct OwnedSlice_i32 coords;
};

struct Foo_u32 {
  Foo_u32_Tag tag;
  union {
    struct {
      struct Polygon_u32 polygon1;
    };
    struct {
      struct OwnedSlice_u32 slice1;
    };
    struct {
      struct OwnedSlice_i32 slice2;
    };
    struct Slice3_Body_u32 slice3;
    struct Slice4_Body_u32 slice4;
  };
};

struct Polygon_i32 {
  FillRule fill;
  struct OwnedSlice_i32 coordinates;
};

enum Baz_i32_Tag
#if __STDC_VERSION__ >= 202311L
  : uint8_t
#endif // __STDC_VERSION__ >= 202311L
 {
  Bar2_i32,
  Polygon21_i32,
  Slice21_i32,
  Slice22_i32,
  Slice23_i32,
  Slice24_i32,
};
#if __STDC_VERSION__ >= 202311L
typedef enum Baz_i32_Tag Baz_i32_Tag;
#else
typedef uint8_t Baz_i32_Tag;
#endif // __STDC_VERSION__ >= 202311L

struct Slice23_Body_i32 {
  Baz_i32_Tag tag;
  FillRule fill;
  struct OwnedSlice_i32 coords;
};

struct Slice24_Body_i32 {
  Baz_i32_Tag tag;
  FillRule fill;
  struct OwnedSlice_i32 coords;
};

union Baz_i32 {
  Baz_i32_Tag tag;
  struct {
    Baz_i32_Tag polygon21_tag;
    struct Polygon_i32 polygon21;
  };
  struct {
    Baz_i32_Tag slice21_tag;
    struct OwnedSlice_i32 slice21;
  };
  struct {
    Baz_i32_Tag slice22_tag;
    struct OwnedSlice_i32 slice22;
  };
  struct Slice23_Body_i32 slice23;
  struct Slice24_Body_i32 slice24;
};

enum Taz_Tag
#if __STDC_VERSION__ >= 202311L
  : uint8_t
#endif // __STDC_VERSION__ >= 202311L
 {
  Bar3,
  Taz1,
  Taz3,
};
#if __STDC_VERSION__ >= 202311L
typedef enum Taz_Tag Taz_Tag;
#else
typedef uint8_t Taz_Tag;
#endif // __STDC_VERSION__ >= 202311L

union Taz {
  Taz_Tag tag;
  struct {
    Taz_Tag taz1_tag;
    int32_t taz1;
  };
  struct {
    Taz_Tag taz3_tag;
    struct OwnedSlice_i32 taz3;
  };
};

enum Tazz_Tag
#if __STDC_VERSION__ >= 202311L
  : uint8_t
#endif // __STDC_VERSION__ >= 202311L
 {
  Bar4,
  Taz2,
};
#if __STDC_VERSION__ >= 202311L
typedef enum Tazz_Tag Tazz_Tag;
#else
typedef uint8_t Tazz_Tag;
#endif // __STDC_VERSION__ >= 202311L

union Tazz {
  Tazz_Tag tag;
  struct {
    Tazz_Tag taz2_tag;
    int32_t taz2;
  };
};

enum Tazzz_Tag
#if __STDC_VERSION__ >= 202311L
  : uint8_t
#endif // __STDC_VERSION__ >= 202311L
 {
  Bar5,
  Taz5,
};
#if __STDC_VERSION__ >= 202311L
typedef enum Tazzz_Tag Tazzz_Tag;
#else
typedef uint8_t Tazzz_Tag;
#endif // __STDC_VERSION__ >= 202311L

union Tazzz {
  Tazzz_Tag tag;
  struct {
    Tazzz_Tag taz5_tag;
    int32_t taz5;
  };
};

enum Tazzzz_Tag
#if __STDC_VERSION__ >= 202311L
  : uint8_t
#endif // __STDC_VERSION__ >= 202311L
 {
  Taz6,
  Taz7,
};
#if __STDC_VERSION__ >= 202311L
typedef enum Tazzzz_Tag Tazzzz_Tag;
#else
typedef uint8_t Tazzzz_Tag;
#endif // __STDC_VERSION__ >= 202311L

union Tazzzz {
  Tazzzz_Tag tag;
  struct {
    Tazzzz_Tag taz6_tag;
    int32_t taz6;
  };
  struct {
    Tazzzz_Tag taz7_tag;
    uint32_t taz7;
  };
};

enum Qux_Tag
#if __STDC_VERSION__ >= 202311L
  : uint8_t
#endif // __STDC_VERSION__ >= 202311L
 {
  Qux1,
  Qux2,
};
#if __STDC_VERSION__ >= 202311L
typedef enum Qux_Tag Qux_Tag;
#else
typedef uint8_t Qux_Tag;
#endif // __STDC_VERSION__ >= 202311L

union Qux {
  Qux_Tag tag;
  struct {
    Qux_Tag qux1_tag;
    int32_t qux1;
  };
  struct {
    Qux_Tag qux2_tag;
    uint32_t qux2;
  };
};

void root(const struct Foo_u32 *a,
          const union Baz_i32 *b,
          const union Taz *c,
          union Tazz d,
          const union Tazzz *e,
          const union Tazzzz *f,
          const union Qux *g);
".
(** tests/expectations/destructor_and_copy_ctor_both.c *)
Definition destructor_and_copy_ctor_c_both : string := "#define NOINLINE __attribute__((noinline))
#define NODISCARD [[nodiscard]]


#include <stdarg.h>
#include <stdbool.h>
#include <stdint.h>
#include <stdlib.h>

enum FillRule
#if __STDC_VERSION__ >= 202311L
  : uint8_t
#endif // __STDC_VERSION__ >= 202311L
 {
  A,
  B,
};
#if __STDC_VERSION__ >= 202311L
typedef enum FillRule FillRule;
#else
typedef uint8_t FillRule;
#endif // __STDC_VERSION__ >= 202311L

/**
 * This will have a destructor manually implemented via variant_body, and
 * similarly a Drop impl in Rust.
 */
typedef struct OwnedSlice_u32 {
  uintptr_t len;
  uint32_t *ptr;
} OwnedSlice_u32;

typedef struct Polygon_u32 {
  FillRule fill;
  struct OwnedSlice_u32 coordinates;
} Polygon_u32;

/**
 * This will have a destructor manually implemented via variant_body, and
 * similarly a Drop impl in Rust.
 */
typedef struct OwnedSlice_i32 {
  uintptr_t len;
  int32_t *ptr;
} OwnedSlice_i32;

enum Foo_u32_Tag
#if __STDC_VERSION__ >= 202311L
  : uint8_t
#endif // __STDC_VERSION__ >= 202311L
 {
  Bar_u32,
  Polygon1_u32,
  Slice1_u32,
  Slice2_u32,
  Slice3_u32,
  Slice4_u32,
};
#if __STDC_VERSION__ >= 202311L
typedef enum Foo_u32_Tag Foo_u32_Tag;
#else
typedef uint8_t Foo_u32_Tag;
#endif // __STDC_VERSION__ >= 202311L

typedef struct Slice3_Body_u32 {
  FillRule fill;
  struct OwnedSlice_u32 coords;
} Slice3_Body_u32;

typedef struct Slice4_Body_u32 {
  FillRule fill;
  struct OwnedSlice_i32 coords;
} Slice4_Body_u32;

typedef struct Foo_u32 {
  Foo_u32_Tag tag;
  union {
    struct {
      struct Polygon_u32 polygon1;
    };
    struct {
      struct OwnedSlice_u32 slice1;
    };
    struct {
      struct OwnedSlice_i32 slice2;
    };
    Slice3_Body_u32 slice3;
    Slice4_Body_u32 slice4;
  };
} Foo_u32;

typedef struct Polygon_i32 {
  FillRule fill;
  struct OwnedSlice_i32 coordinates;
} Polygon_i32;

enum Baz_i32_Tag
#if __STDC_VERSION__ >= 202311L
  : uint8_t
#endif // __STDC_VERSION__ >= 202311L
 {
  Bar2_i32,
  Polygon21_i32,
  Slice21_i32,
  Slice22_i32,
  Slice23_i32,
  Slice24_i32,
};
#if __STDC_VERSION__ >= 202311L
typedef enum Baz_i32_Tag Baz_i32_Tag;
#else
typedef uint8_t Baz_i32_Tag;
#endif // __STDC_VERSION__ >= 202311L

typedef struct Slice23_Body_i32 {
  Baz_i32_Tag tag;
  FillRule fill;
  struct OwnedSlice_i32 coords;
} Slice23_Body_i32;

typedef struct Slice24_Body_i32 {
  Baz_i32_Tag tag;
  FillRule fill;
  struct OwnedSlice_i32 coords;
} Slice24_Body_i32;

typedef union Baz_i32 {
  Baz_i32_Tag tag;
  struct {
    Baz_i32_Tag polygon21_tag;
    struct Polygon_i32 polygon21;
  };
  struct {
    Baz_i32_Tag slice21_tag;
    struct OwnedSlice_i32 slice21;
  };
  struct {
    Baz_i32_Tag slice22_tag;
    struct OwnedSlice_i32 slice22;
  };
  Slice23_Body_i32 slice23;
  Slice24_Body_i32 slice24;
} Baz_i32;

enum Taz_Tag
#if __STDC_VERSION__ >= 202311L
  : uint8_t
#endif // __STDC_VERSION__ >= 202311L
 {
  Bar3,
  Taz1,
  Taz3,
};
#if __STDC_VERSION__ >= 202311L
typedef enum Taz_Tag Taz_Tag;
#else
typedef uint8_t Taz_Tag;
#endif // __STDC_VERSION__ >= 202311L

typedef union Taz {
  Taz_Tag tag;
  struct {
    Taz_Tag taz1_tag;
    int32_t taz1;
  };
  struct {
    Taz_Tag taz3_tag;
    struct OwnedSlice_i32 taz3;
  };
} Taz;

enum Tazz_Tag
#if __STDC_VERSION__ >= 202311L
  : uint8_t
#endif // __STDC_VERSION__ >= 202311L
 {
  Bar4,
  Taz2,
};
#if __STDC_VERSION__ >= 202311L
typedef enum Tazz_Tag Tazz_Tag;
#else
typedef uint8_t Tazz_Tag;
#endif // __STDC_VERSION__ >= 202311L

typedef union Tazz {
  Tazz_Tag tag;
  struct {
    Tazz_Tag taz2_tag;
    int32_t taz2;
  };
} Tazz;

enum Tazzz_Tag
#if __STDC_VERSION__ >= 202311L
  : uint8_t
#endif // __STDC_VERSION__ >= 202311L
 {
  Bar5,
  Taz5,
};
#if __STDC_VERSION__ >= 202311L
typedef enum Tazzz_Tag Tazzz_Tag;
#else
typedef uint8_t Tazzz_Tag;
#endif // __STDC_VERSION__ >= 202311L

typedef union Tazzz {
  Tazzz_Tag tag;
  struct {
    Tazzz_Tag taz5_tag;
    int32_t taz5;
  };
} Tazzz;

enum Tazzzz_Tag
#if __STDC_VERSION__ >= 202311L
  : uint8_t
#endif // __STDC_VERSION__ >= 202311L
 {
  Taz6,
  Taz7,
};
#if __STDC_VERSION__ >= 202311L
typedef enum Tazzzz_Tag Tazzzz_Tag;
#else
typedef uint8_t Tazzzz_Tag;
#endif // __STDC_VERSION__ >= 202311L

typedef union Tazzzz {
  Tazzzz_Tag tag;
  struct {
    Tazzzz_Tag taz6_tag;
    int32_t taz6;
  };
  struct {
    Tazzzz_Tag taz7_tag;
    uint32_t taz7;
  };
} Tazzzz;

enum Qux_Tag
#if __STDC_VERSION__ >= 202311L
  : uint8_t
#endif // __STDC_VERSION__ >= 202311L
 {
  Qux1,
  Qux2,
};
#if __STDC_VERSION__ >= 202311L
typedef enum Qux_Tag Qux_Tag;
#else
typedef uint8_t Qux_Tag;
#endif // __STDC_VERSION__ >= 202311L

typedef union Qux {
  Qux_Tag tag;
  struct {
    Qux_Tag qux1_tag;
    int32_t qux1;
  };
  struct {
    Qux_Tag qux2_tag;
    uint32_t qux2;
  };
} Qux;

void root(const struct Foo_u32 *a,
          const union Baz_i32 *b,
          const union Taz *c,
          union Tazz d,
          const union Tazzz *e,
          const union Tazzzz *f,
          const union Qux *g);
".
(** tests/expectations/destructor_and_copy_ctor.cpp *)
Definition destructor_and_copy_ctor_cpp : string := "#define NOINLINE __attribute__((noinline))
#define NODISCARD [[nodiscard]]


#include <cstdarg>
#include <cstdint>
#include <cstdlib>
#include <ostream>
#include <new>

enum class FillRule : uint8_t {
  A,
  B,
};

/// This will have a destructor manually implemented via variant_body, and
/// similarly a Drop impl in Rust.
template<typename T>
struct OwnedSlice {
  uintptr_t len;
  T *ptr;
  ~OwnedSlice() {}
};

template<typename LengthPercentage>
struct Polygon {
  FillRule fill;
  OwnedSlice<LengthPercentage> coordinates;
};

template<typename T>
struct Foo {
  enum class Tag : uint8_t {
    Bar,
    Polygon1,
    Slice1,
    Slice2,
    Slice3,
    Slice4,
  };

  struct Polygon1_Body {
    Polygon<T> _0;
  };

  struct Slice1_Body {
    OwnedSlice<T> _0;
  };

  struct Slice2_Body {
    OwnedSlice<int32_t> _0;
  };

  struct Slice3_Body {
    FillRule fill;
    OwnedSlice<T> coords;
  };

  struct Slice4_Body {
    FillRule fill;
    OwnedSlice<int32_t> coords;
  };

  Tag tag;
  union {
    Polygon1_Body polygon1;
    Slice1_Body slice1;
    Slice2_Body slice2;
    Slice3_Body slice3;
    Slice4_Body slice4;
  };

  static Foo Bar() {
    Foo result;
    result.tag = Tag::Bar;
    return result;
  }

  bool IsBar() const {
    return tag == Tag::Bar;
  }

  static Foo Polygon1(const Polygon<T> &_0) {
    Foo result;
    ::new (&result.polygon1._0) (Polygon<T>)(_0);
    result.tag = Tag::Polygon1;
    return result;
  }

  bool IsPolygon1() const {
    return tag == Tag::Polygon1;
  }

  static Foo Slice1(const OwnedSlice<T> &_0) {
    Foo result;
    ::new (&result.slice1._0) (OwnedSlice<T>)(_0);
    result.tag = Tag::Slice1;
    return result;
  }

  bool IsSlice1() const {
    return tag == Tag::Slice1;
  }

  static Foo Slice2(const OwnedSlice<int32_t> &_0) {
    Foo result;
    ::new (&result.slice2._0) (OwnedSlice<int32_t>)(_0);
    result.tag = Tag::Slice2;
    return result;
  }

  bool IsSlice2() const {
    return tag == Tag::Slice2;
  }

  static Foo Slice3(const FillRule &fill,
                    const OwnedSlice<T> &coords) {
    Foo result;
    ::new (&result.slice3.fill) (FillRule)(fill);
    ::new (&result.slice3.coords) (OwnedSlice<T>)(coords);
    result.tag = Tag::Slice3;
    return result;
  }

  bool IsSlice3() const {
    return tag == Tag::Slice3;
  }

  static Foo Slice4(const FillRule &fill,
                    const OwnedSlice<int32_t> &coords) {
    Foo result;
    ::new (&result.slice4.fill) (FillRule)(fill);
    ::new (&result.slice4.coords) (OwnedSlice<int32_t>)(coords);
    result.tag = Tag::Slice4;
    return result;
  }

  bool IsSlice4() const {
    return tag == Tag::Slice4;
  }

  private:
  Foo() {

  }
  public:


  ~Foo() {
    switch (tag) {
      case Tag::Polygon1: polygon1.~Polygon1_Body(); break;
      case Tag::Slice1: slice1.~Slice1_Body(); break;
      case Tag::Slice2: slice2.~Slice2_Body(); break;
      case Tag::Slice3: slice3.~Slice3_Body(); break;
      case Tag::Slice4: slice4.~Slice4_Body(); break;
      default: break;
    }
  }

  Foo(const Foo& other)
   : tag(other.tag) {
    switch (tag) {
      case Tag::Polygon1: ::new (&polygon1) (Polygon1_Body)(other.polygon1); break;
      case Tag::Slice1: ::new (&slice1) (Slice1_Body)(other.slice1); break;
      case Tag::Slice2: ::new (&slice2) (Slice2_Body)(other.slice2); break;
      case Tag::Slice3: ::new (&slice3) (Slice3_Body)(other.slice3); break;
      case Tag::Slice4: ::new (&slice4) (Slice4_Body)(other.slice4); break;
      default: break;
    }
  }
  Foo& operator=(const Foo& other) {
    if (this != &other) {
      this->~Foo();
      new (this) Foo(other);
    }
    return *this;
  }
};

template<typename T>
union Baz {
  enum class Tag : uint8_t {
    Bar2,
    Polygon21,
    Slice21,
    Slice22,
    Slice23,
    Slice24,
  };

  struct Polygon21_Body {
    Tag tag;
    Polygon<T> _0;
  };

  struct Slice21_Body {
    Tag tag;
    OwnedSlice<T> _0;
  };

  struct Slice22_Body {
    Tag tag;
    OwnedSlice<int32_t> _0;
  };

  struct Slice23_Body {
    Tag tag;
    FillRule fill;
    OwnedSlice<T> coords;
  };

  struct Slice24_Body {
    Tag tag;
    FillRule fill;
    OwnedSlice<int32_t> coords;
  };

  struct {
    Tag tag;
  };
  Polygon21_Body polygon21;
  Slice21_Body slice21;
  Slice22_Body slice22;
  Slice23_Body slice23;
  Slice24_Body slice24;

  static Baz Bar2() {
    Baz result;
    result.tag = Tag::Bar2;
    return result;
  }

  bool IsBar2() const {
    return tag == Tag::Bar2;
  }

  static Baz Polygon21(const Polygon<T> &_0) {
    Baz result;
    ::new (&result.polygon21._0) (Polygon<T>)(_0);
    result.tag = Tag::Polygon21;
    return result;
  }

  bool IsPolygon21() const {
    return tag == Tag::Polygon21;
  }

  static Baz Slice21(const OwnedSlice<T> &_0) {
    Baz result;
    ::new (&result.slice21._0) (OwnedSlice<T>)(_0);
    result.tag = Tag::Slice21;
    return result;
  }

  bool IsSlice21() const {
    return tag == Tag::Slice21;
  }

  static Baz Slice22(const OwnedSlice<int32_t> &_0) {
    Baz result;
    ::new (&result.slice22._0) (OwnedSlice<int32_t>)(_0);
    result.tag = Tag::Slice22;
    return result;
  }

  bool IsSlice22() const {
    return tag == Tag::Slice22;
  }

  static Baz Slice23(const FillRule &fill,
                     const OwnedSlice<T> &coords) {
    Baz result;
    ::new (&result.slice23.fill) (FillRule)(fill);
    ::new (&result.slice23.coords) (OwnedSlice<T>)(coords);
    result.tag = Tag::Slice23;
    return result;
  }

  bool IsSlice23() const {
    return tag == Tag::Slice23;
  }

  static Baz Slice24(const FillRule &fill,
                     const OwnedSlice<int32_t> &coords) {
    Baz result;
    ::new (&result.slice24.fill) (FillRule)(fill);
    ::new (&result.slice24.coords) (OwnedSlice<int32_t>)(coords);
    result.tag = Tag::Slice24;
    return result;
  }

  bool IsSlice24() const {
    return tag == Tag::Slice24;
  }

  private:
  Baz() {

  }
  public:


  ~Baz() {
    switch (tag) {
      case Tag::Polygon21: polygon21.~Polygon21_Body(); break;
      case Tag::Slice21: slice21.~Slice21_Body(); break;
      case Tag::Slice22: slice22.~Slice22_Body(); break;
      case Tag::Slice23: slice23.~Slice23_Body(); break;
      case Tag::Slice24: slice24.~Slice24_Body(); break;
      default: break;
    }
  }

  Baz(const Baz& other)
   : tag(other.tag) {
    switch (tag) {
      case Tag::Polygon21: ::new (&polygon21) (Polygon21_Body)(other.polygon21); break;
      case Tag::Slice21: ::new (&slice21) (Slice21_Body)(other.slice21); break;
      case Tag::Slice22: ::new (&slice22) (Slice22_Body)(other.slice22); break;
      case Tag::Slice23: ::new (&slice23) (Slice23_Body)(other.slice23); break;
      case Tag::Slice24: ::new (&slice24) (Slice24_Body)(other.slice24); break;
      default: break;
    }
  }
  Baz& operator=(const Baz& other) {
    if (this != &other) {
      this->~Baz();
      new (this) Baz(other);
    }
    return *this;
  }
};

union Taz {
  enum class Tag : uint8_t {
    Bar3,
    Taz1,
    Taz3,
  };

  struct Taz1_Body {
    Tag tag;
    int32_t _0;
  };

  struct Taz3_Body {
    Tag tag;
    OwnedSlice<int32_t> _0;
  };

  struct {
    Tag tag;
  };
  Taz1_Body taz1;
  Taz3_Body taz3;

  static Taz Bar3() {
    Taz result;
    result.tag = Tag::Bar3;
    return result;
  }

  bool IsBar3() const {
    return tag == Tag::Bar3;
  }

  static Taz Taz1(const int32_t &_0) {
    Taz result;
    ::new (&result.taz1._0) (int32_t)(_0);
    result.tag = Tag::Taz1;
    return result;
  }

  bool IsTaz1() const {
    return tag == Tag::Taz1;
  }

  static Taz Taz3(const OwnedSlice<int32_t> &_0) {
    Taz result;
    ::new (&result.taz3._0) (OwnedSlice<int32_t>)(_0);
    result.tag = Tag::Taz3;
    return result;
  }

  bool IsTaz3() const {
    return tag == Tag::Taz3;
  }

  private:
  Taz() {

  }
  public:


  ~Taz() {
    switch (tag) {
      case Tag::Taz1: taz1.~Taz1_Body(); break;
      case Tag::Taz3: taz3.~Taz3_Body(); break;
      default: break;
    }
  }

  Taz(const Taz& other)
   : tag(other.tag) {
    switch (tag) {
      case Tag::Taz1: ::new (&taz1) (Taz1_Body)(other.taz1); break;
      case Tag::Taz3: ::new (&taz3) (Taz3_Body)(other.taz3); break;
      default: break;
    }
  }
  Taz& operator=(const Taz& other) {
    if (this != &other) {
      this->~Taz();
      new (this) Taz(other);
    }
    return *this;
  }
};

union Tazz {
  enum class Tag : uint8_t {
    Bar4,
    Taz2,
  };

  struct Taz2_Body {
    Tag tag;
    int32_t _0;
  };

  struct {
    Tag tag;
  };
  Taz2_Body taz2;

  static Tazz Bar4() {
    Tazz result;
    result.tag = Tag::Bar4;
    return result;
  }

  bool IsBar4() const {
    return tag == Tag::Bar4;
  }

  static Tazz Taz2(const int32_t &_0) {
    Tazz result;
    ::new (&result.taz2._0) (int32_t)(_0);
    result.tag = Tag::Taz2;
    return result;
  }

  bool IsTaz2() const {
    return tag == Tag::Taz2;
  }

  private:
  Tazz() {

  }
  public:

};

union Tazzz {
  enum class Tag : uint8_t {
    Bar5,
    Taz5,
  };

  struct Taz5_Body {
    Tag tag;
    int32_t _0;
  };

  struct {
    Tag tag;
  };
  Taz5_Body taz5;

  static Tazzz Bar5() {
    Tazzz result;
    result.tag = Tag::Bar5;
    return result;
  }

  bool IsBar5() const {
    return tag == Tag::Bar5;
  }

  static Tazzz Taz5(const int32_t &_0) {
    Tazzz result;
    ::new (&result.taz5._0) (int32_t)(_0);
    result.tag = Tag::Taz5;
    return result;
  }

  bool IsTaz5() const {
    return tag == Tag::Taz5;
  }

  private:
  Tazzz() {

  }
  public:


  ~Tazzz() {
    switch (tag) {
      case Tag::Taz5: taz5.~Taz5_Body(); break;
      default: break;
    }
  }

  Tazzz(const Tazzz& other)
   : tag(other.tag) {
    switch (tag) {
      case Tag::Taz5: ::new (&taz5) (Taz5_Body)(other.taz5); break;
      default: break;
    }
  }
};

union Tazzzz {
  enum class Tag : uint8_t {
    Taz6,
    Taz7,
  };

  struct Taz6_Body {
    Tag tag;
    int32_t _0;
  };

  struct Taz7_Body {
    Tag tag;
    uint32_t _0;
  };

  struct {
    Tag tag;
  };
  Taz6_Body taz6;
  Taz7_Body taz7;

  static Tazzzz Taz6(const int32_t &_0) {
    Tazzzz result;
    ::new (&result.taz6._0) (int32_t)(_0);
    result.tag = Tag::Taz6;
    return result;
  }

  bool IsTaz6() const {
    return tag == Tag::Taz6;
  }

  static Tazzzz Taz7(const uint32_t &_0) {
    Tazzzz result;
    ::new (&result.taz7._0) (uint32_t)(_0);
    result.tag = Tag::Taz7;
    return result;
  }

  bool IsTaz7() const {
    return tag == Tag::Taz7;
  }

  private:
  Tazzzz() {

  }
  public:


  ~Tazzzz() {
    switch (tag) {
      case Tag::Taz6: taz6.~Taz6_Body(); break;
      case Tag::Taz7: taz7.~Taz7_Body(); break;

    }
  }

  Tazzzz(const Tazzzz& other)
   : tag(other.tag) {
    switch (tag) {
      case Tag::Taz6: ::new (&taz6) (Taz6_Body)(other.taz6); break;
      case Tag::Taz7: ::new (&taz7) (Taz7_Body)(other.taz7); break;

    }
  }
  Tazzzz& operator=(const Tazzzz& other) {
    if (this != &other) {
      this->~Tazzzz();
      new (this) Tazzzz(other);
    }
    return *this;
  }
};

union Qux {
  enum class Tag : uint8_t {
    Qux1,
    Qux2,
  };

  struct Qux1_Body {
    Tag tag;
    int32_t _0;

    bool operator==(const Qux1_Body& other) const {
      return _0 == other._0;
    }
  };

  struct Qux2_Body {
    Tag tag;
    uint32_t _0;

    bool operator==(const Qux2_Body& other) const {
      return _0 == other._0;
    }
  };

  struct {
    Tag tag;
  };
  Qux1_Body qux1;
  Qux2_Body qux2;

  static Qux Qux1(const int32_t &_0) {
    Qux result;
    ::new (&result.qux1._0) (int32_t)(_0);
    result.tag = Tag::Qux1;
    return result;
  }

  bool IsQux1() const {
    return tag == Tag::Qux1;
  }

  static Qux Qux2(const uint32_t &_0) {
    Qux result;
    ::new (&result.qux2._0) (uint32_t)(_0);
    result.tag = Tag::Qux2;
    return result;
  }

  bool IsQux2() const {
    return tag == Tag::Qux2;
  }

  NODISCARD bool operator==(const Qux& other) const {
    if (tag != other.tag) {
      return false;
    }
    switch (tag) {
      case Tag::Qux1: return qux1 == other.qux1;
      case Tag::Qux2: return qux2 == other.qux2;

    }
    return true;
  }

  NODISCARD bool operator!=(const Qux& other) const {
    return !(*this == other);
  }

  private:
  Qux() {

  }
  public:


  NOINLINE ~Qux() {
    switch (tag) {
      case Tag::Qux1: qux1.~Qux1_Body(); break;
      case Tag::Qux2: qux2.~Qux2_Body(); break;

    }
  }

  NOINLINE Qux(const Qux& other)
   : tag(other.tag) {
    switch (tag) {
      case Tag::Qux1: ::new (&qux1) (Qux1_Body)(other.qux1); break;
      case Tag::Qux2: ::new (&qux2) (Qux2_Body)(other.qux2); break;

    }
  }
  NOINLINE Qux& operator=(const Qux& other) {
    if (this != &other) {
      this->~Qux();
      new (this) Qux(other);
    }
    return *this;
  }
};

extern ""C"" {

void root(const Foo<uint32_t> *a,
          const Baz<int32_t> *b,
          const Taz *c,
          Tazz d,
          const Tazzz *e,
          const Tazzzz *f,
          const Qux *g);

}  // extern ""C""
".
(** tests/expectations/destructor_and_copy_ctor.pyx *)
Definition destructor_and_copy_ctor_pyx : string := "#define NOINLINE __attribute__((noinline))
#define NODISCARD [[nodiscard]]


from libc.stdint cimport int8_t, int16_t, int32_t, int64_t, intptr_t
from libc.stdint cimport uint8_t, uint16_t, uint32_t, uint64_t, uintptr_t
cdef extern from *:
  ctypedef bint bool
  ctypedef struct va_list

cdef extern from *:

  cdef enum:
    A,
    B,
  ctypedef uint8_t FillRule;

  # This will have a destructor manually implemented via variant_body, and
  # similarly a Drop impl in Rust.
  ctypedef struct OwnedSlice_u32:
    uintptr_t len;
    uint32_t *ptr;

  ctypedef struct Polygon_u32:
    FillRule fill;
    OwnedSlice_u32 coordinates;

  # This will have a destructor manually implemented via variant_body, and
  # similarly a Drop impl in Rust.
  ctypedef struct OwnedSlice_i32:
    uintptr_t len;
    int32_t *ptr;

  cdef enum:
    Bar_u32,
    Polygon1_u32,
    Slice1_u32,
    Slice2_u32,
    Slice3_u32,
    Slice4_u32,
  ctypedef uint8_t Foo_u32_Tag;

  ctypedef struct Slice3_Body_u32:
    FillRule fill;
    OwnedSlice_u32 coords;

  ctypedef struct Slice4_Body_u32:
    FillRule fill;
    OwnedSlice_i32 coords;

  ctypedef struct Foo_u32:
    Foo_u32_Tag tag;
    Polygon_u32 polygon1;
    OwnedSlice_u32 slice1;
    OwnedSlice_i32 slice2;
    Slice3_Body_u32 slice3;
    Slice4_Body_u32 slice4;

  ctypedef struct Polygon_i32:
    FillRule fill;
    OwnedSlice_i32 coordinates;

  cdef enum:
    Bar2_i32,
    Polygon21_i32,
    Slice21_i32,
    Slice22_i32,
    Slice23_i32,
    Slice24_i32,
  ctypedef uint8_t Baz_i32_Tag;

  ctypedef struct Slice23_Body_i32:
    Baz_i32_Tag tag;
    FillRule fill;
    OwnedSlice_i32 coords;

  ctypedef struct Slice24_Body_i32:
    Baz_i32_Tag tag;
    FillRule fill;
    OwnedSlice_i32 coords;

  ctypedef union Baz_i32:
    Baz_i32_Tag tag;
    Polygon_i32 polygon21;
    OwnedSlice_i32 slice21;
    OwnedSlice_i32 slice22;
    Slice23_Body_i32 slice23;
    Slice24_Body_i32 slice24;

  cdef enum:
    Bar3,
    Taz1,
    Taz3,
  ctypedef uint8_t Taz_Tag;

  ctypedef union Taz:
    Taz_Tag tag;
    int32_t taz1;
    OwnedSlice_i32 taz3;

  cdef enum:
    Bar4,
    Taz2,
  ctypedef uint8_t Tazz_Tag;

  ctypedef union Tazz:
    Tazz_Tag tag;
    int32_t taz2;

  cdef enum:
    Bar5,
    Taz5,
  ctypedef uint8_t Tazzz_Tag;

  ctypedef union Tazzz:
    Tazzz_Tag tag;
    int32_t taz5;

  cdef enum:
    Taz6,
    Taz7,
  ctypedef uint8_t Tazzzz_Tag;

  ctypedef union Tazzzz:
    Tazzzz_Tag tag;
    int32_t taz6;
    uint32_t taz7;

  cdef enum:
    Qux1,
    Qux2,
  ctypedef uint8_t Qux_Tag;

  ctypedef union Qux:
    Qux_Tag tag;
    int32_t qux1;
    uint32_t qux2;

  void root(const Foo_u32 *a,
            const Baz_i32 *b,
            const Taz *c,
            Tazz d,
            const Tazzz *e,
            const Tazzzz *f,
            const Qux *g);
".
(** tests/expectations/destructor_and_copy_ctor_tag.pyx *)
Definition destructor_and_copy_ctor_pyx_tag : string := "#define NOINLINE __attribute__((noinline))
#define NODISCARD [[nodiscard]]


from libc.stdint cimport int8_t, int16_t, int32_t, int64_t, intptr_t
from libc.stdint cimport uint8_t, uint16_t, uint32_t, uint64_t, uintptr_t
cdef extern from *:
  ctypedef bint bool
  ctypedef struct va_list

cdef extern from *:

  cdef enum:
    A,
    B,
  ctypedef uint8_t FillRule;

  # This will have a destructor manually implemented via variant_body, and
  # similarly a Drop impl in Rust.
  cdef struct OwnedSlice_u32:
    uintptr_t len;
    uint32_t *ptr;

  cdef struct Polygon_u32:
    FillRule fill;
    OwnedSlice_u32 coordinates;

  # This will have a destructor manually implemented via variant_body, and
  # similarly a Drop impl in Rust.
  cdef struct OwnedSlice_i32:
    uintptr_t len;
    int32_t *ptr;

  cdef enum:
    Bar_u32,
    Polygon1_u32,
    Slice1_u32,
    Slice2_u32,
    Slice3_u32,
    Slice4_u32,
  ctypedef uint8_t Foo_u32_Tag;

  cdef struct Slice3_Body_u32:
    FillRule fill;
    OwnedSlice_u32 coords;

  cdef struct Slice4_Body_u32:
    FillRule fill;
    OwnedSlice_i32 coords;

  cdef struct Foo_u32:
    Foo_u32_Tag tag;
    Polygon_u32 polygon1;
    OwnedSlice_u32 slice1;
    OwnedSlice_i32 slice2;
    Slice3_Body_u32 slice3;
    Slice4_Body_u32 slice4;

  cdef struct Polygon_i32:
    FillRule fill;
    OwnedSlice_i32 coordinates;

  cdef enum:
    Bar2_i32,
    Polygon21_i32,
    Slice21_i32,
    Slice22_i32,
    Slice23_i32,
    Slice24_i32,
  ctypedef uint8_t Baz_i32_Tag;

  cdef struct Slice23_Body_i32:
    Baz_i32_Tag tag;
    FillRule fill;
    OwnedSlice_i32 coords;

  cdef struct Slice24_Body_i32:
    Baz_i32_Tag tag;
    FillRule fill;
    OwnedSlice_i32 coords;

  cdef union Baz_i32:
    Baz_i32_Tag tag;
    Polygon_i32 polygon21;
    OwnedSlice_i32 slice21;
    OwnedSlice_i32 slice22;
    Slice23_Body_i32 slice23;
    Slice24_Body_i32 slice24;

  cdef enum:
    Bar3,
    Taz1,
    Taz3,
  ctypedef uint8_t Taz_Tag;

  cdef union Taz:
    Taz_Tag tag;
    int32_t taz1;
    OwnedSlice_i32 taz3;

  cdef enum:
    Bar4,
    Taz2,
  ctypedef uint8_t Tazz_Tag;

  cdef union Tazz:
    Tazz_Tag tag;
    int32_t taz2;

  cdef enum:
    Bar5,
    Taz5,
  ctypedef uint8_t Tazzz_Tag;

  cdef union Tazzz:
    Tazzz_Tag tag;
    int32_t taz5;

  cdef enum:
    Taz6,
    Taz7,
  ctypedef uint8_t Tazzzz_Tag;

  cdef union Tazzzz:
    Tazzzz_Tag tag;
    int32_t taz6;
    uint32_t taz7;

  cdef enum:
    Qux1,
    Qux2,
  ctypedef uint8_t Qux_Tag;

  cdef union Qux:
    Qux_Tag tag;
    int32_t qux1;
    uint32_t qux2;

  void root(const Foo_u32 *a,
            const Baz_i32 *b,
            const Taz *c,
            Tazz d,
            const Tazzz *e,
            const Tazzzz *f,
            const Qux *g);
".
Example destructor_and_copy_ctor_reproduced : reproduces (in_file destructor_and_copy_ctor_rs) false destructor_and_copy_ctor_toml (Some "{
root;
};")
  [(RunC true Type_, [destructor_and_copy_ctor_compat]);
   (RunC true Tag, [destructor_and_copy_ctor_compat_tag]);
   (RunC true Both, [destructor_and_copy_ctor_compat_both]);
   (RunC false Type_, [destructor_and_copy_ctor_c]);
   (RunC false Tag, [destructor_and_copy_ctor_c_tag]);
   (RunC false Both, [destructor_and_copy_ctor_c_both]);
   (RunCxx, [destructor_and_copy_ctor_cpp]);
   (RunCython Type_, [destructor_and_copy_ctor_pyx]);
   (RunCython Tag, [destructor_and_copy_ctor_pyx_tag])] = true.
Proof. vm_compute. reflexivity. Qed.

(** ** tests/rust/display_list.rs *)
Definition display_list_rs : list sitem := [
  (ItemEnum [{| at_meta := (AList (Some "repr") [(APath (Some "u8"))]); at_outer := true |}] "DisplayItem" [] [{| sv_attrs := []; sv_ident
  := "Fill"; sv_fields := (FieldsUnnamed [{| sf_attrs := []; sf_ident := None; sf_ty := (SPath (SegPath [] "Rect" NoArgs)) |}; {|
  sf_attrs := []; sf_ident := None; sf_ty := (SPath (SegPath [] "Color" NoArgs)) |}]); sv_discriminant := None |}; {| sv_attrs :=
  []; sv_ident := "Image"; sv_fields := (FieldsNamed [{| sf_attrs := []; sf_ident := (Some "id"); sf_ty := (SPath (SegPath [] "u32"
  NoArgs)) |}; {| sf_attrs := []; sf_ident := (Some "bounds"); sf_ty := (SPath (SegPath [] "Rect" NoArgs)) |}]); sv_discriminant :=
  None |}; {| sv_attrs := []; sv_ident := "ClearScreen"; sv_fields := FieldsUnit; sv_discriminant := None |}]);
  (ItemStruct [{| at_meta := (AList (Some "repr") [(APath (Some "C"))]); at_outer := true |}] "Rect" [] (FieldsNamed [{| sf_attrs :=
  []; sf_ident := (Some "x"); sf_ty := (SPath (SegPath [] "f32" NoArgs)) |}; {| sf_attrs := []; sf_ident := (Some "y"); sf_ty := (SPath
  (SegPath [] "f32" NoArgs)) |}; {| sf_attrs := []; sf_ident := (Some "w"); sf_ty := (SPath (SegPath [] "f32" NoArgs)) |}; {| sf_attrs
  := []; sf_ident := (Some "h"); sf_ty := (SPath (SegPath [] "f32" NoArgs)) |}]));
  (ItemStruct [{| at_meta := (AList (Some "repr") [(APath (Some "C"))]); at_outer := true |}] "Color" [] (FieldsNamed [{| sf_attrs :=
  []; sf_ident := (Some "r"); sf_ty := (SPath (SegPath [] "u8" NoArgs)) |}; {| sf_attrs := []; sf_ident := (Some "g"); sf_ty := (SPath
  (SegPath [] "u8" NoArgs)) |}; {| sf_attrs := []; sf_ident := (Some "b"); sf_ty := (SPath (SegPath [] "u8" NoArgs)) |}; {| sf_attrs
  := []; sf_ident := (Some "a"); sf_ty := (SPath (SegPath [] "u8" NoArgs)) |}]));
  (ItemFn [{| at_meta := (APath (Some "no_mangle")); at_outer := true |}] true {| sg_ident := "push_item"; sg_abi := (Some (Some "C"));
  sg_inputs := [(FnTyped (PatIdent "item") (SPath (SegPath [] "DisplayItem" NoArgs)))]; sg_variadic := false; sg_output := (Some (SPath
  (SegPath [] "bool" NoArgs))) |})].
(** tests/expectations/display_list.compat.c *)
Definition display_list_compat : string := "#include <stdarg.h>
#include <stdbool.h>
#include <stdint.h>
#include <stdlib.h>

typedef struct {
  float x;
  float y;
  float w;
  float h;
} Rect;

typedef struct {
  uint8_t r;
  uint8_t g;
  uint8_t b;
  uint8_t a;
} Color;

enum DisplayItem_Tag
#if defined(__cplusplus) || __STDC_VERSION__ >= 202311L
  : uint8_t
#endif // defined(__cplusplus) || __STDC_VERSION__ >= 202311L
 {
  Fill,
  Image,
  ClearScreen,
};
#ifndef __cplusplus
#if __STDC_VERSION__ >= 202311L
typedef enum DisplayItem_Tag DisplayItem_Tag;
#else
typedef uint8_t DisplayItem_Tag;
#endif // __STDC_VERSION__ >= 202311L
#endif // __cplusplus

typedef struct {
  DisplayItem_Tag tag;
  Rect _0;
  Color _1;
} Fill_Body;

typedef struct {
  DisplayItem_Tag tag;
  uint32_t id;
  Rect bounds;
} Image_Body;

typedef union {
  DisplayItem_Tag tag;
  Fill_Body fill;
  Image_Body image;
} DisplayItem;

#ifdef __cplusplus
extern ""C"" {
#endif // __cplusplus

bool push_item(DisplayItem item);

#ifdef __cplusplus
}  // extern ""C""
#endif  // __cplusplus
".
(** tests/expectations/display_list_tag.compat.c *)
Definition display_list_compat_tag : string := "#include <stdarg.h>
#include <stdbool.h>
#include <stdint.h>
#include <stdlib.h>

struct Rect {
  float x;
  float y;
  float w;
  float h;
};

struct Color {
  uint8_t r;
  uint8_t g;
  uint8_t b;
  uint8_t a;
};

enum DisplayItem_Tag
#if defined(__cplusplus) || __STDC_VERSION__ >= 202311L
  : uint8_t
#endif // defined(__cplusplus) || __STDC_VERSION__ >= 202311L
 {
  Fill,
  Image,
  ClearScreen,
};
#ifndef __cplusplus
#if __STDC_VERSION__ >= 202311L
typedef enum DisplayItem_Tag DisplayItem_Tag;
#else
typedef uint8_t DisplayItem_Tag;
#endif // __STDC_VERSION__ >= 202311L
#endif // __cplusplus

struct Fill_Body {
  DisplayItem_Tag tag;
  struct Rect _0;
  struct Color _1;
};

struct Image_Body {
  DisplayItem_Tag tag;
  uint32_t id;
  struct Rect bounds;
};

union DisplayItem {
  DisplayItem_Tag tag;
  struct Fill_Body fill;
  struct Image_Body image;
};

#ifdef __cplusplus
extern ""C"" {
#endif // __cplusplus

bool push_item(union DisplayItem item);

#ifdef __cplusplus
}  // extern ""C""
#endif  // __cplusplus
".
(** tests/expectations/display_list_both.compat.c *)
Definition display_list_compat_both : string := "#include <stdarg.h>
#include <stdbool.h>
#include <stdint.h>
#include <stdlib.h>

typedef struct Rect {
  float x;
  float y;
  float w;
  float h;
} Rect;

typedef struct Color {
  uint8_t r;
  uint8_t g;
  uint8_t b;
  uint8_t a;
} Color;

enum DisplayItem_Tag
#if defined(__cplusplus) || __STDC_VERSION__ >= 202311L
  : uint8_t
#endif // defined(__cplusplus) || __STDC_VERSION__ >= 202311L
 {
  Fill,
  Image,
  ClearScreen,
};
#ifndef __cplusplus
#if __STDC_VERSION__ >= 202311L
typedef enum DisplayItem_Tag DisplayItem_Tag;
#else
typedef uint8_t DisplayItem_Tag;
#endif // __STDC_VERSION__ >= 202311L
#endif // __cplusplus

typedef struct Fill_Body {
  DisplayItem_Tag tag;
  struct Rect _0;
  struct Color _1;
} Fill_Body;

typedef struct Image_Body {
  DisplayItem_Tag tag;
  uint32_t id;
  struct Rect bounds;
} Image_Body;

typedef union DisplayItem {
  DisplayItem_Tag tag;
  Fill_Body fill;
  Image_Body image;
} DisplayItem;

#ifdef __cplusplus
extern ""C"" {
#endif // __cplusplus

bool push_item(union DisplayItem item);

#ifdef __cplusplus
}  // extern ""C""
#endif  // __cplusplus
".
(** tests/expectations/display_list.c *)
Definition display_list_c : string := "#include <stdarg.h>
#include <stdbool.h>
#include <stdint.h>
#include <stdlib.h>

typedef struct {
  float x;
  float y;
  float w;
  float h;
} Rect;

typedef struct {
  uint8_t r;
  uint8_t g;
  uint8_t b;
  uint8_t a;
} Color;

enum DisplayItem_Tag
#if __STDC_VERSION__ >= 202311L
  : uint8_t
#endif // __STDC_VERSION__ >= 202311L
 {
  Fill,
  Image,
  ClearScreen,
};
#if __STDC_VERSION__ >= 202311L
typedef enum DisplayItem_Tag DisplayItem_Tag;
#else
typedef uint8_t DisplayItem_Tag;
#endif // __STDC_VERSION__ >= 202311L

typedef struct {
  DisplayItem_Tag tag;
  Rect _0;
  Color _1;
} Fill_Body;

typedef struct {
  DisplayItem_Tag tag;
  uint32_t id;
  Rect bounds;
} Image_Body;

typedef union {
  DisplayItem_Tag tag;
  Fill_Body fill;
  Image_Body image;
} DisplayItem;

bool push_item(DisplayItem item);
".
(** tests/expectations/display_list_tag.c *)
Definition display_list_c_tag : string := "#include <stdarg.h>
#include <stdbool.h>
#include <stdint.h>
#include <stdlib.h>

struct Rect {
  float x;
  float y;
  float w;
  float h;
};

struct Color {
  uint8_t r;
  uint8_t g;
  uint8_t b;
  uint8_t a;
};

enum DisplayItem_Tag
#if __STDC_VERSION__ >= 202311L
  : uint8_t
#endif // __STDC_VERSION__ >= 202311L
 {
  Fill,
  Image,
  ClearScreen,
};
#if __STDC_VERSION__ >= 202311L
typedef enum DisplayItem_Tag DisplayItem_Tag;
#else
typedef uint8_t DisplayItem_Tag;
#endif // __STDC_VERSION__ >= 202311L

struct Fill_Body {
  DisplayItem_Tag tag;
  struct Rect _0;
  struct Color _1;
};

struct Image_Body {
  DisplayItem_Tag tag;
  uint32_t id;
  struct Rect bounds;
};

union DisplayItem {
  DisplayItem_Tag tag;
  struct Fill_Body fill;
  struct Image_Body image;
};

bool push_item(union DisplayItem item);
".
(** tests/expectations/display_list_both.c *)
Definition display_list_c_both : string := "#include <stdarg.h>
#include <stdbool.h>
#include <stdint.h>
#include <stdlib.h>

typedef struct Rect {
  float x;
  float y;
  float w;
  float h;
} Rect;

typedef struct Color {
  uint8_t r;
  uint8_t g;
  uint8_t b;
  uint8_t a;
} Color;

enum DisplayItem_Tag
#if __STDC_VERSION__ >= 202311L
  : uint8_t
#endif // __STDC_VERSION__ >= 202311L
 {
  Fill,
  Image,
  ClearScreen,
};
#if __STDC_VERSION__ >= 202311L
typedef enum DisplayItem_Tag DisplayItem_Tag;
#else
typedef uint8_t DisplayItem_Tag;
#endif // __STDC_VERSION__ >= 202311L

typedef struct Fill_Body {
  DisplayItem_Tag tag;
  struct Rect _0;
  struct Color _1;
} Fill_Body;

typedef struct Image_Body {
  DisplayItem_Tag tag;
  uint32_t id;
  struct Rect bounds;
} Image_Body;

typedef union DisplayItem {
  DisplayItem_Tag tag;
  Fill_Body fill;
  Image_Body image;
} DisplayItem;

bool push_item(union DisplayItem item);
".
(** tests/expectations/display_list.cpp *)
Definition display_list_cpp : string := "#include <cstdarg>
#include <cstdint>
#include <cstdlib>
#include <ostream>
#include <new>

struct Rect {
  float x;
  float y;
  float w;
  float h;
};

struct Color {
  uint8_t r;
  uint8_t g;
  uint8_t b;
  uint8_t a;
};

union DisplayItem {
  enum class Tag : uint8_t {
    Fill,
    Image,
    ClearScreen,
  };

  struct Fill_Body {
    Tag tag;
    Rect _0;
    Color _1;
  };

  struct Image_Body {
    Tag tag;
    uint32_t id;
    Rect bounds;
  };

  struct {
    Tag tag;
  };
  Fill_Body fill;
  Image_Body image;
};

extern ""C"" {

bool push_item(DisplayItem item);

}  // extern ""C""
".
(** tests/expectations/display_list.pyx *)
Definition display_list_pyx : string := "from libc.stdint cimport int8_t, int16_t, int32_t, int64_t, intptr_t
from libc.stdint cimport uint8_t, uint16_t, uint32_t, uint64_t, uintptr_t
cdef extern from *:
  ctypedef bint bool
  ctypedef struct va_list

cdef extern from *:

  ctypedef struct Rect:
    float x;
    float y;
    float w;
    float h;

  ctypedef struct Color:
    uint8_t r;
    uint8_t g;
    uint8_t b;
    uint8_t a;

  cdef enum:
    Fill,
    Image,
    ClearScreen,
  ctypedef uint8_t DisplayItem_Tag;

  ctypedef struct Fill_Body:
    DisplayItem_Tag tag;
    Rect _0;
    Color _1;

  ctypedef struct Image_Body:
    DisplayItem_Tag tag;
    uint32_t id;
    Rect bounds;

  ctypedef union DisplayItem:
    DisplayItem_Tag tag;
    Fill_Body fill;
    Image_Body image;

  bool push_item(DisplayItem item);
".
(** tests/expectations/display_list_tag.pyx *)
Definition display_list_pyx_tag : string := "from libc.stdint cimport int8_t, int16_t, int32_t, int64_t, intptr_t
from libc.stdint cimport uint8_t, uint16_t, uint32_t, uint64_t, uintptr_t
cdef extern from *:
  ctypedef bint bool
  ctypedef struct va_list

cdef extern from *:

  cdef struct Rect:
    float x;
    float y;
    float w;
    float h;

  cdef struct Color:
    uint8_t r;
    uint8_t g;
    uint8_t b;
    uint8_t a;

  cdef enum:
    Fill,
    Image,
    ClearScreen,
  ctypedef uint8_t DisplayItem_Tag;

  cdef struct Fill_Body:
    DisplayItem_Tag tag;
    Rect _0;
    Color _1;

  cdef struct Image_Body:
    DisplayItem_Tag tag;
    uint32_t id;
    Rect bounds;

  cdef union DisplayItem:
    DisplayItem_Tag tag;
    Fill_Body fill;
    Image_Body image;

  bool push_item(DisplayItem item);
".
Example display_list_reproduced : reproduces (in_file display_list_rs) false default_config (Some "{
push_item;
};")
  [(RunC true Type_, [display_list_compat]);
   (RunC true Tag, [display_list_compat_tag]);
   (RunC true Both, [display_list_compat_both]);
   (RunC false Type_, [display_list_c]);
   (RunC false Tag, [display_list_c_tag]);
   (RunC false Both, [display_list_c_both]);
   (RunCxx, [display_list_cpp]);
   (RunCython Type_, [display_list_pyx]);
   (RunCython Tag, [display_list_pyx_tag])] = true.
Proof. vm_compute. reflexivity. Qed.

(** ** tests/rust/doclength_short.rs *)
Definition doclength_short_rs : list sitem := [
  (ItemFn [{| at_meta := ANameValue (Some "doc") (Some " The root of all evil."); at_outer := true |}; {| at_meta := ANameValue (Some
  "doc") (Some ""); at_outer := true |}; {| at_meta := ANameValue (Some "doc") (Some " But at least it contains some more documentation as someone would expect");
  at_outer := true |}; {| at_meta := ANameValue (Some "doc") (Some " from a simple test case like this. Though, this shouldn't appear in the");
  at_outer := true |}; {| at_meta := ANameValue (Some "doc") (Some " output."); at_outer := true |}; {| at_meta := (APath (Some "no_mangle"));
  at_outer := true |}] true {| sg_ident := "root"; sg_abi := (Some (Some "C")); sg_inputs := []; sg_variadic := false; sg_output :=
  None |});
  (ItemFn [{| at_meta := ANameValue (Some "doc") (Some " A little above the root, and a lot more visible, with a run-on sentence");
  at_outer := true |}; {| at_meta := ANameValue (Some "doc") (Some " to test going over the first line."); at_outer := true |}; {|
  at_meta := ANameValue (Some "doc") (Some ""); at_outer := true |}; {| at_meta := ANameValue (Some "doc") (Some " Still not here, though.");
  at_outer := true |}; {| at_meta := (APath (Some "no_mangle")); at_outer := true |}] true {| sg_ident := "trunk"; sg_abi := (Some
  (Some "C")); sg_inputs := []; sg_variadic := false; sg_output := None |})].
Definition doclength_short_toml : Config := {| header := None; includes_ := []; sys_includes_ := []; after_includes := None; trailer := None;
  include_guard_ := None; pragma_once := false; no_includes := false; package_version := false; autogen_warning := None; include_version := false;
  namespace := None; namespaces := None; using_namespaces := None; braces := SameLine; line_length := 100; tab_width := 2; line_endings := LF;
  language := Cxx; cpp_compat := false; style := Both; sort_by := SortNone; usize_is_size_t := false; parse := default_parse; export := {| ex_include := []; ex_exclude := []; ex_rename := []; ex_pre_body := []; ex_body := []; ex_prefix := None; ex_item_types := []; ex_renaming_overrides_prefixing := false; ex_mangle := {| rename_types := RNone; remove_underscores := false |} |};
  layout := {| ly_packed := None; ly_aligned_n := None |}; function := {| fn_prefix := None; fn_postfix := None; fn_must_use := None; fn_deprecated := None; fn_deprecated_with_note := None; fn_args := Auto; fn_rename_args := RNone; fn_swift_name_macro := None; fn_sort_by := None; fn_no_return := None |}; structure := {| st_rename_fields := RNone; st_derive_constructor := false; st_derive_eq := false; st_derive_neq := false; st_derive_lt := false; st_derive_lte := false; st_derive_gt := false; st_derive_gte := false; st_derive_ostream := false; st_associated_constants_in_body := false; st_rename_associated_constant := RNone; st_must_use := None; st_deprecated := None; st_deprecated_with_note := None |}; enumeration := {| en_rename_variants := RNone; en_rename_variant_name_fields := SnakeCase; en_add_sentinel := false; en_prefix_with_name := false; en_derive_helper_methods := false; en_derive_const_casts := false; en_derive_mut_casts := false; en_cast_assert_name := None; en_must_use := None; en_deprecated := None; en_deprecated_with_note := None; en_deprecated_variant := None; en_deprecated_variant_with_note := None; en_derive_tagged_enum_destructor := false; en_derive_tagged_enum_copy_constructor := false; en_derive_tagged_enum_copy_assignment := false; en_derive_ostream := false; en_enum_class := true; en_private_default_tagged_enum_constructor := false |}; constant := {| co_allow_static_const := true; co_allow_constexpr := true; co_sort_by := None |}; defines := []; documentation := true;
  documentation_style := DocAuto; documentation_length := Short; pointer := {| pt_non_null_attribute := None; pt_nullable_attribute := None |}; cython := {| cy_header := None; cy_cimports := [] |}; config_path := None |}.
(** tests/expectations/doclength_short.compat.c *)
Definition doclength_short_compat : string := "#include <stdarg.h>
#include <stdbool.h>
#include <stdint.h>
#include <stdlib.h>

#ifdef __cplusplus
extern ""C"" {
#endif // __cplusplus

/**
 * The root of all evil.
 */
void root(void);

/**
 * A little above the root, and a lot more visible, with a run-on sentence
 */
void trunk(void);

#ifdef __cplusplus
}  // extern ""C""
#endif  // __cplusplus
".
(** tests/expectations/doclength_short.c *)
Definition doclength_short_c : string := "#include <stdarg.h>
#include <stdbool.h>
#include <stdint.h>
#include <stdlib.h>

/**
 * The root of all evil.
 */
void root(void);

/**
 * A little above the root, and a lot more visible, with a run-on sentence
 */
void trunk(void);
".
(** tests/expectations/doclength_short.cpp *)
Definition doclength_short_cpp : string := "#include <cstdarg>
#include <cstdint>
#include <cstdlib>
#include <ostream>
#include <new>

extern ""C"" {

/// The root of all evil.
void root();

/// A little above the root, and a lot more visible, with a run-on sentence
void trunk();

}  // extern ""C""
".
(** tests/expectations/doclength_short.pyx *)
Definition doclength_short_pyx : string := "from libc.stdint cimport int8_t, int16_t, int32_t, int64_t, intptr_t
from libc.stdint cimport uint8_t, uint16_t, uint32_t, uint64_t, uintptr_t
cdef extern from *:
  ctypedef bint bool
  ctypedef struct va_list

cdef extern from *:

  # The root of all evil.
  void root();

  # A little above the root, and a lot more visible, with a run-on sentence
  void trunk();
".
Example doclength_short_reproduced : reproduces (in_file doclength_short_rs) false doclength_short_toml (Some "{
root;
trunk;
};")
  [(RunC true Type_, [doclength_short_compat]);
   (RunC true Tag, [doclength_short_compat]);
   (RunC true Both, [doclength_short_compat]);
   (RunC false Type_, [doclength_short_c]);
   (RunC false Tag, [doclength_short_compat; doclength_short_c]);
   (RunC false Both, [doclength_short_compat; doclength_short_c]);
   (RunCxx, [doclength_short_cpp]);
   (RunCython Type_, [doclength_short_pyx]);
   (RunCython Tag, [doclength_short_pyx])] = true.
Proof. vm_compute. reflexivity. Qed.

(** ** tests/rust/docstyle_auto.rs *)
Definition docstyle_auto_rs : list sitem := [
  (ItemFn [{| at_meta := ANameValue (Some "doc") (Some " The root of all evil."); at_outer := true |}; {| at_meta := (APath (Some "no_mangle"));
  at_outer := true |}] true {| sg_ident := "root"; sg_abi := (Some (Some "C")); sg_inputs := []; sg_variadic := false; sg_output :=
  None |})].
Definition docstyle_auto_toml : Config := {| header := None; includes_ := []; sys_includes_ := []; after_includes := None; trailer := None;
  include_guard_ := None; pragma_once := false; no_includes := false; package_version := false; autogen_warning := None; include_version := false;
  namespace := None; namespaces := None; using_namespaces := None; braces := SameLine; line_length := 100; tab_width := 2; line_endings := LF;
  language := Cxx; cpp_compat := false; style := Both; sort_by := SortNone; usize_is_size_t := false; parse := default_parse; export := {| ex_include := []; ex_exclude := []; ex_rename := []; ex_pre_body := []; ex_body := []; ex_prefix := None; ex_item_types := []; ex_renaming_overrides_prefixing := false; ex_mangle := {| rename_types := RNone; remove_underscores := false |} |};
  layout := {| ly_packed := None; ly_aligned_n := None |}; function := {| fn_prefix := None; fn_postfix := None; fn_must_use := None; fn_deprecated := None; fn_deprecated_with_note := None; fn_args := Auto; fn_rename_args := RNone; fn_swift_name_macro := None; fn_sort_by := None; fn_no_return := None |}; structure := {| st_rename_fields := RNone; st_derive_constructor := false; st_derive_eq := false; st_derive_neq := false; st_derive_lt := false; st_derive_lte := false; st_derive_gt := false; st_derive_gte := false; st_derive_ostream := false; st_associated_constants_in_body := false; st_rename_associated_constant := RNone; st_must_use := None; st_deprecated := None; st_deprecated_with_note := None |}; enumeration := {| en_rename_variants := RNone; en_rename_variant_name_fields := SnakeCase; en_add_sentinel := false; en_prefix_with_name := false; en_derive_helper_methods := false; en_derive_const_casts := false; en_derive_mut_casts := false; en_cast_assert_name := None; en_must_use := None; en_deprecated := None; en_deprecated_with_note := None; en_deprecated_variant := None; en_deprecated_variant_with_note := None; en_derive_tagged_enum_destructor := false; en_derive_tagged_enum_copy_constructor := false; en_derive_tagged_enum_copy_assignment := false; en_derive_ostream := false; en_enum_class := true; en_private_default_tagged_enum_constructor := false |}; constant := {| co_allow_static_const := true; co_allow_constexpr := true; co_sort_by := None |}; defines := []; documentation := true;
  documentation_style := DocAuto; documentation_length := Full; pointer := {| pt_non_null_attribute := None; pt_nullable_attribute := None |}; cython := {| cy_header := None; cy_cimports := [] |}; config_path := None |}.
(** tests/expectations/docstyle_auto.compat.c *)
Definition docstyle_auto_compat : string := "#include <stdarg.h>
#include <stdbool.h>
#include <stdint.h>
#include <stdlib.h>

#ifdef __cplusplus
extern ""C"" {
#endif // __cplusplus

/**
 * The root of all evil.
 */
void root(void);

#ifdef __cplusplus
}  // extern ""C""
#endif  // __cplusplus
".
(** tests/expectations/docstyle_auto.c *)
Definition docstyle_auto_c : string := "#include <stdarg.h>
#include <stdbool.h>
#include <stdint.h>
#include <stdlib.h>

/**
 * The root of all evil.
 */
void root(void);
".
(** tests/expectations/docstyle_auto.cpp *)
Definition docstyle_auto_cpp : string := "#include <cstdarg>
#include <cstdint>
#include <cstdlib>
#include <ostream>
#include <new>

extern ""C"" {

/// The root of all evil.
void root();

}  // extern ""C""
".
(** tests/expectations/docstyle_auto.pyx *)
Definition docstyle_auto_pyx : string := "from libc.stdint cimport int8_t, int16_t, int32_t, int64_t, intptr_t
from libc.stdint cimport uint8_t, uint16_t, uint32_t, uint64_t, uintptr_t
cdef extern from *:
  ctypedef bint bool
  ctypedef struct va_list

cdef extern from *:

  # The root of all evil.
  void root();
".
Example docstyle_auto_reproduced : reproduces (in_file docstyle_auto_rs) false docstyle_auto_toml (Some "{
root;
};")
  [(RunC true Type_, [docstyle_auto_compat]);
   (RunC true Tag, [docstyle_auto_compat]);
   (RunC true Both, [docstyle_auto_compat]);
   (RunC false Type_, [docstyle_auto_c]);
   (RunC false Tag, [docstyle_auto_compat; docstyle_auto_c]);
   (RunC false Both, [docstyle_auto_compat; docstyle_auto_c]);
   (RunCxx, [docstyle_auto_cpp]);
   (RunCython Type_, [docstyle_auto_pyx]);
   (RunCython Tag, [docstyle_auto_pyx])] = true.
Proof. vm_compute. reflexivity. Qed.

(** ** tests/rust/docstyle_c99.rs *)
Definition docstyle_c99_rs : list sitem := [
  (ItemFn [{| at_meta := ANameValue (Some "doc") (Some " The root of all evil."); at_outer := true |}; {| at_meta := (APath (Some "no_mangle"));
  at_outer := true |}] true {| sg_ident := "root"; sg_abi := (Some (Some "C")); sg_inputs := []; sg_variadic := false; sg_output :=
  None |})].
Definition docstyle_c99_toml : Config := {| header := None; includes_ := []; sys_includes_ := []; after_includes := None; trailer := None;
  include_guard_ := None; pragma_once := false; no_includes := false; package_version := false; autogen_warning := None; include_version := false;
  namespace := None; namespaces := None; using_namespaces := None; braces := SameLine; line_length := 100; tab_width := 2; line_endings := LF;
  language := Cxx; cpp_compat := false; style := Both; sort_by := SortNone; usize_is_size_t := false; parse := default_parse; export := {| ex_include := []; ex_exclude := []; ex_rename := []; ex_pre_body := []; ex_body := []; ex_prefix := None; ex_item_types := []; ex_renaming_overrides_prefixing := false; ex_mangle := {| rename_types := RNone; remove_underscores := false |} |};
  layout := {| ly_packed := None; ly_aligned_n := None |}; function := {| fn_prefix := None; fn_postfix := None; fn_must_use := None; fn_deprecated := None; fn_deprecated_with_note := None; fn_args := Auto; fn_rename_args := RNone; fn_swift_name_macro := None; fn_sort_by := None; fn_no_return := None |}; structure := {| st_rename_fields := RNone; st_derive_constructor := false; st_derive_eq := false; st_derive_neq := false; st_derive_lt := false; st_derive_lte := false; st_derive_gt := false; st_derive_gte := false; st_derive_ostream := false; st_associated_constants_in_body := false; st_rename_associated_constant := RNone; st_must_use := None; st_deprecated := None; st_deprecated_with_note := None |}; enumeration := {| en_rename_variants := RNone; en_rename_variant_name_fields := SnakeCase; en_add_sentinel := false; en_prefix_with_name := false; en_derive_helper_methods := false; en_derive_const_casts := false; en_derive_mut_casts := false; en_cast_assert_name := None; en_must_use := None; en_deprecated := None; en_deprecated_with_note := None; en_deprecated_variant := None; en_deprecated_variant_with_note := None; en_derive_tagged_enum_destructor := false; en_derive_tagged_enum_copy_constructor := false; en_derive_tagged_enum_copy_assignment := false; en_derive_ostream := false; en_enum_class := true; en_private_default_tagged_enum_constructor := false |}; constant := {| co_allow_static_const := true; co_allow_constexpr := true; co_sort_by := None |}; defines := []; documentation := true;
  documentation_style := DocC99; documentation_length := Full; pointer := {| pt_non_null_attribute := None; pt_nullable_attribute := None |}; cython := {| cy_header := None; cy_cimports := [] |}; config_path := None |}.
(** tests/expectations/docstyle_c99.compat.c *)
Definition docstyle_c99_compat : string := "#include <stdarg.h>
#include <stdbool.h>
#include <stdint.h>
#include <stdlib.h>

#ifdef __cplusplus
extern ""C"" {
#endif // __cplusplus

// The root of all evil.
void root(void);

#ifdef __cplusplus
}  // extern ""C""
#endif  // __cplusplus
".
(** tests/expectations/docstyle_c99.c *)
Definition docstyle_c99_c : string := "#include <stdarg.h>
#include <stdbool.h>
#include <stdint.h>
#include <stdlib.h>

// The root of all evil.
void root(void);
".
(** tests/expectations/docstyle_c99.cpp *)
Definition docstyle_c99_cpp : string := "#include <cstdarg>
#include <cstdint>
#include <cstdlib>
#include <ostream>
#include <new>

extern ""C"" {

// The root of all evil.
void root();

}  // extern ""C""
".
(** tests/expectations/docstyle_c99.pyx *)
Definition docstyle_c99_pyx : string := "from libc.stdint cimport int8_t, int16_t, int32_t, int64_t, intptr_t
from libc.stdint cimport uint8_t, uint16_t, uint32_t, uint64_t, uintptr_t
cdef extern from *:
  ctypedef bint bool
  ctypedef struct va_list

cdef extern from *:

  # The root of all evil.
  void root();
".
Example docstyle_c99_reproduced : reproduces (in_file docstyle_c99_rs) false docstyle_c99_toml (Some "{
root;
};")
  [(RunC true Type_, [docstyle_c99_compat]);
   (RunC true Tag, [docstyle_c99_compat]);
   (RunC true Both, [docstyle_c99_compat]);
   (RunC false Type_, [docstyle_c99_c]);
   (RunC false Tag, [docstyle_c99_compat; docstyle_c99_c]);
   (RunC false Both, [docstyle_c99_compat; docstyle_c99_c]);
   (RunCxx, [docstyle_c99_cpp]);
   (RunCython Type_, [docstyle_c99_pyx]);
   (RunCython Tag, [docstyle_c99_pyx])] = true.
Proof. vm_compute. reflexivity. Qed.

(** ** tests/rust/docstyle_doxy.rs *)
Definition docstyle_doxy_rs : list sitem := [
  (ItemFn [{| at_meta := ANameValue (Some "doc") (Some " The root of all evil."); at_outer := true |}; {| at_meta := (APath (Some "no_mangle"));
  at_outer := true |}] true {| sg_ident := "root"; sg_abi := (Some (Some "C")); sg_inputs := []; sg_variadic := false; sg_output :=
  None |})].
Definition docstyle_doxy_toml : Config := {| header := None; includes_ := []; sys_includes_ := []; after_includes := None; trailer := None;
  include_guard_ := None; pragma_once := false; no_includes := false; package_version := false; autogen_warning := None; include_version := false;
  namespace := None; namespaces := None; using_namespaces := None; braces := SameLine; line_length := 100; tab_width := 2; line_endings := LF;
  language := Cxx; cpp_compat := false; style := Both; sort_by := SortNone; usize_is_size_t := false; parse := default_parse; export := {| ex_include := []; ex_exclude := []; ex_rename := []; ex_pre_body := []; ex_body := []; ex_prefix := None; ex_item_types := []; ex_renaming_overrides_prefixing := false; ex_mangle := {| rename_types := RNone; remove_underscores := false |} |};
  layout := {| ly_packed := None; ly_aligned_n := None |}; function := {| fn_prefix := None; fn_postfix := None; fn_must_use := None; fn_deprecated := None; fn_deprecated_with_note := None; fn_args := Auto; fn_rename_args := RNone; fn_swift_name_macro := None; fn_sort_by := None; fn_no_return := None |}; structure := {| st_rename_fields := RNone; st_derive_constructor := false; st_derive_eq := false; st_derive_neq := false; st_derive_lt := false; st_derive_lte := false; st_derive_gt := false; st_derive_gte := false; st_derive_ostream := false; st_associated_constants_in_body := false; st_rename_associated_constant := RNone; st_must_use := None; st_deprecated := None; st_deprecated_with_note := None |}; enumeration := {| en_rename_variants := RNone; en_rename_variant_name_fields := SnakeCase; en_add_sentinel := false; en_prefix_with_name := false; en_derive_helper_methods := false; en_derive_const_casts := false; en_derive_mut_casts := false; en_cast_assert_name := None; en_must_use := None; en_deprecated := None; en_deprecated_with_note := None; en_deprecated_variant := None; en_deprecated_variant_with_note := None; en_derive_tagged_enum_destructor := false; en_derive_tagged_enum_copy_constructor := false; en_derive_tagged_enum_copy_assignment := false; en_derive_ostream := false; en_enum_class := true; en_private_default_tagged_enum_constructor := false |}; constant := {| co_allow_static_const := true; co_allow_constexpr := true; co_sort_by := None |}; defines := []; documentation := true;
  documentation_style := DocDoxy; documentation_length := Full; pointer := {| pt_non_null_attribute := None; pt_nullable_attribute := None |}; cython := {| cy_header := None; cy_cimports := [] |}; config_path := None |}.
(** tests/expectations/docstyle_doxy.compat.c *)
Definition docstyle_doxy_compat : string := "#include <stdarg.h>
#include <stdbool.h>
#include <stdint.h>
#include <stdlib.h>

#ifdef __cplusplus
extern ""C"" {
#endif // __cplusplus

/**
 * The root of all evil.
 */
void root(void);

#ifdef __cplusplus
}  // extern ""C""
#endif  // __cplusplus
".
(** tests/expectations/docstyle_doxy.c *)
Definition docstyle_doxy_c : string := "#include <stdarg.h>
#include <stdbool.h>
#include <stdint.h>
#include <stdlib.h>

/**
 * The root of all evil.
 */
void root(void);
".
(** tests/expectations/docstyle_doxy.cpp *)
Definition docstyle_doxy_cpp : string := "#include <cstdarg>
#include <cstdint>
#include <cstdlib>
#include <ostream>
#include <new>

extern ""C"" {

/**
 * The root of all evil.
 */
void root();

}  // extern ""C""
".
(** tests/expectations/docstyle_doxy.pyx *)
Definition docstyle_doxy_pyx : string := "from libc.stdint cimport int8_t, int16_t, int32_t, int64_t, intptr_t
from libc.stdint cimport uint8_t, uint16_t, uint32_t, uint64_t, uintptr_t
cdef extern from *:
  ctypedef bint bool
  ctypedef struct va_list

cdef extern from *:

  # The root of all evil.
  void root();
".
Example docstyle_doxy_reproduced : reproduces (in_file docstyle_doxy_rs) false docstyle_doxy_toml (Some "{
root;
};")
  [(RunC true Type_, [docstyle_doxy_compat]);
   (RunC true Tag, [docstyle_doxy_compat]);
   (RunC true Both, [docstyle_doxy_compat]);
   (RunC false Type_, [docstyle_doxy_c]);
   (RunC false Tag, [docstyle_doxy_compat; docstyle_doxy_c]);
   (RunC false Both, [docstyle_doxy_compat; docstyle_doxy_c]);
   (RunCxx, [docstyle_doxy_cpp]);
   (RunCython Type_, [docstyle_doxy_pyx]);
   (RunCython Tag, [docstyle_doxy_pyx])] = true.
Proof. vm_compute. reflexivity. Qed.

(** ** tests/rust/documentation.rs *)
Definition documentation_rs : list sitem := [
  (ItemFn [{| at_meta := ANameValue (Some "doc") (Some " The root of all evil."); at_outer := true |}; {| at_meta := ANameValue (Some
  "doc") (Some ""); at_outer := true |}; {| at_meta := ANameValue (Some "doc") (Some " But at least it contains some more documentation as someone would expect");
  at_outer := true |}; {| at_meta := ANameValue (Some "doc") (Some " from a simple test case like this."); at_outer := true |}; {|
  at_meta := ANameValue (Some "doc") (Some ""); at_outer := true |}; {| at_meta := ANameValue (Some "doc") (Some " # Hint"); at_outer
  := true |}; {| at_meta := ANameValue (Some "doc") (Some ""); at_outer := true |}; {| at_meta := ANameValue (Some "doc") (Some " Always ensure that everything is properly documented, even if you feel lazy.");
  at_outer := true |}; {| at_meta := ANameValue (Some "doc") (Some " **Sometimes** it is also helpful to include some markdown formatting.");
  at_outer := true |}; {| at_meta := ANameValue (Some "doc") (Some ""); at_outer := true |}; {| at_meta := ANameValue (Some "doc")
  (Some " ////////////////////////////////////////////////////////////////////////////"); at_outer := true |}; {| at_meta := ANameValue
  (Some "doc") (Some ""); at_outer := true |}; {| at_meta := ANameValue (Some "doc") (Some " Attention:"); at_outer := true |}; {|
  at_meta := ANameValue (Some "doc") (Some ""); at_outer := true |}; {| at_meta := ANameValue (Some "doc") (Some "    Rust is going to trim all leading `/` symbols. If you want to use them as a");
  at_outer := true |}; {| at_meta := ANameValue (Some "doc") (Some "    marker you need to add at least a single whitespace inbetween the tripple");
  at_outer := true |}; {| at_meta := ANameValue (Some "doc") (Some "    slash doc-comment marker and the rest."); at_outer := true
  |}; {| at_meta := ANameValue (Some "doc") (Some ""); at_outer := true |}; {| at_meta := (APath (Some "no_mangle")); at_outer :=
  true |}] true {| sg_ident := "root"; sg_abi := (Some (Some "C")); sg_inputs := []; sg_variadic := false; sg_output := None |});
  (ItemStatic [{| at_meta := ANameValue (Some "doc") (Some " Some docs."); at_outer := true |}; {| at_meta := (APath (Some "no_mangle"));
  at_outer := true |}] "FOO" false (SPath (SegPath [] "u32" NoArgs)))].
(** tests/expectations/documentation.compat.c *)
Definition documentation_compat : string := "#include <stdarg.h>
#include <stdbool.h>
#include <stdint.h>
#include <stdlib.h>

#ifdef __cplusplus
extern ""C"" {
#endif // __cplusplus

/**
 * Some docs.
 */
extern const uint32_t FOO;

/**
 * The root of all evil.
 *
 * But at least it contains some more documentation as someone would expect
 * from a simple test case like this.
 *
 * # Hint
 *
 * Always ensure that everything is properly documented, even if you feel lazy.
 * **Sometimes** it is also helpful to include some markdown formatting.
 *
 * ////////////////////////////////////////////////////////////////////////////
 *
 * Attention:
 *
 *    Rust is going to trim all leading `/` symbols. If you want to use them as a
 *    marker you need to add at least a single whitespace inbetween the tripple
 *    slash doc-comment marker and the rest.
 *
 */
void root(void);

#ifdef __cplusplus
}  // extern ""C""
#endif  // __cplusplus
".
(** tests/expectations/documentation.c *)
Definition documentation_c : string := "#include <stdarg.h>
#include <stdbool.h>
#include <stdint.h>
#include <stdlib.h>

/**
 * Some docs.
 */
extern const uint32_t FOO;

/**
 * The root of all evil.
 *
 * But at least it contains some more documentation as someone would expect
 * from a simple test case like this.
 *
 * # Hint
 *
 * Always ensure that everything is properly documented, even if you feel lazy.
 * **Sometimes** it is also helpful to include some markdown formatting.
 *
 * ////////////////////////////////////////////////////////////////////////////
 *
 * Attention:
 *
 *    Rust is going to trim all leading `/` symbols. If you want to use them as a
 *    marker you need to add at least a single whitespace inbetween the tripple
 *    slash doc-comment marker and the rest.
 *
 */
void root(void);
".
(** tests/expectations/documentation.cpp *)
Definition documentation_cpp : string := "#include <cstdarg>
#include <cstdint>
#include <cstdlib>
#include <ostream>
#include <new>

extern ""C"" {

/// Some docs.
extern const uint32_t FOO;

/// The root of all evil.
///
/// But at least it contains some more documentation as someone would expect
/// from a simple test case like this.
///
/// # Hint
///
/// Always ensure that everything is properly documented, even if you feel lazy.
/// **Sometimes** it is also helpful to include some markdown formatting.
///
/// ////////////////////////////////////////////////////////////////////////////
///
/// Attention:
///
///    Rust is going to trim all leading `/` symbols. If you want to use them as a
///    marker you need to add at least a single whitespace inbetween the tripple
///    slash doc-comment marker and the rest.
///
void root();

}  // extern ""C""
".
(** tests/expectations/documentation.pyx *)
Definition documentation_pyx : string := "from libc.stdint cimport int8_t, int16_t, int32_t, int64_t, intptr_t
from libc.stdint cimport uint8_t, uint16_t, uint32_t, uint64_t, uintptr_t
cdef extern from *:
  ctypedef bint bool
  ctypedef struct va_list

cdef extern from *:

  # Some docs.
  extern const uint32_t FOO;

  # The root of all evil.
  #
  # But at least it contains some more documentation as someone would expect
  # from a simple test case like this.
  #
  # # Hint
  #
  # Always ensure that everything is properly documented, even if you feel lazy.
  # **Sometimes** it is also helpful to include some markdown formatting.
  #
  # ////////////////////////////////////////////////////////////////////////////
  #
  # Attention:
  #
  #    Rust is going to trim all leading `/` symbols. If you want to use them as a
  #    marker you need to add at least a single whitespace inbetween the tripple
  #    slash doc-comment marker and the rest.
  #
  void root();
".
Example documentation_reproduced : reproduces (in_file documentation_rs) false default_config (Some "{
root;
FOO;
};")
  [(RunC true Type_, [documentation_compat]);
   (RunC true Tag, [documentation_compat]);
   (RunC true Both, [documentation_compat]);
   (RunC false Type_, [documentation_c]);
   (RunC false Tag, [documentation_compat; documentation_c]);
   (RunC false Both, [documentation_compat; documentation_c]);
   (RunCxx, [documentation_cpp]);
   (RunCython Type_, [documentation_pyx]);
   (RunCython Tag, [documentation_pyx])] = true.
Proof. vm_compute. reflexivity. Qed.

(** ** tests/rust/documentation_attr.rs *)
Definition documentation_attr_rs : list sitem := [
  (ItemFn [{| at_meta := (ANameValue (Some "doc") (Some "With doc attr, each attr contribute to one line of document")); at_outer :=
  true |}; {| at_meta := (ANameValue (Some "doc") (Some "like this one with a new line character at its end")); at_outer := true |};
  {| at_meta := (ANameValue (Some "doc") (Some "and this one as well. So they are in the same paragraph")); at_outer := true |}; {|
  at_meta := (ANameValue (Some "doc") (Some "")); at_outer := true |}; {| at_meta := (ANameValue (Some "doc") (Some "We treat empty doc comments as empty lines, so they break to the next paragraph."));
  at_outer := true |}; {| at_meta := (ANameValue (Some "doc") (Some "")); at_outer := true |}; {| at_meta := (ANameValue (Some "doc")
  (Some "Newlines are preserved with leading spaces added
to prettify and avoid misinterpreting leading symbols.")); at_outer := true
  |}; {| at_meta := (ANameValue (Some "doc") (Some "like headings and lists.")); at_outer := true |}; {| at_meta := (ANameValue (Some
  "doc") (Some "")); at_outer := true |}; {| at_meta := (ANameValue (Some "doc") (Some "Line ends with two new lines

Should break to next paragraph"));
  at_outer := true |}; {| at_meta := (APath (Some "no_mangle")); at_outer := true |}] true {| sg_ident := "root"; sg_abi := (Some
  (Some "C")); sg_inputs := []; sg_variadic := false; sg_output := None |})].
(** tests/expectations/documentation_attr.compat.c *)
Definition documentation_attr_compat : string := "#include <stdarg.h>
#include <stdbool.h>
#include <stdint.h>
#include <stdlib.h>

#ifdef __cplusplus
extern ""C"" {
#endif // __cplusplus

/**
 *With doc attr, each attr contribute to one line of document
 *like this one with a new line character at its end
 *and this one as well. So they are in the same paragraph
 *
 *We treat empty doc comments as empty lines, so they break to the next paragraph.
 *
 * Newlines are preserved with leading spaces added
 * to prettify and avoid misinterpreting leading symbols.
 *like headings and lists.
 *
 * Line ends with two new lines
 *
 * Should break to next paragraph
 */
void root(void);

#ifdef __cplusplus
}  // extern ""C""
#endif  // __cplusplus
".
(** tests/expectations/documentation_attr.c *)
Definition documentation_attr_c : string := "#include <stdarg.h>
#include <stdbool.h>
#include <stdint.h>
#include <stdlib.h>

/**
 *With doc attr, each attr contribute to one line of document
 *like this one with a new line character at its end
 *and this one as well. So they are in the same paragraph
 *
 *We treat empty doc comments as empty lines, so they break to the next paragraph.
 *
 * Newlines are preserved with leading spaces added
 * to prettify and avoid misinterpreting leading symbols.
 *like headings and lists.
 *
 * Line ends with two new lines
 *
 * Should break to next paragraph
 */
void root(void);
".
(** tests/expectations/documentation_attr.cpp *)
Definition documentation_attr_cpp : string := "#include <cstdarg>
#include <cstdint>
#include <cstdlib>
#include <ostream>
#include <new>

extern ""C"" {

///With doc attr, each attr contribute to one line of document
///like this one with a new line character at its end
///and this one as well. So they are in the same paragraph
///
///We treat empty doc comments as empty lines, so they break to the next paragraph.
///
/// Newlines are preserved with leading spaces added
/// to prettify and avoid misinterpreting leading symbols.
///like headings and lists.
///
/// Line ends with two new lines
///
/// Should break to next paragraph
void root();

}  // extern ""C""
".
(** tests/expectations/documentation_attr.pyx *)
Definition documentation_attr_pyx : string := "from libc.stdint cimport int8_t, int16_t, int32_t, int64_t, intptr_t
from libc.stdint cimport uint8_t, uint16_t, uint32_t, uint64_t, uintptr_t
cdef extern from *:
  ctypedef bint bool
  ctypedef struct va_list

cdef extern from *:

  #With doc attr, each attr contribute to one line of document
  #like this one with a new line character at its end
  #and this one as well. So they are in the same paragraph
  #
  #We treat empty doc comments as empty lines, so they break to the next paragraph.
  #
  # Newlines are preserved with leading spaces added
  # to prettify and avoid misinterpreting leading symbols.
  #like headings and lists.
  #
  # Line ends with two new lines
  #
  # Should break to next paragraph
  void root();
".
Example documentation_attr_reproduced : reproduces (in_file documentation_attr_rs) false default_config (Some "{
root;
};")
  [(RunC true Type_, [documentation_attr_compat]);
   (RunC true Tag, [documentation_attr_compat]);
   (RunC true Both, [documentation_attr_compat]);
   (RunC false Type_, [documentation_attr_c]);
   (RunC false Tag, [documentation_attr_compat; documentation_attr_c]);
   (RunC false Both, [documentation_attr_compat; documentation_attr_c]);
   (RunCxx, [documentation_attr_cpp]);
   (RunCython Type_, [documentation_attr_pyx]);
   (RunCython Tag, [documentation_attr_pyx])] = true.
Proof. vm_compute. reflexivity. Qed.

