(** See S_Suite.v; generated. *)
Require Import Coq.Strings.String Coq.Strings.Ascii Coq.Lists.List Coq.Bool.Bool Coq.NArith.NArith.
From Verif Require Import Base M_Config M_Cfg M_Type M_Ir M_Item M_Attr M_Syn M_Library M_Loader M_Parser M_Bindings M_Backend S_Heck S_Suite.
Import ListNotations.
Open Scope string_scope.

(** ** tests/rust/rename_crate *)
Definition rename_crate_disk : list (cpath * list sitem) := [
  (["tests"; "rust"; "rename_crate"; "src"; "lib.rs"], [
    (ItemOther []);
    (ItemOther []);
    (ItemOther []);
    (ItemOther []);
    (ItemFn [{| at_meta := (APath (Some "no_mangle")); at_outer := true |}] true {| sg_ident := "root"; sg_abi := (Some (Some "C")); sg_inputs
  := [(FnTyped (PatIdent "a") (SPath (SegPath [] "Foo" NoArgs)))]; sg_variadic := false; sg_output := None |});
    (ItemFn [{| at_meta := (APath (Some "no_mangle")); at_outer := true |}] true {| sg_ident := "renamed_func"; sg_abi := (Some (Some
  "C")); sg_inputs := [(FnTyped (PatIdent "a") (SPath (SegPath [] "RenamedTy" NoArgs)))]; sg_variadic := false; sg_output := None
  |});
    (ItemFn [{| at_meta := (APath (Some "no_mangle")); at_outer := true |}] true {| sg_ident := "no_extern_func"; sg_abi := (Some (Some
  "C")); sg_inputs := [(FnTyped (PatIdent "a") (SPath (SegPath [] "ContainsNoExternTy" NoArgs)))]; sg_variadic := false; sg_output
  := None |})]);
  (["tests"; "rust"; "rename_crate"; "dependency"; "src"; "lib.rs"], [
    (ItemStruct [{| at_meta := (AList (Some "repr") [(APath (Some "C"))]); at_outer := true |}] "Foo" [] (FieldsNamed [{| sf_attrs :=
  []; sf_ident := (Some "x"); sf_ty := (SPath (SegPath [] "i32" NoArgs)) |}]))]);
  (["tests"; "rust"; "rename_crate"; "old_dep"; "src"; "lib.rs"], [
    (ItemStruct [{| at_meta := (AList (Some "repr") [(APath (Some "C"))]); at_outer := true |}] "RenamedTy" [] (FieldsNamed [{| sf_attrs
  := []; sf_ident := (Some "y"); sf_ty := (SPath (SegPath [] "u64" NoArgs)) |}]));
    (ItemStruct [{| at_meta := (AList (Some "cfg") [(AList (Some "not") [(ANameValue (Some "target_os") (Some "freebsd"))])]); at_outer
  := true |}; {| at_meta := (AList (Some "repr") [(APath (Some "C"))]); at_outer := true |}] "ContainsNoExternTy" [] (FieldsNamed
  [{| sf_attrs := []; sf_ident := (Some "field"); sf_ty := (SPath (SegPath ["no_extern"] "NoExternTy" NoArgs)) |}]));
    (ItemStruct [{| at_meta := (AList (Some "cfg") [(ANameValue (Some "target_os") (Some "freebsd"))]); at_outer := true |}; {| at_meta
  := (AList (Some "repr") [(APath (Some "C"))]); at_outer := true |}] "ContainsNoExternTy" [] (FieldsNamed [{| sf_attrs := []; sf_ident
  := (Some "field"); sf_ty := (SPath (SegPath [] "u64" NoArgs)) |}]))]);
  (["tests"; "rust"; "rename_crate"; "no_extern"; "src"; "lib.rs"], [
    (ItemStruct [{| at_meta := (AList (Some "repr") [(APath (Some "C"))]); at_outer := true |}] "NoExternTy" [] (FieldsNamed [{| sf_attrs
  := []; sf_ident := (Some "field"); sf_ty := (SPath (SegPath [] "u8" NoArgs)) |}]))])].
Definition rename_crate_cargo : Cargo := {| cg_manifest_path := "tests/rust/rename_crate/Cargo.toml"; cg_binding_crate_name := "rename_crate"; cg_lock := (Some {| lk_root
  := None; lk_package := (Some [{| lp_name := "dependency"; lp_version := "0.1.0"; lp_dependencies := None |}; {| lp_name := "no_extern";
  lp_version := "0.1.0"; lp_dependencies := None |}; {| lp_name := "old_dep_name"; lp_version := "0.1.0"; lp_dependencies := (Some
  ["no_extern"]) |}; {| lp_name := "rename_crate"; lp_version := "0.1.0"; lp_dependencies := (Some ["dependency"; "old_dep_name"])
  |}]) |}); cg_packages := [{| mp_ref := {| pk_name := "rename_crate"; pk_version := Some "0.1.0" |}; mp_dependencies := [("dependency",
  None); ("old_dep_name", None)]; mp_targets := [(["lib"], ["tests"; "rust"; "rename_crate"; "src"; "lib.rs"])]; mp_manifest_path
  := "tests/rust/rename_crate/Cargo.toml" |}; {| mp_ref := {| pk_name := "dependency"; pk_version := Some "0.1.0" |}; mp_dependencies
  := []; mp_targets := [(["lib"], ["tests"; "rust"; "rename_crate"; "dependency"; "src"; "lib.rs"])]; mp_manifest_path := "tests/rust/rename_crate/dependency/Cargo.toml"
  |}; {| mp_ref := {| pk_name := "old_dep_name"; pk_version := Some "0.1.0" |}; mp_dependencies := [("no_extern", (Some ("cfg(not(target_os = ""freebsd""))",
  to_meta (AList (Some "cfg") [(AList (Some "not") [(ANameValue (Some "target_os") (Some "freebsd"))])]))))]; mp_targets := [(["lib"],
  ["tests"; "rust"; "rename_crate"; "old_dep"; "src"; "lib.rs"])]; mp_manifest_path := "tests/rust/rename_crate/old_dep/Cargo.toml"
  |}; {| mp_ref := {| pk_name := "no_extern"; pk_version := Some "0.1.0" |}; mp_dependencies := []; mp_targets := [(["lib"], ["tests";
  "rust"; "rename_crate"; "no_extern"; "src"; "lib.rs"])]; mp_manifest_path := "tests/rust/rename_crate/no_extern/Cargo.toml" |}];
  cg_expand := fun _ => None |}.
Definition rename_crate_toml : Config := {| header := (Some "#if 0
DEF DEFINE_FREEBSD = 0
#endif
"); includes_ := []; sys_includes_ := []; after_includes := None; trailer := None;
  include_guard_ := None; pragma_once := false; no_includes := false; package_version := false; autogen_warning := None; include_version := false;
  namespace := None; namespaces := None; using_namespaces := None; braces := SameLine; line_length := 100; tab_width := 2; line_endings := LF;
  language := Cxx; cpp_compat := false; style := Both; sort_by := SortNone; usize_is_size_t := false; parse := {| pa_parse_deps := true; pa_include := None; pa_exclude := []; pa_expand_crates := []; pa_extra_bindings := [] |}; export := {| ex_include := []; ex_exclude := []; ex_rename := []; ex_pre_body := []; ex_body := []; ex_prefix := None; ex_item_types := []; ex_renaming_overrides_prefixing := false; ex_mangle := {| rename_types := RNone; remove_underscores := false |} |};
  layout := {| ly_packed := None; ly_aligned_n := None |}; function := {| fn_prefix := None; fn_postfix := None; fn_must_use := None; fn_deprecated := None; fn_deprecated_with_note := None; fn_args := Auto; fn_rename_args := RNone; fn_swift_name_macro := None; fn_sort_by := None; fn_no_return := None |}; structure := {| st_rename_fields := RNone; st_derive_constructor := false; st_derive_eq := false; st_derive_neq := false; st_derive_lt := false; st_derive_lte := false; st_derive_gt := false; st_derive_gte := false; st_derive_ostream := false; st_associated_constants_in_body := false; st_rename_associated_constant := RNone; st_must_use := None; st_deprecated := None; st_deprecated_with_note := None |}; enumeration := {| en_rename_variants := RNone; en_rename_variant_name_fields := SnakeCase; en_add_sentinel := false; en_prefix_with_name := false; en_derive_helper_methods := false; en_derive_const_casts := false; en_derive_mut_casts := false; en_cast_assert_name := None; en_must_use := None; en_deprecated := None; en_deprecated_with_note := None; en_deprecated_variant := None; en_deprecated_variant_with_note := None; en_derive_tagged_enum_destructor := false; en_derive_tagged_enum_copy_constructor := false; en_derive_tagged_enum_copy_assignment := false; en_derive_ostream := false; en_enum_class := true; en_private_default_tagged_enum_constructor := false |}; constant := {| co_allow_static_const := true; co_allow_constexpr := true; co_sort_by := None |}; defines := [("target_os = freebsd", "DEFINE_FREEBSD")]; documentation := true;
  documentation_style := DocAuto; documentation_length := Full; pointer := {| pt_non_null_attribute := None; pt_nullable_attribute := None |}; cython := {| cy_header := None; cy_cimports := [] |}; config_path := None |}.
(** tests/expectations/rename_crate.compat.c *)
Definition rename_crate_compat : string := "#if 0
DEF DEFINE_FREEBSD = 0
#endif


#include <stdarg.h>
#include <stdbool.h>
#include <stdint.h>
#include <stdlib.h>

typedef struct {
  int32_t x;
} Foo;

typedef struct {
  uint64_t y;
} RenamedTy;

#if !defined(DEFINE_FREEBSD)
typedef struct {
  uint8_t field;
} NoExternTy;
#endif

#if !defined(DEFINE_FREEBSD)
typedef struct {
  NoExternTy field;
} ContainsNoExternTy;
#endif

#if defined(DEFINE_FREEBSD)
typedef struct {
  uint64_t field;
} ContainsNoExternTy;
#endif

#ifdef __cplusplus
extern ""C"" {
#endif // __cplusplus

void root(Foo a);

void renamed_func(RenamedTy a);

void no_extern_func(ContainsNoExternTy a);

#ifdef __cplusplus
}  // extern ""C""
#endif  // __cplusplus
".
(** tests/expectations/rename_crate_tag.compat.c *)
Definition rename_crate_compat_tag : string := "#if 0
DEF DEFINE_FREEBSD = 0
#endif


#include <stdarg.h>
#include <stdbool.h>
#include <stdint.h>
#include <stdlib.h>

struct Foo {
  int32_t x;
};

struct RenamedTy {
  uint64_t y;
};

#if !defined(DEFINE_FREEBSD)
struct NoExternTy {
  uint8_t field;
};
#endif

#if !defined(DEFINE_FREEBSD)
struct ContainsNoExternTy {
  struct NoExternTy field;
};
#endif

#if defined(DEFINE_FREEBSD)
struct ContainsNoExternTy {
  uint64_t field;
};
#endif

#ifdef __cplusplus
extern ""C"" {
#endif // __cplusplus

void root(struct Foo a);

void renamed_func(struct RenamedTy a);

void no_extern_func(struct ContainsNoExternTy a);

#ifdef __cplusplus
}  // extern ""C""
#endif  // __cplusplus
".
(** tests/expectations/rename_crate_both.compat.c *)
Definition rename_crate_compat_both : string := "#if 0
DEF DEFINE_FREEBSD = 0
#endif


#include <stdarg.h>
#include <stdbool.h>
#include <stdint.h>
#include <stdlib.h>

typedef struct Foo {
  int32_t x;
} Foo;

typedef struct RenamedTy {
  uint64_t y;
} RenamedTy;

#if !defined(DEFINE_FREEBSD)
typedef struct NoExternTy {
  uint8_t field;
} NoExternTy;
#endif

#if !defined(DEFINE_FREEBSD)
typedef struct ContainsNoExternTy {
  struct NoExternTy field;
} ContainsNoExternTy;
#endif

#if defined(DEFINE_FREEBSD)
typedef struct ContainsNoExternTy {
  uint64_t field;
} ContainsNoExternTy;
#endif

#ifdef __cplusplus
extern ""C"" {
#endif // __cplusplus

void root(struct Foo a);

void renamed_func(struct RenamedTy a);

void no_extern_func(struct ContainsNoExternTy a);

#ifdef __cplusplus
}  // extern ""C""
#endif  // __cplusplus
".
(** tests/expectations/rename_crate.c *)
Definition rename_crate_c : string := "#if 0
DEF DEFINE_FREEBSD = 0
#endif


#include <stdarg.h>
#include <stdbool.h>
#include <stdint.h>
#include <stdlib.h>

typedef struct {
  int32_t x;
} Foo;

typedef struct {
  uint64_t y;
} RenamedTy;

#if !defined(DEFINE_FREEBSD)
typedef struct {
  uint8_t field;
} NoExternTy;
#endif

#if !defined(DEFINE_FREEBSD)
typedef struct {
  NoExternTy field;
} ContainsNoExternTy;
#endif

#if defined(DEFINE_FREEBSD)
typedef struct {
  uint64_t field;
} ContainsNoExternTy;
#endif

void root(Foo a);

void renamed_func(RenamedTy a);

void no_extern_func(ContainsNoExternTy a);
".
(** tests/expectations/rename_crate_tag.c *)
Definition rename_crate_c_tag : string := "#if 0
DEF DEFINE_FREEBSD = 0
#endif


#include <stdarg.h>
#include <stdbool.h>
#include <stdint.h>
#include <stdlib.h>

struct Foo {
  int32_t x;
};

struct RenamedTy {
  uint64_t y;
};

#if !defined(DEFINE_FREEBSD)
struct NoExternTy {
  uint8_t field;
};
#endif

#if !defined(DEFINE_FREEBSD)
struct ContainsNoExternTy {
  struct NoExternTy field;
};
#endif

#if defined(DEFINE_FREEBSD)
struct ContainsNoExternTy {
  uint64_t field;
};
#endif

void root(struct Foo a);

void renamed_func(struct RenamedTy a);

void no_extern_func(struct ContainsNoExternTy a);
".
(** tests/expectations/rename_crate_both.c *)
Definition rename_crate_c_both : string := "#if 0
DEF DEFINE_FREEBSD = 0
#endif


#include <stdarg.h>
#include <stdbool.h>
#include <stdint.h>
#include <stdlib.h>

typedef struct Foo {
  int32_t x;
} Foo;

typedef struct RenamedTy {
  uint64_t y;
} RenamedTy;

#if !defined(DEFINE_FREEBSD)
typedef struct NoExternTy {
  uint8_t field;
} NoExternTy;
#endif

#if !defined(DEFINE_FREEBSD)
typedef struct ContainsNoExternTy {
  struct NoExternTy field;
} ContainsNoExternTy;
#endif

#if defined(DEFINE_FREEBSD)
typedef struct ContainsNoExternTy {
  uint64_t field;
} ContainsNoExternTy;
#endif

void root(struct Foo a);

void renamed_func(struct RenamedTy a);

void no_extern_func(struct ContainsNoExternTy a);
".
(** tests/expectations/rename_crate.cpp *)
Definition rename_crate_cpp : string := "#if 0
DEF DEFINE_FREEBSD = 0
#endif


#include <cstdarg>
#include <cstdint>
#include <cstdlib>
#include <ostream>
#include <new>

struct Foo {
  int32_t x;
};

struct RenamedTy {
  uint64_t y;
};

#if !defined(DEFINE_FREEBSD)
struct NoExternTy {
  uint8_t field;
};
#endif

#if !defined(DEFINE_FREEBSD)
struct ContainsNoExternTy {
  NoExternTy field;
};
#endif

#if defined(DEFINE_FREEBSD)
struct ContainsNoExternTy {
  uint64_t field;
};
#endif

extern ""C"" {

void root(Foo a);

void renamed_func(RenamedTy a);

void no_extern_func(ContainsNoExternTy a);

}  // extern ""C""
".
(** tests/expectations/rename_crate.pyx *)
Definition rename_crate_pyx : string := "#if 0
DEF DEFINE_FREEBSD = 0
#endif


from libc.stdint cimport int8_t, int16_t, int32_t, int64_t, intptr_t
from libc.stdint cimport uint8_t, uint16_t, uint32_t, uint64_t, uintptr_t
cdef extern from *:
  ctypedef bint bool
  ctypedef struct va_list

cdef extern from *:

  ctypedef struct Foo:
    int32_t x;

  ctypedef struct RenamedTy:
    uint64_t y;

  IF not DEFINE_FREEBSD:
    ctypedef struct NoExternTy:
      uint8_t field;

  IF not DEFINE_FREEBSD:
    ctypedef struct ContainsNoExternTy:
      NoExternTy field;

  IF DEFINE_FREEBSD:
    ctypedef struct ContainsNoExternTy:
      uint64_t field;

  void root(Foo a);

  void renamed_func(RenamedTy a);

  void no_extern_func(ContainsNoExternTy a);
".
(** tests/expectations/rename_crate_tag.pyx *)
Definition rename_crate_pyx_tag : string := "#if 0
DEF DEFINE_FREEBSD = 0
#endif


from libc.stdint cimport int8_t, int16_t, int32_t, int64_t, intptr_t
from libc.stdint cimport uint8_t, uint16_t, uint32_t, uint64_t, uintptr_t
cdef extern from *:
  ctypedef bint bool
  ctypedef struct va_list

cdef extern from *:

  cdef struct Foo:
    int32_t x;

  cdef struct RenamedTy:
    uint64_t y;

  IF not DEFINE_FREEBSD:
    cdef struct NoExternTy:
      uint8_t field;

  IF not DEFINE_FREEBSD:
    cdef struct ContainsNoExternTy:
      NoExternTy field;

  IF DEFINE_FREEBSD:
    cdef struct ContainsNoExternTy:
      uint64_t field;

  void root(Foo a);

  void renamed_func(RenamedTy a);

  void no_extern_func(ContainsNoExternTy a);
".
Example rename_crate_reproduced : reproduces (in_crate rename_crate_disk rename_crate_cargo) false rename_crate_toml (Some "{
root;
renamed_func;
no_extern_func;
};")
  [(RunC true Type_, [rename_crate_compat]);
   (RunC true Tag, [rename_crate_compat_tag]);
   (RunC true Both, [rename_crate_compat_both]);
   (RunC false Type_, [rename_crate_c]);
   (RunC false Tag, [rename_crate_c_tag]);
   (RunC false Both, [rename_crate_c_both]);
   (RunCxx, [rename_crate_cpp]);
   (RunCython Type_, [rename_crate_pyx]);
   (RunCython Tag, [rename_crate_pyx_tag])] = true.
Proof. vm_compute. reflexivity. Qed.

(** ** tests/rust/workspace *)
Definition workspace_disk : list (cpath * list sitem) := [
  (["tests"; "rust"; "workspace"; "src"; "lib.rs"], [
    (ItemOther []);
    (ItemFn [{| at_meta := (APath (Some "no_mangle")); at_outer := true |}] true {| sg_ident := "consume_ext"; sg_abi := (Some (Some "C"));
  sg_inputs := [(FnTyped (PatIdent "_ext") (SPath (SegPath ["dep"] "ExtType" NoArgs)))]; sg_variadic := false; sg_output := None |})]);
  (["tests"; "rust"; "workspace"; "dep"; "src"; "lib.rs"], [
    (ItemStruct [{| at_meta := (AList (Some "repr") [(APath (Some "C"))]); at_outer := true |}] "ExtType" [] (FieldsNamed [{| sf_attrs
  := []; sf_ident := (Some "data"); sf_ty := (SPath (SegPath [] "u32" NoArgs)) |}]));
    (ItemConst [] true "EXT_CONST" (SPath (SegPath [] "i32" NoArgs)) (XLit (LitInt 0 "")))])].
Definition workspace_cargo : Cargo := {| cg_manifest_path := "tests/rust/workspace/Cargo.toml"; cg_binding_crate_name := "workspace"; cg_lock := (Some {| lk_root := None;
  lk_package := (Some [{| lp_name := "child"; lp_version := "0.1.0"; lp_dependencies := (Some ["workspace-dep"]) |}; {| lp_name :=
  "workspace"; lp_version := "0.1.0"; lp_dependencies := (Some ["workspace-dep"]) |}; {| lp_name := "workspace-dep"; lp_version :=
  "0.1.0"; lp_dependencies := None |}]) |}); cg_packages := [{| mp_ref := {| pk_name := "workspace"; pk_version := Some "0.1.0" |};
  mp_dependencies := [("workspace-dep", None)]; mp_targets := [(["lib"], ["tests"; "rust"; "workspace"; "src"; "lib.rs"])]; mp_manifest_path
  := "tests/rust/workspace/Cargo.toml" |}; {| mp_ref := {| pk_name := "workspace-dep"; pk_version := Some "0.1.0" |}; mp_dependencies
  := []; mp_targets := [(["lib"], ["tests"; "rust"; "workspace"; "dep"; "src"; "lib.rs"])]; mp_manifest_path := "tests/rust/workspace/dep/Cargo.toml"
  |}]; cg_expand := fun _ => None |}.
Definition workspace_toml : Config := {| header := None; includes_ := []; sys_includes_ := []; after_includes := None; trailer := None;
  include_guard_ := None; pragma_once := false; no_includes := false; package_version := false; autogen_warning := None; include_version := false;
  namespace := None; namespaces := None; using_namespaces := None; braces := SameLine; line_length := 100; tab_width := 2; line_endings := LF;
  language := Cxx; cpp_compat := false; style := Both; sort_by := SortNone; usize_is_size_t := false; parse := {| pa_parse_deps := true; pa_include := None; pa_exclude := []; pa_expand_crates := []; pa_extra_bindings := ["workspace-dep"] |}; export := {| ex_include := []; ex_exclude := []; ex_rename := []; ex_pre_body := []; ex_body := []; ex_prefix := None; ex_item_types := []; ex_renaming_overrides_prefixing := false; ex_mangle := {| rename_types := RNone; remove_underscores := false |} |};
  layout := {| ly_packed := None; ly_aligned_n := None |}; function := {| fn_prefix := None; fn_postfix := None; fn_must_use := None; fn_deprecated := None; fn_deprecated_with_note := None; fn_args := Auto; fn_rename_args := RNone; fn_swift_name_macro := None; fn_sort_by := None; fn_no_return := None |}; structure := {| st_rename_fields := RNone; st_derive_constructor := false; st_derive_eq := false; st_derive_neq := false; st_derive_lt := false; st_derive_lte := false; st_derive_gt := false; st_derive_gte := false; st_derive_ostream := false; st_associated_constants_in_body := false; st_rename_associated_constant := RNone; st_must_use := None; st_deprecated := None; st_deprecated_with_note := None |}; enumeration := {| en_rename_variants := RNone; en_rename_variant_name_fields := SnakeCase; en_add_sentinel := false; en_prefix_with_name := false; en_derive_helper_methods := false; en_derive_const_casts := false; en_derive_mut_casts := false; en_cast_assert_name := None; en_must_use := None; en_deprecated := None; en_deprecated_with_note := None; en_deprecated_variant := None; en_deprecated_variant_with_note := None; en_derive_tagged_enum_destructor := false; en_derive_tagged_enum_copy_constructor := false; en_derive_tagged_enum_copy_assignment := false; en_derive_ostream := false; en_enum_class := true; en_private_default_tagged_enum_constructor := false |}; constant := {| co_allow_static_const := true; co_allow_constexpr := true; co_sort_by := None |}; defines := []; documentation := true;
  documentation_style := DocAuto; documentation_length := Full; pointer := {| pt_non_null_attribute := None; pt_nullable_attribute := None |}; cython := {| cy_header := None; cy_cimports := [] |}; config_path := None |}.
(** tests/expectations/workspace.compat.c *)
Definition workspace_compat : string := "#include <stdarg.h>
#include <stdbool.h>
#include <stdint.h>
#include <stdlib.h>

#define EXT_CONST 0

typedef struct {
  uint32_t data;
} ExtType;

#ifdef __cplusplus
extern ""C"" {
#endif // __cplusplus

void consume_ext(ExtType _ext);

#ifdef __cplusplus
}  // extern ""C""
#endif  // __cplusplus
".
(** tests/expectations/workspace_tag.compat.c *)
Definition workspace_compat_tag : string := "#include <stdarg.h>
#include <stdbool.h>
#include <stdint.h>
#include <stdlib.h>

#define EXT_CONST 0

struct ExtType {
  uint32_t data;
};

#ifdef __cplusplus
extern ""C"" {
#endif // __cplusplus

void consume_ext(struct ExtType _ext);

#ifdef __cplusplus
}  // extern ""C""
#endif  // __cplusplus
".
(** tests/expectations/workspace_both.compat.c *)
Definition workspace_compat_both : string := "#include <stdarg.h>
#include <stdbool.h>
#include <stdint.h>
#include <stdlib.h>

#define EXT_CONST 0

typedef struct ExtType {
  uint32_t data;
} ExtType;

#ifdef __cplusplus
extern ""C"" {
#endif // __cplusplus

void consume_ext(struct ExtType _ext);

#ifdef __cplusplus
}  // extern ""C""
#endif  // __cplusplus
".
(** tests/expectations/workspace.c *)
Definition workspace_c : string := "#include <stdarg.h>
#include <stdbool.h>
#include <stdint.h>
#include <stdlib.h>

#define EXT_CONST 0

typedef struct {
  uint32_t data;
} ExtType;

void consume_ext(ExtType _ext);
".
(** tests/expectations/workspace_tag.c *)
Definition workspace_c_tag : string := "#include <stdarg.h>
#include <stdbool.h>
#include <stdint.h>
#include <stdlib.h>

#define EXT_CONST 0

struct ExtType {
  uint32_t data;
};

void consume_ext(struct ExtType _ext);
".
(** tests/expectations/workspace_both.c *)
Definition workspace_c_both : string := "#include <stdarg.h>
#include <stdbool.h>
#include <stdint.h>
#include <stdlib.h>

#define EXT_CONST 0

typedef struct ExtType {
  uint32_t data;
} ExtType;

void consume_ext(struct ExtType _ext);
".
(** tests/expectations/workspace.cpp *)
Definition workspace_cpp : string := "#include <cstdarg>
#include <cstdint>
#include <cstdlib>
#include <ostream>
#include <new>

constexpr static const int32_t EXT_CONST = 0;

struct ExtType {
  uint32_t data;
};

extern ""C"" {

void consume_ext(ExtType _ext);

}  // extern ""C""
".
(** tests/expectations/workspace.pyx *)
Definition workspace_pyx : string := "from libc.stdint cimport int8_t, int16_t, int32_t, int64_t, intptr_t
from libc.stdint cimport uint8_t, uint16_t, uint32_t, uint64_t, uintptr_t
cdef extern from *:
  ctypedef bint bool
  ctypedef struct va_list

cdef extern from *:

  const int32_t EXT_CONST # = 0

  ctypedef struct ExtType:
    uint32_t data;

  void consume_ext(ExtType _ext);
".
(** tests/expectations/workspace_tag.pyx *)
Definition workspace_pyx_tag : string := "from libc.stdint cimport int8_t, int16_t, int32_t, int64_t, intptr_t
from libc.stdint cimport uint8_t, uint16_t, uint32_t, uint64_t, uintptr_t
cdef extern from *:
  ctypedef bint bool
  ctypedef struct va_list

cdef extern from *:

  const int32_t EXT_CONST # = 0

  cdef struct ExtType:
    uint32_t data;

  void consume_ext(ExtType _ext);
".
Example workspace_reproduced : reproduces (in_crate workspace_disk workspace_cargo) false workspace_toml (Some "{
consume_ext;
};")
  [(RunC true Type_, [workspace_compat]);
   (RunC true Tag, [workspace_compat_tag]);
   (RunC true Both, [workspace_compat_both]);
   (RunC false Type_, [workspace_c]);
   (RunC false Tag, [workspace_c_tag]);
   (RunC false Both, [workspace_c_both]);
   (RunCxx, [workspace_cpp]);
   (RunCython Type_, [workspace_pyx]);
   (RunCython Tag, [workspace_pyx_tag])] = true.
Proof. vm_compute. reflexivity. Qed.

