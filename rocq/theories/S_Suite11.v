(** See S_Suite.v; generated. *)
Require Import Coq.Strings.String Coq.Strings.Ascii Coq.Lists.List Coq.Bool.Bool Coq.NArith.NArith.
From Verif Require Import Base M_Config M_Cfg M_Type M_Ir M_Item M_Attr M_Syn M_Library M_Loader M_Parser M_Bindings M_Backend S_Heck S_Suite.
Import ListNotations.
Open Scope string_scope.

(** ** tests/rust/no_includes.rs *)
Definition no_includes_rs : list sitem := [
  (ItemFn [{| at_meta := (APath (Some "no_mangle")); at_outer := true |}] true {| sg_ident := "root"; sg_abi := (Some (Some "C")); sg_inputs
  := []; sg_variadic := false; sg_output := None |})].
Definition no_includes_toml : Config := {| header := None; includes_ := []; sys_includes_ := []; after_includes := None; trailer := None;
  include_guard_ := None; pragma_once := false; no_includes := true; package_version := false; autogen_warning := None; include_version := false;
  namespace := None; namespaces := None; using_namespaces := None; braces := SameLine; line_length := 100; tab_width := 2; line_endings := LF;
  language := Cxx; cpp_compat := false; style := Both; sort_by := SortNone; usize_is_size_t := false; parse := default_parse; export := {| ex_include := []; ex_exclude := []; ex_rename := []; ex_pre_body := []; ex_body := []; ex_prefix := None; ex_item_types := []; ex_renaming_overrides_prefixing := false; ex_mangle := {| rename_types := RNone; remove_underscores := false |} |};
  layout := {| ly_packed := None; ly_aligned_n := None |}; function := {| fn_prefix := None; fn_postfix := None; fn_must_use := None; fn_deprecated := None; fn_deprecated_with_note := None; fn_args := Auto; fn_rename_args := RNone; fn_swift_name_macro := None; fn_sort_by := None; fn_no_return := None |}; structure := {| st_rename_fields := RNone; st_derive_constructor := false; st_derive_eq := false; st_derive_neq := false; st_derive_lt := false; st_derive_lte := false; st_derive_gt := false; st_derive_gte := false; st_derive_ostream := false; st_associated_constants_in_body := false; st_rename_associated_constant := RNone; st_must_use := None; st_deprecated := None; st_deprecated_with_note := None |}; enumeration := {| en_rename_variants := RNone; en_rename_variant_name_fields := SnakeCase; en_add_sentinel := false; en_prefix_with_name := false; en_derive_helper_methods := false; en_derive_const_casts := false; en_derive_mut_casts := false; en_cast_assert_name := None; en_must_use := None; en_deprecated := None; en_deprecated_with_note := None; en_deprecated_variant := None; en_deprecated_variant_with_note := None; en_derive_tagged_enum_destructor := false; en_derive_tagged_enum_copy_constructor := false; en_derive_tagged_enum_copy_assignment := false; en_derive_ostream := false; en_enum_class := true; en_private_default_tagged_enum_constructor := false |}; constant := {| co_allow_static_const := true; co_allow_constexpr := true; co_sort_by := None |}; defines := []; documentation := true;
  documentation_style := DocAuto; documentation_length := Full; pointer := {| pt_non_null_attribute := None; pt_nullable_attribute := None |}; cython := {| cy_header := None; cy_cimports := [] |}; config_path := None |}.
(** tests/expectations/no_includes.compat.c *)
Definition no_includes_compat : string := "#ifdef __cplusplus
extern ""C"" {
#endif // __cplusplus

void root(void);

#ifdef __cplusplus
}  // extern ""C""
#endif  // __cplusplus
".
(** tests/expectations/no_includes.c *)
Definition no_includes_c : string := "void root(void);
".
(** tests/expectations/no_includes.cpp *)
Definition no_includes_cpp : string := "
extern ""C"" {

void root();

}  // extern ""C""
".
(** tests/expectations/no_includes.pyx *)
Definition no_includes_pyx : string := "
cdef extern from *:

  void root();
".
Example no_includes_reproduced : reproduces (in_file no_includes_rs) false no_includes_toml (Some "{
root;
};")
  [(RunC true Type_, [no_includes_compat]);
   (RunC true Tag, [no_includes_compat]);
   (RunC true Both, [no_includes_compat]);
   (RunC false Type_, [no_includes_c]);
   (RunC false Tag, [no_includes_compat; no_includes_c]);
   (RunC false Both, [no_includes_compat; no_includes_c]);
   (RunCxx, [no_includes_cpp]);
   (RunCython Type_, [no_includes_pyx]);
   (RunCython Tag, [no_includes_pyx])] = true.
Proof. vm_compute. reflexivity. Qed.

(** ** tests/rust/non_pub_extern.rs *)
Definition non_pub_extern_rs : list sitem := [
  (ItemStatic [{| at_meta := (APath (Some "no_mangle")); at_outer := true |}] "FIRST" false (SPath (SegPath [] "u32" NoArgs)));
  (ItemStatic [{| at_meta := (ANameValue (Some "export_name") (Some "RENAMED")); at_outer := true |}] "SECOND" false (SPath (SegPath
  [] "u32" NoArgs)));
  (ItemFn [{| at_meta := (APath (Some "no_mangle")); at_outer := true |}] false {| sg_ident := "first"; sg_abi := (Some (Some "C"));
  sg_inputs := []; sg_variadic := false; sg_output := None |});
  (ItemFn [{| at_meta := (ANameValue (Some "export_name") (Some "renamed")); at_outer := true |}] false {| sg_ident := "second"; sg_abi
  := (Some None); sg_inputs := []; sg_variadic := false; sg_output := None |})].
(** tests/expectations/non_pub_extern.compat.c *)
Definition non_pub_extern_compat : string := "#include <stdarg.h>
#include <stdbool.h>
#include <stdint.h>
#include <stdlib.h>

#ifdef __cplusplus
extern ""C"" {
#endif // __cplusplus

extern const uint32_t FIRST;

extern const uint32_t RENAMED;

void first(void);

void renamed(void);

#ifdef __cplusplus
}  // extern ""C""
#endif  // __cplusplus
".
(** tests/expectations/non_pub_extern.c *)
Definition non_pub_extern_c : string := "#include <stdarg.h>
#include <stdbool.h>
#include <stdint.h>
#include <stdlib.h>

extern const uint32_t FIRST;

extern const uint32_t RENAMED;

void first(void);

void renamed(void);
".
(** tests/expectations/non_pub_extern.cpp *)
Definition non_pub_extern_cpp : string := "#include <cstdarg>
#include <cstdint>
#include <cstdlib>
#include <ostream>
#include <new>

extern ""C"" {

extern const uint32_t FIRST;

extern const uint32_t RENAMED;

void first();

void renamed();

}  // extern ""C""
".
(** tests/expectations/non_pub_extern.pyx *)
Definition non_pub_extern_pyx : string := "from libc.stdint cimport int8_t, int16_t, int32_t, int64_t, intptr_t
from libc.stdint cimport uint8_t, uint16_t, uint32_t, uint64_t, uintptr_t
cdef extern from *:
  ctypedef bint bool
  ctypedef struct va_list

cdef extern from *:

  extern const uint32_t FIRST;

  extern const uint32_t RENAMED;

  void first();

  void renamed();
".
Example non_pub_extern_reproduced : reproduces (in_file non_pub_extern_rs) false default_config (Some "{
first;
renamed;
FIRST;
RENAMED;
};")
  [(RunC true Type_, [non_pub_extern_compat]);
   (RunC true Tag, [non_pub_extern_compat]);
   (RunC true Both, [non_pub_extern_compat]);
   (RunC false Type_, [non_pub_extern_c]);
   (RunC false Tag, [non_pub_extern_compat; non_pub_extern_c]);
   (RunC false Both, [non_pub_extern_compat; non_pub_extern_c]);
   (RunCxx, [non_pub_extern_cpp]);
   (RunCython Type_, [non_pub_extern_pyx]);
   (RunCython Tag, [non_pub_extern_pyx])] = true.
Proof. vm_compute. reflexivity. Qed.

(** ** tests/rust/nonnull.rs *)
Definition nonnull_rs : list sitem := [
  (ItemOther []);
  (ItemStruct [] "Opaque" [] FieldsUnit);
  (ItemStruct [{| at_meta := (AList (Some "repr") [(APath (Some "C"))]); at_outer := true |}] "Foo" [(SGType "T" None)] (FieldsNamed
  [{| sf_attrs := []; sf_ident := (Some "a"); sf_ty := (SPath (SegPath [] "NonNull" (AngleArgs [(ArgType (SPath (SegPath [] "f32"
  NoArgs)))]))) |}; {| sf_attrs := []; sf_ident := (Some "b"); sf_ty := (SPath (SegPath [] "NonNull" (AngleArgs [(ArgType (SPath (SegPath
  [] "T" NoArgs)))]))) |}; {| sf_attrs := []; sf_ident := (Some "c"); sf_ty := (SPath (SegPath [] "NonNull" (AngleArgs [(ArgType (SPath
  (SegPath [] "Opaque" NoArgs)))]))) |}; {| sf_attrs := []; sf_ident := (Some "d"); sf_ty := (SPath (SegPath [] "NonNull" (AngleArgs
  [(ArgType (SPath (SegPath [] "NonNull" (AngleArgs [(ArgType (SPath (SegPath [] "T" NoArgs)))]))))]))) |}; {| sf_attrs := []; sf_ident
  := (Some "e"); sf_ty := (SPath (SegPath [] "NonNull" (AngleArgs [(ArgType (SPath (SegPath [] "NonNull" (AngleArgs [(ArgType (SPath
  (SegPath [] "f32" NoArgs)))]))))]))) |}; {| sf_attrs := []; sf_ident := (Some "f"); sf_ty := (SPath (SegPath [] "NonNull" (AngleArgs
  [(ArgType (SPath (SegPath [] "NonNull" (AngleArgs [(ArgType (SPath (SegPath [] "Opaque" NoArgs)))]))))]))) |}; {| sf_attrs := [];
  sf_ident := (Some "g"); sf_ty := (SPath (SegPath [] "Option" (AngleArgs [(ArgType (SPath (SegPath [] "NonNull" (AngleArgs [(ArgType
  (SPath (SegPath [] "T" NoArgs)))]))))]))) |}; {| sf_attrs := []; sf_ident := (Some "h"); sf_ty := (SPath (SegPath [] "Option" (AngleArgs
  [(ArgType (SPath (SegPath [] "NonNull" (AngleArgs [(ArgType (SPath (SegPath [] "i32" NoArgs)))]))))]))) |}; {| sf_attrs := []; sf_ident
  := (Some "i"); sf_ty := (SPath (SegPath [] "Option" (AngleArgs [(ArgType (SPath (SegPath [] "NonNull" (AngleArgs [(ArgType (SPath
  (SegPath [] "NonNull" (AngleArgs [(ArgType (SPath (SegPath [] "i32" NoArgs)))]))))]))))]))) |}]));
  (ItemFn [{| at_meta := (APath (Some "no_mangle")); at_outer := true |}] true {| sg_ident := "root"; sg_abi := (Some (Some "C")); sg_inputs
  := [(FnTyped (PatIdent "arg") (SPath (SegPath [] "NonNull" (AngleArgs [(ArgType (SPath (SegPath [] "i32" NoArgs)))])))); (FnTyped
  (PatIdent "foo") (SPtr true (SPath (SegPath [] "Foo" (AngleArgs [(ArgType (SPath (SegPath [] "u64" NoArgs)))]))))); (FnTyped (PatIdent
  "d") (SPath (SegPath [] "NonNull" (AngleArgs [(ArgType (SPath (SegPath [] "NonNull" (AngleArgs [(ArgType (SPath (SegPath [] "Opaque"
  NoArgs)))]))))]))))]; sg_variadic := false; sg_output := None |})].
(** tests/expectations/nonnull.compat.c *)
Definition nonnull_compat : string := "#include <stdarg.h>
#include <stdbool.h>
#include <stdint.h>
#include <stdlib.h>

typedef struct Opaque Opaque;

typedef struct {
  float *a;
  uint64_t *b;
  Opaque *c;
  uint64_t **d;
  float **e;
  Opaque **f;
  uint64_t *g;
  int32_t *h;
  int32_t **i;
} Foo_u64;

#ifdef __cplusplus
extern ""C"" {
#endif // __cplusplus

void root(int32_t *arg, Foo_u64 *foo, Opaque **d);

#ifdef __cplusplus
}  // extern ""C""
#endif  // __cplusplus
".
(** tests/expectations/nonnull_tag.compat.c *)
Definition nonnull_compat_tag : string := "#include <stdarg.h>
#include <stdbool.h>
#include <stdint.h>
#include <stdlib.h>

struct Opaque;

struct Foo_u64 {
  float *a;
  uint64_t *b;
  struct Opaque *c;
  uint64_t **d;
  float **e;
  struct Opaque **f;
  uint64_t *g;
  int32_t *h;
  int32_t **i;
};

#ifdef __cplusplus
extern ""C"" {
#endif // __cplusplus

void root(int32_t *arg, struct Foo_u64 *foo, struct Opaque **d);

#ifdef __cplusplus
}  // extern ""C""
#endif  // __cplusplus
".
(** tests/expectations/nonnull_both.compat.c *)
Definition nonnull_compat_both : string := "#include <stdarg.h>
#include <stdbool.h>
#include <stdint.h>
#include <stdlib.h>

typedef struct Opaque Opaque;

typedef struct Foo_u64 {
  float *a;
  uint64_t *b;
  struct Opaque *c;
  uint64_t **d;
  float **e;
  struct Opaque **f;
  uint64_t *g;
  int32_t *h;
  int32_t **i;
} Foo_u64;

#ifdef __cplusplus
extern ""C"" {
#endif // __cplusplus

void root(int32_t *arg, struct Foo_u64 *foo, struct Opaque **d);

#ifdef __cplusplus
}  // extern ""C""
#endif  // __cplusplus
".
(** tests/expectations/nonnull.c *)
Definition nonnull_c : string := "#include <stdarg.h>
#include <stdbool.h>
#include <stdint.h>
#include <stdlib.h>

typedef struct Opaque Opaque;

typedef struct {
  float *a;
  uint64_t *b;
  Opaque *c;
  uint64_t **d;
  float **e;
  Opaque **f;
  uint64_t *g;
  int32_t *h;
  int32_t **i;
} Foo_u64;

void root(int32_t *arg, Foo_u64 *foo, Opaque **d);
".
(** tests/expectations/nonnull_tag.c *)
Definition nonnull_c_tag : string := "#include <stdarg.h>
#include <stdbool.h>
#include <stdint.h>
#include <stdlib.h>

struct Opaque;

struct Foo_u64 {
  float *a;
  uint64_t *b;
  struct Opaque *c;
  uint64_t **d;
  float **e;
  struct Opaque **f;
  uint64_t *g;
  int32_t *h;
  int32_t **i;
};

void root(int32_t *arg, struct Foo_u64 *foo, struct Opaque **d);
".
(** tests/expectations/nonnull_both.c *)
Definition nonnull_c_both : string := "#include <stdarg.h>
#include <stdbool.h>
#include <stdint.h>
#include <stdlib.h>

typedef struct Opaque Opaque;

typedef struct Foo_u64 {
  float *a;
  uint64_t *b;
  struct Opaque *c;
  uint64_t **d;
  float **e;
  struct Opaque **f;
  uint64_t *g;
  int32_t *h;
  int32_t **i;
} Foo_u64;

void root(int32_t *arg, struct Foo_u64 *foo, struct Opaque **d);
".
(** tests/expectations/nonnull.cpp *)
Definition nonnull_cpp : string := "#include <cstdarg>
#include <cstdint>
#include <cstdlib>
#include <ostream>
#include <new>

struct Opaque;

template<typename T>
struct Foo {
  float *a;
  T *b;
  Opaque *c;
  T **d;
  float **e;
  Opaque **f;
  T *g;
  int32_t *h;
  int32_t **i;
};

extern ""C"" {

void root(int32_t *arg, Foo<uint64_t> *foo, Opaque **d);

}  // extern ""C""
".
(** tests/expectations/nonnull.pyx *)
Definition nonnull_pyx : string := "from libc.stdint cimport int8_t, int16_t, int32_t, int64_t, intptr_t
from libc.stdint cimport uint8_t, uint16_t, uint32_t, uint64_t, uintptr_t
cdef extern from *:
  ctypedef bint bool
  ctypedef struct va_list

cdef extern from *:

  ctypedef struct Opaque:
    pass

  ctypedef struct Foo_u64:
    float *a;
    uint64_t *b;
    Opaque *c;
    uint64_t **d;
    float **e;
    Opaque **f;
    uint64_t *g;
    int32_t *h;
    int32_t **i;

  void root(int32_t *arg, Foo_u64 *foo, Opaque **d);
".
(** tests/expectations/nonnull_tag.pyx *)
Definition nonnull_pyx_tag : string := "from libc.stdint cimport int8_t, int16_t, int32_t, int64_t, intptr_t
from libc.stdint cimport uint8_t, uint16_t, uint32_t, uint64_t, uintptr_t
cdef extern from *:
  ctypedef bint bool
  ctypedef struct va_list

cdef extern from *:

  cdef struct Opaque:
    pass

  cdef struct Foo_u64:
    float *a;
    uint64_t *b;
    Opaque *c;
    uint64_t **d;
    float **e;
    Opaque **f;
    uint64_t *g;
    int32_t *h;
    int32_t **i;

  void root(int32_t *arg, Foo_u64 *foo, Opaque **d);
".
Example nonnull_reproduced : reproduces (in_file nonnull_rs) false default_config (Some "{
root;
};")
  [(RunC true Type_, [nonnull_compat]);
   (RunC true Tag, [nonnull_compat_tag]);
   (RunC true Both, [nonnull_compat_both]);
   (RunC false Type_, [nonnull_c]);
   (RunC false Tag, [nonnull_c_tag]);
   (RunC false Both, [nonnull_c_both]);
   (RunCxx, [nonnull_cpp]);
   (RunCython Type_, [nonnull_pyx]);
   (RunCython Tag, [nonnull_pyx_tag])] = true.
Proof. vm_compute. reflexivity. Qed.

(** ** tests/rust/nonnull_attribute.rs *)
Definition nonnull_attribute_rs : list sitem := [
  (ItemOther []);
  (ItemStruct [] "Opaque" [] FieldsUnit);
  (ItemStruct [{| at_meta := (AList (Some "repr") [(APath (Some "C"))]); at_outer := true |}] "Pointers" [(SGType "T" None)] (FieldsNamed
  [{| sf_attrs := []; sf_ident := (Some "a"); sf_ty := (SPath (SegPath [] "NonNull" (AngleArgs [(ArgType (SPath (SegPath [] "f32"
  NoArgs)))]))) |}; {| sf_attrs := []; sf_ident := (Some "b"); sf_ty := (SPath (SegPath [] "NonNull" (AngleArgs [(ArgType (SPath (SegPath
  [] "T" NoArgs)))]))) |}; {| sf_attrs := []; sf_ident := (Some "c"); sf_ty := (SPath (SegPath [] "NonNull" (AngleArgs [(ArgType (SPath
  (SegPath [] "Opaque" NoArgs)))]))) |}; {| sf_attrs := []; sf_ident := (Some "d"); sf_ty := (SPath (SegPath [] "NonNull" (AngleArgs
  [(ArgType (SPath (SegPath [] "NonNull" (AngleArgs [(ArgType (SPath (SegPath [] "T" NoArgs)))]))))]))) |}; {| sf_attrs := []; sf_ident
  := (Some "e"); sf_ty := (SPath (SegPath [] "NonNull" (AngleArgs [(ArgType (SPath (SegPath [] "NonNull" (AngleArgs [(ArgType (SPath
  (SegPath [] "f32" NoArgs)))]))))]))) |}; {| sf_attrs := []; sf_ident := (Some "f"); sf_ty := (SPath (SegPath [] "NonNull" (AngleArgs
  [(ArgType (SPath (SegPath [] "NonNull" (AngleArgs [(ArgType (SPath (SegPath [] "Opaque" NoArgs)))]))))]))) |}; {| sf_attrs := [];
  sf_ident := (Some "g"); sf_ty := (SPath (SegPath [] "Option" (AngleArgs [(ArgType (SPath (SegPath [] "NonNull" (AngleArgs [(ArgType
  (SPath (SegPath [] "T" NoArgs)))]))))]))) |}; {| sf_attrs := []; sf_ident := (Some "h"); sf_ty := (SPath (SegPath [] "Option" (AngleArgs
  [(ArgType (SPath (SegPath [] "NonNull" (AngleArgs [(ArgType (SPath (SegPath [] "i32" NoArgs)))]))))]))) |}; {| sf_attrs := []; sf_ident
  := (Some "i"); sf_ty := (SPath (SegPath [] "Option" (AngleArgs [(ArgType (SPath (SegPath [] "NonNull" (AngleArgs [(ArgType (SPath
  (SegPath [] "NonNull" (AngleArgs [(ArgType (SPath (SegPath [] "i32" NoArgs)))]))))]))))]))) |}; {| sf_attrs := []; sf_ident := (Some
  "j"); sf_ty := (SPtr false (SPath (SegPath [] "T" NoArgs))) |}; {| sf_attrs := []; sf_ident := (Some "k"); sf_ty := (SPtr true (SPath
  (SegPath [] "T" NoArgs))) |}]));
  (ItemStruct [{| at_meta := (AList (Some "repr") [(APath (Some "C"))]); at_outer := true |}] "References" [SGLifetime] (FieldsNamed
  [{| sf_attrs := []; sf_ident := (Some "a"); sf_ty := (SRef false (SPath (SegPath [] "Opaque" NoArgs))) |}; {| sf_attrs := []; sf_ident
  := (Some "b"); sf_ty := (SRef true (SPath (SegPath [] "Opaque" NoArgs))) |}; {| sf_attrs := []; sf_ident := (Some "c"); sf_ty :=
  (SPath (SegPath [] "Option" (AngleArgs [(ArgType (SRef false (SPath (SegPath [] "Opaque" NoArgs))))]))) |}; {| sf_attrs := []; sf_ident
  := (Some "d"); sf_ty := (SPath (SegPath [] "Option" (AngleArgs [(ArgType (SRef true (SPath (SegPath [] "Opaque" NoArgs))))]))) |}]));
  (ItemFn [{| at_meta := (APath (Some "no_mangle")); at_outer := true |}] true {| sg_ident := "value_arg"; sg_abi := (Some (Some "C"));
  sg_inputs := [(FnTyped (PatIdent "arg") (SPath (SegPath [] "References" (AngleArgs [ArgLifetime]))))]; sg_variadic := false; sg_output
  := None |});
  (ItemFn [{| at_meta := (APath (Some "no_mangle")); at_outer := true |}] true {| sg_ident := "mutltiple_args"; sg_abi := (Some (Some
  "C")); sg_inputs := [(FnTyped (PatIdent "arg") (SPath (SegPath [] "NonNull" (AngleArgs [(ArgType (SPath (SegPath [] "i32" NoArgs)))]))));
  (FnTyped (PatIdent "foo") (SPtr true (SPath (SegPath [] "Pointers" (AngleArgs [(ArgType (SPath (SegPath [] "u64" NoArgs)))])))));
  (FnTyped (PatIdent "d") (SPath (SegPath [] "NonNull" (AngleArgs [(ArgType (SPath (SegPath [] "NonNull" (AngleArgs [(ArgType (SPath
  (SegPath [] "Opaque" NoArgs)))]))))]))))]; sg_variadic := false; sg_output := None |});
  (ItemFn [{| at_meta := (APath (Some "no_mangle")); at_outer := true |}] true {| sg_ident := "ref_arg"; sg_abi := (Some (Some "C"));
  sg_inputs := [(FnTyped (PatIdent "arg") (SRef false (SPath (SegPath [] "Pointers" (AngleArgs [(ArgType (SPath (SegPath [] "u64"
  NoArgs)))])))))]; sg_variadic := false; sg_output := None |});
  (ItemFn [{| at_meta := (APath (Some "no_mangle")); at_outer := true |}] true {| sg_ident := "mut_ref_arg"; sg_abi := (Some (Some "C"));
  sg_inputs := [(FnTyped (PatIdent "arg") (SRef true (SPath (SegPath [] "Pointers" (AngleArgs [(ArgType (SPath (SegPath [] "u64" NoArgs)))])))))];
  sg_variadic := false; sg_output := None |});
  (ItemFn [{| at_meta := (APath (Some "no_mangle")); at_outer := true |}] true {| sg_ident := "optional_ref_arg"; sg_abi := (Some (Some
  "C")); sg_inputs := [(FnTyped (PatIdent "arg") (SPath (SegPath [] "Option" (AngleArgs [(ArgType (SRef false (SPath (SegPath [] "Pointers"
  (AngleArgs [(ArgType (SPath (SegPath [] "u64" NoArgs)))])))))]))))]; sg_variadic := false; sg_output := None |});
  (ItemFn [{| at_meta := (APath (Some "no_mangle")); at_outer := true |}] true {| sg_ident := "optional_mut_ref_arg"; sg_abi := (Some
  (Some "C")); sg_inputs := [(FnTyped (PatIdent "arg") (SPath (SegPath [] "Option" (AngleArgs [(ArgType (SRef true (SPath (SegPath
  [] "Pointers" (AngleArgs [(ArgType (SPath (SegPath [] "u64" NoArgs)))])))))]))))]; sg_variadic := false; sg_output := None |});
  (ItemFn [{| at_meta := (APath (Some "no_mangle")); at_outer := true |}] true {| sg_ident := "nullable_const_ptr"; sg_abi := (Some
  (Some "C")); sg_inputs := [(FnTyped (PatIdent "arg") (SPtr false (SPath (SegPath [] "Pointers" (AngleArgs [(ArgType (SPath (SegPath
  [] "u64" NoArgs)))])))))]; sg_variadic := false; sg_output := None |});
  (ItemFn [{| at_meta := (APath (Some "no_mangle")); at_outer := true |}] true {| sg_ident := "nullable_mut_ptr"; sg_abi := (Some (Some
  "C")); sg_inputs := [(FnTyped (PatIdent "arg") (SPtr true (SPath (SegPath [] "Pointers" (AngleArgs [(ArgType (SPath (SegPath []
  "u64" NoArgs)))])))))]; sg_variadic := false; sg_output := None |})].
Definition nonnull_attribute_toml : Config := {| header := (Some "#ifdef __clang__
#define CBINDGEN_NONNULL _Nonnull
#else
#define CBINDGEN_NONNULL
#endif
"); includes_ := []; sys_includes_ := []; after_includes := None; trailer := None;
  include_guard_ := None; pragma_once := false; no_includes := false; package_version := false; autogen_warning := None; include_version := false;
  namespace := None; namespaces := None; using_namespaces := None; braces := SameLine; line_length := 100; tab_width := 2; line_endings := LF;
  language := Cxx; cpp_compat := false; style := Both; sort_by := SortNone; usize_is_size_t := false; parse := default_parse; export := {| ex_include := []; ex_exclude := []; ex_rename := []; ex_pre_body := []; ex_body := []; ex_prefix := None; ex_item_types := []; ex_renaming_overrides_prefixing := false; ex_mangle := {| rename_types := RNone; remove_underscores := false |} |};
  layout := {| ly_packed := None; ly_aligned_n := None |}; function := {| fn_prefix := None; fn_postfix := None; fn_must_use := None; fn_deprecated := None; fn_deprecated_with_note := None; fn_args := Auto; fn_rename_args := RNone; fn_swift_name_macro := None; fn_sort_by := None; fn_no_return := None |}; structure := {| st_rename_fields := RNone; st_derive_constructor := false; st_derive_eq := false; st_derive_neq := false; st_derive_lt := false; st_derive_lte := false; st_derive_gt := false; st_derive_gte := false; st_derive_ostream := false; st_associated_constants_in_body := false; st_rename_associated_constant := RNone; st_must_use := None; st_deprecated := None; st_deprecated_with_note := None |}; enumeration := {| en_rename_variants := RNone; en_rename_variant_name_fields := SnakeCase; en_add_sentinel := false; en_prefix_with_name := false; en_derive_helper_methods := false; en_derive_const_casts := false; en_derive_mut_casts := false; en_cast_assert_name := None; en_must_use := None; en_deprecated := None; en_deprecated_with_note := None; en_deprecated_variant := None; en_deprecated_variant_with_note := None; en_derive_tagged_enum_destructor := false; en_derive_tagged_enum_copy_constructor := false; en_derive_tagged_enum_copy_assignment := false; en_derive_ostream := false; en_enum_class := true; en_private_default_tagged_enum_constructor := false |}; constant := {| co_allow_static_const := true; co_allow_constexpr := true; co_sort_by := None |}; defines := []; documentation := true;
  documentation_style := DocAuto; documentation_length := Full; pointer := {| pt_non_null_attribute := (Some "CBINDGEN_NONNULL"); pt_nullable_attribute := None |}; cython := {| cy_header := None; cy_cimports := [] |}; config_path := None |}.
(** tests/expectations/nonnull_attribute.compat.c *)
Definition nonnull_attribute_compat : string := "#ifdef __clang__
#define CBINDGEN_NONNULL _Nonnull
#else
#define CBINDGEN_NONNULL
#endif


#include <stdarg.h>
#include <stdbool.h>
#include <stdint.h>
#include <stdlib.h>

typedef struct Opaque Opaque;

typedef struct {
  const Opaque *CBINDGEN_NONNULL a;
  Opaque *CBINDGEN_NONNULL b;
  const Opaque *c;
  Opaque *d;
} References;

typedef struct {
  float *CBINDGEN_NONNULL a;
  uint64_t *CBINDGEN_NONNULL b;
  Opaque *CBINDGEN_NONNULL c;
  uint64_t *CBINDGEN_NONNULL *CBINDGEN_NONNULL d;
  float *CBINDGEN_NONNULL *CBINDGEN_NONNULL e;
  Opaque *CBINDGEN_NONNULL *CBINDGEN_NONNULL f;
  uint64_t *g;
  int32_t *h;
  int32_t *CBINDGEN_NONNULL *i;
  const uint64_t *j;
  uint64_t *k;
} Pointers_u64;

#ifdef __cplusplus
extern ""C"" {
#endif // __cplusplus

void value_arg(References arg);

void mutltiple_args(int32_t *CBINDGEN_NONNULL arg,
                    Pointers_u64 *foo,
                    Opaque *CBINDGEN_NONNULL *CBINDGEN_NONNULL d);

void ref_arg(const Pointers_u64 *CBINDGEN_NONNULL arg);

void mut_ref_arg(Pointers_u64 *CBINDGEN_NONNULL arg);

void optional_ref_arg(const Pointers_u64 *arg);

void optional_mut_ref_arg(Pointers_u64 *arg);

void nullable_const_ptr(const Pointers_u64 *arg);

void nullable_mut_ptr(Pointers_u64 *arg);

#ifdef __cplusplus
}  // extern ""C""
#endif  // __cplusplus
".
(** tests/expectations/nonnull_attribute_tag.compat.c *)
Definition nonnull_attribute_compat_tag : string := "#ifdef __clang__
#define CBINDGEN_NONNULL _Nonnull
#else
#define CBINDGEN_NONNULL
#endif


#include <stdarg.h>
#include <stdbool.h>
#include <stdint.h>
#include <stdlib.h>

struct Opaque;

struct References {
  const struct Opaque *CBINDGEN_NONNULL a;
  struct Opaque *CBINDGEN_NONNULL b;
  const struct Opaque *c;
  struct Opaque *d;
};

struct Pointers_u64 {
  float *CBINDGEN_NONNULL a;
  uint64_t *CBINDGEN_NONNULL b;
  struct Opaque *CBINDGEN_NONNULL c;
  uint64_t *CBINDGEN_NONNULL *CBINDGEN_NONNULL d;
  float *CBINDGEN_NONNULL *CBINDGEN_NONNULL e;
  struct Opaque *CBINDGEN_NONNULL *CBINDGEN_NONNULL f;
  uint64_t *g;
  int32_t *h;
  int32_t *CBINDGEN_NONNULL *i;
  const uint64_t *j;
  uint64_t *k;
};

#ifdef __cplusplus
extern ""C"" {
#endif // __cplusplus

void value_arg(struct References arg);

void mutltiple_args(int32_t *CBINDGEN_NONNULL arg,
                    struct Pointers_u64 *foo,
                    struct Opaque *CBINDGEN_NONNULL *CBINDGEN_NONNULL d);

void ref_arg(const struct Pointers_u64 *CBINDGEN_NONNULL arg);

void mut_ref_arg(struct Pointers_u64 *CBINDGEN_NONNULL arg);

void optional_ref_arg(const struct Pointers_u64 *arg);

void optional_mut_ref_arg(struct Pointers_u64 *arg);

void nullable_const_ptr(const struct Pointers_u64 *arg);

void nullable_mut_ptr(struct Pointers_u64 *arg);

#ifdef __cplusplus
}  // extern ""C""
#endif  // __cplusplus
".
(** tests/expectations/nonnull_attribute_both.compat.c *)
Definition nonnull_attribute_compat_both : string := "#ifdef __clang__
#define CBINDGEN_NONNULL _Nonnull
#else
#define CBINDGEN_NONNULL
#endif


#include <stdarg.h>
#include <stdbool.h>
#include <stdint.h>
#include <stdlib.h>

typedef struct Opaque Opaque;

typedef struct References {
  const struct Opaque *CBINDGEN_NONNULL a;
  struct Opaque *CBINDGEN_NONNULL b;
  const struct Opaque *c;
  struct Opaque *d;
} References;

typedef struct Pointers_u64 {
  float *CBINDGEN_NONNULL a;
  uint64_t *CBINDGEN_NONNULL b;
  struct Opaque *CBINDGEN_NONNULL c;
  uint64_t *CBINDGEN_NONNULL *CBINDGEN_NONNULL d;
  float *CBINDGEN_NONNULL *CBINDGEN_NONNULL e;
  struct Opaque *CBINDGEN_NONNULL *CBINDGEN_NONNULL f;
  uint64_t *g;
  int32_t *h;
  int32_t *CBINDGEN_NONNULL *i;
  const uint64_t *j;
  uint64_t *k;
} Pointers_u64;

#ifdef __cplusplus
extern ""C"" {
#endif // __cplusplus

void value_arg(struct References arg);

void mutltiple_args(int32_t *CBINDGEN_NONNULL arg,
                    struct Pointers_u64 *foo,
                    struct Opaque *CBINDGEN_NONNULL *CBINDGEN_NONNULL d);

void ref_arg(const struct Pointers_u64 *CBINDGEN_NONNULL arg);

void mut_ref_arg(struct Pointers_u64 *CBINDGEN_NONNULL arg);

void optional_ref_arg(const struct Pointers_u64 *arg);

void optional_mut_ref_arg(struct Pointers_u64 *arg);

void nullable_const_ptr(const struct Pointers_u64 *arg);

void nullable_mut_ptr(struct Pointers_u64 *arg);

#ifdef __cplusplus
}  // extern ""C""
#endif  // __cplusplus
".
(** tests/expectations/nonnull_attribute.c *)
Definition nonnull_attribute_c : string := "#ifdef __clang__
#define CBINDGEN_NONNULL _Nonnull
#else
#define CBINDGEN_NONNULL
#endif


#include <stdarg.h>
#include <stdbool.h>
#include <stdint.h>
#include <stdlib.h>

typedef struct Opaque Opaque;

typedef struct {
  const Opaque *CBINDGEN_NONNULL a;
  Opaque *CBINDGEN_NONNULL b;
  const Opaque *c;
  Opaque *d;
} References;

typedef struct {
  float *CBINDGEN_NONNULL a;
  uint64_t *CBINDGEN_NONNULL b;
  Opaque *CBINDGEN_NONNULL c;
  uint64_t *CBINDGEN_NONNULL *CBINDGEN_NONNULL d;
  float *CBINDGEN_NONNULL *CBINDGEN_NONNULL e;
  Opaque *CBINDGEN_NONNULL *CBINDGEN_NONNULL f;
  uint64_t *g;
  int32_t *h;
  int32_t *CBINDGEN_NONNULL *i;
  const uint64_t *j;
  uint64_t *k;
} Pointers_u64;

void value_arg(References arg);

void mutltiple_args(int32_t *CBINDGEN_NONNULL arg,
                    Pointers_u64 *foo,
                    Opaque *CBINDGEN_NONNULL *CBINDGEN_NONNULL d);

void ref_arg(const Pointers_u64 *CBINDGEN_NONNULL arg);

void mut_ref_arg(Pointers_u64 *CBINDGEN_NONNULL arg);

void optional_ref_arg(const Pointers_u64 *arg);

void optional_mut_ref_arg(Pointers_u64 *arg);

void nullable_const_ptr(const Pointers_u64 *arg);

void nullable_mut_ptr(Pointers_u64 *arg);
".
(** tests/expectations/nonnull_attribute_tag.c *)
Definition nonnull_attribute_c_tag : string := "#ifdef __clang__
#define CBINDGEN_NONNULL _Nonnull
#else
#define CBINDGEN_NONNULL
#endif


#include <stdarg.h>
#include <stdbool.h>
#include <stdint.h>
#include <stdlib.h>

struct Opaque;

struct References {
  const struct Opaque *CBINDGEN_NONNULL a;
  struct Opaque *CBINDGEN_NONNULL b;
  const struct Opaque *c;
  struct Opaque *d;
};

struct Pointers_u64 {
  float *CBINDGEN_NONNULL a;
  uint64_t *CBINDGEN_NONNULL b;
  struct Opaque *CBINDGEN_NONNULL c;
  uint64_t *CBINDGEN_NONNULL *CBINDGEN_NONNULL d;
  float *CBINDGEN_NONNULL *CBINDGEN_NONNULL e;
  struct Opaque *CBINDGEN_NONNULL *CBINDGEN_NONNULL f;
  uint64_t *g;
  int32_t *h;
  int32_t *CBINDGEN_NONNULL *i;
  const uint64_t *j;
  uint64_t *k;
};

void value_arg(struct References arg);

void mutltiple_args(int32_t *CBINDGEN_NONNULL arg,
                    struct Pointers_u64 *foo,
                    struct Opaque *CBINDGEN_NONNULL *CBINDGEN_NONNULL d);

void ref_arg(const struct Pointers_u64 *CBINDGEN_NONNULL arg);

void mut_ref_arg(struct Pointers_u64 *CBINDGEN_NONNULL arg);

void optional_ref_arg(const struct Pointers_u64 *arg);

void optional_mut_ref_arg(struct Pointers_u64 *arg);

void nullable_const_ptr(const struct Pointers_u64 *arg);

void nullable_mut_ptr(struct Pointers_u64 *arg);
".
(** tests/expectations/nonnull_attribute_both.c *)
Definition nonnull_attribute_c_both : string := "#ifdef __clang__
#define CBINDGEN_NONNULL _Nonnull
#else
#define CBINDGEN_NONNULL
#endif


#include <stdarg.h>
#include <stdbool.h>
#include <stdint.h>
#include <stdlib.h>

typedef struct Opaque Opaque;

typedef struct References {
  const struct Opaque *CBINDGEN_NONNULL a;
  struct Opaque *CBINDGEN_NONNULL b;
  const struct Opaque *c;
  struct Opaque *d;
} References;

typedef struct Pointers_u64 {
  float *CBINDGEN_NONNULL a;
  uint64_t *CBINDGEN_NONNULL b;
  struct Opaque *CBINDGEN_NONNULL c;
  uint64_t *CBINDGEN_NONNULL *CBINDGEN_NONNULL d;
  float *CBINDGEN_NONNULL *CBINDGEN_NONNULL e;
  struct Opaque *CBINDGEN_NONNULL *CBINDGEN_NONNULL f;
  uint64_t *g;
  int32_t *h;
  int32_t *CBINDGEN_NONNULL *i;
  const uint64_t *j;
  uint64_t *k;
} Pointers_u64;

void value_arg(struct References arg);

void mutltiple_args(int32_t *CBINDGEN_NONNULL arg,
                    struct Pointers_u64 *foo,
                    struct Opaque *CBINDGEN_NONNULL *CBINDGEN_NONNULL d);

void ref_arg(const struct Pointers_u64 *CBINDGEN_NONNULL arg);

void mut_ref_arg(struct Pointers_u64 *CBINDGEN_NONNULL arg);

void optional_ref_arg(const struct Pointers_u64 *arg);

void optional_mut_ref_arg(struct Pointers_u64 *arg);

void nullable_const_ptr(const struct Pointers_u64 *arg);

void nullable_mut_ptr(struct Pointers_u64 *arg);
".
(** tests/expectations/nonnull_attribute.cpp *)
Definition nonnull_attribute_cpp : string := "#ifdef __clang__
#define CBINDGEN_NONNULL _Nonnull
#else
#define CBINDGEN_NONNULL
#endif


#include <cstdarg>
#include <cstdint>
#include <cstdlib>
#include <ostream>
#include <new>

struct Opaque;

struct References {
  const Opaque *CBINDGEN_NONNULL a;
  Opaque *CBINDGEN_NONNULL b;
  const Opaque *c;
  Opaque *d;
};

template<typename T>
struct Pointers {
  float *CBINDGEN_NONNULL a;
  T *CBINDGEN_NONNULL b;
  Opaque *CBINDGEN_NONNULL c;
  T *CBINDGEN_NONNULL *CBINDGEN_NONNULL d;
  float *CBINDGEN_NONNULL *CBINDGEN_NONNULL e;
  Opaque *CBINDGEN_NONNULL *CBINDGEN_NONNULL f;
  T *g;
  int32_t *h;
  int32_t *CBINDGEN_NONNULL *i;
  const T *j;
  T *k;
};

extern ""C"" {

void value_arg(References arg);

void mutltiple_args(int32_t *CBINDGEN_NONNULL arg,
                    Pointers<uint64_t> *foo,
                    Opaque *CBINDGEN_NONNULL *CBINDGEN_NONNULL d);

void ref_arg(const Pointers<uint64_t> *CBINDGEN_NONNULL arg);

void mut_ref_arg(Pointers<uint64_t> *CBINDGEN_NONNULL arg);

void optional_ref_arg(const Pointers<uint64_t> *arg);

void optional_mut_ref_arg(Pointers<uint64_t> *arg);

void nullable_const_ptr(const Pointers<uint64_t> *arg);

void nullable_mut_ptr(Pointers<uint64_t> *arg);

}  // extern ""C""
".
(** tests/expectations/nonnull_attribute.pyx *)
Definition nonnull_attribute_pyx : string := "#ifdef __clang__
#define CBINDGEN_NONNULL _Nonnull
#else
#define CBINDGEN_NONNULL
#endif


from libc.stdint cimport int8_t, int16_t, int32_t, int64_t, intptr_t
from libc.stdint cimport uint8_t, uint16_t, uint32_t, uint64_t, uintptr_t
cdef extern from *:
  ctypedef bint bool
  ctypedef struct va_list

cdef extern from *:

  ctypedef struct Opaque:
    pass

  ctypedef struct References:
    const Opaque *a;
    Opaque *b;
    const Opaque *c;
    Opaque *d;

  ctypedef struct Pointers_u64:
    float *a;
    uint64_t *b;
    Opaque *c;
    uint64_t **d;
    float **e;
    Opaque **f;
    uint64_t *g;
    int32_t *h;
    int32_t **i;
    const uint64_t *j;
    uint64_t *k;

  void value_arg(References arg);

  void mutltiple_args(int32_t *arg, Pointers_u64 *foo, Opaque **d);

  void ref_arg(const Pointers_u64 *arg);

  void mut_ref_arg(Pointers_u64 *arg);

  void optional_ref_arg(const Pointers_u64 *arg);

  void optional_mut_ref_arg(Pointers_u64 *arg);

  void nullable_const_ptr(const Pointers_u64 *arg);

  void nullable_mut_ptr(Pointers_u64 *arg);
".
(** tests/expectations/nonnull_attribute_tag.pyx *)
Definition nonnull_attribute_pyx_tag : string := "#ifdef __clang__
#define CBINDGEN_NONNULL _Nonnull
#else
#define CBINDGEN_NONNULL
#endif


from libc.stdint cimport int8_t, int16_t, int32_t, int64_t, intptr_t
from libc.stdint cimport uint8_t, uint16_t, uint32_t, uint64_t, uintptr_t
cdef extern from *:
  ctypedef bint bool
  ctypedef struct va_list

cdef extern from *:

  cdef struct Opaque:
    pass

  cdef struct References:
    const Opaque *a;
    Opaque *b;
    const Opaque *c;
    Opaque *d;

  cdef struct Pointers_u64:
    float *a;
    uint64_t *b;
    Opaque *c;
    uint64_t **d;
    float **e;
    Opaque **f;
    uint64_t *g;
    int32_t *h;
    int32_t **i;
    const uint64_t *j;
    uint64_t *k;

  void value_arg(References arg);

  void mutltiple_args(int32_t *arg, Pointers_u64 *foo, Opaque **d);

  void ref_arg(const Pointers_u64 *arg);

  void mut_ref_arg(Pointers_u64 *arg);

  void optional_ref_arg(const Pointers_u64 *arg);

  void optional_mut_ref_arg(Pointers_u64 *arg);

  void nullable_const_ptr(const Pointers_u64 *arg);

  void nullable_mut_ptr(Pointers_u64 *arg);
".
Example nonnull_attribute_reproduced : reproduces (in_file nonnull_attribute_rs) false nonnull_attribute_toml (Some "{
value_arg;
mutltiple_args;
ref_arg;
mut_ref_arg;
optional_ref_arg;
optional_mut_ref_arg;
nullable_const_ptr;
nullable_mut_ptr;
};")
  [(RunC true Type_, [nonnull_attribute_compat]);
   (RunC true Tag, [nonnull_attribute_compat_tag]);
   (RunC true Both, [nonnull_attribute_compat_both]);
   (RunC false Type_, [nonnull_attribute_c]);
   (RunC false Tag, [nonnull_attribute_c_tag]);
   (RunC false Both, [nonnull_attribute_c_both]);
   (RunCxx, [nonnull_attribute_cpp]);
   (RunCython Type_, [nonnull_attribute_pyx]);
   (RunCython Tag, [nonnull_attribute_pyx_tag])] = true.
Proof. vm_compute. reflexivity. Qed.

(** ** tests/rust/nonzero.rs *)
Definition nonzero_rs : list sitem := [
  (ItemOther []);
  (ItemStruct [{| at_meta := (AList (Some "repr") [(APath (Some "C"))]); at_outer := true |}] "NonZeroAliases" [] (FieldsNamed [{| sf_attrs
  := []; sf_ident := (Some "a"); sf_ty := (SPath (SegPath [] "NonZeroU8" NoArgs)) |}; {| sf_attrs := []; sf_ident := (Some "b"); sf_ty
  := (SPath (SegPath [] "NonZeroU16" NoArgs)) |}; {| sf_attrs := []; sf_ident := (Some "c"); sf_ty := (SPath (SegPath [] "NonZeroU32"
  NoArgs)) |}; {| sf_attrs := []; sf_ident := (Some "d"); sf_ty := (SPath (SegPath [] "NonZeroU64" NoArgs)) |}; {| sf_attrs := [];
  sf_ident := (Some "e"); sf_ty := (SPath (SegPath [] "NonZeroI8" NoArgs)) |}; {| sf_attrs := []; sf_ident := (Some "f"); sf_ty :=
  (SPath (SegPath [] "NonZeroI16" NoArgs)) |}; {| sf_attrs := []; sf_ident := (Some "g"); sf_ty := (SPath (SegPath [] "NonZeroI32"
  NoArgs)) |}; {| sf_attrs := []; sf_ident := (Some "h"); sf_ty := (SPath (SegPath [] "NonZeroI64" NoArgs)) |}; {| sf_attrs := [];
  sf_ident := (Some "i"); sf_ty := (SPath (SegPath [] "Option" (AngleArgs [(ArgType (SPath (SegPath [] "NonZeroI64" NoArgs)))])))
  |}; {| sf_attrs := []; sf_ident := (Some "j"); sf_ty := (SPtr false (SPath (SegPath [] "Option" (AngleArgs [(ArgType (SPath (SegPath
  [] "Option" (AngleArgs [(ArgType (SPath (SegPath [] "NonZeroI64" NoArgs)))]))))])))) |}]));
  (ItemFn [{| at_meta := (APath (Some "no_mangle")); at_outer := true |}] true {| sg_ident := "root_nonzero_aliases"; sg_abi := (Some
  (Some "C")); sg_inputs := [(FnTyped (PatIdent "test") (SPath (SegPath [] "NonZeroAliases" NoArgs))); (FnTyped (PatIdent "a") (SPath
  (SegPath [] "NonZeroU8" NoArgs))); (FnTyped (PatIdent "b") (SPath (SegPath [] "NonZeroU16" NoArgs))); (FnTyped (PatIdent "c") (SPath
  (SegPath [] "NonZeroU32" NoArgs))); (FnTyped (PatIdent "d") (SPath (SegPath [] "NonZeroU64" NoArgs))); (FnTyped (PatIdent "e") (SPath
  (SegPath [] "NonZeroI8" NoArgs))); (FnTyped (PatIdent "f") (SPath (SegPath [] "NonZeroI16" NoArgs))); (FnTyped (PatIdent "g") (SPath
  (SegPath [] "NonZeroI32" NoArgs))); (FnTyped (PatIdent "h") (SPath (SegPath [] "NonZeroI64" NoArgs))); (FnTyped (PatIdent "i") (SPath
  (SegPath [] "Option" (AngleArgs [(ArgType (SPath (SegPath [] "NonZeroI64" NoArgs)))])))); (FnTyped (PatIdent "j") (SPtr false (SPath
  (SegPath [] "Option" (AngleArgs [(ArgType (SPath (SegPath [] "Option" (AngleArgs [(ArgType (SPath (SegPath [] "NonZeroI64" NoArgs)))]))))])))))];
  sg_variadic := false; sg_output := None |});
  (ItemStruct [{| at_meta := (AList (Some "repr") [(APath (Some "C"))]); at_outer := true |}] "NonZeroGenerics" [] (FieldsNamed [{|
  sf_attrs := []; sf_ident := (Some "a"); sf_ty := (SPath (SegPath [] "NonZero" (AngleArgs [(ArgType (SPath (SegPath [] "u8" NoArgs)))])))
  |}; {| sf_attrs := []; sf_ident := (Some "b"); sf_ty := (SPath (SegPath [] "NonZero" (AngleArgs [(ArgType (SPath (SegPath [] "u16"
  NoArgs)))]))) |}; {| sf_attrs := []; sf_ident := (Some "c"); sf_ty := (SPath (SegPath [] "NonZero" (AngleArgs [(ArgType (SPath (SegPath
  [] "u32" NoArgs)))]))) |}; {| sf_attrs := []; sf_ident := (Some "d"); sf_ty := (SPath (SegPath [] "NonZero" (AngleArgs [(ArgType
  (SPath (SegPath [] "u64" NoArgs)))]))) |}; {| sf_attrs := []; sf_ident := (Some "e"); sf_ty := (SPath (SegPath [] "NonZero" (AngleArgs
  [(ArgType (SPath (SegPath [] "i8" NoArgs)))]))) |}; {| sf_attrs := []; sf_ident := (Some "f"); sf_ty := (SPath (SegPath [] "NonZero"
  (AngleArgs [(ArgType (SPath (SegPath [] "i16" NoArgs)))]))) |}; {| sf_attrs := []; sf_ident := (Some "g"); sf_ty := (SPath (SegPath
  [] "NonZero" (AngleArgs [(ArgType (SPath (SegPath [] "i32" NoArgs)))]))) |}; {| sf_attrs := []; sf_ident := (Some "h"); sf_ty :=
  (SPath (SegPath [] "NonZero" (AngleArgs [(ArgType (SPath (SegPath [] "i64" NoArgs)))]))) |}; {| sf_attrs := []; sf_ident := (Some
  "i"); sf_ty := (SPath (SegPath [] "Option" (AngleArgs [(ArgType (SPath (SegPath [] "NonZero" (AngleArgs [(ArgType (SPath (SegPath
  [] "i64" NoArgs)))]))))]))) |}; {| sf_attrs := []; sf_ident := (Some "j"); sf_ty := (SPtr false (SPath (SegPath [] "Option" (AngleArgs
  [(ArgType (SPath (SegPath [] "Option" (AngleArgs [(ArgType (SPath (SegPath [] "NonZero" (AngleArgs [(ArgType (SPath (SegPath []
  "i64" NoArgs)))]))))]))))])))) |}]));
  (ItemFn [{| at_meta := (APath (Some "no_mangle")); at_outer := true |}] true {| sg_ident := "root_nonzero_generics"; sg_abi := (Some
  (Some "C")); sg_inputs := [(FnTyped (PatIdent "test") (SPath (SegPath [] "NonZeroGenerics" NoArgs))); (FnTyped (PatIdent "a") (SPath
  (SegPath [] "NonZero" (AngleArgs [(ArgType (SPath (SegPath [] "u8" NoArgs)))])))); (FnTyped (PatIdent "b") (SPath (SegPath [] "NonZero"
  (AngleArgs [(ArgType (SPath (SegPath [] "u16" NoArgs)))])))); (FnTyped (PatIdent "c") (SPath (SegPath [] "NonZero" (AngleArgs [(ArgType
  (SPath (SegPath [] "u32" NoArgs)))])))); (FnTyped (PatIdent "d") (SPath (SegPath [] "NonZero" (AngleArgs [(ArgType (SPath (SegPath
  [] "u64" NoArgs)))])))); (FnTyped (PatIdent "e") (SPath (SegPath [] "NonZero" (AngleArgs [(ArgType (SPath (SegPath [] "i8" NoArgs)))]))));
  (FnTyped (PatIdent "f") (SPath (SegPath [] "NonZero" (AngleArgs [(ArgType (SPath (SegPath [] "i16" NoArgs)))])))); (FnTyped (PatIdent
  "g") (SPath (SegPath [] "NonZero" (AngleArgs [(ArgType (SPath (SegPath [] "i32" NoArgs)))])))); (FnTyped (PatIdent "h") (SPath (SegPath
  [] "NonZero" (AngleArgs [(ArgType (SPath (SegPath [] "i64" NoArgs)))])))); (FnTyped (PatIdent "i") (SPath (SegPath [] "Option" (AngleArgs
  [(ArgType (SPath (SegPath [] "NonZero" (AngleArgs [(ArgType (SPath (SegPath [] "i64" NoArgs)))]))))])))); (FnTyped (PatIdent "j")
  (SPtr false (SPath (SegPath [] "Option" (AngleArgs [(ArgType (SPath (SegPath [] "Option" (AngleArgs [(ArgType (SPath (SegPath []
  "NonZero" (AngleArgs [(ArgType (SPath (SegPath [] "i64" NoArgs)))]))))]))))])))))]; sg_variadic := false; sg_output := None |})].
Definition nonzero_toml : Config := {| header := (Some "#if 0
''' '
#endif

#ifdef __cplusplus
struct NonZeroI64;
#endif

#if 0
' '''
#endif
"); includes_ := []; sys_includes_ := []; after_includes := None; trailer := None;
  include_guard_ := None; pragma_once := false; no_includes := false; package_version := false; autogen_warning := None; include_version := false;
  namespace := None; namespaces := None; using_namespaces := None; braces := SameLine; line_length := 100; tab_width := 2; line_endings := LF;
  language := Cxx; cpp_compat := false; style := Both; sort_by := SortNone; usize_is_size_t := false; parse := default_parse; export := {| ex_include := []; ex_exclude := []; ex_rename := []; ex_pre_body := []; ex_body := []; ex_prefix := None; ex_item_types := []; ex_renaming_overrides_prefixing := false; ex_mangle := {| rename_types := RNone; remove_underscores := false |} |};
  layout := {| ly_packed := None; ly_aligned_n := None |}; function := {| fn_prefix := None; fn_postfix := None; fn_must_use := None; fn_deprecated := None; fn_deprecated_with_note := None; fn_args := Auto; fn_rename_args := RNone; fn_swift_name_macro := None; fn_sort_by := None; fn_no_return := None |}; structure := {| st_rename_fields := RNone; st_derive_constructor := false; st_derive_eq := false; st_derive_neq := false; st_derive_lt := false; st_derive_lte := false; st_derive_gt := false; st_derive_gte := false; st_derive_ostream := false; st_associated_constants_in_body := false; st_rename_associated_constant := RNone; st_must_use := None; st_deprecated := None; st_deprecated_with_note := None |}; enumeration := {| en_rename_variants := RNone; en_rename_variant_name_fields := SnakeCase; en_add_sentinel := false; en_prefix_with_name := false; en_derive_helper_methods := false; en_derive_const_casts := false; en_derive_mut_casts := false; en_cast_assert_name := None; en_must_use := None; en_deprecated := None; en_deprecated_with_note := None; en_deprecated_variant := None; en_deprecated_variant_with_note := None; en_derive_tagged_enum_destructor := false; en_derive_tagged_enum_copy_constructor := false; en_derive_tagged_enum_copy_assignment := false; en_derive_ostream := false; en_enum_class := true; en_private_default_tagged_enum_constructor := false |}; constant := {| co_allow_static_const := true; co_allow_constexpr := true; co_sort_by := None |}; defines := []; documentation := true;
  documentation_style := DocAuto; documentation_length := Full; pointer := {| pt_non_null_attribute := None; pt_nullable_attribute := None |}; cython := {| cy_header := None; cy_cimports := [] |}; config_path := None |}.
(** tests/expectations/nonzero.compat.c *)
Definition nonzero_compat : string := "#if 0
''' '
#endif

#ifdef __cplusplus
struct NonZeroI64;
#endif

#if 0
' '''
#endif


#include <stdarg.h>
#include <stdbool.h>
#include <stdint.h>
#include <stdlib.h>

typedef struct Option_i64 Option_i64;

typedef struct {
  uint8_t a;
  uint16_t b;
  uint32_t c;
  uint64_t d;
  int8_t e;
  int16_t f;
  int32_t g;
  int64_t h;
  int64_t i;
  const Option_i64 *j;
} NonZeroAliases;

typedef struct {
  uint8_t a;
  uint16_t b;
  uint32_t c;
  uint64_t d;
  int8_t e;
  int16_t f;
  int32_t g;
  int64_t h;
  int64_t i;
  const Option_i64 *j;
} NonZeroGenerics;

#ifdef __cplusplus
extern ""C"" {
#endif // __cplusplus

void root_nonzero_aliases(NonZeroAliases test,
                          uint8_t a,
                          uint16_t b,
                          uint32_t c,
                          uint64_t d,
                          int8_t e,
                          int16_t f,
                          int32_t g,
                          int64_t h,
                          int64_t i,
                          const Option_i64 *j);

void root_nonzero_generics(NonZeroGenerics test,
                           uint8_t a,
                           uint16_t b,
                           uint32_t c,
                           uint64_t d,
                           int8_t e,
                           int16_t f,
                           int32_t g,
                           int64_t h,
                           int64_t i,
                           const Option_i64 *j);

#ifdef __cplusplus
}  // extern ""C""
#endif  // __cplusplus
".
(** tests/expectations/nonzero_tag.compat.c *)
Definition nonzero_compat_tag : string := "#if 0
''' '
#endif

#ifdef __cplusplus
struct NonZeroI64;
#endif

#if 0
' '''
#endif


#include <stdarg.h>
#include <stdbool.h>
#include <stdint.h>
#include <stdlib.h>

struct Option_i64;

struct NonZeroAliases {
  uint8_t a;
  uint16_t b;
  uint32_t c;
  uint64_t d;
  int8_t e;
  int16_t f;
  int32_t g;
  int64_t h;
  int64_t i;
  const struct Option_i64 *j;
};

struct NonZeroGenerics {
  uint8_t a;
  uint16_t b;
  uint32_t c;
  uint64_t d;
  int8_t e;
  int16_t f;
  int32_t g;
  int64_t h;
  int64_t i;
  const struct Option_i64 *j;
};

#ifdef __cplusplus
extern ""C"" {
#endif // __cplusplus

void root_nonzero_aliases(struct NonZeroAliases test,
                          uint8_t a,
                          uint16_t b,
                          uint32_t c,
                          uint64_t d,
                          int8_t e,
                          int16_t f,
                          int32_t g,
                          int64_t h,
                          int64_t i,
                          const struct Option_i64 *j);

void root_nonzero_generics(struct NonZeroGenerics test,
                           uint8_t a,
                           uint16_t b,
                           uint32_t c,
                           uint64_t d,
                           int8_t e,
                           int16_t f,
                           int32_t g,
                           int64_t h,
                           int64_t i,
                           const struct Option_i64 *j);

#ifdef __cplusplus
}  // extern ""C""
#endif  // __cplusplus
".
(** tests/expectations/nonzero_both.compat.c *)
Definition nonzero_compat_both : string := "#if 0
''' '
#endif

#ifdef __cplusplus
struct NonZeroI64;
#endif

#if 0
' '''
#endif


#include <stdarg.h>
#include <stdbool.h>
#include <stdint.h>
#include <stdlib.h>

typedef struct Option_i64 Option_i64;

typedef struct NonZeroAliases {
  uint8_t a;
  uint16_t b;
  uint32_t c;
  uint64_t d;
  int8_t e;
  int16_t f;
  int32_t g;
  int64_t h;
  int64_t i;
  const struct Option_i64 *j;
} NonZeroAliases;

typedef struct NonZeroGenerics {
  uint8_t a;
  uint16_t b;
  uint32_t c;
  uint64_t d;
  int8_t e;
  int16_t f;
  int32_t g;
  int64_t h;
  int64_t i;
  const struct Option_i64 *j;
} NonZeroGenerics;

#ifdef __cplusplus
extern ""C"" {
#endif // __cplusplus

void root_nonzero_aliases(struct NonZeroAliases test,
                          uint8_t a,
                          uint16_t b,
                          uint32_t c,
                          uint64_t d,
                          int8_t e,
                          int16_t f,
                          int32_t g,
                          int64_t h,
                          int64_t i,
                          const struct Option_i64 *j);

void root_nonzero_generics(struct NonZeroGenerics test,
                           uint8_t a,
                           uint16_t b,
                           uint32_t c,
                           uint64_t d,
                           int8_t e,
                           int16_t f,
                           int32_t g,
                           int64_t h,
                           int64_t i,
                           const struct Option_i64 *j);

#ifdef __cplusplus
}  // extern ""C""
#endif  // __cplusplus
".
(** tests/expectations/nonzero.c *)
Definition nonzero_c : string := "#if 0
''' '
#endif

#ifdef __cplusplus
struct NonZeroI64;
#endif

#if 0
' '''
#endif


#include <stdarg.h>
#include <stdbool.h>
#include <stdint.h>
#include <stdlib.h>

typedef struct Option_i64 Option_i64;

typedef struct {
  uint8_t a;
  uint16_t b;
  uint32_t c;
  uint64_t d;
  int8_t e;
  int16_t f;
  int32_t g;
  int64_t h;
  int64_t i;
  const Option_i64 *j;
} NonZeroAliases;

typedef struct {
  uint8_t a;
  uint16_t b;
  uint32_t c;
  uint64_t d;
  int8_t e;
  int16_t f;
  int32_t g;
  int64_t h;
  int64_t i;
  const Option_i64 *j;
} NonZeroGenerics;

void root_nonzero_aliases(NonZeroAliases test,
                          uint8_t a,
                          uint16_t b,
                          uint32_t c,
                          uint64_t d,
                          int8_t e,
                          int16_t f,
                          int32_t g,
                          int64_t h,
                          int64_t i,
                          const Option_i64 *j);

void root_nonzero_generics(NonZeroGenerics test,
                           uint8_t a,
                           uint16_t b,
                           uint32_t c,
                           uint64_t d,
                           int8_t e,
                           int16_t f,
                           int32_t g,
                           int64_t h,
                           int64_t i,
                           const Option_i64 *j);
".
(** tests/expectations/nonzero_tag.c *)
Definition nonzero_c_tag : string := "#if 0
''' '
#endif

#ifdef __cplusplus
struct NonZeroI64;
#endif

#if 0
' '''
#endif


#include <stdarg.h>
#include <stdbool.h>
#include <stdint.h>
#include <stdlib.h>

struct Option_i64;

struct NonZeroAliases {
  uint8_t a;
  uint16_t b;
  uint32_t c;
  uint64_t d;
  int8_t e;
  int16_t f;
  int32_t g;
  int64_t h;
  int64_t i;
  const struct Option_i64 *j;
};

struct NonZeroGenerics {
  uint8_t a;
  uint16_t b;
  uint32_t c;
  uint64_t d;
  int8_t e;
  int16_t f;
  int32_t g;
  int64_t h;
  int64_t i;
  const struct Option_i64 *j;
};

void root_nonzero_aliases(struct NonZeroAliases test,
                          uint8_t a,
                          uint16_t b,
                          uint32_t c,
                          uint64_t d,
                          int8_t e,
                          int16_t f,
                          int32_t g,
                          int64_t h,
                          int64_t i,
                          const struct Option_i64 *j);

void root_nonzero_generics(struct NonZeroGenerics test,
                           uint8_t a,
                           uint16_t b,
                           uint32_t c,
                           uint64_t d,
                           int8_t e,
                           int16_t f,
                           int32_t g,
                           int64_t h,
                           int64_t i,
                           const struct Option_i64 *j);
".
(** tests/expectations/nonzero_both.c *)
Definition nonzero_c_both : string := "#if 0
''' '
#endif

#ifdef __cplusplus
struct NonZeroI64;
#endif

#if 0
' '''
#endif


#include <stdarg.h>
#include <stdbool.h>
#include <stdint.h>
#include <stdlib.h>

typedef struct Option_i64 Option_i64;

typedef struct NonZeroAliases {
  uint8_t a;
  uint16_t b;
  uint32_t c;
  uint64_t d;
  int8_t e;
  int16_t f;
  int32_t g;
  int64_t h;
  int64_t i;
  const struct Option_i64 *j;
} NonZeroAliases;

typedef struct NonZeroGenerics {
  uint8_t a;
  uint16_t b;
  uint32_t c;
  uint64_t d;
  int8_t e;
  int16_t f;
  int32_t g;
  int64_t h;
  int64_t i;
  const struct Option_i64 *j;
} NonZeroGenerics;

void root_nonzero_aliases(struct NonZeroAliases test,
                          uint8_t a,
                          uint16_t b,
                          uint32_t c,
                          uint64_t d,
                          int8_t e,
                          int16_t f,
                          int32_t g,
                          int64_t h,
                          int64_t i,
                          const struct Option_i64 *j);

void root_nonzero_generics(struct NonZeroGenerics test,
                           uint8_t a,
                           uint16_t b,
                           uint32_t c,
                           uint64_t d,
                           int8_t e,
                           int16_t f,
                           int32_t g,
                           int64_t h,
                           int64_t i,
                           const struct Option_i64 *j);
".
(** tests/expectations/nonzero.cpp *)
Definition nonzero_cpp : string := "#if 0
''' '
#endif

#ifdef __cplusplus
struct NonZeroI64;
#endif

#if 0
' '''
#endif


#include <cstdarg>
#include <cstdint>
#include <cstdlib>
#include <ostream>
#include <new>

template<typename T = void>
struct Option;

struct NonZeroAliases {
  uint8_t a;
  uint16_t b;
  uint32_t c;
  uint64_t d;
  int8_t e;
  int16_t f;
  int32_t g;
  int64_t h;
  int64_t i;
  const Option<int64_t> *j;
};

struct NonZeroGenerics {
  uint8_t a;
  uint16_t b;
  uint32_t c;
  uint64_t d;
  int8_t e;
  int16_t f;
  int32_t g;
  int64_t h;
  int64_t i;
  const Option<int64_t> *j;
};

extern ""C"" {

void root_nonzero_aliases(NonZeroAliases test,
                          uint8_t a,
                          uint16_t b,
                          uint32_t c,
                          uint64_t d,
                          int8_t e,
                          int16_t f,
                          int32_t g,
                          int64_t h,
                          int64_t i,
                          const Option<int64_t> *j);

void root_nonzero_generics(NonZeroGenerics test,
                           uint8_t a,
                           uint16_t b,
                           uint32_t c,
                           uint64_t d,
                           int8_t e,
                           int16_t f,
                           int32_t g,
                           int64_t h,
                           int64_t i,
                           const Option<int64_t> *j);

}  // extern ""C""
".
(** tests/expectations/nonzero.pyx *)
Definition nonzero_pyx : string := "#if 0
''' '
#endif

#ifdef __cplusplus
struct NonZeroI64;
#endif

#if 0
' '''
#endif


from libc.stdint cimport int8_t, int16_t, int32_t, int64_t, intptr_t
from libc.stdint cimport uint8_t, uint16_t, uint32_t, uint64_t, uintptr_t
cdef extern from *:
  ctypedef bint bool
  ctypedef struct va_list

cdef extern from *:

  ctypedef struct Option_i64:
    pass

  ctypedef struct NonZeroAliases:
    uint8_t a;
    uint16_t b;
    uint32_t c;
    uint64_t d;
    int8_t e;
    int16_t f;
    int32_t g;
    int64_t h;
    int64_t i;
    const Option_i64 *j;

  ctypedef struct NonZeroGenerics:
    uint8_t a;
    uint16_t b;
    uint32_t c;
    uint64_t d;
    int8_t e;
    int16_t f;
    int32_t g;
    int64_t h;
    int64_t i;
    const Option_i64 *j;

  void root_nonzero_aliases(NonZeroAliases test,
                            uint8_t a,
                            uint16_t b,
                            uint32_t c,
                            uint64_t d,
                            int8_t e,
                            int16_t f,
                            int32_t g,
                            int64_t h,
                            int64_t i,
                            const Option_i64 *j);

  void root_nonzero_generics(NonZeroGenerics test,
                             uint8_t a,
                             uint16_t b,
                             uint32_t c,
                             uint64_t d,
                             int8_t e,
                             int16_t f,
                             int32_t g,
                             int64_t h,
                             int64_t i,
                             const Option_i64 *j);
".
(** tests/expectations/nonzero_tag.pyx *)
Definition nonzero_pyx_tag : string := "#if 0
''' '
#endif

#ifdef __cplusplus
struct NonZeroI64;
#endif

#if 0
' '''
#endif


from libc.stdint cimport int8_t, int16_t, int32_t, int64_t, intptr_t
from libc.stdint cimport uint8_t, uint16_t, uint32_t, uint64_t, uintptr_t
cdef extern from *:
  ctypedef bint bool
  ctypedef struct va_list

cdef extern from *:

  cdef struct Option_i64:
    pass

  cdef struct NonZeroAliases:
    uint8_t a;
    uint16_t b;
    uint32_t c;
    uint64_t d;
    int8_t e;
    int16_t f;
    int32_t g;
    int64_t h;
    int64_t i;
    const Option_i64 *j;

  cdef struct NonZeroGenerics:
    uint8_t a;
    uint16_t b;
    uint32_t c;
    uint64_t d;
    int8_t e;
    int16_t f;
    int32_t g;
    int64_t h;
    int64_t i;
    const Option_i64 *j;

  void root_nonzero_aliases(NonZeroAliases test,
                            uint8_t a,
                            uint16_t b,
                            uint32_t c,
                            uint64_t d,
                            int8_t e,
                            int16_t f,
                            int32_t g,
                            int64_t h,
                            int64_t i,
                            const Option_i64 *j);

  void root_nonzero_generics(NonZeroGenerics test,
                             uint8_t a,
                             uint16_t b,
                             uint32_t c,
                             uint64_t d,
                             int8_t e,
                             int16_t f,
                             int32_t g,
                             int64_t h,
                             int64_t i,
                             const Option_i64 *j);
".
Example nonzero_reproduced : reproduces (in_file nonzero_rs) false nonzero_toml (Some "{
root_nonzero_aliases;
root_nonzero_generics;
};")
  [(RunC true Type_, [nonzero_compat]);
   (RunC true Tag, [nonzero_compat_tag]);
   (RunC true Both, [nonzero_compat_both]);
   (RunC false Type_, [nonzero_c]);
   (RunC false Tag, [nonzero_c_tag]);
   (RunC false Both, [nonzero_c_both]);
   (RunCxx, [nonzero_cpp]);
   (RunCython Type_, [nonzero_pyx]);
   (RunCython Tag, [nonzero_pyx_tag])] = true.
Proof. vm_compute. reflexivity. Qed.

(** ** tests/rust/nullable.rs *)
Definition nullable_rs : list sitem := [
  (ItemOther []);
  (ItemStruct [] "Opaque" [] FieldsUnit);
  (ItemStruct [{| at_meta := (AList (Some "repr") [(APath (Some "C"))]); at_outer := true |}] "Foo" [(SGType "T" None)] (FieldsNamed
  [{| sf_attrs := []; sf_ident := (Some "a"); sf_ty := (SPath (SegPath [] "NonNull" (AngleArgs [(ArgType (SPath (SegPath [] "f32"
  NoArgs)))]))) |}; {| sf_attrs := []; sf_ident := (Some "b"); sf_ty := (SPath (SegPath [] "NonNull" (AngleArgs [(ArgType (SPath (SegPath
  [] "T" NoArgs)))]))) |}; {| sf_attrs := []; sf_ident := (Some "c"); sf_ty := (SPath (SegPath [] "NonNull" (AngleArgs [(ArgType (SPath
  (SegPath [] "Opaque" NoArgs)))]))) |}; {| sf_attrs := []; sf_ident := (Some "d"); sf_ty := (SPath (SegPath [] "NonNull" (AngleArgs
  [(ArgType (SPath (SegPath [] "NonNull" (AngleArgs [(ArgType (SPath (SegPath [] "T" NoArgs)))]))))]))) |}; {| sf_attrs := []; sf_ident
  := (Some "e"); sf_ty := (SPath (SegPath [] "NonNull" (AngleArgs [(ArgType (SPath (SegPath [] "NonNull" (AngleArgs [(ArgType (SPath
  (SegPath [] "f32" NoArgs)))]))))]))) |}; {| sf_attrs := []; sf_ident := (Some "f"); sf_ty := (SPath (SegPath [] "NonNull" (AngleArgs
  [(ArgType (SPath (SegPath [] "NonNull" (AngleArgs [(ArgType (SPath (SegPath [] "Opaque" NoArgs)))]))))]))) |}; {| sf_attrs := [];
  sf_ident := (Some "g"); sf_ty := (SPath (SegPath [] "Option" (AngleArgs [(ArgType (SPath (SegPath [] "NonNull" (AngleArgs [(ArgType
  (SPath (SegPath [] "T" NoArgs)))]))))]))) |}; {| sf_attrs := []; sf_ident := (Some "h"); sf_ty := (SPath (SegPath [] "Option" (AngleArgs
  [(ArgType (SPath (SegPath [] "NonNull" (AngleArgs [(ArgType (SPath (SegPath [] "i32" NoArgs)))]))))]))) |}; {| sf_attrs := []; sf_ident
  := (Some "i"); sf_ty := (SPath (SegPath [] "Option" (AngleArgs [(ArgType (SPath (SegPath [] "NonNull" (AngleArgs [(ArgType (SPath
  (SegPath [] "NonNull" (AngleArgs [(ArgType (SPath (SegPath [] "i32" NoArgs)))]))))]))))]))) |}]));
  (ItemFn [{| at_meta := (APath (Some "no_mangle")); at_outer := true |}] true {| sg_ident := "root"; sg_abi := (Some (Some "C")); sg_inputs
  := [(FnTyped (PatIdent "arg") (SPath (SegPath [] "NonNull" (AngleArgs [(ArgType (SPath (SegPath [] "i32" NoArgs)))])))); (FnTyped
  (PatIdent "foo") (SPtr true (SPath (SegPath [] "Foo" (AngleArgs [(ArgType (SPath (SegPath [] "u64" NoArgs)))]))))); (FnTyped (PatIdent
  "d") (SPath (SegPath [] "NonNull" (AngleArgs [(ArgType (SPath (SegPath [] "NonNull" (AngleArgs [(ArgType (SPath (SegPath [] "Opaque"
  NoArgs)))]))))]))))]; sg_variadic := false; sg_output := None |})].
(** tests/expectations/nullable.compat.c *)
Definition nullable_compat : string := "#include <stdarg.h>
#include <stdbool.h>
#include <stdint.h>
#include <stdlib.h>

typedef struct Opaque Opaque;

typedef struct {
  float *a;
  uint64_t *b;
  Opaque *c;
  uint64_t **d;
  float **e;
  Opaque **f;
  uint64_t *g;
  int32_t *h;
  int32_t **i;
} Foo_u64;

#ifdef __cplusplus
extern ""C"" {
#endif // __cplusplus

void root(int32_t *arg, Foo_u64 *foo, Opaque **d);

#ifdef __cplusplus
}  // extern ""C""
#endif  // __cplusplus
".
(** tests/expectations/nullable_tag.compat.c *)
Definition nullable_compat_tag : string := "#include <stdarg.h>
#include <stdbool.h>
#include <stdint.h>
#include <stdlib.h>

struct Opaque;

struct Foo_u64 {
  float *a;
  uint64_t *b;
  struct Opaque *c;
  uint64_t **d;
  float **e;
  struct Opaque **f;
  uint64_t *g;
  int32_t *h;
  int32_t **i;
};

#ifdef __cplusplus
extern ""C"" {
#endif // __cplusplus

void root(int32_t *arg, struct Foo_u64 *foo, struct Opaque **d);

#ifdef __cplusplus
}  // extern ""C""
#endif  // __cplusplus
".
(** tests/expectations/nullable_both.compat.c *)
Definition nullable_compat_both : string := "#include <stdarg.h>
#include <stdbool.h>
#include <stdint.h>
#include <stdlib.h>

typedef struct Opaque Opaque;

typedef struct Foo_u64 {
  float *a;
  uint64_t *b;
  struct Opaque *c;
  uint64_t **d;
  float **e;
  struct Opaque **f;
  uint64_t *g;
  int32_t *h;
  int32_t **i;
} Foo_u64;

#ifdef __cplusplus
extern ""C"" {
#endif // __cplusplus

void root(int32_t *arg, struct Foo_u64 *foo, struct Opaque **d);

#ifdef __cplusplus
}  // extern ""C""
#endif  // __cplusplus
".
(** tests/expectations/nullable.c *)
Definition nullable_c : string := "#include <stdarg.h>
#include <stdbool.h>
#include <stdint.h>
#include <stdlib.h>

typedef struct Opaque Opaque;

typedef struct {
  float *a;
  uint64_t *b;
  Opaque *c;
  uint64_t **d;
  float **e;
  Opaque **f;
  uint64_t *g;
  int32_t *h;
  int32_t **i;
} Foo_u64;

void root(int32_t *arg, Foo_u64 *foo, Opaque **d);
".
(** tests/expectations/nullable_tag.c *)
Definition nullable_c_tag : string := "#include <stdarg.h>
#include <stdbool.h>
#include <stdint.h>
#include <stdlib.h>

struct Opaque;

struct Foo_u64 {
  float *a;
  uint64_t *b;
  struct Opaque *c;
  uint64_t **d;
  float **e;
  struct Opaque **f;
  uint64_t *g;
  int32_t *h;
  int32_t **i;
};

void root(int32_t *arg, struct Foo_u64 *foo, struct Opaque **d);
".
(** tests/expectations/nullable_both.c *)
Definition nullable_c_both : string := "#include <stdarg.h>
#include <stdbool.h>
#include <stdint.h>
#include <stdlib.h>

typedef struct Opaque Opaque;

typedef struct Foo_u64 {
  float *a;
  uint64_t *b;
  struct Opaque *c;
  uint64_t **d;
  float **e;
  struct Opaque **f;
  uint64_t *g;
  int32_t *h;
  int32_t **i;
} Foo_u64;

void root(int32_t *arg, struct Foo_u64 *foo, struct Opaque **d);
".
(** tests/expectations/nullable.cpp *)
Definition nullable_cpp : string := "#include <cstdarg>
#include <cstdint>
#include <cstdlib>
#include <ostream>
#include <new>

struct Opaque;

template<typename T>
struct Foo {
  float *a;
  T *b;
  Opaque *c;
  T **d;
  float **e;
  Opaque **f;
  T *g;
  int32_t *h;
  int32_t **i;
};

extern ""C"" {

void root(int32_t *arg, Foo<uint64_t> *foo, Opaque **d);

}  // extern ""C""
".
(** tests/expectations/nullable.pyx *)
Definition nullable_pyx : string := "from libc.stdint cimport int8_t, int16_t, int32_t, int64_t, intptr_t
from libc.stdint cimport uint8_t, uint16_t, uint32_t, uint64_t, uintptr_t
cdef extern from *:
  ctypedef bint bool
  ctypedef struct va_list

cdef extern from *:

  ctypedef struct Opaque:
    pass

  ctypedef struct Foo_u64:
    float *a;
    uint64_t *b;
    Opaque *c;
    uint64_t **d;
    float **e;
    Opaque **f;
    uint64_t *g;
    int32_t *h;
    int32_t **i;

  void root(int32_t *arg, Foo_u64 *foo, Opaque **d);
".
(** tests/expectations/nullable_tag.pyx *)
Definition nullable_pyx_tag : string := "from libc.stdint cimport int8_t, int16_t, int32_t, int64_t, intptr_t
from libc.stdint cimport uint8_t, uint16_t, uint32_t, uint64_t, uintptr_t
cdef extern from *:
  ctypedef bint bool
  ctypedef struct va_list

cdef extern from *:

  cdef struct Opaque:
    pass

  cdef struct Foo_u64:
    float *a;
    uint64_t *b;
    Opaque *c;
    uint64_t **d;
    float **e;
    Opaque **f;
    uint64_t *g;
    int32_t *h;
    int32_t **i;

  void root(int32_t *arg, Foo_u64 *foo, Opaque **d);
".
Example nullable_reproduced : reproduces (in_file nullable_rs) false default_config (Some "{
root;
};")
  [(RunC true Type_, [nullable_compat]);
   (RunC true Tag, [nullable_compat_tag]);
   (RunC true Both, [nullable_compat_both]);
   (RunC false Type_, [nullable_c]);
   (RunC false Tag, [nullable_c_tag]);
   (RunC false Both, [nullable_c_both]);
   (RunCxx, [nullable_cpp]);
   (RunCython Type_, [nullable_pyx]);
   (RunCython Tag, [nullable_pyx_tag])] = true.
Proof. vm_compute. reflexivity. Qed.

(** ** tests/rust/nullable_attribute.rs *)
Definition nullable_attribute_rs : list sitem := [
  (ItemOther []);
  (ItemStruct [] "Opaque" [] FieldsUnit);
  (ItemStruct [{| at_meta := (AList (Some "repr") [(APath (Some "C"))]); at_outer := true |}] "Pointers" [(SGType "T" None)] (FieldsNamed
  [{| sf_attrs := []; sf_ident := (Some "a"); sf_ty := (SPath (SegPath [] "NonNull" (AngleArgs [(ArgType (SPath (SegPath [] "f32"
  NoArgs)))]))) |}; {| sf_attrs := []; sf_ident := (Some "b"); sf_ty := (SPath (SegPath [] "NonNull" (AngleArgs [(ArgType (SPath (SegPath
  [] "T" NoArgs)))]))) |}; {| sf_attrs := []; sf_ident := (Some "c"); sf_ty := (SPath (SegPath [] "NonNull" (AngleArgs [(ArgType (SPath
  (SegPath [] "Opaque" NoArgs)))]))) |}; {| sf_attrs := []; sf_ident := (Some "d"); sf_ty := (SPath (SegPath [] "NonNull" (AngleArgs
  [(ArgType (SPath (SegPath [] "NonNull" (AngleArgs [(ArgType (SPath (SegPath [] "T" NoArgs)))]))))]))) |}; {| sf_attrs := []; sf_ident
  := (Some "e"); sf_ty := (SPath (SegPath [] "NonNull" (AngleArgs [(ArgType (SPath (SegPath [] "NonNull" (AngleArgs [(ArgType (SPath
  (SegPath [] "f32" NoArgs)))]))))]))) |}; {| sf_attrs := []; sf_ident := (Some "f"); sf_ty := (SPath (SegPath [] "NonNull" (AngleArgs
  [(ArgType (SPath (SegPath [] "NonNull" (AngleArgs [(ArgType (SPath (SegPath [] "Opaque" NoArgs)))]))))]))) |}; {| sf_attrs := [];
  sf_ident := (Some "g"); sf_ty := (SPath (SegPath [] "Option" (AngleArgs [(ArgType (SPath (SegPath [] "NonNull" (AngleArgs [(ArgType
  (SPath (SegPath [] "T" NoArgs)))]))))]))) |}; {| sf_attrs := []; sf_ident := (Some "h"); sf_ty := (SPath (SegPath [] "Option" (AngleArgs
  [(ArgType (SPath (SegPath [] "NonNull" (AngleArgs [(ArgType (SPath (SegPath [] "i32" NoArgs)))]))))]))) |}; {| sf_attrs := []; sf_ident
  := (Some "i"); sf_ty := (SPath (SegPath [] "Option" (AngleArgs [(ArgType (SPath (SegPath [] "NonNull" (AngleArgs [(ArgType (SPath
  (SegPath [] "NonNull" (AngleArgs [(ArgType (SPath (SegPath [] "i32" NoArgs)))]))))]))))]))) |}; {| sf_attrs := []; sf_ident := (Some
  "j"); sf_ty := (SPtr false (SPath (SegPath [] "T" NoArgs))) |}; {| sf_attrs := []; sf_ident := (Some "k"); sf_ty := (SPtr true (SPath
  (SegPath [] "T" NoArgs))) |}]));
  (ItemStruct [{| at_meta := (AList (Some "repr") [(APath (Some "C"))]); at_outer := true |}] "References" [SGLifetime] (FieldsNamed
  [{| sf_attrs := []; sf_ident := (Some "a"); sf_ty := (SRef false (SPath (SegPath [] "Opaque" NoArgs))) |}; {| sf_attrs := []; sf_ident
  := (Some "b"); sf_ty := (SRef true (SPath (SegPath [] "Opaque" NoArgs))) |}; {| sf_attrs := []; sf_ident := (Some "c"); sf_ty :=
  (SPath (SegPath [] "Option" (AngleArgs [(ArgType (SRef false (SPath (SegPath [] "Opaque" NoArgs))))]))) |}; {| sf_attrs := []; sf_ident
  := (Some "d"); sf_ty := (SPath (SegPath [] "Option" (AngleArgs [(ArgType (SRef true (SPath (SegPath [] "Opaque" NoArgs))))]))) |}]));
  (ItemFn [{| at_meta := (APath (Some "no_mangle")); at_outer := true |}] true {| sg_ident := "value_arg"; sg_abi := (Some (Some "C"));
  sg_inputs := [(FnTyped (PatIdent "arg") (SPath (SegPath [] "References" (AngleArgs [ArgLifetime]))))]; sg_variadic := false; sg_output
  := None |});
  (ItemFn [{| at_meta := (APath (Some "no_mangle")); at_outer := true |}] true {| sg_ident := "mutltiple_args"; sg_abi := (Some (Some
  "C")); sg_inputs := [(FnTyped (PatIdent "arg") (SPath (SegPath [] "NonNull" (AngleArgs [(ArgType (SPath (SegPath [] "i32" NoArgs)))]))));
  (FnTyped (PatIdent "foo") (SPtr true (SPath (SegPath [] "Pointers" (AngleArgs [(ArgType (SPath (SegPath [] "u64" NoArgs)))])))));
  (FnTyped (PatIdent "d") (SPath (SegPath [] "NonNull" (AngleArgs [(ArgType (SPath (SegPath [] "NonNull" (AngleArgs [(ArgType (SPath
  (SegPath [] "Opaque" NoArgs)))]))))]))))]; sg_variadic := false; sg_output := None |});
  (ItemFn [{| at_meta := (APath (Some "no_mangle")); at_outer := true |}] true {| sg_ident := "ref_arg"; sg_abi := (Some (Some "C"));
  sg_inputs := [(FnTyped (PatIdent "arg") (SRef false (SPath (SegPath [] "Pointers" (AngleArgs [(ArgType (SPath (SegPath [] "u64"
  NoArgs)))])))))]; sg_variadic := false; sg_output := None |});
  (ItemFn [{| at_meta := (APath (Some "no_mangle")); at_outer := true |}] true {| sg_ident := "mut_ref_arg"; sg_abi := (Some (Some "C"));
  sg_inputs := [(FnTyped (PatIdent "arg") (SRef true (SPath (SegPath [] "Pointers" (AngleArgs [(ArgType (SPath (SegPath [] "u64" NoArgs)))])))))];
  sg_variadic := false; sg_output := None |});
  (ItemFn [{| at_meta := (APath (Some "no_mangle")); at_outer := true |}] true {| sg_ident := "optional_ref_arg"; sg_abi := (Some (Some
  "C")); sg_inputs := [(FnTyped (PatIdent "arg") (SPath (SegPath [] "Option" (AngleArgs [(ArgType (SRef false (SPath (SegPath [] "Pointers"
  (AngleArgs [(ArgType (SPath (SegPath [] "u64" NoArgs)))])))))]))))]; sg_variadic := false; sg_output := None |});
  (ItemFn [{| at_meta := (APath (Some "no_mangle")); at_outer := true |}] true {| sg_ident := "optional_mut_ref_arg"; sg_abi := (Some
  (Some "C")); sg_inputs := [(FnTyped (PatIdent "arg") (SPath (SegPath [] "Option" (AngleArgs [(ArgType (SRef true (SPath (SegPath
  [] "Pointers" (AngleArgs [(ArgType (SPath (SegPath [] "u64" NoArgs)))])))))]))))]; sg_variadic := false; sg_output := None |});
  (ItemFn [{| at_meta := (APath (Some "no_mangle")); at_outer := true |}] true {| sg_ident := "nullable_const_ptr"; sg_abi := (Some
  (Some "C")); sg_inputs := [(FnTyped (PatIdent "arg") (SPtr false (SPath (SegPath [] "Pointers" (AngleArgs [(ArgType (SPath (SegPath
  [] "u64" NoArgs)))])))))]; sg_variadic := false; sg_output := None |});
  (ItemFn [{| at_meta := (APath (Some "no_mangle")); at_outer := true |}] true {| sg_ident := "nullable_mut_ptr"; sg_abi := (Some (Some
  "C")); sg_inputs := [(FnTyped (PatIdent "arg") (SPtr true (SPath (SegPath [] "Pointers" (AngleArgs [(ArgType (SPath (SegPath []
  "u64" NoArgs)))])))))]; sg_variadic := false; sg_output := None |})].
Definition nullable_attribute_toml : Config := {| header := (Some "#ifdef __clang__
#define CBINDGEN_NULLABLE _Nullable
#else
#define CBINDGEN_NULLABLE
#endif
"); includes_ := []; sys_includes_ := []; after_includes := None; trailer := None;
  include_guard_ := None; pragma_once := false; no_includes := false; package_version := false; autogen_warning := None; include_version := false;
  namespace := None; namespaces := None; using_namespaces := None; braces := SameLine; line_length := 100; tab_width := 2; line_endings := LF;
  language := Cxx; cpp_compat := false; style := Both; sort_by := SortNone; usize_is_size_t := false; parse := default_parse; export := {| ex_include := []; ex_exclude := []; ex_rename := []; ex_pre_body := []; ex_body := []; ex_prefix := None; ex_item_types := []; ex_renaming_overrides_prefixing := false; ex_mangle := {| rename_types := RNone; remove_underscores := false |} |};
  layout := {| ly_packed := None; ly_aligned_n := None |}; function := {| fn_prefix := None; fn_postfix := None; fn_must_use := None; fn_deprecated := None; fn_deprecated_with_note := None; fn_args := Auto; fn_rename_args := RNone; fn_swift_name_macro := None; fn_sort_by := None; fn_no_return := None |}; structure := {| st_rename_fields := RNone; st_derive_constructor := false; st_derive_eq := false; st_derive_neq := false; st_derive_lt := false; st_derive_lte := false; st_derive_gt := false; st_derive_gte := false; st_derive_ostream := false; st_associated_constants_in_body := false; st_rename_associated_constant := RNone; st_must_use := None; st_deprecated := None; st_deprecated_with_note := None |}; enumeration := {| en_rename_variants := RNone; en_rename_variant_name_fields := SnakeCase; en_add_sentinel := false; en_prefix_with_name := false; en_derive_helper_methods := false; en_derive_const_casts := false; en_derive_mut_casts := false; en_cast_assert_name := None; en_must_use := None; en_deprecated := None; en_deprecated_with_note := None; en_deprecated_variant := None; en_deprecated_variant_with_note := None; en_derive_tagged_enum_destructor := false; en_derive_tagged_enum_copy_constructor := false; en_derive_tagged_enum_copy_assignment := false; en_derive_ostream := false; en_enum_class := true; en_private_default_tagged_enum_constructor := false |}; constant := {| co_allow_static_const := true; co_allow_constexpr := true; co_sort_by := None |}; defines := []; documentation := true;
  documentation_style := DocAuto; documentation_length := Full; pointer := {| pt_non_null_attribute := None; pt_nullable_attribute := (Some "CBINDGEN_NULLABLE") |}; cython := {| cy_header := None; cy_cimports := [] |}; config_path := None |}.
(** tests/expectations/nullable_attribute.compat.c *)
Definition nullable_attribute_compat : string := "#ifdef __clang__
#define CBINDGEN_NULLABLE _Nullable
#else
#define CBINDGEN_NULLABLE
#endif


#include <stdarg.h>
#include <stdbool.h>
#include <stdint.h>
#include <stdlib.h>

typedef struct Opaque Opaque;

typedef struct {
  const Opaque *a;
  Opaque *b;
  const Opaque *CBINDGEN_NULLABLE c;
  Opaque *CBINDGEN_NULLABLE d;
} References;

typedef struct {
  float *a;
  uint64_t *b;
  Opaque *c;
  uint64_t **d;
  float **e;
  Opaque **f;
  uint64_t *CBINDGEN_NULLABLE g;
  int32_t *CBINDGEN_NULLABLE h;
  int32_t **CBINDGEN_NULLABLE i;
  const uint64_t *CBINDGEN_NULLABLE j;
  uint64_t *CBINDGEN_NULLABLE k;
} Pointers_u64;

#ifdef __cplusplus
extern ""C"" {
#endif // __cplusplus

void value_arg(References arg);

void mutltiple_args(int32_t *arg, Pointers_u64 *CBINDGEN_NULLABLE foo, Opaque **d);

void ref_arg(const Pointers_u64 *arg);

void mut_ref_arg(Pointers_u64 *arg);

void optional_ref_arg(const Pointers_u64 *CBINDGEN_NULLABLE arg);

void optional_mut_ref_arg(Pointers_u64 *CBINDGEN_NULLABLE arg);

void nullable_const_ptr(const Pointers_u64 *CBINDGEN_NULLABLE arg);

void nullable_mut_ptr(Pointers_u64 *CBINDGEN_NULLABLE arg);

#ifdef __cplusplus
}  // extern ""C""
#endif  // __cplusplus
".
(** tests/expectations/nullable_attribute_tag.compat.c *)
Definition nullable_attribute_compat_tag : string := "#ifdef __clang__
#define CBINDGEN_NULLABLE _Nullable
#else
#define CBINDGEN_NULLABLE
#endif


#include <stdarg.h>
#include <stdbool.h>
#include <stdint.h>
#include <stdlib.h>

struct Opaque;

struct References {
  const struct Opaque *a;
  struct Opaque *b;
  const struct Opaque *CBINDGEN_NULLABLE c;
  struct Opaque *CBINDGEN_NULLABLE d;
};

struct Pointers_u64 {
  float *a;
  uint64_t *b;
  struct Opaque *c;
  uint64_t **d;
  float **e;
  struct Opaque **f;
  uint64_t *CBINDGEN_NULLABLE g;
  int32_t *CBINDGEN_NULLABLE h;
  int32_t **CBINDGEN_NULLABLE i;
  const uint64_t *CBINDGEN_NULLABLE j;
  uint64_t *CBINDGEN_NULLABLE k;
};

#ifdef __cplusplus
extern ""C"" {
#endif // __cplusplus

void value_arg(struct References arg);

void mutltiple_args(int32_t *arg, struct Pointers_u64 *CBINDGEN_NULLABLE foo, struct Opaque **d);

void ref_arg(const struct Pointers_u64 *arg);

void mut_ref_arg(struct Pointers_u64 *arg);

void optional_ref_arg(const struct Pointers_u64 *CBINDGEN_NULLABLE arg);

void optional_mut_ref_arg(struct Pointers_u64 *CBINDGEN_NULLABLE arg);

void nullable_const_ptr(const struct Pointers_u64 *CBINDGEN_NULLABLE arg);

void nullable_mut_ptr(struct Pointers_u64 *CBINDGEN_NULLABLE arg);

#ifdef __cplusplus
}  // extern ""C""
#endif  // __cplusplus
".
(** tests/expectations/nullable_attribute_both.compat.c *)
Definition nullable_attribute_compat_both : string := "#ifdef __clang__
#define CBINDGEN_NULLABLE _Nullable
#else
#define CBINDGEN_NULLABLE
#endif


#include <stdarg.h>
#include <stdbool.h>
#include <stdint.h>
#include <stdlib.h>

typedef struct Opaque Opaque;

typedef struct References {
  const struct Opaque *a;
  struct Opaque *b;
  const struct Opaque *CBINDGEN_NULLABLE c;
  struct Opaque *CBINDGEN_NULLABLE d;
} References;

typedef struct Pointers_u64 {
  float *a;
  uint64_t *b;
  struct Opaque *c;
  uint64_t **d;
  float **e;
  struct Opaque **f;
  uint64_t *CBINDGEN_NULLABLE g;
  int32_t *CBINDGEN_NULLABLE h;
  int32_t **CBINDGEN_NULLABLE i;
  const uint64_t *CBINDGEN_NULLABLE j;
  uint64_t *CBINDGEN_NULLABLE k;
} Pointers_u64;

#ifdef __cplusplus
extern ""C"" {
#endif // __cplusplus

void value_arg(struct References arg);

void mutltiple_args(int32_t *arg, struct Pointers_u64 *CBINDGEN_NULLABLE foo, struct Opaque **d);

void ref_arg(const struct Pointers_u64 *arg);

void mut_ref_arg(struct Pointers_u64 *arg);

void optional_ref_arg(const struct Pointers_u64 *CBINDGEN_NULLABLE arg);

void optional_mut_ref_arg(struct Pointers_u64 *CBINDGEN_NULLABLE arg);

void nullable_const_ptr(const struct Pointers_u64 *CBINDGEN_NULLABLE arg);

void nullable_mut_ptr(struct Pointers_u64 *CBINDGEN_NULLABLE arg);

#ifdef __cplusplus
}  // extern ""C""
#endif  // __cplusplus
".
(** tests/expectations/nullable_attribute.c *)
Definition nullable_attribute_c : string := "#ifdef __clang__
#define CBINDGEN_NULLABLE _Nullable
#else
#define CBINDGEN_NULLABLE
#endif


#include <stdarg.h>
#include <stdbool.h>
#include <stdint.h>
#include <stdlib.h>

typedef struct Opaque Opaque;

typedef struct {
  const Opaque *a;
  Opaque *b;
  const Opaque *CBINDGEN_NULLABLE c;
  Opaque *CBINDGEN_NULLABLE d;
} References;

typedef struct {
  float *a;
  uint64_t *b;
  Opaque *c;
  uint64_t **d;
  float **e;
  Opaque **f;
  uint64_t *CBINDGEN_NULLABLE g;
  int32_t *CBINDGEN_NULLABLE h;
  int32_t **CBINDGEN_NULLABLE i;
  const uint64_t *CBINDGEN_NULLABLE j;
  uint64_t *CBINDGEN_NULLABLE k;
} Pointers_u64;

void value_arg(References arg);

void mutltiple_args(int32_t *arg, Pointers_u64 *CBINDGEN_NULLABLE foo, Opaque **d);

void ref_arg(const Pointers_u64 *arg);

void mut_ref_arg(Pointers_u64 *arg);

void optional_ref_arg(const Pointers_u64 *CBINDGEN_NULLABLE arg);

void optional_mut_ref_arg(Pointers_u64 *CBINDGEN_NULLABLE arg);

void nullable_const_ptr(const Pointers_u64 *CBINDGEN_NULLABLE arg);

void nullable_mut_ptr(Pointers_u64 *CBINDGEN_NULLABLE arg);
".
(** tests/expectations/nullable_attribute_tag.c *)
Definition nullable_attribute_c_tag : string := "#ifdef __clang__
#define CBINDGEN_NULLABLE _Nullable
#else
#define CBINDGEN_NULLABLE
#endif


#include <stdarg.h>
#include <stdbool.h>
#include <stdint.h>
#include <stdlib.h>

struct Opaque;

struct References {
  const struct Opaque *a;
  struct Opaque *b;
  const struct Opaque *CBINDGEN_NULLABLE c;
  struct Opaque *CBINDGEN_NULLABLE d;
};

struct Pointers_u64 {
  float *a;
  uint64_t *b;
  struct Opaque *c;
  uint64_t **d;
  float **e;
  struct Opaque **f;
  uint64_t *CBINDGEN_NULLABLE g;
  int32_t *CBINDGEN_NULLABLE h;
  int32_t **CBINDGEN_NULLABLE i;
  const uint64_t *CBINDGEN_NULLABLE j;
  uint64_t *CBINDGEN_NULLABLE k;
};

void value_arg(struct References arg);

void mutltiple_args(int32_t *arg, struct Pointers_u64 *CBINDGEN_NULLABLE foo, struct Opaque **d);

void ref_arg(const struct Pointers_u64 *arg);

void mut_ref_arg(struct Pointers_u64 *arg);

void optional_ref_arg(const struct Pointers_u64 *CBINDGEN_NULLABLE arg);

void optional_mut_ref_arg(struct Pointers_u64 *CBINDGEN_NULLABLE arg);

void nullable_const_ptr(const struct Pointers_u64 *CBINDGEN_NULLABLE arg);

void nullable_mut_ptr(struct Pointers_u64 *CBINDGEN_NULLABLE arg);
".
(** tests/expectations/nullable_attribute_both.c *)
Definition nullable_attribute_c_both : string := "#ifdef __clang__
#define CBINDGEN_NULLABLE _Nullable
#else
#define CBINDGEN_NULLABLE
#endif


#include <stdarg.h>
#include <stdbool.h>
#include <stdint.h>
#include <stdlib.h>

typedef struct Opaque Opaque;

typedef struct References {
  const struct Opaque *a;
  struct Opaque *b;
  const struct Opaque *CBINDGEN_NULLABLE c;
  struct Opaque *CBINDGEN_NULLABLE d;
} References;

typedef struct Pointers_u64 {
  float *a;
  uint64_t *b;
  struct Opaque *c;
  uint64_t **d;
  float **e;
  struct Opaque **f;
  uint64_t *CBINDGEN_NULLABLE g;
  int32_t *CBINDGEN_NULLABLE h;
  int32_t **CBINDGEN_NULLABLE i;
  const uint64_t *CBINDGEN_NULLABLE j;
  uint64_t *CBINDGEN_NULLABLE k;
} Pointers_u64;

void value_arg(struct References arg);

void mutltiple_args(int32_t *arg, struct Pointers_u64 *CBINDGEN_NULLABLE foo, struct Opaque **d);

void ref_arg(const struct Pointers_u64 *arg);

void mut_ref_arg(struct Pointers_u64 *arg);

void optional_ref_arg(const struct Pointers_u64 *CBINDGEN_NULLABLE arg);

void optional_mut_ref_arg(struct Pointers_u64 *CBINDGEN_NULLABLE arg);

void nullable_const_ptr(const struct Pointers_u64 *CBINDGEN_NULLABLE arg);

void nullable_mut_ptr(struct Pointers_u64 *CBINDGEN_NULLABLE arg);
".
(** tests/expectations/nullable_attribute.cpp *)
Definition nullable_attribute_cpp : string := "#ifdef __clang__
#define CBINDGEN_NULLABLE _Nullable
#else
#define CBINDGEN_NULLABLE
#endif


#include <cstdarg>
#include <cstdint>
#include <cstdlib>
#include <ostream>
#include <new>

struct Opaque;

struct References {
  const Opaque *a;
  Opaque *b;
  const Opaque *CBINDGEN_NULLABLE c;
  Opaque *CBINDGEN_NULLABLE d;
};

template<typename T>
struct Pointers {
  float *a;
  T *b;
  Opaque *c;
  T **d;
  float **e;
  Opaque **f;
  T *CBINDGEN_NULLABLE g;
  int32_t *CBINDGEN_NULLABLE h;
  int32_t **CBINDGEN_NULLABLE i;
  const T *CBINDGEN_NULLABLE j;
  T *CBINDGEN_NULLABLE k;
};

extern ""C"" {

void value_arg(References arg);

void mutltiple_args(int32_t *arg, Pointers<uint64_t> *CBINDGEN_NULLABLE foo, Opaque **d);

void ref_arg(const Pointers<uint64_t> *arg);

void mut_ref_arg(Pointers<uint64_t> *arg);

void optional_ref_arg(const Pointers<uint64_t> *CBINDGEN_NULLABLE arg);

void optional_mut_ref_arg(Pointers<uint64_t> *CBINDGEN_NULLABLE arg);

void nullable_const_ptr(const Pointers<uint64_t> *CBINDGEN_NULLABLE arg);

void nullable_mut_ptr(Pointers<uint64_t> *CBINDGEN_NULLABLE arg);

}  // extern ""C""
".
(** tests/expectations/nullable_attribute.pyx *)
Definition nullable_attribute_pyx : string := "#ifdef __clang__
#define CBINDGEN_NULLABLE _Nullable
#else
#define CBINDGEN_NULLABLE
#endif


from libc.stdint cimport int8_t, int16_t, int32_t, int64_t, intptr_t
from libc.stdint cimport uint8_t, uint16_t, uint32_t, uint64_t, uintptr_t
cdef extern from *:
  ctypedef bint bool
  ctypedef struct va_list

cdef extern from *:

  ctypedef struct Opaque:
    pass

  ctypedef struct References:
    const Opaque *a;
    Opaque *b;
    const Opaque *c;
    Opaque *d;

  ctypedef struct Pointers_u64:
    float *a;
    uint64_t *b;
    Opaque *c;
    uint64_t **d;
    float **e;
    Opaque **f;
    uint64_t *g;
    int32_t *h;
    int32_t **i;
    const uint64_t *j;
    uint64_t *k;

  void value_arg(References arg);

  void mutltiple_args(int32_t *arg, Pointers_u64 *foo, Opaque **d);

  void ref_arg(const Pointers_u64 *arg);

  void mut_ref_arg(Pointers_u64 *arg);

  void optional_ref_arg(const Pointers_u64 *arg);

  void optional_mut_ref_arg(Pointers_u64 *arg);

  void nullable_const_ptr(const Pointers_u64 *arg);

  void nullable_mut_ptr(Pointers_u64 *arg);
".
(** tests/expectations/nullable_attribute_tag.pyx *)
Definition nullable_attribute_pyx_tag : string := "#ifdef __clang__
#define CBINDGEN_NULLABLE _Nullable
#else
#define CBINDGEN_NULLABLE
#endif


from libc.stdint cimport int8_t, int16_t, int32_t, int64_t, intptr_t
from libc.stdint cimport uint8_t, uint16_t, uint32_t, uint64_t, uintptr_t
cdef extern from *:
  ctypedef bint bool
  ctypedef struct va_list

cdef extern from *:

  cdef struct Opaque:
    pass

  cdef struct References:
    const Opaque *a;
    Opaque *b;
    const Opaque *c;
    Opaque *d;

  cdef struct Pointers_u64:
    float *a;
    uint64_t *b;
    Opaque *c;
    uint64_t **d;
    float **e;
    Opaque **f;
    uint64_t *g;
    int32_t *h;
    int32_t **i;
    const uint64_t *j;
    uint64_t *k;

  void value_arg(References arg);

  void mutltiple_args(int32_t *arg, Pointers_u64 *foo, Opaque **d);

  void ref_arg(const Pointers_u64 *arg);

  void mut_ref_arg(Pointers_u64 *arg);

  void optional_ref_arg(const Pointers_u64 *arg);

  void optional_mut_ref_arg(Pointers_u64 *arg);

  void nullable_const_ptr(const Pointers_u64 *arg);

  void nullable_mut_ptr(Pointers_u64 *arg);
".
Example nullable_attribute_reproduced : reproduces (in_file nullable_attribute_rs) false nullable_attribute_toml (Some "{
value_arg;
mutltiple_args;
ref_arg;
mut_ref_arg;
optional_ref_arg;
optional_mut_ref_arg;
nullable_const_ptr;
nullable_mut_ptr;
};")
  [(RunC true Type_, [nullable_attribute_compat]);
   (RunC true Tag, [nullable_attribute_compat_tag]);
   (RunC true Both, [nullable_attribute_compat_both]);
   (RunC false Type_, [nullable_attribute_c]);
   (RunC false Tag, [nullable_attribute_c_tag]);
   (RunC false Both, [nullable_attribute_c_both]);
   (RunCxx, [nullable_attribute_cpp]);
   (RunCython Type_, [nullable_attribute_pyx]);
   (RunCython Tag, [nullable_attribute_pyx_tag])] = true.
Proof. vm_compute. reflexivity. Qed.

(** ** tests/rust/opaque.rs *)
Definition opaque_rs : list sitem := [
  (ItemType [{| at_meta := ANameValue (Some "doc") (Some " Fast hash map used internally."); at_outer := true |}] "FastHashMap" [(SGType
  "K" None); (SGType "V" None)] (SPath (SegPath ["std"; "collections"] "HashMap" (AngleArgs [(ArgType (SPath (SegPath [] "K" NoArgs)));
  (ArgType (SPath (SegPath [] "V" NoArgs))); (ArgType (SPath (SegPath ["std"; "hash"] "BuildHasherDefault" (AngleArgs [(ArgType (SPath
  (SegPath ["std"; "collections"; "hash_map"] "DefaultHasher" NoArgs)))]))))]))));
  (ItemType [] "Foo" [] (SPath (SegPath [] "FastHashMap" (AngleArgs [(ArgType (SPath (SegPath [] "i32" NoArgs))); (ArgType (SPath (SegPath
  [] "i32" NoArgs)))]))));
  (ItemType [] "Bar" [] (SPath (SegPath [] "Result" (AngleArgs [(ArgType (SPath (SegPath [] "Foo" NoArgs))); (ArgType (STuple []))]))));
  (ItemFn [{| at_meta := (APath (Some "no_mangle")); at_outer := true |}] true {| sg_ident := "root"; sg_abi := (Some (Some "C")); sg_inputs
  := [(FnTyped (PatIdent "a") (SRef false (SPath (SegPath [] "Foo" NoArgs)))); (FnTyped (PatIdent "b") (SRef false (SPath (SegPath
  [] "Bar" NoArgs))))]; sg_variadic := false; sg_output := None |})].
Definition opaque_toml : Config := {| header := (Some "#if 0
''' '
#endif

#ifdef __cplusplus
// These could be added as opaque types I guess.
template <typename T>
struct BuildHasherDefault;

struct DefaultHasher;
#endif

#if 0
' '''
#endif
"); includes_ := []; sys_includes_ := []; after_includes := None; trailer := None;
  include_guard_ := None; pragma_once := false; no_includes := false; package_version := false; autogen_warning := None; include_version := false;
  namespace := None; namespaces := None; using_namespaces := None; braces := SameLine; line_length := 100; tab_width := 2; line_endings := LF;
  language := Cxx; cpp_compat := false; style := Both; sort_by := SortNone; usize_is_size_t := false; parse := default_parse; export := {| ex_include := []; ex_exclude := []; ex_rename := []; ex_pre_body := []; ex_body := []; ex_prefix := None; ex_item_types := []; ex_renaming_overrides_prefixing := false; ex_mangle := {| rename_types := RNone; remove_underscores := false |} |};
  layout := {| ly_packed := None; ly_aligned_n := None |}; function := {| fn_prefix := None; fn_postfix := None; fn_must_use := None; fn_deprecated := None; fn_deprecated_with_note := None; fn_args := Auto; fn_rename_args := RNone; fn_swift_name_macro := None; fn_sort_by := None; fn_no_return := None |}; structure := {| st_rename_fields := RNone; st_derive_constructor := false; st_derive_eq := false; st_derive_neq := false; st_derive_lt := false; st_derive_lte := false; st_derive_gt := false; st_derive_gte := false; st_derive_ostream := false; st_associated_constants_in_body := false; st_rename_associated_constant := RNone; st_must_use := None; st_deprecated := None; st_deprecated_with_note := None |}; enumeration := {| en_rename_variants := RNone; en_rename_variant_name_fields := SnakeCase; en_add_sentinel := false; en_prefix_with_name := false; en_derive_helper_methods := false; en_derive_const_casts := false; en_derive_mut_casts := false; en_cast_assert_name := None; en_must_use := None; en_deprecated := None; en_deprecated_with_note := None; en_deprecated_variant := None; en_deprecated_variant_with_note := None; en_derive_tagged_enum_destructor := false; en_derive_tagged_enum_copy_constructor := false; en_derive_tagged_enum_copy_assignment := false; en_derive_ostream := false; en_enum_class := true; en_private_default_tagged_enum_constructor := false |}; constant := {| co_allow_static_const := true; co_allow_constexpr := true; co_sort_by := None |}; defines := []; documentation := true;
  documentation_style := DocAuto; documentation_length := Full; pointer := {| pt_non_null_attribute := None; pt_nullable_attribute := None |}; cython := {| cy_header := None; cy_cimports := [] |}; config_path := None |}.
(** tests/expectations/opaque.compat.c *)
Definition opaque_compat : string := "#if 0
''' '
#endif

#ifdef __cplusplus
// These could be added as opaque types I guess.
template <typename T>
struct BuildHasherDefault;

struct DefaultHasher;
#endif

#if 0
' '''
#endif


#include <stdarg.h>
#include <stdbool.h>
#include <stdint.h>
#include <stdlib.h>

typedef struct HashMap_i32__i32__BuildHasherDefault_DefaultHasher HashMap_i32__i32__BuildHasherDefault_DefaultHasher;

typedef struct Result_Foo Result_Foo;

/**
 * Fast hash map used internally.
 */
typedef HashMap_i32__i32__BuildHasherDefault_DefaultHasher FastHashMap_i32__i32;

typedef FastHashMap_i32__i32 Foo;

typedef Result_Foo Bar;

#ifdef __cplusplus
extern ""C"" {
#endif // __cplusplus

void root(const Foo *a, const Bar *b);

#ifdef __cplusplus
}  // extern ""C""
#endif  // __cplusplus
".
(** tests/expectations/opaque_tag.compat.c *)
Definition opaque_compat_tag : string := "#if 0
''' '
#endif

#ifdef __cplusplus
// These could be added as opaque types I guess.
template <typename T>
struct BuildHasherDefault;

struct DefaultHasher;
#endif

#if 0
' '''
#endif


#include <stdarg.h>
#include <stdbool.h>
#include <stdint.h>
#include <stdlib.h>

struct HashMap_i32__i32__BuildHasherDefault_DefaultHasher;

struct Result_Foo;

/**
 * Fast hash map used internally.
 */
typedef struct HashMap_i32__i32__BuildHasherDefault_DefaultHasher FastHashMap_i32__i32;

typedef FastHashMap_i32__i32 Foo;

typedef struct Result_Foo Bar;

#ifdef __cplusplus
extern ""C"" {
#endif // __cplusplus

void root(const Foo *a, const Bar *b);

#ifdef __cplusplus
}  // extern ""C""
#endif  // __cplusplus
".
(** tests/expectations/opaque_both.compat.c *)
Definition opaque_compat_both : string := "#if 0
''' '
#endif

#ifdef __cplusplus
// These could be added as opaque types I guess.
template <typename T>
struct BuildHasherDefault;

struct DefaultHasher;
#endif

#if 0
' '''
#endif


#include <stdarg.h>
#include <stdbool.h>
#include <stdint.h>
#include <stdlib.h>

typedef struct HashMap_i32__i32__BuildHasherDefault_DefaultHasher HashMap_i32__i32__BuildHasherDefault_DefaultHasher;

typedef struct Result_Foo Result_Foo;

/**
 * Fast hash map used internally.
 */
typedef struct HashMap_i32__i32__BuildHasherDefault_DefaultHasher FastHashMap_i32__i32;

typedef FastHashMap_i32__i32 Foo;

typedef struct Result_Foo Bar;

#ifdef __cplusplus
extern ""C"" {
#endif // __cplusplus

void root(const Foo *a, const Bar *b);

#ifdef __cplusplus
}  // extern ""C""
#endif  // __cplusplus
".
(** tests/expectations/opaque.c *)
Definition opaque_c : string := "#if 0
''' '
#endif

#ifdef __cplusplus
// These could be added as opaque types I guess.
template <typename T>
struct BuildHasherDefault;

struct DefaultHasher;
#endif

#if 0
' '''
#endif


#include <stdarg.h>
#include <stdbool.h>
#include <stdint.h>
#include <stdlib.h>

typedef struct HashMap_i32__i32__BuildHasherDefault_DefaultHasher HashMap_i32__i32__BuildHasherDefault_DefaultHasher;

typedef struct Result_Foo Result_Foo;

/**
 * Fast hash map used internally.
 */
typedef HashMap_i32__i32__BuildHasherDefault_DefaultHasher FastHashMap_i32__i32;

typedef FastHashMap_i32__i32 Foo;

typedef Result_Foo Bar;

void root(const Foo *a, const Bar *b);
".
(** tests/expectations/opaque_tag.c *)
Definition opaque_c_tag : string := "#if 0
''' '
#endif

#ifdef __cplusplus
// These could be added as opaque types I guess.
template <typename T>
struct BuildHasherDefault;

struct DefaultHasher;
#endif

#if 0
' '''
#endif


#include <stdarg.h>
#include <stdbool.h>
#include <stdint.h>
#include <stdlib.h>

struct HashMap_i32__i32__BuildHasherDefault_DefaultHasher;

struct Result_Foo;

/**
 * Fast hash map used internally.
 */
typedef struct HashMap_i32__i32__BuildHasherDefault_DefaultHasher FastHashMap_i32__i32;

typedef FastHashMap_i32__i32 Foo;

typedef struct Result_Foo Bar;

void root(const Foo *a, const Bar *b);
".
(** tests/expectations/opaque_both.c *)
Definition opaque_c_both : string := "#if 0
''' '
#endif

#ifdef __cplusplus
// These could be added as opaque types I guess.
template <typename T>
struct BuildHasherDefault;

struct DefaultHasher;
#endif

#if 0
' '''
#endif


#include <stdarg.h>
#include <stdbool.h>
#include <stdint.h>
#include <stdlib.h>

typedef struct HashMap_i32__i32__BuildHasherDefault_DefaultHasher HashMap_i32__i32__BuildHasherDefault_DefaultHasher;

typedef struct Result_Foo Result_Foo;

/**
 * Fast hash map used internally.
 */
typedef struct HashMap_i32__i32__BuildHasherDefault_DefaultHasher FastHashMap_i32__i32;

typedef FastHashMap_i32__i32 Foo;

typedef struct Result_Foo Bar;

void root(const Foo *a, const Bar *b);
".
(** tests/expectations/opaque.cpp *)
Definition opaque_cpp : string := "#if 0
''' '
#endif

#ifdef __cplusplus
// These could be added as opaque types I guess.
template <typename T>
struct BuildHasherDefault;

struct DefaultHasher;
#endif

#if 0
' '''
#endif


#include <cstdarg>
#include <cstdint>
#include <cstdlib>
#include <ostream>
#include <new>

template<typename K = void, typename V = void, typename Hasher = void>
struct HashMap;

template<typename T = void, typename E = void>
struct Result;

/// Fast hash map used internally.
template<typename K, typename V>
using FastHashMap = HashMap<K, V, BuildHasherDefault<DefaultHasher>>;

using Foo = FastHashMap<int32_t, int32_t>;

using Bar = Result<Foo>;

extern ""C"" {

void root(const Foo *a, const Bar *b);

}  // extern ""C""
".
(** tests/expectations/opaque.pyx *)
Definition opaque_pyx : string := "#if 0
''' '
#endif

#ifdef __cplusplus
// These could be added as opaque types I guess.
template <typename T>
struct BuildHasherDefault;

struct DefaultHasher;
#endif

#if 0
' '''
#endif


from libc.stdint cimport int8_t, int16_t, int32_t, int64_t, intptr_t
from libc.stdint cimport uint8_t, uint16_t, uint32_t, uint64_t, uintptr_t
cdef extern from *:
  ctypedef bint bool
  ctypedef struct va_list

cdef extern from *:

  ctypedef struct HashMap_i32__i32__BuildHasherDefault_DefaultHasher:
    pass

  ctypedef struct Result_Foo:
    pass

  # Fast hash map used internally.
  ctypedef HashMap_i32__i32__BuildHasherDefault_DefaultHasher FastHashMap_i32__i32;

  ctypedef FastHashMap_i32__i32 Foo;

  ctypedef Result_Foo Bar;

  void root(const Foo *a, const Bar *b);
".
(** tests/expectations/opaque_tag.pyx *)
Definition opaque_pyx_tag : string := "#if 0
''' '
#endif

#ifdef __cplusplus
// These could be added as opaque types I guess.
template <typename T>
struct BuildHasherDefault;

struct DefaultHasher;
#endif

#if 0
' '''
#endif


from libc.stdint cimport int8_t, int16_t, int32_t, int64_t, intptr_t
from libc.stdint cimport uint8_t, uint16_t, uint32_t, uint64_t, uintptr_t
cdef extern from *:
  ctypedef bint bool
  ctypedef struct va_list

cdef extern from *:

  cdef struct HashMap_i32__i32__BuildHasherDefault_DefaultHasher:
    pass

  cdef struct Result_Foo:
    pass

  # Fast hash map used internally.
  ctypedef HashMap_i32__i32__BuildHasherDefault_DefaultHasher FastHashMap_i32__i32;

  ctypedef FastHashMap_i32__i32 Foo;

  ctypedef Result_Foo Bar;

  void root(const Foo *a, const Bar *b);
".
Example opaque_reproduced : reproduces (in_file opaque_rs) false opaque_toml (Some "{
root;
};")
  [(RunC true Type_, [opaque_compat]);
   (RunC true Tag, [opaque_compat_tag]);
   (RunC true Both, [opaque_compat_both]);
   (RunC false Type_, [opaque_c]);
   (RunC false Tag, [opaque_c_tag]);
   (RunC false Both, [opaque_c_both]);
   (RunCxx, [opaque_cpp]);
   (RunCython Type_, [opaque_pyx]);
   (RunCython Tag, [opaque_pyx_tag])] = true.
Proof. vm_compute. reflexivity. Qed.

(** ** tests/rust/pin.rs *)
Definition pin_rs : list sitem := [
  (ItemStruct [{| at_meta := (AList (Some "repr") [(APath (Some "C"))]); at_outer := true |}] "PinTest" [] (FieldsNamed [{| sf_attrs
  := []; sf_ident := (Some "pinned_box"); sf_ty := (SPath (SegPath [] "Pin" (AngleArgs [(ArgType (SPath (SegPath [] "Box" (AngleArgs
  [(ArgType (SPath (SegPath [] "i32" NoArgs)))]))))]))) |}; {| sf_attrs := []; sf_ident := (Some "pinned_ref"); sf_ty := (SPath (SegPath
  [] "Pin" (AngleArgs [(ArgType (SRef true (SPath (SegPath [] "i32" NoArgs))))]))) |}]));
  (ItemFn [{| at_meta := (APath (Some "no_mangle")); at_outer := true |}] true {| sg_ident := "root"; sg_abi := (Some (Some "C")); sg_inputs
  := [(FnTyped (PatIdent "s") (SPath (SegPath [] "Pin" (AngleArgs [(ArgType (SRef true (SPath (SegPath [] "i32" NoArgs))))])))); (FnTyped
  (PatIdent "p") (SPath (SegPath [] "PinTest" NoArgs)))]; sg_variadic := false; sg_output := None |})].
Definition pin_toml : Config := {| header := (Some "#if 0
''' '
#endif

#ifdef __cplusplus
template <typename T>
using Pin = T;
template <typename T>
using Box = T*;
#endif

#if 0
' '''
#endif
"); includes_ := []; sys_includes_ := []; after_includes := None; trailer := None;
  include_guard_ := None; pragma_once := false; no_includes := false; package_version := false; autogen_warning := None; include_version := false;
  namespace := None; namespaces := None; using_namespaces := None; braces := SameLine; line_length := 100; tab_width := 2; line_endings := LF;
  language := Cxx; cpp_compat := false; style := Both; sort_by := SortNone; usize_is_size_t := false; parse := default_parse; export := {| ex_include := []; ex_exclude := ["Pin"; "Box"]; ex_rename := []; ex_pre_body := []; ex_body := []; ex_prefix := None; ex_item_types := []; ex_renaming_overrides_prefixing := false; ex_mangle := {| rename_types := RNone; remove_underscores := false |} |};
  layout := {| ly_packed := None; ly_aligned_n := None |}; function := {| fn_prefix := None; fn_postfix := None; fn_must_use := None; fn_deprecated := None; fn_deprecated_with_note := None; fn_args := Auto; fn_rename_args := RNone; fn_swift_name_macro := None; fn_sort_by := None; fn_no_return := None |}; structure := {| st_rename_fields := RNone; st_derive_constructor := false; st_derive_eq := false; st_derive_neq := false; st_derive_lt := false; st_derive_lte := false; st_derive_gt := false; st_derive_gte := false; st_derive_ostream := false; st_associated_constants_in_body := false; st_rename_associated_constant := RNone; st_must_use := None; st_deprecated := None; st_deprecated_with_note := None |}; enumeration := {| en_rename_variants := RNone; en_rename_variant_name_fields := SnakeCase; en_add_sentinel := false; en_prefix_with_name := false; en_derive_helper_methods := false; en_derive_const_casts := false; en_derive_mut_casts := false; en_cast_assert_name := None; en_must_use := None; en_deprecated := None; en_deprecated_with_note := None; en_deprecated_variant := None; en_deprecated_variant_with_note := None; en_derive_tagged_enum_destructor := false; en_derive_tagged_enum_copy_constructor := false; en_derive_tagged_enum_copy_assignment := false; en_derive_ostream := false; en_enum_class := true; en_private_default_tagged_enum_constructor := false |}; constant := {| co_allow_static_const := true; co_allow_constexpr := true; co_sort_by := None |}; defines := []; documentation := true;
  documentation_style := DocAuto; documentation_length := Full; pointer := {| pt_non_null_attribute := None; pt_nullable_attribute := None |}; cython := {| cy_header := None; cy_cimports := [] |}; config_path := None |}.
(** tests/expectations/pin.compat.c *)
Definition pin_compat : string := "#if 0
''' '
#endif

#ifdef __cplusplus
template <typename T>
using Pin = T;
template <typename T>
using Box = T*;
#endif

#if 0
' '''
#endif


#include <stdarg.h>
#include <stdbool.h>
#include <stdint.h>
#include <stdlib.h>

typedef struct {
  int32_t *pinned_box;
  int32_t *pinned_ref;
} PinTest;

#ifdef __cplusplus
extern ""C"" {
#endif // __cplusplus

void root(int32_t *s, PinTest p);

#ifdef __cplusplus
}  // extern ""C""
#endif  // __cplusplus
".
(** tests/expectations/pin_tag.compat.c *)
Definition pin_compat_tag : string := "#if 0
''' '
#endif

#ifdef __cplusplus
template <typename T>
using Pin = T;
template <typename T>
using Box = T*;
#endif

#if 0
' '''
#endif


#include <stdarg.h>
#include <stdbool.h>
#include <stdint.h>
#include <stdlib.h>

struct PinTest {
  int32_t *pinned_box;
  int32_t *pinned_ref;
};

#ifdef __cplusplus
extern ""C"" {
#endif // __cplusplus

void root(int32_t *s, struct PinTest p);

#ifdef __cplusplus
}  // extern ""C""
#endif  // __cplusplus
".
(** tests/expectations/pin_both.compat.c *)
Definition pin_compat_both : string := "#if 0
''' '
#endif

#ifdef __cplusplus
template <typename T>
using Pin = T;
template <typename T>
using Box = T*;
#endif

#if 0
' '''
#endif


#include <stdarg.h>
#include <stdbool.h>
#include <stdint.h>
#include <stdlib.h>

typedef struct PinTest {
  int32_t *pinned_box;
  int32_t *pinned_ref;
} PinTest;

#ifdef __cplusplus
extern ""C"" {
#endif // __cplusplus

void root(int32_t *s, struct PinTest p);

#ifdef __cplusplus
}  // extern ""C""
#endif  // __cplusplus
".
(** tests/expectations/pin.c *)
Definition pin_c : string := "#if 0
''' '
#endif

#ifdef __cplusplus
template <typename T>
using Pin = T;
template <typename T>
using Box = T*;
#endif

#if 0
' '''
#endif


#include <stdarg.h>
#include <stdbool.h>
#include <stdint.h>
#include <stdlib.h>

typedef struct {
  int32_t *pinned_box;
  int32_t *pinned_ref;
} PinTest;

void root(int32_t *s, PinTest p);
".
(** tests/expectations/pin_tag.c *)
Definition pin_c_tag : string := "#if 0
''' '
#endif

#ifdef __cplusplus
template <typename T>
using Pin = T;
template <typename T>
using Box = T*;
#endif

#if 0
' '''
#endif


#include <stdarg.h>
#include <stdbool.h>
#include <stdint.h>
#include <stdlib.h>

struct PinTest {
  int32_t *pinned_box;
  int32_t *pinned_ref;
};

void root(int32_t *s, struct PinTest p);
".
(** tests/expectations/pin_both.c *)
Definition pin_c_both : string := "#if 0
''' '
#endif

#ifdef __cplusplus
template <typename T>
using Pin = T;
template <typename T>
using Box = T*;
#endif

#if 0
' '''
#endif


#include <stdarg.h>
#include <stdbool.h>
#include <stdint.h>
#include <stdlib.h>

typedef struct PinTest {
  int32_t *pinned_box;
  int32_t *pinned_ref;
} PinTest;

void root(int32_t *s, struct PinTest p);
".
(** tests/expectations/pin.cpp *)
Definition pin_cpp : string := "#if 0
''' '
#endif

#ifdef __cplusplus
template <typename T>
using Pin = T;
template <typename T>
using Box = T*;
#endif

#if 0
' '''
#endif


#include <cstdarg>
#include <cstdint>
#include <cstdlib>
#include <ostream>
#include <new>

struct PinTest {
  Pin<Box<int32_t>> pinned_box;
  Pin<int32_t*> pinned_ref;
};

extern ""C"" {

void root(Pin<int32_t*> s, PinTest p);

}  // extern ""C""
".
(** tests/expectations/pin.pyx *)
Definition pin_pyx : string := "#if 0
''' '
#endif

#ifdef __cplusplus
template <typename T>
using Pin = T;
template <typename T>
using Box = T*;
#endif

#if 0
' '''
#endif


from libc.stdint cimport int8_t, int16_t, int32_t, int64_t, intptr_t
from libc.stdint cimport uint8_t, uint16_t, uint32_t, uint64_t, uintptr_t
cdef extern from *:
  ctypedef bint bool
  ctypedef struct va_list

cdef extern from *:

  ctypedef struct PinTest:
    int32_t *pinned_box;
    int32_t *pinned_ref;

  void root(int32_t *s, PinTest p);
".
(** tests/expectations/pin_tag.pyx *)
Definition pin_pyx_tag : string := "#if 0
''' '
#endif

#ifdef __cplusplus
template <typename T>
using Pin = T;
template <typename T>
using Box = T*;
#endif

#if 0
' '''
#endif


from libc.stdint cimport int8_t, int16_t, int32_t, int64_t, intptr_t
from libc.stdint cimport uint8_t, uint16_t, uint32_t, uint64_t, uintptr_t
cdef extern from *:
  ctypedef bint bool
  ctypedef struct va_list

cdef extern from *:

  cdef struct PinTest:
    int32_t *pinned_box;
    int32_t *pinned_ref;

  void root(int32_t *s, PinTest p);
".
Example pin_reproduced : reproduces (in_file pin_rs) false pin_toml (Some "{
root;
};")
  [(RunC true Type_, [pin_compat]);
   (RunC true Tag, [pin_compat_tag]);
   (RunC true Both, [pin_compat_both]);
   (RunC false Type_, [pin_c]);
   (RunC false Tag, [pin_c_tag]);
   (RunC false Both, [pin_c_both]);
   (RunCxx, [pin_cpp]);
   (RunCython Type_, [pin_pyx]);
   (RunCython Tag, [pin_pyx_tag])] = true.
Proof. vm_compute. reflexivity. Qed.

