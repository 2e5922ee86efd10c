(** See S_Suite.v; generated. *)
Require Import Coq.Strings.String Coq.Strings.Ascii Coq.Lists.List Coq.Bool.Bool Coq.NArith.NArith.
From Verif Require Import Base M_Config M_Cfg M_Type M_Ir M_Item M_Attr M_Syn M_Library M_Loader M_Parser M_Bindings M_Backend S_Heck S_Suite.
Import ListNotations.
Open Scope string_scope.

(** ** tests/rust/unsafe_cell.rs *)
Definition unsafe_cell_rs : list sitem := [
  (ItemStruct [{| at_meta := (AList (Some "repr") [(APath (Some "C"))]); at_outer := true |}] "MyStruct" [] (FieldsNamed [{| sf_attrs
  := []; sf_ident := (Some "number"); sf_ty := (SPath (SegPath ["std"; "cell"] "UnsafeCell" (AngleArgs [(ArgType (SPath (SegPath []
  "i32" NoArgs)))]))) |}]));
  (ItemStruct [] "NotReprC" [(SGType "T" None)] (FieldsNamed [{| sf_attrs := []; sf_ident := (Some "inner"); sf_ty := (SPath (SegPath
  [] "T" NoArgs)) |}]));
  (ItemType [] "Foo" [] (SPath (SegPath [] "NotReprC" (AngleArgs [(ArgType (SPath (SegPath ["std"; "cell"] "SyncUnsafeCell" (AngleArgs
  [(ArgType (SPath (SegPath [] "i32" NoArgs)))]))))]))));
  (ItemFn [{| at_meta := (APath (Some "no_mangle")); at_outer := true |}] true {| sg_ident := "root"; sg_abi := (Some (Some "C")); sg_inputs
  := [(FnTyped (PatIdent "a") (SRef false (SPath (SegPath [] "Foo" NoArgs)))); (FnTyped (PatIdent "with_cell") (SRef false (SPath
  (SegPath [] "MyStruct" NoArgs))))]; sg_variadic := false; sg_output := None |})].
(** tests/expectations/unsafe_cell.compat.c *)
Definition unsafe_cell_compat : string := "#include <stdarg.h>
#include <stdbool.h>
#include <stdint.h>
#include <stdlib.h>

typedef struct NotReprC_i32 NotReprC_i32;

typedef NotReprC_i32 Foo;

typedef struct {
  int32_t number;
} MyStruct;

#ifdef __cplusplus
extern ""C"" {
#endif // __cplusplus

void root(const Foo *a, const MyStruct *with_cell);

#ifdef __cplusplus
}  // extern ""C""
#endif  // __cplusplus
".
(** tests/expectations/unsafe_cell_tag.compat.c *)
Definition unsafe_cell_compat_tag : string := "#include <stdarg.h>
#include <stdbool.h>
#include <stdint.h>
#include <stdlib.h>

struct NotReprC_i32;

typedef struct NotReprC_i32 Foo;

struct MyStruct {
  int32_t number;
};

#ifdef __cplusplus
extern ""C"" {
#endif // __cplusplus

void root(const Foo *a, const struct MyStruct *with_cell);

#ifdef __cplusplus
}  // extern ""C""
#endif  // __cplusplus
".
(** tests/expectations/unsafe_cell_both.compat.c *)
Definition unsafe_cell_compat_both : string := "#include <stdarg.h>
#include <stdbool.h>
#include <stdint.h>
#include <stdlib.h>

typedef struct NotReprC_i32 NotReprC_i32;

typedef struct NotReprC_i32 Foo;

typedef struct MyStruct {
  int32_t number;
} MyStruct;

#ifdef __cplusplus
extern ""C"" {
#endif // __cplusplus

void root(const Foo *a, const struct MyStruct *with_cell);

#ifdef __cplusplus
}  // extern ""C""
#endif  // __cplusplus
".
(** tests/expectations/unsafe_cell.c *)
Definition unsafe_cell_c : string := "#include <stdarg.h>
#include <stdbool.h>
#include <stdint.h>
#include <stdlib.h>

typedef struct NotReprC_i32 NotReprC_i32;

typedef NotReprC_i32 Foo;

typedef struct {
  int32_t number;
} MyStruct;

void root(const Foo *a, const MyStruct *with_cell);
".
(** tests/expectations/unsafe_cell_tag.c *)
Definition unsafe_cell_c_tag : string := "#include <stdarg.h>
#include <stdbool.h>
#include <stdint.h>
#include <stdlib.h>

struct NotReprC_i32;

typedef struct NotReprC_i32 Foo;

struct MyStruct {
  int32_t number;
};

void root(const Foo *a, const struct MyStruct *with_cell);
".
(** tests/expectations/unsafe_cell_both.c *)
Definition unsafe_cell_c_both : string := "#include <stdarg.h>
#include <stdbool.h>
#include <stdint.h>
#include <stdlib.h>

typedef struct NotReprC_i32 NotReprC_i32;

typedef struct NotReprC_i32 Foo;

typedef struct MyStruct {
  int32_t number;
} MyStruct;

void root(const Foo *a, const struct MyStruct *with_cell);
".
(** tests/expectations/unsafe_cell.cpp *)
Definition unsafe_cell_cpp : string := "#include <cstdarg>
#include <cstdint>
#include <cstdlib>
#include <ostream>
#include <new>

template<typename T = void>
struct NotReprC;

using Foo = NotReprC<int32_t>;

struct MyStruct {
  int32_t number;
};

extern ""C"" {

void root(const Foo *a, const MyStruct *with_cell);

}  // extern ""C""
".
(** tests/expectations/unsafe_cell.pyx *)
Definition unsafe_cell_pyx : string := "from libc.stdint cimport int8_t, int16_t, int32_t, int64_t, intptr_t
from libc.stdint cimport uint8_t, uint16_t, uint32_t, uint64_t, uintptr_t
cdef extern from *:
  ctypedef bint bool
  ctypedef struct va_list

cdef extern from *:

  ctypedef struct NotReprC_i32:
    pass

  ctypedef NotReprC_i32 Foo;

  ctypedef struct MyStruct:
    int32_t number;

  void root(const Foo *a, const MyStruct *with_cell);
".
(** tests/expectations/unsafe_cell_tag.pyx *)
Definition unsafe_cell_pyx_tag : string := "from libc.stdint cimport int8_t, int16_t, int32_t, int64_t, intptr_t
from libc.stdint cimport uint8_t, uint16_t, uint32_t, uint64_t, uintptr_t
cdef extern from *:
  ctypedef bint bool
  ctypedef struct va_list

cdef extern from *:

  cdef struct NotReprC_i32:
    pass

  ctypedef NotReprC_i32 Foo;

  cdef struct MyStruct:
    int32_t number;

  void root(const Foo *a, const MyStruct *with_cell);
".
Example unsafe_cell_reproduced : reproduces (in_file unsafe_cell_rs) false default_config (Some "{
root;
};")
  [(RunC true Type_, [unsafe_cell_compat]);
   (RunC true Tag, [unsafe_cell_compat_tag]);
   (RunC true Both, [unsafe_cell_compat_both]);
   (RunC false Type_, [unsafe_cell_c]);
   (RunC false Tag, [unsafe_cell_c_tag]);
   (RunC false Both, [unsafe_cell_c_both]);
   (RunCxx, [unsafe_cell_cpp]);
   (RunCython Type_, [unsafe_cell_pyx]);
   (RunCython Tag, [unsafe_cell_pyx_tag])] = true.
Proof. vm_compute. reflexivity. Qed.

(** ** tests/rust/using_namespaces.rs *)
Definition using_namespaces_rs : list sitem := [
  (ItemFn [{| at_meta := (APath (Some "no_mangle")); at_outer := true |}] true {| sg_ident := "root"; sg_abi := (Some (Some "C")); sg_inputs
  := []; sg_variadic := false; sg_output := None |})].
Definition using_namespaces_toml : Config := {| header := None; includes_ := []; sys_includes_ := []; after_includes := None; trailer := None;
  include_guard_ := None; pragma_once := false; no_includes := false; package_version := false; autogen_warning := None; include_version := false;
  namespace := None; namespaces := (Some ["root"]); using_namespaces := (Some ["std"]); braces := SameLine; line_length := 100; tab_width := 2; line_endings := LF;
  language := Cxx; cpp_compat := false; style := Both; sort_by := SortNone; usize_is_size_t := false; parse := default_parse; export := {| ex_include := []; ex_exclude := []; ex_rename := []; ex_pre_body := []; ex_body := []; ex_prefix := None; ex_item_types := []; ex_renaming_overrides_prefixing := false; ex_mangle := {| rename_types := RNone; remove_underscores := false |} |};
  layout := {| ly_packed := None; ly_aligned_n := None |}; function := {| fn_prefix := None; fn_postfix := None; fn_must_use := None; fn_deprecated := None; fn_deprecated_with_note := None; fn_args := Auto; fn_rename_args := RNone; fn_swift_name_macro := None; fn_sort_by := None; fn_no_return := None |}; structure := {| st_rename_fields := RNone; st_derive_constructor := false; st_derive_eq := false; st_derive_neq := false; st_derive_lt := false; st_derive_lte := false; st_derive_gt := false; st_derive_gte := false; st_derive_ostream := false; st_associated_constants_in_body := false; st_rename_associated_constant := RNone; st_must_use := None; st_deprecated := None; st_deprecated_with_note := None |}; enumeration := {| en_rename_variants := RNone; en_rename_variant_name_fields := SnakeCase; en_add_sentinel := false; en_prefix_with_name := false; en_derive_helper_methods := false; en_derive_const_casts := false; en_derive_mut_casts := false; en_cast_assert_name := None; en_must_use := None; en_deprecated := None; en_deprecated_with_note := None; en_deprecated_variant := None; en_deprecated_variant_with_note := None; en_derive_tagged_enum_destructor := false; en_derive_tagged_enum_copy_constructor := false; en_derive_tagged_enum_copy_assignment := false; en_derive_ostream := false; en_enum_class := true; en_private_default_tagged_enum_constructor := false |}; constant := {| co_allow_static_const := true; co_allow_constexpr := true; co_sort_by := None |}; defines := []; documentation := true;
  documentation_style := DocAuto; documentation_length := Full; pointer := {| pt_non_null_attribute := None; pt_nullable_attribute := None |}; cython := {| cy_header := None; cy_cimports := [] |}; config_path := None |}.
(** tests/expectations/using_namespaces.compat.c *)
Definition using_namespaces_compat : string := "#include <stdarg.h>
#include <stdbool.h>
#include <stdint.h>
#include <stdlib.h>

#ifdef __cplusplus
namespace root {
#endif  // __cplusplus

#ifdef __cplusplus
extern ""C"" {
#endif // __cplusplus

void root(void);

#ifdef __cplusplus
}  // extern ""C""
#endif  // __cplusplus

#ifdef __cplusplus
}  // namespace root
#endif  // __cplusplus
".
(** tests/expectations/using_namespaces.c *)
Definition using_namespaces_c : string := "#include <stdarg.h>
#include <stdbool.h>
#include <stdint.h>
#include <stdlib.h>

void root(void);
".
(** tests/expectations/using_namespaces.cpp *)
Definition using_namespaces_cpp : string := "#include <cstdarg>
#include <cstdint>
#include <cstdlib>
#include <ostream>
#include <new>

namespace root {

using namespace std;

extern ""C"" {

void root();

}  // extern ""C""

}  // namespace root
".
(** tests/expectations/using_namespaces.pyx *)
Definition using_namespaces_pyx : string := "from libc.stdint cimport int8_t, int16_t, int32_t, int64_t, intptr_t
from libc.stdint cimport uint8_t, uint16_t, uint32_t, uint64_t, uintptr_t
cdef extern from *:
  ctypedef bint bool
  ctypedef struct va_list

cdef extern from *:

  void root();
".
Example using_namespaces_reproduced : reproduces (in_file using_namespaces_rs) false using_namespaces_toml (Some "{
root;
};")
  [(RunC true Type_, [using_namespaces_compat]);
   (RunC true Tag, [using_namespaces_compat]);
   (RunC true Both, [using_namespaces_compat]);
   (RunC false Type_, [using_namespaces_c]);
   (RunC false Tag, [using_namespaces_compat; using_namespaces_c]);
   (RunC false Both, [using_namespaces_compat; using_namespaces_c]);
   (RunCxx, [using_namespaces_cpp]);
   (RunCython Type_, [using_namespaces_pyx]);
   (RunCython Tag, [using_namespaces_pyx])] = true.
Proof. vm_compute. reflexivity. Qed.

(** ** tests/rust/va_list.rs *)
Definition va_list_rs : list sitem := [
  (ItemOther []);
  (ItemFn [{| at_meta := (APath (Some "no_mangle")); at_outer := true |}] true {| sg_ident := "va_list_test"; sg_abi := (Some (Some
  "C")); sg_inputs := [(FnTyped (PatIdent "count") (SPath (SegPath [] "int32_t" NoArgs))); (FnTyped (PatIdent "ap") (SPath (SegPath
  [] "VaList" NoArgs)))]; sg_variadic := false; sg_output := (Some (SPath (SegPath [] "int32_t" NoArgs))) |});
  (ItemFn [{| at_meta := (APath (Some "no_mangle")); at_outer := true |}] true {| sg_ident := "va_list_test2"; sg_abi := (Some (Some
  "C")); sg_inputs := [(FnTyped (PatIdent "count") (SPath (SegPath [] "int32_t" NoArgs)))]; sg_variadic := true; sg_output := (Some
  (SPath (SegPath [] "int32_t" NoArgs))) |});
  (ItemType [] "VaListFnPtr" [] (SPath (SegPath [] "Option" (AngleArgs [(ArgType (SFnPtr [((Some "count"), (SPath (SegPath [] "int32_t"
  NoArgs))); (None, (SPath (SegPath [] "VaList" NoArgs)))] false (Some (SPath (SegPath [] "int32_t" NoArgs)))))]))));
  (ItemType [] "VaListFnPtr2" [] (SPath (SegPath [] "Option" (AngleArgs [(ArgType (SFnPtr [((Some "count"), (SPath (SegPath [] "int32_t"
  NoArgs)))] true (Some (SPath (SegPath [] "int32_t" NoArgs)))))]))));
  (ItemStruct [{| at_meta := (AList (Some "repr") [(APath (Some "C"))]); at_outer := true |}] "Interface" [(SGType "T" None)] (FieldsNamed
  [{| sf_attrs := []; sf_ident := (Some "fn1"); sf_ty := (SPath (SegPath [] "T" NoArgs)) |}]));
  (ItemFn [{| at_meta := (APath (Some "no_mangle")); at_outer := true |}] true {| sg_ident := "va_list_fn_ptrs"; sg_abi := (Some (Some
  "C")); sg_inputs := [(FnTyped (PatIdent "fn1") (SPath (SegPath [] "Option" (AngleArgs [(ArgType (SFnPtr [((Some "count"), (SPath
  (SegPath [] "int32_t" NoArgs))); (None, (SPath (SegPath [] "VaList" NoArgs)))] false (Some (SPath (SegPath [] "int32_t" NoArgs)))))]))));
  (FnTyped (PatIdent "fn2") (SPath (SegPath [] "Option" (AngleArgs [(ArgType (SFnPtr [((Some "count"), (SPath (SegPath [] "int32_t"
  NoArgs)))] true (Some (SPath (SegPath [] "int32_t" NoArgs)))))])))); (FnTyped (PatIdent "fn3") (SPath (SegPath [] "VaListFnPtr"
  NoArgs))); (FnTyped (PatIdent "fn4") (SPath (SegPath [] "VaListFnPtr2" NoArgs))); (FnTyped (PatIdent "fn5") (SPath (SegPath [] "Interface"
  (AngleArgs [(ArgType (SPath (SegPath [] "Option" (AngleArgs [(ArgType (SFnPtr [((Some "count"), (SPath (SegPath [] "int32_t" NoArgs)));
  (None, (SPath (SegPath [] "VaList" NoArgs)))] false (Some (SPath (SegPath [] "int32_t" NoArgs)))))]))))])))); (FnTyped (PatIdent
  "fn6") (SPath (SegPath [] "Interface" (AngleArgs [(ArgType (SPath (SegPath [] "Option" (AngleArgs [(ArgType (SFnPtr [((Some "count"),
  (SPath (SegPath [] "int32_t" NoArgs)))] true (Some (SPath (SegPath [] "int32_t" NoArgs)))))]))))]))))]; sg_variadic := false; sg_output
  := None |})].
(** tests/expectations/va_list.compat.c *)
Definition va_list_compat : string := "#include <stdarg.h>
#include <stdbool.h>
#include <stdint.h>
#include <stdlib.h>

typedef int32_t (*VaListFnPtr)(int32_t count, ...);

typedef int32_t (*VaListFnPtr2)(int32_t count, ...);

typedef struct {
  int32_t (*fn1)(int32_t count, ...);
} Interface_______i32_______i32_______va_list;

#ifdef __cplusplus
extern ""C"" {
#endif // __cplusplus

int32_t va_list_test(int32_t count, ...);

int32_t va_list_test2(int32_t count, ...);

void va_list_fn_ptrs(int32_t (*fn1)(int32_t count, ...),
                     int32_t (*fn2)(int32_t count, ...),
                     VaListFnPtr fn3,
                     VaListFnPtr2 fn4,
                     Interface_______i32_______i32_______va_list fn5,
                     Interface_______i32_______i32_______va_list fn6);

#ifdef __cplusplus
}  // extern ""C""
#endif  // __cplusplus
".
(** tests/expectations/va_list_tag.compat.c *)
Definition va_list_compat_tag : string := "#include <stdarg.h>
#include <stdbool.h>
#include <stdint.h>
#include <stdlib.h>

typedef int32_t (*VaListFnPtr)(int32_t count, ...);

typedef int32_t (*VaListFnPtr2)(int32_t count, ...);

struct Interface_______i32_______i32_______va_list {
  int32_t (*fn1)(int32_t count, ...);
};

#ifdef __cplusplus
extern ""C"" {
#endif // __cplusplus

int32_t va_list_test(int32_t count, ...);

int32_t va_list_test2(int32_t count, ...);

void va_list_fn_ptrs(int32_t (*fn1)(int32_t count, ...),
                     int32_t (*fn2)(int32_t count, ...),
                     VaListFnPtr fn3,
                     VaListFnPtr2 fn4,
                     struct Interface_______i32_______i32_______va_list fn5,
                     struct Interface_______i32_______i32_______va_list fn6);

#ifdef __cplusplus
}  // extern ""C""
#endif  // __cplusplus
".
(** tests/expectations/va_list_both.compat.c *)
Definition va_list_compat_both : string := "#include <stdarg.h>
#include <stdbool.h>
#include <stdint.h>
#include <stdlib.h>

typedef int32_t (*VaListFnPtr)(int32_t count, ...);

typedef int32_t (*VaListFnPtr2)(int32_t count, ...);

typedef struct Interface_______i32_______i32_______va_list {
  int32_t (*fn1)(int32_t count, ...);
} Interface_______i32_______i32_______va_list;

#ifdef __cplusplus
extern ""C"" {
#endif // __cplusplus

int32_t va_list_test(int32_t count, ...);

int32_t va_list_test2(int32_t count, ...);

void va_list_fn_ptrs(int32_t (*fn1)(int32_t count, ...),
                     int32_t (*fn2)(int32_t count, ...),
                     VaListFnPtr fn3,
                     VaListFnPtr2 fn4,
                     struct Interface_______i32_______i32_______va_list fn5,
                     struct Interface_______i32_______i32_______va_list fn6);

#ifdef __cplusplus
}  // extern ""C""
#endif  // __cplusplus
".
(** tests/expectations/va_list.c *)
Definition va_list_c : string := "#include <stdarg.h>
#include <stdbool.h>
#include <stdint.h>
#include <stdlib.h>

typedef int32_t (*VaListFnPtr)(int32_t count, ...);

typedef int32_t (*VaListFnPtr2)(int32_t count, ...);

typedef struct {
  int32_t (*fn1)(int32_t count, ...);
} Interface_______i32_______i32_______va_list;

int32_t va_list_test(int32_t count, ...);

int32_t va_list_test2(int32_t count, ...);

void va_list_fn_ptrs(int32_t (*fn1)(int32_t count, ...),
                     int32_t (*fn2)(int32_t count, ...),
                     VaListFnPtr fn3,
                     VaListFnPtr2 fn4,
                     Interface_______i32_______i32_______va_list fn5,
                     Interface_______i32_______i32_______va_list fn6);
".
(** tests/expectations/va_list_tag.c *)
Definition va_list_c_tag : string := "#include <stdarg.h>
#include <stdbool.h>
#include <stdint.h>
#include <stdlib.h>

typedef int32_t (*VaListFnPtr)(int32_t count, ...);

typedef int32_t (*VaListFnPtr2)(int32_t count, ...);

struct Interface_______i32_______i32_______va_list {
  int32_t (*fn1)(int32_t count, ...);
};

int32_t va_list_test(int32_t count, ...);

int32_t va_list_test2(int32_t count, ...);

void va_list_fn_ptrs(int32_t (*fn1)(int32_t count, ...),
                     int32_t (*fn2)(int32_t count, ...),
                     VaListFnPtr fn3,
                     VaListFnPtr2 fn4,
                     struct Interface_______i32_______i32_______va_list fn5,
                     struct Interface_______i32_______i32_______va_list fn6);
".
(** tests/expectations/va_list_both.c *)
Definition va_list_c_both : string := "#include <stdarg.h>
#include <stdbool.h>
#include <stdint.h>
#include <stdlib.h>

typedef int32_t (*VaListFnPtr)(int32_t count, ...);

typedef int32_t (*VaListFnPtr2)(int32_t count, ...);

typedef struct Interface_______i32_______i32_______va_list {
  int32_t (*fn1)(int32_t count, ...);
} Interface_______i32_______i32_______va_list;

int32_t va_list_test(int32_t count, ...);

int32_t va_list_test2(int32_t count, ...);

void va_list_fn_ptrs(int32_t (*fn1)(int32_t count, ...),
                     int32_t (*fn2)(int32_t count, ...),
                     VaListFnPtr fn3,
                     VaListFnPtr2 fn4,
                     struct Interface_______i32_______i32_______va_list fn5,
                     struct Interface_______i32_______i32_______va_list fn6);
".
(** tests/expectations/va_list.cpp *)
Definition va_list_cpp : string := "#include <cstdarg>
#include <cstdint>
#include <cstdlib>
#include <ostream>
#include <new>

using VaListFnPtr = int32_t(*)(int32_t count, ...);

using VaListFnPtr2 = int32_t(*)(int32_t count, ...);

template<typename T>
struct Interface {
  T fn1;
};

extern ""C"" {

int32_t va_list_test(int32_t count, ...);

int32_t va_list_test2(int32_t count, ...);

void va_list_fn_ptrs(int32_t (*fn1)(int32_t count, ...),
                     int32_t (*fn2)(int32_t count, ...),
                     VaListFnPtr fn3,
                     VaListFnPtr2 fn4,
                     Interface<int32_t(*)(int32_t count, ...)> fn5,
                     Interface<int32_t(*)(int32_t count, ...)> fn6);

}  // extern ""C""
".
(** tests/expectations/va_list.pyx *)
Definition va_list_pyx : string := "from libc.stdint cimport int8_t, int16_t, int32_t, int64_t, intptr_t
from libc.stdint cimport uint8_t, uint16_t, uint32_t, uint64_t, uintptr_t
cdef extern from *:
  ctypedef bint bool
  ctypedef struct va_list

cdef extern from *:

  ctypedef int32_t (*VaListFnPtr)(int32_t count, ...);

  ctypedef int32_t (*VaListFnPtr2)(int32_t count, ...);

  ctypedef struct Interface_______i32_______i32_______va_list:
    int32_t (*fn1)(int32_t count, ...);

  int32_t va_list_test(int32_t count, ...);

  int32_t va_list_test2(int32_t count, ...);

  void va_list_fn_ptrs(int32_t (*fn1)(int32_t count, ...),
                       int32_t (*fn2)(int32_t count, ...),
                       VaListFnPtr fn3,
                       VaListFnPtr2 fn4,
                       Interface_______i32_______i32_______va_list fn5,
                       Interface_______i32_______i32_______va_list fn6);
".
(** tests/expectations/va_list_tag.pyx *)
Definition va_list_pyx_tag : string := "from libc.stdint cimport int8_t, int16_t, int32_t, int64_t, intptr_t
from libc.stdint cimport uint8_t, uint16_t, uint32_t, uint64_t, uintptr_t
cdef extern from *:
  ctypedef bint bool
  ctypedef struct va_list

cdef extern from *:

  ctypedef int32_t (*VaListFnPtr)(int32_t count, ...);

  ctypedef int32_t (*VaListFnPtr2)(int32_t count, ...);

  cdef struct Interface_______i32_______i32_______va_list:
    int32_t (*fn1)(int32_t count, ...);

  int32_t va_list_test(int32_t count, ...);

  int32_t va_list_test2(int32_t count, ...);

  void va_list_fn_ptrs(int32_t (*fn1)(int32_t count, ...),
                       int32_t (*fn2)(int32_t count, ...),
                       VaListFnPtr fn3,
                       VaListFnPtr2 fn4,
                       Interface_______i32_______i32_______va_list fn5,
                       Interface_______i32_______i32_______va_list fn6);
".
Example va_list_reproduced : reproduces (in_file va_list_rs) false default_config (Some "{
va_list_test;
va_list_test2;
va_list_fn_ptrs;
};")
  [(RunC true Type_, [va_list_compat]);
   (RunC true Tag, [va_list_compat_tag]);
   (RunC true Both, [va_list_compat_both]);
   (RunC false Type_, [va_list_c]);
   (RunC false Tag, [va_list_c_tag]);
   (RunC false Both, [va_list_c_both]);
   (RunCxx, [va_list_cpp]);
   (RunCython Type_, [va_list_pyx]);
   (RunCython Tag, [va_list_pyx_tag])] = true.
Proof. vm_compute. reflexivity. Qed.

(** ** tests/rust/zst.rs *)
Definition zst_rs : list sitem := [
  (ItemStruct [{| at_meta := (AList (Some "repr") [(APath (Some "C"))]); at_outer := true |}] "TraitObject" [] (FieldsNamed [{| sf_attrs
  := []; sf_ident := (Some "data"); sf_ty := (SPtr true (STuple [])) |}; {| sf_attrs := []; sf_ident := (Some "vtable"); sf_ty :=
  (SPtr true (STuple [])) |}]));
  (ItemFn [{| at_meta := (APath (Some "no_mangle")); at_outer := true |}] true {| sg_ident := "root"; sg_abi := (Some (Some "C")); sg_inputs
  := [(FnTyped (PatIdent "ptr") (SPtr false (STuple []))); (FnTyped (PatIdent "t") (SPath (SegPath [] "TraitObject" NoArgs)))]; sg_variadic
  := false; sg_output := (Some (SPtr true (STuple []))) |})].
(** tests/expectations/zst.compat.c *)
Definition zst_compat : string := "#include <stdarg.h>
#include <stdbool.h>
#include <stdint.h>
#include <stdlib.h>

typedef struct {
  void *data;
  void *vtable;
} TraitObject;

#ifdef __cplusplus
extern ""C"" {
#endif // __cplusplus

void *root(const void *ptr, TraitObject t);

#ifdef __cplusplus
}  // extern ""C""
#endif  // __cplusplus
".
(** tests/expectations/zst_tag.compat.c *)
Definition zst_compat_tag : string := "#include <stdarg.h>
#include <stdbool.h>
#include <stdint.h>
#include <stdlib.h>

struct TraitObject {
  void *data;
  void *vtable;
};

#ifdef __cplusplus
extern ""C"" {
#endif // __cplusplus

void *root(const void *ptr, struct TraitObject t);

#ifdef __cplusplus
}  // extern ""C""
#endif  // __cplusplus
".
(** tests/expectations/zst_both.compat.c *)
Definition zst_compat_both : string := "#include <stdarg.h>
#include <stdbool.h>
#include <stdint.h>
#include <stdlib.h>

typedef struct TraitObject {
  void *data;
  void *vtable;
} TraitObject;

#ifdef __cplusplus
extern ""C"" {
#endif // __cplusplus

void *root(const void *ptr, struct TraitObject t);

#ifdef __cplusplus
}  // extern ""C""
#endif  // __cplusplus
".
(** tests/expectations/zst.c *)
Definition zst_c : string := "#include <stdarg.h>
#include <stdbool.h>
#include <stdint.h>
#include <stdlib.h>

typedef struct {
  void *data;
  void *vtable;
} TraitObject;

void *root(const void *ptr, TraitObject t);
".
(** tests/expectations/zst_tag.c *)
Definition zst_c_tag : string := "#include <stdarg.h>
#include <stdbool.h>
#include <stdint.h>
#include <stdlib.h>

struct TraitObject {
  void *data;
  void *vtable;
};

void *root(const void *ptr, struct TraitObject t);
".
(** tests/expectations/zst_both.c *)
Definition zst_c_both : string := "#include <stdarg.h>
#include <stdbool.h>
#include <stdint.h>
#include <stdlib.h>

typedef struct TraitObject {
  void *data;
  void *vtable;
} TraitObject;

void *root(const void *ptr, struct TraitObject t);
".
(** tests/expectations/zst.cpp *)
Definition zst_cpp : string := "#include <cstdarg>
#include <cstdint>
#include <cstdlib>
#include <ostream>
#include <new>

struct TraitObject {
  void *data;
  void *vtable;
};

extern ""C"" {

void *root(const void *ptr, TraitObject t);

}  // extern ""C""
".
(** tests/expectations/zst.pyx *)
Definition zst_pyx : string := "from libc.stdint cimport int8_t, int16_t, int32_t, int64_t, intptr_t
from libc.stdint cimport uint8_t, uint16_t, uint32_t, uint64_t, uintptr_t
cdef extern from *:
  ctypedef bint bool
  ctypedef struct va_list

cdef extern from *:

  ctypedef struct TraitObject:
    void *data;
    void *vtable;

  void *root(const void *ptr, TraitObject t);
".
(** tests/expectations/zst_tag.pyx *)
Definition zst_pyx_tag : string := "from libc.stdint cimport int8_t, int16_t, int32_t, int64_t, intptr_t
from libc.stdint cimport uint8_t, uint16_t, uint32_t, uint64_t, uintptr_t
cdef extern from *:
  ctypedef bint bool
  ctypedef struct va_list

cdef extern from *:

  cdef struct TraitObject:
    void *data;
    void *vtable;

  void *root(const void *ptr, TraitObject t);
".
Example zst_reproduced : reproduces (in_file zst_rs) false default_config (Some "{
root;
};")
  [(RunC true Type_, [zst_compat]);
   (RunC true Tag, [zst_compat_tag]);
   (RunC true Both, [zst_compat_both]);
   (RunC false Type_, [zst_c]);
   (RunC false Tag, [zst_c_tag]);
   (RunC false Both, [zst_c_both]);
   (RunCxx, [zst_cpp]);
   (RunCython Type_, [zst_pyx]);
   (RunCython Tag, [zst_pyx_tag])] = true.
Proof. vm_compute. reflexivity. Qed.

(** ** tests/rust/dep_v2 *)
Definition dep_v2_disk : list (cpath * list sitem) := [
  (["tests"; "rust"; "dep_v2"; "src"; "lib.rs"], [
    (ItemOther []);
    (ItemFn [{| at_meta := (APath (Some "no_mangle")); at_outer := true |}] true {| sg_ident := "get_x"; sg_abi := (Some (Some "C"));
  sg_inputs := [(FnTyped (PatIdent "dep_struct") (SPtr false (SPath (SegPath [] "dep_struct" NoArgs))))]; sg_variadic := false; sg_output
  := (Some (SPath (SegPath [] "u32" NoArgs))) |})]);
  (["tests"; "rust"; "dep_v2"; "dep"; "src"; "lib.rs"], [
    (ItemStruct [{| at_meta := (AList (Some "repr") [(APath (Some "C"))]); at_outer := true |}] "dep_struct" [] (FieldsNamed [{| sf_attrs
  := []; sf_ident := (Some "x"); sf_ty := (SPath (SegPath [] "u32" NoArgs)) |}; {| sf_attrs := []; sf_ident := (Some "y"); sf_ty :=
  (SPath (SegPath [] "f64" NoArgs)) |}]))])].
Definition dep_v2_cargo : Cargo := {| cg_manifest_path := "tests/rust/dep_v2/Cargo.toml"; cg_binding_crate_name := "dep-2"; cg_lock := (Some {| lk_root := None; lk_package
  := (Some [{| lp_name := "dep-2"; lp_version := "0.1.0"; lp_dependencies := (Some ["dep-2-dep"]) |}; {| lp_name := "dep-2-dep"; lp_version
  := "0.1.0"; lp_dependencies := None |}]) |}); cg_packages := [{| mp_ref := {| pk_name := "dep-2"; pk_version := Some "0.1.0" |};
  mp_dependencies := [("dep-2-dep", None)]; mp_targets := [(["lib"], ["tests"; "rust"; "dep_v2"; "src"; "lib.rs"])]; mp_manifest_path
  := "tests/rust/dep_v2/Cargo.toml" |}; {| mp_ref := {| pk_name := "dep-2-dep"; pk_version := Some "0.1.0" |}; mp_dependencies :=
  []; mp_targets := [(["lib"], ["tests"; "rust"; "dep_v2"; "dep"; "src"; "lib.rs"])]; mp_manifest_path := "tests/rust/dep_v2/dep/Cargo.toml"
  |}]; cg_expand := fun _ => None |}.
Definition dep_v2_toml : Config := {| header := None; includes_ := []; sys_includes_ := []; after_includes := None; trailer := None;
  include_guard_ := None; pragma_once := false; no_includes := false; package_version := false; autogen_warning := None; include_version := false;
  namespace := None; namespaces := None; using_namespaces := None; braces := SameLine; line_length := 100; tab_width := 2; line_endings := LF;
  language := Cxx; cpp_compat := false; style := Both; sort_by := SortNone; usize_is_size_t := false; parse := {| pa_parse_deps := true; pa_include := (Some ["dep-2-dep"]); pa_exclude := []; pa_expand_crates := []; pa_extra_bindings := [] |}; export := {| ex_include := []; ex_exclude := []; ex_rename := []; ex_pre_body := []; ex_body := []; ex_prefix := None; ex_item_types := []; ex_renaming_overrides_prefixing := false; ex_mangle := {| rename_types := RNone; remove_underscores := false |} |};
  layout := {| ly_packed := None; ly_aligned_n := None |}; function := {| fn_prefix := None; fn_postfix := None; fn_must_use := None; fn_deprecated := None; fn_deprecated_with_note := None; fn_args := Auto; fn_rename_args := RNone; fn_swift_name_macro := None; fn_sort_by := None; fn_no_return := None |}; structure := {| st_rename_fields := RNone; st_derive_constructor := false; st_derive_eq := false; st_derive_neq := false; st_derive_lt := false; st_derive_lte := false; st_derive_gt := false; st_derive_gte := false; st_derive_ostream := false; st_associated_constants_in_body := false; st_rename_associated_constant := RNone; st_must_use := None; st_deprecated := None; st_deprecated_with_note := None |}; enumeration := {| en_rename_variants := RNone; en_rename_variant_name_fields := SnakeCase; en_add_sentinel := false; en_prefix_with_name := false; en_derive_helper_methods := false; en_derive_const_casts := false; en_derive_mut_casts := false; en_cast_assert_name := None; en_must_use := None; en_deprecated := None; en_deprecated_with_note := None; en_deprecated_variant := None; en_deprecated_variant_with_note := None; en_derive_tagged_enum_destructor := false; en_derive_tagged_enum_copy_constructor := false; en_derive_tagged_enum_copy_assignment := false; en_derive_ostream := false; en_enum_class := true; en_private_default_tagged_enum_constructor := false |}; constant := {| co_allow_static_const := true; co_allow_constexpr := true; co_sort_by := None |}; defines := []; documentation := true;
  documentation_style := DocAuto; documentation_length := Full; pointer := {| pt_non_null_attribute := None; pt_nullable_attribute := None |}; cython := {| cy_header := None; cy_cimports := [] |}; config_path := None |}.
(** tests/expectations/dep_v2.compat.c *)
Definition dep_v2_compat : string := "#include <stdarg.h>
#include <stdbool.h>
#include <stdint.h>
#include <stdlib.h>

typedef struct {
  uint32_t x;
  double y;
} dep_struct;

#ifdef __cplusplus
extern ""C"" {
#endif // __cplusplus

uint32_t get_x(const dep_struct *dep_struct);

#ifdef __cplusplus
}  // extern ""C""
#endif  // __cplusplus
".
(** tests/expectations/dep_v2_tag.compat.c *)
Definition dep_v2_compat_tag : string := "#include <stdarg.h>
#include <stdbool.h>
#include <stdint.h>
#include <stdlib.h>

struct dep_struct {
  uint32_t x;
  double y;
};

#ifdef __cplusplus
extern ""C"" {
#endif // __cplusplus

uint32_t get_x(const struct dep_struct *dep_struct);

#ifdef __cplusplus
}  // extern ""C""
#endif  // __cplusplus
".
(** tests/expectations/dep_v2_both.compat.c *)
Definition dep_v2_compat_both : string := "#include <stdarg.h>
#include <stdbool.h>
#include <stdint.h>
#include <stdlib.h>

typedef struct dep_struct {
  uint32_t x;
  double y;
} dep_struct;

#ifdef __cplusplus
extern ""C"" {
#endif // __cplusplus

uint32_t get_x(const struct dep_struct *dep_struct);

#ifdef __cplusplus
}  // extern ""C""
#endif  // __cplusplus
".
(** tests/expectations/dep_v2.c *)
Definition dep_v2_c : string := "#include <stdarg.h>
#include <stdbool.h>
#include <stdint.h>
#include <stdlib.h>

typedef struct {
  uint32_t x;
  double y;
} dep_struct;

uint32_t get_x(const dep_struct *dep_struct);
".
(** tests/expectations/dep_v2_tag.c *)
Definition dep_v2_c_tag : string := "#include <stdarg.h>
#include <stdbool.h>
#include <stdint.h>
#include <stdlib.h>

struct dep_struct {
  uint32_t x;
  double y;
};

uint32_t get_x(const struct dep_struct *dep_struct);
".
(** tests/expectations/dep_v2_both.c *)
Definition dep_v2_c_both : string := "#include <stdarg.h>
#include <stdbool.h>
#include <stdint.h>
#include <stdlib.h>

typedef struct dep_struct {
  uint32_t x;
  double y;
} dep_struct;

uint32_t get_x(const struct dep_struct *dep_struct);
".
(** tests/expectations/dep_v2.cpp *)
Definition dep_v2_cpp : string := "#include <cstdarg>
#include <cstdint>
#include <cstdlib>
#include <ostream>
#include <new>

struct dep_struct {
  uint32_t x;
  double y;
};

extern ""C"" {

uint32_t get_x(const dep_struct *dep_struct);

}  // extern ""C""
".
(** tests/expectations/dep_v2.pyx *)
Definition dep_v2_pyx : string := "from libc.stdint cimport int8_t, int16_t, int32_t, int64_t, intptr_t
from libc.stdint cimport uint8_t, uint16_t, uint32_t, uint64_t, uintptr_t
cdef extern from *:
  ctypedef bint bool
  ctypedef struct va_list

cdef extern from *:

  ctypedef struct dep_struct:
    uint32_t x;
    double y;

  uint32_t get_x(const dep_struct *dep_struct);
".
(** tests/expectations/dep_v2_tag.pyx *)
Definition dep_v2_pyx_tag : string := "from libc.stdint cimport int8_t, int16_t, int32_t, int64_t, intptr_t
from libc.stdint cimport uint8_t, uint16_t, uint32_t, uint64_t, uintptr_t
cdef extern from *:
  ctypedef bint bool
  ctypedef struct va_list

cdef extern from *:

  cdef struct dep_struct:
    uint32_t x;
    double y;

  uint32_t get_x(const dep_struct *dep_struct);
".
Example dep_v2_reproduced : reproduces (in_crate dep_v2_disk dep_v2_cargo) false dep_v2_toml (Some "{
get_x;
};")
  [(RunC true Type_, [dep_v2_compat]);
   (RunC true Tag, [dep_v2_compat_tag]);
   (RunC true Both, [dep_v2_compat_both]);
   (RunC false Type_, [dep_v2_c]);
   (RunC false Tag, [dep_v2_c_tag]);
   (RunC false Both, [dep_v2_c_both]);
   (RunCxx, [dep_v2_cpp]);
   (RunCython Type_, [dep_v2_pyx]);
   (RunCython Tag, [dep_v2_pyx_tag])] = true.
Proof. vm_compute. reflexivity. Qed.

(** ** tests/rust/derive_eq *)
Definition derive_eq_disk : list (cpath * list sitem) := [
  (["tests"; "rust"; "derive_eq"; "src"; "lib.rs"], [
    (ItemStruct [{| at_meta := (AList (Some "repr") [(APath (Some "C"))]); at_outer := true |}] "Foo" [] (FieldsNamed [{| sf_attrs :=
  []; sf_ident := (Some "a"); sf_ty := (SPath (SegPath [] "bool" NoArgs)) |}; {| sf_attrs := []; sf_ident := (Some "b"); sf_ty :=
  (SPath (SegPath [] "i32" NoArgs)) |}]));
    (ItemEnum [{| at_meta := (AList (Some "repr") [(APath (Some "u8"))]); at_outer := true |}] "Bar" [] [{| sv_attrs := []; sv_ident :=
  "Baz"; sv_fields := FieldsUnit; sv_discriminant := None |}; {| sv_attrs := []; sv_ident := "Bazz"; sv_fields := (FieldsNamed [{|
  sf_attrs := []; sf_ident := (Some "named"); sf_ty := (SPath (SegPath [] "Foo" NoArgs)) |}]); sv_discriminant := None |}; {| sv_attrs
  := []; sv_ident := "FooNamed"; sv_fields := (FieldsNamed [{| sf_attrs := []; sf_ident := (Some "different"); sf_ty := (SPath (SegPath
  [] "i32" NoArgs)) |}; {| sf_attrs := []; sf_ident := (Some "fields"); sf_ty := (SPath (SegPath [] "u32" NoArgs)) |}]); sv_discriminant
  := None |}; {| sv_attrs := []; sv_ident := "FooParen"; sv_fields := (FieldsUnnamed [{| sf_attrs := []; sf_ident := None; sf_ty :=
  (SPath (SegPath [] "i32" NoArgs)) |}; {| sf_attrs := []; sf_ident := None; sf_ty := (SPath (SegPath [] "Foo" NoArgs)) |}]); sv_discriminant
  := None |}]);
    (ItemFn [{| at_meta := (APath (Some "no_mangle")); at_outer := true |}] true {| sg_ident := "root"; sg_abi := (Some (Some "C")); sg_inputs
  := [(FnTyped (PatIdent "bar") (SPath (SegPath [] "Bar" NoArgs)))]; sg_variadic := false; sg_output := (Some (SPath (SegPath [] "Foo"
  NoArgs))) |})])].
Definition derive_eq_cargo : Cargo := {| cg_manifest_path := "tests/rust/derive_eq/Cargo.toml"; cg_binding_crate_name := "derive-eq"; cg_lock := (Some {| lk_root := None;
  lk_package := (Some [{| lp_name := "derive-eq"; lp_version := "0.1.0"; lp_dependencies := None |}]) |}); cg_packages := [{| mp_ref
  := {| pk_name := "derive-eq"; pk_version := Some "0.1.0" |}; mp_dependencies := []; mp_targets := [(["lib"], ["tests"; "rust"; "derive_eq";
  "src"; "lib.rs"])]; mp_manifest_path := "tests/rust/derive_eq/Cargo.toml" |}]; cg_expand := fun _ => None |}.
Definition derive_eq_toml : Config := {| header := None; includes_ := []; sys_includes_ := []; after_includes := None; trailer := None;
  include_guard_ := None; pragma_once := false; no_includes := false; package_version := false; autogen_warning := None; include_version := false;
  namespace := None; namespaces := None; using_namespaces := None; braces := SameLine; line_length := 100; tab_width := 2; line_endings := LF;
  language := Cxx; cpp_compat := false; style := Both; sort_by := SortNone; usize_is_size_t := false; parse := default_parse; export := {| ex_include := []; ex_exclude := []; ex_rename := []; ex_pre_body := []; ex_body := []; ex_prefix := None; ex_item_types := []; ex_renaming_overrides_prefixing := false; ex_mangle := {| rename_types := RNone; remove_underscores := false |} |};
  layout := {| ly_packed := None; ly_aligned_n := None |}; function := {| fn_prefix := None; fn_postfix := None; fn_must_use := None; fn_deprecated := None; fn_deprecated_with_note := None; fn_args := Auto; fn_rename_args := GeckoCase; fn_swift_name_macro := None; fn_sort_by := None; fn_no_return := None |}; structure := {| st_rename_fields := RNone; st_derive_constructor := false; st_derive_eq := true; st_derive_neq := true; st_derive_lt := false; st_derive_lte := false; st_derive_gt := false; st_derive_gte := false; st_derive_ostream := false; st_associated_constants_in_body := false; st_rename_associated_constant := RNone; st_must_use := None; st_deprecated := None; st_deprecated_with_note := None |}; enumeration := {| en_rename_variants := RNone; en_rename_variant_name_fields := SnakeCase; en_add_sentinel := false; en_prefix_with_name := false; en_derive_helper_methods := false; en_derive_const_casts := false; en_derive_mut_casts := false; en_cast_assert_name := None; en_must_use := None; en_deprecated := None; en_deprecated_with_note := None; en_deprecated_variant := None; en_deprecated_variant_with_note := None; en_derive_tagged_enum_destructor := false; en_derive_tagged_enum_copy_constructor := false; en_derive_tagged_enum_copy_assignment := false; en_derive_ostream := false; en_enum_class := true; en_private_default_tagged_enum_constructor := false |}; constant := {| co_allow_static_const := true; co_allow_constexpr := true; co_sort_by := None |}; defines := []; documentation := true;
  documentation_style := DocAuto; documentation_length := Full; pointer := {| pt_non_null_attribute := None; pt_nullable_attribute := None |}; cython := {| cy_header := None; cy_cimports := [] |}; config_path := None |}.
(** tests/expectations/derive_eq.compat.c *)
Definition derive_eq_compat : string := "#include <stdarg.h>
#include <stdbool.h>
#include <stdint.h>
#include <stdlib.h>

typedef struct {
  bool a;
  int32_t b;
} Foo;

enum Bar_Tag
#if defined(__cplusplus) || __STDC_VERSION__ >= 202311L
  : uint8_t
#endif // defined(__cplusplus) || __STDC_VERSION__ >= 202311L
 {
  Baz,
  Bazz,
  FooNamed,
  FooParen,
};
#ifndef __cplusplus
#if __STDC_VERSION__ >= 202311L
typedef enum Bar_Tag Bar_Tag;
#else
typedef uint8_t Bar_Tag;
#endif // __STDC_VERSION__ >= 202311L
#endif // __cplusplus

typedef struct {
  Bar_Tag tag;
  Foo named;
} Bazz_Body;

typedef struct {
  Bar_Tag tag;
  int32_t different;
  uint32_t fields;
} FooNamed_Body;

typedef struct {
  Bar_Tag tag;
  int32_t _0;
  Foo _1;
} FooParen_Body;

typedef union {
  Bar_Tag tag;
  Bazz_Body bazz;
  FooNamed_Body foo_named;
  FooParen_Body foo_paren;
} Bar;

#ifdef __cplusplus
extern ""C"" {
#endif // __cplusplus

Foo root(Bar aBar);

#ifdef __cplusplus
}  // extern ""C""
#endif  // __cplusplus
".
(** tests/expectations/derive_eq_tag.compat.c *)
Definition derive_eq_compat_tag : string := "#include <stdarg.h>
#include <stdbool.h>
#include <stdint.h>
#include <stdlib.h>

struct Foo {
  bool a;
  int32_t b;
};

enum Bar_Tag
#if defined(__cplusplus) || __STDC_VERSION__ >= 202311L
  : uint8_t
#endif // defined(__cplusplus) || __STDC_VERSION__ >= 202311L
 {
  Baz,
  Bazz,
  FooNamed,
  FooParen,
};
#ifndef __cplusplus
#if __STDC_VERSION__ >= 202311L
typedef enum Bar_Tag Bar_Tag;
#else
typedef uint8_t Bar_Tag;
#endif // __STDC_VERSION__ >= 202311L
#endif // __cplusplus

struct Bazz_Body {
  Bar_Tag tag;
  struct Foo named;
};

struct FooNamed_Body {
  Bar_Tag tag;
  int32_t different;
  uint32_t fields;
};

struct FooParen_Body {
  Bar_Tag tag;
  int32_t _0;
  struct Foo _1;
};

union Bar {
  Bar_Tag tag;
  struct Bazz_Body bazz;
  struct FooNamed_Body foo_named;
  struct FooParen_Body foo_paren;
};

#ifdef __cplusplus
extern ""C"" {
#endif // __cplusplus

struct Foo root(union Bar aBar);

#ifdef __cplusplus
}  // extern ""C""
#endif  // __cplusplus
".
(** tests/expectations/derive_eq_both.compat.c *)
Definition derive_eq_compat_both : string := "#include <stdarg.h>
#include <stdbool.h>
#include <stdint.h>
#include <stdlib.h>

typedef struct Foo {
  bool a;
  int32_t b;
} Foo;

enum Bar_Tag
#if defined(__cplusplus) || __STDC_VERSION__ >= 202311L
  : uint8_t
#endif // defined(__cplusplus) || __STDC_VERSION__ >= 202311L
 {
  Baz,
  Bazz,
  FooNamed,
  FooParen,
};
#ifndef __cplusplus
#if __STDC_VERSION__ >= 202311L
typedef enum Bar_Tag Bar_Tag;
#else
typedef uint8_t Bar_Tag;
#endif // __STDC_VERSION__ >= 202311L
#endif // __cplusplus

typedef struct Bazz_Body {
  Bar_Tag tag;
  struct Foo named;
} Bazz_Body;

typedef struct FooNamed_Body {
  Bar_Tag tag;
  int32_t different;
  uint32_t fields;
} FooNamed_Body;

typedef struct FooParen_Body {
  Bar_Tag tag;
  int32_t _0;
  struct Foo _1;
} FooParen_Body;

typedef union Bar {
  Bar_Tag tag;
  Bazz_Body bazz;
  FooNamed_Body foo_named;
  FooParen_Body foo_paren;
} Bar;

#ifdef __cplusplus
extern ""C"" {
#endif // __cplusplus

struct Foo root(union Bar aBar);

#ifdef __cplusplus
}  // extern ""C""
#endif  // __cplusplus
".
(** tests/expectations/derive_eq.c *)
Definition derive_eq_c : string := "#include <stdarg.h>
#include <stdbool.h>
#include <stdint.h>
#include <stdlib.h>

typedef struct {
  bool a;
  int32_t b;
} Foo;

enum Bar_Tag
#if __STDC_VERSION__ >= 202311L
  : uint8_t
#endif // __STDC_VERSION__ >= 202311L
 {
  Baz,
  Bazz,
  FooNamed,
  FooParen,
};
#if __STDC_VERSION__ >= 202311L
typedef enum Bar_Tag Bar_Tag;
#else
typedef uint8_t Bar_Tag;
#endif // __STDC_VERSION__ >= 202311L

typedef struct {
  Bar_Tag tag;
  Foo named;
} Bazz_Body;

typedef struct {
  Bar_Tag tag;
  int32_t different;
  uint32_t fields;
} FooNamed_Body;

typedef struct {
  Bar_Tag tag;
  int32_t _0;
  Foo _1;
} FooParen_Body;

typedef union {
  Bar_Tag tag;
  Bazz_Body bazz;
  FooNamed_Body foo_named;
  FooParen_Body foo_paren;
} Bar;

Foo root(Bar aBar);
".
(** tests/expectations/derive_eq_tag.c *)
Definition derive_eq_c_tag : string := "#include <stdarg.h>
#include <stdbool.h>
#include <stdint.h>
#include <stdlib.h>

struct Foo {
  bool a;
  int32_t b;
};

enum Bar_Tag
#if __STDC_VERSION__ >= 202311L
  : uint8_t
#endif // __STDC_VERSION__ >= 202311L
 {
  Baz,
  Bazz,
  FooNamed,
  FooParen,
};
#if __STDC_VERSION__ >= 202311L
typedef enum Bar_Tag Bar_Tag;
#else
typedef uint8_t Bar_Tag;
#endif // __STDC_VERSION__ >= 202311L

struct Bazz_Body {
  Bar_Tag tag;
  struct Foo named;
};

struct FooNamed_Body {
  Bar_Tag tag;
  int32_t different;
  uint32_t fields;
};

struct FooParen_Body {
  Bar_Tag tag;
  int32_t _0;
  struct Foo _1;
};

union Bar {
  Bar_Tag tag;
  struct Bazz_Body bazz;
  struct FooNamed_Body foo_named;
  struct FooParen_Body foo_paren;
};

struct Foo root(union Bar aBar);
".
(** tests/expectations/derive_eq_both.c *)
Definition derive_eq_c_both : string := "#include <stdarg.h>
#include <stdbool.h>
#include <stdint.h>
#include <stdlib.h>

typedef struct Foo {
  bool a;
  int32_t b;
} Foo;

enum Bar_Tag
#if __STDC_VERSION__ >= 202311L
  : uint8_t
#endif // __STDC_VERSION__ >= 202311L
 {
  Baz,
  Bazz,
  FooNamed,
  FooParen,
};
#if __STDC_VERSION__ >= 202311L
typedef enum Bar_Tag Bar_Tag;
#else
typedef uint8_t Bar_Tag;
#endif // __STDC_VERSION__ >= 202311L

typedef struct Bazz_Body {
  Bar_Tag tag;
  struct Foo named;
} Bazz_Body;

typedef struct FooNamed_Body {
  Bar_Tag tag;
  int32_t different;
  uint32_t fields;
} FooNamed_Body;

typedef struct FooParen_Body {
  Bar_Tag tag;
  int32_t _0;
  struct Foo _1;
} FooParen_Body;

typedef union Bar {
  Bar_Tag tag;
  Bazz_Body bazz;
  FooNamed_Body foo_named;
  FooParen_Body foo_paren;
} Bar;

struct Foo root(union Bar aBar);
".
(** tests/expectations/derive_eq.cpp *)
Definition derive_eq_cpp : string := "#include <cstdarg>
#include <cstdint>
#include <cstdlib>
#include <ostream>
#include <new>

struct Foo {
  bool a;
  int32_t b;

  bool operator==(const Foo& aOther) const {
    return a == aOther.a &&
           b == aOther.b;
  }
  bool operator!=(const Foo& aOther) const {
    return a != aOther.a ||
           b != aOther.b;
  }
};

union Bar {
  enum class Tag : uint8_t {
    Baz,
    Bazz,
    FooNamed,
    FooParen,
  };

  struct Bazz_Body {
    Tag tag;
    Foo named;

    bool operator==(const Bazz_Body& aOther) const {
      return named == aOther.named;
    }
    bool operator!=(const Bazz_Body& aOther) const {
      return named != aOther.named;
    }
  };

  struct FooNamed_Body {
    Tag tag;
    int32_t different;
    uint32_t fields;

    bool operator==(const FooNamed_Body& aOther) const {
      return different == aOther.different &&
             fields == aOther.fields;
    }
    bool operator!=(const FooNamed_Body& aOther) const {
      return different != aOther.different ||
             fields != aOther.fields;
    }
  };

  struct FooParen_Body {
    Tag tag;
    int32_t _0;
    Foo _1;

    bool operator==(const FooParen_Body& aOther) const {
      return _0 == aOther._0 &&
             _1 == aOther._1;
    }
    bool operator!=(const FooParen_Body& aOther) const {
      return _0 != aOther._0 ||
             _1 != aOther._1;
    }
  };

  struct {
    Tag tag;
  };
  Bazz_Body bazz;
  FooNamed_Body foo_named;
  FooParen_Body foo_paren;

  bool operator==(const Bar& aOther) const {
    if (tag != aOther.tag) {
      return false;
    }
    switch (tag) {
      case Tag::Bazz: return bazz == aOther.bazz;
      case Tag::FooNamed: return foo_named == aOther.foo_named;
      case Tag::FooParen: return foo_paren == aOther.foo_paren;
      default: break;
    }
    return true;
  }

  bool operator!=(const Bar& aOther) const {
    return !(*this == aOther);
  }
};

extern ""C"" {

Foo root(Bar aBar);

}  // extern ""C""
".
(** tests/expectations/derive_eq.pyx *)
Definition derive_eq_pyx : string := "from libc.stdint cimport int8_t, int16_t, int32_t, int64_t, intptr_t
from libc.stdint cimport uint8_t, uint16_t, uint32_t, uint64_t, uintptr_t
cdef extern from *:
  ctypedef bint bool
  ctypedef struct va_list

cdef extern from *:

  ctypedef struct Foo:
    bool a;
    int32_t b;

  cdef enum:
    Baz,
    Bazz,
    FooNamed,
    FooParen,
  ctypedef uint8_t Bar_Tag;

  ctypedef struct Bazz_Body:
    Bar_Tag tag;
    Foo named;

  ctypedef struct FooNamed_Body:
    Bar_Tag tag;
    int32_t different;
    uint32_t fields;

  ctypedef struct FooParen_Body:
    Bar_Tag tag;
    int32_t _0;
    Foo _1;

  ctypedef union Bar:
    Bar_Tag tag;
    Bazz_Body bazz;
    FooNamed_Body foo_named;
    FooParen_Body foo_paren;

  Foo root(Bar aBar);
".
(** tests/expectations/derive_eq_tag.pyx *)
Definition derive_eq_pyx_tag : string := "from libc.stdint cimport int8_t, int16_t, int32_t, int64_t, intptr_t
from libc.stdint cimport uint8_t, uint16_t, uint32_t, uint64_t, uintptr_t
cdef extern from *:
  ctypedef bint bool
  ctypedef struct va_list

cdef extern from *:

  cdef struct Foo:
    bool a;
    int32_t b;

  cdef enum:
    Baz,
    Bazz,
    FooNamed,
    FooParen,
  ctypedef uint8_t Bar_Tag;

  cdef struct Bazz_Body:
    Bar_Tag tag;
    Foo named;

  cdef struct FooNamed_Body:
    Bar_Tag tag;
    int32_t different;
    uint32_t fields;

  cdef struct FooParen_Body:
    Bar_Tag tag;
    int32_t _0;
    Foo _1;

  cdef union Bar:
    Bar_Tag tag;
    Bazz_Body bazz;
    FooNamed_Body foo_named;
    FooParen_Body foo_paren;

  Foo root(Bar aBar);
".
Example derive_eq_reproduced : reproduces (in_crate derive_eq_disk derive_eq_cargo) false derive_eq_toml (Some "{
root;
};")
  [(RunC true Type_, [derive_eq_compat]);
   (RunC true Tag, [derive_eq_compat_tag]);
   (RunC true Both, [derive_eq_compat_both]);
   (RunC false Type_, [derive_eq_c]);
   (RunC false Tag, [derive_eq_c_tag]);
   (RunC false Both, [derive_eq_c_both]);
   (RunCxx, [derive_eq_cpp]);
   (RunCython Type_, [derive_eq_pyx]);
   (RunCython Tag, [derive_eq_pyx_tag])] = true.
Proof. vm_compute. reflexivity. Qed.

(** ** tests/rust/external_workspace_child *)
Definition external_workspace_child_disk : list (cpath * list sitem) := [
  (["tests"; "rust"; "external_workspace_child"; "src"; "lib.rs"], [
    (ItemOther []);
    (ItemFn [{| at_meta := (APath (Some "no_mangle")); at_outer := true |}] true {| sg_ident := "consume_ext"; sg_abi := (Some (Some "C"));
  sg_inputs := [(FnTyped (PatIdent "_ext") (SPath (SegPath ["dep"] "ExtType" NoArgs)))]; sg_variadic := false; sg_output := None |})]);
  (["tests"; "rust"; "workspace"; "dep"; "src"; "lib.rs"], [
    (ItemStruct [{| at_meta := (AList (Some "repr") [(APath (Some "C"))]); at_outer := true |}] "ExtType" [] (FieldsNamed [{| sf_attrs
  := []; sf_ident := (Some "data"); sf_ty := (SPath (SegPath [] "u32" NoArgs)) |}]));
    (ItemConst [] true "EXT_CONST" (SPath (SegPath [] "i32" NoArgs)) (XLit (LitInt 0 "")))])].
Definition external_workspace_child_cargo : Cargo := {| cg_manifest_path := "tests/rust/external_workspace_child/Cargo.toml"; cg_binding_crate_name := "child"; cg_lock := (Some {| lk_root
  := None; lk_package := (Some [{| lp_name := "child"; lp_version := "0.1.0"; lp_dependencies := (Some ["workspace-dep"]) |}; {| lp_name
  := "workspace"; lp_version := "0.1.0"; lp_dependencies := (Some ["workspace-dep"]) |}; {| lp_name := "workspace-dep"; lp_version
  := "0.1.0"; lp_dependencies := None |}]) |}); cg_packages := [{| mp_ref := {| pk_name := "child"; pk_version := Some "0.1.0" |};
  mp_dependencies := [("workspace-dep", None)]; mp_targets := [(["lib"], ["tests"; "rust"; "external_workspace_child"; "src"; "lib.rs"])];
  mp_manifest_path := "tests/rust/external_workspace_child/Cargo.toml" |}; {| mp_ref := {| pk_name := "workspace-dep"; pk_version
  := Some "0.1.0" |}; mp_dependencies := []; mp_targets := [(["lib"], ["tests"; "rust"; "workspace"; "dep"; "src"; "lib.rs"])]; mp_manifest_path
  := "tests/rust/workspace/dep/Cargo.toml" |}]; cg_expand := fun _ => None |}.
Definition external_workspace_child_toml : Config := {| header := None; includes_ := []; sys_includes_ := []; after_includes := None; trailer := None;
  include_guard_ := None; pragma_once := false; no_includes := false; package_version := false; autogen_warning := None; include_version := false;
  namespace := None; namespaces := None; using_namespaces := None; braces := SameLine; line_length := 100; tab_width := 2; line_endings := LF;
  language := Cxx; cpp_compat := false; style := Both; sort_by := SortNone; usize_is_size_t := false; parse := {| pa_parse_deps := true; pa_include := None; pa_exclude := []; pa_expand_crates := []; pa_extra_bindings := [] |}; export := {| ex_include := []; ex_exclude := []; ex_rename := []; ex_pre_body := []; ex_body := []; ex_prefix := None; ex_item_types := []; ex_renaming_overrides_prefixing := false; ex_mangle := {| rename_types := RNone; remove_underscores := false |} |};
  layout := {| ly_packed := None; ly_aligned_n := None |}; function := {| fn_prefix := None; fn_postfix := None; fn_must_use := None; fn_deprecated := None; fn_deprecated_with_note := None; fn_args := Auto; fn_rename_args := RNone; fn_swift_name_macro := None; fn_sort_by := None; fn_no_return := None |}; structure := {| st_rename_fields := RNone; st_derive_constructor := false; st_derive_eq := false; st_derive_neq := false; st_derive_lt := false; st_derive_lte := false; st_derive_gt := false; st_derive_gte := false; st_derive_ostream := false; st_associated_constants_in_body := false; st_rename_associated_constant := RNone; st_must_use := None; st_deprecated := None; st_deprecated_with_note := None |}; enumeration := {| en_rename_variants := RNone; en_rename_variant_name_fields := SnakeCase; en_add_sentinel := false; en_prefix_with_name := false; en_derive_helper_methods := false; en_derive_const_casts := false; en_derive_mut_casts := false; en_cast_assert_name := None; en_must_use := None; en_deprecated := None; en_deprecated_with_note := None; en_deprecated_variant := None; en_deprecated_variant_with_note := None; en_derive_tagged_enum_destructor := false; en_derive_tagged_enum_copy_constructor := false; en_derive_tagged_enum_copy_assignment := false; en_derive_ostream := false; en_enum_class := true; en_private_default_tagged_enum_constructor := false |}; constant := {| co_allow_static_const := true; co_allow_constexpr := true; co_sort_by := None |}; defines := []; documentation := true;
  documentation_style := DocAuto; documentation_length := Full; pointer := {| pt_non_null_attribute := None; pt_nullable_attribute := None |}; cython := {| cy_header := None; cy_cimports := [] |}; config_path := None |}.
(** tests/expectations/external_workspace_child.compat.c *)
Definition external_workspace_child_compat : string := "#include <stdarg.h>
#include <stdbool.h>
#include <stdint.h>
#include <stdlib.h>

typedef struct {
  uint32_t data;
} ExtType;

#ifdef __cplusplus
extern ""C"" {
#endif // __cplusplus

void consume_ext(ExtType _ext);

#ifdef __cplusplus
}  // extern ""C""
#endif  // __cplusplus
".
(** tests/expectations/external_workspace_child_tag.compat.c *)
Definition external_workspace_child_compat_tag : string := "#include <stdarg.h>
#include <stdbool.h>
#include <stdint.h>
#include <stdlib.h>

struct ExtType {
  uint32_t data;
};

#ifdef __cplusplus
extern ""C"" {
#endif // __cplusplus

void consume_ext(struct ExtType _ext);

#ifdef __cplusplus
}  // extern ""C""
#endif  // __cplusplus
".
(** tests/expectations/external_workspace_child_both.compat.c *)
Definition external_workspace_child_compat_both : string := "#include <stdarg.h>
#include <stdbool.h>
#include <stdint.h>
#include <stdlib.h>

typedef struct ExtType {
  uint32_t data;
} ExtType;

#ifdef __cplusplus
extern ""C"" {
#endif // __cplusplus

void consume_ext(struct ExtType _ext);

#ifdef __cplusplus
}  // extern ""C""
#endif  // __cplusplus
".
(** tests/expectations/external_workspace_child.c *)
Definition external_workspace_child_c : string := "#include <stdarg.h>
#include <stdbool.h>
#include <stdint.h>
#include <stdlib.h>

typedef struct {
  uint32_t data;
} ExtType;

void consume_ext(ExtType _ext);
".
(** tests/expectations/external_workspace_child_tag.c *)
Definition external_workspace_child_c_tag : string := "#include <stdarg.h>
#include <stdbool.h>
#include <stdint.h>
#include <stdlib.h>

struct ExtType {
  uint32_t data;
};

void consume_ext(struct ExtType _ext);
".
(** tests/expectations/external_workspace_child_both.c *)
Definition external_workspace_child_c_both : string := "#include <stdarg.h>
#include <stdbool.h>
#include <stdint.h>
#include <stdlib.h>

typedef struct ExtType {
  uint32_t data;
} ExtType;

void consume_ext(struct ExtType _ext);
".
(** tests/expectations/external_workspace_child.cpp *)
Definition external_workspace_child_cpp : string := "#include <cstdarg>
#include <cstdint>
#include <cstdlib>
#include <ostream>
#include <new>

struct ExtType {
  uint32_t data;
};

extern ""C"" {

void consume_ext(ExtType _ext);

}  // extern ""C""
".
(** tests/expectations/external_workspace_child.pyx *)
Definition external_workspace_child_pyx : string := "from libc.stdint cimport int8_t, int16_t, int32_t, int64_t, intptr_t
from libc.stdint cimport uint8_t, uint16_t, uint32_t, uint64_t, uintptr_t
cdef extern from *:
  ctypedef bint bool
  ctypedef struct va_list

cdef extern from *:

  ctypedef struct ExtType:
    uint32_t data;

  void consume_ext(ExtType _ext);
".
(** tests/expectations/external_workspace_child_tag.pyx *)
Definition external_workspace_child_pyx_tag : string := "from libc.stdint cimport int8_t, int16_t, int32_t, int64_t, intptr_t
from libc.stdint cimport uint8_t, uint16_t, uint32_t, uint64_t, uintptr_t
cdef extern from *:
  ctypedef bint bool
  ctypedef struct va_list

cdef extern from *:

  cdef struct ExtType:
    uint32_t data;

  void consume_ext(ExtType _ext);
".
Example external_workspace_child_reproduced : reproduces (in_crate external_workspace_child_disk external_workspace_child_cargo) false external_workspace_child_toml (Some "{
consume_ext;
};")
  [(RunC true Type_, [external_workspace_child_compat]);
   (RunC true Tag, [external_workspace_child_compat_tag]);
   (RunC true Both, [external_workspace_child_compat_both]);
   (RunC false Type_, [external_workspace_child_c]);
   (RunC false Tag, [external_workspace_child_c_tag]);
   (RunC false Both, [external_workspace_child_c_both]);
   (RunCxx, [external_workspace_child_cpp]);
   (RunCython Type_, [external_workspace_child_pyx]);
   (RunCython Tag, [external_workspace_child_pyx_tag])] = true.
Proof. vm_compute. reflexivity. Qed.

(** ** tests/rust/literal_target *)
Definition literal_target_disk : list (cpath * list sitem) := [
  (["tests"; "rust"; "literal_target"; "src"; "lib.rs"], [
    ]);
  (["tests"; "rust"; "workspace"; "dep"; "src"; "lib.rs"], [
    (ItemStruct [{| at_meta := (AList (Some "repr") [(APath (Some "C"))]); at_outer := true |}] "ExtType" [] (FieldsNamed [{| sf_attrs
  := []; sf_ident := (Some "data"); sf_ty := (SPath (SegPath [] "u32" NoArgs)) |}]));
    (ItemConst [] true "EXT_CONST" (SPath (SegPath [] "i32" NoArgs)) (XLit (LitInt 0 "")))])].
Definition literal_target_cargo : Cargo := {| cg_manifest_path := "tests/rust/literal_target/Cargo.toml"; cg_binding_crate_name := "literal_target"; cg_lock := (Some {| lk_root
  := None; lk_package := (Some [{| lp_name := "literal_target"; lp_version := "0.1.0"; lp_dependencies := (Some ["workspace-dep"])
  |}; {| lp_name := "workspace-dep"; lp_version := "0.1.0"; lp_dependencies := None |}]) |}); cg_packages := [{| mp_ref := {| pk_name
  := "literal_target"; pk_version := Some "0.1.0" |}; mp_dependencies := [("workspace-dep", (Some ("x86_64-pc-windows-gnu", None)))];
  mp_targets := [(["lib"], ["tests"; "rust"; "literal_target"; "src"; "lib.rs"])]; mp_manifest_path := "tests/rust/literal_target/Cargo.toml"
  |}; {| mp_ref := {| pk_name := "workspace-dep"; pk_version := Some "0.1.0" |}; mp_dependencies := []; mp_targets := [(["lib"], ["tests";
  "rust"; "workspace"; "dep"; "src"; "lib.rs"])]; mp_manifest_path := "tests/rust/workspace/dep/Cargo.toml" |}]; cg_expand := fun
  _ => None |}.
(** tests/expectations/literal_target.compat.c *)
Definition literal_target_compat : string := "#include <stdarg.h>
#include <stdbool.h>
#include <stdint.h>
#include <stdlib.h>
".
(** tests/expectations/literal_target.cpp *)
Definition literal_target_cpp : string := "#include <cstdarg>
#include <cstdint>
#include <cstdlib>
#include <ostream>
#include <new>
".
(** tests/expectations/literal_target.pyx *)
Definition literal_target_pyx : string := "from libc.stdint cimport int8_t, int16_t, int32_t, int64_t, intptr_t
from libc.stdint cimport uint8_t, uint16_t, uint32_t, uint64_t, uintptr_t
cdef extern from *:
  ctypedef bint bool
  ctypedef struct va_list

cdef extern from *:
  pass".
Example literal_target_reproduced : reproduces (in_crate literal_target_disk literal_target_cargo) false default_config None
  [(RunC true Type_, [literal_target_compat]);
   (RunC true Tag, [literal_target_compat]);
   (RunC true Both, [literal_target_compat]);
   (RunC false Type_, [literal_target_compat]);
   (RunC false Tag, [literal_target_compat]);
   (RunC false Both, [literal_target_compat]);
   (RunCxx, [literal_target_cpp]);
   (RunCython Type_, [literal_target_pyx]);
   (RunCython Tag, [literal_target_pyx])] = true.
Proof. vm_compute. reflexivity. Qed.

(** ** tests/rust/mod_2015 *)
Definition mod_2015_disk : list (cpath * list sitem) := [
  (["tests"; "rust"; "mod_2015"; "src"; "lib.rs"], [
    (ItemMod [] "nested" None)]);
  (["tests"; "rust"; "mod_2015"; "src"; "nested"; "mod.rs"], [
    (ItemMod [] "other" None);
    (ItemMod [] "other3" (Some [(ItemMod [{| at_meta := (ANameValue (Some "path") (Some "other4.rs")); at_outer := true |}] "other4" None)]))]);
  (["tests"; "rust"; "mod_2015"; "src"; "nested"; "other.rs"], [
    (ItemStruct [{| at_meta := (AList (Some "repr") [(APath (Some "C"))]); at_outer := true |}] "ExportMe" [] (FieldsNamed [{| sf_attrs
  := []; sf_ident := (Some "val"); sf_ty := (SPath (SegPath [] "u64" NoArgs)) |}]));
    (ItemStruct [{| at_meta := (AList (Some "repr") [(APath (Some "C"))]); at_outer := true |}] "DoNotExportMe" [] (FieldsNamed [{| sf_attrs
  := []; sf_ident := (Some "val"); sf_ty := (SPath (SegPath [] "u64" NoArgs)) |}]));
    (ItemConst [] true "EXPORT_ME_TOO" (SPath (SegPath [] "u8" NoArgs)) (XLit (LitInt 42 "")));
    (ItemFn [{| at_meta := (APath (Some "no_mangle")); at_outer := true |}] true {| sg_ident := "export_me"; sg_abi := (Some (Some "C"));
  sg_inputs := [(FnTyped (PatIdent "val") (SPtr true (SPath (SegPath [] "ExportMe" NoArgs))))]; sg_variadic := false; sg_output :=
  None |})]);
  (["tests"; "rust"; "mod_2015"; "src"; "nested"; "other3"; "other4.rs"], [
    (ItemFn [{| at_meta := (APath (Some "no_mangle")); at_outer := true |}] true {| sg_ident := "from_really_nested_mod"; sg_abi := (Some
  (Some "C")); sg_inputs := []; sg_variadic := false; sg_output := None |})])].
Definition mod_2015_cargo : Cargo := {| cg_manifest_path := "tests/rust/mod_2015/Cargo.toml"; cg_binding_crate_name := "mod_2015"; cg_lock := (Some {| lk_root := None;
  lk_package := (Some [{| lp_name := "mod_2015"; lp_version := "0.1.0"; lp_dependencies := None |}]) |}); cg_packages := [{| mp_ref
  := {| pk_name := "mod_2015"; pk_version := Some "0.1.0" |}; mp_dependencies := []; mp_targets := [(["lib"; "dylib"], ["tests"; "rust";
  "mod_2015"; "src"; "lib.rs"])]; mp_manifest_path := "tests/rust/mod_2015/Cargo.toml" |}]; cg_expand := fun _ => None |}.
Definition mod_2015_toml : Config := {| header := None; includes_ := []; sys_includes_ := []; after_includes := None; trailer := None;
  include_guard_ := None; pragma_once := false; no_includes := false; package_version := false; autogen_warning := None; include_version := false;
  namespace := None; namespaces := None; using_namespaces := None; braces := SameLine; line_length := 100; tab_width := 2; line_endings := LF;
  language := Cxx; cpp_compat := false; style := Both; sort_by := SortNone; usize_is_size_t := false; parse := {| pa_parse_deps := false; pa_include := None; pa_exclude := []; pa_expand_crates := []; pa_extra_bindings := [] |}; export := {| ex_include := []; ex_exclude := []; ex_rename := []; ex_pre_body := []; ex_body := []; ex_prefix := None; ex_item_types := []; ex_renaming_overrides_prefixing := false; ex_mangle := {| rename_types := RNone; remove_underscores := false |} |};
  layout := {| ly_packed := None; ly_aligned_n := None |}; function := {| fn_prefix := None; fn_postfix := None; fn_must_use := None; fn_deprecated := None; fn_deprecated_with_note := None; fn_args := Auto; fn_rename_args := RNone; fn_swift_name_macro := None; fn_sort_by := None; fn_no_return := None |}; structure := {| st_rename_fields := RNone; st_derive_constructor := false; st_derive_eq := false; st_derive_neq := false; st_derive_lt := false; st_derive_lte := false; st_derive_gt := false; st_derive_gte := false; st_derive_ostream := false; st_associated_constants_in_body := false; st_rename_associated_constant := RNone; st_must_use := None; st_deprecated := None; st_deprecated_with_note := None |}; enumeration := {| en_rename_variants := RNone; en_rename_variant_name_fields := SnakeCase; en_add_sentinel := false; en_prefix_with_name := false; en_derive_helper_methods := false; en_derive_const_casts := false; en_derive_mut_casts := false; en_cast_assert_name := None; en_must_use := None; en_deprecated := None; en_deprecated_with_note := None; en_deprecated_variant := None; en_deprecated_variant_with_note := None; en_derive_tagged_enum_destructor := false; en_derive_tagged_enum_copy_constructor := false; en_derive_tagged_enum_copy_assignment := false; en_derive_ostream := false; en_enum_class := true; en_private_default_tagged_enum_constructor := false |}; constant := {| co_allow_static_const := true; co_allow_constexpr := true; co_sort_by := None |}; defines := []; documentation := true;
  documentation_style := DocAuto; documentation_length := Full; pointer := {| pt_non_null_attribute := None; pt_nullable_attribute := None |}; cython := {| cy_header := None; cy_cimports := [] |}; config_path := None |}.
(** tests/expectations/mod_2015.compat.c *)
Definition mod_2015_compat : string := "#include <stdarg.h>
#include <stdbool.h>
#include <stdint.h>
#include <stdlib.h>

#define EXPORT_ME_TOO 42

typedef struct {
  uint64_t val;
} ExportMe;

#ifdef __cplusplus
extern ""C"" {
#endif // __cplusplus

void export_me(ExportMe *val);

void from_really_nested_mod(void);

#ifdef __cplusplus
}  // extern ""C""
#endif  // __cplusplus
".
(** tests/expectations/mod_2015_tag.compat.c *)
Definition mod_2015_compat_tag : string := "#include <stdarg.h>
#include <stdbool.h>
#include <stdint.h>
#include <stdlib.h>

#define EXPORT_ME_TOO 42

struct ExportMe {
  uint64_t val;
};

#ifdef __cplusplus
extern ""C"" {
#endif // __cplusplus

void export_me(struct ExportMe *val);

void from_really_nested_mod(void);

#ifdef __cplusplus
}  // extern ""C""
#endif  // __cplusplus
".
(** tests/expectations/mod_2015_both.compat.c *)
Definition mod_2015_compat_both : string := "#include <stdarg.h>
#include <stdbool.h>
#include <stdint.h>
#include <stdlib.h>

#define EXPORT_ME_TOO 42

typedef struct ExportMe {
  uint64_t val;
} ExportMe;

#ifdef __cplusplus
extern ""C"" {
#endif // __cplusplus

void export_me(struct ExportMe *val);

void from_really_nested_mod(void);

#ifdef __cplusplus
}  // extern ""C""
#endif  // __cplusplus
".
(** tests/expectations/mod_2015.c *)
Definition mod_2015_c : string := "#include <stdarg.h>
#include <stdbool.h>
#include <stdint.h>
#include <stdlib.h>

#define EXPORT_ME_TOO 42

typedef struct {
  uint64_t val;
} ExportMe;

void export_me(ExportMe *val);

void from_really_nested_mod(void);
".
(** tests/expectations/mod_2015_tag.c *)
Definition mod_2015_c_tag : string := "#include <stdarg.h>
#include <stdbool.h>
#include <stdint.h>
#include <stdlib.h>

#define EXPORT_ME_TOO 42

struct ExportMe {
  uint64_t val;
};

void export_me(struct ExportMe *val);

void from_really_nested_mod(void);
".
(** tests/expectations/mod_2015_both.c *)
Definition mod_2015_c_both : string := "#include <stdarg.h>
#include <stdbool.h>
#include <stdint.h>
#include <stdlib.h>

#define EXPORT_ME_TOO 42

typedef struct ExportMe {
  uint64_t val;
} ExportMe;

void export_me(struct ExportMe *val);

void from_really_nested_mod(void);
".
(** tests/expectations/mod_2015.cpp *)
Definition mod_2015_cpp : string := "#include <cstdarg>
#include <cstdint>
#include <cstdlib>
#include <ostream>
#include <new>

constexpr static const uint8_t EXPORT_ME_TOO = 42;

struct ExportMe {
  uint64_t val;
};

extern ""C"" {

void export_me(ExportMe *val);

void from_really_nested_mod();

}  // extern ""C""
".
(** tests/expectations/mod_2015.pyx *)
Definition mod_2015_pyx : string := "from libc.stdint cimport int8_t, int16_t, int32_t, int64_t, intptr_t
from libc.stdint cimport uint8_t, uint16_t, uint32_t, uint64_t, uintptr_t
cdef extern from *:
  ctypedef bint bool
  ctypedef struct va_list

cdef extern from *:

  const uint8_t EXPORT_ME_TOO # = 42

  ctypedef struct ExportMe:
    uint64_t val;

  void export_me(ExportMe *val);

  void from_really_nested_mod();
".
(** tests/expectations/mod_2015_tag.pyx *)
Definition mod_2015_pyx_tag : string := "from libc.stdint cimport int8_t, int16_t, int32_t, int64_t, intptr_t
from libc.stdint cimport uint8_t, uint16_t, uint32_t, uint64_t, uintptr_t
cdef extern from *:
  ctypedef bint bool
  ctypedef struct va_list

cdef extern from *:

  const uint8_t EXPORT_ME_TOO # = 42

  cdef struct ExportMe:
    uint64_t val;

  void export_me(ExportMe *val);

  void from_really_nested_mod();
".
Example mod_2015_reproduced : reproduces (in_crate mod_2015_disk mod_2015_cargo) false mod_2015_toml (Some "{
export_me;
from_really_nested_mod;
};")
  [(RunC true Type_, [mod_2015_compat]);
   (RunC true Tag, [mod_2015_compat_tag]);
   (RunC true Both, [mod_2015_compat_both]);
   (RunC false Type_, [mod_2015_c]);
   (RunC false Tag, [mod_2015_c_tag]);
   (RunC false Both, [mod_2015_c_both]);
   (RunCxx, [mod_2015_cpp]);
   (RunCython Type_, [mod_2015_pyx]);
   (RunCython Tag, [mod_2015_pyx_tag])] = true.
Proof. vm_compute. reflexivity. Qed.

(** ** tests/rust/mod_2018 *)
Definition mod_2018_disk : list (cpath * list sitem) := [
  (["tests"; "rust"; "mod_2018"; "src"; "lib.rs"], [
    (ItemMod [] "nested" None)]);
  (["tests"; "rust"; "mod_2018"; "src"; "other2.rs"], [
    (ItemStruct [{| at_meta := (AList (Some "repr") [(APath (Some "C"))]); at_outer := true |}] "ExportMe2" [] (FieldsNamed [{| sf_attrs
  := []; sf_ident := (Some "val"); sf_ty := (SPath (SegPath [] "u64" NoArgs)) |}]));
    (ItemFn [{| at_meta := (APath (Some "no_mangle")); at_outer := true |}] true {| sg_ident := "export_me_2"; sg_abi := (Some (Some "C"));
  sg_inputs := [(FnTyped PatWild (SPtr true (SPath (SegPath [] "ExportMe2" NoArgs))))]; sg_variadic := false; sg_output := None |})]);
  (["tests"; "rust"; "mod_2018"; "src"; "nested.rs"], [
    (ItemMod [] "other" None);
    (ItemMod [{| at_meta := (ANameValue (Some "path") (Some "other2.rs")); at_outer := true |}] "other2" None);
    (ItemMod [] "other3" (Some [(ItemMod [{| at_meta := (ANameValue (Some "path") (Some "other4.rs")); at_outer := true |}] "other4" None)]))]);
  (["tests"; "rust"; "mod_2018"; "src"; "nested"; "other.rs"], [
    (ItemStruct [{| at_meta := (AList (Some "repr") [(APath (Some "C"))]); at_outer := true |}] "ExportMe" [] (FieldsNamed [{| sf_attrs
  := []; sf_ident := (Some "val"); sf_ty := (SPath (SegPath [] "u64" NoArgs)) |}]));
    (ItemStruct [{| at_meta := (AList (Some "repr") [(APath (Some "C"))]); at_outer := true |}] "DoNotExportMe" [] (FieldsNamed [{| sf_attrs
  := []; sf_ident := (Some "val"); sf_ty := (SPath (SegPath [] "u64" NoArgs)) |}]));
    (ItemConst [] true "EXPORT_ME_TOO" (SPath (SegPath [] "u8" NoArgs)) (XLit (LitInt 42 "")));
    (ItemFn [{| at_meta := (APath (Some "no_mangle")); at_outer := true |}] true {| sg_ident := "export_me"; sg_abi := (Some (Some "C"));
  sg_inputs := [(FnTyped (PatIdent "val") (SPtr true (SPath (SegPath [] "ExportMe" NoArgs))))]; sg_variadic := false; sg_output :=
  None |})]);
  (["tests"; "rust"; "mod_2018"; "src"; "nested"; "other3"; "other4.rs"], [
    (ItemFn [{| at_meta := (APath (Some "no_mangle")); at_outer := true |}] true {| sg_ident := "from_really_nested_mod"; sg_abi := (Some
  (Some "C")); sg_inputs := []; sg_variadic := false; sg_output := None |})])].
Definition mod_2018_cargo : Cargo := {| cg_manifest_path := "tests/rust/mod_2018/Cargo.toml"; cg_binding_crate_name := "mod_2018"; cg_lock := (Some {| lk_root := None;
  lk_package := (Some [{| lp_name := "mod_2018"; lp_version := "0.1.0"; lp_dependencies := None |}]) |}); cg_packages := [{| mp_ref
  := {| pk_name := "mod_2018"; pk_version := Some "0.1.0" |}; mp_dependencies := []; mp_targets := [(["lib"; "dylib"], ["tests"; "rust";
  "mod_2018"; "src"; "lib.rs"])]; mp_manifest_path := "tests/rust/mod_2018/Cargo.toml" |}]; cg_expand := fun _ => None |}.
Definition mod_2018_toml : Config := {| header := None; includes_ := []; sys_includes_ := []; after_includes := None; trailer := None;
  include_guard_ := None; pragma_once := false; no_includes := false; package_version := false; autogen_warning := None; include_version := false;
  namespace := None; namespaces := None; using_namespaces := None; braces := SameLine; line_length := 100; tab_width := 2; line_endings := LF;
  language := Cxx; cpp_compat := false; style := Both; sort_by := SortNone; usize_is_size_t := false; parse := {| pa_parse_deps := false; pa_include := None; pa_exclude := []; pa_expand_crates := []; pa_extra_bindings := [] |}; export := {| ex_include := []; ex_exclude := []; ex_rename := []; ex_pre_body := []; ex_body := []; ex_prefix := None; ex_item_types := []; ex_renaming_overrides_prefixing := false; ex_mangle := {| rename_types := RNone; remove_underscores := false |} |};
  layout := {| ly_packed := None; ly_aligned_n := None |}; function := {| fn_prefix := None; fn_postfix := None; fn_must_use := None; fn_deprecated := None; fn_deprecated_with_note := None; fn_args := Auto; fn_rename_args := RNone; fn_swift_name_macro := None; fn_sort_by := None; fn_no_return := None |}; structure := {| st_rename_fields := RNone; st_derive_constructor := false; st_derive_eq := false; st_derive_neq := false; st_derive_lt := false; st_derive_lte := false; st_derive_gt := false; st_derive_gte := false; st_derive_ostream := false; st_associated_constants_in_body := false; st_rename_associated_constant := RNone; st_must_use := None; st_deprecated := None; st_deprecated_with_note := None |}; enumeration := {| en_rename_variants := RNone; en_rename_variant_name_fields := SnakeCase; en_add_sentinel := false; en_prefix_with_name := false; en_derive_helper_methods := false; en_derive_const_casts := false; en_derive_mut_casts := false; en_cast_assert_name := None; en_must_use := None; en_deprecated := None; en_deprecated_with_note := None; en_deprecated_variant := None; en_deprecated_variant_with_note := None; en_derive_tagged_enum_destructor := false; en_derive_tagged_enum_copy_constructor := false; en_derive_tagged_enum_copy_assignment := false; en_derive_ostream := false; en_enum_class := true; en_private_default_tagged_enum_constructor := false |}; constant := {| co_allow_static_const := true; co_allow_constexpr := true; co_sort_by := None |}; defines := []; documentation := true;
  documentation_style := DocAuto; documentation_length := Full; pointer := {| pt_non_null_attribute := None; pt_nullable_attribute := None |}; cython := {| cy_header := None; cy_cimports := [] |}; config_path := None |}.
(** tests/expectations/mod_2018.compat.c *)
Definition mod_2018_compat : string := "#include <stdarg.h>
#include <stdbool.h>
#include <stdint.h>
#include <stdlib.h>

#define EXPORT_ME_TOO 42

typedef struct {
  uint64_t val;
} ExportMe;

typedef struct {
  uint64_t val;
} ExportMe2;

#ifdef __cplusplus
extern ""C"" {
#endif // __cplusplus

void export_me(ExportMe *val);

void export_me_2(ExportMe2*);

void from_really_nested_mod(void);

#ifdef __cplusplus
}  // extern ""C""
#endif  // __cplusplus
".
(** tests/expectations/mod_2018_tag.compat.c *)
Definition mod_2018_compat_tag : string := "#include <stdarg.h>
#include <stdbool.h>
#include <stdint.h>
#include <stdlib.h>

#define EXPORT_ME_TOO 42

struct ExportMe {
  uint64_t val;
};

struct ExportMe2 {
  uint64_t val;
};

#ifdef __cplusplus
extern ""C"" {
#endif // __cplusplus

void export_me(struct ExportMe *val);

void export_me_2(struct ExportMe2*);

void from_really_nested_mod(void);

#ifdef __cplusplus
}  // extern ""C""
#endif  // __cplusplus
".
(** tests/expectations/mod_2018_both.compat.c *)
Definition mod_2018_compat_both : string := "#include <stdarg.h>
#include <stdbool.h>
#include <stdint.h>
#include <stdlib.h>

#define EXPORT_ME_TOO 42

typedef struct ExportMe {
  uint64_t val;
} ExportMe;

typedef struct ExportMe2 {
  uint64_t val;
} ExportMe2;

#ifdef __cplusplus
extern ""C"" {
#endif // __cplusplus

void export_me(struct ExportMe *val);

void export_me_2(struct ExportMe2*);

void from_really_nested_mod(void);

#ifdef __cplusplus
}  // extern ""C""
#endif  // __cplusplus
".
(** tests/expectations/mod_2018.c *)
Definition mod_2018_c : string := "#include <stdarg.h>
#include <stdbool.h>
#include <stdint.h>
#include <stdlib.h>

#define EXPORT_ME_TOO 42

typedef struct {
  uint64_t val;
} ExportMe;

typedef struct {
  uint64_t val;
} ExportMe2;

void export_me(ExportMe *val);

void export_me_2(ExportMe2*);

void from_really_nested_mod(void);
".
(** tests/expectations/mod_2018_tag.c *)
Definition mod_2018_c_tag : string := "#include <stdarg.h>
#include <stdbool.h>
#include <stdint.h>
#include <stdlib.h>

#define EXPORT_ME_TOO 42

struct ExportMe {
  uint64_t val;
};

struct ExportMe2 {
  uint64_t val;
};

void export_me(struct ExportMe *val);

void export_me_2(struct ExportMe2*);

void from_really_nested_mod(void);
".
(** tests/expectations/mod_2018_both.c *)
Definition mod_2018_c_both : string := "#include <stdarg.h>
#include <stdbool.h>
#include <stdint.h>
#include <stdlib.h>

#define EXPORT_ME_TOO 42

typedef struct ExportMe {
  uint64_t val;
} ExportMe;

typedef struct ExportMe2 {
  uint64_t val;
} ExportMe2;

void export_me(struct ExportMe *val);

void export_me_2(struct ExportMe2*);

void from_really_nested_mod(void);
".
(** tests/expectations/mod_2018.cpp *)
Definition mod_2018_cpp : string := "#include <cstdarg>
#include <cstdint>
#include <cstdlib>
#include <ostream>
#include <new>

constexpr static const uint8_t EXPORT_ME_TOO = 42;

struct ExportMe {
  uint64_t val;
};

struct ExportMe2 {
  uint64_t val;
};

extern ""C"" {

void export_me(ExportMe *val);

void export_me_2(ExportMe2*);

void from_really_nested_mod();

}  // extern ""C""
".
(** tests/expectations/mod_2018.pyx *)
Definition mod_2018_pyx : string := "from libc.stdint cimport int8_t, int16_t, int32_t, int64_t, intptr_t
from libc.stdint cimport uint8_t, uint16_t, uint32_t, uint64_t, uintptr_t
cdef extern from *:
  ctypedef bint bool
  ctypedef struct va_list

cdef extern from *:

  const uint8_t EXPORT_ME_TOO # = 42

  ctypedef struct ExportMe:
    uint64_t val;

  ctypedef struct ExportMe2:
    uint64_t val;

  void export_me(ExportMe *val);

  void export_me_2(ExportMe2*);

  void from_really_nested_mod();
".
(** tests/expectations/mod_2018_tag.pyx *)
Definition mod_2018_pyx_tag : string := "from libc.stdint cimport int8_t, int16_t, int32_t, int64_t, intptr_t
from libc.stdint cimport uint8_t, uint16_t, uint32_t, uint64_t, uintptr_t
cdef extern from *:
  ctypedef bint bool
  ctypedef struct va_list

cdef extern from *:

  const uint8_t EXPORT_ME_TOO # = 42

  cdef struct ExportMe:
    uint64_t val;

  cdef struct ExportMe2:
    uint64_t val;

  void export_me(ExportMe *val);

  void export_me_2(ExportMe2*);

  void from_really_nested_mod();
".
Example mod_2018_reproduced : reproduces (in_crate mod_2018_disk mod_2018_cargo) false mod_2018_toml (Some "{
export_me;
export_me_2;
from_really_nested_mod;
};")
  [(RunC true Type_, [mod_2018_compat]);
   (RunC true Tag, [mod_2018_compat_tag]);
   (RunC true Both, [mod_2018_compat_both]);
   (RunC false Type_, [mod_2018_c]);
   (RunC false Tag, [mod_2018_c_tag]);
   (RunC false Both, [mod_2018_c_both]);
   (RunCxx, [mod_2018_cpp]);
   (RunCython Type_, [mod_2018_pyx]);
   (RunCython Tag, [mod_2018_pyx_tag])] = true.
Proof. vm_compute. reflexivity. Qed.

(** ** tests/rust/mod_attr *)
Definition mod_attr_disk : list (cpath * list sitem) := [
  (["tests"; "rust"; "mod_attr"; "src"; "lib.rs"], [
    (ItemConst [{| at_meta := (AList (Some "cfg") [(APath (Some "foo"))]); at_outer := true |}] true "FOO" (SPath (SegPath [] "i32" NoArgs))
  (XLit (LitInt 1 "")));
    (ItemFn [{| at_meta := (AList (Some "cfg") [(APath (Some "foo"))]); at_outer := true |}; {| at_meta := (APath (Some "no_mangle"));
  at_outer := true |}] true {| sg_ident := "foo"; sg_abi := (Some (Some "C")); sg_inputs := [(FnTyped (PatIdent "foo") (SRef false
  (SPath (SegPath [] "Foo" NoArgs))))]; sg_variadic := false; sg_output := None |});
    (ItemStruct [{| at_meta := (AList (Some "cfg") [(APath (Some "foo"))]); at_outer := true |}; {| at_meta := (AList (Some "repr") [(APath
  (Some "C"))]); at_outer := true |}] "Foo" [] (FieldsNamed []));
    (ItemMod [{| at_meta := (AList (Some "cfg") [(ANameValue (Some "feature") (Some "foobar"))]); at_outer := true |}] "foo" (Some [(ItemConst
  [{| at_meta := (AList (Some "cfg") [(APath (Some "bar"))]); at_outer := true |}] true "BAR" (SPath (SegPath [] "i32" NoArgs)) (XLit
  (LitInt 2 ""))); (ItemFn [{| at_meta := (AList (Some "cfg") [(APath (Some "bar"))]); at_outer := true |}; {| at_meta := (APath (Some
  "no_mangle")); at_outer := true |}] true {| sg_ident := "bar"; sg_abi := (Some (Some "C")); sg_inputs := [(FnTyped (PatIdent "bar")
  (SRef false (SPath (SegPath [] "Bar" NoArgs))))]; sg_variadic := false; sg_output := None |}); (ItemStruct [{| at_meta := (AList
  (Some "cfg") [(APath (Some "bar"))]); at_outer := true |}; {| at_meta := (AList (Some "repr") [(APath (Some "C"))]); at_outer :=
  true |}] "Bar" [] (FieldsNamed []))]))])].
Definition mod_attr_cargo : Cargo := {| cg_manifest_path := "tests/rust/mod_attr/Cargo.toml"; cg_binding_crate_name := "mod_attr"; cg_lock := (Some {| lk_root := None;
  lk_package := (Some [{| lp_name := "mod_attr"; lp_version := "0.1.0"; lp_dependencies := None |}]) |}); cg_packages := [{| mp_ref
  := {| pk_name := "mod_attr"; pk_version := Some "0.1.0" |}; mp_dependencies := []; mp_targets := [(["lib"; "dylib"], ["tests"; "rust";
  "mod_attr"; "src"; "lib.rs"])]; mp_manifest_path := "tests/rust/mod_attr/Cargo.toml" |}]; cg_expand := fun _ => None |}.
Definition mod_attr_toml : Config := {| header := (Some "#if 0
DEF FOO = 0
DEF BAR = 0
#endif
"); includes_ := []; sys_includes_ := []; after_includes := None; trailer := None;
  include_guard_ := None; pragma_once := false; no_includes := false; package_version := false; autogen_warning := None; include_version := false;
  namespace := None; namespaces := None; using_namespaces := None; braces := SameLine; line_length := 100; tab_width := 2; line_endings := LF;
  language := Cxx; cpp_compat := false; style := Both; sort_by := SortNone; usize_is_size_t := false; parse := default_parse; export := {| ex_include := []; ex_exclude := []; ex_rename := []; ex_pre_body := []; ex_body := []; ex_prefix := None; ex_item_types := []; ex_renaming_overrides_prefixing := false; ex_mangle := {| rename_types := RNone; remove_underscores := false |} |};
  layout := {| ly_packed := None; ly_aligned_n := None |}; function := {| fn_prefix := None; fn_postfix := None; fn_must_use := None; fn_deprecated := None; fn_deprecated_with_note := None; fn_args := Auto; fn_rename_args := RNone; fn_swift_name_macro := None; fn_sort_by := None; fn_no_return := None |}; structure := {| st_rename_fields := RNone; st_derive_constructor := false; st_derive_eq := false; st_derive_neq := false; st_derive_lt := false; st_derive_lte := false; st_derive_gt := false; st_derive_gte := false; st_derive_ostream := false; st_associated_constants_in_body := false; st_rename_associated_constant := RNone; st_must_use := None; st_deprecated := None; st_deprecated_with_note := None |}; enumeration := {| en_rename_variants := RNone; en_rename_variant_name_fields := SnakeCase; en_add_sentinel := false; en_prefix_with_name := false; en_derive_helper_methods := false; en_derive_const_casts := false; en_derive_mut_casts := false; en_cast_assert_name := None; en_must_use := None; en_deprecated := None; en_deprecated_with_note := None; en_deprecated_variant := None; en_deprecated_variant_with_note := None; en_derive_tagged_enum_destructor := false; en_derive_tagged_enum_copy_constructor := false; en_derive_tagged_enum_copy_assignment := false; en_derive_ostream := false; en_enum_class := true; en_private_default_tagged_enum_constructor := false |}; constant := {| co_allow_static_const := true; co_allow_constexpr := true; co_sort_by := None |}; defines := [("foo", "FOO"); ("bar", "BAR")]; documentation := true;
  documentation_style := DocAuto; documentation_length := Full; pointer := {| pt_non_null_attribute := None; pt_nullable_attribute := None |}; cython := {| cy_header := None; cy_cimports := [] |}; config_path := None |}.
(** tests/expectations/mod_attr.compat.c *)
Definition mod_attr_compat : string := "#if 0
DEF FOO = 0
DEF BAR = 0
#endif


#include <stdarg.h>
#include <stdbool.h>
#include <stdint.h>
#include <stdlib.h>

#if defined(FOO)
#define FOO 1
#endif

#if defined(BAR)
#define BAR 2
#endif

#if defined(FOO)
typedef struct {

} Foo;
#endif

#if defined(BAR)
typedef struct {

} Bar;
#endif

#ifdef __cplusplus
extern ""C"" {
#endif // __cplusplus

#if defined(FOO)
void foo(const Foo *foo);
#endif

#if defined(BAR)
void bar(const Bar *bar);
#endif

#ifdef __cplusplus
}  // extern ""C""
#endif  // __cplusplus
".
(** tests/expectations/mod_attr_tag.compat.c *)
Definition mod_attr_compat_tag : string := "#if 0
DEF FOO = 0
DEF BAR = 0
#endif


#include <stdarg.h>
#include <stdbool.h>
#include <stdint.h>
#include <stdlib.h>

#if defined(FOO)
#define FOO 1
#endif

#if defined(BAR)
#define BAR 2
#endif

#if defined(FOO)
struct Foo {

};
#endif

#if defined(BAR)
struct Bar {

};
#endif

#ifdef __cplusplus
extern ""C"" {
#endif // __cplusplus

#if defined(FOO)
void foo(const struct Foo *foo);
#endif

#if defined(BAR)
void bar(const struct Bar *bar);
#endif

#ifdef __cplusplus
}  // extern ""C""
#endif  // __cplusplus
".
(** tests/expectations/mod_attr_both.compat.c *)
Definition mod_attr_compat_both : string := "#if 0
DEF FOO = 0
DEF BAR = 0
#endif


#include <stdarg.h>
#include <stdbool.h>
#include <stdint.h>
#include <stdlib.h>

#if defined(FOO)
#define FOO 1
#endif

#if defined(BAR)
#define BAR 2
#endif

#if defined(FOO)
typedef struct Foo {

} Foo;
#endif

#if defined(BAR)
typedef struct Bar {

} Bar;
#endif

#ifdef __cplusplus
extern ""C"" {
#endif // __cplusplus

#if defined(FOO)
void foo(const struct Foo *foo);
#endif

#if defined(BAR)
void bar(const struct Bar *bar);
#endif

#ifdef __cplusplus
}  // extern ""C""
#endif  // __cplusplus
".
(** tests/expectations/mod_attr.c *)
Definition mod_attr_c : string := "#if 0
DEF FOO = 0
DEF BAR = 0
#endif


#include <stdarg.h>
#include <stdbool.h>
#include <stdint.h>
#include <stdlib.h>

#if defined(FOO)
#define FOO 1
#endif

#if defined(BAR)
#define BAR 2
#endif

#if defined(FOO)
typedef struct {

} Foo;
#endif

#if defined(BAR)
typedef struct {

} Bar;
#endif

#if defined(FOO)
void foo(const Foo *foo);
#endif

#if defined(BAR)
void bar(const Bar *bar);
#endif
".
(** tests/expectations/mod_attr_tag.c *)
Definition mod_attr_c_tag : string := "#if 0
DEF FOO = 0
DEF BAR = 0
#endif


#include <stdarg.h>
#include <stdbool.h>
#include <stdint.h>
#include <stdlib.h>

#if defined(FOO)
#define FOO 1
#endif

#if defined(BAR)
#define BAR 2
#endif

#if defined(FOO)
struct Foo {

};
#endif

#if defined(BAR)
struct Bar {

};
#endif

#if defined(FOO)
void foo(const struct Foo *foo);
#endif

#if defined(BAR)
void bar(const struct Bar *bar);
#endif
".
(** tests/expectations/mod_attr_both.c *)
Definition mod_attr_c_both : string := "#if 0
DEF FOO = 0
DEF BAR = 0
#endif


#include <stdarg.h>
#include <stdbool.h>
#include <stdint.h>
#include <stdlib.h>

#if defined(FOO)
#define FOO 1
#endif

#if defined(BAR)
#define BAR 2
#endif

#if defined(FOO)
typedef struct Foo {

} Foo;
#endif

#if defined(BAR)
typedef struct Bar {

} Bar;
#endif

#if defined(FOO)
void foo(const struct Foo *foo);
#endif

#if defined(BAR)
void bar(const struct Bar *bar);
#endif
".
(** tests/expectations/mod_attr.cpp *)
Definition mod_attr_cpp : string := "#if 0
DEF FOO = 0
DEF BAR = 0
#endif


#include <cstdarg>
#include <cstdint>
#include <cstdlib>
#include <ostream>
#include <new>

#if defined(FOO)
constexpr static const int32_t FOO = 1;
#endif

#if defined(BAR)
constexpr static const int32_t BAR = 2;
#endif

#if defined(FOO)
struct Foo {

};
#endif

#if defined(BAR)
struct Bar {

};
#endif

extern ""C"" {

#if defined(FOO)
void foo(const Foo *foo);
#endif

#if defined(BAR)
void bar(const Bar *bar);
#endif

}  // extern ""C""
".
(** tests/expectations/mod_attr.pyx *)
Definition mod_attr_pyx : string := "#if 0
DEF FOO = 0
DEF BAR = 0
#endif


from libc.stdint cimport int8_t, int16_t, int32_t, int64_t, intptr_t
from libc.stdint cimport uint8_t, uint16_t, uint32_t, uint64_t, uintptr_t
cdef extern from *:
  ctypedef bint bool
  ctypedef struct va_list

cdef extern from *:

  IF FOO:
    const int32_t FOO # = 1

  IF BAR:
    const int32_t BAR # = 2

  IF FOO:
    ctypedef struct Foo:
      pass

  IF BAR:
    ctypedef struct Bar:
      pass

  IF FOO:
    void foo(const Foo *foo);

  IF BAR:
    void bar(const Bar *bar);
".
(** tests/expectations/mod_attr_tag.pyx *)
Definition mod_attr_pyx_tag : string := "#if 0
DEF FOO = 0
DEF BAR = 0
#endif


from libc.stdint cimport int8_t, int16_t, int32_t, int64_t, intptr_t
from libc.stdint cimport uint8_t, uint16_t, uint32_t, uint64_t, uintptr_t
cdef extern from *:
  ctypedef bint bool
  ctypedef struct va_list

cdef extern from *:

  IF FOO:
    const int32_t FOO # = 1

  IF BAR:
    const int32_t BAR # = 2

  IF FOO:
    cdef struct Foo:
      pass

  IF BAR:
    cdef struct Bar:
      pass

  IF FOO:
    void foo(const Foo *foo);

  IF BAR:
    void bar(const Bar *bar);
".
Example mod_attr_reproduced : reproduces (in_crate mod_attr_disk mod_attr_cargo) false mod_attr_toml (Some "{
foo;
bar;
};")
  [(RunC true Type_, [mod_attr_compat]);
   (RunC true Tag, [mod_attr_compat_tag]);
   (RunC true Both, [mod_attr_compat_both]);
   (RunC false Type_, [mod_attr_c]);
   (RunC false Tag, [mod_attr_c_tag]);
   (RunC false Both, [mod_attr_c_both]);
   (RunCxx, [mod_attr_cpp]);
   (RunCython Type_, [mod_attr_pyx]);
   (RunCython Tag, [mod_attr_pyx_tag])] = true.
Proof. vm_compute. reflexivity. Qed.

(** ** tests/rust/mod_path *)
Definition mod_path_disk : list (cpath * list sitem) := [
  (["tests"; "rust"; "mod_path"; "src"; "lib.rs"], [
    (ItemMod [{| at_meta := (ANameValue (Some "path") (Some "other.rs")); at_outer := true |}] "inner" None);
    (ItemOther [])]);
  (["tests"; "rust"; "mod_path"; "src"; "other.rs"], [
    (ItemStruct [{| at_meta := (AList (Some "repr") [(APath (Some "C"))]); at_outer := true |}] "ExportMe" [] (FieldsNamed [{| sf_attrs
  := []; sf_ident := (Some "val"); sf_ty := (SPath (SegPath [] "u64" NoArgs)) |}]));
    (ItemStruct [{| at_meta := (AList (Some "repr") [(APath (Some "C"))]); at_outer := true |}] "DoNotExportMe" [] (FieldsNamed [{| sf_attrs
  := []; sf_ident := (Some "val"); sf_ty := (SPath (SegPath [] "u64" NoArgs)) |}]));
    (ItemConst [] true "EXPORT_ME_TOO" (SPath (SegPath [] "u8" NoArgs)) (XLit (LitInt 42 "")));
    (ItemFn [{| at_meta := (APath (Some "no_mangle")); at_outer := true |}] true {| sg_ident := "export_me"; sg_abi := (Some (Some "C"));
  sg_inputs := [(FnTyped (PatIdent "val") (SPtr true (SPath (SegPath [] "ExportMe" NoArgs))))]; sg_variadic := false; sg_output :=
  None |})])].
Definition mod_path_cargo : Cargo := {| cg_manifest_path := "tests/rust/mod_path/Cargo.toml"; cg_binding_crate_name := "mod_path"; cg_lock := (Some {| lk_root := None;
  lk_package := (Some [{| lp_name := "mod_path"; lp_version := "0.1.0"; lp_dependencies := None |}]) |}); cg_packages := [{| mp_ref
  := {| pk_name := "mod_path"; pk_version := Some "0.1.0" |}; mp_dependencies := []; mp_targets := [(["lib"; "dylib"], ["tests"; "rust";
  "mod_path"; "src"; "lib.rs"])]; mp_manifest_path := "tests/rust/mod_path/Cargo.toml" |}]; cg_expand := fun _ => None |}.
Definition mod_path_toml : Config := {| header := None; includes_ := []; sys_includes_ := []; after_includes := None; trailer := None;
  include_guard_ := None; pragma_once := false; no_includes := false; package_version := false; autogen_warning := None; include_version := false;
  namespace := None; namespaces := None; using_namespaces := None; braces := SameLine; line_length := 100; tab_width := 2; line_endings := LF;
  language := Cxx; cpp_compat := false; style := Both; sort_by := SortNone; usize_is_size_t := false; parse := {| pa_parse_deps := false; pa_include := None; pa_exclude := []; pa_expand_crates := []; pa_extra_bindings := [] |}; export := {| ex_include := []; ex_exclude := []; ex_rename := []; ex_pre_body := []; ex_body := []; ex_prefix := None; ex_item_types := []; ex_renaming_overrides_prefixing := false; ex_mangle := {| rename_types := RNone; remove_underscores := false |} |};
  layout := {| ly_packed := None; ly_aligned_n := None |}; function := {| fn_prefix := None; fn_postfix := None; fn_must_use := None; fn_deprecated := None; fn_deprecated_with_note := None; fn_args := Auto; fn_rename_args := RNone; fn_swift_name_macro := None; fn_sort_by := None; fn_no_return := None |}; structure := {| st_rename_fields := RNone; st_derive_constructor := false; st_derive_eq := false; st_derive_neq := false; st_derive_lt := false; st_derive_lte := false; st_derive_gt := false; st_derive_gte := false; st_derive_ostream := false; st_associated_constants_in_body := false; st_rename_associated_constant := RNone; st_must_use := None; st_deprecated := None; st_deprecated_with_note := None |}; enumeration := {| en_rename_variants := RNone; en_rename_variant_name_fields := SnakeCase; en_add_sentinel := false; en_prefix_with_name := false; en_derive_helper_methods := false; en_derive_const_casts := false; en_derive_mut_casts := false; en_cast_assert_name := None; en_must_use := None; en_deprecated := None; en_deprecated_with_note := None; en_deprecated_variant := None; en_deprecated_variant_with_note := None; en_derive_tagged_enum_destructor := false; en_derive_tagged_enum_copy_constructor := false; en_derive_tagged_enum_copy_assignment := false; en_derive_ostream := false; en_enum_class := true; en_private_default_tagged_enum_constructor := false |}; constant := {| co_allow_static_const := true; co_allow_constexpr := true; co_sort_by := None |}; defines := []; documentation := true;
  documentation_style := DocAuto; documentation_length := Full; pointer := {| pt_non_null_attribute := None; pt_nullable_attribute := None |}; cython := {| cy_header := None; cy_cimports := [] |}; config_path := None |}.
(** tests/expectations/mod_path.compat.c *)
Definition mod_path_compat : string := "#include <stdarg.h>
#include <stdbool.h>
#include <stdint.h>
#include <stdlib.h>

#define EXPORT_ME_TOO 42

typedef struct {
  uint64_t val;
} ExportMe;

#ifdef __cplusplus
extern ""C"" {
#endif // __cplusplus

void export_me(ExportMe *val);

#ifdef __cplusplus
}  // extern ""C""
#endif  // __cplusplus
".
(** tests/expectations/mod_path_tag.compat.c *)
Definition mod_path_compat_tag : string := "#include <stdarg.h>
#include <stdbool.h>
#include <stdint.h>
#include <stdlib.h>

#define EXPORT_ME_TOO 42

struct ExportMe {
  uint64_t val;
};

#ifdef __cplusplus
extern ""C"" {
#endif // __cplusplus

void export_me(struct ExportMe *val);

#ifdef __cplusplus
}  // extern ""C""
#endif  // __cplusplus
".
(** tests/expectations/mod_path_both.compat.c *)
Definition mod_path_compat_both : string := "#include <stdarg.h>
#include <stdbool.h>
#include <stdint.h>
#include <stdlib.h>

#define EXPORT_ME_TOO 42

typedef struct ExportMe {
  uint64_t val;
} ExportMe;

#ifdef __cplusplus
extern ""C"" {
#endif // __cplusplus

void export_me(struct ExportMe *val);

#ifdef __cplusplus
}  // extern ""C""
#endif  // __cplusplus
".
(** tests/expectations/mod_path.c *)
Definition mod_path_c : string := "#include <stdarg.h>
#include <stdbool.h>
#include <stdint.h>
#include <stdlib.h>

#define EXPORT_ME_TOO 42

typedef struct {
  uint64_t val;
} ExportMe;

void export_me(ExportMe *val);
".
(** tests/expectations/mod_path_tag.c *)
Definition mod_path_c_tag : string := "#include <stdarg.h>
#include <stdbool.h>
#include <stdint.h>
#include <stdlib.h>

#define EXPORT_ME_TOO 42

struct ExportMe {
  uint64_t val;
};

void export_me(struct ExportMe *val);
".
(** tests/expectations/mod_path_both.c *)
Definition mod_path_c_both : string := "#include <stdarg.h>
#include <stdbool.h>
#include <stdint.h>
#include <stdlib.h>

#define EXPORT_ME_TOO 42

typedef struct ExportMe {
  uint64_t val;
} ExportMe;

void export_me(struct ExportMe *val);
".
(** tests/expectations/mod_path.cpp *)
Definition mod_path_cpp : string := "#include <cstdarg>
#include <cstdint>
#include <cstdlib>
#include <ostream>
#include <new>

constexpr static const uint8_t EXPORT_ME_TOO = 42;

struct ExportMe {
  uint64_t val;
};

extern ""C"" {

void export_me(ExportMe *val);

}  // extern ""C""
".
(** tests/expectations/mod_path.pyx *)
Definition mod_path_pyx : string := "from libc.stdint cimport int8_t, int16_t, int32_t, int64_t, intptr_t
from libc.stdint cimport uint8_t, uint16_t, uint32_t, uint64_t, uintptr_t
cdef extern from *:
  ctypedef bint bool
  ctypedef struct va_list

cdef extern from *:

  const uint8_t EXPORT_ME_TOO # = 42

  ctypedef struct ExportMe:
    uint64_t val;

  void export_me(ExportMe *val);
".
(** tests/expectations/mod_path_tag.pyx *)
Definition mod_path_pyx_tag : string := "from libc.stdint cimport int8_t, int16_t, int32_t, int64_t, intptr_t
from libc.stdint cimport uint8_t, uint16_t, uint32_t, uint64_t, uintptr_t
cdef extern from *:
  ctypedef bint bool
  ctypedef struct va_list

cdef extern from *:

  const uint8_t EXPORT_ME_TOO # = 42

  cdef struct ExportMe:
    uint64_t val;

  void export_me(ExportMe *val);
".
Example mod_path_reproduced : reproduces (in_crate mod_path_disk mod_path_cargo) false mod_path_toml (Some "{
export_me;
};")
  [(RunC true Type_, [mod_path_compat]);
   (RunC true Tag, [mod_path_compat_tag]);
   (RunC true Both, [mod_path_compat_both]);
   (RunC false Type_, [mod_path_c]);
   (RunC false Tag, [mod_path_c_tag]);
   (RunC false Both, [mod_path_c_both]);
   (RunCxx, [mod_path_cpp]);
   (RunCython Type_, [mod_path_pyx]);
   (RunCython Tag, [mod_path_pyx_tag])] = true.
Proof. vm_compute. reflexivity. Qed.

(** ** tests/rust/package_version *)
Definition package_version_disk : list (cpath * list sitem) := [
  (["tests"; "rust"; "package_version"; "src"; "lib.rs"], [
    (ItemStruct [{| at_meta := (AList (Some "repr") [(APath (Some "C"))]); at_outer := true |}] "Foo" [] (FieldsNamed [{| sf_attrs :=
  []; sf_ident := (Some "bar"); sf_ty := (SPath (SegPath [] "u64" NoArgs)) |}]));
    (ItemFn [{| at_meta := (APath (Some "no_mangle")); at_outer := true |}] true {| sg_ident := "doit"; sg_abi := (Some (Some "C")); sg_inputs
  := [(FnTyped PatWild (SRef false (SPath (SegPath [] "Foo" NoArgs))))]; sg_variadic := false; sg_output := None |})])].
Definition package_version_cargo : Cargo := {| cg_manifest_path := "tests/rust/package_version/Cargo.toml"; cg_binding_crate_name := "package_version"; cg_lock := (Some {| lk_root
  := None; lk_package := (Some [{| lp_name := "package_version"; lp_version := "0.1.0"; lp_dependencies := None |}]) |}); cg_packages
  := [{| mp_ref := {| pk_name := "package_version"; pk_version := Some "0.1.0" |}; mp_dependencies := []; mp_targets := [(["lib"],
  ["tests"; "rust"; "package_version"; "src"; "lib.rs"])]; mp_manifest_path := "tests/rust/package_version/Cargo.toml" |}]; cg_expand
  := fun _ => None |}.
Definition package_version_toml : Config := {| header := None; includes_ := []; sys_includes_ := []; after_includes := None; trailer := None;
  include_guard_ := None; pragma_once := false; no_includes := false; package_version := true; autogen_warning := None; include_version := false;
  namespace := None; namespaces := None; using_namespaces := None; braces := SameLine; line_length := 100; tab_width := 2; line_endings := LF;
  language := Cxx; cpp_compat := false; style := Both; sort_by := SortNone; usize_is_size_t := false; parse := default_parse; export := {| ex_include := []; ex_exclude := []; ex_rename := []; ex_pre_body := []; ex_body := []; ex_prefix := None; ex_item_types := []; ex_renaming_overrides_prefixing := false; ex_mangle := {| rename_types := RNone; remove_underscores := false |} |};
  layout := {| ly_packed := None; ly_aligned_n := None |}; function := {| fn_prefix := None; fn_postfix := None; fn_must_use := None; fn_deprecated := None; fn_deprecated_with_note := None; fn_args := Auto; fn_rename_args := RNone; fn_swift_name_macro := None; fn_sort_by := None; fn_no_return := None |}; structure := {| st_rename_fields := RNone; st_derive_constructor := false; st_derive_eq := false; st_derive_neq := false; st_derive_lt := false; st_derive_lte := false; st_derive_gt := false; st_derive_gte := false; st_derive_ostream := false; st_associated_constants_in_body := false; st_rename_associated_constant := RNone; st_must_use := None; st_deprecated := None; st_deprecated_with_note := None |}; enumeration := {| en_rename_variants := RNone; en_rename_variant_name_fields := SnakeCase; en_add_sentinel := false; en_prefix_with_name := false; en_derive_helper_methods := false; en_derive_const_casts := false; en_derive_mut_casts := false; en_cast_assert_name := None; en_must_use := None; en_deprecated := None; en_deprecated_with_note := None; en_deprecated_variant := None; en_deprecated_variant_with_note := None; en_derive_tagged_enum_destructor := false; en_derive_tagged_enum_copy_constructor := false; en_derive_tagged_enum_copy_assignment := false; en_derive_ostream := false; en_enum_class := true; en_private_default_tagged_enum_constructor := false |}; constant := {| co_allow_static_const := true; co_allow_constexpr := true; co_sort_by := None |}; defines := []; documentation := true;
  documentation_style := DocAuto; documentation_length := Full; pointer := {| pt_non_null_attribute := None; pt_nullable_attribute := None |}; cython := {| cy_header := None; cy_cimports := [] |}; config_path := None |}.
(** tests/expectations/package_version.compat.c *)
Definition package_version_compat : string := "/* Package version: 0.1.0 */

#include <stdarg.h>
#include <stdbool.h>
#include <stdint.h>
#include <stdlib.h>

typedef struct {
  uint64_t bar;
} Foo;

#ifdef __cplusplus
extern ""C"" {
#endif // __cplusplus

void doit(const Foo*);

#ifdef __cplusplus
}  // extern ""C""
#endif  // __cplusplus
".
(** tests/expectations/package_version_tag.compat.c *)
Definition package_version_compat_tag : string := "/* Package version: 0.1.0 */

#include <stdarg.h>
#include <stdbool.h>
#include <stdint.h>
#include <stdlib.h>

struct Foo {
  uint64_t bar;
};

#ifdef __cplusplus
extern ""C"" {
#endif // __cplusplus

void doit(const struct Foo*);

#ifdef __cplusplus
}  // extern ""C""
#endif  // __cplusplus
".
(** tests/expectations/package_version_both.compat.c *)
Definition package_version_compat_both : string := "/* Package version: 0.1.0 */

#include <stdarg.h>
#include <stdbool.h>
#include <stdint.h>
#include <stdlib.h>

typedef struct Foo {
  uint64_t bar;
} Foo;

#ifdef __cplusplus
extern ""C"" {
#endif // __cplusplus

void doit(const struct Foo*);

#ifdef __cplusplus
}  // extern ""C""
#endif  // __cplusplus
".
(** tests/expectations/package_version.c *)
Definition package_version_c : string := "/* Package version: 0.1.0 */

#include <stdarg.h>
#include <stdbool.h>
#include <stdint.h>
#include <stdlib.h>

typedef struct {
  uint64_t bar;
} Foo;

void doit(const Foo*);
".
(** tests/expectations/package_version_tag.c *)
Definition package_version_c_tag : string := "/* Package version: 0.1.0 */

#include <stdarg.h>
#include <stdbool.h>
#include <stdint.h>
#include <stdlib.h>

struct Foo {
  uint64_t bar;
};

void doit(const struct Foo*);
".
(** tests/expectations/package_version_both.c *)
Definition package_version_c_both : string := "/* Package version: 0.1.0 */

#include <stdarg.h>
#include <stdbool.h>
#include <stdint.h>
#include <stdlib.h>

typedef struct Foo {
  uint64_t bar;
} Foo;

void doit(const struct Foo*);
".
(** tests/expectations/package_version.cpp *)
Definition package_version_cpp : string := "/* Package version: 0.1.0 */

#include <cstdarg>
#include <cstdint>
#include <cstdlib>
#include <ostream>
#include <new>

struct Foo {
  uint64_t bar;
};

extern ""C"" {

void doit(const Foo*);

}  // extern ""C""
".
(** tests/expectations/package_version.pyx *)
Definition package_version_pyx : string := "''' Package version: 0.1.0 '''

from libc.stdint cimport int8_t, int16_t, int32_t, int64_t, intptr_t
from libc.stdint cimport uint8_t, uint16_t, uint32_t, uint64_t, uintptr_t
cdef extern from *:
  ctypedef bint bool
  ctypedef struct va_list

cdef extern from *:

  ctypedef struct Foo:
    uint64_t bar;

  void doit(const Foo*);
".
(** tests/expectations/package_version_tag.pyx *)
Definition package_version_pyx_tag : string := "''' Package version: 0.1.0 '''

from libc.stdint cimport int8_t, int16_t, int32_t, int64_t, intptr_t
from libc.stdint cimport uint8_t, uint16_t, uint32_t, uint64_t, uintptr_t
cdef extern from *:
  ctypedef bint bool
  ctypedef struct va_list

cdef extern from *:

  cdef struct Foo:
    uint64_t bar;

  void doit(const Foo*);
".
Example package_version_reproduced : reproduces (in_crate package_version_disk package_version_cargo) false package_version_toml (Some "{
doit;
};")
  [(RunC true Type_, [package_version_compat]);
   (RunC true Tag, [package_version_compat_tag]);
   (RunC true Both, [package_version_compat_both]);
   (RunC false Type_, [package_version_c]);
   (RunC false Tag, [package_version_c_tag]);
   (RunC false Both, [package_version_c_both]);
   (RunCxx, [package_version_cpp]);
   (RunCython Type_, [package_version_pyx]);
   (RunCython Tag, [package_version_pyx_tag])] = true.
Proof. vm_compute. reflexivity. Qed.

