(** See S_Suite.v; generated. *)
Require Import Coq.Strings.String Coq.Strings.Ascii Coq.Lists.List Coq.Bool.Bool Coq.NArith.NArith.
From Verif Require Import Base M_Config M_Cfg M_Type M_Ir M_Item M_Attr M_Syn M_Library M_Loader M_Parser M_Bindings M_Backend S_Heck S_Suite.
Import ListNotations.
Open Scope string_scope.

(** ** tests/rust/generic_pointer.rs *)
Definition generic_pointer_rs : list sitem := [
  (ItemStruct [{| at_meta := (AList (Some "repr") [(APath (Some "C"))]); at_outer := true |}] "Foo" [(SGType "T" None)] (FieldsNamed
  [{| sf_attrs := []; sf_ident := (Some "a"); sf_ty := (SPath (SegPath [] "T" NoArgs)) |}]));
  (ItemType [] "Boo" [] (SPath (SegPath [] "Foo" (AngleArgs [(ArgType (SPtr true (SPath (SegPath [] "u8" NoArgs))))]))));
  (ItemFn [{| at_meta := (APath (Some "no_mangle")); at_outer := true |}] true {| sg_ident := "root"; sg_abi := (Some (Some "C")); sg_inputs
  := [(FnTyped (PatIdent "x") (SPath (SegPath [] "Boo" NoArgs)))]; sg_variadic := false; sg_output := None |});
  (ItemFn [{| at_meta := (APath (Some "no_mangle")); at_outer := true |}] true {| sg_ident := "my_function"; sg_abi := (Some (Some "C"));
  sg_inputs := [(FnTyped (PatIdent "x") (SPath (SegPath [] "Foo" (AngleArgs [(ArgType (SArray (SPath (SegPath [] "u8" NoArgs)) (XLit
  (LitInt 4 ""))))]))))]; sg_variadic := false; sg_output := None |})].
(** tests/expectations/generic_pointer.compat.c *)
Definition generic_pointer_compat : string := "#include <stdarg.h>
#include <stdbool.h>
#include <stdint.h>
#include <stdlib.h>

typedef struct {
  uint8_t *a;
} Foo_____u8;

typedef Foo_____u8 Boo;

typedef struct {
  uint8_t a[4];
} Foo__________u8__________4;

#ifdef __cplusplus
extern ""C"" {
#endif // __cplusplus

void root(Boo x);

void my_function(Foo__________u8__________4 x);

#ifdef __cplusplus
}  // extern ""C""
#endif  // __cplusplus
".
(** tests/expectations/generic_pointer_tag.compat.c *)
Definition generic_pointer_compat_tag : string := "#include <stdarg.h>
#include <stdbool.h>
#include <stdint.h>
#include <stdlib.h>

struct Foo_____u8 {
  uint8_t *a;
};

typedef struct Foo_____u8 Boo;

struct Foo__________u8__________4 {
  uint8_t a[4];
};

#ifdef __cplusplus
extern ""C"" {
#endif // __cplusplus

void root(Boo x);

void my_function(struct Foo__________u8__________4 x);

#ifdef __cplusplus
}  // extern ""C""
#endif  // __cplusplus
".
(** tests/expectations/generic_pointer_both.compat.c *)
Definition generic_pointer_compat_both : string := "#include <stdarg.h>
#include <stdbool.h>
#include <stdint.h>
#include <stdlib.h>

typedef struct Foo_____u8 {
  uint8_t *a;
} Foo_____u8;

typedef struct Foo_____u8 Boo;

typedef struct Foo__________u8__________4 {
  uint8_t a[4];
} Foo__________u8__________4;

#ifdef __cplusplus
extern ""C"" {
#endif // __cplusplus

void root(Boo x);

void my_function(struct Foo__________u8__________4 x);

#ifdef __cplusplus
}  // extern ""C""
#endif  // __cplusplus
".
(** tests/expectations/generic_pointer.c *)
Definition generic_pointer_c : string := "#include <stdarg.h>
#include <stdbool.h>
#include <stdint.h>
#include <stdlib.h>

typedef struct {
  uint8_t *a;
} Foo_____u8;

typedef Foo_____u8 Boo;

typedef struct {
  uint8_t a[4];
} Foo__________u8__________4;

void root(Boo x);

void my_function(Foo__________u8__________4 x);
".
(** tests/expectations/generic_pointer_tag.c *)
Definition generic_pointer_c_tag : string := "#include <stdarg.h>
#include <stdbool.h>
#include <stdint.h>
#include <stdlib.h>

struct Foo_____u8 {
  uint8_t *a;
};

typedef struct Foo_____u8 Boo;

struct Foo__________u8__________4 {
  uint8_t a[4];
};

void root(Boo x);

void my_function(struct Foo__________u8__________4 x);
".
(** tests/expectations/generic_pointer_both.c *)
Definition generic_pointer_c_both : string := "#include <stdarg.h>
#include <stdbool.h>
#include <stdint.h>
#include <stdlib.h>

typedef struct Foo_____u8 {
  uint8_t *a;
} Foo_____u8;

typedef struct Foo_____u8 Boo;

typedef struct Foo__________u8__________4 {
  uint8_t a[4];
} Foo__________u8__________4;

void root(Boo x);

void my_function(struct Foo__________u8__________4 x);
".
(** tests/expectations/generic_pointer.cpp *)
Definition generic_pointer_cpp : string := "#include <cstdarg>
#include <cstdint>
#include <cstdlib>
#include <ostream>
#include <new>

template<typename T>
struct Foo {
  T a;
};

using Boo = Foo<uint8_t*>;

extern ""C"" {

void root(Boo x);

void my_function(Foo<uint8_t[4]> x);

}  // extern ""C""
".
(** tests/expectations/generic_pointer.pyx *)
Definition generic_pointer_pyx : string := "from libc.stdint cimport int8_t, int16_t, int32_t, int64_t, intptr_t
from libc.stdint cimport uint8_t, uint16_t, uint32_t, uint64_t, uintptr_t
cdef extern from *:
  ctypedef bint bool
  ctypedef struct va_list

cdef extern from *:

  ctypedef struct Foo_____u8:
    uint8_t *a;

  ctypedef Foo_____u8 Boo;

  ctypedef struct Foo__________u8__________4:
    uint8_t a[4];

  void root(Boo x);

  void my_function(Foo__________u8__________4 x);
".
(** tests/expectations/generic_pointer_tag.pyx *)
Definition generic_pointer_pyx_tag : string := "from libc.stdint cimport int8_t, int16_t, int32_t, int64_t, intptr_t
from libc.stdint cimport uint8_t, uint16_t, uint32_t, uint64_t, uintptr_t
cdef extern from *:
  ctypedef bint bool
  ctypedef struct va_list

cdef extern from *:

  cdef struct Foo_____u8:
    uint8_t *a;

  ctypedef Foo_____u8 Boo;

  cdef struct Foo__________u8__________4:
    uint8_t a[4];

  void root(Boo x);

  void my_function(Foo__________u8__________4 x);
".
Example generic_pointer_reproduced : reproduces (in_file generic_pointer_rs) false default_config (Some "{
root;
my_function;
};")
  [(RunC true Type_, [generic_pointer_compat]);
   (RunC true Tag, [generic_pointer_compat_tag]);
   (RunC true Both, [generic_pointer_compat_both]);
   (RunC false Type_, [generic_pointer_c]);
   (RunC false Tag, [generic_pointer_c_tag]);
   (RunC false Both, [generic_pointer_c_both]);
   (RunCxx, [generic_pointer_cpp]);
   (RunCython Type_, [generic_pointer_pyx]);
   (RunCython Tag, [generic_pointer_pyx_tag])] = true.
Proof. vm_compute. reflexivity. Qed.

(** ** tests/rust/global_attr.rs *)
Definition global_attr_rs : list sitem := [
  (ItemOther [])].
(** tests/expectations/global_attr.compat.c *)
Definition global_attr_compat : string := "#include <stdarg.h>
#include <stdbool.h>
#include <stdint.h>
#include <stdlib.h>
".
(** tests/expectations/global_attr.cpp *)
Definition global_attr_cpp : string := "#include <cstdarg>
#include <cstdint>
#include <cstdlib>
#include <ostream>
#include <new>
".
(** tests/expectations/global_attr.pyx *)
Definition global_attr_pyx : string := "from libc.stdint cimport int8_t, int16_t, int32_t, int64_t, intptr_t
from libc.stdint cimport uint8_t, uint16_t, uint32_t, uint64_t, uintptr_t
cdef extern from *:
  ctypedef bint bool
  ctypedef struct va_list

cdef extern from *:
  pass".
Example global_attr_reproduced : reproduces (in_file global_attr_rs) false default_config None
  [(RunC true Type_, [global_attr_compat]);
   (RunC true Tag, [global_attr_compat]);
   (RunC true Both, [global_attr_compat]);
   (RunC false Type_, [global_attr_compat]);
   (RunC false Tag, [global_attr_compat]);
   (RunC false Both, [global_attr_compat]);
   (RunCxx, [global_attr_cpp]);
   (RunCython Type_, [global_attr_pyx]);
   (RunCython Tag, [global_attr_pyx])] = true.
Proof. vm_compute. reflexivity. Qed.

(** ** tests/rust/global_variable.rs *)
Definition global_variable_rs : list sitem := [
  (ItemStatic [{| at_meta := (APath (Some "no_mangle")); at_outer := true |}] "MUT_GLOBAL_ARRAY" true (SArray (SPath (SegPath [] "c_char"
  NoArgs)) (XLit (LitInt 128 ""))));
  (ItemStatic [{| at_meta := (APath (Some "no_mangle")); at_outer := true |}] "CONST_GLOBAL_ARRAY" false (SArray (SPath (SegPath []
  "c_char" NoArgs)) (XLit (LitInt 128 ""))))].
(** tests/expectations/global_variable.compat.c *)
Definition global_variable_compat : string := "#include <stdarg.h>
#include <stdbool.h>
#include <stdint.h>
#include <stdlib.h>

#ifdef __cplusplus
extern ""C"" {
#endif // __cplusplus

extern char MUT_GLOBAL_ARRAY[128];

extern const char CONST_GLOBAL_ARRAY[128];

#ifdef __cplusplus
}  // extern ""C""
#endif  // __cplusplus
".
(** tests/expectations/global_variable.c *)
Definition global_variable_c : string := "#include <stdarg.h>
#include <stdbool.h>
#include <stdint.h>
#include <stdlib.h>

extern char MUT_GLOBAL_ARRAY[128];

extern const char CONST_GLOBAL_ARRAY[128];
".
(** tests/expectations/global_variable.cpp *)
Definition global_variable_cpp : string := "#include <cstdarg>
#include <cstdint>
#include <cstdlib>
#include <ostream>
#include <new>

extern ""C"" {

extern char MUT_GLOBAL_ARRAY[128];

extern const char CONST_GLOBAL_ARRAY[128];

}  // extern ""C""
".
(** tests/expectations/global_variable.pyx *)
Definition global_variable_pyx : string := "from libc.stdint cimport int8_t, int16_t, int32_t, int64_t, intptr_t
from libc.stdint cimport uint8_t, uint16_t, uint32_t, uint64_t, uintptr_t
cdef extern from *:
  ctypedef bint bool
  ctypedef struct va_list

cdef extern from *:

  extern char MUT_GLOBAL_ARRAY[128];

  extern const char CONST_GLOBAL_ARRAY[128];
".
Example global_variable_reproduced : reproduces (in_file global_variable_rs) false default_config (Some "{
MUT_GLOBAL_ARRAY;
CONST_GLOBAL_ARRAY;
};")
  [(RunC true Type_, [global_variable_compat]);
   (RunC true Tag, [global_variable_compat]);
   (RunC true Both, [global_variable_compat]);
   (RunC false Type_, [global_variable_c]);
   (RunC false Tag, [global_variable_compat; global_variable_c]);
   (RunC false Both, [global_variable_compat; global_variable_c]);
   (RunCxx, [global_variable_cpp]);
   (RunCython Type_, [global_variable_pyx]);
   (RunCython Tag, [global_variable_pyx])] = true.
Proof. vm_compute. reflexivity. Qed.

(** ** tests/rust/ignore.rs *)
Definition ignore_rs : list sitem := [
  (ItemFn [{| at_meta := ANameValue (Some "doc") (Some " cbindgen:ignore"); at_outer := true |}; {| at_meta := (APath (Some "no_mangle"));
  at_outer := true |}] true {| sg_ident := "root"; sg_abi := (Some (Some "C")); sg_inputs := []; sg_variadic := false; sg_output :=
  None |});
  (ItemFn [{| at_meta := ANameValue (Some "doc") (Some " cbindgen:ignore"); at_outer := true |}; {| at_meta := ANameValue (Some "doc")
  (Some ""); at_outer := true |}; {| at_meta := ANameValue (Some "doc") (Some " Something else."); at_outer := true |}; {| at_meta
  := (APath (Some "no_mangle")); at_outer := true |}] true {| sg_ident := "another_root"; sg_abi := (Some (Some "C")); sg_inputs :=
  []; sg_variadic := false; sg_output := None |});
  (ItemFn [{| at_meta := (APath (Some "no_mangle")); at_outer := true |}] true {| sg_ident := "no_ignore_root"; sg_abi := (Some (Some
  "C")); sg_inputs := []; sg_variadic := false; sg_output := None |});
  (ItemStruct [{| at_meta := ANameValue (Some "doc") (Some " cbindgen:ignore"); at_outer := true |}; {| at_meta := (AList (Some "repr")
  [(APath (Some "C"))]); at_outer := true |}] "IgnoreStruct" [] (FieldsNamed []));
  (ItemStruct [] "IgnoreStructWithImpl" [] FieldsUnit);
  (ItemImpl [{| at_meta := ANameValue (Some "doc") (Some " cbindgen:ignore"); at_outer := true |}] (SPath (SegPath [] "IgnoreStructWithImpl"
  NoArgs)) [(ImplFn [{| at_meta := (APath (Some "no_mangle")); at_outer := true |}] true {| sg_ident := "ignore_associated_method";
  sg_abi := (Some (Some "C")); sg_inputs := []; sg_variadic := false; sg_output := None |}); (ImplConst [] true "IGNORE_INNER_CONST"
  (SPath (SegPath [] "u32" NoArgs)) (XLit (LitInt 0 "")))]);
  (ItemConst [{| at_meta := ANameValue (Some "doc") (Some " cbindgen:ignore"); at_outer := true |}] true "IGNORE_CONST" (SPath (SegPath
  [] "u32" NoArgs)) (XLit (LitInt 0 "")));
  (ItemConst [] true "NO_IGNORE_CONST" (SPath (SegPath [] "u32" NoArgs)) (XLit (LitInt 0 "")));
  (ItemStruct [] "NoIgnoreStructWithImpl" [] FieldsUnit);
  (ItemImpl [] (SPath (SegPath [] "NoIgnoreStructWithImpl" NoArgs)) [(ImplFn [{| at_meta := ANameValue (Some "doc") (Some " cbindgen:ignore");
  at_outer := true |}; {| at_meta := (APath (Some "no_mangle")); at_outer := true |}] true {| sg_ident := "ignore_associated_method";
  sg_abi := (Some (Some "C")); sg_inputs := []; sg_variadic := false; sg_output := None |}); (ImplFn [{| at_meta := (APath (Some "no_mangle"));
  at_outer := true |}] true {| sg_ident := "no_ignore_associated_method"; sg_abi := (Some (Some "C")); sg_inputs := []; sg_variadic
  := false; sg_output := None |}); (ImplConst [{| at_meta := ANameValue (Some "doc") (Some " cbindgen:ignore"); at_outer := true |}]
  true "IGNORE_INNER_CONST" (SPath (SegPath [] "u32" NoArgs)) (XLit (LitInt 0 ""))); (ImplConst [] true "NO_IGNORE_INNER_CONST" (SPath
  (SegPath [] "u32" NoArgs)) (XLit (LitInt 0 "")))]);
  (ItemEnum [{| at_meta := ANameValue (Some "doc") (Some " cbindgen:ignore"); at_outer := true |}] "IgnoreEnum" [] []);
  (ItemEnum [] "NoIgnoreEnum" [] [])].
(** tests/expectations/ignore.compat.c *)
Definition ignore_compat : string := "#include <stdarg.h>
#include <stdbool.h>
#include <stdint.h>
#include <stdlib.h>

#define NO_IGNORE_CONST 0

#define NoIgnoreStructWithImpl_NO_IGNORE_INNER_CONST 0

#ifdef __cplusplus
extern ""C"" {
#endif // __cplusplus

void no_ignore_root(void);

void no_ignore_associated_method(void);

#ifdef __cplusplus
}  // extern ""C""
#endif  // __cplusplus
".
(** tests/expectations/ignore.c *)
Definition ignore_c : string := "#include <stdarg.h>
#include <stdbool.h>
#include <stdint.h>
#include <stdlib.h>

#define NO_IGNORE_CONST 0

#define NoIgnoreStructWithImpl_NO_IGNORE_INNER_CONST 0

void no_ignore_root(void);

void no_ignore_associated_method(void);
".
(** tests/expectations/ignore.cpp *)
Definition ignore_cpp : string := "#include <cstdarg>
#include <cstdint>
#include <cstdlib>
#include <ostream>
#include <new>

constexpr static const uint32_t NO_IGNORE_CONST = 0;

constexpr static const uint32_t NoIgnoreStructWithImpl_NO_IGNORE_INNER_CONST = 0;

extern ""C"" {

void no_ignore_root();

void no_ignore_associated_method();

}  // extern ""C""
".
(** tests/expectations/ignore.pyx *)
Definition ignore_pyx : string := "from libc.stdint cimport int8_t, int16_t, int32_t, int64_t, intptr_t
from libc.stdint cimport uint8_t, uint16_t, uint32_t, uint64_t, uintptr_t
cdef extern from *:
  ctypedef bint bool
  ctypedef struct va_list

cdef extern from *:

  const uint32_t NO_IGNORE_CONST # = 0

  const uint32_t NoIgnoreStructWithImpl_NO_IGNORE_INNER_CONST # = 0

  void no_ignore_root();

  void no_ignore_associated_method();
".
Example ignore_reproduced : reproduces (in_file ignore_rs) false default_config (Some "{
no_ignore_root;
no_ignore_associated_method;
};")
  [(RunC true Type_, [ignore_compat]);
   (RunC true Tag, [ignore_compat]);
   (RunC true Both, [ignore_compat]);
   (RunC false Type_, [ignore_c]);
   (RunC false Tag, [ignore_compat; ignore_c]);
   (RunC false Both, [ignore_compat; ignore_c]);
   (RunCxx, [ignore_cpp]);
   (RunCython Type_, [ignore_pyx]);
   (RunCython Tag, [ignore_pyx])] = true.
Proof. vm_compute. reflexivity. Qed.

(** ** tests/rust/impl_unsafe_attr_method.rs *)
Definition impl_unsafe_attr_method_rs : list sitem := [
  (ItemStruct [{| at_meta := (AList (Some "repr") [(APath (Some "C"))]); at_outer := true |}] "DummyStruct" [] (FieldsNamed [{| sf_attrs
  := []; sf_ident := (Some "dummy_field"); sf_ty := (SPath (SegPath [] "i32" NoArgs)) |}]));
  (ItemImpl [] (SPath (SegPath [] "DummyStruct" NoArgs)) [(ImplFn [{| at_meta := (AList (Some "unsafe") [(ANameValue (Some "export_name")
  (Some "new_dummy"))]); at_outer := true |}] true {| sg_ident := "new"; sg_abi := (Some (Some "C")); sg_inputs := []; sg_variadic
  := false; sg_output := (Some (SPath (SegPath [] "Self" NoArgs))) |}); (ImplFn [{| at_meta := (AList (Some "unsafe") [(APath (Some
  "no_mangle"))]); at_outer := true |}] true {| sg_ident := "new_dummy_param"; sg_abi := (Some (Some "C")); sg_inputs := [(FnTyped
  (PatIdent "dummy_field") (SPath (SegPath [] "i32" NoArgs)))]; sg_variadic := false; sg_output := (Some (SPath (SegPath [] "Self"
  NoArgs))) |})])].
(** tests/expectations/impl_unsafe_attr_method.compat.c *)
Definition impl_unsafe_attr_method_compat : string := "#include <stdarg.h>
#include <stdbool.h>
#include <stdint.h>
#include <stdlib.h>

typedef struct {
  int32_t dummy_field;
} DummyStruct;

#ifdef __cplusplus
extern ""C"" {
#endif // __cplusplus

DummyStruct new_dummy(void);

DummyStruct new_dummy_param(int32_t dummy_field);

#ifdef __cplusplus
}  // extern ""C""
#endif  // __cplusplus
".
(** tests/expectations/impl_unsafe_attr_method_tag.compat.c *)
Definition impl_unsafe_attr_method_compat_tag : string := "#include <stdarg.h>
#include <stdbool.h>
#include <stdint.h>
#include <stdlib.h>

struct DummyStruct {
  int32_t dummy_field;
};

#ifdef __cplusplus
extern ""C"" {
#endif // __cplusplus

struct DummyStruct new_dummy(void);

struct DummyStruct new_dummy_param(int32_t dummy_field);

#ifdef __cplusplus
}  // extern ""C""
#endif  // __cplusplus
".
(** tests/expectations/impl_unsafe_attr_method_both.compat.c *)
Definition impl_unsafe_attr_method_compat_both : string := "#include <stdarg.h>
#include <stdbool.h>
#include <stdint.h>
#include <stdlib.h>

typedef struct DummyStruct {
  int32_t dummy_field;
} DummyStruct;

#ifdef __cplusplus
extern ""C"" {
#endif // __cplusplus

struct DummyStruct new_dummy(void);

struct DummyStruct new_dummy_param(int32_t dummy_field);

#ifdef __cplusplus
}  // extern ""C""
#endif  // __cplusplus
".
(** tests/expectations/impl_unsafe_attr_method.c *)
Definition impl_unsafe_attr_method_c : string := "#include <stdarg.h>
#include <stdbool.h>
#include <stdint.h>
#include <stdlib.h>

typedef struct {
  int32_t dummy_field;
} DummyStruct;

DummyStruct new_dummy(void);

DummyStruct new_dummy_param(int32_t dummy_field);
".
(** tests/expectations/impl_unsafe_attr_method_tag.c *)
Definition impl_unsafe_attr_method_c_tag : string := "#include <stdarg.h>
#include <stdbool.h>
#include <stdint.h>
#include <stdlib.h>

struct DummyStruct {
  int32_t dummy_field;
};

struct DummyStruct new_dummy(void);

struct DummyStruct new_dummy_param(int32_t dummy_field);
".
(** tests/expectations/impl_unsafe_attr_method_both.c *)
Definition impl_unsafe_attr_method_c_both : string := "#include <stdarg.h>
#include <stdbool.h>
#include <stdint.h>
#include <stdlib.h>

typedef struct DummyStruct {
  int32_t dummy_field;
} DummyStruct;

struct DummyStruct new_dummy(void);

struct DummyStruct new_dummy_param(int32_t dummy_field);
".
(** tests/expectations/impl_unsafe_attr_method.cpp *)
Definition impl_unsafe_attr_method_cpp : string := "#include <cstdarg>
#include <cstdint>
#include <cstdlib>
#include <ostream>
#include <new>

struct DummyStruct {
  int32_t dummy_field;
};

extern ""C"" {

DummyStruct new_dummy();

DummyStruct new_dummy_param(int32_t dummy_field);

}  // extern ""C""
".
(** tests/expectations/impl_unsafe_attr_method.pyx *)
Definition impl_unsafe_attr_method_pyx : string := "from libc.stdint cimport int8_t, int16_t, int32_t, int64_t, intptr_t
from libc.stdint cimport uint8_t, uint16_t, uint32_t, uint64_t, uintptr_t
cdef extern from *:
  ctypedef bint bool
  ctypedef struct va_list

cdef extern from *:

  ctypedef struct DummyStruct:
    int32_t dummy_field;

  DummyStruct new_dummy();

  DummyStruct new_dummy_param(int32_t dummy_field);
".
(** tests/expectations/impl_unsafe_attr_method_tag.pyx *)
Definition impl_unsafe_attr_method_pyx_tag : string := "from libc.stdint cimport int8_t, int16_t, int32_t, int64_t, intptr_t
from libc.stdint cimport uint8_t, uint16_t, uint32_t, uint64_t, uintptr_t
cdef extern from *:
  ctypedef bint bool
  ctypedef struct va_list

cdef extern from *:

  cdef struct DummyStruct:
    int32_t dummy_field;

  DummyStruct new_dummy();

  DummyStruct new_dummy_param(int32_t dummy_field);
".
Example impl_unsafe_attr_method_reproduced : reproduces (in_file impl_unsafe_attr_method_rs) false default_config (Some "{
new_dummy;
new_dummy_param;
};")
  [(RunC true Type_, [impl_unsafe_attr_method_compat]);
   (RunC true Tag, [impl_unsafe_attr_method_compat_tag]);
   (RunC true Both, [impl_unsafe_attr_method_compat_both]);
   (RunC false Type_, [impl_unsafe_attr_method_c]);
   (RunC false Tag, [impl_unsafe_attr_method_c_tag]);
   (RunC false Both, [impl_unsafe_attr_method_c_both]);
   (RunCxx, [impl_unsafe_attr_method_cpp]);
   (RunCython Type_, [impl_unsafe_attr_method_pyx]);
   (RunCython Tag, [impl_unsafe_attr_method_pyx_tag])] = true.
Proof. vm_compute. reflexivity. Qed.

(** ** tests/rust/include.rs *)
Definition include_rs : list sitem := [
  ].
Definition include_toml : Config := {| header := None; includes_ := []; sys_includes_ := ["math.h"]; after_includes := None; trailer := None;
  include_guard_ := None; pragma_once := false; no_includes := false; package_version := false; autogen_warning := None; include_version := false;
  namespace := None; namespaces := None; using_namespaces := None; braces := SameLine; line_length := 100; tab_width := 2; line_endings := LF;
  language := Cxx; cpp_compat := false; style := Both; sort_by := SortNone; usize_is_size_t := false; parse := default_parse; export := {| ex_include := []; ex_exclude := []; ex_rename := []; ex_pre_body := []; ex_body := []; ex_prefix := None; ex_item_types := []; ex_renaming_overrides_prefixing := false; ex_mangle := {| rename_types := RNone; remove_underscores := false |} |};
  layout := {| ly_packed := None; ly_aligned_n := None |}; function := {| fn_prefix := None; fn_postfix := None; fn_must_use := None; fn_deprecated := None; fn_deprecated_with_note := None; fn_args := Auto; fn_rename_args := RNone; fn_swift_name_macro := None; fn_sort_by := None; fn_no_return := None |}; structure := {| st_rename_fields := RNone; st_derive_constructor := false; st_derive_eq := false; st_derive_neq := false; st_derive_lt := false; st_derive_lte := false; st_derive_gt := false; st_derive_gte := false; st_derive_ostream := false; st_associated_constants_in_body := false; st_rename_associated_constant := RNone; st_must_use := None; st_deprecated := None; st_deprecated_with_note := None |}; enumeration := {| en_rename_variants := RNone; en_rename_variant_name_fields := SnakeCase; en_add_sentinel := false; en_prefix_with_name := false; en_derive_helper_methods := false; en_derive_const_casts := false; en_derive_mut_casts := false; en_cast_assert_name := None; en_must_use := None; en_deprecated := None; en_deprecated_with_note := None; en_deprecated_variant := None; en_deprecated_variant_with_note := None; en_derive_tagged_enum_destructor := false; en_derive_tagged_enum_copy_constructor := false; en_derive_tagged_enum_copy_assignment := false; en_derive_ostream := false; en_enum_class := true; en_private_default_tagged_enum_constructor := false |}; constant := {| co_allow_static_const := true; co_allow_constexpr := true; co_sort_by := None |}; defines := []; documentation := true;
  documentation_style := DocAuto; documentation_length := Full; pointer := {| pt_non_null_attribute := None; pt_nullable_attribute := None |}; cython := {| cy_header := None; cy_cimports := [] |}; config_path := None |}.
(** tests/expectations/include.compat.c *)
Definition include_compat : string := "#include <stdarg.h>
#include <stdbool.h>
#include <stdint.h>
#include <stdlib.h>
#include <math.h>
".
(** tests/expectations/include.cpp *)
Definition include_cpp : string := "#include <cstdarg>
#include <cstdint>
#include <cstdlib>
#include <ostream>
#include <new>
#include <math.h>
".
(** tests/expectations/include.pyx *)
Definition include_pyx : string := "from libc.stdint cimport int8_t, int16_t, int32_t, int64_t, intptr_t
from libc.stdint cimport uint8_t, uint16_t, uint32_t, uint64_t, uintptr_t
cdef extern from *:
  ctypedef bint bool
  ctypedef struct va_list

cdef extern from *:
  pass".
Example include_reproduced : reproduces (in_file include_rs) false include_toml None
  [(RunC true Type_, [include_compat]);
   (RunC true Tag, [include_compat]);
   (RunC true Both, [include_compat]);
   (RunC false Type_, [include_compat]);
   (RunC false Tag, [include_compat]);
   (RunC false Both, [include_compat]);
   (RunCxx, [include_cpp]);
   (RunCython Type_, [include_pyx]);
   (RunCython Tag, [include_pyx])] = true.
Proof. vm_compute. reflexivity. Qed.

(** ** tests/rust/include_guard.rs *)
Definition include_guard_rs : list sitem := [
  (ItemFn [{| at_meta := (APath (Some "no_mangle")); at_outer := true |}] true {| sg_ident := "root"; sg_abi := (Some (Some "C")); sg_inputs
  := []; sg_variadic := false; sg_output := None |})].
Definition include_guard_toml : Config := {| header := None; includes_ := []; sys_includes_ := []; after_includes := None; trailer := None;
  include_guard_ := (Some "INCLUDE_GUARD_H"); pragma_once := false; no_includes := true; package_version := false; autogen_warning := None; include_version := false;
  namespace := None; namespaces := None; using_namespaces := None; braces := SameLine; line_length := 100; tab_width := 2; line_endings := LF;
  language := Cxx; cpp_compat := false; style := Both; sort_by := SortNone; usize_is_size_t := false; parse := default_parse; export := {| ex_include := []; ex_exclude := []; ex_rename := []; ex_pre_body := []; ex_body := []; ex_prefix := None; ex_item_types := []; ex_renaming_overrides_prefixing := false; ex_mangle := {| rename_types := RNone; remove_underscores := false |} |};
  layout := {| ly_packed := None; ly_aligned_n := None |}; function := {| fn_prefix := None; fn_postfix := None; fn_must_use := None; fn_deprecated := None; fn_deprecated_with_note := None; fn_args := Auto; fn_rename_args := RNone; fn_swift_name_macro := None; fn_sort_by := None; fn_no_return := None |}; structure := {| st_rename_fields := RNone; st_derive_constructor := false; st_derive_eq := false; st_derive_neq := false; st_derive_lt := false; st_derive_lte := false; st_derive_gt := false; st_derive_gte := false; st_derive_ostream := false; st_associated_constants_in_body := false; st_rename_associated_constant := RNone; st_must_use := None; st_deprecated := None; st_deprecated_with_note := None |}; enumeration := {| en_rename_variants := RNone; en_rename_variant_name_fields := SnakeCase; en_add_sentinel := false; en_prefix_with_name := false; en_derive_helper_methods := false; en_derive_const_casts := false; en_derive_mut_casts := false; en_cast_assert_name := None; en_must_use := None; en_deprecated := None; en_deprecated_with_note := None; en_deprecated_variant := None; en_deprecated_variant_with_note := None; en_derive_tagged_enum_destructor := false; en_derive_tagged_enum_copy_constructor := false; en_derive_tagged_enum_copy_assignment := false; en_derive_ostream := false; en_enum_class := true; en_private_default_tagged_enum_constructor := false |}; constant := {| co_allow_static_const := true; co_allow_constexpr := true; co_sort_by := None |}; defines := []; documentation := true;
  documentation_style := DocAuto; documentation_length := Full; pointer := {| pt_non_null_attribute := None; pt_nullable_attribute := None |}; cython := {| cy_header := None; cy_cimports := [] |}; config_path := None |}.
(** tests/expectations/include_guard.compat.c *)
Definition include_guard_compat : string := "#ifndef INCLUDE_GUARD_H
#define INCLUDE_GUARD_H

#ifdef __cplusplus
extern ""C"" {
#endif // __cplusplus

void root(void);

#ifdef __cplusplus
}  // extern ""C""
#endif  // __cplusplus

#endif  /* INCLUDE_GUARD_H */
".
(** tests/expectations/include_guard.c *)
Definition include_guard_c : string := "#ifndef INCLUDE_GUARD_H
#define INCLUDE_GUARD_H

void root(void);

#endif  /* INCLUDE_GUARD_H */
".
(** tests/expectations/include_guard.cpp *)
Definition include_guard_cpp : string := "#ifndef INCLUDE_GUARD_H
#define INCLUDE_GUARD_H

extern ""C"" {

void root();

}  // extern ""C""

#endif  // INCLUDE_GUARD_H
".
(** tests/expectations/include_guard.pyx *)
Definition include_guard_pyx : string := "
cdef extern from *:

  void root();
".
Example include_guard_reproduced : reproduces (in_file include_guard_rs) false include_guard_toml (Some "{
root;
};")
  [(RunC true Type_, [include_guard_compat]);
   (RunC true Tag, [include_guard_compat]);
   (RunC true Both, [include_guard_compat]);
   (RunC false Type_, [include_guard_c]);
   (RunC false Tag, [include_guard_compat; include_guard_c]);
   (RunC false Both, [include_guard_compat; include_guard_c]);
   (RunCxx, [include_guard_cpp]);
   (RunCython Type_, [include_guard_pyx]);
   (RunCython Tag, [include_guard_pyx])] = true.
Proof. vm_compute. reflexivity. Qed.

(** ** tests/rust/include_item.rs *)
Definition include_item_rs : list sitem := [
  (ItemStruct [{| at_meta := (AList (Some "repr") [(APath (Some "C"))]); at_outer := true |}] "A" [] (FieldsNamed [{| sf_attrs := [];
  sf_ident := (Some "x"); sf_ty := (SPath (SegPath [] "i32" NoArgs)) |}; {| sf_attrs := []; sf_ident := (Some "y"); sf_ty := (SPath
  (SegPath [] "f32" NoArgs)) |}]));
  (ItemStruct [{| at_meta := (AList (Some "repr") [(APath (Some "C"))]); at_outer := true |}] "B" [] (FieldsNamed [{| sf_attrs := [];
  sf_ident := (Some "data"); sf_ty := (SPath (SegPath [] "A" NoArgs)) |}]))].
Definition include_item_toml : Config := {| header := None; includes_ := []; sys_includes_ := []; after_includes := None; trailer := None;
  include_guard_ := None; pragma_once := false; no_includes := false; package_version := false; autogen_warning := None; include_version := false;
  namespace := None; namespaces := None; using_namespaces := None; braces := SameLine; line_length := 100; tab_width := 2; line_endings := LF;
  language := Cxx; cpp_compat := false; style := Both; sort_by := SortNone; usize_is_size_t := false; parse := default_parse; export := {| ex_include := ["B"]; ex_exclude := []; ex_rename := []; ex_pre_body := []; ex_body := []; ex_prefix := None; ex_item_types := []; ex_renaming_overrides_prefixing := false; ex_mangle := {| rename_types := RNone; remove_underscores := false |} |};
  layout := {| ly_packed := None; ly_aligned_n := None |}; function := {| fn_prefix := None; fn_postfix := None; fn_must_use := None; fn_deprecated := None; fn_deprecated_with_note := None; fn_args := Auto; fn_rename_args := RNone; fn_swift_name_macro := None; fn_sort_by := None; fn_no_return := None |}; structure := {| st_rename_fields := RNone; st_derive_constructor := false; st_derive_eq := false; st_derive_neq := false; st_derive_lt := false; st_derive_lte := false; st_derive_gt := false; st_derive_gte := false; st_derive_ostream := false; st_associated_constants_in_body := false; st_rename_associated_constant := RNone; st_must_use := None; st_deprecated := None; st_deprecated_with_note := None |}; enumeration := {| en_rename_variants := RNone; en_rename_variant_name_fields := SnakeCase; en_add_sentinel := false; en_prefix_with_name := false; en_derive_helper_methods := false; en_derive_const_casts := false; en_derive_mut_casts := false; en_cast_assert_name := None; en_must_use := None; en_deprecated := None; en_deprecated_with_note := None; en_deprecated_variant := None; en_deprecated_variant_with_note := None; en_derive_tagged_enum_destructor := false; en_derive_tagged_enum_copy_constructor := false; en_derive_tagged_enum_copy_assignment := false; en_derive_ostream := false; en_enum_class := true; en_private_default_tagged_enum_constructor := false |}; constant := {| co_allow_static_const := true; co_allow_constexpr := true; co_sort_by := None |}; defines := []; documentation := true;
  documentation_style := DocAuto; documentation_length := Full; pointer := {| pt_non_null_attribute := None; pt_nullable_attribute := None |}; cython := {| cy_header := None; cy_cimports := [] |}; config_path := None |}.
(** tests/expectations/include_item.compat.c *)
Definition include_item_compat : string := "#include <stdarg.h>
#include <stdbool.h>
#include <stdint.h>
#include <stdlib.h>

typedef struct {
  int32_t x;
  float y;
} A;

typedef struct {
  A data;
} B;
".
(** tests/expectations/include_item_tag.compat.c *)
Definition include_item_compat_tag : string := "#include <stdarg.h>
#include <stdbool.h>
#include <stdint.h>
#include <stdlib.h>

struct A {
  int32_t x;
  float y;
};

struct B {
  struct A data;
};
".
(** tests/expectations/include_item_both.compat.c *)
Definition include_item_compat_both : string := "#include <stdarg.h>
#include <stdbool.h>
#include <stdint.h>
#include <stdlib.h>

typedef struct A {
  int32_t x;
  float y;
} A;

typedef struct B {
  struct A data;
} B;
".
(** tests/expectations/include_item.cpp *)
Definition include_item_cpp : string := "#include <cstdarg>
#include <cstdint>
#include <cstdlib>
#include <ostream>
#include <new>

struct A {
  int32_t x;
  float y;
};

struct B {
  A data;
};
".
(** tests/expectations/include_item.pyx *)
Definition include_item_pyx : string := "from libc.stdint cimport int8_t, int16_t, int32_t, int64_t, intptr_t
from libc.stdint cimport uint8_t, uint16_t, uint32_t, uint64_t, uintptr_t
cdef extern from *:
  ctypedef bint bool
  ctypedef struct va_list

cdef extern from *:

  ctypedef struct A:
    int32_t x;
    float y;

  ctypedef struct B:
    A data;
".
(** tests/expectations/include_item_tag.pyx *)
Definition include_item_pyx_tag : string := "from libc.stdint cimport int8_t, int16_t, int32_t, int64_t, intptr_t
from libc.stdint cimport uint8_t, uint16_t, uint32_t, uint64_t, uintptr_t
cdef extern from *:
  ctypedef bint bool
  ctypedef struct va_list

cdef extern from *:

  cdef struct A:
    int32_t x;
    float y;

  cdef struct B:
    A data;
".
Example include_item_reproduced : reproduces (in_file include_item_rs) false include_item_toml None
  [(RunC true Type_, [include_item_compat]);
   (RunC true Tag, [include_item_compat_tag]);
   (RunC true Both, [include_item_compat_both]);
   (RunC false Type_, [include_item_compat; include_item_compat_tag; include_item_compat_both]);
   (RunC false Tag, [include_item_compat; include_item_compat_tag; include_item_compat_both]);
   (RunC false Both, [include_item_compat; include_item_compat_tag; include_item_compat_both]);
   (RunCxx, [include_item_cpp]);
   (RunCython Type_, [include_item_pyx]);
   (RunCython Tag, [include_item_pyx_tag])] = true.
Proof. vm_compute. reflexivity. Qed.

(** ** tests/rust/include_specific.rs *)
Definition include_specific_rs : list sitem := [
  ].
Definition include_specific_toml : Config := {| header := None; includes_ := []; sys_includes_ := ["math.h"]; after_includes := None; trailer := None;
  include_guard_ := None; pragma_once := false; no_includes := true; package_version := false; autogen_warning := None; include_version := false;
  namespace := None; namespaces := None; using_namespaces := None; braces := SameLine; line_length := 100; tab_width := 2; line_endings := LF;
  language := Cxx; cpp_compat := false; style := Both; sort_by := SortNone; usize_is_size_t := false; parse := default_parse; export := {| ex_include := []; ex_exclude := []; ex_rename := []; ex_pre_body := []; ex_body := []; ex_prefix := None; ex_item_types := []; ex_renaming_overrides_prefixing := false; ex_mangle := {| rename_types := RNone; remove_underscores := false |} |};
  layout := {| ly_packed := None; ly_aligned_n := None |}; function := {| fn_prefix := None; fn_postfix := None; fn_must_use := None; fn_deprecated := None; fn_deprecated_with_note := None; fn_args := Auto; fn_rename_args := RNone; fn_swift_name_macro := None; fn_sort_by := None; fn_no_return := None |}; structure := {| st_rename_fields := RNone; st_derive_constructor := false; st_derive_eq := false; st_derive_neq := false; st_derive_lt := false; st_derive_lte := false; st_derive_gt := false; st_derive_gte := false; st_derive_ostream := false; st_associated_constants_in_body := false; st_rename_associated_constant := RNone; st_must_use := None; st_deprecated := None; st_deprecated_with_note := None |}; enumeration := {| en_rename_variants := RNone; en_rename_variant_name_fields := SnakeCase; en_add_sentinel := false; en_prefix_with_name := false; en_derive_helper_methods := false; en_derive_const_casts := false; en_derive_mut_casts := false; en_cast_assert_name := None; en_must_use := None; en_deprecated := None; en_deprecated_with_note := None; en_deprecated_variant := None; en_deprecated_variant_with_note := None; en_derive_tagged_enum_destructor := false; en_derive_tagged_enum_copy_constructor := false; en_derive_tagged_enum_copy_assignment := false; en_derive_ostream := false; en_enum_class := true; en_private_default_tagged_enum_constructor := false |}; constant := {| co_allow_static_const := true; co_allow_constexpr := true; co_sort_by := None |}; defines := []; documentation := true;
  documentation_style := DocAuto; documentation_length := Full; pointer := {| pt_non_null_attribute := None; pt_nullable_attribute := None |}; cython := {| cy_header := None; cy_cimports := [] |}; config_path := None |}.
(** tests/expectations/include_specific.compat.c *)
Definition include_specific_compat : string := "#include <math.h>
".
(** tests/expectations/include_specific.cpp *)
Definition include_specific_cpp : string := "#include <math.h>
".
(** tests/expectations/include_specific.pyx *)
Definition include_specific_pyx : string := "
cdef extern from *:
  pass".
Example include_specific_reproduced : reproduces (in_file include_specific_rs) false include_specific_toml None
  [(RunC true Type_, [include_specific_compat]);
   (RunC true Tag, [include_specific_compat]);
   (RunC true Both, [include_specific_compat]);
   (RunC false Type_, [include_specific_compat]);
   (RunC false Tag, [include_specific_compat]);
   (RunC false Both, [include_specific_compat]);
   (RunCxx, [include_specific_cpp]);
   (RunCython Type_, [include_specific_pyx]);
   (RunCython Tag, [include_specific_pyx])] = true.
Proof. vm_compute. reflexivity. Qed.

(** ** tests/rust/infinite_recursion_typedef_monomorph.rs *)
Definition infinite_recursion_typedef_monomorph_rs : list sitem := [
  (ItemType [] "TryVec" [(SGType "T" None)] (SPath (SegPath ["fallible_collections"] "TryVec" (AngleArgs [(ArgType (SPath (SegPath []
  "T" NoArgs)))]))));
  (ItemType [] "TryString" [] (SPath (SegPath ["fallible_collections"] "TryVec" (AngleArgs [(ArgType (SPath (SegPath [] "u8" NoArgs)))]))))].
(** tests/expectations/infinite_recursion_typedef_monomorph.compat.c *)
Definition infinite_recursion_typedef_monomorph_compat : string := "#include <stdarg.h>
#include <stdbool.h>
#include <stdint.h>
#include <stdlib.h>
".
(** tests/expectations/infinite_recursion_typedef_monomorph.cpp *)
Definition infinite_recursion_typedef_monomorph_cpp : string := "#include <cstdarg>
#include <cstdint>
#include <cstdlib>
#include <ostream>
#include <new>
".
(** tests/expectations/infinite_recursion_typedef_monomorph.pyx *)
Definition infinite_recursion_typedef_monomorph_pyx : string := "from libc.stdint cimport int8_t, int16_t, int32_t, int64_t, intptr_t
from libc.stdint cimport uint8_t, uint16_t, uint32_t, uint64_t, uintptr_t
cdef extern from *:
  ctypedef bint bool
  ctypedef struct va_list

cdef extern from *:
  pass".
Example infinite_recursion_typedef_monomorph_reproduced : reproduces (in_file infinite_recursion_typedef_monomorph_rs) false default_config None
  [(RunC true Type_, [infinite_recursion_typedef_monomorph_compat]);
   (RunC true Tag, [infinite_recursion_typedef_monomorph_compat]);
   (RunC true Both, [infinite_recursion_typedef_monomorph_compat]);
   (RunC false Type_, [infinite_recursion_typedef_monomorph_compat]);
   (RunC false Tag, [infinite_recursion_typedef_monomorph_compat]);
   (RunC false Both, [infinite_recursion_typedef_monomorph_compat]);
   (RunCxx, [infinite_recursion_typedef_monomorph_cpp]);
   (RunCython Type_, [infinite_recursion_typedef_monomorph_pyx]);
   (RunCython Tag, [infinite_recursion_typedef_monomorph_pyx])] = true.
Proof. vm_compute. reflexivity. Qed.

(** ** tests/rust/inner_mod.rs *)
Definition inner_mod_rs : list sitem := [
  (ItemMod [] "foo" (Some [(ItemStruct [{| at_meta := (AList (Some "repr") [(APath (Some "C"))]); at_outer := true |}] "Foo" [] (FieldsNamed
  [{| sf_attrs := []; sf_ident := (Some "x"); sf_ty := (SPath (SegPath [] "f32" NoArgs)) |}]))]));
  (ItemFn [{| at_meta := (APath (Some "no_mangle")); at_outer := true |}] true {| sg_ident := "root"; sg_abi := (Some (Some "C")); sg_inputs
  := [(FnTyped (PatIdent "a") (SPath (SegPath ["foo"] "Foo" NoArgs)))]; sg_variadic := false; sg_output := None |})].
(** tests/expectations/inner_mod.compat.c *)
Definition inner_mod_compat : string := "#include <stdarg.h>
#include <stdbool.h>
#include <stdint.h>
#include <stdlib.h>

typedef struct {
  float x;
} Foo;

#ifdef __cplusplus
extern ""C"" {
#endif // __cplusplus

void root(Foo a);

#ifdef __cplusplus
}  // extern ""C""
#endif  // __cplusplus
".
(** tests/expectations/inner_mod_tag.compat.c *)
Definition inner_mod_compat_tag : string := "#include <stdarg.h>
#include <stdbool.h>
#include <stdint.h>
#include <stdlib.h>

struct Foo {
  float x;
};

#ifdef __cplusplus
extern ""C"" {
#endif // __cplusplus

void root(struct Foo a);

#ifdef __cplusplus
}  // extern ""C""
#endif  // __cplusplus
".
(** tests/expectations/inner_mod_both.compat.c *)
Definition inner_mod_compat_both : string := "#include <stdarg.h>
#include <stdbool.h>
#include <stdint.h>
#include <stdlib.h>

typedef struct Foo {
  float x;
} Foo;

#ifdef __cplusplus
extern ""C"" {
#endif // __cplusplus

void root(struct Foo a);

#ifdef __cplusplus
}  // extern ""C""
#endif  // __cplusplus
".
(** tests/expectations/inner_mod.c *)
Definition inner_mod_c : string := "#include <stdarg.h>
#include <stdbool.h>
#include <stdint.h>
#include <stdlib.h>

typedef struct {
  float x;
} Foo;

void root(Foo a);
".
(** tests/expectations/inner_mod_tag.c *)
Definition inner_mod_c_tag : string := "#include <stdarg.h>
#include <stdbool.h>
#include <stdint.h>
#include <stdlib.h>

struct Foo {
  float x;
};

void root(struct Foo a);
".
(** tests/expectations/inner_mod_both.c *)
Definition inner_mod_c_both : string := "#include <stdarg.h>
#include <stdbool.h>
#include <stdint.h>
#include <stdlib.h>

typedef struct Foo {
  float x;
} Foo;

void root(struct Foo a);
".
(** tests/expectations/inner_mod.cpp *)
Definition inner_mod_cpp : string := "#include <cstdarg>
#include <cstdint>
#include <cstdlib>
#include <ostream>
#include <new>

struct Foo {
  float x;
};

extern ""C"" {

void root(Foo a);

}  // extern ""C""
".
(** tests/expectations/inner_mod.pyx *)
Definition inner_mod_pyx : string := "from libc.stdint cimport int8_t, int16_t, int32_t, int64_t, intptr_t
from libc.stdint cimport uint8_t, uint16_t, uint32_t, uint64_t, uintptr_t
cdef extern from *:
  ctypedef bint bool
  ctypedef struct va_list

cdef extern from *:

  ctypedef struct Foo:
    float x;

  void root(Foo a);
".
(** tests/expectations/inner_mod_tag.pyx *)
Definition inner_mod_pyx_tag : string := "from libc.stdint cimport int8_t, int16_t, int32_t, int64_t, intptr_t
from libc.stdint cimport uint8_t, uint16_t, uint32_t, uint64_t, uintptr_t
cdef extern from *:
  ctypedef bint bool
  ctypedef struct va_list

cdef extern from *:

  cdef struct Foo:
    float x;

  void root(Foo a);
".
Example inner_mod_reproduced : reproduces (in_file inner_mod_rs) false default_config (Some "{
root;
};")
  [(RunC true Type_, [inner_mod_compat]);
   (RunC true Tag, [inner_mod_compat_tag]);
   (RunC true Both, [inner_mod_compat_both]);
   (RunC false Type_, [inner_mod_c]);
   (RunC false Tag, [inner_mod_c_tag]);
   (RunC false Both, [inner_mod_c_both]);
   (RunCxx, [inner_mod_cpp]);
   (RunCython Type_, [inner_mod_pyx]);
   (RunCython Tag, [inner_mod_pyx_tag])] = true.
Proof. vm_compute. reflexivity. Qed.

(** ** tests/rust/item_types.rs *)
Definition item_types_rs : list sitem := [
  (ItemConst [] true "MY_CONST" (SPath (SegPath [] "u8" NoArgs)) (XLit (LitInt 4 "")));
  (ItemFn [{| at_meta := (APath (Some "no_mangle")); at_outer := true |}] true {| sg_ident := "ExternFunction"; sg_abi := (Some (Some
  "C")); sg_inputs := []; sg_variadic := false; sg_output := None |});
  (ItemEnum [{| at_meta := (AList (Some "repr") [(APath (Some "u8"))]); at_outer := true |}] "OnlyThisShouldBeGenerated" [] [{| sv_attrs
  := []; sv_ident := "Foo"; sv_fields := FieldsUnit; sv_discriminant := None |}; {| sv_attrs := []; sv_ident := "Bar"; sv_fields :=
  FieldsUnit; sv_discriminant := None |}])].
Definition item_types_toml : Config := {| header := None; includes_ := []; sys_includes_ := []; after_includes := None; trailer := None;
  include_guard_ := None; pragma_once := false; no_includes := false; package_version := false; autogen_warning := None; include_version := false;
  namespace := None; namespaces := None; using_namespaces := None; braces := SameLine; line_length := 100; tab_width := 2; line_endings := LF;
  language := Cxx; cpp_compat := false; style := Both; sort_by := SortNone; usize_is_size_t := false; parse := default_parse; export := {| ex_include := ["OnlyThisShouldBeGenerated"]; ex_exclude := []; ex_rename := []; ex_pre_body := []; ex_body := []; ex_prefix := None; ex_item_types := [Enums]; ex_renaming_overrides_prefixing := false; ex_mangle := {| rename_types := RNone; remove_underscores := false |} |};
  layout := {| ly_packed := None; ly_aligned_n := None |}; function := {| fn_prefix := None; fn_postfix := None; fn_must_use := None; fn_deprecated := None; fn_deprecated_with_note := None; fn_args := Auto; fn_rename_args := RNone; fn_swift_name_macro := None; fn_sort_by := None; fn_no_return := None |}; structure := {| st_rename_fields := RNone; st_derive_constructor := false; st_derive_eq := false; st_derive_neq := false; st_derive_lt := false; st_derive_lte := false; st_derive_gt := false; st_derive_gte := false; st_derive_ostream := false; st_associated_constants_in_body := false; st_rename_associated_constant := RNone; st_must_use := None; st_deprecated := None; st_deprecated_with_note := None |}; enumeration := {| en_rename_variants := RNone; en_rename_variant_name_fields := SnakeCase; en_add_sentinel := false; en_prefix_with_name := false; en_derive_helper_methods := false; en_derive_const_casts := false; en_derive_mut_casts := false; en_cast_assert_name := None; en_must_use := None; en_deprecated := None; en_deprecated_with_note := None; en_deprecated_variant := None; en_deprecated_variant_with_note := None; en_derive_tagged_enum_destructor := false; en_derive_tagged_enum_copy_constructor := false; en_derive_tagged_enum_copy_assignment := false; en_derive_ostream := false; en_enum_class := true; en_private_default_tagged_enum_constructor := false |}; constant := {| co_allow_static_const := true; co_allow_constexpr := true; co_sort_by := None |}; defines := []; documentation := true;
  documentation_style := DocAuto; documentation_length := Full; pointer := {| pt_non_null_attribute := None; pt_nullable_attribute := None |}; cython := {| cy_header := None; cy_cimports := [] |}; config_path := None |}.
(** tests/expectations/item_types.compat.c *)
Definition item_types_compat : string := "#include <stdarg.h>
#include <stdbool.h>
#include <stdint.h>
#include <stdlib.h>

enum OnlyThisShouldBeGenerated
#if defined(__cplusplus) || __STDC_VERSION__ >= 202311L
  : uint8_t
#endif // defined(__cplusplus) || __STDC_VERSION__ >= 202311L
 {
  Foo,
  Bar,
};
#ifndef __cplusplus
#if __STDC_VERSION__ >= 202311L
typedef enum OnlyThisShouldBeGenerated OnlyThisShouldBeGenerated;
#else
typedef uint8_t OnlyThisShouldBeGenerated;
#endif // __STDC_VERSION__ >= 202311L
#endif // __cplusplus
".
(** tests/expectations/item_types.c *)
Definition item_types_c : string := "#include <stdarg.h>
#include <stdbool.h>
#include <stdint.h>
#include <stdlib.h>

enum OnlyThisShouldBeGenerated
#if __STDC_VERSION__ >= 202311L
  : uint8_t
#endif // __STDC_VERSION__ >= 202311L
 {
  Foo,
  Bar,
};
#if __STDC_VERSION__ >= 202311L
typedef enum OnlyThisShouldBeGenerated OnlyThisShouldBeGenerated;
#else
typedef uint8_t OnlyThisShouldBeGenerated;
#endif // __STDC_VERSION__ >= 202311L
".
(** tests/expectations/item_types.cpp *)
Definition item_types_cpp : string := "#include <cstdarg>
#include <cstdint>
#include <cstdlib>
#include <ostream>
#include <new>

enum class OnlyThisShouldBeGenerated : uint8_t {
  Foo,
  Bar,
};
".
(** tests/expectations/item_types.pyx *)
Definition item_types_pyx : string := "from libc.stdint cimport int8_t, int16_t, int32_t, int64_t, intptr_t
from libc.stdint cimport uint8_t, uint16_t, uint32_t, uint64_t, uintptr_t
cdef extern from *:
  ctypedef bint bool
  ctypedef struct va_list

cdef extern from *:

  cdef enum:
    Foo,
    Bar,
  ctypedef uint8_t OnlyThisShouldBeGenerated;
".
Example item_types_reproduced : reproduces (in_file item_types_rs) false item_types_toml (Some "{
};")
  [(RunC true Type_, [item_types_compat]);
   (RunC true Tag, [item_types_compat]);
   (RunC true Both, [item_types_compat]);
   (RunC false Type_, [item_types_c]);
   (RunC false Tag, [item_types_compat; item_types_c]);
   (RunC false Both, [item_types_compat; item_types_c]);
   (RunCxx, [item_types_cpp]);
   (RunCython Type_, [item_types_pyx]);
   (RunCython Tag, [item_types_pyx])] = true.
Proof. vm_compute. reflexivity. Qed.

(** ** tests/rust/item_types_renamed.rs *)
Definition item_types_renamed_rs : list sitem := [
  (ItemConst [] true "MY_CONST" (SPath (SegPath [] "u8" NoArgs)) (XLit (LitInt 4 "")));
  (ItemFn [{| at_meta := (APath (Some "no_mangle")); at_outer := true |}] true {| sg_ident := "ExternFunction"; sg_abi := (Some (Some
  "C")); sg_inputs := []; sg_variadic := false; sg_output := None |});
  (ItemEnum [{| at_meta := (AList (Some "repr") [(APath (Some "u8"))]); at_outer := true |}] "OnlyThisShouldBeGenerated" [] [{| sv_attrs
  := []; sv_ident := "Foo"; sv_fields := FieldsUnit; sv_discriminant := None |}; {| sv_attrs := []; sv_ident := "Bar"; sv_fields :=
  FieldsUnit; sv_discriminant := None |}])].
Definition item_types_renamed_toml : Config := {| header := None; includes_ := []; sys_includes_ := []; after_includes := None; trailer := None;
  include_guard_ := None; pragma_once := false; no_includes := false; package_version := false; autogen_warning := None; include_version := false;
  namespace := None; namespaces := None; using_namespaces := None; braces := SameLine; line_length := 100; tab_width := 2; line_endings := LF;
  language := Cxx; cpp_compat := false; style := Both; sort_by := SortNone; usize_is_size_t := false; parse := default_parse; export := {| ex_include := ["OnlyThisShouldBeGenerated"]; ex_exclude := []; ex_rename := []; ex_pre_body := []; ex_body := []; ex_prefix := (Some "Style"); ex_item_types := [Enums]; ex_renaming_overrides_prefixing := false; ex_mangle := {| rename_types := RNone; remove_underscores := false |} |};
  layout := {| ly_packed := None; ly_aligned_n := None |}; function := {| fn_prefix := None; fn_postfix := None; fn_must_use := None; fn_deprecated := None; fn_deprecated_with_note := None; fn_args := Auto; fn_rename_args := RNone; fn_swift_name_macro := None; fn_sort_by := None; fn_no_return := None |}; structure := {| st_rename_fields := RNone; st_derive_constructor := false; st_derive_eq := false; st_derive_neq := false; st_derive_lt := false; st_derive_lte := false; st_derive_gt := false; st_derive_gte := false; st_derive_ostream := false; st_associated_constants_in_body := false; st_rename_associated_constant := RNone; st_must_use := None; st_deprecated := None; st_deprecated_with_note := None |}; enumeration := {| en_rename_variants := RNone; en_rename_variant_name_fields := SnakeCase; en_add_sentinel := false; en_prefix_with_name := false; en_derive_helper_methods := false; en_derive_const_casts := false; en_derive_mut_casts := false; en_cast_assert_name := None; en_must_use := None; en_deprecated := None; en_deprecated_with_note := None; en_deprecated_variant := None; en_deprecated_variant_with_note := None; en_derive_tagged_enum_destructor := false; en_derive_tagged_enum_copy_constructor := false; en_derive_tagged_enum_copy_assignment := false; en_derive_ostream := false; en_enum_class := true; en_private_default_tagged_enum_constructor := false |}; constant := {| co_allow_static_const := true; co_allow_constexpr := true; co_sort_by := None |}; defines := []; documentation := true;
  documentation_style := DocAuto; documentation_length := Full; pointer := {| pt_non_null_attribute := None; pt_nullable_attribute := None |}; cython := {| cy_header := None; cy_cimports := [] |}; config_path := None |}.
(** tests/expectations/item_types_renamed.compat.c *)
Definition item_types_renamed_compat : string := "#include <stdarg.h>
#include <stdbool.h>
#include <stdint.h>
#include <stdlib.h>

enum StyleOnlyThisShouldBeGenerated
#if defined(__cplusplus) || __STDC_VERSION__ >= 202311L
  : uint8_t
#endif // defined(__cplusplus) || __STDC_VERSION__ >= 202311L
 {
  Foo,
  Bar,
};
#ifndef __cplusplus
#if __STDC_VERSION__ >= 202311L
typedef enum StyleOnlyThisShouldBeGenerated StyleOnlyThisShouldBeGenerated;
#else
typedef uint8_t StyleOnlyThisShouldBeGenerated;
#endif // __STDC_VERSION__ >= 202311L
#endif // __cplusplus
".
(** tests/expectations/item_types_renamed.c *)
Definition item_types_renamed_c : string := "#include <stdarg.h>
#include <stdbool.h>
#include <stdint.h>
#include <stdlib.h>

enum StyleOnlyThisShouldBeGenerated
#if __STDC_VERSION__ >= 202311L
  : uint8_t
#endif // __STDC_VERSION__ >= 202311L
 {
  Foo,
  Bar,
};
#if __STDC_VERSION__ >= 202311L
typedef enum StyleOnlyThisShouldBeGenerated StyleOnlyThisShouldBeGenerated;
#else
typedef uint8_t StyleOnlyThisShouldBeGenerated;
#endif // __STDC_VERSION__ >= 202311L
".
(** tests/expectations/item_types_renamed.cpp *)
Definition item_types_renamed_cpp : string := "#include <cstdarg>
#include <cstdint>
#include <cstdlib>
#include <ostream>
#include <new>

enum class StyleOnlyThisShouldBeGenerated : uint8_t {
  Foo,
  Bar,
};
".
(** tests/expectations/item_types_renamed.pyx *)
Definition item_types_renamed_pyx : string := "from libc.stdint cimport int8_t, int16_t, int32_t, int64_t, intptr_t
from libc.stdint cimport uint8_t, uint16_t, uint32_t, uint64_t, uintptr_t
cdef extern from *:
  ctypedef bint bool
  ctypedef struct va_list

cdef extern from *:

  cdef enum:
    Foo,
    Bar,
  ctypedef uint8_t StyleOnlyThisShouldBeGenerated;
".
Example item_types_renamed_reproduced : reproduces (in_file item_types_renamed_rs) false item_types_renamed_toml (Some "{
};")
  [(RunC true Type_, [item_types_renamed_compat]);
   (RunC true Tag, [item_types_renamed_compat]);
   (RunC true Both, [item_types_renamed_compat]);
   (RunC false Type_, [item_types_renamed_c]);
   (RunC false Tag, [item_types_renamed_compat; item_types_renamed_c]);
   (RunC false Both, [item_types_renamed_compat; item_types_renamed_c]);
   (RunCxx, [item_types_renamed_cpp]);
   (RunCython Type_, [item_types_renamed_pyx]);
   (RunCython Tag, [item_types_renamed_pyx])] = true.
Proof. vm_compute. reflexivity. Qed.

(** ** tests/rust/layout.rs *)
Definition layout_rs : list sitem := [
  (ItemStruct [{| at_meta := (AList (Some "repr") [(AList (Some "align") [(AInt "1")]); (APath (Some "C"))]); at_outer := true |}] "Align1Struct"
  [] (FieldsNamed [{| sf_attrs := []; sf_ident := (Some "arg1"); sf_ty := (SPath (SegPath [] "usize" NoArgs)) |}; {| sf_attrs := [];
  sf_ident := (Some "arg2"); sf_ty := (SPtr true (SPath (SegPath [] "u8" NoArgs))) |}]));
  (ItemStruct [{| at_meta := (AList (Some "repr") [(AList (Some "align") [(AInt "2")]); (APath (Some "C"))]); at_outer := true |}] "Align2Struct"
  [] (FieldsNamed [{| sf_attrs := []; sf_ident := (Some "arg1"); sf_ty := (SPath (SegPath [] "usize" NoArgs)) |}; {| sf_attrs := [];
  sf_ident := (Some "arg2"); sf_ty := (SPtr true (SPath (SegPath [] "u8" NoArgs))) |}]));
  (ItemStruct [{| at_meta := (AList (Some "repr") [(AList (Some "align") [(AInt "4")]); (APath (Some "C"))]); at_outer := true |}] "Align4Struct"
  [] (FieldsNamed [{| sf_attrs := []; sf_ident := (Some "arg1"); sf_ty := (SPath (SegPath [] "usize" NoArgs)) |}; {| sf_attrs := [];
  sf_ident := (Some "arg2"); sf_ty := (SPtr true (SPath (SegPath [] "u8" NoArgs))) |}]));
  (ItemStruct [{| at_meta := (AList (Some "repr") [(AList (Some "align") [(AInt "8")]); (APath (Some "C"))]); at_outer := true |}] "Align8Struct"
  [] (FieldsNamed [{| sf_attrs := []; sf_ident := (Some "arg1"); sf_ty := (SPath (SegPath [] "usize" NoArgs)) |}; {| sf_attrs := [];
  sf_ident := (Some "arg2"); sf_ty := (SPtr true (SPath (SegPath [] "u8" NoArgs))) |}]));
  (ItemStruct [{| at_meta := (AList (Some "repr") [(AList (Some "align") [(AInt "32")]); (APath (Some "C"))]); at_outer := true |}]
  "Align32Struct" [] (FieldsNamed [{| sf_attrs := []; sf_ident := (Some "arg1"); sf_ty := (SPath (SegPath [] "usize" NoArgs)) |};
  {| sf_attrs := []; sf_ident := (Some "arg2"); sf_ty := (SPtr true (SPath (SegPath [] "u8" NoArgs))) |}]));
  (ItemStruct [{| at_meta := (AList (Some "repr") [(APath (Some "packed")); (APath (Some "C"))]); at_outer := true |}] "PackedStruct"
  [] (FieldsNamed [{| sf_attrs := []; sf_ident := (Some "arg1"); sf_ty := (SPath (SegPath [] "usize" NoArgs)) |}; {| sf_attrs := [];
  sf_ident := (Some "arg2"); sf_ty := (SPtr true (SPath (SegPath [] "u8" NoArgs))) |}]));
  (ItemUnion [{| at_meta := (AList (Some "repr") [(AList (Some "align") [(AInt "1")]); (APath (Some "C"))]); at_outer := true |}] "Align1Union"
  [] [{| sf_attrs := []; sf_ident := (Some "variant1"); sf_ty := (SPath (SegPath [] "usize" NoArgs)) |}; {| sf_attrs := []; sf_ident
  := (Some "variant2"); sf_ty := (SPtr true (SPath (SegPath [] "u8" NoArgs))) |}]);
  (ItemUnion [{| at_meta := (AList (Some "repr") [(AList (Some "align") [(AInt "4")]); (APath (Some "C"))]); at_outer := true |}] "Align4Union"
  [] [{| sf_attrs := []; sf_ident := (Some "variant1"); sf_ty := (SPath (SegPath [] "usize" NoArgs)) |}; {| sf_attrs := []; sf_ident
  := (Some "variant2"); sf_ty := (SPtr true (SPath (SegPath [] "u8" NoArgs))) |}]);
  (ItemUnion [{| at_meta := (AList (Some "repr") [(AList (Some "align") [(AInt "16")]); (APath (Some "C"))]); at_outer := true |}] "Align16Union"
  [] [{| sf_attrs := []; sf_ident := (Some "variant1"); sf_ty := (SPath (SegPath [] "usize" NoArgs)) |}; {| sf_attrs := []; sf_ident
  := (Some "variant2"); sf_ty := (SPtr true (SPath (SegPath [] "u8" NoArgs))) |}]);
  (ItemUnion [{| at_meta := (AList (Some "repr") [(APath (Some "packed")); (APath (Some "C"))]); at_outer := true |}] "PackedUnion"
  [] [{| sf_attrs := []; sf_ident := (Some "variant1"); sf_ty := (SPath (SegPath [] "usize" NoArgs)) |}; {| sf_attrs := []; sf_ident
  := (Some "variant2"); sf_ty := (SPtr true (SPath (SegPath [] "u8" NoArgs))) |}]);
  (ItemStruct [{| at_meta := (AList (Some "repr") [(AList (Some "packed") [(AInt "4")]); (APath (Some "C"))]); at_outer := true |}]
  "UnsupportedPacked4Struct" [] (FieldsNamed [{| sf_attrs := []; sf_ident := (Some "arg1"); sf_ty := (SPath (SegPath [] "usize" NoArgs))
  |}; {| sf_attrs := []; sf_ident := (Some "arg2"); sf_ty := (SPtr true (SPath (SegPath [] "u8" NoArgs))) |}]));
  (ItemUnion [{| at_meta := (AList (Some "repr") [(AList (Some "packed") [(AInt "4")]); (APath (Some "C"))]); at_outer := true |}] "UnsupportedPacked4Union"
  [] [{| sf_attrs := []; sf_ident := (Some "variant1"); sf_ty := (SPath (SegPath [] "usize" NoArgs)) |}; {| sf_attrs := []; sf_ident
  := (Some "variant2"); sf_ty := (SPtr true (SPath (SegPath [] "u8" NoArgs))) |}]);
  (ItemEnum [{| at_meta := (AList (Some "repr") [(AList (Some "align") [(AInt "4")]); (APath (Some "C"))]); at_outer := true |}] "UnsupportedAlign4Enum"
  [] [{| sv_attrs := []; sv_ident := "Variant1"; sv_fields := FieldsUnit; sv_discriminant := None |}; {| sv_attrs := []; sv_ident
  := "Variant2"; sv_fields := FieldsUnit; sv_discriminant := None |}]);
  (ItemStruct [{| at_meta := (AList (Some "repr") [(AList (Some "align") [(AInt "4")])]); at_outer := true |}] "RustAlign4Struct" []
  (FieldsNamed [{| sf_attrs := []; sf_ident := (Some "arg1"); sf_ty := (SPath (SegPath [] "usize" NoArgs)) |}; {| sf_attrs := [];
  sf_ident := (Some "arg2"); sf_ty := (SPtr true (SPath (SegPath [] "u8" NoArgs))) |}]));
  (ItemStruct [{| at_meta := (AList (Some "repr") [(APath (Some "packed"))]); at_outer := true |}] "RustPackedStruct" [] (FieldsNamed
  [{| sf_attrs := []; sf_ident := (Some "arg1"); sf_ty := (SPath (SegPath [] "usize" NoArgs)) |}; {| sf_attrs := []; sf_ident := (Some
  "arg2"); sf_ty := (SPtr true (SPath (SegPath [] "u8" NoArgs))) |}]));
  (ItemStruct [{| at_meta := (AList (Some "repr") [(AList (Some "align") [(AInt "4")])]); at_outer := true |}] "RustAlign4Union" []
  (FieldsNamed [{| sf_attrs := []; sf_ident := (Some "arg1"); sf_ty := (SPath (SegPath [] "usize" NoArgs)) |}; {| sf_attrs := [];
  sf_ident := (Some "arg2"); sf_ty := (SPtr true (SPath (SegPath [] "u8" NoArgs))) |}]));
  (ItemStruct [{| at_meta := (AList (Some "repr") [(APath (Some "packed"))]); at_outer := true |}] "RustPackedUnion" [] (FieldsNamed
  [{| sf_attrs := []; sf_ident := (Some "arg1"); sf_ty := (SPath (SegPath [] "usize" NoArgs)) |}; {| sf_attrs := []; sf_ident := (Some
  "arg2"); sf_ty := (SPtr true (SPath (SegPath [] "u8" NoArgs))) |}]))].
Definition layout_toml : Config := {| header := (Some "#define CBINDGEN_PACKED     __attribute__ ((packed))
#define CBINDGEN_ALIGNED(n) __attribute__ ((aligned(n)))
"); includes_ := []; sys_includes_ := []; after_includes := None; trailer := None;
  include_guard_ := None; pragma_once := false; no_includes := false; package_version := false; autogen_warning := None; include_version := false;
  namespace := None; namespaces := None; using_namespaces := None; braces := SameLine; line_length := 100; tab_width := 2; line_endings := LF;
  language := Cxx; cpp_compat := false; style := Both; sort_by := SortNone; usize_is_size_t := false; parse := default_parse; export := {| ex_include := ["Align1Struct"; "Align2Struct"; "Align4Struct"; "Align8Struct"; "Align32Struct"; "PackedStruct"; "Align1Union"; "Align4Union"; "Align16Union"; "PackedUnion"; "UnsupportedPacked4Struct"; "UnsupportedPacked4Union"; "UnsupportedAlign4Enum"; "RustAlign4Struct"; "RustPackedStruct"; "RustAlign4Union"; "RustPackedUnion"]; ex_exclude := []; ex_rename := []; ex_pre_body := []; ex_body := []; ex_prefix := None; ex_item_types := []; ex_renaming_overrides_prefixing := false; ex_mangle := {| rename_types := RNone; remove_underscores := false |} |};
  layout := {| ly_packed := (Some "CBINDGEN_PACKED"); ly_aligned_n := (Some "CBINDGEN_ALIGNED") |}; function := {| fn_prefix := None; fn_postfix := None; fn_must_use := None; fn_deprecated := None; fn_deprecated_with_note := None; fn_args := Auto; fn_rename_args := RNone; fn_swift_name_macro := None; fn_sort_by := None; fn_no_return := None |}; structure := {| st_rename_fields := RNone; st_derive_constructor := false; st_derive_eq := false; st_derive_neq := false; st_derive_lt := false; st_derive_lte := false; st_derive_gt := false; st_derive_gte := false; st_derive_ostream := false; st_associated_constants_in_body := false; st_rename_associated_constant := RNone; st_must_use := None; st_deprecated := None; st_deprecated_with_note := None |}; enumeration := {| en_rename_variants := RNone; en_rename_variant_name_fields := SnakeCase; en_add_sentinel := false; en_prefix_with_name := false; en_derive_helper_methods := false; en_derive_const_casts := false; en_derive_mut_casts := false; en_cast_assert_name := None; en_must_use := None; en_deprecated := None; en_deprecated_with_note := None; en_deprecated_variant := None; en_deprecated_variant_with_note := None; en_derive_tagged_enum_destructor := false; en_derive_tagged_enum_copy_constructor := false; en_derive_tagged_enum_copy_assignment := false; en_derive_ostream := false; en_enum_class := true; en_private_default_tagged_enum_constructor := false |}; constant := {| co_allow_static_const := true; co_allow_constexpr := true; co_sort_by := None |}; defines := []; documentation := true;
  documentation_style := DocAuto; documentation_length := Full; pointer := {| pt_non_null_attribute := None; pt_nullable_attribute := None |}; cython := {| cy_header := None; cy_cimports := [] |}; config_path := None |}.
(** tests/expectations/layout.compat.c *)
Definition layout_compat : string := "#define CBINDGEN_PACKED     __attribute__ ((packed))
#define CBINDGEN_ALIGNED(n) __attribute__ ((aligned(n)))


#include <stdarg.h>
#include <stdbool.h>
#include <stdint.h>
#include <stdlib.h>

typedef struct RustAlign4Struct RustAlign4Struct;

typedef struct RustAlign4Union RustAlign4Union;

typedef struct RustPackedStruct RustPackedStruct;

typedef struct RustPackedUnion RustPackedUnion;

typedef struct UnsupportedAlign4Enum UnsupportedAlign4Enum;

typedef struct UnsupportedPacked4Struct UnsupportedPacked4Struct;

typedef struct UnsupportedPacked4Union UnsupportedPacked4Union;

typedef struct CBINDGEN_ALIGNED(1) {
  uintptr_t arg1;
  uint8_t *arg2;
} Align1Struct;

typedef struct CBINDGEN_ALIGNED(2) {
  uintptr_t arg1;
  uint8_t *arg2;
} Align2Struct;

typedef struct CBINDGEN_ALIGNED(4) {
  uintptr_t arg1;
  uint8_t *arg2;
} Align4Struct;

typedef struct CBINDGEN_ALIGNED(8) {
  uintptr_t arg1;
  uint8_t *arg2;
} Align8Struct;

typedef struct CBINDGEN_ALIGNED(32) {
  uintptr_t arg1;
  uint8_t *arg2;
} Align32Struct;

typedef struct CBINDGEN_PACKED {
  uintptr_t arg1;
  uint8_t *arg2;
} PackedStruct;

typedef union CBINDGEN_ALIGNED(1) {
  uintptr_t variant1;
  uint8_t *variant2;
} Align1Union;

typedef union CBINDGEN_ALIGNED(4) {
  uintptr_t variant1;
  uint8_t *variant2;
} Align4Union;

typedef union CBINDGEN_ALIGNED(16) {
  uintptr_t variant1;
  uint8_t *variant2;
} Align16Union;

typedef union CBINDGEN_PACKED {
  uintptr_t variant1;
  uint8_t *variant2;
} PackedUnion;
".
(** tests/expectations/layout_tag.compat.c *)
Definition layout_compat_tag : string := "#define CBINDGEN_PACKED     __attribute__ ((packed))
#define CBINDGEN_ALIGNED(n) __attribute__ ((aligned(n)))


#include <stdarg.h>
#include <stdbool.h>
#include <stdint.h>
#include <stdlib.h>

struct RustAlign4Struct;

struct RustAlign4Union;

struct RustPackedStruct;

struct RustPackedUnion;

struct UnsupportedAlign4Enum;

struct UnsupportedPacked4Struct;

struct UnsupportedPacked4Union;

struct CBINDGEN_ALIGNED(1) Align1Struct {
  uintptr_t arg1;
  uint8_t *arg2;
};

struct CBINDGEN_ALIGNED(2) Align2Struct {
  uintptr_t arg1;
  uint8_t *arg2;
};

struct CBINDGEN_ALIGNED(4) Align4Struct {
  uintptr_t arg1;
  uint8_t *arg2;
};

struct CBINDGEN_ALIGNED(8) Align8Struct {
  uintptr_t arg1;
  uint8_t *arg2;
};

struct CBINDGEN_ALIGNED(32) Align32Struct {
  uintptr_t arg1;
  uint8_t *arg2;
};

struct CBINDGEN_PACKED PackedStruct {
  uintptr_t arg1;
  uint8_t *arg2;
};

union CBINDGEN_ALIGNED(1) Align1Union {
  uintptr_t variant1;
  uint8_t *variant2;
};

union CBINDGEN_ALIGNED(4) Align4Union {
  uintptr_t variant1;
  uint8_t *variant2;
};

union CBINDGEN_ALIGNED(16) Align16Union {
  uintptr_t variant1;
  uint8_t *variant2;
};

union CBINDGEN_PACKED PackedUnion {
  uintptr_t variant1;
  uint8_t *variant2;
};
".
(** tests/expectations/layout_both.compat.c *)
Definition layout_compat_both : string := "#define CBINDGEN_PACKED     __attribute__ ((packed))
#define CBINDGEN_ALIGNED(n) __attribute__ ((aligned(n)))


#include <stdarg.h>
#include <stdbool.h>
#include <stdint.h>
#include <stdlib.h>

typedef struct RustAlign4Struct RustAlign4Struct;

typedef struct RustAlign4Union RustAlign4Union;

typedef struct RustPackedStruct RustPackedStruct;

typedef struct RustPackedUnion RustPackedUnion;

typedef struct UnsupportedAlign4Enum UnsupportedAlign4Enum;

typedef struct UnsupportedPacked4Struct UnsupportedPacked4Struct;

typedef struct UnsupportedPacked4Union UnsupportedPacked4Union;

typedef struct CBINDGEN_ALIGNED(1) Align1Struct {
  uintptr_t arg1;
  uint8_t *arg2;
} Align1Struct;

typedef struct CBINDGEN_ALIGNED(2) Align2Struct {
  uintptr_t arg1;
  uint8_t *arg2;
} Align2Struct;

typedef struct CBINDGEN_ALIGNED(4) Align4Struct {
  uintptr_t arg1;
  uint8_t *arg2;
} Align4Struct;

typedef struct CBINDGEN_ALIGNED(8) Align8Struct {
  uintptr_t arg1;
  uint8_t *arg2;
} Align8Struct;

typedef struct CBINDGEN_ALIGNED(32) Align32Struct {
  uintptr_t arg1;
  uint8_t *arg2;
} Align32Struct;

typedef struct CBINDGEN_PACKED PackedStruct {
  uintptr_t arg1;
  uint8_t *arg2;
} PackedStruct;

typedef union CBINDGEN_ALIGNED(1) Align1Union {
  uintptr_t variant1;
  uint8_t *variant2;
} Align1Union;

typedef union CBINDGEN_ALIGNED(4) Align4Union {
  uintptr_t variant1;
  uint8_t *variant2;
} Align4Union;

typedef union CBINDGEN_ALIGNED(16) Align16Union {
  uintptr_t variant1;
  uint8_t *variant2;
} Align16Union;

typedef union CBINDGEN_PACKED PackedUnion {
  uintptr_t variant1;
  uint8_t *variant2;
} PackedUnion;
".
(** tests/expectations/layout.cpp *)
Definition layout_cpp : string := "#define CBINDGEN_PACKED     __attribute__ ((packed))
#define CBINDGEN_ALIGNED(n) __attribute__ ((aligned(n)))


#include <cstdarg>
#include <cstdint>
#include <cstdlib>
#include <ostream>
#include <new>

struct RustAlign4Struct;

struct RustAlign4Union;

struct RustPackedStruct;

struct RustPackedUnion;

struct UnsupportedAlign4Enum;

struct UnsupportedPacked4Struct;

struct UnsupportedPacked4Union;

struct CBINDGEN_ALIGNED(1) Align1Struct {
  uintptr_t arg1;
  uint8_t *arg2;
};

struct CBINDGEN_ALIGNED(2) Align2Struct {
  uintptr_t arg1;
  uint8_t *arg2;
};

struct CBINDGEN_ALIGNED(4) Align4Struct {
  uintptr_t arg1;
  uint8_t *arg2;
};

struct CBINDGEN_ALIGNED(8) Align8Struct {
  uintptr_t arg1;
  uint8_t *arg2;
};

struct CBINDGEN_ALIGNED(32) Align32Struct {
  uintptr_t arg1;
  uint8_t *arg2;
};

struct CBINDGEN_PACKED PackedStruct {
  uintptr_t arg1;
  uint8_t *arg2;
};

union CBINDGEN_ALIGNED(1) Align1Union {
  uintptr_t variant1;
  uint8_t *variant2;
};

union CBINDGEN_ALIGNED(4) Align4Union {
  uintptr_t variant1;
  uint8_t *variant2;
};

union CBINDGEN_ALIGNED(16) Align16Union {
  uintptr_t variant1;
  uint8_t *variant2;
};

union CBINDGEN_PACKED PackedUnion {
  uintptr_t variant1;
  uint8_t *variant2;
};
".
(** tests/expectations/layout.pyx *)
Definition layout_pyx : string := "#define CBINDGEN_PACKED     __attribute__ ((packed))
#define CBINDGEN_ALIGNED(n) __attribute__ ((aligned(n)))


from libc.stdint cimport int8_t, int16_t, int32_t, int64_t, intptr_t
from libc.stdint cimport uint8_t, uint16_t, uint32_t, uint64_t, uintptr_t
cdef extern from *:
  ctypedef bint bool
  ctypedef struct va_list

cdef extern from *:

  ctypedef struct RustAlign4Struct:
    pass

  ctypedef struct RustAlign4Union:
    pass

  ctypedef struct RustPackedStruct:
    pass

  ctypedef struct RustPackedUnion:
    pass

  ctypedef struct UnsupportedAlign4Enum:
    pass

  ctypedef struct UnsupportedPacked4Struct:
    pass

  ctypedef struct UnsupportedPacked4Union:
    pass

  ctypedef struct Align1Struct:
    uintptr_t arg1;
    uint8_t *arg2;

  ctypedef struct Align2Struct:
    uintptr_t arg1;
    uint8_t *arg2;

  ctypedef struct Align4Struct:
    uintptr_t arg1;
    uint8_t *arg2;

  ctypedef struct Align8Struct:
    uintptr_t arg1;
    uint8_t *arg2;

  ctypedef struct Align32Struct:
    uintptr_t arg1;
    uint8_t *arg2;

  ctypedef packed struct PackedStruct:
    uintptr_t arg1;
    uint8_t *arg2;

  ctypedef union Align1Union:
    uintptr_t variant1;
    uint8_t *variant2;

  ctypedef union Align4Union:
    uintptr_t variant1;
    uint8_t *variant2;

  ctypedef union Align16Union:
    uintptr_t variant1;
    uint8_t *variant2;

  ctypedef union PackedUnion:
    uintptr_t variant1;
    uint8_t *variant2;
".
(** tests/expectations/layout_tag.pyx *)
Definition layout_pyx_tag : string := "#define CBINDGEN_PACKED     __attribute__ ((packed))
#define CBINDGEN_ALIGNED(n) __attribute__ ((aligned(n)))


from libc.stdint cimport int8_t, int16_t, int32_t, int64_t, intptr_t
from libc.stdint cimport uint8_t, uint16_t, uint32_t, uint64_t, uintptr_t
cdef extern from *:
  ctypedef bint bool
  ctypedef struct va_list

cdef extern from *:

  cdef struct RustAlign4Struct:
    pass

  cdef struct RustAlign4Union:
    pass

  cdef struct RustPackedStruct:
    pass

  cdef struct RustPackedUnion:
    pass

  cdef struct UnsupportedAlign4Enum:
    pass

  cdef struct UnsupportedPacked4Struct:
    pass

  cdef struct UnsupportedPacked4Union:
    pass

  cdef struct Align1Struct:
    uintptr_t arg1;
    uint8_t *arg2;

  cdef struct Align2Struct:
    uintptr_t arg1;
    uint8_t *arg2;

  cdef struct Align4Struct:
    uintptr_t arg1;
    uint8_t *arg2;

  cdef struct Align8Struct:
    uintptr_t arg1;
    uint8_t *arg2;

  cdef struct Align32Struct:
    uintptr_t arg1;
    uint8_t *arg2;

  cdef packed struct PackedStruct:
    uintptr_t arg1;
    uint8_t *arg2;

  cdef union Align1Union:
    uintptr_t variant1;
    uint8_t *variant2;

  cdef union Align4Union:
    uintptr_t variant1;
    uint8_t *variant2;

  cdef union Align16Union:
    uintptr_t variant1;
    uint8_t *variant2;

  cdef union PackedUnion:
    uintptr_t variant1;
    uint8_t *variant2;
".
Example layout_reproduced : reproduces (in_file layout_rs) false layout_toml None
  [(RunC true Type_, [layout_compat]);
   (RunC true Tag, [layout_compat_tag]);
   (RunC true Both, [layout_compat_both]);
   (RunC false Type_, [layout_compat; layout_compat_tag; layout_compat_both]);
   (RunC false Tag, [layout_compat; layout_compat_tag; layout_compat_both]);
   (RunC false Both, [layout_compat; layout_compat_tag; layout_compat_both]);
   (RunCxx, [layout_cpp]);
   (RunCython Type_, [layout_pyx]);
   (RunCython Tag, [layout_pyx_tag])] = true.
Proof. vm_compute. reflexivity. Qed.

(** ** tests/rust/layout_aligned_opaque.rs *)
Definition layout_aligned_opaque_rs : list sitem := [
  (ItemStruct [{| at_meta := (AList (Some "repr") [(APath (Some "packed")); (APath (Some "C"))]); at_outer := true |}] "PackedStruct"
  [] (FieldsNamed [{| sf_attrs := []; sf_ident := (Some "arg1"); sf_ty := (SPath (SegPath [] "usize" NoArgs)) |}; {| sf_attrs := [];
  sf_ident := (Some "arg2"); sf_ty := (SPtr true (SPath (SegPath [] "u8" NoArgs))) |}]));
  (ItemUnion [{| at_meta := (AList (Some "repr") [(APath (Some "packed")); (APath (Some "C"))]); at_outer := true |}] "PackedUnion"
  [] [{| sf_attrs := []; sf_ident := (Some "variant1"); sf_ty := (SPath (SegPath [] "usize" NoArgs)) |}; {| sf_attrs := []; sf_ident
  := (Some "variant2"); sf_ty := (SPtr true (SPath (SegPath [] "u8" NoArgs))) |}]);
  (ItemUnion [{| at_meta := (AList (Some "repr") [(AList (Some "align") [(AInt "1")]); (APath (Some "C"))]); at_outer := true |}] "OpaqueAlign1Union"
  [] [{| sf_attrs := []; sf_ident := (Some "variant1"); sf_ty := (SPath (SegPath [] "usize" NoArgs)) |}; {| sf_attrs := []; sf_ident
  := (Some "variant2"); sf_ty := (SPtr true (SPath (SegPath [] "u8" NoArgs))) |}]);
  (ItemUnion [{| at_meta := (AList (Some "repr") [(AList (Some "align") [(AInt "4")]); (APath (Some "C"))]); at_outer := true |}] "OpaqueAlign4Union"
  [] [{| sf_attrs := []; sf_ident := (Some "variant1"); sf_ty := (SPath (SegPath [] "usize" NoArgs)) |}; {| sf_attrs := []; sf_ident
  := (Some "variant2"); sf_ty := (SPtr true (SPath (SegPath [] "u8" NoArgs))) |}]);
  (ItemUnion [{| at_meta := (AList (Some "repr") [(AList (Some "align") [(AInt "16")]); (APath (Some "C"))]); at_outer := true |}] "OpaqueAlign16Union"
  [] [{| sf_attrs := []; sf_ident := (Some "variant1"); sf_ty := (SPath (SegPath [] "usize" NoArgs)) |}; {| sf_attrs := []; sf_ident
  := (Some "variant2"); sf_ty := (SPtr true (SPath (SegPath [] "u8" NoArgs))) |}]);
  (ItemStruct [{| at_meta := (AList (Some "repr") [(AList (Some "align") [(AInt "1")]); (APath (Some "C"))]); at_outer := true |}] "OpaqueAlign1Struct"
  [] (FieldsNamed [{| sf_attrs := []; sf_ident := (Some "arg1"); sf_ty := (SPath (SegPath [] "usize" NoArgs)) |}; {| sf_attrs := [];
  sf_ident := (Some "arg2"); sf_ty := (SPtr true (SPath (SegPath [] "u8" NoArgs))) |}]));
  (ItemStruct [{| at_meta := (AList (Some "repr") [(AList (Some "align") [(AInt "2")]); (APath (Some "C"))]); at_outer := true |}] "OpaqueAlign2Struct"
  [] (FieldsNamed [{| sf_attrs := []; sf_ident := (Some "arg1"); sf_ty := (SPath (SegPath [] "usize" NoArgs)) |}; {| sf_attrs := [];
  sf_ident := (Some "arg2"); sf_ty := (SPtr true (SPath (SegPath [] "u8" NoArgs))) |}]));
  (ItemStruct [{| at_meta := (AList (Some "repr") [(AList (Some "align") [(AInt "4")]); (APath (Some "C"))]); at_outer := true |}] "OpaqueAlign4Struct"
  [] (FieldsNamed [{| sf_attrs := []; sf_ident := (Some "arg1"); sf_ty := (SPath (SegPath [] "usize" NoArgs)) |}; {| sf_attrs := [];
  sf_ident := (Some "arg2"); sf_ty := (SPtr true (SPath (SegPath [] "u8" NoArgs))) |}]));
  (ItemStruct [{| at_meta := (AList (Some "repr") [(AList (Some "align") [(AInt "8")]); (APath (Some "C"))]); at_outer := true |}] "OpaqueAlign8Struct"
  [] (FieldsNamed [{| sf_attrs := []; sf_ident := (Some "arg1"); sf_ty := (SPath (SegPath [] "usize" NoArgs)) |}; {| sf_attrs := [];
  sf_ident := (Some "arg2"); sf_ty := (SPtr true (SPath (SegPath [] "u8" NoArgs))) |}]));
  (ItemStruct [{| at_meta := (AList (Some "repr") [(AList (Some "align") [(AInt "32")]); (APath (Some "C"))]); at_outer := true |}]
  "OpaqueAlign32Struct" [] (FieldsNamed [{| sf_attrs := []; sf_ident := (Some "arg1"); sf_ty := (SPath (SegPath [] "usize" NoArgs))
  |}; {| sf_attrs := []; sf_ident := (Some "arg2"); sf_ty := (SPtr true (SPath (SegPath [] "u8" NoArgs))) |}]))].
Definition layout_aligned_opaque_toml : Config := {| header := (Some "#define CBINDGEN_PACKED        __attribute__ ((packed))
#define CBINDGEN_ALIGNED(n)    __attribute__ ((aligned(n)))
"); includes_ := []; sys_includes_ := []; after_includes := None; trailer := None;
  include_guard_ := None; pragma_once := false; no_includes := false; package_version := false; autogen_warning := None; include_version := false;
  namespace := None; namespaces := None; using_namespaces := None; braces := SameLine; line_length := 100; tab_width := 2; line_endings := LF;
  language := Cxx; cpp_compat := false; style := Both; sort_by := SortNone; usize_is_size_t := false; parse := default_parse; export := {| ex_include := ["PackedStruct"; "PackedUnion"; "OpaqueAlign1Union"; "OpaqueAlign4Union"; "OpaqueAlign16Union"; "OpaqueAlign1Struct"; "OpaqueAlign2Struct"; "OpaqueAlign4Struct"; "OpaqueAlign8Struct"; "OpaqueAlign32Struct"]; ex_exclude := []; ex_rename := []; ex_pre_body := []; ex_body := []; ex_prefix := None; ex_item_types := []; ex_renaming_overrides_prefixing := false; ex_mangle := {| rename_types := RNone; remove_underscores := false |} |};
  layout := {| ly_packed := (Some "CBINDGEN_PACKED"); ly_aligned_n := None |}; function := {| fn_prefix := None; fn_postfix := None; fn_must_use := None; fn_deprecated := None; fn_deprecated_with_note := None; fn_args := Auto; fn_rename_args := RNone; fn_swift_name_macro := None; fn_sort_by := None; fn_no_return := None |}; structure := {| st_rename_fields := RNone; st_derive_constructor := false; st_derive_eq := false; st_derive_neq := false; st_derive_lt := false; st_derive_lte := false; st_derive_gt := false; st_derive_gte := false; st_derive_ostream := false; st_associated_constants_in_body := false; st_rename_associated_constant := RNone; st_must_use := None; st_deprecated := None; st_deprecated_with_note := None |}; enumeration := {| en_rename_variants := RNone; en_rename_variant_name_fields := SnakeCase; en_add_sentinel := false; en_prefix_with_name := false; en_derive_helper_methods := false; en_derive_const_casts := false; en_derive_mut_casts := false; en_cast_assert_name := None; en_must_use := None; en_deprecated := None; en_deprecated_with_note := None; en_deprecated_variant := None; en_deprecated_variant_with_note := None; en_derive_tagged_enum_destructor := false; en_derive_tagged_enum_copy_constructor := false; en_derive_tagged_enum_copy_assignment := false; en_derive_ostream := false; en_enum_class := true; en_private_default_tagged_enum_constructor := false |}; constant := {| co_allow_static_const := true; co_allow_constexpr := true; co_sort_by := None |}; defines := []; documentation := true;
  documentation_style := DocAuto; documentation_length := Full; pointer := {| pt_non_null_attribute := None; pt_nullable_attribute := None |}; cython := {| cy_header := None; cy_cimports := [] |}; config_path := None |}.
(** tests/expectations/layout_aligned_opaque.compat.c *)
Definition layout_aligned_opaque_compat : string := "#define CBINDGEN_PACKED        __attribute__ ((packed))
#define CBINDGEN_ALIGNED(n)    __attribute__ ((aligned(n)))


#include <stdarg.h>
#include <stdbool.h>
#include <stdint.h>
#include <stdlib.h>

typedef struct OpaqueAlign16Union OpaqueAlign16Union;

typedef struct OpaqueAlign1Struct OpaqueAlign1Struct;

typedef struct OpaqueAlign1Union OpaqueAlign1Union;

typedef struct OpaqueAlign2Struct OpaqueAlign2Struct;

typedef struct OpaqueAlign32Struct OpaqueAlign32Struct;

typedef struct OpaqueAlign4Struct OpaqueAlign4Struct;

typedef struct OpaqueAlign4Union OpaqueAlign4Union;

typedef struct OpaqueAlign8Struct OpaqueAlign8Struct;

typedef struct CBINDGEN_PACKED {
  uintptr_t arg1;
  uint8_t *arg2;
} PackedStruct;

typedef union CBINDGEN_PACKED {
  uintptr_t variant1;
  uint8_t *variant2;
} PackedUnion;
".
(** tests/expectations/layout_aligned_opaque_tag.compat.c *)
Definition layout_aligned_opaque_compat_tag : string := "#define CBINDGEN_PACKED        __attribute__ ((packed))
#define CBINDGEN_ALIGNED(n)    __attribute__ ((aligned(n)))


#include <stdarg.h>
#include <stdbool.h>
#include <stdint.h>
#include <stdlib.h>

struct OpaqueAlign16Union;

struct OpaqueAlign1Struct;

struct OpaqueAlign1Union;

struct OpaqueAlign2Struct;

struct OpaqueAlign32Struct;

struct OpaqueAlign4Struct;

struct OpaqueAlign4Union;

struct OpaqueAlign8Struct;

struct CBINDGEN_PACKED PackedStruct {
  uintptr_t arg1;
  uint8_t *arg2;
};

union CBINDGEN_PACKED PackedUnion {
  uintptr_t variant1;
  uint8_t *variant2;
};
".
(** tests/expectations/layout_aligned_opaque_both.compat.c *)
Definition layout_aligned_opaque_compat_both : string := "#define CBINDGEN_PACKED        __attribute__ ((packed))
#define CBINDGEN_ALIGNED(n)    __attribute__ ((aligned(n)))


#include <stdarg.h>
#include <stdbool.h>
#include <stdint.h>
#include <stdlib.h>

typedef struct OpaqueAlign16Union OpaqueAlign16Union;

typedef struct OpaqueAlign1Struct OpaqueAlign1Struct;

typedef struct OpaqueAlign1Union OpaqueAlign1Union;

typedef struct OpaqueAlign2Struct OpaqueAlign2Struct;

typedef struct OpaqueAlign32Struct OpaqueAlign32Struct;

typedef struct OpaqueAlign4Struct OpaqueAlign4Struct;

typedef struct OpaqueAlign4Union OpaqueAlign4Union;

typedef struct OpaqueAlign8Struct OpaqueAlign8Struct;

typedef struct CBINDGEN_PACKED PackedStruct {
  uintptr_t arg1;
  uint8_t *arg2;
} PackedStruct;

typedef union CBINDGEN_PACKED PackedUnion {
  uintptr_t variant1;
  uint8_t *variant2;
} PackedUnion;
".
(** tests/expectations/layout_aligned_opaque.cpp *)
Definition layout_aligned_opaque_cpp : string := "#define CBINDGEN_PACKED        __attribute__ ((packed))
#define CBINDGEN_ALIGNED(n)    __attribute__ ((aligned(n)))


#include <cstdarg>
#include <cstdint>
#include <cstdlib>
#include <ostream>
#include <new>

struct OpaqueAlign16Union;

struct OpaqueAlign1Struct;

struct OpaqueAlign1Union;

struct OpaqueAlign2Struct;

struct OpaqueAlign32Struct;

struct OpaqueAlign4Struct;

struct OpaqueAlign4Union;

struct OpaqueAlign8Struct;

struct CBINDGEN_PACKED PackedStruct {
  uintptr_t arg1;
  uint8_t *arg2;
};

union CBINDGEN_PACKED PackedUnion {
  uintptr_t variant1;
  uint8_t *variant2;
};
".
(** tests/expectations/layout_aligned_opaque.pyx *)
Definition layout_aligned_opaque_pyx : string := "#define CBINDGEN_PACKED        __attribute__ ((packed))
#define CBINDGEN_ALIGNED(n)    __attribute__ ((aligned(n)))


from libc.stdint cimport int8_t, int16_t, int32_t, int64_t, intptr_t
from libc.stdint cimport uint8_t, uint16_t, uint32_t, uint64_t, uintptr_t
cdef extern from *:
  ctypedef bint bool
  ctypedef struct va_list

cdef extern from *:

  ctypedef struct OpaqueAlign16Union:
    pass

  ctypedef struct OpaqueAlign1Struct:
    pass

  ctypedef struct OpaqueAlign1Union:
    pass

  ctypedef struct OpaqueAlign2Struct:
    pass

  ctypedef struct OpaqueAlign32Struct:
    pass

  ctypedef struct OpaqueAlign4Struct:
    pass

  ctypedef struct OpaqueAlign4Union:
    pass

  ctypedef struct OpaqueAlign8Struct:
    pass

  ctypedef packed struct PackedStruct:
    uintptr_t arg1;
    uint8_t *arg2;

  ctypedef union PackedUnion:
    uintptr_t variant1;
    uint8_t *variant2;
".
(** tests/expectations/layout_aligned_opaque_tag.pyx *)
Definition layout_aligned_opaque_pyx_tag : string := "#define CBINDGEN_PACKED        __attribute__ ((packed))
#define CBINDGEN_ALIGNED(n)    __attribute__ ((aligned(n)))


from libc.stdint cimport int8_t, int16_t, int32_t, int64_t, intptr_t
from libc.stdint cimport uint8_t, uint16_t, uint32_t, uint64_t, uintptr_t
cdef extern from *:
  ctypedef bint bool
  ctypedef struct va_list

cdef extern from *:

  cdef struct OpaqueAlign16Union:
    pass

  cdef struct OpaqueAlign1Struct:
    pass

  cdef struct OpaqueAlign1Union:
    pass

  cdef struct OpaqueAlign2Struct:
    pass

  cdef struct OpaqueAlign32Struct:
    pass

  cdef struct OpaqueAlign4Struct:
    pass

  cdef struct OpaqueAlign4Union:
    pass

  cdef struct OpaqueAlign8Struct:
    pass

  cdef packed struct PackedStruct:
    uintptr_t arg1;
    uint8_t *arg2;

  cdef union PackedUnion:
    uintptr_t variant1;
    uint8_t *variant2;
".
Example layout_aligned_opaque_reproduced : reproduces (in_file layout_aligned_opaque_rs) false layout_aligned_opaque_toml None
  [(RunC true Type_, [layout_aligned_opaque_compat]);
   (RunC true Tag, [layout_aligned_opaque_compat_tag]);
   (RunC true Both, [layout_aligned_opaque_compat_both]);
   (RunC false Type_, [layout_aligned_opaque_compat; layout_aligned_opaque_compat_tag; layout_aligned_opaque_compat_both]);
   (RunC false Tag, [layout_aligned_opaque_compat; layout_aligned_opaque_compat_tag; layout_aligned_opaque_compat_both]);
   (RunC false Both, [layout_aligned_opaque_compat; layout_aligned_opaque_compat_tag; layout_aligned_opaque_compat_both]);
   (RunCxx, [layout_aligned_opaque_cpp]);
   (RunCython Type_, [layout_aligned_opaque_pyx]);
   (RunCython Tag, [layout_aligned_opaque_pyx_tag])] = true.
Proof. vm_compute. reflexivity. Qed.

(** ** tests/rust/layout_packed_opaque.rs *)
Definition layout_packed_opaque_rs : list sitem := [
  (ItemUnion [{| at_meta := (AList (Some "repr") [(AList (Some "align") [(AInt "1")]); (APath (Some "C"))]); at_outer := true |}] "Align1Union"
  [] [{| sf_attrs := []; sf_ident := (Some "variant1"); sf_ty := (SPath (SegPath [] "usize" NoArgs)) |}; {| sf_attrs := []; sf_ident
  := (Some "variant2"); sf_ty := (SPtr true (SPath (SegPath [] "u8" NoArgs))) |}]);
  (ItemUnion [{| at_meta := (AList (Some "repr") [(AList (Some "align") [(AInt "4")]); (APath (Some "C"))]); at_outer := true |}] "Align4Union"
  [] [{| sf_attrs := []; sf_ident := (Some "variant1"); sf_ty := (SPath (SegPath [] "usize" NoArgs)) |}; {| sf_attrs := []; sf_ident
  := (Some "variant2"); sf_ty := (SPtr true (SPath (SegPath [] "u8" NoArgs))) |}]);
  (ItemUnion [{| at_meta := (AList (Some "repr") [(AList (Some "align") [(AInt "16")]); (APath (Some "C"))]); at_outer := true |}] "Align16Union"
  [] [{| sf_attrs := []; sf_ident := (Some "variant1"); sf_ty := (SPath (SegPath [] "usize" NoArgs)) |}; {| sf_attrs := []; sf_ident
  := (Some "variant2"); sf_ty := (SPtr true (SPath (SegPath [] "u8" NoArgs))) |}]);
  (ItemStruct [{| at_meta := (AList (Some "repr") [(AList (Some "align") [(AInt "1")]); (APath (Some "C"))]); at_outer := true |}] "Align1Struct"
  [] (FieldsNamed [{| sf_attrs := []; sf_ident := (Some "arg1"); sf_ty := (SPath (SegPath [] "usize" NoArgs)) |}; {| sf_attrs := [];
  sf_ident := (Some "arg2"); sf_ty := (SPtr true (SPath (SegPath [] "u8" NoArgs))) |}]));
  (ItemStruct [{| at_meta := (AList (Some "repr") [(AList (Some "align") [(AInt "2")]); (APath (Some "C"))]); at_outer := true |}] "Align2Struct"
  [] (FieldsNamed [{| sf_attrs := []; sf_ident := (Some "arg1"); sf_ty := (SPath (SegPath [] "usize" NoArgs)) |}; {| sf_attrs := [];
  sf_ident := (Some "arg2"); sf_ty := (SPtr true (SPath (SegPath [] "u8" NoArgs))) |}]));
  (ItemStruct [{| at_meta := (AList (Some "repr") [(AList (Some "align") [(AInt "4")]); (APath (Some "C"))]); at_outer := true |}] "Align4Struct"
  [] (FieldsNamed [{| sf_attrs := []; sf_ident := (Some "arg1"); sf_ty := (SPath (SegPath [] "usize" NoArgs)) |}; {| sf_attrs := [];
  sf_ident := (Some "arg2"); sf_ty := (SPtr true (SPath (SegPath [] "u8" NoArgs))) |}]));
  (ItemStruct [{| at_meta := (AList (Some "repr") [(AList (Some "align") [(AInt "8")]); (APath (Some "C"))]); at_outer := true |}] "Align8Struct"
  [] (FieldsNamed [{| sf_attrs := []; sf_ident := (Some "arg1"); sf_ty := (SPath (SegPath [] "usize" NoArgs)) |}; {| sf_attrs := [];
  sf_ident := (Some "arg2"); sf_ty := (SPtr true (SPath (SegPath [] "u8" NoArgs))) |}]));
  (ItemStruct [{| at_meta := (AList (Some "repr") [(AList (Some "align") [(AInt "32")]); (APath (Some "C"))]); at_outer := true |}]
  "Align32Struct" [] (FieldsNamed [{| sf_attrs := []; sf_ident := (Some "arg1"); sf_ty := (SPath (SegPath [] "usize" NoArgs)) |};
  {| sf_attrs := []; sf_ident := (Some "arg2"); sf_ty := (SPtr true (SPath (SegPath [] "u8" NoArgs))) |}]));
  (ItemStruct [{| at_meta := (AList (Some "repr") [(APath (Some "packed")); (APath (Some "C"))]); at_outer := true |}] "OpaquePackedStruct"
  [] (FieldsNamed [{| sf_attrs := []; sf_ident := (Some "arg1"); sf_ty := (SPath (SegPath [] "usize" NoArgs)) |}; {| sf_attrs := [];
  sf_ident := (Some "arg2"); sf_ty := (SPtr true (SPath (SegPath [] "u8" NoArgs))) |}]));
  (ItemUnion [{| at_meta := (AList (Some "repr") [(APath (Some "packed")); (APath (Some "C"))]); at_outer := true |}] "OpaquePackedUnion"
  [] [{| sf_attrs := []; sf_ident := (Some "variant1"); sf_ty := (SPath (SegPath [] "usize" NoArgs)) |}; {| sf_attrs := []; sf_ident
  := (Some "variant2"); sf_ty := (SPtr true (SPath (SegPath [] "u8" NoArgs))) |}])].
Definition layout_packed_opaque_toml : Config := {| header := (Some "#define CBINDGEN_PACKED        __attribute__ ((packed))
#define CBINDGEN_ALIGNED(n)    __attribute__ ((aligned(n)))
"); includes_ := []; sys_includes_ := []; after_includes := None; trailer := None;
  include_guard_ := None; pragma_once := false; no_includes := false; package_version := false; autogen_warning := None; include_version := false;
  namespace := None; namespaces := None; using_namespaces := None; braces := SameLine; line_length := 100; tab_width := 2; line_endings := LF;
  language := Cxx; cpp_compat := false; style := Both; sort_by := SortNone; usize_is_size_t := false; parse := default_parse; export := {| ex_include := ["Align1Union"; "Align4Union"; "Align16Union"; "Align1Struct"; "Align2Struct"; "Align4Struct"; "Align8Struct"; "Align32Struct"; "OpaquePackedStruct"; "OpaquePackedUnion"]; ex_exclude := []; ex_rename := []; ex_pre_body := []; ex_body := []; ex_prefix := None; ex_item_types := []; ex_renaming_overrides_prefixing := false; ex_mangle := {| rename_types := RNone; remove_underscores := false |} |};
  layout := {| ly_packed := None; ly_aligned_n := (Some "CBINDGEN_ALIGNED") |}; function := {| fn_prefix := None; fn_postfix := None; fn_must_use := None; fn_deprecated := None; fn_deprecated_with_note := None; fn_args := Auto; fn_rename_args := RNone; fn_swift_name_macro := None; fn_sort_by := None; fn_no_return := None |}; structure := {| st_rename_fields := RNone; st_derive_constructor := false; st_derive_eq := false; st_derive_neq := false; st_derive_lt := false; st_derive_lte := false; st_derive_gt := false; st_derive_gte := false; st_derive_ostream := false; st_associated_constants_in_body := false; st_rename_associated_constant := RNone; st_must_use := None; st_deprecated := None; st_deprecated_with_note := None |}; enumeration := {| en_rename_variants := RNone; en_rename_variant_name_fields := SnakeCase; en_add_sentinel := false; en_prefix_with_name := false; en_derive_helper_methods := false; en_derive_const_casts := false; en_derive_mut_casts := false; en_cast_assert_name := None; en_must_use := None; en_deprecated := None; en_deprecated_with_note := None; en_deprecated_variant := None; en_deprecated_variant_with_note := None; en_derive_tagged_enum_destructor := false; en_derive_tagged_enum_copy_constructor := false; en_derive_tagged_enum_copy_assignment := false; en_derive_ostream := false; en_enum_class := true; en_private_default_tagged_enum_constructor := false |}; constant := {| co_allow_static_const := true; co_allow_constexpr := true; co_sort_by := None |}; defines := []; documentation := true;
  documentation_style := DocAuto; documentation_length := Full; pointer := {| pt_non_null_attribute := None; pt_nullable_attribute := None |}; cython := {| cy_header := None; cy_cimports := [] |}; config_path := None |}.
(** tests/expectations/layout_packed_opaque.compat.c *)
Definition layout_packed_opaque_compat : string := "#define CBINDGEN_PACKED        __attribute__ ((packed))
#define CBINDGEN_ALIGNED(n)    __attribute__ ((aligned(n)))


#include <stdarg.h>
#include <stdbool.h>
#include <stdint.h>
#include <stdlib.h>

typedef struct OpaquePackedStruct OpaquePackedStruct;

typedef struct OpaquePackedUnion OpaquePackedUnion;

typedef union CBINDGEN_ALIGNED(1) {
  uintptr_t variant1;
  uint8_t *variant2;
} Align1Union;

typedef union CBINDGEN_ALIGNED(4) {
  uintptr_t variant1;
  uint8_t *variant2;
} Align4Union;

typedef union CBINDGEN_ALIGNED(16) {
  uintptr_t variant1;
  uint8_t *variant2;
} Align16Union;

typedef struct CBINDGEN_ALIGNED(1) {
  uintptr_t arg1;
  uint8_t *arg2;
} Align1Struct;

typedef struct CBINDGEN_ALIGNED(2) {
  uintptr_t arg1;
  uint8_t *arg2;
} Align2Struct;

typedef struct CBINDGEN_ALIGNED(4) {
  uintptr_t arg1;
  uint8_t *arg2;
} Align4Struct;

typedef struct CBINDGEN_ALIGNED(8) {
  uintptr_t arg1;
  uint8_t *arg2;
} Align8Struct;

typedef struct CBINDGEN_ALIGNED(32) {
  uintptr_t arg1;
  uint8_t *arg2;
} Align32Struct;
".
(** tests/expectations/layout_packed_opaque_tag.compat.c *)
Definition layout_packed_opaque_compat_tag : string := "#define CBINDGEN_PACKED        __attribute__ ((packed))
#define CBINDGEN_ALIGNED(n)    __attribute__ ((aligned(n)))


#include <stdarg.h>
#include <stdbool.h>
#include <stdint.h>
#include <stdlib.h>

struct OpaquePackedStruct;

struct OpaquePackedUnion;

union CBINDGEN_ALIGNED(1) Align1Union {
  uintptr_t variant1;
  uint8_t *variant2;
};

union CBINDGEN_ALIGNED(4) Align4Union {
  uintptr_t variant1;
  uint8_t *variant2;
};

union CBINDGEN_ALIGNED(16) Align16Union {
  uintptr_t variant1;
  uint8_t *variant2;
};

struct CBINDGEN_ALIGNED(1) Align1Struct {
  uintptr_t arg1;
  uint8_t *arg2;
};

struct CBINDGEN_ALIGNED(2) Align2Struct {
  uintptr_t arg1;
  uint8_t *arg2;
};

struct CBINDGEN_ALIGNED(4) Align4Struct {
  uintptr_t arg1;
  uint8_t *arg2;
};

struct CBINDGEN_ALIGNED(8) Align8Struct {
  uintptr_t arg1;
  uint8_t *arg2;
};

struct CBINDGEN_ALIGNED(32) Align32Struct {
  uintptr_t arg1;
  uint8_t *arg2;
};
".
(** tests/expectations/layout_packed_opaque_both.compat.c *)
Definition layout_packed_opaque_compat_both : string := "#define CBINDGEN_PACKED        __attribute__ ((packed))
#define CBINDGEN_ALIGNED(n)    __attribute__ ((aligned(n)))


#include <stdarg.h>
#include <stdbool.h>
#include <stdint.h>
#include <stdlib.h>

typedef struct OpaquePackedStruct OpaquePackedStruct;

typedef struct OpaquePackedUnion OpaquePackedUnion;

typedef union CBINDGEN_ALIGNED(1) Align1Union {
  uintptr_t variant1;
  uint8_t *variant2;
} Align1Union;

typedef union CBINDGEN_ALIGNED(4) Align4Union {
  uintptr_t variant1;
  uint8_t *variant2;
} Align4Union;

typedef union CBINDGEN_ALIGNED(16) Align16Union {
  uintptr_t variant1;
  uint8_t *variant2;
} Align16Union;

typedef struct CBINDGEN_ALIGNED(1) Align1Struct {
  uintptr_t arg1;
  uint8_t *arg2;
} Align1Struct;

typedef struct CBINDGEN_ALIGNED(2) Align2Struct {
  uintptr_t arg1;
  uint8_t *arg2;
} Align2Struct;

typedef struct CBINDGEN_ALIGNED(4) Align4Struct {
  uintptr_t arg1;
  uint8_t *arg2;
} Align4Struct;

typedef struct CBINDGEN_ALIGNED(8) Align8Struct {
  uintptr_t arg1;
  uint8_t *arg2;
} Align8Struct;

typedef struct CBINDGEN_ALIGNED(32) Align32Struct {
  uintptr_t arg1;
  uint8_t *arg2;
} Align32Struct;
".
(** tests/expectations/layout_packed_opaque.cpp *)
Definition layout_packed_opaque_cpp : string := "#define CBINDGEN_PACKED        __attribute__ ((packed))
#define CBINDGEN_ALIGNED(n)    __attribute__ ((aligned(n)))


#include <cstdarg>
#include <cstdint>
#include <cstdlib>
#include <ostream>
#include <new>

struct OpaquePackedStruct;

struct OpaquePackedUnion;

union CBINDGEN_ALIGNED(1) Align1Union {
  uintptr_t variant1;
  uint8_t *variant2;
};

union CBINDGEN_ALIGNED(4) Align4Union {
  uintptr_t variant1;
  uint8_t *variant2;
};

union CBINDGEN_ALIGNED(16) Align16Union {
  uintptr_t variant1;
  uint8_t *variant2;
};

struct CBINDGEN_ALIGNED(1) Align1Struct {
  uintptr_t arg1;
  uint8_t *arg2;
};

struct CBINDGEN_ALIGNED(2) Align2Struct {
  uintptr_t arg1;
  uint8_t *arg2;
};

struct CBINDGEN_ALIGNED(4) Align4Struct {
  uintptr_t arg1;
  uint8_t *arg2;
};

struct CBINDGEN_ALIGNED(8) Align8Struct {
  uintptr_t arg1;
  uint8_t *arg2;
};

struct CBINDGEN_ALIGNED(32) Align32Struct {
  uintptr_t arg1;
  uint8_t *arg2;
};
".
(** tests/expectations/layout_packed_opaque.pyx *)
Definition layout_packed_opaque_pyx : string := "#define CBINDGEN_PACKED        __attribute__ ((packed))
#define CBINDGEN_ALIGNED(n)    __attribute__ ((aligned(n)))


from libc.stdint cimport int8_t, int16_t, int32_t, int64_t, intptr_t
from libc.stdint cimport uint8_t, uint16_t, uint32_t, uint64_t, uintptr_t
cdef extern from *:
  ctypedef bint bool
  ctypedef struct va_list

cdef extern from *:

  ctypedef struct OpaquePackedStruct:
    pass

  ctypedef struct OpaquePackedUnion:
    pass

  ctypedef union Align1Union:
    uintptr_t variant1;
    uint8_t *variant2;

  ctypedef union Align4Union:
    uintptr_t variant1;
    uint8_t *variant2;

  ctypedef union Align16Union:
    uintptr_t variant1;
    uint8_t *variant2;

  ctypedef struct Align1Struct:
    uintptr_t arg1;
    uint8_t *arg2;

  ctypedef struct Align2Struct:
    uintptr_t arg1;
    uint8_t *arg2;

  ctypedef struct Align4Struct:
    uintptr_t arg1;
    uint8_t *arg2;

  ctypedef struct Align8Struct:
    uintptr_t arg1;
    uint8_t *arg2;

  ctypedef struct Align32Struct:
    uintptr_t arg1;
    uint8_t *arg2;
".
(** tests/expectations/layout_packed_opaque_tag.pyx *)
Definition layout_packed_opaque_pyx_tag : string := "#define CBINDGEN_PACKED        __attribute__ ((packed))
#define CBINDGEN_ALIGNED(n)    __attribute__ ((aligned(n)))


from libc.stdint cimport int8_t, int16_t, int32_t, int64_t, intptr_t
from libc.stdint cimport uint8_t, uint16_t, uint32_t, uint64_t, uintptr_t
cdef extern from *:
  ctypedef bint bool
  ctypedef struct va_list

cdef extern from *:

  cdef struct OpaquePackedStruct:
    pass

  cdef struct OpaquePackedUnion:
    pass

  cdef union Align1Union:
    uintptr_t variant1;
    uint8_t *variant2;

  cdef union Align4Union:
    uintptr_t variant1;
    uint8_t *variant2;

  cdef union Align16Union:
    uintptr_t variant1;
    uint8_t *variant2;

  cdef struct Align1Struct:
    uintptr_t arg1;
    uint8_t *arg2;

  cdef struct Align2Struct:
    uintptr_t arg1;
    uint8_t *arg2;

  cdef struct Align4Struct:
    uintptr_t arg1;
    uint8_t *arg2;

  cdef struct Align8Struct:
    uintptr_t arg1;
    uint8_t *arg2;

  cdef struct Align32Struct:
    uintptr_t arg1;
    uint8_t *arg2;
".
Example layout_packed_opaque_reproduced : reproduces (in_file layout_packed_opaque_rs) false layout_packed_opaque_toml None
  [(RunC true Type_, [layout_packed_opaque_compat]);
   (RunC true Tag, [layout_packed_opaque_compat_tag]);
   (RunC true Both, [layout_packed_opaque_compat_both]);
   (RunC false Type_, [layout_packed_opaque_compat; layout_packed_opaque_compat_tag; layout_packed_opaque_compat_both]);
   (RunC false Tag, [layout_packed_opaque_compat; layout_packed_opaque_compat_tag; layout_packed_opaque_compat_both]);
   (RunC false Both, [layout_packed_opaque_compat; layout_packed_opaque_compat_tag; layout_packed_opaque_compat_both]);
   (RunCxx, [layout_packed_opaque_cpp]);
   (RunCython Type_, [layout_packed_opaque_pyx]);
   (RunCython Tag, [layout_packed_opaque_pyx_tag])] = true.
Proof. vm_compute. reflexivity. Qed.

(** ** tests/rust/lifetime_arg.rs *)
Definition lifetime_arg_rs : list sitem := [
  (ItemStruct [{| at_meta := (AList (Some "repr") [(APath (Some "C"))]); at_outer := true |}] "A" [SGLifetime] (FieldsNamed [{| sf_attrs
  := []; sf_ident := (Some "data"); sf_ty := (SRef false (SPath (SegPath [] "i32" NoArgs))) |}]));
  (ItemEnum [{| at_meta := (AList (Some "repr") [(APath (Some "C"))]); at_outer := true |}] "E" [SGLifetime] [{| sv_attrs := []; sv_ident
  := "V"; sv_fields := FieldsUnit; sv_discriminant := None |}; {| sv_attrs := []; sv_ident := "U"; sv_fields := (FieldsUnnamed [{|
  sf_attrs := []; sf_ident := None; sf_ty := (SRef false (SPath (SegPath [] "u8" NoArgs))) |}]); sv_discriminant := None |}]);
  (ItemFn [{| at_meta := (APath (Some "no_mangle")); at_outer := true |}] true {| sg_ident := "root"; sg_abi := (Some (Some "C")); sg_inputs
  := [(FnTyped (PatIdent "_a") (SPath (SegPath [] "A" (AngleArgs [ArgLifetime])))); (FnTyped (PatIdent "_e") (SPath (SegPath [] "E"
  (AngleArgs [ArgLifetime]))))]; sg_variadic := false; sg_output := None |})].
(** tests/expectations/lifetime_arg.compat.c *)
Definition lifetime_arg_compat : string := "#include <stdarg.h>
#include <stdbool.h>
#include <stdint.h>
#include <stdlib.h>

typedef struct {
  const int32_t *data;
} A;

typedef enum {
  V,
  U,
} E_Tag;

typedef struct {
  E_Tag tag;
  union {
    struct {
      const uint8_t *u;
    };
  };
} E;

#ifdef __cplusplus
extern ""C"" {
#endif // __cplusplus

void root(A _a, E _e);

#ifdef __cplusplus
}  // extern ""C""
#endif  // __cplusplus
".
(** tests/expectations/lifetime_arg_tag.compat.c *)
Definition lifetime_arg_compat_tag : string := "#include <stdarg.h>
#include <stdbool.h>
#include <stdint.h>
#include <stdlib.h>

struct A {
  const int32_t *data;
};

enum E_Tag {
  V,
  U,
};

struct E {
  enum E_Tag tag;
  union {
    struct {
      const uint8_t *u;
    };
  };
};

#ifdef __cplusplus
extern ""C"" {
#endif // __cplusplus

void root(struct A _a, struct E _e);

#ifdef __cplusplus
}  // extern ""C""
#endif  // __cplusplus
".
(** tests/expectations/lifetime_arg_both.compat.c *)
Definition lifetime_arg_compat_both : string := "#include <stdarg.h>
#include <stdbool.h>
#include <stdint.h>
#include <stdlib.h>

typedef struct A {
  const int32_t *data;
} A;

typedef enum E_Tag {
  V,
  U,
} E_Tag;

typedef struct E {
  E_Tag tag;
  union {
    struct {
      const uint8_t *u;
    };
  };
} E;

#ifdef __cplusplus
extern ""C"" {
#endif // __cplusplus

void root(struct A _a, struct E _e);

#ifdef __cplusplus
}  // extern ""C""
#endif  // __cplusplus
".
(** tests/expectations/lifetime_arg.c *)
Definition lifetime_arg_c : string := "#include <stdarg.h>
#include <stdbool.h>
#include <stdint.h>
#include <stdlib.h>

typedef struct {
  const int32_t *data;
} A;

typedef enum {
  V,
  U,
} E_Tag;

typedef struct {
  E_Tag tag;
  union {
    struct {
      const uint8_t *u;
    };
  };
} E;

void root(A _a, E _e);
".
(** tests/expectations/lifetime_arg_tag.c *)
Definition lifetime_arg_c_tag : string := "#include <stdarg.h>
#include <stdbool.h>
#include <stdint.h>
#include <stdlib.h>

struct A {
  const int32_t *data;
};

enum E_Tag {
  V,
  U,
};

struct E {
  enum E_Tag tag;
  union {
    struct {
      const uint8_t *u;
    };
  };
};

void root(struct A _a, struct E _e);
".
(** tests/expectations/lifetime_arg_both.c *)
Definition lifetime_arg_c_both : string := "#include <stdarg.h>
#include <stdbool.h>
#include <stdint.h>
#include <stdlib.h>

typedef struct A {
  const int32_t *data;
} A;

typedef enum E_Tag {
  V,
  U,
} E_Tag;

typedef struct E {
  E_Tag tag;
  union {
    struct {
      const uint8_t *u;
    };
  };
} E;

void root(struct A _a, struct E _e);
".
(** tests/expectations/lifetime_arg.cpp *)
Definition lifetime_arg_cpp : string := "#include <cstdarg>
#include <cstdint>
#include <cstdlib>
#include <ostream>
#include <new>

struct A {
  const int32_t *data;
};

struct E {
  enum class Tag {
    V,
    U,
  };

  struct U_Body {
    const uint8_t *_0;
  };

  Tag tag;
  union {
    U_Body u;
  };
};

extern ""C"" {

void root(A _a, E _e);

}  // extern ""C""
".
(** tests/expectations/lifetime_arg.pyx *)
Definition lifetime_arg_pyx : string := "from libc.stdint cimport int8_t, int16_t, int32_t, int64_t, intptr_t
from libc.stdint cimport uint8_t, uint16_t, uint32_t, uint64_t, uintptr_t
cdef extern from *:
  ctypedef bint bool
  ctypedef struct va_list

cdef extern from *:

  ctypedef struct A:
    const int32_t *data;

  ctypedef enum E_Tag:
    V,
    U,

  ctypedef struct E:
    E_Tag tag;
    const uint8_t *u;

  void root(A _a, E _e);
".
(** tests/expectations/lifetime_arg_tag.pyx *)
Definition lifetime_arg_pyx_tag : string := "from libc.stdint cimport int8_t, int16_t, int32_t, int64_t, intptr_t
from libc.stdint cimport uint8_t, uint16_t, uint32_t, uint64_t, uintptr_t
cdef extern from *:
  ctypedef bint bool
  ctypedef struct va_list

cdef extern from *:

  cdef struct A:
    const int32_t *data;

  cdef enum E_Tag:
    V,
    U,

  cdef struct E:
    E_Tag tag;
    const uint8_t *u;

  void root(A _a, E _e);
".
Example lifetime_arg_reproduced : reproduces (in_file lifetime_arg_rs) false default_config (Some "{
root;
};")
  [(RunC true Type_, [lifetime_arg_compat]);
   (RunC true Tag, [lifetime_arg_compat_tag]);
   (RunC true Both, [lifetime_arg_compat_both]);
   (RunC false Type_, [lifetime_arg_c]);
   (RunC false Tag, [lifetime_arg_c_tag]);
   (RunC false Both, [lifetime_arg_c_both]);
   (RunCxx, [lifetime_arg_cpp]);
   (RunCython Type_, [lifetime_arg_pyx]);
   (RunCython Tag, [lifetime_arg_pyx_tag])] = true.
Proof. vm_compute. reflexivity. Qed.

