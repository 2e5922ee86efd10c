(** See S_Suite.v; generated. *)
Require Import Coq.Strings.String Coq.Strings.Ascii Coq.Lists.List Coq.Bool.Bool Coq.NArith.NArith.
From Verif Require Import Base M_Config M_Cfg M_Type M_Ir M_Item M_Attr M_Syn M_Library M_Loader M_Parser M_Bindings M_Backend S_Heck S_Suite.
Import ListNotations.
Open Scope string_scope.

(** ** tests/rust/abi_string.rs *)
Definition abi_string_rs : list sitem := [
  (ItemFn [{| at_meta := (APath (Some "no_mangle")); at_outer := true |}] true {| sg_ident := "c"; sg_abi := (Some (Some "C")); sg_inputs
  := []; sg_variadic := false; sg_output := None |});
  (ItemFn [{| at_meta := (APath (Some "no_mangle")); at_outer := true |}] true {| sg_ident := "c_unwind"; sg_abi := (Some (Some "C-unwind"));
  sg_inputs := []; sg_variadic := false; sg_output := None |})].
(** tests/expectations/abi_string.compat.c *)
Definition abi_string_compat : string := "#include <stdarg.h>
#include <stdbool.h>
#include <stdint.h>
#include <stdlib.h>

#ifdef __cplusplus
extern ""C"" {
#endif // __cplusplus

void c(void);

void c_unwind(void);

#ifdef __cplusplus
}  // extern ""C""
#endif  // __cplusplus
".
(** tests/expectations/abi_string.c *)
Definition abi_string_c : string := "#include <stdarg.h>
#include <stdbool.h>
#include <stdint.h>
#include <stdlib.h>

void c(void);

void c_unwind(void);
".
(** tests/expectations/abi_string.cpp *)
Definition abi_string_cpp : string := "#include <cstdarg>
#include <cstdint>
#include <cstdlib>
#include <ostream>
#include <new>

extern ""C"" {

void c();

void c_unwind();

}  // extern ""C""
".
(** tests/expectations/abi_string.pyx *)
Definition abi_string_pyx : string := "from libc.stdint cimport int8_t, int16_t, int32_t, int64_t, intptr_t
from libc.stdint cimport uint8_t, uint16_t, uint32_t, uint64_t, uintptr_t
cdef extern from *:
  ctypedef bint bool
  ctypedef struct va_list

cdef extern from *:

  void c();

  void c_unwind();
".
Example abi_string_reproduced : reproduces (in_file abi_string_rs) false default_config (Some "{
c;
c_unwind;
};")
  [(RunC true Type_, [abi_string_compat]);
   (RunC true Tag, [abi_string_compat]);
   (RunC true Both, [abi_string_compat]);
   (RunC false Type_, [abi_string_c]);
   (RunC false Tag, [abi_string_compat; abi_string_c]);
   (RunC false Both, [abi_string_compat; abi_string_c]);
   (RunCxx, [abi_string_cpp]);
   (RunCython Type_, [abi_string_pyx]);
   (RunCython Tag, [abi_string_pyx])] = true.
Proof. vm_compute. reflexivity. Qed.

(** ** tests/rust/alias.rs *)
Definition alias_rs : list sitem := [
  (ItemStruct [{| at_meta := (AList (Some "repr") [(APath (Some "C"))]); at_outer := true |}] "Dep" [] (FieldsNamed [{| sf_attrs :=
  []; sf_ident := (Some "a"); sf_ty := (SPath (SegPath [] "i32" NoArgs)) |}; {| sf_attrs := []; sf_ident := (Some "b"); sf_ty := (SPath
  (SegPath [] "f32" NoArgs)) |}]));
  (ItemStruct [{| at_meta := (AList (Some "repr") [(APath (Some "C"))]); at_outer := true |}] "Foo" [(SGType "X" None)] (FieldsNamed
  [{| sf_attrs := []; sf_ident := (Some "a"); sf_ty := (SPath (SegPath [] "X" NoArgs)) |}; {| sf_attrs := []; sf_ident := (Some "b");
  sf_ty := (SPath (SegPath [] "X" NoArgs)) |}; {| sf_attrs := []; sf_ident := (Some "c"); sf_ty := (SPath (SegPath [] "Dep" NoArgs))
  |}]));
  (ItemEnum [{| at_meta := (AList (Some "repr") [(APath (Some "u32"))]); at_outer := true |}] "Status" [] [{| sv_attrs := []; sv_ident
  := "Ok"; sv_fields := FieldsUnit; sv_discriminant := None |}; {| sv_attrs := []; sv_ident := "Err"; sv_fields := FieldsUnit; sv_discriminant
  := None |}]);
  (ItemType [] "IntFoo" [] (SPath (SegPath [] "Foo" (AngleArgs [(ArgType (SPath (SegPath [] "i32" NoArgs)))]))));
  (ItemType [] "DoubleFoo" [] (SPath (SegPath [] "Foo" (AngleArgs [(ArgType (SPath (SegPath [] "f64" NoArgs)))]))));
  (ItemType [] "Unit" [] (SPath (SegPath [] "i32" NoArgs)));
  (ItemType [] "SpecialStatus" [] (SPath (SegPath [] "Status" NoArgs)));
  (ItemFn [{| at_meta := (APath (Some "no_mangle")); at_outer := true |}] true {| sg_ident := "root"; sg_abi := (Some (Some "C")); sg_inputs
  := [(FnTyped (PatIdent "x") (SPath (SegPath [] "IntFoo" NoArgs))); (FnTyped (PatIdent "y") (SPath (SegPath [] "DoubleFoo" NoArgs)));
  (FnTyped (PatIdent "z") (SPath (SegPath [] "Unit" NoArgs))); (FnTyped (PatIdent "w") (SPath (SegPath [] "SpecialStatus" NoArgs)))];
  sg_variadic := false; sg_output := None |})].
(** tests/expectations/alias.compat.c *)
Definition alias_compat : string := "#include <stdarg.h>
#include <stdbool.h>
#include <stdint.h>
#include <stdlib.h>

enum Status
#if defined(__cplusplus) || __STDC_VERSION__ >= 202311L
  : uint32_t
#endif // defined(__cplusplus) || __STDC_VERSION__ >= 202311L
 {
  Ok,
  Err,
};
#ifndef __cplusplus
#if __STDC_VERSION__ >= 202311L
typedef enum Status Status;
#else
typedef uint32_t Status;
#endif // __STDC_VERSION__ >= 202311L
#endif // __cplusplus

typedef struct {
  int32_t a;
  float b;
} Dep;

typedef struct {
  int32_t a;
  int32_t b;
  Dep c;
} Foo_i32;

typedef Foo_i32 IntFoo;

typedef struct {
  double a;
  double b;
  Dep c;
} Foo_f64;

typedef Foo_f64 DoubleFoo;

typedef int32_t Unit;

typedef Status SpecialStatus;

#ifdef __cplusplus
extern ""C"" {
#endif // __cplusplus

void root(IntFoo x, DoubleFoo y, Unit z, SpecialStatus w);

#ifdef __cplusplus
}  // extern ""C""
#endif  // __cplusplus
".
(** tests/expectations/alias_tag.compat.c *)
Definition alias_compat_tag : string := "#include <stdarg.h>
#include <stdbool.h>
#include <stdint.h>
#include <stdlib.h>

enum Status
#if defined(__cplusplus) || __STDC_VERSION__ >= 202311L
  : uint32_t
#endif // defined(__cplusplus) || __STDC_VERSION__ >= 202311L
 {
  Ok,
  Err,
};
#ifndef __cplusplus
#if __STDC_VERSION__ >= 202311L
typedef enum Status Status;
#else
typedef uint32_t Status;
#endif // __STDC_VERSION__ >= 202311L
#endif // __cplusplus

struct Dep {
  int32_t a;
  float b;
};

struct Foo_i32 {
  int32_t a;
  int32_t b;
  struct Dep c;
};

typedef struct Foo_i32 IntFoo;

struct Foo_f64 {
  double a;
  double b;
  struct Dep c;
};

typedef struct Foo_f64 DoubleFoo;

typedef int32_t Unit;

typedef Status SpecialStatus;

#ifdef __cplusplus
extern ""C"" {
#endif // __cplusplus

void root(IntFoo x, DoubleFoo y, Unit z, SpecialStatus w);

#ifdef __cplusplus
}  // extern ""C""
#endif  // __cplusplus
".
(** tests/expectations/alias_both.compat.c *)
Definition alias_compat_both : string := "#include <stdarg.h>
#include <stdbool.h>
#include <stdint.h>
#include <stdlib.h>

enum Status
#if defined(__cplusplus) || __STDC_VERSION__ >= 202311L
  : uint32_t
#endif // defined(__cplusplus) || __STDC_VERSION__ >= 202311L
 {
  Ok,
  Err,
};
#ifndef __cplusplus
#if __STDC_VERSION__ >= 202311L
typedef enum Status Status;
#else
typedef uint32_t Status;
#endif // __STDC_VERSION__ >= 202311L
#endif // __cplusplus

typedef struct Dep {
  int32_t a;
  float b;
} Dep;

typedef struct Foo_i32 {
  int32_t a;
  int32_t b;
  struct Dep c;
} Foo_i32;

typedef struct Foo_i32 IntFoo;

typedef struct Foo_f64 {
  double a;
  double b;
  struct Dep c;
} Foo_f64;

typedef struct Foo_f64 DoubleFoo;

typedef int32_t Unit;

typedef Status SpecialStatus;

#ifdef __cplusplus
extern ""C"" {
#endif // __cplusplus

void root(IntFoo x, DoubleFoo y, Unit z, SpecialStatus w);

#ifdef __cplusplus
}  // extern ""C""
#endif  // __cplusplus
".
(** tests/expectations/alias.c *)
Definition alias_c : string := "#include <stdarg.h>
#include <stdbool.h>
#include <stdint.h>
#include <stdlib.h>

enum Status
#if __STDC_VERSION__ >= 202311L
  : uint32_t
#endif // __STDC_VERSION__ >= 202311L
 {
  Ok,
  Err,
};
#if __STDC_VERSION__ >= 202311L
typedef enum Status Status;
#else
typedef uint32_t Status;
#endif // __STDC_VERSION__ >= 202311L

typedef struct {
  int32_t a;
  float b;
} Dep;

typedef struct {
  int32_t a;
  int32_t b;
  Dep c;
} Foo_i32;

typedef Foo_i32 IntFoo;

typedef struct {
  double a;
  double b;
  Dep c;
} Foo_f64;

typedef Foo_f64 DoubleFoo;

typedef int32_t Unit;

typedef Status SpecialStatus;

void root(IntFoo x, DoubleFoo y, Unit z, SpecialStatus w);
".
(** tests/expectations/alias_tag.c *)
Definition alias_c_tag : string := "#include <stdarg.h>
#include <stdbool.h>
#include <stdint.h>
#include <stdlib.h>

enum Status
#if __STDC_VERSION__ >= 202311L
  : uint32_t
#endif // __STDC_VERSION__ >= 202311L
 {
  Ok,
  Err,
};
#if __STDC_VERSION__ >= 202311L
typedef enum Status Status;
#else
typedef uint32_t Status;
#endif // __STDC_VERSION__ >= 202311L

struct Dep {
  int32_t a;
  float b;
};

struct Foo_i32 {
  int32_t a;
  int32_t b;
  struct Dep c;
};

typedef struct Foo_i32 IntFoo;

struct Foo_f64 {
  double a;
  double b;
  struct Dep c;
};

typedef struct Foo_f64 DoubleFoo;

typedef int32_t Unit;

typedef Status SpecialStatus;

void root(IntFoo x, DoubleFoo y, Unit z, SpecialStatus w);
".
(** tests/expectations/alias_both.c *)
Definition alias_c_both : string := "#include <stdarg.h>
#include <stdbool.h>
#include <stdint.h>
#include <stdlib.h>

enum Status
#if __STDC_VERSION__ >= 202311L
  : uint32_t
#endif // __STDC_VERSION__ >= 202311L
 {
  Ok,
  Err,
};
#if __STDC_VERSION__ >= 202311L
typedef enum Status Status;
#else
typedef uint32_t Status;
#endif // __STDC_VERSION__ >= 202311L

typedef struct Dep {
  int32_t a;
  float b;
} Dep;

typedef struct Foo_i32 {
  int32_t a;
  int32_t b;
  struct Dep c;
} Foo_i32;

typedef struct Foo_i32 IntFoo;

typedef struct Foo_f64 {
  double a;
  double b;
  struct Dep c;
} Foo_f64;

typedef struct Foo_f64 DoubleFoo;

typedef int32_t Unit;

typedef Status SpecialStatus;

void root(IntFoo x, DoubleFoo y, Unit z, SpecialStatus w);
".
(** tests/expectations/alias.cpp *)
Definition alias_cpp : string := "#include <cstdarg>
#include <cstdint>
#include <cstdlib>
#include <ostream>
#include <new>

enum class Status : uint32_t {
  Ok,
  Err,
};

struct Dep {
  int32_t a;
  float b;
};

template<typename X>
struct Foo {
  X a;
  X b;
  Dep c;
};

using IntFoo = Foo<int32_t>;

using DoubleFoo = Foo<double>;

using Unit = int32_t;

using SpecialStatus = Status;

extern ""C"" {

void root(IntFoo x, DoubleFoo y, Unit z, SpecialStatus w);

}  // extern ""C""
".
(** tests/expectations/alias.pyx *)
Definition alias_pyx : string := "from libc.stdint cimport int8_t, int16_t, int32_t, int64_t, intptr_t
from libc.stdint cimport uint8_t, uint16_t, uint32_t, uint64_t, uintptr_t
cdef extern from *:
  ctypedef bint bool
  ctypedef struct va_list

cdef extern from *:

  cdef enum:
    Ok,
    Err,
  ctypedef uint32_t Status;

  ctypedef struct Dep:
    int32_t a;
    float b;

  ctypedef struct Foo_i32:
    int32_t a;
    int32_t b;
    Dep c;

  ctypedef Foo_i32 IntFoo;

  ctypedef struct Foo_f64:
    double a;
    double b;
    Dep c;

  ctypedef Foo_f64 DoubleFoo;

  ctypedef int32_t Unit;

  ctypedef Status SpecialStatus;

  void root(IntFoo x, DoubleFoo y, Unit z, SpecialStatus w);
".
(** tests/expectations/alias_tag.pyx *)
Definition alias_pyx_tag : string := "from libc.stdint cimport int8_t, int16_t, int32_t, int64_t, intptr_t
from libc.stdint cimport uint8_t, uint16_t, uint32_t, uint64_t, uintptr_t
cdef extern from *:
  ctypedef bint bool
  ctypedef struct va_list

cdef extern from *:

  cdef enum:
    Ok,
    Err,
  ctypedef uint32_t Status;

  cdef struct Dep:
    int32_t a;
    float b;

  cdef struct Foo_i32:
    int32_t a;
    int32_t b;
    Dep c;

  ctypedef Foo_i32 IntFoo;

  cdef struct Foo_f64:
    double a;
    double b;
    Dep c;

  ctypedef Foo_f64 DoubleFoo;

  ctypedef int32_t Unit;

  ctypedef Status SpecialStatus;

  void root(IntFoo x, DoubleFoo y, Unit z, SpecialStatus w);
".
Example alias_reproduced : reproduces (in_file alias_rs) false default_config (Some "{
root;
};")
  [(RunC true Type_, [alias_compat]);
   (RunC true Tag, [alias_compat_tag]);
   (RunC true Both, [alias_compat_both]);
   (RunC false Type_, [alias_c]);
   (RunC false Tag, [alias_c_tag]);
   (RunC false Both, [alias_c_both]);
   (RunCxx, [alias_cpp]);
   (RunCython Type_, [alias_pyx]);
   (RunCython Tag, [alias_pyx_tag])] = true.
Proof. vm_compute. reflexivity. Qed.

(** ** tests/rust/annotation.rs *)
Definition annotation_rs : list sitem := [
  (ItemStruct [{| at_meta := ANameValue (Some "doc") (Some " cbindgen:derive-lt=true"); at_outer := true |}; {| at_meta := ANameValue
  (Some "doc") (Some " cbindgen:derive-lte=true"); at_outer := true |}; {| at_meta := ANameValue (Some "doc") (Some " cbindgen:derive-constructor=true");
  at_outer := true |}; {| at_meta := ANameValue (Some "doc") (Some " cbindgen:rename-all=GeckoCase"); at_outer := true |}; {| at_meta
  := (AList (Some "repr") [(APath (Some "C"))]); at_outer := true |}] "A" [] (FieldsUnnamed [{| sf_attrs := []; sf_ident := None;
  sf_ty := (SPath (SegPath [] "i32" NoArgs)) |}]));
  (ItemStruct [{| at_meta := ANameValue (Some "doc") (Some " cbindgen:field-names=[x, y]"); at_outer := true |}; {| at_meta := (AList
  (Some "repr") [(APath (Some "C"))]); at_outer := true |}] "B" [] (FieldsUnnamed [{| sf_attrs := []; sf_ident := None; sf_ty := (SPath
  (SegPath [] "i32" NoArgs)) |}; {| sf_attrs := []; sf_ident := None; sf_ty := (SPath (SegPath [] "f32" NoArgs)) |}]));
  (ItemEnum [{| at_meta := ANameValue (Some "doc") (Some " cbindgen:trailing-values=[Z, W]"); at_outer := true |}; {| at_meta := (AList
  (Some "repr") [(APath (Some "u32"))]); at_outer := true |}] "C" [] [{| sv_attrs := []; sv_ident := "X"; sv_fields := FieldsUnit;
  sv_discriminant := (Some (XLit (LitInt 2 ""))) |}; {| sv_attrs := []; sv_ident := "Y"; sv_fields := FieldsUnit; sv_discriminant
  := None |}]);
  (ItemEnum [{| at_meta := ANameValue (Some "doc") (Some " cbindgen:derive-helper-methods=true"); at_outer := true |}; {| at_meta :=
  (AList (Some "repr") [(APath (Some "u8"))]); at_outer := true |}] "F" [] [{| sv_attrs := []; sv_ident := "Foo"; sv_fields := (FieldsUnnamed
  [{| sf_attrs := []; sf_ident := None; sf_ty := (SPath (SegPath [] "i16" NoArgs)) |}]); sv_discriminant := None |}; {| sv_attrs :=
  []; sv_ident := "Bar"; sv_fields := (FieldsNamed [{| sf_attrs := []; sf_ident := (Some "x"); sf_ty := (SPath (SegPath [] "u8" NoArgs))
  |}; {| sf_attrs := []; sf_ident := (Some "y"); sf_ty := (SPath (SegPath [] "i16" NoArgs)) |}]); sv_discriminant := None |}; {| sv_attrs
  := []; sv_ident := "Baz"; sv_fields := FieldsUnit; sv_discriminant := None |}]);
  (ItemEnum [{| at_meta := ANameValue (Some "doc") (Some " cbindgen:derive-helper-methods"); at_outer := true |}; {| at_meta := (AList
  (Some "repr") [(APath (Some "C")); (APath (Some "u8"))]); at_outer := true |}] "H" [] [{| sv_attrs := []; sv_ident := "Hello"; sv_fields
  := (FieldsUnnamed [{| sf_attrs := []; sf_ident := None; sf_ty := (SPath (SegPath [] "i16" NoArgs)) |}]); sv_discriminant := None
  |}; {| sv_attrs := []; sv_ident := "There"; sv_fields := (FieldsNamed [{| sf_attrs := []; sf_ident := (Some "x"); sf_ty := (SPath
  (SegPath [] "u8" NoArgs)) |}; {| sf_attrs := []; sf_ident := (Some "y"); sf_ty := (SPath (SegPath [] "i16" NoArgs)) |}]); sv_discriminant
  := None |}; {| sv_attrs := []; sv_ident := "Everyone"; sv_fields := FieldsUnit; sv_discriminant := None |}]);
  (ItemFn [{| at_meta := ANameValue (Some "doc") (Some " cbindgen:no-export"); at_outer := true |}; {| at_meta := (APath (Some "no_mangle"));
  at_outer := true |}] true {| sg_ident := "no_export_fn"; sg_abi := (Some (Some "C")); sg_inputs := []; sg_variadic := false; sg_output
  := None |});
  (ItemStatic [{| at_meta := ANameValue (Some "doc") (Some " cbindgen:no-export"); at_outer := true |}; {| at_meta := (APath (Some "no_mangle"));
  at_outer := true |}] "NO_EXPORT_NUMBER" false (SPath (SegPath [] "i32" NoArgs)));
  (ItemFn [{| at_meta := (APath (Some "no_mangle")); at_outer := true |}] true {| sg_ident := "root"; sg_abi := (Some (Some "C")); sg_inputs
  := [(FnTyped (PatIdent "x") (SPath (SegPath [] "A" NoArgs))); (FnTyped (PatIdent "y") (SPath (SegPath [] "B" NoArgs))); (FnTyped
  (PatIdent "z") (SPath (SegPath [] "C" NoArgs))); (FnTyped (PatIdent "f") (SPath (SegPath [] "F" NoArgs))); (FnTyped (PatIdent "h")
  (SPath (SegPath [] "H" NoArgs)))]; sg_variadic := false; sg_output := None |})].
(** tests/expectations/annotation.compat.c *)
Definition annotation_compat : string := "#include <stdarg.h>
#include <stdbool.h>
#include <stdint.h>
#include <stdlib.h>

enum C
#if defined(__cplusplus) || __STDC_VERSION__ >= 202311L
  : uint32_t
#endif // defined(__cplusplus) || __STDC_VERSION__ >= 202311L
 {
  X = 2,
  Y,
};
#ifndef __cplusplus
#if __STDC_VERSION__ >= 202311L
typedef enum C C;
#else
typedef uint32_t C;
#endif // __STDC_VERSION__ >= 202311L
#endif // __cplusplus

typedef struct {
  int32_t m0;
} A;

typedef struct {
  int32_t x;
  float y;
} B;

enum F_Tag
#if defined(__cplusplus) || __STDC_VERSION__ >= 202311L
  : uint8_t
#endif // defined(__cplusplus) || __STDC_VERSION__ >= 202311L
 {
  Foo,
  Bar,
  Baz,
};
#ifndef __cplusplus
#if __STDC_VERSION__ >= 202311L
typedef enum F_Tag F_Tag;
#else
typedef uint8_t F_Tag;
#endif // __STDC_VERSION__ >= 202311L
#endif // __cplusplus

typedef struct {
  F_Tag tag;
  uint8_t x;
  int16_t y;
} Bar_Body;

typedef union {
  F_Tag tag;
  struct {
    F_Tag foo_tag;
    int16_t foo;
  };
  Bar_Body bar;
} F;

enum H_Tag
#if defined(__cplusplus) || __STDC_VERSION__ >= 202311L
  : uint8_t
#endif // defined(__cplusplus) || __STDC_VERSION__ >= 202311L
 {
  Hello,
  There,
  Everyone,
};
#ifndef __cplusplus
#if __STDC_VERSION__ >= 202311L
typedef enum H_Tag H_Tag;
#else
typedef uint8_t H_Tag;
#endif // __STDC_VERSION__ >= 202311L
#endif // __cplusplus

typedef struct {
  uint8_t x;
  int16_t y;
} There_Body;

typedef struct {
  H_Tag tag;
  union {
    struct {
      int16_t hello;
    };
    There_Body there;
  };
} H;

#ifdef __cplusplus
extern ""C"" {
#endif // __cplusplus

void root(A x, B y, C z, F f, H h);

#ifdef __cplusplus
}  // extern ""C""
#endif  // __cplusplus
".
(** tests/expectations/annotation_tag.compat.c *)
Definition annotation_compat_tag : string := "#include <stdarg.h>
#include <stdbool.h>
#include <stdint.h>
#include <stdlib.h>

enum C
#if defined(__cplusplus) || __STDC_VERSION__ >= 202311L
  : uint32_t
#endif // defined(__cplusplus) || __STDC_VERSION__ >= 202311L
 {
  X = 2,
  Y,
};
#ifndef __cplusplus
#if __STDC_VERSION__ >= 202311L
typedef enum C C;
#else
typedef uint32_t C;
#endif // __STDC_VERSION__ >= 202311L
#endif // __cplusplus

struct A {
  int32_t m0;
};

struct B {
  int32_t x;
  float y;
};

enum F_Tag
#if defined(__cplusplus) || __STDC_VERSION__ >= 202311L
  : uint8_t
#endif // defined(__cplusplus) || __STDC_VERSION__ >= 202311L
 {
  Foo,
  Bar,
  Baz,
};
#ifndef __cplusplus
#if __STDC_VERSION__ >= 202311L
typedef enum F_Tag F_Tag;
#else
typedef uint8_t F_Tag;
#endif // __STDC_VERSION__ >= 202311L
#endif // __cplusplus

struct Bar_Body {
  F_Tag tag;
  uint8_t x;
  int16_t y;
};

union F {
  F_Tag tag;
  struct {
    F_Tag foo_tag;
    int16_t foo;
  };
  struct Bar_Body bar;
};

enum H_Tag
#if defined(__cplusplus) || __STDC_VERSION__ >= 202311L
  : uint8_t
#endif // defined(__cplusplus) || __STDC_VERSION__ >= 202311L
 {
  Hello,
  There,
  Everyone,
};
#ifndef __cplusplus
#if __STDC_VERSION__ >= 202311L
typedef enum H_Tag H_Tag;
#else
typedef uint8_t H_Tag;
#endif // __STDC_VERSION__ >= 202311L
#endif // __cplusplus

struct There_Body {
  uint8_t x;
  int16_t y;
};

struct H {
  H_Tag tag;
  union {
    struct {
      int16_t hello;
    };
    struct There_Body there;
  };
};

#ifdef __cplusplus
extern ""C"" {
#endif // __cplusplus

void root(struct A x, struct B y, C z, union F f, struct H h);

#ifdef __cplusplus
}  // extern ""C""
#endif  // __cplusplus
".
(** tests/expectations/annotation_both.compat.c *)
Definition annotation_compat_both : string := "#include <stdarg.h>
#include <stdbool.h>
#include <stdint.h>
#include <stdlib.h>

enum C
#if defined(__cplusplus) || __STDC_VERSION__ >= 202311L
  : uint32_t
#endif // defined(__cplusplus) || __STDC_VERSION__ >= 202311L
 {
  X = 2,
  Y,
};
#ifndef __cplusplus
#if __STDC_VERSION__ >= 202311L
typedef enum C C;
#else
typedef uint32_t C;
#endif // __STDC_VERSION__ >= 202311L
#endif // __cplusplus

typedef struct A {
  int32_t m0;
} A;

typedef struct B {
  int32_t x;
  float y;
} B;

enum F_Tag
#if defined(__cplusplus) || __STDC_VERSION__ >= 202311L
  : uint8_t
#endif // defined(__cplusplus) || __STDC_VERSION__ >= 202311L
 {
  Foo,
  Bar,
  Baz,
};
#ifndef __cplusplus
#if __STDC_VERSION__ >= 202311L
typedef enum F_Tag F_Tag;
#else
typedef uint8_t F_Tag;
#endif // __STDC_VERSION__ >= 202311L
#endif // __cplusplus

typedef struct Bar_Body {
  F_Tag tag;
  uint8_t x;
  int16_t y;
} Bar_Body;

typedef union F {
  F_Tag tag;
  struct {
    F_Tag foo_tag;
    int16_t foo;
  };
  Bar_Body bar;
} F;

enum H_Tag
#if defined(__cplusplus) || __STDC_VERSION__ >= 202311L
  : uint8_t
#endif // defined(__cplusplus) || __STDC_VERSION__ >= 202311L
 {
  Hello,
  There,
  Everyone,
};
#ifndef __cplusplus
#if __STDC_VERSION__ >= 202311L
typedef enum H_Tag H_Tag;
#else
typedef uint8_t H_Tag;
#endif // __STDC_VERSION__ >= 202311L
#endif // __cplusplus

typedef struct There_Body {
  uint8_t x;
  int16_t y;
} There_Body;

typedef struct H {
  H_Tag tag;
  union {
    struct {
      int16_t hello;
    };
    There_Body there;
  };
} H;

#ifdef __cplusplus
extern ""C"" {
#endif // __cplusplus

void root(struct A x, struct B y, C z, union F f, struct H h);

#ifdef __cplusplus
}  // extern ""C""
#endif  // __cplusplus
".
(** tests/expectations/annotation.c *)
Definition annotation_c : string := "#include <stdarg.h>
#include <stdbool.h>
#include <stdint.h>
#include <stdlib.h>

enum C
#if __STDC_VERSION__ >= 202311L
  : uint32_t
#endif // __STDC_VERSION__ >= 202311L
 {
  X = 2,
  Y,
};
#if __STDC_VERSION__ >= 202311L
typedef enum C C;
#else
typedef uint32_t C;
#endif // __STDC_VERSION__ >= 202311L

typedef struct {
  int32_t m0;
} A;

typedef struct {
  int32_t x;
  float y;
} B;

enum F_Tag
#if __STDC_VERSION__ >= 202311L
  : uint8_t
#endif // __STDC_VERSION__ >= 202311L
 {
  Foo,
  Bar,
  Baz,
};
#if __STDC_VERSION__ >= 202311L
typedef enum F_Tag F_Tag;
#else
typedef uint8_t F_Tag;
#endif // __STDC_VERSION__ >= 202311L

typedef struct {
  F_Tag tag;
  uint8_t x;
  int16_t y;
} Bar_Body;

typedef union {
  F_Tag tag;
  struct {
    F_Tag foo_tag;
    int16_t foo;
  };
  Bar_Body bar;
} F;

enum H_Tag
#if __STDC_VERSION__ >= 202311L
  : uint8_t
#endif // __STDC_VERSION__ >= 202311L
 {
  Hello,
  There,
  Everyone,
};
#if __STDC_VERSION__ >= 202311L
typedef enum H_Tag H_Tag;
#else
typedef uint8_t H_Tag;
#endif // __STDC_VERSION__ >= 202311L

typedef struct {
  uint8_t x;
  int16_t y;
} There_Body;

typedef struct {
  H_Tag tag;
  union {
    struct {
      int16_t hello;
    };
    There_Body there;
  };
} H;

void root(A x, B y, C z, F f, H h);
".
(** tests/expectations/annotation_tag.c *)
Definition annotation_c_tag : string := "#include <stdarg.h>
#include <stdbool.h>
#include <stdint.h>
#include <stdlib.h>

enum C
#if __STDC_VERSION__ >= 202311L
  : uint32_t
#endif // __STDC_VERSION__ >= 202311L
 {
  X = 2,
  Y,
};
#if __STDC_VERSION__ >= 202311L
typedef enum C C;
#else
typedef uint32_t C;
#endif // __STDC_VERSION__ >= 202311L

struct A {
  int32_t m0;
};

struct B {
  int32_t x;
  float y;
};

enum F_Tag
#if __STDC_VERSION__ >= 202311L
  : uint8_t
#endif // __STDC_VERSION__ >= 202311L
 {
  Foo,
  Bar,
  Baz,
};
#if __STDC_VERSION__ >= 202311L
typedef enum F_Tag F_Tag;
#else
typedef uint8_t F_Tag;
#endif // __STDC_VERSION__ >= 202311L

struct Bar_Body {
  F_Tag tag;
  uint8_t x;
  int16_t y;
};

union F {
  F_Tag tag;
  struct {
    F_Tag foo_tag;
    int16_t foo;
  };
  struct Bar_Body bar;
};

enum H_Tag
#if __STDC_VERSION__ >= 202311L
  : uint8_t
#endif // __STDC_VERSION__ >= 202311L
 {
  Hello,
  There,
  Everyone,
};
#if __STDC_VERSION__ >= 202311L
typedef enum H_Tag H_Tag;
#else
typedef uint8_t H_Tag;
#endif // __STDC_VERSION__ >= 202311L

struct There_Body {
  uint8_t x;
  int16_t y;
};

struct H {
  H_Tag tag;
  union {
    struct {
      int16_t hello;
    };
    struct There_Body there;
  };
};

void root(struct A x, struct B y, C z, union F f, struct H h);
".
(** tests/expectations/annotation_both.c *)
Definition annotation_c_both : string := "#include <stdarg.h>
#include <stdbool.h>
#include <stdint.h>
#include <stdlib.h>

enum C
#if __STDC_VERSION__ >= 202311L
  : uint32_t
#endif // __STDC_VERSION__ >= 202311L
 {
  X = 2,
  Y,
};
#if __STDC_VERSION__ >= 202311L
typedef enum C C;
#else
typedef uint32_t C;
#endif // __STDC_VERSION__ >= 202311L

typedef struct A {
  int32_t m0;
} A;

typedef struct B {
  int32_t x;
  float y;
} B;

enum F_Tag
#if __STDC_VERSION__ >= 202311L
  : uint8_t
#endif // __STDC_VERSION__ >= 202311L
 {
  Foo,
  Bar,
  Baz,
};
#if __STDC_VERSION__ >= 202311L
typedef enum F_Tag F_Tag;
#else
typedef uint8_t F_Tag;
#endif // __STDC_VERSION__ >= 202311L

typedef struct Bar_Body {
  F_Tag tag;
  uint8_t x;
  int16_t y;
} Bar_Body;

typedef union F {
  F_Tag tag;
  struct {
    F_Tag foo_tag;
    int16_t foo;
  };
  Bar_Body bar;
} F;

enum H_Tag
#if __STDC_VERSION__ >= 202311L
  : uint8_t
#endif // __STDC_VERSION__ >= 202311L
 {
  Hello,
  There,
  Everyone,
};
#if __STDC_VERSION__ >= 202311L
typedef enum H_Tag H_Tag;
#else
typedef uint8_t H_Tag;
#endif // __STDC_VERSION__ >= 202311L

typedef struct There_Body {
  uint8_t x;
  int16_t y;
} There_Body;

typedef struct H {
  H_Tag tag;
  union {
    struct {
      int16_t hello;
    };
    There_Body there;
  };
} H;

void root(struct A x, struct B y, C z, union F f, struct H h);
".
(** tests/expectations/annotation.cpp *)
Definition annotation_cpp : string := "#include <cstdarg>
#include <cstdint>
#include <cstdlib>
#include <ostream>
#include <new>

enum class C : uint32_t {
  X = 2,
  Y,
};

struct A {
  int32_t m0;

  A(int32_t const& m0)
    : m0(m0)
  {}

  bool operator<(const A& other) const {
    return m0 < other.m0;
  }
  bool operator<=(const A& other) const {
    return m0 <= other.m0;
  }
};

struct B {
  int32_t x;
  float y;
};

union F {
  enum class Tag : uint8_t {
    Foo,
    Bar,
    Baz,
  };

  struct Foo_Body {
    Tag tag;
    int16_t _0;
  };

  struct Bar_Body {
    Tag tag;
    uint8_t x;
    int16_t y;
  };

  struct {
    Tag tag;
  };
  Foo_Body foo;
  Bar_Body bar;

  static F Foo(const int16_t &_0) {
    F result;
    ::new (&result.foo._0) (int16_t)(_0);
    result.tag = Tag::Foo;
    return result;
  }

  bool IsFoo() const {
    return tag == Tag::Foo;
  }

  static F Bar(const uint8_t &x,
               const int16_t &y) {
    F result;
    ::new (&result.bar.x) (uint8_t)(x);
    ::new (&result.bar.y) (int16_t)(y);
    result.tag = Tag::Bar;
    return result;
  }

  bool IsBar() const {
    return tag == Tag::Bar;
  }

  static F Baz() {
    F result;
    result.tag = Tag::Baz;
    return result;
  }

  bool IsBaz() const {
    return tag == Tag::Baz;
  }
};

struct H {
  enum class Tag : uint8_t {
    Hello,
    There,
    Everyone,
  };

  struct Hello_Body {
    int16_t _0;
  };

  struct There_Body {
    uint8_t x;
    int16_t y;
  };

  Tag tag;
  union {
    Hello_Body hello;
    There_Body there;
  };

  static H Hello(const int16_t &_0) {
    H result;
    ::new (&result.hello._0) (int16_t)(_0);
    result.tag = Tag::Hello;
    return result;
  }

  bool IsHello() const {
    return tag == Tag::Hello;
  }

  static H There(const uint8_t &x,
                 const int16_t &y) {
    H result;
    ::new (&result.there.x) (uint8_t)(x);
    ::new (&result.there.y) (int16_t)(y);
    result.tag = Tag::There;
    return result;
  }

  bool IsThere() const {
    return tag == Tag::There;
  }

  static H Everyone() {
    H result;
    result.tag = Tag::Everyone;
    return result;
  }

  bool IsEveryone() const {
    return tag == Tag::Everyone;
  }
};

extern ""C"" {

void root(A x, B y, C z, F f, H h);

}  // extern ""C""
".
(** tests/expectations/annotation.pyx *)
Definition annotation_pyx : string := "from libc.stdint cimport int8_t, int16_t, int32_t, int64_t, intptr_t
from libc.stdint cimport uint8_t, uint16_t, uint32_t, uint64_t, uintptr_t
cdef extern from *:
  ctypedef bint bool
  ctypedef struct va_list

cdef extern from *:

  cdef enum:
    X # = 2,
    Y,
  ctypedef uint32_t C;

  ctypedef struct A:
    int32_t m0;

  ctypedef struct B:
    int32_t x;
    float y;

  cdef enum:
    Foo,
    Bar,
    Baz,
  ctypedef uint8_t F_Tag;

  ctypedef struct Bar_Body:
    F_Tag tag;
    uint8_t x;
    int16_t y;

  ctypedef union F:
    F_Tag tag;
    int16_t foo;
    Bar_Body bar;

  cdef enum:
    Hello,
    There,
    Everyone,
  ctypedef uint8_t H_Tag;

  ctypedef struct There_Body:
    uint8_t x;
    int16_t y;

  ctypedef struct H:
    H_Tag tag;
    int16_t hello;
    There_Body there;

  void root(A x, B y, C z, F f, H h);
".
(** tests/expectations/annotation_tag.pyx *)
Definition annotation_pyx_tag : string := "from libc.stdint cimport int8_t, int16_t, int32_t, int64_t, intptr_t
from libc.stdint cimport uint8_t, uint16_t, uint32_t, uint64_t, uintptr_t
cdef extern from *:
  ctypedef bint bool
  ctypedef struct va_list

cdef extern from *:

  cdef enum:
    X # = 2,
    Y,
  ctypedef uint32_t C;

  cdef struct A:
    int32_t m0;

  cdef struct B:
    int32_t x;
    float y;

  cdef enum:
    Foo,
    Bar,
    Baz,
  ctypedef uint8_t F_Tag;

  cdef struct Bar_Body:
    F_Tag tag;
    uint8_t x;
    int16_t y;

  cdef union F:
    F_Tag tag;
    int16_t foo;
    Bar_Body bar;

  cdef enum:
    Hello,
    There,
    Everyone,
  ctypedef uint8_t H_Tag;

  cdef struct There_Body:
    uint8_t x;
    int16_t y;

  cdef struct H:
    H_Tag tag;
    int16_t hello;
    There_Body there;

  void root(A x, B y, C z, F f, H h);
".
Example annotation_reproduced : reproduces (in_file annotation_rs) false default_config (Some "{
root;
};")
  [(RunC true Type_, [annotation_compat]);
   (RunC true Tag, [annotation_compat_tag]);
   (RunC true Both, [annotation_compat_both]);
   (RunC false Type_, [annotation_c]);
   (RunC false Tag, [annotation_c_tag]);
   (RunC false Both, [annotation_c_both]);
   (RunCxx, [annotation_cpp]);
   (RunCython Type_, [annotation_pyx]);
   (RunCython Tag, [annotation_pyx_tag])] = true.
Proof. vm_compute. reflexivity. Qed.

(** ** tests/rust/array.rs *)
Definition array_rs : list sitem := [
  (ItemEnum [{| at_meta := (AList (Some "repr") [(APath (Some "C"))]); at_outer := true |}] "Foo" [] [{| sv_attrs := []; sv_ident :=
  "A"; sv_fields := (FieldsUnnamed [{| sf_attrs := []; sf_ident := None; sf_ty := (SArray (SPath (SegPath [] "f32" NoArgs)) (XLit
  (LitInt 20 ""))) |}]); sv_discriminant := None |}]);
  (ItemFn [{| at_meta := (APath (Some "no_mangle")); at_outer := true |}] true {| sg_ident := "root"; sg_abi := (Some (Some "C")); sg_inputs
  := [(FnTyped (PatIdent "a") (SPath (SegPath [] "Foo" NoArgs)))]; sg_variadic := false; sg_output := None |})].
Definition array_toml : Config := {| header := None; includes_ := []; sys_includes_ := []; after_includes := None; trailer := None;
  include_guard_ := None; pragma_once := false; no_includes := false; package_version := false; autogen_warning := None; include_version := false;
  namespace := None; namespaces := None; using_namespaces := None; braces := SameLine; line_length := 100; tab_width := 2; line_endings := LF;
  language := Cxx; cpp_compat := false; style := Both; sort_by := SortNone; usize_is_size_t := false; parse := default_parse; export := {| ex_include := []; ex_exclude := []; ex_rename := []; ex_pre_body := []; ex_body := []; ex_prefix := None; ex_item_types := []; ex_renaming_overrides_prefixing := false; ex_mangle := {| rename_types := RNone; remove_underscores := false |} |};
  layout := {| ly_packed := None; ly_aligned_n := None |}; function := {| fn_prefix := None; fn_postfix := None; fn_must_use := None; fn_deprecated := None; fn_deprecated_with_note := None; fn_args := Auto; fn_rename_args := RNone; fn_swift_name_macro := None; fn_sort_by := None; fn_no_return := None |}; structure := {| st_rename_fields := RNone; st_derive_constructor := false; st_derive_eq := false; st_derive_neq := false; st_derive_lt := false; st_derive_lte := false; st_derive_gt := false; st_derive_gte := false; st_derive_ostream := false; st_associated_constants_in_body := false; st_rename_associated_constant := RNone; st_must_use := None; st_deprecated := None; st_deprecated_with_note := None |}; enumeration := {| en_rename_variants := RNone; en_rename_variant_name_fields := SnakeCase; en_add_sentinel := false; en_prefix_with_name := false; en_derive_helper_methods := true; en_derive_const_casts := false; en_derive_mut_casts := false; en_cast_assert_name := None; en_must_use := None; en_deprecated := None; en_deprecated_with_note := None; en_deprecated_variant := None; en_deprecated_variant_with_note := None; en_derive_tagged_enum_destructor := false; en_derive_tagged_enum_copy_constructor := false; en_derive_tagged_enum_copy_assignment := false; en_derive_ostream := false; en_enum_class := true; en_private_default_tagged_enum_constructor := false |}; constant := {| co_allow_static_const := true; co_allow_constexpr := true; co_sort_by := None |}; defines := []; documentation := true;
  documentation_style := DocAuto; documentation_length := Full; pointer := {| pt_non_null_attribute := None; pt_nullable_attribute := None |}; cython := {| cy_header := None; cy_cimports := [] |}; config_path := None |}.
(** tests/expectations/array.compat.c *)
Definition array_compat : string := "#include <stdarg.h>
#include <stdbool.h>
#include <stdint.h>
#include <stdlib.h>

typedef enum {
  A,
} Foo_Tag;

typedef struct {
  Foo_Tag tag;
  union {
    struct {
      float a[20];
    };
  };
} Foo;

#ifdef __cplusplus
extern ""C"" {
#endif // __cplusplus

void root(Foo a);

#ifdef __cplusplus
}  // extern ""C""
#endif  // __cplusplus
".
(** tests/expectations/array_tag.compat.c *)
Definition array_compat_tag : string := "#include <stdarg.h>
#include <stdbool.h>
#include <stdint.h>
#include <stdlib.h>

enum Foo_Tag {
  A,
};

struct Foo {
  enum Foo_Tag tag;
  union {
    struct {
      float a[20];
    };
  };
};

#ifdef __cplusplus
extern ""C"" {
#endif // __cplusplus

void root(struct Foo a);

#ifdef __cplusplus
}  // extern ""C""
#endif  // __cplusplus
".
(** tests/expectations/array_both.compat.c *)
Definition array_compat_both : string := "#include <stdarg.h>
#include <stdbool.h>
#include <stdint.h>
#include <stdlib.h>

typedef enum Foo_Tag {
  A,
} Foo_Tag;

typedef struct Foo {
  Foo_Tag tag;
  union {
    struct {
      float a[20];
    };
  };
} Foo;

#ifdef __cplusplus
extern ""C"" {
#endif // __cplusplus

void root(struct Foo a);

#ifdef __cplusplus
}  // extern ""C""
#endif  // __cplusplus
".
(** tests/expectations/array.c *)
Definition array_c : string := "#include <stdarg.h>
#include <stdbool.h>
#include <stdint.h>
#include <stdlib.h>

typedef enum {
  A,
} Foo_Tag;

typedef struct {
  Foo_Tag tag;
  union {
    struct {
      float a[20];
    };
  };
} Foo;

void root(Foo a);
".
(** tests/expectations/array_tag.c *)
Definition array_c_tag : string := "#include <stdarg.h>
#include <stdbool.h>
#include <stdint.h>
#include <stdlib.h>

enum Foo_Tag {
  A,
};

struct Foo {
  enum Foo_Tag tag;
  union {
    struct {
      float a[20];
    };
  };
};

void root(struct Foo a);
".
(** tests/expectations/array_both.c *)
Definition array_c_both : string := "#include <stdarg.h>
#include <stdbool.h>
#include <stdint.h>
#include <stdlib.h>

typedef enum Foo_Tag {
  A,
} Foo_Tag;

typedef struct Foo {
  Foo_Tag tag;
  union {
    struct {
      float a[20];
    };
  };
} Foo;

void root(struct Foo a);
".
(** tests/expectations/array.cpp *)
Definition array_cpp : string := "#include <cstdarg>
#include <cstdint>
#include <cstdlib>
#include <ostream>
#include <new>

struct Foo {
  enum class Tag {
    A,
  };

  struct A_Body {
    float _0[20];
  };

  Tag tag;
  union {
    A_Body a;
  };

  static Foo A(const float (&_0)[20]) {
    Foo result;
    for (int i = 0; i < 20; i++) {
      ::new (&result.a._0[i]) (float)(_0[i]);
    }
    result.tag = Tag::A;
    return result;
  }

  bool IsA() const {
    return tag == Tag::A;
  }
};

extern ""C"" {

void root(Foo a);

}  // extern ""C""
".
(** tests/expectations/array.pyx *)
Definition array_pyx : string := "from libc.stdint cimport int8_t, int16_t, int32_t, int64_t, intptr_t
from libc.stdint cimport uint8_t, uint16_t, uint32_t, uint64_t, uintptr_t
cdef extern from *:
  ctypedef bint bool
  ctypedef struct va_list

cdef extern from *:

  ctypedef enum Foo_Tag:
    A,

  ctypedef struct Foo:
    Foo_Tag tag;
    float a[20];

  void root(Foo a);
".
(** tests/expectations/array_tag.pyx *)
Definition array_pyx_tag : string := "from libc.stdint cimport int8_t, int16_t, int32_t, int64_t, intptr_t
from libc.stdint cimport uint8_t, uint16_t, uint32_t, uint64_t, uintptr_t
cdef extern from *:
  ctypedef bint bool
  ctypedef struct va_list

cdef extern from *:

  cdef enum Foo_Tag:
    A,

  cdef struct Foo:
    Foo_Tag tag;
    float a[20];

  void root(Foo a);
".
Example array_reproduced : reproduces (in_file array_rs) false array_toml (Some "{
root;
};")
  [(RunC true Type_, [array_compat]);
   (RunC true Tag, [array_compat_tag]);
   (RunC true Both, [array_compat_both]);
   (RunC false Type_, [array_c]);
   (RunC false Tag, [array_c_tag]);
   (RunC false Both, [array_c_both]);
   (RunCxx, [array_cpp]);
   (RunCython Type_, [array_pyx]);
   (RunCython Tag, [array_pyx_tag])] = true.
Proof. vm_compute. reflexivity. Qed.

(** ** tests/rust/as_ty.rs *)
Definition as_ty_rs : list sitem := [
  (ItemConst [] true "SIZE" (SPath (SegPath [] "isize" NoArgs)) (XLit (LitInt 4 "")));
  (ItemStruct [{| at_meta := (AList (Some "repr") [(APath (Some "C"))]); at_outer := true |}] "WithoutAs" [] (FieldsNamed [{| sf_attrs
  := []; sf_ident := (Some "items"); sf_ty := (SArray (SPath (SegPath [] "char" NoArgs)) (XCast (XPath (SegPath [] "SIZE" NoArgs))
  (SPath (SegPath [] "usize" NoArgs)))) |}]));
  (ItemStruct [{| at_meta := (AList (Some "repr") [(APath (Some "C"))]); at_outer := true |}] "WithAs" [] (FieldsNamed [{| sf_attrs
  := []; sf_ident := (Some "items"); sf_ty := (SArray (SPath (SegPath [] "char" NoArgs)) (XCast (XPath (SegPath [] "SIZE" NoArgs))
  (SPath (SegPath [] "usize" NoArgs)))) |}]));
  (ItemFn [{| at_meta := (APath (Some "no_mangle")); at_outer := true |}] true {| sg_ident := "some_fn"; sg_abi := (Some None); sg_inputs
  := [(FnTyped (PatIdent "a") (SPath (SegPath [] "WithoutAs" NoArgs))); (FnTyped (PatIdent "b") (SPath (SegPath [] "WithAs" NoArgs)))];
  sg_variadic := false; sg_output := None |})].
(** tests/expectations/as_ty.compat.c *)
Definition as_ty_compat : string := "#include <stdarg.h>
#include <stdbool.h>
#include <stdint.h>
#include <stdlib.h>

#define SIZE 4

typedef struct {
  uint32_t items[SIZE];
} WithoutAs;

typedef struct {
  uint32_t items[SIZE];
} WithAs;

#ifdef __cplusplus
extern ""C"" {
#endif // __cplusplus

void some_fn(WithoutAs a, WithAs b);

#ifdef __cplusplus
}  // extern ""C""
#endif  // __cplusplus
".
(** tests/expectations/as_ty_tag.compat.c *)
Definition as_ty_compat_tag : string := "#include <stdarg.h>
#include <stdbool.h>
#include <stdint.h>
#include <stdlib.h>

#define SIZE 4

struct WithoutAs {
  uint32_t items[SIZE];
};

struct WithAs {
  uint32_t items[SIZE];
};

#ifdef __cplusplus
extern ""C"" {
#endif // __cplusplus

void some_fn(struct WithoutAs a, struct WithAs b);

#ifdef __cplusplus
}  // extern ""C""
#endif  // __cplusplus
".
(** tests/expectations/as_ty_both.compat.c *)
Definition as_ty_compat_both : string := "#include <stdarg.h>
#include <stdbool.h>
#include <stdint.h>
#include <stdlib.h>

#define SIZE 4

typedef struct WithoutAs {
  uint32_t items[SIZE];
} WithoutAs;

typedef struct WithAs {
  uint32_t items[SIZE];
} WithAs;

#ifdef __cplusplus
extern ""C"" {
#endif // __cplusplus

void some_fn(struct WithoutAs a, struct WithAs b);

#ifdef __cplusplus
}  // extern ""C""
#endif  // __cplusplus
".
(** tests/expectations/as_ty.c *)
Definition as_ty_c : string := "#include <stdarg.h>
#include <stdbool.h>
#include <stdint.h>
#include <stdlib.h>

#define SIZE 4

typedef struct {
  uint32_t items[SIZE];
} WithoutAs;

typedef struct {
  uint32_t items[SIZE];
} WithAs;

void some_fn(WithoutAs a, WithAs b);
".
(** tests/expectations/as_ty_tag.c *)
Definition as_ty_c_tag : string := "#include <stdarg.h>
#include <stdbool.h>
#include <stdint.h>
#include <stdlib.h>

#define SIZE 4

struct WithoutAs {
  uint32_t items[SIZE];
};

struct WithAs {
  uint32_t items[SIZE];
};

void some_fn(struct WithoutAs a, struct WithAs b);
".
(** tests/expectations/as_ty_both.c *)
Definition as_ty_c_both : string := "#include <stdarg.h>
#include <stdbool.h>
#include <stdint.h>
#include <stdlib.h>

#define SIZE 4

typedef struct WithoutAs {
  uint32_t items[SIZE];
} WithoutAs;

typedef struct WithAs {
  uint32_t items[SIZE];
} WithAs;

void some_fn(struct WithoutAs a, struct WithAs b);
".
(** tests/expectations/as_ty.cpp *)
Definition as_ty_cpp : string := "#include <cstdarg>
#include <cstdint>
#include <cstdlib>
#include <ostream>
#include <new>

constexpr static const intptr_t SIZE = 4;

struct WithoutAs {
  uint32_t items[SIZE];
};

struct WithAs {
  uint32_t items[SIZE];
};

extern ""C"" {

void some_fn(WithoutAs a, WithAs b);

}  // extern ""C""
".
(** tests/expectations/as_ty.pyx *)
Definition as_ty_pyx : string := "from libc.stdint cimport int8_t, int16_t, int32_t, int64_t, intptr_t
from libc.stdint cimport uint8_t, uint16_t, uint32_t, uint64_t, uintptr_t
cdef extern from *:
  ctypedef bint bool
  ctypedef struct va_list

cdef extern from *:

  const intptr_t SIZE # = 4

  ctypedef struct WithoutAs:
    uint32_t items[SIZE];

  ctypedef struct WithAs:
    uint32_t items[SIZE];

  void some_fn(WithoutAs a, WithAs b);
".
(** tests/expectations/as_ty_tag.pyx *)
Definition as_ty_pyx_tag : string := "from libc.stdint cimport int8_t, int16_t, int32_t, int64_t, intptr_t
from libc.stdint cimport uint8_t, uint16_t, uint32_t, uint64_t, uintptr_t
cdef extern from *:
  ctypedef bint bool
  ctypedef struct va_list

cdef extern from *:

  const intptr_t SIZE # = 4

  cdef struct WithoutAs:
    uint32_t items[SIZE];

  cdef struct WithAs:
    uint32_t items[SIZE];

  void some_fn(WithoutAs a, WithAs b);
".
Example as_ty_reproduced : reproduces (in_file as_ty_rs) false default_config (Some "{
some_fn;
};")
  [(RunC true Type_, [as_ty_compat]);
   (RunC true Tag, [as_ty_compat_tag]);
   (RunC true Both, [as_ty_compat_both]);
   (RunC false Type_, [as_ty_c]);
   (RunC false Tag, [as_ty_c_tag]);
   (RunC false Both, [as_ty_c_both]);
   (RunCxx, [as_ty_cpp]);
   (RunCython Type_, [as_ty_pyx]);
   (RunCython Tag, [as_ty_pyx_tag])] = true.
Proof. vm_compute. reflexivity. Qed.

(** ** tests/rust/asserted_cast.rs *)
Definition asserted_cast_rs : list sitem := [
  (ItemEnum [{| at_meta := ANameValue (Some "doc") (Some " cbindgen:prefix-with-name"); at_outer := true |}; {| at_meta := (AList (Some
  "repr") [(APath (Some "C")); (APath (Some "u8"))]); at_outer := true |}] "H" [] [{| sv_attrs := [{| at_meta := ANameValue (Some
  "doc") (Some " cbindgen:variant-mut-cast-attributes=MY_ATTRS"); at_outer := true |}]; sv_ident := "Foo"; sv_fields := (FieldsUnnamed
  [{| sf_attrs := []; sf_ident := None; sf_ty := (SPath (SegPath [] "i16" NoArgs)) |}]); sv_discriminant := None |}; {| sv_attrs :=
  [{| at_meta := ANameValue (Some "doc") (Some " cbindgen:variant-const-cast-attributes=MY_ATTRS"); at_outer := true |}]; sv_ident
  := "Bar"; sv_fields := (FieldsNamed [{| sf_attrs := []; sf_ident := (Some "x"); sf_ty := (SPath (SegPath [] "u8" NoArgs)) |}; {|
  sf_attrs := []; sf_ident := (Some "y"); sf_ty := (SPath (SegPath [] "i16" NoArgs)) |}]); sv_discriminant := None |}; {| sv_attrs
  := [{| at_meta := ANameValue (Some "doc") (Some " cbindgen:variant-is-attributes=MY_ATTRS"); at_outer := true |}]; sv_ident := "Baz";
  sv_fields := FieldsUnit; sv_discriminant := None |}]);
  (ItemEnum [{| at_meta := ANameValue (Some "doc") (Some " cbindgen:prefix-with-name"); at_outer := true |}; {| at_meta := (AList (Some
  "repr") [(APath (Some "C")); (APath (Some "u8")); (APath (Some "u16"))]); at_outer := true |}] "I" [] [{| sv_attrs := [{| at_meta
  := ANameValue (Some "doc") (Some " cbindgen:variant-constructor-attributes=MY_ATTRS"); at_outer := true |}]; sv_ident := "Foo";
  sv_fields := (FieldsUnnamed [{| sf_attrs := []; sf_ident := None; sf_ty := (SPath (SegPath [] "i16" NoArgs)) |}]); sv_discriminant
  := None |}; {| sv_attrs := [{| at_meta := ANameValue (Some "doc") (Some " cbindgen:eq-attributes=MY_ATTRS"); at_outer := true |}];
  sv_ident := "Bar"; sv_fields := (FieldsNamed [{| sf_attrs := []; sf_ident := (Some "x"); sf_ty := (SPath (SegPath [] "u8" NoArgs))
  |}; {| sf_attrs := []; sf_ident := (Some "y"); sf_ty := (SPath (SegPath [] "i16" NoArgs)) |}]); sv_discriminant := None |}; {| sv_attrs
  := []; sv_ident := "Baz"; sv_fields := FieldsUnit; sv_discriminant := None |}]);
  (ItemEnum [{| at_meta := ANameValue (Some "doc") (Some " cbindgen:prefix-with-name"); at_outer := true |}; {| at_meta := (AList (Some
  "repr") [(APath (Some "C")); (APath (Some "u8"))]); at_outer := true |}] "J" [] [{| sv_attrs := []; sv_ident := "Foo"; sv_fields
  := (FieldsUnnamed [{| sf_attrs := []; sf_ident := None; sf_ty := (SPath (SegPath [] "i16" NoArgs)) |}]); sv_discriminant := None
  |}; {| sv_attrs := []; sv_ident := "Bar"; sv_fields := (FieldsNamed [{| sf_attrs := []; sf_ident := (Some "x"); sf_ty := (SPath
  (SegPath [] "u8" NoArgs)) |}; {| sf_attrs := []; sf_ident := (Some "y"); sf_ty := (SPath (SegPath [] "i16" NoArgs)) |}]); sv_discriminant
  := None |}; {| sv_attrs := []; sv_ident := "Baz"; sv_fields := FieldsUnit; sv_discriminant := None |}]);
  (ItemEnum [{| at_meta := ANameValue (Some "doc") (Some " cbindgen:prefix-with-name"); at_outer := true |}; {| at_meta := (AList (Some
  "repr") [(APath (Some "u8"))]); at_outer := true |}] "K" [] [{| sv_attrs := []; sv_ident := "Foo"; sv_fields := (FieldsUnnamed [{|
  sf_attrs := []; sf_ident := None; sf_ty := (SPath (SegPath [] "i16" NoArgs)) |}]); sv_discriminant := None |}; {| sv_attrs := [];
  sv_ident := "Bar"; sv_fields := (FieldsNamed [{| sf_attrs := []; sf_ident := (Some "x"); sf_ty := (SPath (SegPath [] "u8" NoArgs))
  |}; {| sf_attrs := []; sf_ident := (Some "y"); sf_ty := (SPath (SegPath [] "i16" NoArgs)) |}]); sv_discriminant := None |}; {| sv_attrs
  := []; sv_ident := "Baz"; sv_fields := FieldsUnit; sv_discriminant := None |}]);
  (ItemFn [{| at_meta := (APath (Some "no_mangle")); at_outer := true |}] true {| sg_ident := "foo"; sg_abi := (Some (Some "C")); sg_inputs
  := [(FnTyped (PatIdent "h") (SPath (SegPath [] "H" NoArgs))); (FnTyped (PatIdent "i") (SPath (SegPath [] "I" NoArgs))); (FnTyped
  (PatIdent "j") (SPath (SegPath [] "J" NoArgs))); (FnTyped (PatIdent "k") (SPath (SegPath [] "K" NoArgs)))]; sg_variadic := false;
  sg_output := None |})].
Definition asserted_cast_toml : Config := {| header := (Some "#define MY_ASSERT(...) do { } while (0)
#define MY_ATTRS __attribute((noinline))
"); includes_ := []; sys_includes_ := []; after_includes := None; trailer := None;
  include_guard_ := None; pragma_once := false; no_includes := false; package_version := false; autogen_warning := None; include_version := false;
  namespace := None; namespaces := None; using_namespaces := None; braces := SameLine; line_length := 100; tab_width := 2; line_endings := LF;
  language := Cxx; cpp_compat := false; style := Both; sort_by := SortNone; usize_is_size_t := false; parse := default_parse; export := {| ex_include := []; ex_exclude := []; ex_rename := []; ex_pre_body := []; ex_body := []; ex_prefix := None; ex_item_types := []; ex_renaming_overrides_prefixing := false; ex_mangle := {| rename_types := RNone; remove_underscores := false |} |};
  layout := {| ly_packed := None; ly_aligned_n := None |}; function := {| fn_prefix := None; fn_postfix := None; fn_must_use := None; fn_deprecated := None; fn_deprecated_with_note := None; fn_args := Auto; fn_rename_args := RNone; fn_swift_name_macro := None; fn_sort_by := None; fn_no_return := None |}; structure := {| st_rename_fields := RNone; st_derive_constructor := false; st_derive_eq := false; st_derive_neq := false; st_derive_lt := false; st_derive_lte := false; st_derive_gt := false; st_derive_gte := false; st_derive_ostream := false; st_associated_constants_in_body := false; st_rename_associated_constant := RNone; st_must_use := None; st_deprecated := None; st_deprecated_with_note := None |}; enumeration := {| en_rename_variants := RNone; en_rename_variant_name_fields := SnakeCase; en_add_sentinel := false; en_prefix_with_name := false; en_derive_helper_methods := true; en_derive_const_casts := true; en_derive_mut_casts := true; en_cast_assert_name := (Some "MY_ASSERT"); en_must_use := None; en_deprecated := None; en_deprecated_with_note := None; en_deprecated_variant := None; en_deprecated_variant_with_note := None; en_derive_tagged_enum_destructor := false; en_derive_tagged_enum_copy_constructor := false; en_derive_tagged_enum_copy_assignment := false; en_derive_ostream := false; en_enum_class := true; en_private_default_tagged_enum_constructor := false |}; constant := {| co_allow_static_const := true; co_allow_constexpr := true; co_sort_by := None |}; defines := []; documentation := true;
  documentation_style := DocAuto; documentation_length := Full; pointer := {| pt_non_null_attribute := None; pt_nullable_attribute := None |}; cython := {| cy_header := None; cy_cimports := [] |}; config_path := None |}.
(** tests/expectations/asserted_cast.compat.c *)
Definition asserted_cast_compat : string := "#define MY_ASSERT(...) do { } while (0)
#define MY_ATTRS __attribute((noinline))


#include <stdarg.h>
#include <stdbool.h>
#include <stdint.h>
#include <stdlib.h>

typedef struct I I;

enum H_Tag
#if defined(__cplusplus) || __STDC_VERSION__ >= 202311L
  : uint8_t
#endif // defined(__cplusplus) || __STDC_VERSION__ >= 202311L
 {
  H_Foo,
  H_Bar,
  H_Baz,
};
#ifndef __cplusplus
#if __STDC_VERSION__ >= 202311L
typedef enum H_Tag H_Tag;
#else
typedef uint8_t H_Tag;
#endif // __STDC_VERSION__ >= 202311L
#endif // __cplusplus

typedef struct {
  uint8_t x;
  int16_t y;
} H_Bar_Body;

typedef struct {
  H_Tag tag;
  union {
    struct {
      int16_t foo;
    };
    H_Bar_Body bar;
  };
} H;

enum J_Tag
#if defined(__cplusplus) || __STDC_VERSION__ >= 202311L
  : uint8_t
#endif // defined(__cplusplus) || __STDC_VERSION__ >= 202311L
 {
  J_Foo,
  J_Bar,
  J_Baz,
};
#ifndef __cplusplus
#if __STDC_VERSION__ >= 202311L
typedef enum J_Tag J_Tag;
#else
typedef uint8_t J_Tag;
#endif // __STDC_VERSION__ >= 202311L
#endif // __cplusplus

typedef struct {
  uint8_t x;
  int16_t y;
} J_Bar_Body;

typedef struct {
  J_Tag tag;
  union {
    struct {
      int16_t foo;
    };
    J_Bar_Body bar;
  };
} J;

enum K_Tag
#if defined(__cplusplus) || __STDC_VERSION__ >= 202311L
  : uint8_t
#endif // defined(__cplusplus) || __STDC_VERSION__ >= 202311L
 {
  K_Foo,
  K_Bar,
  K_Baz,
};
#ifndef __cplusplus
#if __STDC_VERSION__ >= 202311L
typedef enum K_Tag K_Tag;
#else
typedef uint8_t K_Tag;
#endif // __STDC_VERSION__ >= 202311L
#endif // __cplusplus

typedef struct {
  K_Tag tag;
  uint8_t x;
  int16_t y;
} K_Bar_Body;

typedef union {
  K_Tag tag;
  struct {
    K_Tag foo_tag;
    int16_t foo;
  };
  K_Bar_Body bar;
} K;

#ifdef __cplusplus
extern ""C"" {
#endif // __cplusplus

void foo(H h, I i, J j, K k);

#ifdef __cplusplus
}  // extern ""C""
#endif  // __cplusplus
".
(** tests/expectations/asserted_cast_tag.compat.c *)
Definition asserted_cast_compat_tag : string := "#define MY_ASSERT(...) do { } while (0)
#define MY_ATTRS __attribute((noinline))


#include <stdarg.h>
#include <stdbool.h>
#include <stdint.h>
#include <stdlib.h>

struct I;

enum H_Tag
#if defined(__cplusplus) || __STDC_VERSION__ >= 202311L
  : uint8_t
#endif // defined(__cplusplus) || __STDC_VERSION__ >= 202311L
 {
  H_Foo,
  H_Bar,
  H_Baz,
};
#ifndef __cplusplus
#if __STDC_VERSION__ >= 202311L
typedef enum H_Tag H_Tag;
#else
typedef uint8_t H_Tag;
#endif // __STDC_VERSION__ >= 202311L
#endif // __cplusplus

struct H_Bar_Body {
  uint8_t x;
  int16_t y;
};

struct H {
  H_Tag tag;
  union {
    struct {
      int16_t foo;
    };
    struct H_Bar_Body bar;
  };
};

enum J_Tag
#if defined(__cplusplus) || __STDC_VERSION__ >= 202311L
  : uint8_t
#endif // defined(__cplusplus) || __STDC_VERSION__ >= 202311L
 {
  J_Foo,
  J_Bar,
  J_Baz,
};
#ifndef __cplusplus
#if __STDC_VERSION__ >= 202311L
typedef enum J_Tag J_Tag;
#else
typedef uint8_t J_Tag;
#endif // __STDC_VERSION__ >= 202311L
#endif // __cplusplus

struct J_Bar_Body {
  uint8_t x;
  int16_t y;
};

struct J {
  J_Tag tag;
  union {
    struct {
      int16_t foo;
    };
    struct J_Bar_Body bar;
  };
};

enum K_Tag
#if defined(__cplusplus) || __STDC_VERSION__ >= 202311L
  : uint8_t
#endif // defined(__cplusplus) || __STDC_VERSION__ >= 202311L
 {
  K_Foo,
  K_Bar,
  K_Baz,
};
#ifndef __cplusplus
#if __STDC_VERSION__ >= 202311L
typedef enum K_Tag K_Tag;
#else
typedef uint8_t K_Tag;
#endif // __STDC_VERSION__ >= 202311L
#endif // __cplusplus

struct K_Bar_Body {
  K_Tag tag;
  uint8_t x;
  int16_t y;
};

union K {
  K_Tag tag;
  struct {
    K_Tag foo_tag;
    int16_t foo;
  };
  struct K_Bar_Body bar;
};

#ifdef __cplusplus
extern ""C"" {
#endif // __cplusplus

void foo(struct H h, struct I i, struct J j, union K k);

#ifdef __cplusplus
}  // extern ""C""
#endif  // __cplusplus
".
(** tests/expectations/asserted_cast_both.compat.c *)
Definition asserted_cast_compat_both : string := "#define MY_ASSERT(...) do { } while (0)
#define MY_ATTRS __attribute((noinline))


#include <stdarg.h>
#include <stdbool.h>
#include <stdint.h>
#include <stdlib.h>

typedef struct I I;

enum H_Tag
#if defined(__cplusplus) || __STDC_VERSION__ >= 202311L
  : uint8_t
#endif // defined(__cplusplus) || __STDC_VERSION__ >= 202311L
 {
  H_Foo,
  H_Bar,
  H_Baz,
};
#ifndef __cplusplus
#if __STDC_VERSION__ >= 202311L
typedef enum H_Tag H_Tag;
#else
typedef uint8_t H_Tag;
#endif // __STDC_VERSION__ >= 202311L
#endif // __cplusplus

typedef struct H_Bar_Body {
  uint8_t x;
  int16_t y;
} H_Bar_Body;

typedef struct H {
  H_Tag tag;
  union {
    struct {
      int16_t foo;
    };
    H_Bar_Body bar;
  };
} H;

enum J_Tag
#if defined(__cplusplus) || __STDC_VERSION__ >= 202311L
  : uint8_t
#endif // defined(__cplusplus) || __STDC_VERSION__ >= 202311L
 {
  J_Foo,
  J_Bar,
  J_Baz,
};
#ifndef __cplusplus
#if __STDC_VERSION__ >= 202311L
typedef enum J_Tag J_Tag;
#else
typedef uint8_t J_Tag;
#endif // __STDC_VERSION__ >= 202311L
#endif // __cplusplus

typedef struct J_Bar_Body {
  uint8_t x;
  int16_t y;
} J_Bar_Body;

typedef struct J {
  J_Tag tag;
  union {
    struct {
      int16_t foo;
    };
    J_Bar_Body bar;
  };
} J;

enum K_Tag
#if defined(__cplusplus) || __STDC_VERSION__ >= 202311L
  : uint8_t
#endif // defined(__cplusplus) || __STDC_VERSION__ >= 202311L
 {
  K_Foo,
  K_Bar,
  K_Baz,
};
#ifndef __cplusplus
#if __STDC_VERSION__ >= 202311L
typedef enum K_Tag K_Tag;
#else
typedef uint8_t K_Tag;
#endif // __STDC_VERSION__ >= 202311L
#endif // __cplusplus

typedef struct K_Bar_Body {
  K_Tag tag;
  uint8_t x;
  int16_t y;
} K_Bar_Body;

typedef union K {
  K_Tag tag;
  struct {
    K_Tag foo_tag;
    int16_t foo;
  };
  K_Bar_Body bar;
} K;

#ifdef __cplusplus
extern ""C"" {
#endif // __cplusplus

void foo(struct H h, struct I i, struct J j, union K k);

#ifdef __cplusplus
}  // extern ""C""
#endif  // __cplusplus
".
(** tests/expectations/asserted_cast.c *)
Definition asserted_cast_c : string := "#define MY_ASSERT(...) do { } while (0)
#define MY_ATTRS __attribute((noinline))


#include <stdarg.h>
#include <stdbool.h>
#include <stdint.h>
#include <stdlib.h>

typedef struct I I;

enum H_Tag
#if __STDC_VERSION__ >= 202311L
  : uint8_t
#endif // __STDC_VERSION__ >= 202311L
 {
  H_Foo,
  H_Bar,
  H_Baz,
};
#if __STDC_VERSION__ >= 202311L
typedef enum H_Tag H_Tag;
#else
typedef uint8_t H_Tag;
#endif // __STDC_VERSION__ >= 202311L

typedef struct {
  uint8_t x;
  int16_t y;
} H_Bar_Body;

typedef struct {
  H_Tag tag;
  union {
    struct {
      int16_t foo;
    };
    H_Bar_Body bar;
  };
} H;

enum J_Tag
#if __STDC_VERSION__ >= 202311L
  : uint8_t
#endif // __STDC_VERSION__ >= 202311L
 {
  J_Foo,
  J_Bar,
  J_Baz,
};
#if __STDC_VERSION__ >= 202311L
typedef enum J_Tag J_Tag;
#else
typedef uint8_t J_Tag;
#endif // __STDC_VERSION__ >= 202311L

typedef struct {
  uint8_t x;
  int16_t y;
} J_Bar_Body;

typedef struct {
  J_Tag tag;
  union {
    struct {
      int16_t foo;
    };
    J_Bar_Body bar;
  };
} J;

enum K_Tag
#if __STDC_VERSION__ >= 202311L
  : uint8_t
#endif // __STDC_VERSION__ >= 202311L
 {
  K_Foo,
  K_Bar,
  K_Baz,
};
#if __STDC_VERSION__ >= 202311L
typedef enum K_Tag K_Tag;
#else
typedef uint8_t K_Tag;
#endif // __STDC_VERSION__ >= 202311L

typedef struct {
  K_Tag tag;
  uint8_t x;
  int16_t y;
} K_Bar_Body;

typedef union {
  K_Tag tag;
  struct {
    K_Tag foo_tag;
    int16_t foo;
  };
  K_Bar_Body bar;
} K;

void foo(H h, I i, J j, K k);
".
(** tests/expectations/asserted_cast_tag.c *)
Definition asserted_cast_c_tag : string := "#define MY_ASSERT(...) do { } while (0)
#define MY_ATTRS __attribute((noinline))


#include <stdarg.h>
#include <stdbool.h>
#include <stdint.h>
#include <stdlib.h>

struct I;

enum H_Tag
#if __STDC_VERSION__ >= 202311L
  : uint8_t
#endif // __STDC_VERSION__ >= 202311L
 {
  H_Foo,
  H_Bar,
  H_Baz,
};
#if __STDC_VERSION__ >= 202311L
typedef enum H_Tag H_Tag;
#else
typedef uint8_t H_Tag;
#endif // __STDC_VERSION__ >= 202311L

struct H_Bar_Body {
  uint8_t x;
  int16_t y;
};

struct H {
  H_Tag tag;
  union {
    struct {
      int16_t foo;
    };
    struct H_Bar_Body bar;
  };
};

enum J_Tag
#if __STDC_VERSION__ >= 202311L
  : uint8_t
#endif // __STDC_VERSION__ >= 202311L
 {
  J_Foo,
  J_Bar,
  J_Baz,
};
#if __STDC_VERSION__ >= 202311L
typedef enum J_Tag J_Tag;
#else
typedef uint8_t J_Tag;
#endif // __STDC_VERSION__ >= 202311L

struct J_Bar_Body {
  uint8_t x;
  int16_t y;
};

struct J {
  J_Tag tag;
  union {
    struct {
      int16_t foo;
    };
    struct J_Bar_Body bar;
  };
};

enum K_Tag
#if __STDC_VERSION__ >= 202311L
  : uint8_t
#endif // __STDC_VERSION__ >= 202311L
 {
  K_Foo,
  K_Bar,
  K_Baz,
};
#if __STDC_VERSION__ >= 202311L
typedef enum K_Tag K_Tag;
#else
typedef uint8_t K_Tag;
#endif // __STDC_VERSION__ >= 202311L

struct K_Bar_Body {
  K_Tag tag;
  uint8_t x;
  int16_t y;
};

union K {
  K_Tag tag;
  struct {
    K_Tag foo_tag;
    int16_t foo;
  };
  struct K_Bar_Body bar;
};

void foo(struct H h, struct I i, struct J j, union K k);
".
(** tests/expectations/asserted_cast_both.c *)
Definition asserted_cast_c_both : string := "#define MY_ASSERT(...) do { } while (0)
#define MY_ATTRS __attribute((noinline))


#include <stdarg.h>
#include <stdbool.h>
#include <stdint.h>
#include <stdlib.h>

typedef struct I I;

enum H_Tag
#if __STDC_VERSION__ >= 202311L
  : uint8_t
#endif // __STDC_VERSION__ >= 202311L
 {
  H_Foo,
  H_Bar,
  H_Baz,
};
#if __STDC_VERSION__ >= 202311L
typedef enum H_Tag H_Tag;
#else
typedef uint8_t H_Tag;
#endif // __STDC_VERSION__ >= 202311L

typedef struct H_Bar_Body {
  uint8_t x;
  int16_t y;
} H_Bar_Body;

typedef struct H {
  H_Tag tag;
  union {
    struct {
      int16_t foo;
    };
    H_Bar_Body bar;
  };
} H;

enum J_Tag
#if __STDC_VERSION__ >= 202311L
  : uint8_t
#endif // __STDC_VERSION__ >= 202311L
 {
  J_Foo,
  J_Bar,
  J_Baz,
};
#if __STDC_VERSION__ >= 202311L
typedef enum J_Tag J_Tag;
#else
typedef uint8_t J_Tag;
#endif // __STDC_VERSION__ >= 202311L

typedef struct J_Bar_Body {
  uint8_t x;
  int16_t y;
} J_Bar_Body;

typedef struct J {
  J_Tag tag;
  union {
    struct {
      int16_t foo;
    };
    J_Bar_Body bar;
  };
} J;

enum K_Tag
#if __STDC_VERSION__ >= 202311L
  : uint8_t
#endif // __STDC_VERSION__ >= 202311L
 {
  K_Foo,
  K_Bar,
  K_Baz,
};
#if __STDC_VERSION__ >= 202311L
typedef enum K_Tag K_Tag;
#else
typedef uint8_t K_Tag;
#endif // __STDC_VERSION__ >= 202311L

typedef struct K_Bar_Body {
  K_Tag tag;
  uint8_t x;
  int16_t y;
} K_Bar_Body;

typedef union K {
  K_Tag tag;
  struct {
    K_Tag foo_tag;
    int16_t foo;
  };
  K_Bar_Body bar;
} K;

void foo(struct H h, struct I i, struct J j, union K k);
".
(** tests/expectations/asserted_cast.cpp *)
Definition asserted_cast_cpp : string := "#define MY_ASSERT(...) do { } while (0)
#define MY_ATTRS __attribute((noinline))


#include <cstdarg>
#include <cstdint>
#include <cstdlib>
#include <ostream>
#include <new>

struct I;

struct H {
  enum class Tag : uint8_t {
    H_Foo,
    H_Bar,
    H_Baz,
  };

  struct H_Foo_Body {
    int16_t _0;
  };

  struct H_Bar_Body {
    uint8_t x;
    int16_t y;
  };

  Tag tag;
  union {
    H_Foo_Body foo;
    H_Bar_Body bar;
  };

  static H H_Foo(const int16_t &_0) {
    H result;
    ::new (&result.foo._0) (int16_t)(_0);
    result.tag = Tag::H_Foo;
    return result;
  }

  bool IsH_Foo() const {
    return tag == Tag::H_Foo;
  }

  const int16_t& AsH_Foo() const {
    MY_ASSERT(IsH_Foo());
    return foo._0;
  }

  MY_ATTRS int16_t& AsH_Foo() {
    MY_ASSERT(IsH_Foo());
    return foo._0;
  }

  static H H_Bar(const uint8_t &x,
                 const int16_t &y) {
    H result;
    ::new (&result.bar.x) (uint8_t)(x);
    ::new (&result.bar.y) (int16_t)(y);
    result.tag = Tag::H_Bar;
    return result;
  }

  bool IsH_Bar() const {
    return tag == Tag::H_Bar;
  }

  MY_ATTRS const H_Bar_Body& AsH_Bar() const {
    MY_ASSERT(IsH_Bar());
    return bar;
  }

  H_Bar_Body& AsH_Bar() {
    MY_ASSERT(IsH_Bar());
    return bar;
  }

  static H H_Baz() {
    H result;
    result.tag = Tag::H_Baz;
    return result;
  }

  MY_ATTRS bool IsH_Baz() const {
    return tag == Tag::H_Baz;
  }
};

struct J {
  enum class Tag : uint8_t {
    J_Foo,
    J_Bar,
    J_Baz,
  };

  struct J_Foo_Body {
    int16_t _0;
  };

  struct J_Bar_Body {
    uint8_t x;
    int16_t y;
  };

  Tag tag;
  union {
    J_Foo_Body foo;
    J_Bar_Body bar;
  };

  static J J_Foo(const int16_t &_0) {
    J result;
    ::new (&result.foo._0) (int16_t)(_0);
    result.tag = Tag::J_Foo;
    return result;
  }

  bool IsJ_Foo() const {
    return tag == Tag::J_Foo;
  }

  const int16_t& AsJ_Foo() const {
    MY_ASSERT(IsJ_Foo());
    return foo._0;
  }

  int16_t& AsJ_Foo() {
    MY_ASSERT(IsJ_Foo());
    return foo._0;
  }

  static J J_Bar(const uint8_t &x,
                 const int16_t &y) {
    J result;
    ::new (&result.bar.x) (uint8_t)(x);
    ::new (&result.bar.y) (int16_t)(y);
    result.tag = Tag::J_Bar;
    return result;
  }

  bool IsJ_Bar() const {
    return tag == Tag::J_Bar;
  }

  const J_Bar_Body& AsJ_Bar() const {
    MY_ASSERT(IsJ_Bar());
    return bar;
  }

  J_Bar_Body& AsJ_Bar() {
    MY_ASSERT(IsJ_Bar());
    return bar;
  }

  static J J_Baz() {
    J result;
    result.tag = Tag::J_Baz;
    return result;
  }

  bool IsJ_Baz() const {
    return tag == Tag::J_Baz;
  }
};

union K {
  enum class Tag : uint8_t {
    K_Foo,
    K_Bar,
    K_Baz,
  };

  struct K_Foo_Body {
    Tag tag;
    int16_t _0;
  };

  struct K_Bar_Body {
    Tag tag;
    uint8_t x;
    int16_t y;
  };

  struct {
    Tag tag;
  };
  K_Foo_Body foo;
  K_Bar_Body bar;

  static K K_Foo(const int16_t &_0) {
    K result;
    ::new (&result.foo._0) (int16_t)(_0);
    result.tag = Tag::K_Foo;
    return result;
  }

  bool IsK_Foo() const {
    return tag == Tag::K_Foo;
  }

  const int16_t& AsK_Foo() const {
    MY_ASSERT(IsK_Foo());
    return foo._0;
  }

  int16_t& AsK_Foo() {
    MY_ASSERT(IsK_Foo());
    return foo._0;
  }

  static K K_Bar(const uint8_t &x,
                 const int16_t &y) {
    K result;
    ::new (&result.bar.x) (uint8_t)(x);
    ::new (&result.bar.y) (int16_t)(y);
    result.tag = Tag::K_Bar;
    return result;
  }

  bool IsK_Bar() const {
    return tag == Tag::K_Bar;
  }

  const K_Bar_Body& AsK_Bar() const {
    MY_ASSERT(IsK_Bar());
    return bar;
  }

  K_Bar_Body& AsK_Bar() {
    MY_ASSERT(IsK_Bar());
    return bar;
  }

  static K K_Baz() {
    K result;
    result.tag = Tag::K_Baz;
    return result;
  }

  bool IsK_Baz() const {
    return tag == Tag::K_Baz;
  }
};

extern ""C"" {

void foo(H h, I i, J j, K k);

}  // extern ""C""
".
(** tests/expectations/asserted_cast.pyx *)
Definition asserted_cast_pyx : string := "#define MY_ASSERT(...) do { } while (0)
#define MY_ATTRS __attribute((noinline))


from libc.stdint cimport int8_t, int16_t, int32_t, int64_t, intptr_t
from libc.stdint cimport uint8_t, uint16_t, uint32_t, uint64_t, uintptr_t
cdef extern from *:
  ctypedef bint bool
  ctypedef struct va_list

cdef extern from *:

  ctypedef struct I:
    pass

  cdef enum:
    H_Foo,
    H_Bar,
    H_Baz,
  ctypedef uint8_t H_Tag;

  ctypedef struct H_Bar_Body:
    uint8_t x;
    int16_t y;

  ctypedef struct H:
    H_Tag tag;
    int16_t foo;
    H_Bar_Body bar;

  cdef enum:
    J_Foo,
    J_Bar,
    J_Baz,
  ctypedef uint8_t J_Tag;

  ctypedef struct J_Bar_Body:
    uint8_t x;
    int16_t y;

  ctypedef struct J:
    J_Tag tag;
    int16_t foo;
    J_Bar_Body bar;

  cdef enum:
    K_Foo,
    K_Bar,
    K_Baz,
  ctypedef uint8_t K_Tag;

  ctypedef struct K_Bar_Body:
    K_Tag tag;
    uint8_t x;
    int16_t y;

  ctypedef union K:
    K_Tag tag;
    int16_t foo;
    K_Bar_Body bar;

  void foo(H h, I i, J j, K k);
".
(** tests/expectations/asserted_cast_tag.pyx *)
Definition asserted_cast_pyx_tag : string := "#define MY_ASSERT(...) do { } while (0)
#define MY_ATTRS __attribute((noinline))


from libc.stdint cimport int8_t, int16_t, int32_t, int64_t, intptr_t
from libc.stdint cimport uint8_t, uint16_t, uint32_t, uint64_t, uintptr_t
cdef extern from *:
  ctypedef bint bool
  ctypedef struct va_list

cdef extern from *:

  cdef struct I:
    pass

  cdef enum:
    H_Foo,
    H_Bar,
    H_Baz,
  ctypedef uint8_t H_Tag;

  cdef struct H_Bar_Body:
    uint8_t x;
    int16_t y;

  cdef struct H:
    H_Tag tag;
    int16_t foo;
    H_Bar_Body bar;

  cdef enum:
    J_Foo,
    J_Bar,
    J_Baz,
  ctypedef uint8_t J_Tag;

  cdef struct J_Bar_Body:
    uint8_t x;
    int16_t y;

  cdef struct J:
    J_Tag tag;
    int16_t foo;
    J_Bar_Body bar;

  cdef enum:
    K_Foo,
    K_Bar,
    K_Baz,
  ctypedef uint8_t K_Tag;

  cdef struct K_Bar_Body:
    K_Tag tag;
    uint8_t x;
    int16_t y;

  cdef union K:
    K_Tag tag;
    int16_t foo;
    K_Bar_Body bar;

  void foo(H h, I i, J j, K k);
".
Example asserted_cast_reproduced : reproduces (in_file asserted_cast_rs) false asserted_cast_toml (Some "{
foo;
};")
  [(RunC true Type_, [asserted_cast_compat]);
   (RunC true Tag, [asserted_cast_compat_tag]);
   (RunC true Both, [asserted_cast_compat_both]);
   (RunC false Type_, [asserted_cast_c]);
   (RunC false Tag, [asserted_cast_c_tag]);
   (RunC false Both, [asserted_cast_c_both]);
   (RunCxx, [asserted_cast_cpp]);
   (RunCython Type_, [asserted_cast_pyx]);
   (RunCython Tag, [asserted_cast_pyx_tag])] = true.
Proof. vm_compute. reflexivity. Qed.

(** ** tests/rust/assoc_const_conflict.rs *)
Definition assoc_const_conflict_rs : list sitem := [
  (ItemStruct [{| at_meta := (AList (Some "repr") [(APath (Some "C"))]); at_outer := true |}] "Foo" [] (FieldsNamed []));
  (ItemConst [] true "Foo_FOO" (SPath (SegPath [] "u32" NoArgs)) (XLit (LitInt 42 "")));
  (ItemImpl [] (SPath (SegPath [] "Foo" NoArgs)) [(ImplConst [] false "FOO" (SPath (SegPath [] "i32" NoArgs)) (XLit (LitInt 0 "")))])].
(** tests/expectations/assoc_const_conflict.compat.c *)
Definition assoc_const_conflict_compat : string := "#include <stdarg.h>
#include <stdbool.h>
#include <stdint.h>
#include <stdlib.h>

#define Foo_FOO 42
".
(** tests/expectations/assoc_const_conflict.cpp *)
Definition assoc_const_conflict_cpp : string := "#include <cstdarg>
#include <cstdint>
#include <cstdlib>
#include <ostream>
#include <new>

constexpr static const uint32_t Foo_FOO = 42;
".
(** tests/expectations/assoc_const_conflict.pyx *)
Definition assoc_const_conflict_pyx : string := "from libc.stdint cimport int8_t, int16_t, int32_t, int64_t, intptr_t
from libc.stdint cimport uint8_t, uint16_t, uint32_t, uint64_t, uintptr_t
cdef extern from *:
  ctypedef bint bool
  ctypedef struct va_list

cdef extern from *:

  const uint32_t Foo_FOO # = 42
".
Example assoc_const_conflict_reproduced : reproduces (in_file assoc_const_conflict_rs) false default_config None
  [(RunC true Type_, [assoc_const_conflict_compat]);
   (RunC true Tag, [assoc_const_conflict_compat]);
   (RunC true Both, [assoc_const_conflict_compat]);
   (RunC false Type_, [assoc_const_conflict_compat]);
   (RunC false Tag, [assoc_const_conflict_compat]);
   (RunC false Both, [assoc_const_conflict_compat]);
   (RunCxx, [assoc_const_conflict_cpp]);
   (RunCython Type_, [assoc_const_conflict_pyx]);
   (RunCython Tag, [assoc_const_conflict_pyx])] = true.
Proof. vm_compute. reflexivity. Qed.

(** ** tests/rust/assoc_constant.rs *)
Definition assoc_constant_rs : list sitem := [
  (ItemStruct [{| at_meta := (AList (Some "repr") [(APath (Some "C"))]); at_outer := true |}] "Foo" [] (FieldsNamed []));
  (ItemImpl [] (SPath (SegPath [] "Foo" NoArgs)) [(ImplConst [] true "GA" (SPath (SegPath [] "i32" NoArgs)) (XLit (LitInt 10 "")));
  (ImplConst [] true "BU" (SRef false (SPath (SegPath [] "str" NoArgs))) (XLit LitOther)); (ImplConst [] true "ZO" (SPath (SegPath
  [] "f32" NoArgs)) (XLit (LitFloat "3.14"))); (ImplConst [] false "DONT_EXPORT_CRATE" (SPath (SegPath [] "i32" NoArgs)) (XLit (LitInt
  20 ""))); (ImplConst [] false "DONT_EXPORT_PRIV" (SPath (SegPath [] "i32" NoArgs)) (XLit (LitInt 30 "")))]);
  (ItemFn [{| at_meta := (APath (Some "no_mangle")); at_outer := true |}] true {| sg_ident := "root"; sg_abi := (Some (Some "C")); sg_inputs
  := [(FnTyped (PatIdent "x") (SPath (SegPath [] "Foo" NoArgs)))]; sg_variadic := false; sg_output := None |})].
(** tests/expectations/assoc_constant.compat.c *)
Definition assoc_constant_compat : string := "#include <stdarg.h>
#include <stdbool.h>
#include <stdint.h>
#include <stdlib.h>

typedef struct {

} Foo;
#define Foo_GA 10
#define Foo_ZO 3.14

#ifdef __cplusplus
extern ""C"" {
#endif // __cplusplus

void root(Foo x);

#ifdef __cplusplus
}  // extern ""C""
#endif  // __cplusplus
".
(** tests/expectations/assoc_constant_tag.compat.c *)
Definition assoc_constant_compat_tag : string := "#include <stdarg.h>
#include <stdbool.h>
#include <stdint.h>
#include <stdlib.h>

struct Foo {

};
#define Foo_GA 10
#define Foo_ZO 3.14

#ifdef __cplusplus
extern ""C"" {
#endif // __cplusplus

void root(struct Foo x);

#ifdef __cplusplus
}  // extern ""C""
#endif  // __cplusplus
".
(** tests/expectations/assoc_constant_both.compat.c *)
Definition assoc_constant_compat_both : string := "#include <stdarg.h>
#include <stdbool.h>
#include <stdint.h>
#include <stdlib.h>

typedef struct Foo {

} Foo;
#define Foo_GA 10
#define Foo_ZO 3.14

#ifdef __cplusplus
extern ""C"" {
#endif // __cplusplus

void root(struct Foo x);

#ifdef __cplusplus
}  // extern ""C""
#endif  // __cplusplus
".
(** tests/expectations/assoc_constant.c *)
Definition assoc_constant_c : string := "#include <stdarg.h>
#include <stdbool.h>
#include <stdint.h>
#include <stdlib.h>

typedef struct {

} Foo;
#define Foo_GA 10
#define Foo_ZO 3.14

void root(Foo x);
".
(** tests/expectations/assoc_constant_tag.c *)
Definition assoc_constant_c_tag : string := "#include <stdarg.h>
#include <stdbool.h>
#include <stdint.h>
#include <stdlib.h>

struct Foo {

};
#define Foo_GA 10
#define Foo_ZO 3.14

void root(struct Foo x);
".
(** tests/expectations/assoc_constant_both.c *)
Definition assoc_constant_c_both : string := "#include <stdarg.h>
#include <stdbool.h>
#include <stdint.h>
#include <stdlib.h>

typedef struct Foo {

} Foo;
#define Foo_GA 10
#define Foo_ZO 3.14

void root(struct Foo x);
".
(** tests/expectations/assoc_constant.cpp *)
Definition assoc_constant_cpp : string := "#include <cstdarg>
#include <cstdint>
#include <cstdlib>
#include <ostream>
#include <new>

struct Foo {

};
constexpr static const int32_t Foo_GA = 10;
constexpr static const float Foo_ZO = 3.14;

extern ""C"" {

void root(Foo x);

}  // extern ""C""
".
(** tests/expectations/assoc_constant.pyx *)
Definition assoc_constant_pyx : string := "from libc.stdint cimport int8_t, int16_t, int32_t, int64_t, intptr_t
from libc.stdint cimport uint8_t, uint16_t, uint32_t, uint64_t, uintptr_t
cdef extern from *:
  ctypedef bint bool
  ctypedef struct va_list

cdef extern from *:

  ctypedef struct Foo:
    pass
  const int32_t Foo_GA # = 10
  const float Foo_ZO # = 3.14

  void root(Foo x);
".
(** tests/expectations/assoc_constant_tag.pyx *)
Definition assoc_constant_pyx_tag : string := "from libc.stdint cimport int8_t, int16_t, int32_t, int64_t, intptr_t
from libc.stdint cimport uint8_t, uint16_t, uint32_t, uint64_t, uintptr_t
cdef extern from *:
  ctypedef bint bool
  ctypedef struct va_list

cdef extern from *:

  cdef struct Foo:
    pass
  const int32_t Foo_GA # = 10
  const float Foo_ZO # = 3.14

  void root(Foo x);
".
Example assoc_constant_reproduced : reproduces (in_file assoc_constant_rs) false default_config (Some "{
root;
};")
  [(RunC true Type_, [assoc_constant_compat]);
   (RunC true Tag, [assoc_constant_compat_tag]);
   (RunC true Both, [assoc_constant_compat_both]);
   (RunC false Type_, [assoc_constant_c]);
   (RunC false Tag, [assoc_constant_c_tag]);
   (RunC false Both, [assoc_constant_c_both]);
   (RunCxx, [assoc_constant_cpp]);
   (RunCython Type_, [assoc_constant_pyx]);
   (RunCython Tag, [assoc_constant_pyx_tag])] = true.
Proof. vm_compute. reflexivity. Qed.

(** ** tests/rust/associated_constant_panic.rs *)
Definition associated_constant_panic_rs : list sitem := [
  (ItemOther []);
  (ItemImpl [] (SPath (SegPath [] "u16" NoArgs)) [(ImplConst [] false "B" (SPath (SegPath [] "u8" NoArgs)) (XLit (LitInt 3 "")))])].
(** tests/expectations/associated_constant_panic.compat.c *)
Definition associated_constant_panic_compat : string := "#include <stdarg.h>
#include <stdbool.h>
#include <stdint.h>
#include <stdlib.h>
".
(** tests/expectations/associated_constant_panic.cpp *)
Definition associated_constant_panic_cpp : string := "#include <cstdarg>
#include <cstdint>
#include <cstdlib>
#include <ostream>
#include <new>
".
(** tests/expectations/associated_constant_panic.pyx *)
Definition associated_constant_panic_pyx : string := "from libc.stdint cimport int8_t, int16_t, int32_t, int64_t, intptr_t
from libc.stdint cimport uint8_t, uint16_t, uint32_t, uint64_t, uintptr_t
cdef extern from *:
  ctypedef bint bool
  ctypedef struct va_list

cdef extern from *:
  pass".
Example associated_constant_panic_reproduced : reproduces (in_file associated_constant_panic_rs) false default_config None
  [(RunC true Type_, [associated_constant_panic_compat]);
   (RunC true Tag, [associated_constant_panic_compat]);
   (RunC true Both, [associated_constant_panic_compat]);
   (RunC false Type_, [associated_constant_panic_compat]);
   (RunC false Tag, [associated_constant_panic_compat]);
   (RunC false Both, [associated_constant_panic_compat]);
   (RunCxx, [associated_constant_panic_cpp]);
   (RunCython Type_, [associated_constant_panic_pyx]);
   (RunCython Tag, [associated_constant_panic_pyx])] = true.
Proof. vm_compute. reflexivity. Qed.

(** ** tests/rust/associated_in_body.rs *)
Definition associated_in_body_rs : list sitem := [
  (ItemMacro [] "bitflags" (Some {| bf_attrs := (Some [{| at_meta := ANameValue (Some "doc") (Some " Constants shared by multiple CSS Box Alignment properties");
  at_outer := true |}; {| at_meta := ANameValue (Some "doc") (Some ""); at_outer := true |}; {| at_meta := ANameValue (Some "doc")
  (Some " These constants match Gecko's `NS_STYLE_ALIGN_*` constants."); at_outer := true |}; {| at_meta := (AList (Some "derive")
  [(APath (Some "MallocSizeOf"))]); at_outer := true |}; {| at_meta := (AList (Some "repr") [(APath (Some "C"))]); at_outer := true
  |}]); bf_name := "AlignFlags"; bf_repr := (SPath (SegPath [] "u8" NoArgs)); bf_flags := [([{| at_meta := ANameValue (Some "doc")
  (Some " 'auto'"); at_outer := true |}], "AUTO", (XLit (LitInt 0 ""))); ([{| at_meta := ANameValue (Some "doc") (Some " 'normal'");
  at_outer := true |}], "NORMAL", (XLit (LitInt 1 ""))); ([{| at_meta := ANameValue (Some "doc") (Some " 'start'"); at_outer := true
  |}], "START", (XBinary Shl (XLit (LitInt 1 "")) (XLit (LitInt 1 "")))); ([{| at_meta := ANameValue (Some "doc") (Some " 'end'");
  at_outer := true |}], "END", (XBinary Shl (XLit (LitInt 1 "")) (XLit (LitInt 2 "")))); ([], "ALIAS", (XField (XPath (SegPath ["Self"]
  "END" NoArgs)) (Named "bits"))); ([{| at_meta := ANameValue (Some "doc") (Some " 'flex-start'"); at_outer := true |}], "FLEX_START",
  (XBinary Shl (XLit (LitInt 1 "")) (XLit (LitInt 3 "")))); ([], "MIXED", (XBinary BitOr (XBinary BitOr (XBinary Shl (XLit (LitInt
  1 "")) (XLit (LitInt 4 ""))) (XField (XPath (SegPath ["AlignFlags"] "FLEX_START" NoArgs)) (Named "bits"))) (XField (XPath (SegPath
  ["AlignFlags"] "END" NoArgs)) (Named "bits")))); ([], "MIXED_SELF", (XBinary BitOr (XBinary BitOr (XBinary Shl (XLit (LitInt 1 ""))
  (XLit (LitInt 5 ""))) (XField (XPath (SegPath ["AlignFlags"] "FLEX_START" NoArgs)) (Named "bits"))) (XField (XPath (SegPath ["AlignFlags"]
  "END" NoArgs)) (Named "bits")))); ([{| at_meta := (AList (Some "cfg") [(APath (Some "windows"))]); at_outer := true |}], "PLATFORM_BIT",
  (XBinary Shl (XLit (LitInt 1 "")) (XLit (LitInt 6 "")))); ([{| at_meta := (AList (Some "cfg") [(APath (Some "unix"))]); at_outer
  := true |}], "PLATFORM_BIT", (XBinary Shl (XLit (LitInt 1 "")) (XLit (LitInt 7 ""))))] |}));
  (ItemStruct [{| at_meta := ANameValue (Some "doc") (Some " An arbitrary identifier for a native (OS compositor) surface"); at_outer
  := true |}; {| at_meta := (AList (Some "repr") [(APath (Some "C"))]); at_outer := true |}; {| at_meta := (AList (Some "derive")
  [(APath (Some "Debug")); (APath (Some "Copy")); (APath (Some "Clone")); (APath (Some "Hash")); (APath (Some "Eq")); (APath (Some
  "PartialEq"))]); at_outer := true |}] "NativeSurfaceId" [] (FieldsUnnamed [{| sf_attrs := []; sf_ident := None; sf_ty := (SPath
  (SegPath [] "u64" NoArgs)) |}]));
  (ItemImpl [] (SPath (SegPath [] "NativeSurfaceId" NoArgs)) [(ImplConst [{| at_meta := ANameValue (Some "doc") (Some " A special id for the native surface that is used for debug / profiler overlays.");
  at_outer := true |}] true "DEBUG_OVERLAY" (SPath (SegPath [] "NativeSurfaceId" NoArgs)) (XCall (XPath (SegPath [] "NativeSurfaceId"
  NoArgs)) [(XPath (SegPath ["u64"] "MAX" NoArgs))]))]);
  (ItemStruct [{| at_meta := (AList (Some "repr") [(APath (Some "C"))]); at_outer := true |}; {| at_meta := (AList (Some "derive") [(APath
  (Some "Debug")); (APath (Some "Copy")); (APath (Some "Clone")); (APath (Some "Hash")); (APath (Some "Eq")); (APath (Some "PartialEq"))]);
  at_outer := true |}; {| at_meta := (AList (Some "cfg_attr") [(ANameValue (Some "feature") (Some "capture")); (AList (Some "derive")
  [(APath (Some "Serialize"))])]); at_outer := true |}; {| at_meta := (AList (Some "cfg_attr") [(ANameValue (Some "feature") (Some
  "replay")); (AList (Some "derive") [(APath (Some "Deserialize"))])]); at_outer := true |}] "NativeTileId" [] (FieldsNamed [{| sf_attrs
  := []; sf_ident := (Some "surface_id"); sf_ty := (SPath (SegPath [] "NativeSurfaceId" NoArgs)) |}; {| sf_attrs := []; sf_ident :=
  (Some "x"); sf_ty := (SPath (SegPath [] "i32" NoArgs)) |}; {| sf_attrs := []; sf_ident := (Some "y"); sf_ty := (SPath (SegPath []
  "i32" NoArgs)) |}]));
  (ItemImpl [] (SPath (SegPath [] "NativeTileId" NoArgs)) [(ImplConst [{| at_meta := ANameValue (Some "doc") (Some " A special id for the native surface that is used for debug / profiler overlays.");
  at_outer := true |}] true "DEBUG_OVERLAY" (SPath (SegPath [] "NativeTileId" NoArgs)) (XStruct (SegPath [] "NativeTileId" NoArgs)
  [([], (Named "surface_id"), (XPath (SegPath ["NativeSurfaceId"] "DEBUG_OVERLAY" NoArgs))); ([], (Named "x"), (XLit (LitInt 0 "")));
  ([], (Named "y"), (XLit (LitInt 0 "")))] None))]);
  (ItemFn [{| at_meta := (APath (Some "no_mangle")); at_outer := true |}] true {| sg_ident := "root"; sg_abi := (Some (Some "C")); sg_inputs
  := [(FnTyped (PatIdent "flags") (SPath (SegPath [] "AlignFlags" NoArgs))); (FnTyped (PatIdent "tile") (SPath (SegPath [] "NativeTileId"
  NoArgs)))]; sg_variadic := false; sg_output := None |})].
Definition associated_in_body_toml : Config := {| header := (Some "#if 0
DEF PLATFORM_UNIX = 0
DEF PLATFORM_WIN = 0
#endif
#define PLATFORM_UNIX 1
"); includes_ := []; sys_includes_ := []; after_includes := None; trailer := None;
  include_guard_ := None; pragma_once := false; no_includes := false; package_version := false; autogen_warning := None; include_version := false;
  namespace := None; namespaces := None; using_namespaces := None; braces := SameLine; line_length := 100; tab_width := 2; line_endings := LF;
  language := Cxx; cpp_compat := false; style := Both; sort_by := SortNone; usize_is_size_t := false; parse := default_parse; export := {| ex_include := []; ex_exclude := []; ex_rename := []; ex_pre_body := []; ex_body := []; ex_prefix := (Some "Style"); ex_item_types := []; ex_renaming_overrides_prefixing := false; ex_mangle := {| rename_types := RNone; remove_underscores := false |} |};
  layout := {| ly_packed := None; ly_aligned_n := None |}; function := {| fn_prefix := None; fn_postfix := None; fn_must_use := None; fn_deprecated := None; fn_deprecated_with_note := None; fn_args := Auto; fn_rename_args := RNone; fn_swift_name_macro := None; fn_sort_by := None; fn_no_return := None |}; structure := {| st_rename_fields := RNone; st_derive_constructor := false; st_derive_eq := false; st_derive_neq := false; st_derive_lt := false; st_derive_lte := false; st_derive_gt := false; st_derive_gte := false; st_derive_ostream := false; st_associated_constants_in_body := true; st_rename_associated_constant := RNone; st_must_use := None; st_deprecated := None; st_deprecated_with_note := None |}; enumeration := {| en_rename_variants := RNone; en_rename_variant_name_fields := SnakeCase; en_add_sentinel := false; en_prefix_with_name := false; en_derive_helper_methods := false; en_derive_const_casts := false; en_derive_mut_casts := false; en_cast_assert_name := None; en_must_use := None; en_deprecated := None; en_deprecated_with_note := None; en_deprecated_variant := None; en_deprecated_variant_with_note := None; en_derive_tagged_enum_destructor := false; en_derive_tagged_enum_copy_constructor := false; en_derive_tagged_enum_copy_assignment := false; en_derive_ostream := false; en_enum_class := true; en_private_default_tagged_enum_constructor := false |}; constant := {| co_allow_static_const := true; co_allow_constexpr := true; co_sort_by := None |}; defines := [("unix", "PLATFORM_UNIX"); ("windows", "PLATFORM_WIN")]; documentation := true;
  documentation_style := DocAuto; documentation_length := Full; pointer := {| pt_non_null_attribute := None; pt_nullable_attribute := None |}; cython := {| cy_header := None; cy_cimports := [] |}; config_path := None |}.
(** tests/expectations/associated_in_body.compat.c *)
Definition associated_in_body_compat : string := "#if 0
DEF PLATFORM_UNIX = 0
DEF PLATFORM_WIN = 0
#endif
#define PLATFORM_UNIX 1


#include <stdarg.h>
#include <stdbool.h>
#include <stdint.h>
#include <stdlib.h>

/**
 * Constants shared by multiple CSS Box Alignment properties
 *
 * These constants match Gecko's `NS_STYLE_ALIGN_*` constants.
 */
typedef struct {
  uint8_t bits;
} StyleAlignFlags;
/**
 * 'auto'
 */
#define StyleAlignFlags_AUTO (StyleAlignFlags){ .bits = (uint8_t)0 }
/**
 * 'normal'
 */
#define StyleAlignFlags_NORMAL (StyleAlignFlags){ .bits = (uint8_t)1 }
/**
 * 'start'
 */
#define StyleAlignFlags_START (StyleAlignFlags){ .bits = (uint8_t)(1 << 1) }
/**
 * 'end'
 */
#define StyleAlignFlags_END (StyleAlignFlags){ .bits = (uint8_t)(1 << 2) }
#define StyleAlignFlags_ALIAS (StyleAlignFlags){ .bits = (uint8_t)(StyleAlignFlags_END).bits }
/**
 * 'flex-start'
 */
#define StyleAlignFlags_FLEX_START (StyleAlignFlags){ .bits = (uint8_t)(1 << 3) }
#define StyleAlignFlags_MIXED (StyleAlignFlags){ .bits = (uint8_t)(((1 << 4) | (StyleAlignFlags_FLEX_START).bits) | (StyleAlignFlags_END).bits) }
#define StyleAlignFlags_MIXED_SELF (StyleAlignFlags){ .bits = (uint8_t)(((1 << 5) | (StyleAlignFlags_FLEX_START).bits) | (StyleAlignFlags_END).bits) }
#if defined(PLATFORM_WIN)
#define StyleAlignFlags_PLATFORM_BIT (StyleAlignFlags){ .bits = (uint8_t)(1 << 6) }
#endif
#if defined(PLATFORM_UNIX)
#define StyleAlignFlags_PLATFORM_BIT (StyleAlignFlags){ .bits = (uint8_t)(1 << 7) }
#endif

/**
 * An arbitrary identifier for a native (OS compositor) surface
 */
typedef struct {
  uint64_t _0;
} StyleNativeSurfaceId;
/**
 * A special id for the native surface that is used for debug / profiler overlays.
 */
#define StyleNativeSurfaceId_DEBUG_OVERLAY (StyleNativeSurfaceId){ ._0 = UINT64_MAX }

typedef struct {
  StyleNativeSurfaceId surface_id;
  int32_t x;
  int32_t y;
} StyleNativeTileId;
/**
 * A special id for the native surface that is used for debug / profiler overlays.
 */
#define StyleNativeTileId_DEBUG_OVERLAY (StyleNativeTileId){ .surface_id = StyleNativeSurfaceId_DEBUG_OVERLAY, .x = 0, .y = 0 }

#ifdef __cplusplus
extern ""C"" {
#endif // __cplusplus

void root(StyleAlignFlags flags, StyleNativeTileId tile);

#ifdef __cplusplus
}  // extern ""C""
#endif  // __cplusplus
".
(** tests/expectations/associated_in_body_tag.compat.c *)
Definition associated_in_body_compat_tag : string := "#if 0
DEF PLATFORM_UNIX = 0
DEF PLATFORM_WIN = 0
#endif
#define PLATFORM_UNIX 1


#include <stdarg.h>
#include <stdbool.h>
#include <stdint.h>
#include <stdlib.h>

/**
 * Constants shared by multiple CSS Box Alignment properties
 *
 * These constants match Gecko's `NS_STYLE_ALIGN_*` constants.
 */
struct StyleAlignFlags {
  uint8_t bits;
};
/**
 * 'auto'
 */
#define StyleAlignFlags_AUTO (StyleAlignFlags){ .bits = (uint8_t)0 }
/**
 * 'normal'
 */
#define StyleAlignFlags_NORMAL (StyleAlignFlags){ .bits = (uint8_t)1 }
/**
 * 'start'
 */
#define StyleAlignFlags_START (StyleAlignFlags){ .bits = (uint8_t)(1 << 1) }
/**
 * 'end'
 */
#define StyleAlignFlags_END (StyleAlignFlags){ .bits = (uint8_t)(1 << 2) }
#define StyleAlignFlags_ALIAS (StyleAlignFlags){ .bits = (uint8_t)(StyleAlignFlags_END).bits }
/**
 * 'flex-start'
 */
#define StyleAlignFlags_FLEX_START (StyleAlignFlags){ .bits = (uint8_t)(1 << 3) }
#define StyleAlignFlags_MIXED (StyleAlignFlags){ .bits = (uint8_t)(((1 << 4) | (StyleAlignFlags_FLEX_START).bits) | (StyleAlignFlags_END).bits) }
#define StyleAlignFlags_MIXED_SELF (StyleAlignFlags){ .bits = (uint8_t)(((1 << 5) | (StyleAlignFlags_FLEX_START).bits) | (StyleAlignFlags_END).bits) }
#if defined(PLATFORM_WIN)
#define StyleAlignFlags_PLATFORM_BIT (StyleAlignFlags){ .bits = (uint8_t)(1 << 6) }
#endif
#if defined(PLATFORM_UNIX)
#define StyleAlignFlags_PLATFORM_BIT (StyleAlignFlags){ .bits = (uint8_t)(1 << 7) }
#endif

/**
 * An arbitrary identifier for a native (OS compositor) surface
 */
struct StyleNativeSurfaceId {
  uint64_t _0;
};
/**
 * A special id for the native surface that is used for debug / profiler overlays.
 */
#define StyleNativeSurfaceId_DEBUG_OVERLAY (StyleNativeSurfaceId){ ._0 = UINT64_MAX }

struct StyleNativeTileId {
  struct StyleNativeSurfaceId surface_id;
  int32_t x;
  int32_t y;
};
/**
 * A special id for the native surface that is used for debug / profiler overlays.
 */
#define StyleNativeTileId_DEBUG_OVERLAY (StyleNativeTileId){ .surface_id = StyleNativeSurfaceId_DEBUG_OVERLAY, .x = 0, .y = 0 }

#ifdef __cplusplus
extern ""C"" {
#endif // __cplusplus

void root(struct StyleAlignFlags flags, struct StyleNativeTileId tile);

#ifdef __cplusplus
}  // extern ""C""
#endif  // __cplusplus
".
(** tests/expectations/associated_in_body_both.compat.c *)
Definition associated_in_body_compat_both : string := "#if 0
DEF PLATFORM_UNIX = 0
DEF PLATFORM_WIN = 0
#endif
#define PLATFORM_UNIX 1


#include <stdarg.h>
#include <stdbool.h>
#include <stdint.h>
#include <stdlib.h>

/**
 * Constants shared by multiple CSS Box Alignment properties
 *
 * These constants match Gecko's `NS_STYLE_ALIGN_*` constants.
 */
typedef struct StyleAlignFlags {
  uint8_t bits;
} StyleAlignFlags;
/**
 * 'auto'
 */
#define StyleAlignFlags_AUTO (StyleAlignFlags){ .bits = (uint8_t)0 }
/**
 * 'normal'
 */
#define StyleAlignFlags_NORMAL (StyleAlignFlags){ .bits = (uint8_t)1 }
/**
 * 'start'
 */
#define StyleAlignFlags_START (StyleAlignFlags){ .bits = (uint8_t)(1 << 1) }
/**
 * 'end'
 */
#define StyleAlignFlags_END (StyleAlignFlags){ .bits = (uint8_t)(1 << 2) }
#define StyleAlignFlags_ALIAS (StyleAlignFlags){ .bits = (uint8_t)(StyleAlignFlags_END).bits }
/**
 * 'flex-start'
 */
#define StyleAlignFlags_FLEX_START (StyleAlignFlags){ .bits = (uint8_t)(1 << 3) }
#define StyleAlignFlags_MIXED (StyleAlignFlags){ .bits = (uint8_t)(((1 << 4) | (StyleAlignFlags_FLEX_START).bits) | (StyleAlignFlags_END).bits) }
#define StyleAlignFlags_MIXED_SELF (StyleAlignFlags){ .bits = (uint8_t)(((1 << 5) | (StyleAlignFlags_FLEX_START).bits) | (StyleAlignFlags_END).bits) }
#if defined(PLATFORM_WIN)
#define StyleAlignFlags_PLATFORM_BIT (StyleAlignFlags){ .bits = (uint8_t)(1 << 6) }
#endif
#if defined(PLATFORM_UNIX)
#define StyleAlignFlags_PLATFORM_BIT (StyleAlignFlags){ .bits = (uint8_t)(1 << 7) }
#endif

/**
 * An arbitrary identifier for a native (OS compositor) surface
 */
typedef struct StyleNativeSurfaceId {
  uint64_t _0;
} StyleNativeSurfaceId;
/**
 * A special id for the native surface that is used for debug / profiler overlays.
 */
#define StyleNativeSurfaceId_DEBUG_OVERLAY (StyleNativeSurfaceId){ ._0 = UINT64_MAX }

typedef struct StyleNativeTileId {
  struct StyleNativeSurfaceId surface_id;
  int32_t x;
  int32_t y;
} StyleNativeTileId;
/**
 * A special id for the native surface that is used for debug / profiler overlays.
 */
#define StyleNativeTileId_DEBUG_OVERLAY (StyleNativeTileId){ .surface_id = StyleNativeSurfaceId_DEBUG_OVERLAY, .x = 0, .y = 0 }

#ifdef __cplusplus
extern ""C"" {
#endif // __cplusplus

void root(struct StyleAlignFlags flags, struct StyleNativeTileId tile);

#ifdef __cplusplus
}  // extern ""C""
#endif  // __cplusplus
".
(** tests/expectations/associated_in_body.c *)
Definition associated_in_body_c : string := "#if 0
DEF PLATFORM_UNIX = 0
DEF PLATFORM_WIN = 0
#endif
#define PLATFORM_UNIX 1


#include <stdarg.h>
#include <stdbool.h>
#include <stdint.h>
#include <stdlib.h>

/**
 * Constants shared by multiple CSS Box Alignment properties
 *
 * These constants match Gecko's `NS_STYLE_ALIGN_*` constants.
 */
typedef struct {
  uint8_t bits;
} StyleAlignFlags;
/**
 * 'auto'
 */
#define StyleAlignFlags_AUTO (StyleAlignFlags){ .bits = (uint8_t)0 }
/**
 * 'normal'
 */
#define StyleAlignFlags_NORMAL (StyleAlignFlags){ .bits = (uint8_t)1 }
/**
 * 'start'
 */
#define StyleAlignFlags_START (StyleAlignFlags){ .bits = (uint8_t)(1 << 1) }
/**
 * 'end'
 */
#define StyleAlignFlags_END (StyleAlignFlags){ .bits = (uint8_t)(1 << 2) }
#define StyleAlignFlags_ALIAS (StyleAlignFlags){ .bits = (uint8_t)(StyleAlignFlags_END).bits }
/**
 * 'flex-start'
 */
#define StyleAlignFlags_FLEX_START (StyleAlignFlags){ .bits = (uint8_t)(1 << 3) }
#define StyleAlignFlags_MIXED (StyleAlignFlags){ .bits = (uint8_t)(((1 << 4) | (StyleAlignFlags_FLEX_START).bits) | (StyleAlignFlags_END).bits) }
#define StyleAlignFlags_MIXED_SELF (StyleAlignFlags){ .bits = (uint8_t)(((1 << 5) | (StyleAlignFlags_FLEX_START).bits) | (StyleAlignFlags_END).bits) }
#if defined(PLATFORM_WIN)
#define StyleAlignFlags_PLATFORM_BIT (StyleAlignFlags){ .bits = (uint8_t)(1 << 6) }
#endif
#if defined(PLATFORM_UNIX)
#define StyleAlignFlags_PLATFORM_BIT (StyleAlignFlags){ .bits = (uint8_t)(1 << 7) }
#endif

/**
 * An arbitrary identifier for a native (OS compositor) surface
 */
typedef struct {
  uint64_t _0;
} StyleNativeSurfaceId;
/**
 * A special id for the native surface that is used for debug / profiler overlays.
 */
#define StyleNativeSurfaceId_DEBUG_OVERLAY (StyleNativeSurfaceId){ ._0 = UINT64_MAX }

typedef struct {
  StyleNativeSurfaceId surface_id;
  int32_t x;
  int32_t y;
} StyleNativeTileId;
/**
 * A special id for the native surface that is used for debug / profiler overlays.
 */
#define StyleNativeTileId_DEBUG_OVERLAY (StyleNativeTileId){ .surface_id = StyleNativeSurfaceId_DEBUG_OVERLAY, .x = 0, .y = 0 }

void root(StyleAlignFlags flags, StyleNativeTileId tile);
".
(** tests/expectations/associated_in_body_tag.c *)
Definition associated_in_body_c_tag : string := "#if 0
DEF PLATFORM_UNIX = 0
DEF PLATFORM_WIN = 0
#endif
#define PLATFORM_UNIX 1


#include <stdarg.h>
#include <stdbool.h>
#include <stdint.h>
#include <stdlib.h>

/**
 * Constants shared by multiple CSS Box Alignment properties
 *
 * These constants match Gecko's `NS_STYLE_ALIGN_*` constants.
 */
struct StyleAlignFlags {
  uint8_t bits;
};
/**
 * 'auto'
 */
#define StyleAlignFlags_AUTO (StyleAlignFlags){ .bits = (uint8_t)0 }
/**
 * 'normal'
 */
#define StyleAlignFlags_NORMAL (StyleAlignFlags){ .bits = (uint8_t)1 }
/**
 * 'start'
 */
#define StyleAlignFlags_START (StyleAlignFlags){ .bits = (uint8_t)(1 << 1) }
/**
 * 'end'
 */
#define StyleAlignFlags_END (StyleAlignFlags){ .bits = (uint8_t)(1 << 2) }
#define StyleAlignFlags_ALIAS (StyleAlignFlags){ .bits = (uint8_t)(StyleAlignFlags_END).bits }
/**
 * 'flex-start'
 */
#define StyleAlignFlags_FLEX_START (StyleAlignFlags){ .bits = (uint8_t)(1 << 3) }
#define StyleAlignFlags_MIXED (StyleAlignFlags){ .bits = (uint8_t)(((1 << 4) | (StyleAlignFlags_FLEX_START).bits) | (StyleAlignFlags_END).bits) }
#define StyleAlignFlags_MIXED_SELF (StyleAlignFlags){ .bits = (uint8_t)(((1 << 5) | (StyleAlignFlags_FLEX_START).bits) | (StyleAlignFlags_END).bits) }
#if defined(PLATFORM_WIN)
#define StyleAlignFlags_PLATFORM_BIT (StyleAlignFlags){ .bits = (uint8_t)(1 << 6) }
#endif
#if defined(PLATFORM_UNIX)
#define StyleAlignFlags_PLATFORM_BIT (StyleAlignFlags){ .bits = (uint8_t)(1 << 7) }
#endif

/**
 * An arbitrary identifier for a native (OS compositor) surface
 */
struct StyleNativeSurfaceId {
  uint64_t _0;
};
/**
 * A special id for the native surface that is used for debug / profiler overlays.
 */
#define StyleNativeSurfaceId_DEBUG_OVERLAY (StyleNativeSurfaceId){ ._0 = UINT64_MAX }

struct StyleNativeTileId {
  struct StyleNativeSurfaceId surface_id;
  int32_t x;
  int32_t y;
};
/**
 * A special id for the native surface that is used for debug / profiler overlays.
 */
#define StyleNativeTileId_DEBUG_OVERLAY (StyleNativeTileId){ .surface_id = StyleNativeSurfaceId_DEBUG_OVERLAY, .x = 0, .y = 0 }

void root(struct StyleAlignFlags flags, struct StyleNativeTileId tile);
".
(** tests/expectations/associated_in_body_both.c *)
Definition associated_in_body_c_both : string := "#if 0
DEF PLATFORM_UNIX = 0
DEF PLATFORM_WIN = 0
#endif
#define PLATFORM_UNIX 1


#include <stdarg.h>
#include <stdbool.h>
#include <stdint.h>
#include <stdlib.h>

/**
 * Constants shared by multiple CSS Box Alignment properties
 *
 * These constants match Gecko's `NS_STYLE_ALIGN_*` constants.
 */
typedef struct StyleAlignFlags {
  uint8_t bits;
} StyleAlignFlags;
/**
 * 'auto'
 */
#define StyleAlignFlags_AUTO (StyleAlignFlags){ .bits = (uint8_t)0 }
/**
 * 'normal'
 */
#define StyleAlignFlags_NORMAL (StyleAlignFlags){ .bits = (uint8_t)1 }
/**
 * 'start'
 */
#define StyleAlignFlags_START (StyleAlignFlags){ .bits = (uint8_t)(1 << 1) }
/**
 * 'end'
 */
#define StyleAlignFlags_END (StyleAlignFlags){ .bits = (uint8_t)(1 << 2) }
#define StyleAlignFlags_ALIAS (StyleAlignFlags){ .bits = (uint8_t)(StyleAlignFlags_END).bits }
/**
 * 'flex-start'
 */
#define StyleAlignFlags_FLEX_START (StyleAlignFlags){ .bits = (uint8_t)(1 << 3) }
#define StyleAlignFlags_MIXED (StyleAlignFlags){ .bits = (uint8_t)(((1 << 4) | (StyleAlignFlags_FLEX_START).bits) | (StyleAlignFlags_END).bits) }
#define StyleAlignFlags_MIXED_SELF (StyleAlignFlags){ .bits = (uint8_t)(((1 << 5) | (StyleAlignFlags_FLEX_START).bits) | (StyleAlignFlags_END).bits) }
#if defined(PLATFORM_WIN)
#define StyleAlignFlags_PLATFORM_BIT (StyleAlignFlags){ .bits = (uint8_t)(1 << 6) }
#endif
#if defined(PLATFORM_UNIX)
#define StyleAlignFlags_PLATFORM_BIT (StyleAlignFlags){ .bits = (uint8_t)(1 << 7) }
#endif

/**
 * An arbitrary identifier for a native (OS compositor) surface
 */
typedef struct StyleNativeSurfaceId {
  uint64_t _0;
} StyleNativeSurfaceId;
/**
 * A special id for the native surface that is used for debug / profiler overlays.
 */
#define StyleNativeSurfaceId_DEBUG_OVERLAY (StyleNativeSurfaceId){ ._0 = UINT64_MAX }

typedef struct StyleNativeTileId {
  struct StyleNativeSurfaceId surface_id;
  int32_t x;
  int32_t y;
} StyleNativeTileId;
/**
 * A special id for the native surface that is used for debug / profiler overlays.
 */
#define StyleNativeTileId_DEBUG_OVERLAY (StyleNativeTileId){ .surface_id = StyleNativeSurfaceId_DEBUG_OVERLAY, .x = 0, .y = 0 }

void root(struct StyleAlignFlags flags, struct StyleNativeTileId tile);
".
(** tests/expectations/associated_in_body.cpp *)
Definition associated_in_body_cpp : string := "#if 0
DEF PLATFORM_UNIX = 0
DEF PLATFORM_WIN = 0
#endif
#define PLATFORM_UNIX 1


#include <cstdarg>
#include <cstdint>
#include <cstdlib>
#include <ostream>
#include <new>

/// Constants shared by multiple CSS Box Alignment properties
///
/// These constants match Gecko's `NS_STYLE_ALIGN_*` constants.
struct StyleAlignFlags {
  uint8_t bits;

  constexpr explicit operator bool() const {
    return !!bits;
  }
  constexpr StyleAlignFlags operator~() const {
    return StyleAlignFlags { static_cast<decltype(bits)>(~bits) };
  }
  constexpr StyleAlignFlags operator|(const StyleAlignFlags& other) const {
    return StyleAlignFlags { static_cast<decltype(bits)>(this->bits | other.bits) };
  }
  StyleAlignFlags& operator|=(const StyleAlignFlags& other) {
    *this = (*this | other);
    return *this;
  }
  constexpr StyleAlignFlags operator&(const StyleAlignFlags& other) const {
    return StyleAlignFlags { static_cast<decltype(bits)>(this->bits & other.bits) };
  }
  StyleAlignFlags& operator&=(const StyleAlignFlags& other) {
    *this = (*this & other);
    return *this;
  }
  constexpr StyleAlignFlags operator^(const StyleAlignFlags& other) const {
    return StyleAlignFlags { static_cast<decltype(bits)>(this->bits ^ other.bits) };
  }
  StyleAlignFlags& operator^=(const StyleAlignFlags& other) {
    *this = (*this ^ other);
    return *this;
  }
  static const StyleAlignFlags AUTO;
  static const StyleAlignFlags NORMAL;
  static const StyleAlignFlags START;
  static const StyleAlignFlags END;
  static const StyleAlignFlags ALIAS;
  static const StyleAlignFlags FLEX_START;
  static const StyleAlignFlags MIXED;
  static const StyleAlignFlags MIXED_SELF;
#if defined(PLATFORM_WIN)
  static const StyleAlignFlags PLATFORM_BIT;
#endif
#if defined(PLATFORM_UNIX)
  static const StyleAlignFlags PLATFORM_BIT;
#endif
};
/// 'auto'
constexpr inline const StyleAlignFlags StyleAlignFlags::AUTO = StyleAlignFlags{
  /* .bits = */ (uint8_t)0
};
/// 'normal'
constexpr inline const StyleAlignFlags StyleAlignFlags::NORMAL = StyleAlignFlags{
  /* .bits = */ (uint8_t)1
};
/// 'start'
constexpr inline const StyleAlignFlags StyleAlignFlags::START = StyleAlignFlags{
  /* .bits = */ (uint8_t)(1 << 1)
};
/// 'end'
constexpr inline const StyleAlignFlags StyleAlignFlags::END = StyleAlignFlags{
  /* .bits = */ (uint8_t)(1 << 2)
};
constexpr inline const StyleAlignFlags StyleAlignFlags::ALIAS = StyleAlignFlags{
  /* .bits = */ (uint8_t)(StyleAlignFlags::END).bits
};
/// 'flex-start'
constexpr inline const StyleAlignFlags StyleAlignFlags::FLEX_START = StyleAlignFlags{
  /* .bits = */ (uint8_t)(1 << 3)
};
constexpr inline const StyleAlignFlags StyleAlignFlags::MIXED = StyleAlignFlags{
  /* .bits = */ (uint8_t)(((1 << 4) | (StyleAlignFlags::FLEX_START).bits) | (StyleAlignFlags::END).bits)
};
constexpr inline const StyleAlignFlags StyleAlignFlags::MIXED_SELF = StyleAlignFlags{
  /* .bits = */ (uint8_t)(((1 << 5) | (StyleAlignFlags::FLEX_START).bits) | (StyleAlignFlags::END).bits)
};
#if defined(PLATFORM_WIN)
constexpr inline const StyleAlignFlags StyleAlignFlags::PLATFORM_BIT = StyleAlignFlags{
  /* .bits = */ (uint8_t)(1 << 6)
};
#endif
#if defined(PLATFORM_UNIX)
constexpr inline const StyleAlignFlags StyleAlignFlags::PLATFORM_BIT = StyleAlignFlags{
  /* .bits = */ (uint8_t)(1 << 7)
};
#endif

/// An arbitrary identifier for a native (OS compositor) surface
struct StyleNativeSurfaceId {
  uint64_t _0;
  static const StyleNativeSurfaceId DEBUG_OVERLAY;
};
/// A special id for the native surface that is used for debug / profiler overlays.
constexpr inline const StyleNativeSurfaceId StyleNativeSurfaceId::DEBUG_OVERLAY = StyleNativeSurfaceId{
  /* ._0 = */ UINT64_MAX
};

struct StyleNativeTileId {
  StyleNativeSurfaceId surface_id;
  int32_t x;
  int32_t y;
  static const StyleNativeTileId DEBUG_OVERLAY;
};
/// A special id for the native surface that is used for debug / profiler overlays.
constexpr inline const StyleNativeTileId StyleNativeTileId::DEBUG_OVERLAY = StyleNativeTileId{
  /* .surface_id = */ StyleNativeSurfaceId::DEBUG_OVERLAY,
  /* .x = */ 0,
  /* .y = */ 0
};

extern ""C"" {

void root(StyleAlignFlags flags, StyleNativeTileId tile);

}  // extern ""C""
".
(** tests/expectations/associated_in_body.pyx *)
Definition associated_in_body_pyx : string := "#if 0
DEF PLATFORM_UNIX = 0
DEF PLATFORM_WIN = 0
#endif
#define PLATFORM_UNIX 1


from libc.stdint cimport int8_t, int16_t, int32_t, int64_t, intptr_t
from libc.stdint cimport uint8_t, uint16_t, uint32_t, uint64_t, uintptr_t
cdef extern from *:
  ctypedef bint bool
  ctypedef struct va_list

cdef extern from *:

  # Constants shared by multiple CSS Box Alignment properties
  #
  # These constants match Gecko's `NS_STYLE_ALIGN_*` constants.
  ctypedef struct StyleAlignFlags:
    uint8_t bits;
  # 'auto'
  const StyleAlignFlags StyleAlignFlags_AUTO # = <StyleAlignFlags>{ <uint8_t>0 }
  # 'normal'
  const StyleAlignFlags StyleAlignFlags_NORMAL # = <StyleAlignFlags>{ <uint8_t>1 }
  # 'start'
  const StyleAlignFlags StyleAlignFlags_START # = <StyleAlignFlags>{ <uint8_t>(1 << 1) }
  # 'end'
  const StyleAlignFlags StyleAlignFlags_END # = <StyleAlignFlags>{ <uint8_t>(1 << 2) }
  const StyleAlignFlags StyleAlignFlags_ALIAS # = <StyleAlignFlags>{ <uint8_t>(StyleAlignFlags_END).bits }
  # 'flex-start'
  const StyleAlignFlags StyleAlignFlags_FLEX_START # = <StyleAlignFlags>{ <uint8_t>(1 << 3) }
  const StyleAlignFlags StyleAlignFlags_MIXED # = <StyleAlignFlags>{ <uint8_t>(((1 << 4) | (StyleAlignFlags_FLEX_START).bits) | (StyleAlignFlags_END).bits) }
  const StyleAlignFlags StyleAlignFlags_MIXED_SELF # = <StyleAlignFlags>{ <uint8_t>(((1 << 5) | (StyleAlignFlags_FLEX_START).bits) | (StyleAlignFlags_END).bits) }
  IF PLATFORM_WIN:
    const StyleAlignFlags StyleAlignFlags_PLATFORM_BIT # = <StyleAlignFlags>{ <uint8_t>(1 << 6) }
  IF PLATFORM_UNIX:
    const StyleAlignFlags StyleAlignFlags_PLATFORM_BIT # = <StyleAlignFlags>{ <uint8_t>(1 << 7) }

  # An arbitrary identifier for a native (OS compositor) surface
  ctypedef struct StyleNativeSurfaceId:
    uint64_t _0;
  # A special id for the native surface that is used for debug / profiler overlays.
  const StyleNativeSurfaceId StyleNativeSurfaceId_DEBUG_OVERLAY # = <StyleNativeSurfaceId>{ UINT64_MAX }

  ctypedef struct StyleNativeTileId:
    StyleNativeSurfaceId surface_id;
    int32_t x;
    int32_t y;
  # A special id for the native surface that is used for debug / profiler overlays.
  const StyleNativeTileId StyleNativeTileId_DEBUG_OVERLAY # = <StyleNativeTileId>{ StyleNativeSurfaceId_DEBUG_OVERLAY, 0, 0 }

  void root(StyleAlignFlags flags, StyleNativeTileId tile);
".
(** tests/expectations/associated_in_body_tag.pyx *)
Definition associated_in_body_pyx_tag : string := "#if 0
DEF PLATFORM_UNIX = 0
DEF PLATFORM_WIN = 0
#endif
#define PLATFORM_UNIX 1


from libc.stdint cimport int8_t, int16_t, int32_t, int64_t, intptr_t
from libc.stdint cimport uint8_t, uint16_t, uint32_t, uint64_t, uintptr_t
cdef extern from *:
  ctypedef bint bool
  ctypedef struct va_list

cdef extern from *:

  # Constants shared by multiple CSS Box Alignment properties
  #
  # These constants match Gecko's `NS_STYLE_ALIGN_*` constants.
  cdef struct StyleAlignFlags:
    uint8_t bits;
  # 'auto'
  const StyleAlignFlags StyleAlignFlags_AUTO # = <StyleAlignFlags>{ <uint8_t>0 }
  # 'normal'
  const StyleAlignFlags StyleAlignFlags_NORMAL # = <StyleAlignFlags>{ <uint8_t>1 }
  # 'start'
  const StyleAlignFlags StyleAlignFlags_START # = <StyleAlignFlags>{ <uint8_t>(1 << 1) }
  # 'end'
  const StyleAlignFlags StyleAlignFlags_END # = <StyleAlignFlags>{ <uint8_t>(1 << 2) }
  const StyleAlignFlags StyleAlignFlags_ALIAS # = <StyleAlignFlags>{ <uint8_t>(StyleAlignFlags_END).bits }
  # 'flex-start'
  const StyleAlignFlags StyleAlignFlags_FLEX_START # = <StyleAlignFlags>{ <uint8_t>(1 << 3) }
  const StyleAlignFlags StyleAlignFlags_MIXED # = <StyleAlignFlags>{ <uint8_t>(((1 << 4) | (StyleAlignFlags_FLEX_START).bits) | (StyleAlignFlags_END).bits) }
  const StyleAlignFlags StyleAlignFlags_MIXED_SELF # = <StyleAlignFlags>{ <uint8_t>(((1 << 5) | (StyleAlignFlags_FLEX_START).bits) | (StyleAlignFlags_END).bits) }
  IF PLATFORM_WIN:
    const StyleAlignFlags StyleAlignFlags_PLATFORM_BIT # = <StyleAlignFlags>{ <uint8_t>(1 << 6) }
  IF PLATFORM_UNIX:
    const StyleAlignFlags StyleAlignFlags_PLATFORM_BIT # = <StyleAlignFlags>{ <uint8_t>(1 << 7) }

  # An arbitrary identifier for a native (OS compositor) surface
  cdef struct StyleNativeSurfaceId:
    uint64_t _0;
  # A special id for the native surface that is used for debug / profiler overlays.
  const StyleNativeSurfaceId StyleNativeSurfaceId_DEBUG_OVERLAY # = <StyleNativeSurfaceId>{ UINT64_MAX }

  cdef struct StyleNativeTileId:
    StyleNativeSurfaceId surface_id;
    int32_t x;
    int32_t y;
  # A special id for the native surface that is used for debug / profiler overlays.
  const StyleNativeTileId StyleNativeTileId_DEBUG_OVERLAY # = <StyleNativeTileId>{ StyleNativeSurfaceId_DEBUG_OVERLAY, 0, 0 }

  void root(StyleAlignFlags flags, StyleNativeTileId tile);
".
Example associated_in_body_reproduced : reproduces (in_file associated_in_body_rs) true associated_in_body_toml (Some "{
root;
};")
  [(RunC true Type_, [associated_in_body_compat]);
   (RunC true Tag, [associated_in_body_compat_tag]);
   (RunC true Both, [associated_in_body_compat_both]);
   (RunC false Type_, [associated_in_body_c]);
   (RunC false Tag, [associated_in_body_c_tag]);
   (RunC false Both, [associated_in_body_c_both]);
   (RunCxx, [associated_in_body_cpp]);
   (RunCython Type_, [associated_in_body_pyx]);
   (RunCython Tag, [associated_in_body_pyx_tag])] = true.
Proof. vm_compute. reflexivity. Qed.

