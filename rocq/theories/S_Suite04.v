(** See S_Suite.v; generated. *)
Require Import Coq.Strings.String Coq.Strings.Ascii Coq.Lists.List Coq.Bool.Bool Coq.NArith.NArith.
From Verif Require Import Base M_Config M_Cfg M_Type M_Ir M_Item M_Attr M_Syn M_Library M_Loader M_Parser M_Bindings M_Backend S_Heck S_Suite.
Import ListNotations.
Open Scope string_scope.

(** ** tests/rust/const_generics_constant.rs *)
Definition const_generics_constant_rs : list sitem := [
  (ItemStruct [{| at_meta := (AList (Some "repr") [(APath (Some "C"))]); at_outer := true |}] "FixedPoint" [(SGConst "FRACTION_BITS"
  (SPath (SegPath [] "u16" NoArgs)) None)] (FieldsNamed [{| sf_attrs := []; sf_ident := (Some "value"); sf_ty := (SPath (SegPath []
  "u16" NoArgs)) |}]));
  (ItemConst [] true "FONT_WEIGHT_FRACTION_BITS" (SPath (SegPath [] "u16" NoArgs)) (XLit (LitInt 6 "")));
  (ItemType [] "FontWeightFixedPoint" [] (SPath (SegPath [] "FixedPoint" (AngleArgs [(ArgType (SPath (SegPath [] "FONT_WEIGHT_FRACTION_BITS"
  NoArgs)))]))));
  (ItemStruct [{| at_meta := (AList (Some "repr") [(APath (Some "C"))]); at_outer := true |}] "FontWeight" [] (FieldsUnnamed [{| sf_attrs
  := []; sf_ident := None; sf_ty := (SPath (SegPath [] "FontWeightFixedPoint" NoArgs)) |}]));
  (ItemImpl [] (SPath (SegPath [] "FontWeight" NoArgs)) [(ImplConst [] true "NORMAL" (SPath (SegPath [] "FontWeight" NoArgs)) (XCall
  (XPath (SegPath [] "FontWeight" NoArgs)) [(XStruct (SegPath [] "FontWeightFixedPoint" NoArgs) [([], (Named "value"), (XBinary Shl
  (XLit (LitInt 400 "")) (XPath (SegPath [] "FONT_WEIGHT_FRACTION_BITS" NoArgs))))] None)]))]);
  (ItemFn [{| at_meta := (APath (Some "no_mangle")); at_outer := true |}] true {| sg_ident := "root"; sg_abi := (Some (Some "C")); sg_inputs
  := [(FnTyped (PatIdent "w") (SPath (SegPath [] "FontWeight" NoArgs)))]; sg_variadic := false; sg_output := None |})].
(** tests/expectations/const_generics_constant.compat.c *)
Definition const_generics_constant_compat : string := "#include <stdarg.h>
#include <stdbool.h>
#include <stdint.h>
#include <stdlib.h>

#define FONT_WEIGHT_FRACTION_BITS 6

typedef struct {
  uint16_t value;
} FixedPoint_FONT_WEIGHT_FRACTION_BITS;

typedef FixedPoint_FONT_WEIGHT_FRACTION_BITS FontWeightFixedPoint;

typedef struct {
  FontWeightFixedPoint _0;
} FontWeight;
#define FontWeight_NORMAL (FontWeight){ ._0 = (FontWeightFixedPoint){ .value = (400 << FONT_WEIGHT_FRACTION_BITS) } }

#ifdef __cplusplus
extern ""C"" {
#endif // __cplusplus

void root(FontWeight w);

#ifdef __cplusplus
}  // extern ""C""
#endif  // __cplusplus
".
(** tests/expectations/const_generics_constant_tag.compat.c *)
Definition const_generics_constant_compat_tag : string := "#include <stdarg.h>
#include <stdbool.h>
#include <stdint.h>
#include <stdlib.h>

#define FONT_WEIGHT_FRACTION_BITS 6

struct FixedPoint_FONT_WEIGHT_FRACTION_BITS {
  uint16_t value;
};

typedef struct FixedPoint_FONT_WEIGHT_FRACTION_BITS FontWeightFixedPoint;

struct FontWeight {
  FontWeightFixedPoint _0;
};
#define FontWeight_NORMAL (FontWeight){ ._0 = (FontWeightFixedPoint){ .value = (400 << FONT_WEIGHT_FRACTION_BITS) } }

#ifdef __cplusplus
extern ""C"" {
#endif // __cplusplus

void root(struct FontWeight w);

#ifdef __cplusplus
}  // extern ""C""
#endif  // __cplusplus
".
(** tests/expectations/const_generics_constant_both.compat.c *)
Definition const_generics_constant_compat_both : string := "#include <stdarg.h>
#include <stdbool.h>
#include <stdint.h>
#include <stdlib.h>

#define FONT_WEIGHT_FRACTION_BITS 6

typedef struct FixedPoint_FONT_WEIGHT_FRACTION_BITS {
  uint16_t value;
} FixedPoint_FONT_WEIGHT_FRACTION_BITS;

typedef struct FixedPoint_FONT_WEIGHT_FRACTION_BITS FontWeightFixedPoint;

typedef struct FontWeight {
  FontWeightFixedPoint _0;
} FontWeight;
#define FontWeight_NORMAL (FontWeight){ ._0 = (FontWeightFixedPoint){ .value = (400 << FONT_WEIGHT_FRACTION_BITS) } }

#ifdef __cplusplus
extern ""C"" {
#endif // __cplusplus

void root(struct FontWeight w);

#ifdef __cplusplus
}  // extern ""C""
#endif  // __cplusplus
".
(** tests/expectations/const_generics_constant.c *)
Definition const_generics_constant_c : string := "#include <stdarg.h>
#include <stdbool.h>
#include <stdint.h>
#include <stdlib.h>

#define FONT_WEIGHT_FRACTION_BITS 6

typedef struct {
  uint16_t value;
} FixedPoint_FONT_WEIGHT_FRACTION_BITS;

typedef FixedPoint_FONT_WEIGHT_FRACTION_BITS FontWeightFixedPoint;

typedef struct {
  FontWeightFixedPoint _0;
} FontWeight;
#define FontWeight_NORMAL (FontWeight){ ._0 = (FontWeightFixedPoint){ .value = (400 << FONT_WEIGHT_FRACTION_BITS) } }

void root(FontWeight w);
".
(** tests/expectations/const_generics_constant_tag.c *)
Definition const_generics_constant_c_tag : string := "#include <stdarg.h>
#include <stdbool.h>
#include <stdint.h>
#include <stdlib.h>

#define FONT_WEIGHT_FRACTION_BITS 6

struct FixedPoint_FONT_WEIGHT_FRACTION_BITS {
  uint16_t value;
};

typedef struct FixedPoint_FONT_WEIGHT_FRACTION_BITS FontWeightFixedPoint;

struct FontWeight {
  FontWeightFixedPoint _0;
};
#define FontWeight_NORMAL (FontWeight){ ._0 = (FontWeightFixedPoint){ .value = (400 << FONT_WEIGHT_FRACTION_BITS) } }

void root(struct FontWeight w);
".
(** tests/expectations/const_generics_constant_both.c *)
Definition const_generics_constant_c_both : string := "#include <stdarg.h>
#include <stdbool.h>
#include <stdint.h>
#include <stdlib.h>

#define FONT_WEIGHT_FRACTION_BITS 6

typedef struct FixedPoint_FONT_WEIGHT_FRACTION_BITS {
  uint16_t value;
} FixedPoint_FONT_WEIGHT_FRACTION_BITS;

typedef struct FixedPoint_FONT_WEIGHT_FRACTION_BITS FontWeightFixedPoint;

typedef struct FontWeight {
  FontWeightFixedPoint _0;
} FontWeight;
#define FontWeight_NORMAL (FontWeight){ ._0 = (FontWeightFixedPoint){ .value = (400 << FONT_WEIGHT_FRACTION_BITS) } }

void root(struct FontWeight w);
".
(** tests/expectations/const_generics_constant.cpp *)
Definition const_generics_constant_cpp : string := "#include <cstdarg>
#include <cstdint>
#include <cstdlib>
#include <ostream>
#include <new>

constexpr static const uint16_t FONT_WEIGHT_FRACTION_BITS = 6;

template<uint16_t FRACTION_BITS>
struct FixedPoint {
  uint16_t value;
};

using FontWeightFixedPoint = FixedPoint<FONT_WEIGHT_FRACTION_BITS>;

struct FontWeight {
  FontWeightFixedPoint _0;
};
constexpr static const FontWeight FontWeight_NORMAL = FontWeight{
  /* ._0 = */ FontWeightFixedPoint{
    /* .value = */ (400 << FONT_WEIGHT_FRACTION_BITS)
  }
};

extern ""C"" {

void root(FontWeight w);

}  // extern ""C""
".
(** tests/expectations/const_generics_constant.pyx *)
Definition const_generics_constant_pyx : string := "from libc.stdint cimport int8_t, int16_t, int32_t, int64_t, intptr_t
from libc.stdint cimport uint8_t, uint16_t, uint32_t, uint64_t, uintptr_t
cdef extern from *:
  ctypedef bint bool
  ctypedef struct va_list

cdef extern from *:

  const uint16_t FONT_WEIGHT_FRACTION_BITS # = 6

  ctypedef struct FixedPoint_FONT_WEIGHT_FRACTION_BITS:
    uint16_t value;

  ctypedef FixedPoint_FONT_WEIGHT_FRACTION_BITS FontWeightFixedPoint;

  ctypedef struct FontWeight:
    FontWeightFixedPoint _0;
  const FontWeight FontWeight_NORMAL # = <FontWeight>{ <FontWeightFixedPoint>{ (400 << FONT_WEIGHT_FRACTION_BITS) } }

  void root(FontWeight w);
".
(** tests/expectations/const_generics_constant_tag.pyx *)
Definition const_generics_constant_pyx_tag : string := "from libc.stdint cimport int8_t, int16_t, int32_t, int64_t, intptr_t
from libc.stdint cimport uint8_t, uint16_t, uint32_t, uint64_t, uintptr_t
cdef extern from *:
  ctypedef bint bool
  ctypedef struct va_list

cdef extern from *:

  const uint16_t FONT_WEIGHT_FRACTION_BITS # = 6

  cdef struct FixedPoint_FONT_WEIGHT_FRACTION_BITS:
    uint16_t value;

  ctypedef FixedPoint_FONT_WEIGHT_FRACTION_BITS FontWeightFixedPoint;

  cdef struct FontWeight:
    FontWeightFixedPoint _0;
  const FontWeight FontWeight_NORMAL # = <FontWeight>{ <FontWeightFixedPoint>{ (400 << FONT_WEIGHT_FRACTION_BITS) } }

  void root(FontWeight w);
".
Example const_generics_constant_reproduced : reproduces (in_file const_generics_constant_rs) false default_config (Some "{
root;
};")
  [(RunC true Type_, [const_generics_constant_compat]);
   (RunC true Tag, [const_generics_constant_compat_tag]);
   (RunC true Both, [const_generics_constant_compat_both]);
   (RunC false Type_, [const_generics_constant_c]);
   (RunC false Tag, [const_generics_constant_c_tag]);
   (RunC false Both, [const_generics_constant_c_both]);
   (RunCxx, [const_generics_constant_cpp]);
   (RunCython Type_, [const_generics_constant_pyx]);
   (RunCython Tag, [const_generics_constant_pyx_tag])] = true.
Proof. vm_compute. reflexivity. Qed.

(** ** tests/rust/const_generics_thru.rs *)
Definition const_generics_thru_rs : list sitem := [
  (ItemStruct [{| at_meta := (AList (Some "repr") [(APath (Some "C"))]); at_outer := true |}] "Inner" [(SGConst "N" (SPath (SegPath
  [] "usize" NoArgs)) None)] (FieldsNamed [{| sf_attrs := []; sf_ident := (Some "bytes"); sf_ty := (SArray (SPath (SegPath [] "u8"
  NoArgs)) (XPath (SegPath [] "N" NoArgs))) |}]));
  (ItemStruct [{| at_meta := (AList (Some "repr") [(APath (Some "C"))]); at_outer := true |}] "Outer" [(SGConst "N" (SPath (SegPath
  [] "usize" NoArgs)) None)] (FieldsNamed [{| sf_attrs := []; sf_ident := (Some "inner"); sf_ty := (SPath (SegPath [] "Inner" (AngleArgs
  [(ArgType (SPath (SegPath [] "N" NoArgs)))]))) |}]));
  (ItemFn [{| at_meta := (APath (Some "no_mangle")); at_outer := true |}] true {| sg_ident := "one"; sg_abi := (Some (Some "C")); sg_inputs
  := []; sg_variadic := false; sg_output := (Some (SPath (SegPath [] "Outer" (AngleArgs [(ArgConst (XLit (LitInt 1 "")))])))) |});
  (ItemFn [{| at_meta := (APath (Some "no_mangle")); at_outer := true |}] true {| sg_ident := "two"; sg_abi := (Some (Some "C")); sg_inputs
  := []; sg_variadic := false; sg_output := (Some (SPath (SegPath [] "Outer" (AngleArgs [(ArgConst (XLit (LitInt 2 "")))])))) |})].
(** tests/expectations/const_generics_thru.compat.c *)
Definition const_generics_thru_compat : string := "#include <stdarg.h>
#include <stdbool.h>
#include <stdint.h>
#include <stdlib.h>

typedef struct {
  uint8_t bytes[1];
} Inner_1;

typedef struct {
  Inner_1 inner;
} Outer_1;

typedef struct {
  uint8_t bytes[2];
} Inner_2;

typedef struct {
  Inner_2 inner;
} Outer_2;

#ifdef __cplusplus
extern ""C"" {
#endif // __cplusplus

Outer_1 one(void);

Outer_2 two(void);

#ifdef __cplusplus
}  // extern ""C""
#endif  // __cplusplus
".
(** tests/expectations/const_generics_thru_tag.compat.c *)
Definition const_generics_thru_compat_tag : string := "#include <stdarg.h>
#include <stdbool.h>
#include <stdint.h>
#include <stdlib.h>

struct Inner_1 {
  uint8_t bytes[1];
};

struct Outer_1 {
  struct Inner_1 inner;
};

struct Inner_2 {
  uint8_t bytes[2];
};

struct Outer_2 {
  struct Inner_2 inner;
};

#ifdef __cplusplus
extern ""C"" {
#endif // __cplusplus

struct Outer_1 one(void);

struct Outer_2 two(void);

#ifdef __cplusplus
}  // extern ""C""
#endif  // __cplusplus
".
(** tests/expectations/const_generics_thru_both.compat.c *)
Definition const_generics_thru_compat_both : string := "#include <stdarg.h>
#include <stdbool.h>
#include <stdint.h>
#include <stdlib.h>

typedef struct Inner_1 {
  uint8_t bytes[1];
} Inner_1;

typedef struct Outer_1 {
  struct Inner_1 inner;
} Outer_1;

typedef struct Inner_2 {
  uint8_t bytes[2];
} Inner_2;

typedef struct Outer_2 {
  struct Inner_2 inner;
} Outer_2;

#ifdef __cplusplus
extern ""C"" {
#endif // __cplusplus

struct Outer_1 one(void);

struct Outer_2 two(void);

#ifdef __cplusplus
}  // extern ""C""
#endif  // __cplusplus
".
(** tests/expectations/const_generics_thru.c *)
Definition const_generics_thru_c : string := "#include <stdarg.h>
#include <stdbool.h>
#include <stdint.h>
#include <stdlib.h>

typedef struct {
  uint8_t bytes[1];
} Inner_1;

typedef struct {
  Inner_1 inner;
} Outer_1;

typedef struct {
  uint8_t bytes[2];
} Inner_2;

typedef struct {
  Inner_2 inner;
} Outer_2;

Outer_1 one(void);

Outer_2 two(void);
".
(** tests/expectations/const_generics_thru_tag.c *)
Definition const_generics_thru_c_tag : string := "#include <stdarg.h>
#include <stdbool.h>
#include <stdint.h>
#include <stdlib.h>

struct Inner_1 {
  uint8_t bytes[1];
};

struct Outer_1 {
  struct Inner_1 inner;
};

struct Inner_2 {
  uint8_t bytes[2];
};

struct Outer_2 {
  struct Inner_2 inner;
};

struct Outer_1 one(void);

struct Outer_2 two(void);
".
(** tests/expectations/const_generics_thru_both.c *)
Definition const_generics_thru_c_both : string := "#include <stdarg.h>
#include <stdbool.h>
#include <stdint.h>
#include <stdlib.h>

typedef struct Inner_1 {
  uint8_t bytes[1];
} Inner_1;

typedef struct Outer_1 {
  struct Inner_1 inner;
} Outer_1;

typedef struct Inner_2 {
  uint8_t bytes[2];
} Inner_2;

typedef struct Outer_2 {
  struct Inner_2 inner;
} Outer_2;

struct Outer_1 one(void);

struct Outer_2 two(void);
".
(** tests/expectations/const_generics_thru.cpp *)
Definition const_generics_thru_cpp : string := "#include <cstdarg>
#include <cstdint>
#include <cstdlib>
#include <ostream>
#include <new>

template<uintptr_t N>
struct Inner {
  uint8_t bytes[N];
};

template<uintptr_t N>
struct Outer {
  Inner<N> inner;
};

extern ""C"" {

Outer<1> one();

Outer<2> two();

}  // extern ""C""
".
(** tests/expectations/const_generics_thru.pyx *)
Definition const_generics_thru_pyx : string := "from libc.stdint cimport int8_t, int16_t, int32_t, int64_t, intptr_t
from libc.stdint cimport uint8_t, uint16_t, uint32_t, uint64_t, uintptr_t
cdef extern from *:
  ctypedef bint bool
  ctypedef struct va_list

cdef extern from *:

  ctypedef struct Inner_1:
    uint8_t bytes[1];

  ctypedef struct Outer_1:
    Inner_1 inner;

  ctypedef struct Inner_2:
    uint8_t bytes[2];

  ctypedef struct Outer_2:
    Inner_2 inner;

  Outer_1 one();

  Outer_2 two();
".
(** tests/expectations/const_generics_thru_tag.pyx *)
Definition const_generics_thru_pyx_tag : string := "from libc.stdint cimport int8_t, int16_t, int32_t, int64_t, intptr_t
from libc.stdint cimport uint8_t, uint16_t, uint32_t, uint64_t, uintptr_t
cdef extern from *:
  ctypedef bint bool
  ctypedef struct va_list

cdef extern from *:

  cdef struct Inner_1:
    uint8_t bytes[1];

  cdef struct Outer_1:
    Inner_1 inner;

  cdef struct Inner_2:
    uint8_t bytes[2];

  cdef struct Outer_2:
    Inner_2 inner;

  Outer_1 one();

  Outer_2 two();
".
Example const_generics_thru_reproduced : reproduces (in_file const_generics_thru_rs) false default_config (Some "{
one;
two;
};")
  [(RunC true Type_, [const_generics_thru_compat]);
   (RunC true Tag, [const_generics_thru_compat_tag]);
   (RunC true Both, [const_generics_thru_compat_both]);
   (RunC false Type_, [const_generics_thru_c]);
   (RunC false Tag, [const_generics_thru_c_tag]);
   (RunC false Both, [const_generics_thru_c_both]);
   (RunCxx, [const_generics_thru_cpp]);
   (RunCython Type_, [const_generics_thru_pyx]);
   (RunCython Tag, [const_generics_thru_pyx_tag])] = true.
Proof. vm_compute. reflexivity. Qed.

(** ** tests/rust/const_transparent.rs *)
Definition const_transparent_rs : list sitem := [
  (ItemStruct [{| at_meta := (AList (Some "repr") [(APath (Some "transparent"))]); at_outer := true |}] "TransparentStruct" [] (FieldsNamed
  [{| sf_attrs := []; sf_ident := (Some "field"); sf_ty := (SPath (SegPath [] "u8" NoArgs)) |}]));
  (ItemImpl [] (SPath (SegPath [] "TransparentStruct" NoArgs)) [(ImplConst [] true "ASSOC_STRUCT_FOO" (SPath (SegPath [] "i64" NoArgs))
  (XLit (LitInt 1 ""))); (ImplConst [] true "ASSOC_STRUCT_BAR" (SPath (SegPath [] "TransparentStruct" NoArgs)) (XStruct (SegPath []
  "TransparentStruct" NoArgs) [([], (Named "field"), (XLit (LitInt 2 "")))] None)); (ImplConst [] true "ASSOC_STRUCT_BAZ" (SPath (SegPath
  [] "Wrapper" (AngleArgs [(ArgType (SPath (SegPath [] "TransparentStruct" NoArgs)))]))) (XStruct (SegPath [] "Wrapper" NoArgs) [([],
  (Named "field"), (XStruct (SegPath [] "TransparentStruct" NoArgs) [([], (Named "field"), (XLit (LitInt 3 "")))] None))] None))]);
  (ItemStruct [{| at_meta := (AList (Some "repr") [(APath (Some "transparent"))]); at_outer := true |}] "TransparentTupleStruct" []
  (FieldsUnnamed [{| sf_attrs := []; sf_ident := None; sf_ty := (SPath (SegPath [] "u8" NoArgs)) |}]));
  (ItemStruct [{| at_meta := (AList (Some "repr") [(APath (Some "transparent"))]); at_outer := true |}] "Wrapper" [(SGType "T" None)]
  (FieldsNamed [{| sf_attrs := []; sf_ident := (Some "field"); sf_ty := (SPath (SegPath [] "T" NoArgs)) |}]));
  (ItemConst [] true "STRUCT_FOO" (SPath (SegPath [] "TransparentStruct" NoArgs)) (XStruct (SegPath [] "TransparentStruct" NoArgs) [([],
  (Named "field"), (XLit (LitInt 4 "")))] None));
  (ItemConst [] true "STRUCT_BAR" (SPath (SegPath [] "TransparentTupleStruct" NoArgs)) (XCall (XPath (SegPath [] "TransparentTupleStruct"
  NoArgs)) [(XLit (LitInt 5 ""))]));
  (ItemConst [] true "STRUCT_BAZ" (SPath (SegPath [] "Wrapper" (AngleArgs [(ArgType (SPath (SegPath [] "TransparentStruct" NoArgs)))])))
  (XStruct (SegPath [] "Wrapper" NoArgs) [([], (Named "field"), (XStruct (SegPath [] "TransparentStruct" NoArgs) [([], (Named "field"),
  (XLit (LitInt 6 "")))] None))] None));
  (ItemStruct [{| at_meta := (AList (Some "repr") [(APath (Some "transparent"))]); at_outer := true |}] "TransparentStructWithErasedField"
  [(SGType "T" None)] (FieldsNamed [{| sf_attrs := []; sf_ident := (Some "field"); sf_ty := (SPath (SegPath [] "Wrapper" (AngleArgs
  [(ArgType (SPath (SegPath [] "T" NoArgs)))]))) |}]));
  (ItemConst [] true "COMPLEX" (SPath (SegPath [] "TransparentStructWithErasedField" (AngleArgs [(ArgType (SPath (SegPath [] "TransparentStruct"
  NoArgs)))]))) (XStruct (SegPath [] "TransparentStructWithErasedField" NoArgs) [([], (Named "field"), (XStruct (SegPath [] "Wrapper"
  NoArgs) [([], (Named "field"), (XStruct (SegPath [] "TransparentStruct" NoArgs) [([], (Named "field"), (XLit (LitInt 7 "")))] None))]
  None))] None))].
(** tests/expectations/const_transparent.compat.c *)
Definition const_transparent_compat : string := "#include <stdarg.h>
#include <stdbool.h>
#include <stdint.h>
#include <stdlib.h>

typedef uint8_t TransparentStruct;
#define TransparentStruct_ASSOC_STRUCT_FOO 1
#define TransparentStruct_ASSOC_STRUCT_BAR 2


typedef uint8_t TransparentTupleStruct;

#define STRUCT_FOO 4

#define STRUCT_BAR 5




".
(** tests/expectations/const_transparent.cpp *)
Definition const_transparent_cpp : string := "#include <cstdarg>
#include <cstdint>
#include <cstdlib>
#include <ostream>
#include <new>

template<typename T>
using Wrapper = T;

using TransparentStruct = uint8_t;
constexpr static const int64_t TransparentStruct_ASSOC_STRUCT_FOO = 1;
constexpr static const TransparentStruct TransparentStruct_ASSOC_STRUCT_BAR = 2;
constexpr static const Wrapper<TransparentStruct> TransparentStruct_ASSOC_STRUCT_BAZ = 3;

using TransparentTupleStruct = uint8_t;

template<typename T>
using TransparentStructWithErasedField = Wrapper<T>;

constexpr static const TransparentStruct STRUCT_FOO = 4;

constexpr static const TransparentTupleStruct STRUCT_BAR = 5;

constexpr static const Wrapper<TransparentStruct> STRUCT_BAZ = 6;

constexpr static const TransparentStructWithErasedField<TransparentStruct> COMPLEX = 7;
".
(** tests/expectations/const_transparent.pyx *)
Definition const_transparent_pyx : string := "from libc.stdint cimport int8_t, int16_t, int32_t, int64_t, intptr_t
from libc.stdint cimport uint8_t, uint16_t, uint32_t, uint64_t, uintptr_t
cdef extern from *:
  ctypedef bint bool
  ctypedef struct va_list

cdef extern from *:

  ctypedef uint8_t TransparentStruct;
  const int64_t TransparentStruct_ASSOC_STRUCT_FOO # = 1
  const TransparentStruct TransparentStruct_ASSOC_STRUCT_BAR # = 2


  ctypedef uint8_t TransparentTupleStruct;

  const TransparentStruct STRUCT_FOO # = 4

  const TransparentTupleStruct STRUCT_BAR # = 5




".
Example const_transparent_reproduced : reproduces (in_file const_transparent_rs) false default_config None
  [(RunC true Type_, [const_transparent_compat]);
   (RunC true Tag, [const_transparent_compat]);
   (RunC true Both, [const_transparent_compat]);
   (RunC false Type_, [const_transparent_compat]);
   (RunC false Tag, [const_transparent_compat]);
   (RunC false Both, [const_transparent_compat]);
   (RunCxx, [const_transparent_cpp]);
   (RunCython Type_, [const_transparent_pyx]);
   (RunCython Tag, [const_transparent_pyx])] = true.
Proof. vm_compute. reflexivity. Qed.

(** ** tests/rust/constant.rs *)
Definition constant_rs : list sitem := [
  (ItemConst [] true "FOO" (SPath (SegPath [] "i32" NoArgs)) (XLit (LitInt 10 "")));
  (ItemConst [] true "BAR" (SRef false (SPath (SegPath [] "str" NoArgs))) (XLit LitOther));
  (ItemConst [] true "DELIMITER" (SPath (SegPath [] "char" NoArgs)) (XLit (LitChar 58)));
  (ItemConst [] true "LEFTCURLY" (SPath (SegPath [] "char" NoArgs)) (XLit (LitChar 123)));
  (ItemConst [] true "QUOTE" (SPath (SegPath [] "char" NoArgs)) (XLit (LitChar 39)));
  (ItemConst [] true "TAB" (SPath (SegPath [] "char" NoArgs)) (XLit (LitChar 9)));
  (ItemConst [] true "NEWLINE" (SPath (SegPath [] "char" NoArgs)) (XLit (LitChar 10)));
  (ItemConst [] true "HEART" (SPath (SegPath [] "char" NoArgs)) (XLit (LitChar 10084)));
  (ItemConst [] true "EQUID" (SPath (SegPath [] "char" NoArgs)) (XLit (LitChar 65667)));
  (ItemConst [] true "ZOM" (SPath (SegPath [] "f32" NoArgs)) (XLit (LitFloat "3.14")));
  (ItemConst [] false "DONT_EXPORT_CRATE" (SPath (SegPath [] "i32" NoArgs)) (XLit (LitInt 20 "")));
  (ItemConst [] false "DONT_EXPORT_PRIV" (SPath (SegPath [] "i32" NoArgs)) (XLit (LitInt 30 "")));
  (ItemConst [{| at_meta := ANameValue (Some "doc") (Some " A single-line doc comment."); at_outer := true |}] true "POS_ONE" (SPath
  (SegPath [] "i8" NoArgs)) (XLit (LitInt 1 "")));
  (ItemConst [{| at_meta := ANameValue (Some "doc") (Some " A"); at_outer := true |}; {| at_meta := ANameValue (Some "doc") (Some " multi-line");
  at_outer := true |}; {| at_meta := ANameValue (Some "doc") (Some " doc"); at_outer := true |}; {| at_meta := ANameValue (Some "doc")
  (Some " comment."); at_outer := true |}] true "NEG_ONE" (SPath (SegPath [] "i8" NoArgs)) (XUnary Neg (XLit (LitInt 1 ""))));
  (ItemConst [] true "SHIFT" (SPath (SegPath [] "i64" NoArgs)) (XLit (LitInt 3 "")));
  (ItemConst [] true "XBOOL" (SPath (SegPath [] "i64" NoArgs)) (XLit (LitInt 1 "")));
  (ItemConst [] true "XFALSE" (SPath (SegPath [] "i64" NoArgs)) (XBinary BitOr (XParen (XBinary Shl (XLit (LitInt 0 "")) (XPath (SegPath
  [] "SHIFT" NoArgs)))) (XPath (SegPath [] "XBOOL" NoArgs))));
  (ItemConst [] true "XTRUE" (SPath (SegPath [] "i64" NoArgs)) (XBinary Shl (XLit (LitInt 1 "")) (XParen (XBinary BitOr (XPath (SegPath
  [] "SHIFT" NoArgs)) (XPath (SegPath [] "XBOOL" NoArgs))))));
  (ItemConst [] true "CAST" (SPath (SegPath [] "u8" NoArgs)) (XCast (XLit (LitChar 65)) (SPath (SegPath [] "u8" NoArgs))));
  (ItemConst [] true "DOUBLE_CAST" (SPath (SegPath [] "u32" NoArgs)) (XCast (XCast (XLit (LitInt 1 "")) (SPath (SegPath [] "f32" NoArgs)))
  (SPath (SegPath [] "u32" NoArgs))));
  (ItemStruct [{| at_meta := (AList (Some "repr") [(APath (Some "C"))]); at_outer := true |}] "Foo" [] (FieldsNamed [{| sf_attrs :=
  []; sf_ident := (Some "x"); sf_ty := (SArray (SPath (SegPath [] "i32" NoArgs)) (XPath (SegPath [] "FOO" NoArgs))) |}]));
  (ItemFn [{| at_meta := (APath (Some "no_mangle")); at_outer := true |}] true {| sg_ident := "root"; sg_abi := (Some (Some "C")); sg_inputs
  := [(FnTyped (PatIdent "x") (SPath (SegPath [] "Foo" NoArgs)))]; sg_variadic := false; sg_output := None |})].
(** tests/expectations/constant.compat.c *)
Definition constant_compat : string := "#include <stdarg.h>
#include <stdbool.h>
#include <stdint.h>
#include <stdlib.h>

#define FOO 10

#define DELIMITER ':'

#define LEFTCURLY '{'

#define QUOTE '\''

#define TAB '\t'

#define NEWLINE '\n'

#define HEART U'\U00002764'

#define EQUID U'\U00010083'

#define ZOM 3.14

/**
 * A single-line doc comment.
 */
#define POS_ONE 1

/**
 * A
 * multi-line
 * doc
 * comment.
 */
#define NEG_ONE -1

#define SHIFT 3

#define XBOOL 1

#define XFALSE ((0 << SHIFT) | XBOOL)

#define XTRUE (1 << (SHIFT | XBOOL))

#define CAST (uint8_t)'A'

#define DOUBLE_CAST (uint32_t)(float)1

typedef struct {
  int32_t x[FOO];
} Foo;

#ifdef __cplusplus
extern ""C"" {
#endif // __cplusplus

void root(Foo x);

#ifdef __cplusplus
}  // extern ""C""
#endif  // __cplusplus
".
(** tests/expectations/constant_tag.compat.c *)
Definition constant_compat_tag : string := "#include <stdarg.h>
#include <stdbool.h>
#include <stdint.h>
#include <stdlib.h>

#define FOO 10

#define DELIMITER ':'

#define LEFTCURLY '{'

#define QUOTE '\''

#define TAB '\t'

#define NEWLINE '\n'

#define HEART U'\U00002764'

#define EQUID U'\U00010083'

#define ZOM 3.14

/**
 * A single-line doc comment.
 */
#define POS_ONE 1

/**
 * A
 * multi-line
 * doc
 * comment.
 */
#define NEG_ONE -1

#define SHIFT 3

#define XBOOL 1

#define XFALSE ((0 << SHIFT) | XBOOL)

#define XTRUE (1 << (SHIFT | XBOOL))

#define CAST (uint8_t)'A'

#define DOUBLE_CAST (uint32_t)(float)1

struct Foo {
  int32_t x[FOO];
};

#ifdef __cplusplus
extern ""C"" {
#endif // __cplusplus

void root(struct Foo x);

#ifdef __cplusplus
}  // extern ""C""
#endif  // __cplusplus
".
(** tests/expectations/constant_both.compat.c *)
Definition constant_compat_both : string := "#include <stdarg.h>
#include <stdbool.h>
#include <stdint.h>
#include <stdlib.h>

#define FOO 10

#define DELIMITER ':'

#define LEFTCURLY '{'

#define QUOTE '\''

#define TAB '\t'

#define NEWLINE '\n'

#define HEART U'\U00002764'

#define EQUID U'\U00010083'

#define ZOM 3.14

/**
 * A single-line doc comment.
 */
#define POS_ONE 1

/**
 * A
 * multi-line
 * doc
 * comment.
 */
#define NEG_ONE -1

#define SHIFT 3

#define XBOOL 1

#define XFALSE ((0 << SHIFT) | XBOOL)

#define XTRUE (1 << (SHIFT | XBOOL))

#define CAST (uint8_t)'A'

#define DOUBLE_CAST (uint32_t)(float)1

typedef struct Foo {
  int32_t x[FOO];
} Foo;

#ifdef __cplusplus
extern ""C"" {
#endif // __cplusplus

void root(struct Foo x);

#ifdef __cplusplus
}  // extern ""C""
#endif  // __cplusplus
".
(** tests/expectations/constant.c *)
Definition constant_c : string := "#include <stdarg.h>
#include <stdbool.h>
#include <stdint.h>
#include <stdlib.h>

#define FOO 10

#define DELIMITER ':'

#define LEFTCURLY '{'

#define QUOTE '\''

#define TAB '\t'

#define NEWLINE '\n'

#define HEART U'\U00002764'

#define EQUID U'\U00010083'

#define ZOM 3.14

/**
 * A single-line doc comment.
 */
#define POS_ONE 1

/**
 * A
 * multi-line
 * doc
 * comment.
 */
#define NEG_ONE -1

#define SHIFT 3

#define XBOOL 1

#define XFALSE ((0 << SHIFT) | XBOOL)

#define XTRUE (1 << (SHIFT | XBOOL))

#define CAST (uint8_t)'A'

#define DOUBLE_CAST (uint32_t)(float)1

typedef struct {
  int32_t x[FOO];
} Foo;

void root(Foo x);
".
(** tests/expectations/constant_tag.c *)
Definition constant_c_tag : string := "#include <stdarg.h>
#include <stdbool.h>
#include <stdint.h>
#include <stdlib.h>

#define FOO 10

#define DELIMITER ':'

#define LEFTCURLY '{'

#define QUOTE '\''

#define TAB '\t'

#define NEWLINE '\n'

#define HEART U'\U00002764'

#define EQUID U'\U00010083'

#define ZOM 3.14

/**
 * A single-line doc comment.
 */
#define POS_ONE 1

/**
 * A
 * multi-line
 * doc
 * comment.
 */
#define NEG_ONE -1

#define SHIFT 3

#define XBOOL 1

#define XFALSE ((0 << SHIFT) | XBOOL)

#define XTRUE (1 << (SHIFT | XBOOL))

#define CAST (uint8_t)'A'

#define DOUBLE_CAST (uint32_t)(float)1

struct Foo {
  int32_t x[FOO];
};

void root(struct Foo x);
".
(** tests/expectations/constant_both.c *)
Definition constant_c_both : string := "#include <stdarg.h>
#include <stdbool.h>
#include <stdint.h>
#include <stdlib.h>

#define FOO 10

#define DELIMITER ':'

#define LEFTCURLY '{'

#define QUOTE '\''

#define TAB '\t'

#define NEWLINE '\n'

#define HEART U'\U00002764'

#define EQUID U'\U00010083'

#define ZOM 3.14

/**
 * A single-line doc comment.
 */
#define POS_ONE 1

/**
 * A
 * multi-line
 * doc
 * comment.
 */
#define NEG_ONE -1

#define SHIFT 3

#define XBOOL 1

#define XFALSE ((0 << SHIFT) | XBOOL)

#define XTRUE (1 << (SHIFT | XBOOL))

#define CAST (uint8_t)'A'

#define DOUBLE_CAST (uint32_t)(float)1

typedef struct Foo {
  int32_t x[FOO];
} Foo;

void root(struct Foo x);
".
(** tests/expectations/constant.cpp *)
Definition constant_cpp : string := "#include <cstdarg>
#include <cstdint>
#include <cstdlib>
#include <ostream>
#include <new>

constexpr static const int32_t FOO = 10;

constexpr static const uint32_t DELIMITER = ':';

constexpr static const uint32_t LEFTCURLY = '{';

constexpr static const uint32_t QUOTE = '\'';

constexpr static const uint32_t TAB = '\t';

constexpr static const uint32_t NEWLINE = '\n';

constexpr static const uint32_t HEART = U'\U00002764';

constexpr static const uint32_t EQUID = U'\U00010083';

constexpr static const float ZOM = 3.14;

/// A single-line doc comment.
constexpr static const int8_t POS_ONE = 1;

/// A
/// multi-line
/// doc
/// comment.
constexpr static const int8_t NEG_ONE = -1;

constexpr static const int64_t SHIFT = 3;

constexpr static const int64_t XBOOL = 1;

constexpr static const int64_t XFALSE = ((0 << SHIFT) | XBOOL);

constexpr static const int64_t XTRUE = (1 << (SHIFT | XBOOL));

constexpr static const uint8_t CAST = (uint8_t)'A';

constexpr static const uint32_t DOUBLE_CAST = (uint32_t)(float)1;

struct Foo {
  int32_t x[FOO];
};

extern ""C"" {

void root(Foo x);

}  // extern ""C""
".
(** tests/expectations/constant.pyx *)
Definition constant_pyx : string := "from libc.stdint cimport int8_t, int16_t, int32_t, int64_t, intptr_t
from libc.stdint cimport uint8_t, uint16_t, uint32_t, uint64_t, uintptr_t
cdef extern from *:
  ctypedef bint bool
  ctypedef struct va_list

cdef extern from *:

  const int32_t FOO # = 10

  const uint32_t DELIMITER # = ':'

  const uint32_t LEFTCURLY # = '{'

  const uint32_t QUOTE # = '\''

  const uint32_t TAB # = '\t'

  const uint32_t NEWLINE # = '\n'

  const uint32_t HEART # = U'\U00002764'

  const uint32_t EQUID # = U'\U00010083'

  const float ZOM # = 3.14

  # A single-line doc comment.
  const int8_t POS_ONE # = 1

  # A
  # multi-line
  # doc
  # comment.
  const int8_t NEG_ONE # = -1

  const int64_t SHIFT # = 3

  const int64_t XBOOL # = 1

  const int64_t XFALSE # = ((0 << SHIFT) | XBOOL)

  const int64_t XTRUE # = (1 << (SHIFT | XBOOL))

  const uint8_t CAST # = <uint8_t>'A'

  const uint32_t DOUBLE_CAST # = <uint32_t><float>1

  ctypedef struct Foo:
    int32_t x[FOO];

  void root(Foo x);
".
(** tests/expectations/constant_tag.pyx *)
Definition constant_pyx_tag : string := "from libc.stdint cimport int8_t, int16_t, int32_t, int64_t, intptr_t
from libc.stdint cimport uint8_t, uint16_t, uint32_t, uint64_t, uintptr_t
cdef extern from *:
  ctypedef bint bool
  ctypedef struct va_list

cdef extern from *:

  const int32_t FOO # = 10

  const uint32_t DELIMITER # = ':'

  const uint32_t LEFTCURLY # = '{'

  const uint32_t QUOTE # = '\''

  const uint32_t TAB # = '\t'

  const uint32_t NEWLINE # = '\n'

  const uint32_t HEART # = U'\U00002764'

  const uint32_t EQUID # = U'\U00010083'

  const float ZOM # = 3.14

  # A single-line doc comment.
  const int8_t POS_ONE # = 1

  # A
  # multi-line
  # doc
  # comment.
  const int8_t NEG_ONE # = -1

  const int64_t SHIFT # = 3

  const int64_t XBOOL # = 1

  const int64_t XFALSE # = ((0 << SHIFT) | XBOOL)

  const int64_t XTRUE # = (1 << (SHIFT | XBOOL))

  const uint8_t CAST # = <uint8_t>'A'

  const uint32_t DOUBLE_CAST # = <uint32_t><float>1

  cdef struct Foo:
    int32_t x[FOO];

  void root(Foo x);
".
Example constant_reproduced : reproduces (in_file constant_rs) false default_config (Some "{
root;
};")
  [(RunC true Type_, [constant_compat]);
   (RunC true Tag, [constant_compat_tag]);
   (RunC true Both, [constant_compat_both]);
   (RunC false Type_, [constant_c]);
   (RunC false Tag, [constant_c_tag]);
   (RunC false Both, [constant_c_both]);
   (RunCxx, [constant_cpp]);
   (RunCython Type_, [constant_pyx]);
   (RunCython Tag, [constant_pyx_tag])] = true.
Proof. vm_compute. reflexivity. Qed.

(** ** tests/rust/constant_big.rs *)
Definition constant_big_rs : list sitem := [
  (ItemConst [] true "UNSIGNED_NEEDS_ULL_SUFFIX" (SPath (SegPath [] "u64" NoArgs)) (XLit (LitInt 9223372036854775808 "")));
  (ItemConst [] true "UNSIGNED_DOESNT_NEED_ULL_SUFFIX" (SPath (SegPath [] "u64" NoArgs)) (XLit (LitInt 8070450532247928832 "")));
  (ItemConst [] true "SIGNED_NEEDS_ULL_SUFFIX" (SPath (SegPath [] "i64" NoArgs)) (XUnary Neg (XLit (LitInt 9223372036854775808 ""))));
  (ItemConst [] true "SIGNED_DOESNT_NEED_ULL_SUFFIX" (SPath (SegPath [] "i64" NoArgs)) (XUnary Neg (XLit (LitInt 9223372036854775807
  ""))))].
(** tests/expectations/constant_big.compat.c *)
Definition constant_big_compat : string := "#include <stdarg.h>
#include <stdbool.h>
#include <stdint.h>
#include <stdlib.h>

#define UNSIGNED_NEEDS_ULL_SUFFIX 9223372036854775808ull

#define UNSIGNED_DOESNT_NEED_ULL_SUFFIX 8070450532247928832

#define SIGNED_NEEDS_ULL_SUFFIX -9223372036854775808ull

#define SIGNED_DOESNT_NEED_ULL_SUFFIX -9223372036854775807
".
(** tests/expectations/constant_big.cpp *)
Definition constant_big_cpp : string := "#include <cstdarg>
#include <cstdint>
#include <cstdlib>
#include <ostream>
#include <new>

constexpr static const uint64_t UNSIGNED_NEEDS_ULL_SUFFIX = 9223372036854775808ull;

constexpr static const uint64_t UNSIGNED_DOESNT_NEED_ULL_SUFFIX = 8070450532247928832;

constexpr static const int64_t SIGNED_NEEDS_ULL_SUFFIX = -9223372036854775808ull;

constexpr static const int64_t SIGNED_DOESNT_NEED_ULL_SUFFIX = -9223372036854775807;
".
(** tests/expectations/constant_big.pyx *)
Definition constant_big_pyx : string := "from libc.stdint cimport int8_t, int16_t, int32_t, int64_t, intptr_t
from libc.stdint cimport uint8_t, uint16_t, uint32_t, uint64_t, uintptr_t
cdef extern from *:
  ctypedef bint bool
  ctypedef struct va_list

cdef extern from *:

  const uint64_t UNSIGNED_NEEDS_ULL_SUFFIX # = 9223372036854775808ull

  const uint64_t UNSIGNED_DOESNT_NEED_ULL_SUFFIX # = 8070450532247928832

  const int64_t SIGNED_NEEDS_ULL_SUFFIX # = -9223372036854775808ull

  const int64_t SIGNED_DOESNT_NEED_ULL_SUFFIX # = -9223372036854775807
".
Example constant_big_reproduced : reproduces (in_file constant_big_rs) false default_config None
  [(RunC true Type_, [constant_big_compat]);
   (RunC true Tag, [constant_big_compat]);
   (RunC true Both, [constant_big_compat]);
   (RunC false Type_, [constant_big_compat]);
   (RunC false Tag, [constant_big_compat]);
   (RunC false Both, [constant_big_compat]);
   (RunCxx, [constant_big_cpp]);
   (RunCython Type_, [constant_big_pyx]);
   (RunCython Tag, [constant_big_pyx])] = true.
Proof. vm_compute. reflexivity. Qed.

(** ** tests/rust/constant_constexpr.rs *)
Definition constant_constexpr_rs : list sitem := [
  (ItemConst [] true "CONSTANT_I64" (SPath (SegPath [] "i64" NoArgs)) (XLit (LitInt 216 "")));
  (ItemConst [] true "CONSTANT_FLOAT32" (SPath (SegPath [] "f32" NoArgs)) (XLit (LitFloat "312.292")));
  (ItemConst [] true "DELIMITER" (SPath (SegPath [] "char" NoArgs)) (XLit (LitChar 58)));
  (ItemConst [] true "LEFTCURLY" (SPath (SegPath [] "char" NoArgs)) (XLit (LitChar 123)));
  (ItemStruct [{| at_meta := (AList (Some "repr") [(APath (Some "C"))]); at_outer := true |}] "Foo" [] (FieldsNamed [{| sf_attrs :=
  []; sf_ident := (Some "x"); sf_ty := (SPath (SegPath [] "i32" NoArgs)) |}]));
  (ItemConst [] true "SomeFoo" (SPath (SegPath [] "Foo" NoArgs)) (XStruct (SegPath [] "Foo" NoArgs) [([], (Named "x"), (XLit (LitInt
  99 "")))] None));
  (ItemImpl [] (SPath (SegPath [] "Foo" NoArgs)) [(ImplConst [] true "CONSTANT_I64_BODY" (SPath (SegPath [] "i64" NoArgs)) (XLit (LitInt
  216 "")))])].
Definition constant_constexpr_toml : Config := {| header := None; includes_ := []; sys_includes_ := []; after_includes := None; trailer := None;
  include_guard_ := None; pragma_once := false; no_includes := false; package_version := false; autogen_warning := None; include_version := false;
  namespace := None; namespaces := None; using_namespaces := None; braces := SameLine; line_length := 100; tab_width := 2; line_endings := LF;
  language := Cxx; cpp_compat := false; style := Both; sort_by := SortNone; usize_is_size_t := false; parse := default_parse; export := {| ex_include := []; ex_exclude := []; ex_rename := []; ex_pre_body := []; ex_body := []; ex_prefix := None; ex_item_types := []; ex_renaming_overrides_prefixing := false; ex_mangle := {| rename_types := RNone; remove_underscores := false |} |};
  layout := {| ly_packed := None; ly_aligned_n := None |}; function := {| fn_prefix := None; fn_postfix := None; fn_must_use := None; fn_deprecated := None; fn_deprecated_with_note := None; fn_args := Auto; fn_rename_args := RNone; fn_swift_name_macro := None; fn_sort_by := None; fn_no_return := None |}; structure := {| st_rename_fields := RNone; st_derive_constructor := false; st_derive_eq := false; st_derive_neq := false; st_derive_lt := false; st_derive_lte := false; st_derive_gt := false; st_derive_gte := false; st_derive_ostream := false; st_associated_constants_in_body := true; st_rename_associated_constant := RNone; st_must_use := None; st_deprecated := None; st_deprecated_with_note := None |}; enumeration := {| en_rename_variants := RNone; en_rename_variant_name_fields := SnakeCase; en_add_sentinel := false; en_prefix_with_name := false; en_derive_helper_methods := false; en_derive_const_casts := false; en_derive_mut_casts := false; en_cast_assert_name := None; en_must_use := None; en_deprecated := None; en_deprecated_with_note := None; en_deprecated_variant := None; en_deprecated_variant_with_note := None; en_derive_tagged_enum_destructor := false; en_derive_tagged_enum_copy_constructor := false; en_derive_tagged_enum_copy_assignment := false; en_derive_ostream := false; en_enum_class := true; en_private_default_tagged_enum_constructor := false |}; constant := {| co_allow_static_const := true; co_allow_constexpr := false; co_sort_by := None |}; defines := []; documentation := true;
  documentation_style := DocAuto; documentation_length := Full; pointer := {| pt_non_null_attribute := None; pt_nullable_attribute := None |}; cython := {| cy_header := None; cy_cimports := [] |}; config_path := None |}.
(** tests/expectations/constant_constexpr.compat.c *)
Definition constant_constexpr_compat : string := "#include <stdarg.h>
#include <stdbool.h>
#include <stdint.h>
#include <stdlib.h>

#define CONSTANT_I64 216

#define CONSTANT_FLOAT32 312.292

#define DELIMITER ':'

#define LEFTCURLY '{'

typedef struct {
  int32_t x;
} Foo;
#define Foo_CONSTANT_I64_BODY 216

#define SomeFoo (Foo){ .x = 99 }
".
(** tests/expectations/constant_constexpr_tag.compat.c *)
Definition constant_constexpr_compat_tag : string := "#include <stdarg.h>
#include <stdbool.h>
#include <stdint.h>
#include <stdlib.h>

#define CONSTANT_I64 216

#define CONSTANT_FLOAT32 312.292

#define DELIMITER ':'

#define LEFTCURLY '{'

struct Foo {
  int32_t x;
};
#define Foo_CONSTANT_I64_BODY 216

#define SomeFoo (Foo){ .x = 99 }
".
(** tests/expectations/constant_constexpr_both.compat.c *)
Definition constant_constexpr_compat_both : string := "#include <stdarg.h>
#include <stdbool.h>
#include <stdint.h>
#include <stdlib.h>

#define CONSTANT_I64 216

#define CONSTANT_FLOAT32 312.292

#define DELIMITER ':'

#define LEFTCURLY '{'

typedef struct Foo {
  int32_t x;
} Foo;
#define Foo_CONSTANT_I64_BODY 216

#define SomeFoo (Foo){ .x = 99 }
".
(** tests/expectations/constant_constexpr.cpp *)
Definition constant_constexpr_cpp : string := "#include <cstdarg>
#include <cstdint>
#include <cstdlib>
#include <ostream>
#include <new>

static const int64_t CONSTANT_I64 = 216;

static const float CONSTANT_FLOAT32 = 312.292;

static const uint32_t DELIMITER = ':';

static const uint32_t LEFTCURLY = '{';

struct Foo {
  int32_t x;
  static const int64_t CONSTANT_I64_BODY;
};
inline const int64_t Foo::CONSTANT_I64_BODY = 216;

static const Foo SomeFoo = Foo{
  /* .x = */ 99
};
".
(** tests/expectations/constant_constexpr.pyx *)
Definition constant_constexpr_pyx : string := "from libc.stdint cimport int8_t, int16_t, int32_t, int64_t, intptr_t
from libc.stdint cimport uint8_t, uint16_t, uint32_t, uint64_t, uintptr_t
cdef extern from *:
  ctypedef bint bool
  ctypedef struct va_list

cdef extern from *:

  const int64_t CONSTANT_I64 # = 216

  const float CONSTANT_FLOAT32 # = 312.292

  const uint32_t DELIMITER # = ':'

  const uint32_t LEFTCURLY # = '{'

  ctypedef struct Foo:
    int32_t x;
  const int64_t Foo_CONSTANT_I64_BODY # = 216

  const Foo SomeFoo # = <Foo>{ 99 }
".
(** tests/expectations/constant_constexpr_tag.pyx *)
Definition constant_constexpr_pyx_tag : string := "from libc.stdint cimport int8_t, int16_t, int32_t, int64_t, intptr_t
from libc.stdint cimport uint8_t, uint16_t, uint32_t, uint64_t, uintptr_t
cdef extern from *:
  ctypedef bint bool
  ctypedef struct va_list

cdef extern from *:

  const int64_t CONSTANT_I64 # = 216

  const float CONSTANT_FLOAT32 # = 312.292

  const uint32_t DELIMITER # = ':'

  const uint32_t LEFTCURLY # = '{'

  cdef struct Foo:
    int32_t x;
  const int64_t Foo_CONSTANT_I64_BODY # = 216

  const Foo SomeFoo # = <Foo>{ 99 }
".
Example constant_constexpr_reproduced : reproduces (in_file constant_constexpr_rs) false constant_constexpr_toml None
  [(RunC true Type_, [constant_constexpr_compat]);
   (RunC true Tag, [constant_constexpr_compat_tag]);
   (RunC true Both, [constant_constexpr_compat_both]);
   (RunC false Type_, [constant_constexpr_compat; constant_constexpr_compat_tag; constant_constexpr_compat_both]);
   (RunC false Tag, [constant_constexpr_compat; constant_constexpr_compat_tag; constant_constexpr_compat_both]);
   (RunC false Both, [constant_constexpr_compat; constant_constexpr_compat_tag; constant_constexpr_compat_both]);
   (RunCxx, [constant_constexpr_cpp]);
   (RunCython Type_, [constant_constexpr_pyx]);
   (RunCython Tag, [constant_constexpr_pyx_tag])] = true.
Proof. vm_compute. reflexivity. Qed.

(** ** tests/rust/constant_sort_name.rs *)
Definition constant_sort_name_rs : list sitem := [
  (ItemConst [] true "B" (SPath (SegPath [] "u8" NoArgs)) (XLit (LitInt 0 "")));
  (ItemConst [] true "A" (SPath (SegPath [] "u8" NoArgs)) (XLit (LitInt 0 "")));
  (ItemStatic [{| at_meta := (APath (Some "no_mangle")); at_outer := true |}] "D" false (SPath (SegPath [] "u8" NoArgs)));
  (ItemStatic [{| at_meta := (APath (Some "no_mangle")); at_outer := true |}] "C" false (SPath (SegPath [] "u8" NoArgs)))].
Definition constant_sort_name_toml : Config := {| header := None; includes_ := []; sys_includes_ := []; after_includes := None; trailer := None;
  include_guard_ := None; pragma_once := false; no_includes := false; package_version := false; autogen_warning := None; include_version := false;
  namespace := None; namespaces := None; using_namespaces := None; braces := SameLine; line_length := 100; tab_width := 2; line_endings := LF;
  language := Cxx; cpp_compat := false; style := Both; sort_by := SortNone; usize_is_size_t := false; parse := default_parse; export := {| ex_include := []; ex_exclude := []; ex_rename := []; ex_pre_body := []; ex_body := []; ex_prefix := None; ex_item_types := []; ex_renaming_overrides_prefixing := false; ex_mangle := {| rename_types := RNone; remove_underscores := false |} |};
  layout := {| ly_packed := None; ly_aligned_n := None |}; function := {| fn_prefix := None; fn_postfix := None; fn_must_use := None; fn_deprecated := None; fn_deprecated_with_note := None; fn_args := Auto; fn_rename_args := RNone; fn_swift_name_macro := None; fn_sort_by := None; fn_no_return := None |}; structure := {| st_rename_fields := RNone; st_derive_constructor := false; st_derive_eq := false; st_derive_neq := false; st_derive_lt := false; st_derive_lte := false; st_derive_gt := false; st_derive_gte := false; st_derive_ostream := false; st_associated_constants_in_body := false; st_rename_associated_constant := RNone; st_must_use := None; st_deprecated := None; st_deprecated_with_note := None |}; enumeration := {| en_rename_variants := RNone; en_rename_variant_name_fields := SnakeCase; en_add_sentinel := false; en_prefix_with_name := false; en_derive_helper_methods := false; en_derive_const_casts := false; en_derive_mut_casts := false; en_cast_assert_name := None; en_must_use := None; en_deprecated := None; en_deprecated_with_note := None; en_deprecated_variant := None; en_deprecated_variant_with_note := None; en_derive_tagged_enum_destructor := false; en_derive_tagged_enum_copy_constructor := false; en_derive_tagged_enum_copy_assignment := false; en_derive_ostream := false; en_enum_class := true; en_private_default_tagged_enum_constructor := false |}; constant := {| co_allow_static_const := true; co_allow_constexpr := true; co_sort_by := (Some SortName) |}; defines := []; documentation := true;
  documentation_style := DocAuto; documentation_length := Full; pointer := {| pt_non_null_attribute := None; pt_nullable_attribute := None |}; cython := {| cy_header := None; cy_cimports := [] |}; config_path := None |}.
(** tests/expectations/constant_sort_name.compat.c *)
Definition constant_sort_name_compat : string := "#include <stdarg.h>
#include <stdbool.h>
#include <stdint.h>
#include <stdlib.h>

#define A 0

#define B 0

#ifdef __cplusplus
extern ""C"" {
#endif // __cplusplus

extern const uint8_t C;

extern const uint8_t D;

#ifdef __cplusplus
}  // extern ""C""
#endif  // __cplusplus
".
(** tests/expectations/constant_sort_name.c *)
Definition constant_sort_name_c : string := "#include <stdarg.h>
#include <stdbool.h>
#include <stdint.h>
#include <stdlib.h>

#define A 0

#define B 0

extern const uint8_t C;

extern const uint8_t D;
".
(** tests/expectations/constant_sort_name.cpp *)
Definition constant_sort_name_cpp : string := "#include <cstdarg>
#include <cstdint>
#include <cstdlib>
#include <ostream>
#include <new>

constexpr static const uint8_t A = 0;

constexpr static const uint8_t B = 0;

extern ""C"" {

extern const uint8_t C;

extern const uint8_t D;

}  // extern ""C""
".
(** tests/expectations/constant_sort_name.pyx *)
Definition constant_sort_name_pyx : string := "from libc.stdint cimport int8_t, int16_t, int32_t, int64_t, intptr_t
from libc.stdint cimport uint8_t, uint16_t, uint32_t, uint64_t, uintptr_t
cdef extern from *:
  ctypedef bint bool
  ctypedef struct va_list

cdef extern from *:

  const uint8_t A # = 0

  const uint8_t B # = 0

  extern const uint8_t C;

  extern const uint8_t D;
".
Example constant_sort_name_reproduced : reproduces (in_file constant_sort_name_rs) false constant_sort_name_toml (Some "{
C;
D;
};")
  [(RunC true Type_, [constant_sort_name_compat]);
   (RunC true Tag, [constant_sort_name_compat]);
   (RunC true Both, [constant_sort_name_compat]);
   (RunC false Type_, [constant_sort_name_c]);
   (RunC false Tag, [constant_sort_name_compat; constant_sort_name_c]);
   (RunC false Both, [constant_sort_name_compat; constant_sort_name_c]);
   (RunCxx, [constant_sort_name_cpp]);
   (RunCython Type_, [constant_sort_name_pyx]);
   (RunCython Tag, [constant_sort_name_pyx])] = true.
Proof. vm_compute. reflexivity. Qed.

(** ** tests/rust/constant_sort_none.rs *)
Definition constant_sort_none_rs : list sitem := [
  (ItemConst [] true "B" (SPath (SegPath [] "u8" NoArgs)) (XLit (LitInt 0 "")));
  (ItemConst [] true "A" (SPath (SegPath [] "u8" NoArgs)) (XLit (LitInt 0 "")));
  (ItemStatic [{| at_meta := (APath (Some "no_mangle")); at_outer := true |}] "D" false (SPath (SegPath [] "u8" NoArgs)));
  (ItemStatic [{| at_meta := (APath (Some "no_mangle")); at_outer := true |}] "C" false (SPath (SegPath [] "u8" NoArgs)))].
(** tests/expectations/constant_sort_none.compat.c *)
Definition constant_sort_none_compat : string := "#include <stdarg.h>
#include <stdbool.h>
#include <stdint.h>
#include <stdlib.h>

#define B 0

#define A 0

#ifdef __cplusplus
extern ""C"" {
#endif // __cplusplus

extern const uint8_t D;

extern const uint8_t C;

#ifdef __cplusplus
}  // extern ""C""
#endif  // __cplusplus
".
(** tests/expectations/constant_sort_none.c *)
Definition constant_sort_none_c : string := "#include <stdarg.h>
#include <stdbool.h>
#include <stdint.h>
#include <stdlib.h>

#define B 0

#define A 0

extern const uint8_t D;

extern const uint8_t C;
".
(** tests/expectations/constant_sort_none.cpp *)
Definition constant_sort_none_cpp : string := "#include <cstdarg>
#include <cstdint>
#include <cstdlib>
#include <ostream>
#include <new>

constexpr static const uint8_t B = 0;

constexpr static const uint8_t A = 0;

extern ""C"" {

extern const uint8_t D;

extern const uint8_t C;

}  // extern ""C""
".
(** tests/expectations/constant_sort_none.pyx *)
Definition constant_sort_none_pyx : string := "from libc.stdint cimport int8_t, int16_t, int32_t, int64_t, intptr_t
from libc.stdint cimport uint8_t, uint16_t, uint32_t, uint64_t, uintptr_t
cdef extern from *:
  ctypedef bint bool
  ctypedef struct va_list

cdef extern from *:

  const uint8_t B # = 0

  const uint8_t A # = 0

  extern const uint8_t D;

  extern const uint8_t C;
".
Example constant_sort_none_reproduced : reproduces (in_file constant_sort_none_rs) false default_config (Some "{
D;
C;
};")
  [(RunC true Type_, [constant_sort_none_compat]);
   (RunC true Tag, [constant_sort_none_compat]);
   (RunC true Both, [constant_sort_none_compat]);
   (RunC false Type_, [constant_sort_none_c]);
   (RunC false Tag, [constant_sort_none_compat; constant_sort_none_c]);
   (RunC false Both, [constant_sort_none_compat; constant_sort_none_c]);
   (RunCxx, [constant_sort_none_cpp]);
   (RunCython Type_, [constant_sort_none_pyx]);
   (RunCython Tag, [constant_sort_none_pyx])] = true.
Proof. vm_compute. reflexivity. Qed.

(** ** tests/rust/constant_user_defined_type.rs *)
Definition constant_user_defined_type_rs : list sitem := [
  (ItemStruct [{| at_meta := (AList (Some "repr") [(APath (Some "C"))]); at_outer := true |}] "S" [] (FieldsNamed [{| sf_attrs := [];
  sf_ident := (Some "field"); sf_ty := (SPath (SegPath [] "u8" NoArgs)) |}]));
  (ItemEnum [{| at_meta := ANameValue (Some "doc") (Some " cbindgen:enum-class=false"); at_outer := true |}; {| at_meta := (AList (Some
  "repr") [(APath (Some "C"))]); at_outer := true |}] "E" [] [{| sv_attrs := []; sv_ident := "V"; sv_fields := FieldsUnit; sv_discriminant
  := None |}]);
  (ItemOther []);
  (ItemType [] "A" [] (SPath (SegPath [] "u8" NoArgs)));
  (ItemConst [] true "C1" (SPath (SegPath [] "S" NoArgs)) (XStruct (SegPath [] "S" NoArgs) [([], (Named "field"), (XLit (LitInt 0 "")))]
  None));
  (ItemConst [] true "C2" (SPath (SegPath [] "E" NoArgs)) (XPath (SegPath [] "V" NoArgs)));
  (ItemConst [] true "C3" (SPath (SegPath [] "A" NoArgs)) (XLit (LitInt 0 "")))].
(** tests/expectations/constant_user_defined_type.compat.c *)
Definition constant_user_defined_type_compat : string := "#include <stdarg.h>
#include <stdbool.h>
#include <stdint.h>
#include <stdlib.h>

typedef enum {
  V,
} E;

typedef struct {
  uint8_t field;
} S;

typedef uint8_t A;

#define C1 (S){ .field = 0 }

#define C2 V

#define C3 0
".
(** tests/expectations/constant_user_defined_type_tag.compat.c *)
Definition constant_user_defined_type_compat_tag : string := "#include <stdarg.h>
#include <stdbool.h>
#include <stdint.h>
#include <stdlib.h>

enum E {
  V,
};

struct S {
  uint8_t field;
};

typedef uint8_t A;

#define C1 (S){ .field = 0 }

#define C2 V

#define C3 0
".
(** tests/expectations/constant_user_defined_type_both.compat.c *)
Definition constant_user_defined_type_compat_both : string := "#include <stdarg.h>
#include <stdbool.h>
#include <stdint.h>
#include <stdlib.h>

typedef enum E {
  V,
} E;

typedef struct S {
  uint8_t field;
} S;

typedef uint8_t A;

#define C1 (S){ .field = 0 }

#define C2 V

#define C3 0
".
(** tests/expectations/constant_user_defined_type.cpp *)
Definition constant_user_defined_type_cpp : string := "#include <cstdarg>
#include <cstdint>
#include <cstdlib>
#include <ostream>
#include <new>

enum E {
  V,
};

struct S {
  uint8_t field;
};

using A = uint8_t;

constexpr static const S C1 = S{
  /* .field = */ 0
};

constexpr static const E C2 = V;

constexpr static const A C3 = 0;
".
(** tests/expectations/constant_user_defined_type.pyx *)
Definition constant_user_defined_type_pyx : string := "from libc.stdint cimport int8_t, int16_t, int32_t, int64_t, intptr_t
from libc.stdint cimport uint8_t, uint16_t, uint32_t, uint64_t, uintptr_t
cdef extern from *:
  ctypedef bint bool
  ctypedef struct va_list

cdef extern from *:

  ctypedef enum E:
    V,

  ctypedef struct S:
    uint8_t field;

  ctypedef uint8_t A;

  const S C1 # = <S>{ 0 }

  const E C2 # = V

  const A C3 # = 0
".
(** tests/expectations/constant_user_defined_type_tag.pyx *)
Definition constant_user_defined_type_pyx_tag : string := "from libc.stdint cimport int8_t, int16_t, int32_t, int64_t, intptr_t
from libc.stdint cimport uint8_t, uint16_t, uint32_t, uint64_t, uintptr_t
cdef extern from *:
  ctypedef bint bool
  ctypedef struct va_list

cdef extern from *:

  cdef enum E:
    V,

  cdef struct S:
    uint8_t field;

  ctypedef uint8_t A;

  const S C1 # = <S>{ 0 }

  const E C2 # = V

  const A C3 # = 0
".
Example constant_user_defined_type_reproduced : reproduces (in_file constant_user_defined_type_rs) false default_config None
  [(RunC true Type_, [constant_user_defined_type_compat]);
   (RunC true Tag, [constant_user_defined_type_compat_tag]);
   (RunC true Both, [constant_user_defined_type_compat_both]);
   (RunC false Type_, [constant_user_defined_type_compat; constant_user_defined_type_compat_tag; constant_user_defined_type_compat_both]);
   (RunC false Tag, [constant_user_defined_type_compat; constant_user_defined_type_compat_tag; constant_user_defined_type_compat_both]);
   (RunC false Both, [constant_user_defined_type_compat; constant_user_defined_type_compat_tag; constant_user_defined_type_compat_both]);
   (RunCxx, [constant_user_defined_type_cpp]);
   (RunCython Type_, [constant_user_defined_type_pyx]);
   (RunCython Tag, [constant_user_defined_type_pyx_tag])] = true.
Proof. vm_compute. reflexivity. Qed.

(** ** tests/rust/custom_header.rs *)
Definition custom_header_rs : list sitem := [
  (ItemFn [{| at_meta := (APath (Some "no_mangle")); at_outer := true |}] true {| sg_ident := "root"; sg_abi := (Some (Some "C")); sg_inputs
  := []; sg_variadic := false; sg_output := None |})].
Definition custom_header_toml : Config := {| header := (Some "#if 0
# This file is generated by cbindgen. DO NOT EDIT
#endif
"); includes_ := []; sys_includes_ := []; after_includes := None; trailer := (Some "#if 0
# This is a simple test to ensure that trailers do not cause extra newlines in files
#endif
");
  include_guard_ := None; pragma_once := false; no_includes := true; package_version := false; autogen_warning := None; include_version := false;
  namespace := None; namespaces := None; using_namespaces := None; braces := SameLine; line_length := 100; tab_width := 2; line_endings := LF;
  language := Cxx; cpp_compat := false; style := Both; sort_by := SortNone; usize_is_size_t := false; parse := default_parse; export := {| ex_include := []; ex_exclude := []; ex_rename := []; ex_pre_body := []; ex_body := []; ex_prefix := None; ex_item_types := []; ex_renaming_overrides_prefixing := false; ex_mangle := {| rename_types := RNone; remove_underscores := false |} |};
  layout := {| ly_packed := None; ly_aligned_n := None |}; function := {| fn_prefix := None; fn_postfix := None; fn_must_use := None; fn_deprecated := None; fn_deprecated_with_note := None; fn_args := Auto; fn_rename_args := RNone; fn_swift_name_macro := None; fn_sort_by := None; fn_no_return := None |}; structure := {| st_rename_fields := RNone; st_derive_constructor := false; st_derive_eq := false; st_derive_neq := false; st_derive_lt := false; st_derive_lte := false; st_derive_gt := false; st_derive_gte := false; st_derive_ostream := false; st_associated_constants_in_body := false; st_rename_associated_constant := RNone; st_must_use := None; st_deprecated := None; st_deprecated_with_note := None |}; enumeration := {| en_rename_variants := RNone; en_rename_variant_name_fields := SnakeCase; en_add_sentinel := false; en_prefix_with_name := false; en_derive_helper_methods := false; en_derive_const_casts := false; en_derive_mut_casts := false; en_cast_assert_name := None; en_must_use := None; en_deprecated := None; en_deprecated_with_note := None; en_deprecated_variant := None; en_deprecated_variant_with_note := None; en_derive_tagged_enum_destructor := false; en_derive_tagged_enum_copy_constructor := false; en_derive_tagged_enum_copy_assignment := false; en_derive_ostream := false; en_enum_class := true; en_private_default_tagged_enum_constructor := false |}; constant := {| co_allow_static_const := true; co_allow_constexpr := true; co_sort_by := None |}; defines := []; documentation := true;
  documentation_style := DocAuto; documentation_length := Full; pointer := {| pt_non_null_attribute := None; pt_nullable_attribute := None |}; cython := {| cy_header := None; cy_cimports := [] |}; config_path := None |}.
(** tests/expectations/custom_header.compat.c *)
Definition custom_header_compat : string := "#if 0
# This file is generated by cbindgen. DO NOT EDIT
#endif


#ifdef __cplusplus
extern ""C"" {
#endif // __cplusplus

void root(void);

#ifdef __cplusplus
}  // extern ""C""
#endif  // __cplusplus

#if 0
# This is a simple test to ensure that trailers do not cause extra newlines in files
#endif
".
(** tests/expectations/custom_header.c *)
Definition custom_header_c : string := "#if 0
# This file is generated by cbindgen. DO NOT EDIT
#endif


void root(void);

#if 0
# This is a simple test to ensure that trailers do not cause extra newlines in files
#endif
".
(** tests/expectations/custom_header.cpp *)
Definition custom_header_cpp : string := "#if 0
# This file is generated by cbindgen. DO NOT EDIT
#endif


extern ""C"" {

void root();

}  // extern ""C""

#if 0
# This is a simple test to ensure that trailers do not cause extra newlines in files
#endif
".
(** tests/expectations/custom_header.pyx *)
Definition custom_header_pyx : string := "#if 0
# This file is generated by cbindgen. DO NOT EDIT
#endif


cdef extern from *:

  void root();

#if 0
# This is a simple test to ensure that trailers do not cause extra newlines in files
#endif
".
Example custom_header_reproduced : reproduces (in_file custom_header_rs) false custom_header_toml (Some "{
root;
};")
  [(RunC true Type_, [custom_header_compat]);
   (RunC true Tag, [custom_header_compat]);
   (RunC true Both, [custom_header_compat]);
   (RunC false Type_, [custom_header_c]);
   (RunC false Tag, [custom_header_compat; custom_header_c]);
   (RunC false Both, [custom_header_compat; custom_header_c]);
   (RunCxx, [custom_header_cpp]);
   (RunCython Type_, [custom_header_pyx]);
   (RunCython Tag, [custom_header_pyx])] = true.
Proof. vm_compute. reflexivity. Qed.

(** ** tests/rust/cython_options.rs *)
Definition cython_options_rs : list sitem := [
  ].
Definition cython_options_toml : Config := {| header := None; includes_ := []; sys_includes_ := []; after_includes := None; trailer := None;
  include_guard_ := None; pragma_once := false; no_includes := false; package_version := false; autogen_warning := None; include_version := false;
  namespace := None; namespaces := None; using_namespaces := None; braces := SameLine; line_length := 100; tab_width := 2; line_endings := LF;
  language := Cxx; cpp_compat := false; style := Both; sort_by := SortNone; usize_is_size_t := false; parse := default_parse; export := {| ex_include := []; ex_exclude := []; ex_rename := []; ex_pre_body := []; ex_body := []; ex_prefix := None; ex_item_types := []; ex_renaming_overrides_prefixing := false; ex_mangle := {| rename_types := RNone; remove_underscores := false |} |};
  layout := {| ly_packed := None; ly_aligned_n := None |}; function := {| fn_prefix := None; fn_postfix := None; fn_must_use := None; fn_deprecated := None; fn_deprecated_with_note := None; fn_args := Auto; fn_rename_args := RNone; fn_swift_name_macro := None; fn_sort_by := None; fn_no_return := None |}; structure := {| st_rename_fields := RNone; st_derive_constructor := false; st_derive_eq := false; st_derive_neq := false; st_derive_lt := false; st_derive_lte := false; st_derive_gt := false; st_derive_gte := false; st_derive_ostream := false; st_associated_constants_in_body := false; st_rename_associated_constant := RNone; st_must_use := None; st_deprecated := None; st_deprecated_with_note := None |}; enumeration := {| en_rename_variants := RNone; en_rename_variant_name_fields := SnakeCase; en_add_sentinel := false; en_prefix_with_name := false; en_derive_helper_methods := false; en_derive_const_casts := false; en_derive_mut_casts := false; en_cast_assert_name := None; en_must_use := None; en_deprecated := None; en_deprecated_with_note := None; en_deprecated_variant := None; en_deprecated_variant_with_note := None; en_derive_tagged_enum_destructor := false; en_derive_tagged_enum_copy_constructor := false; en_derive_tagged_enum_copy_assignment := false; en_derive_ostream := false; en_enum_class := true; en_private_default_tagged_enum_constructor := false |}; constant := {| co_allow_static_const := true; co_allow_constexpr := true; co_sort_by := None |}; defines := []; documentation := true;
  documentation_style := DocAuto; documentation_length := Full; pointer := {| pt_non_null_attribute := None; pt_nullable_attribute := None |}; cython := {| cy_header := (Some """my_header.h"""); cy_cimports := [("libc.stddef", ["*"]); ("libc.stdint", ["int8_t"; "int16_t"])] |}; config_path := None |}.
(** tests/expectations/cython_options.compat.c *)
Definition cython_options_compat : string := "#include <stdarg.h>
#include <stdbool.h>
#include <stdint.h>
#include <stdlib.h>
".
(** tests/expectations/cython_options.cpp *)
Definition cython_options_cpp : string := "#include <cstdarg>
#include <cstdint>
#include <cstdlib>
#include <ostream>
#include <new>
".
(** tests/expectations/cython_options.pyx *)
Definition cython_options_pyx : string := "from libc.stdint cimport int8_t, int16_t, int32_t, int64_t, intptr_t
from libc.stdint cimport uint8_t, uint16_t, uint32_t, uint64_t, uintptr_t
cdef extern from *:
  ctypedef bint bool
  ctypedef struct va_list
from libc.stddef cimport *
from libc.stdint cimport int8_t, int16_t

cdef extern from ""my_header.h"":
  pass".
Example cython_options_reproduced : reproduces (in_file cython_options_rs) false cython_options_toml None
  [(RunC true Type_, [cython_options_compat]);
   (RunC true Tag, [cython_options_compat]);
   (RunC true Both, [cython_options_compat]);
   (RunC false Type_, [cython_options_compat]);
   (RunC false Tag, [cython_options_compat]);
   (RunC false Both, [cython_options_compat]);
   (RunCxx, [cython_options_cpp]);
   (RunCython Type_, [cython_options_pyx]);
   (RunCython Tag, [cython_options_pyx])] = true.
Proof. vm_compute. reflexivity. Qed.

(** ** tests/rust/decl_name_conflicting.rs *)
Definition decl_name_conflicting_rs : list sitem := [
  (ItemMod [] "uhoh" (Some [(ItemEnum [] "BindingType" [] [{| sv_attrs := []; sv_ident := "Buffer"; sv_fields := FieldsUnit; sv_discriminant
  := None |}; {| sv_attrs := []; sv_ident := "NotBuffer"; sv_fields := FieldsUnit; sv_discriminant := None |}])]));
  (ItemEnum [{| at_meta := (AList (Some "repr") [(APath (Some "u32"))]); at_outer := true |}] "BindingType" [] [{| sv_attrs := []; sv_ident
  := "Buffer"; sv_fields := FieldsUnit; sv_discriminant := (Some (XLit (LitInt 0 ""))) |}; {| sv_attrs := []; sv_ident := "NotBuffer";
  sv_fields := FieldsUnit; sv_discriminant := (Some (XLit (LitInt 1 ""))) |}]);
  (ItemStruct [{| at_meta := (AList (Some "repr") [(APath (Some "C"))]); at_outer := true |}] "BindGroupLayoutEntry" [] (FieldsNamed
  [{| sf_attrs := []; sf_ident := (Some "ty"); sf_ty := (SPath (SegPath [] "BindingType" NoArgs)) |}]));
  (ItemFn [{| at_meta := (APath (Some "no_mangle")); at_outer := true |}] true {| sg_ident := "root"; sg_abi := (Some (Some "C")); sg_inputs
  := [(FnTyped (PatIdent "entry") (SPath (SegPath [] "BindGroupLayoutEntry" NoArgs)))]; sg_variadic := false; sg_output := None |})].
(** tests/expectations/decl_name_conflicting.compat.c *)
Definition decl_name_conflicting_compat : string := "#include <stdarg.h>
#include <stdbool.h>
#include <stdint.h>
#include <stdlib.h>

enum BindingType
#if defined(__cplusplus) || __STDC_VERSION__ >= 202311L
  : uint32_t
#endif // defined(__cplusplus) || __STDC_VERSION__ >= 202311L
 {
  Buffer = 0,
  NotBuffer = 1,
};
#ifndef __cplusplus
#if __STDC_VERSION__ >= 202311L
typedef enum BindingType BindingType;
#else
typedef uint32_t BindingType;
#endif // __STDC_VERSION__ >= 202311L
#endif // __cplusplus

typedef struct {
  BindingType ty;
} BindGroupLayoutEntry;

#ifdef __cplusplus
extern ""C"" {
#endif // __cplusplus

void root(BindGroupLayoutEntry entry);

#ifdef __cplusplus
}  // extern ""C""
#endif  // __cplusplus
".
(** tests/expectations/decl_name_conflicting_tag.compat.c *)
Definition decl_name_conflicting_compat_tag : string := "#include <stdarg.h>
#include <stdbool.h>
#include <stdint.h>
#include <stdlib.h>

enum BindingType
#if defined(__cplusplus) || __STDC_VERSION__ >= 202311L
  : uint32_t
#endif // defined(__cplusplus) || __STDC_VERSION__ >= 202311L
 {
  Buffer = 0,
  NotBuffer = 1,
};
#ifndef __cplusplus
#if __STDC_VERSION__ >= 202311L
typedef enum BindingType BindingType;
#else
typedef uint32_t BindingType;
#endif // __STDC_VERSION__ >= 202311L
#endif // __cplusplus

struct BindGroupLayoutEntry {
  BindingType ty;
};

#ifdef __cplusplus
extern ""C"" {
#endif // __cplusplus

void root(struct BindGroupLayoutEntry entry);

#ifdef __cplusplus
}  // extern ""C""
#endif  // __cplusplus
".
(** tests/expectations/decl_name_conflicting_both.compat.c *)
Definition decl_name_conflicting_compat_both : string := "#include <stdarg.h>
#include <stdbool.h>
#include <stdint.h>
#include <stdlib.h>

enum BindingType
#if defined(__cplusplus) || __STDC_VERSION__ >= 202311L
  : uint32_t
#endif // defined(__cplusplus) || __STDC_VERSION__ >= 202311L
 {
  Buffer = 0,
  NotBuffer = 1,
};
#ifndef __cplusplus
#if __STDC_VERSION__ >= 202311L
typedef enum BindingType BindingType;
#else
typedef uint32_t BindingType;
#endif // __STDC_VERSION__ >= 202311L
#endif // __cplusplus

typedef struct BindGroupLayoutEntry {
  BindingType ty;
} BindGroupLayoutEntry;

#ifdef __cplusplus
extern ""C"" {
#endif // __cplusplus

void root(struct BindGroupLayoutEntry entry);

#ifdef __cplusplus
}  // extern ""C""
#endif  // __cplusplus
".
(** tests/expectations/decl_name_conflicting.c *)
Definition decl_name_conflicting_c : string := "#include <stdarg.h>
#include <stdbool.h>
#include <stdint.h>
#include <stdlib.h>

enum BindingType
#if __STDC_VERSION__ >= 202311L
  : uint32_t
#endif // __STDC_VERSION__ >= 202311L
 {
  Buffer = 0,
  NotBuffer = 1,
};
#if __STDC_VERSION__ >= 202311L
typedef enum BindingType BindingType;
#else
typedef uint32_t BindingType;
#endif // __STDC_VERSION__ >= 202311L

typedef struct {
  BindingType ty;
} BindGroupLayoutEntry;

void root(BindGroupLayoutEntry entry);
".
(** tests/expectations/decl_name_conflicting_tag.c *)
Definition decl_name_conflicting_c_tag : string := "#include <stdarg.h>
#include <stdbool.h>
#include <stdint.h>
#include <stdlib.h>

enum BindingType
#if __STDC_VERSION__ >= 202311L
  : uint32_t
#endif // __STDC_VERSION__ >= 202311L
 {
  Buffer = 0,
  NotBuffer = 1,
};
#if __STDC_VERSION__ >= 202311L
typedef enum BindingType BindingType;
#else
typedef uint32_t BindingType;
#endif // __STDC_VERSION__ >= 202311L

struct BindGroupLayoutEntry {
  BindingType ty;
};

void root(struct BindGroupLayoutEntry entry);
".
(** tests/expectations/decl_name_conflicting_both.c *)
Definition decl_name_conflicting_c_both : string := "#include <stdarg.h>
#include <stdbool.h>
#include <stdint.h>
#include <stdlib.h>

enum BindingType
#if __STDC_VERSION__ >= 202311L
  : uint32_t
#endif // __STDC_VERSION__ >= 202311L
 {
  Buffer = 0,
  NotBuffer = 1,
};
#if __STDC_VERSION__ >= 202311L
typedef enum BindingType BindingType;
#else
typedef uint32_t BindingType;
#endif // __STDC_VERSION__ >= 202311L

typedef struct BindGroupLayoutEntry {
  BindingType ty;
} BindGroupLayoutEntry;

void root(struct BindGroupLayoutEntry entry);
".
(** tests/expectations/decl_name_conflicting.cpp *)
Definition decl_name_conflicting_cpp : string := "#include <cstdarg>
#include <cstdint>
#include <cstdlib>
#include <ostream>
#include <new>

enum class BindingType : uint32_t {
  Buffer = 0,
  NotBuffer = 1,
};

struct BindGroupLayoutEntry {
  BindingType ty;
};

extern ""C"" {

void root(BindGroupLayoutEntry entry);

}  // extern ""C""
".
(** tests/expectations/decl_name_conflicting.pyx *)
Definition decl_name_conflicting_pyx : string := "from libc.stdint cimport int8_t, int16_t, int32_t, int64_t, intptr_t
from libc.stdint cimport uint8_t, uint16_t, uint32_t, uint64_t, uintptr_t
cdef extern from *:
  ctypedef bint bool
  ctypedef struct va_list

cdef extern from *:

  cdef enum:
    Buffer # = 0,
    NotBuffer # = 1,
  ctypedef uint32_t BindingType;

  ctypedef struct BindGroupLayoutEntry:
    BindingType ty;

  void root(BindGroupLayoutEntry entry);
".
(** tests/expectations/decl_name_conflicting_tag.pyx *)
Definition decl_name_conflicting_pyx_tag : string := "from libc.stdint cimport int8_t, int16_t, int32_t, int64_t, intptr_t
from libc.stdint cimport uint8_t, uint16_t, uint32_t, uint64_t, uintptr_t
cdef extern from *:
  ctypedef bint bool
  ctypedef struct va_list

cdef extern from *:

  cdef enum:
    Buffer # = 0,
    NotBuffer # = 1,
  ctypedef uint32_t BindingType;

  cdef struct BindGroupLayoutEntry:
    BindingType ty;

  void root(BindGroupLayoutEntry entry);
".
Example decl_name_conflicting_reproduced : reproduces (in_file decl_name_conflicting_rs) false default_config (Some "{
root;
};")
  [(RunC true Type_, [decl_name_conflicting_compat]);
   (RunC true Tag, [decl_name_conflicting_compat_tag]);
   (RunC true Both, [decl_name_conflicting_compat_both]);
   (RunC false Type_, [decl_name_conflicting_c]);
   (RunC false Tag, [decl_name_conflicting_c_tag]);
   (RunC false Both, [decl_name_conflicting_c_both]);
   (RunCxx, [decl_name_conflicting_cpp]);
   (RunCython Type_, [decl_name_conflicting_pyx]);
   (RunCython Tag, [decl_name_conflicting_pyx_tag])] = true.
Proof. vm_compute. reflexivity. Qed.

