(** See S_Suite.v; generated. *)
Require Import Coq.Strings.String Coq.Strings.Ascii Coq.Lists.List Coq.Bool.Bool Coq.NArith.NArith.
From Verif Require Import Base M_Config M_Cfg M_Type M_Ir M_Item M_Attr M_Syn M_Library M_Loader M_Parser M_Bindings M_Backend S_Heck S_Suite.
Import ListNotations.
Open Scope string_scope.

(** ** tests/rust/euclid.rs *)
Definition euclid_rs : list sitem := [
  (ItemStruct [] "UnknownUnit" [] FieldsUnit);
  (ItemStruct [] "LayoutUnit" [] FieldsUnit);
  (ItemStruct [{| at_meta := (AList (Some "repr") [(APath (Some "C"))]); at_outer := true |}] "TypedLength" [(SGType "T" None); (SGType
  "Unit" None)] (FieldsUnnamed [{| sf_attrs := []; sf_ident := None; sf_ty := (SPath (SegPath [] "T" NoArgs)) |}; {| sf_attrs := [];
  sf_ident := None; sf_ty := (SPath (SegPath [] "PhantomData" (AngleArgs [(ArgType (SPath (SegPath [] "Unit" NoArgs)))]))) |}]));
  (ItemStruct [{| at_meta := (AList (Some "repr") [(APath (Some "C"))]); at_outer := true |}] "TypedSideOffsets2D" [(SGType "T" None);
  (SGType "U" None)] (FieldsNamed [{| sf_attrs := []; sf_ident := (Some "top"); sf_ty := (SPath (SegPath [] "T" NoArgs)) |}; {| sf_attrs
  := []; sf_ident := (Some "right"); sf_ty := (SPath (SegPath [] "T" NoArgs)) |}; {| sf_attrs := []; sf_ident := (Some "bottom");
  sf_ty := (SPath (SegPath [] "T" NoArgs)) |}; {| sf_attrs := []; sf_ident := (Some "left"); sf_ty := (SPath (SegPath [] "T" NoArgs))
  |}; {| sf_attrs := []; sf_ident := (Some "_phantom"); sf_ty := (SPath (SegPath [] "PhantomData" (AngleArgs [(ArgType (SPath (SegPath
  [] "U" NoArgs)))]))) |}]));
  (ItemStruct [{| at_meta := (AList (Some "repr") [(APath (Some "C"))]); at_outer := true |}] "TypedSize2D" [(SGType "T" None); (SGType
  "U" None)] (FieldsNamed [{| sf_attrs := []; sf_ident := (Some "width"); sf_ty := (SPath (SegPath [] "T" NoArgs)) |}; {| sf_attrs
  := []; sf_ident := (Some "height"); sf_ty := (SPath (SegPath [] "T" NoArgs)) |}; {| sf_attrs := []; sf_ident := (Some "_phantom");
  sf_ty := (SPath (SegPath [] "PhantomData" (AngleArgs [(ArgType (SPath (SegPath [] "U" NoArgs)))]))) |}]));
  (ItemStruct [{| at_meta := (AList (Some "repr") [(APath (Some "C"))]); at_outer := true |}] "TypedPoint2D" [(SGType "T" None); (SGType
  "U" None)] (FieldsNamed [{| sf_attrs := []; sf_ident := (Some "x"); sf_ty := (SPath (SegPath [] "T" NoArgs)) |}; {| sf_attrs :=
  []; sf_ident := (Some "y"); sf_ty := (SPath (SegPath [] "T" NoArgs)) |}; {| sf_attrs := []; sf_ident := (Some "_phantom"); sf_ty
  := (SPath (SegPath [] "PhantomData" (AngleArgs [(ArgType (SPath (SegPath [] "U" NoArgs)))]))) |}]));
  (ItemStruct [{| at_meta := (AList (Some "repr") [(APath (Some "C"))]); at_outer := true |}] "TypedRect" [(SGType "T" None); (SGType
  "U" None)] (FieldsNamed [{| sf_attrs := []; sf_ident := (Some "origin"); sf_ty := (SPath (SegPath [] "TypedPoint2D" (AngleArgs [(ArgType
  (SPath (SegPath [] "T" NoArgs))); (ArgType (SPath (SegPath [] "U" NoArgs)))]))) |}; {| sf_attrs := []; sf_ident := (Some "size");
  sf_ty := (SPath (SegPath [] "TypedSize2D" (AngleArgs [(ArgType (SPath (SegPath [] "T" NoArgs))); (ArgType (SPath (SegPath [] "U"
  NoArgs)))]))) |}; {| sf_attrs := []; sf_ident := (Some "_phantom"); sf_ty := (SPath (SegPath [] "PhantomData" (AngleArgs [(ArgType
  (SPath (SegPath [] "U" NoArgs)))]))) |}]));
  (ItemStruct [{| at_meta := (AList (Some "repr") [(APath (Some "C"))]); at_outer := true |}] "TypedTransform2D" [(SGType "T" None);
  (SGType "Src" None); (SGType "Dst" None)] (FieldsNamed [{| sf_attrs := []; sf_ident := (Some "m11"); sf_ty := (SPath (SegPath []
  "T" NoArgs)) |}; {| sf_attrs := []; sf_ident := (Some "m12"); sf_ty := (SPath (SegPath [] "T" NoArgs)) |}; {| sf_attrs := []; sf_ident
  := (Some "m21"); sf_ty := (SPath (SegPath [] "T" NoArgs)) |}; {| sf_attrs := []; sf_ident := (Some "m22"); sf_ty := (SPath (SegPath
  [] "T" NoArgs)) |}; {| sf_attrs := []; sf_ident := (Some "m31"); sf_ty := (SPath (SegPath [] "T" NoArgs)) |}; {| sf_attrs := [];
  sf_ident := (Some "m32"); sf_ty := (SPath (SegPath [] "T" NoArgs)) |}; {| sf_attrs := []; sf_ident := (Some "_phantom"); sf_ty :=
  (SPath (SegPath [] "PhantomData" (AngleArgs [(ArgType (SPath (SegPath [] "U" NoArgs)))]))) |}]));
  (ItemType [] "Length" [(SGType "T" None)] (SPath (SegPath [] "TypedLength" (AngleArgs [(ArgType (SPath (SegPath [] "T" NoArgs)));
  (ArgType (SPath (SegPath [] "UnknownUnit" NoArgs)))]))));
  (ItemType [] "SideOffsets2D" [(SGType "T" None)] (SPath (SegPath [] "TypedSideOffsets2D" (AngleArgs [(ArgType (SPath (SegPath [] "T"
  NoArgs))); (ArgType (SPath (SegPath [] "UnknownUnit" NoArgs)))]))));
  (ItemType [] "Size2D" [(SGType "T" None)] (SPath (SegPath [] "TypedSize2D" (AngleArgs [(ArgType (SPath (SegPath [] "T" NoArgs)));
  (ArgType (SPath (SegPath [] "UnknownUnit" NoArgs)))]))));
  (ItemType [] "Point2D" [(SGType "T" None)] (SPath (SegPath [] "TypedPoint2D" (AngleArgs [(ArgType (SPath (SegPath [] "T" NoArgs)));
  (ArgType (SPath (SegPath [] "UnknownUnit" NoArgs)))]))));
  (ItemType [] "Rect" [(SGType "T" None)] (SPath (SegPath [] "TypedRect" (AngleArgs [(ArgType (SPath (SegPath [] "T" NoArgs))); (ArgType
  (SPath (SegPath [] "UnknownUnit" NoArgs)))]))));
  (ItemType [] "LayoutLength" [] (SPath (SegPath [] "TypedLength" (AngleArgs [(ArgType (SPath (SegPath [] "f32" NoArgs))); (ArgType
  (SPath (SegPath [] "LayoutUnit" NoArgs)))]))));
  (ItemType [] "LayoutSideOffsets2D" [] (SPath (SegPath [] "TypedSideOffsets2D" (AngleArgs [(ArgType (SPath (SegPath [] "f32" NoArgs)));
  (ArgType (SPath (SegPath [] "LayoutUnit" NoArgs)))]))));
  (ItemType [] "LayoutSize2D" [] (SPath (SegPath [] "TypedSize2D" (AngleArgs [(ArgType (SPath (SegPath [] "f32" NoArgs))); (ArgType
  (SPath (SegPath [] "LayoutUnit" NoArgs)))]))));
  (ItemType [] "LayoutPoint2D" [] (SPath (SegPath [] "TypedPoint2D" (AngleArgs [(ArgType (SPath (SegPath [] "f32" NoArgs))); (ArgType
  (SPath (SegPath [] "LayoutUnit" NoArgs)))]))));
  (ItemType [] "LayoutRect" [] (SPath (SegPath [] "TypedRect" (AngleArgs [(ArgType (SPath (SegPath [] "f32" NoArgs))); (ArgType (SPath
  (SegPath [] "LayoutUnit" NoArgs)))]))));
  (ItemFn [{| at_meta := (APath (Some "no_mangle")); at_outer := true |}] true {| sg_ident := "root"; sg_abi := (Some (Some "C")); sg_inputs
  := [(FnTyped (PatIdent "length_a") (SPath (SegPath [] "TypedLength" (AngleArgs [(ArgType (SPath (SegPath [] "f32" NoArgs))); (ArgType
  (SPath (SegPath [] "UnknownUnit" NoArgs)))])))); (FnTyped (PatIdent "length_b") (SPath (SegPath [] "TypedLength" (AngleArgs [(ArgType
  (SPath (SegPath [] "f32" NoArgs))); (ArgType (SPath (SegPath [] "LayoutUnit" NoArgs)))])))); (FnTyped (PatIdent "length_c") (SPath
  (SegPath [] "Length" (AngleArgs [(ArgType (SPath (SegPath [] "f32" NoArgs)))])))); (FnTyped (PatIdent "length_d") (SPath (SegPath
  [] "LayoutLength" NoArgs))); (FnTyped (PatIdent "side_offsets_a") (SPath (SegPath [] "TypedSideOffsets2D" (AngleArgs [(ArgType (SPath
  (SegPath [] "f32" NoArgs))); (ArgType (SPath (SegPath [] "UnknownUnit" NoArgs)))])))); (FnTyped (PatIdent "side_offsets_b") (SPath
  (SegPath [] "TypedSideOffsets2D" (AngleArgs [(ArgType (SPath (SegPath [] "f32" NoArgs))); (ArgType (SPath (SegPath [] "LayoutUnit"
  NoArgs)))])))); (FnTyped (PatIdent "side_offsets_c") (SPath (SegPath [] "SideOffsets2D" (AngleArgs [(ArgType (SPath (SegPath []
  "f32" NoArgs)))])))); (FnTyped (PatIdent "side_offsets_d") (SPath (SegPath [] "LayoutSideOffsets2D" NoArgs))); (FnTyped (PatIdent
  "size_a") (SPath (SegPath [] "TypedSize2D" (AngleArgs [(ArgType (SPath (SegPath [] "f32" NoArgs))); (ArgType (SPath (SegPath []
  "UnknownUnit" NoArgs)))])))); (FnTyped (PatIdent "size_b") (SPath (SegPath [] "TypedSize2D" (AngleArgs [(ArgType (SPath (SegPath
  [] "f32" NoArgs))); (ArgType (SPath (SegPath [] "LayoutUnit" NoArgs)))])))); (FnTyped (PatIdent "size_c") (SPath (SegPath [] "Size2D"
  (AngleArgs [(ArgType (SPath (SegPath [] "f32" NoArgs)))])))); (FnTyped (PatIdent "size_d") (SPath (SegPath [] "LayoutSize2D" NoArgs)));
  (FnTyped (PatIdent "point_a") (SPath (SegPath [] "TypedPoint2D" (AngleArgs [(ArgType (SPath (SegPath [] "f32" NoArgs))); (ArgType
  (SPath (SegPath [] "UnknownUnit" NoArgs)))])))); (FnTyped (PatIdent "point_b") (SPath (SegPath [] "TypedPoint2D" (AngleArgs [(ArgType
  (SPath (SegPath [] "f32" NoArgs))); (ArgType (SPath (SegPath [] "LayoutUnit" NoArgs)))])))); (FnTyped (PatIdent "point_c") (SPath
  (SegPath [] "Point2D" (AngleArgs [(ArgType (SPath (SegPath [] "f32" NoArgs)))])))); (FnTyped (PatIdent "point_d") (SPath (SegPath
  [] "LayoutPoint2D" NoArgs))); (FnTyped (PatIdent "rect_a") (SPath (SegPath [] "TypedRect" (AngleArgs [(ArgType (SPath (SegPath []
  "f32" NoArgs))); (ArgType (SPath (SegPath [] "UnknownUnit" NoArgs)))])))); (FnTyped (PatIdent "rect_b") (SPath (SegPath [] "TypedRect"
  (AngleArgs [(ArgType (SPath (SegPath [] "f32" NoArgs))); (ArgType (SPath (SegPath [] "LayoutUnit" NoArgs)))])))); (FnTyped (PatIdent
  "rect_c") (SPath (SegPath [] "Rect" (AngleArgs [(ArgType (SPath (SegPath [] "f32" NoArgs)))])))); (FnTyped (PatIdent "rect_d") (SPath
  (SegPath [] "LayoutRect" NoArgs))); (FnTyped (PatIdent "transform_a") (SPath (SegPath [] "TypedTransform2D" (AngleArgs [(ArgType
  (SPath (SegPath [] "f32" NoArgs))); (ArgType (SPath (SegPath [] "UnknownUnit" NoArgs))); (ArgType (SPath (SegPath [] "LayoutUnit"
  NoArgs)))])))); (FnTyped (PatIdent "transform_b") (SPath (SegPath [] "TypedTransform2D" (AngleArgs [(ArgType (SPath (SegPath []
  "f32" NoArgs))); (ArgType (SPath (SegPath [] "LayoutUnit" NoArgs))); (ArgType (SPath (SegPath [] "UnknownUnit" NoArgs)))]))))];
  sg_variadic := false; sg_output := None |})].
(** tests/expectations/euclid.compat.c *)
Definition euclid_compat : string := "#include <stdarg.h>
#include <stdbool.h>
#include <stdint.h>
#include <stdlib.h>

typedef struct {
  float _0;
} TypedLength_f32__UnknownUnit;

typedef struct {
  float _0;
} TypedLength_f32__LayoutUnit;

typedef TypedLength_f32__UnknownUnit Length_f32;

typedef TypedLength_f32__LayoutUnit LayoutLength;

typedef struct {
  float top;
  float right;
  float bottom;
  float left;
} TypedSideOffsets2D_f32__UnknownUnit;

typedef struct {
  float top;
  float right;
  float bottom;
  float left;
} TypedSideOffsets2D_f32__LayoutUnit;

typedef TypedSideOffsets2D_f32__UnknownUnit SideOffsets2D_f32;

typedef TypedSideOffsets2D_f32__LayoutUnit LayoutSideOffsets2D;

typedef struct {
  float width;
  float height;
} TypedSize2D_f32__UnknownUnit;

typedef struct {
  float width;
  float height;
} TypedSize2D_f32__LayoutUnit;

typedef TypedSize2D_f32__UnknownUnit Size2D_f32;

typedef TypedSize2D_f32__LayoutUnit LayoutSize2D;

typedef struct {
  float x;
  float y;
} TypedPoint2D_f32__UnknownUnit;

typedef struct {
  float x;
  float y;
} TypedPoint2D_f32__LayoutUnit;

typedef TypedPoint2D_f32__UnknownUnit Point2D_f32;

typedef TypedPoint2D_f32__LayoutUnit LayoutPoint2D;

typedef struct {
  TypedPoint2D_f32__UnknownUnit origin;
  TypedSize2D_f32__UnknownUnit size;
} TypedRect_f32__UnknownUnit;

typedef struct {
  TypedPoint2D_f32__LayoutUnit origin;
  TypedSize2D_f32__LayoutUnit size;
} TypedRect_f32__LayoutUnit;

typedef TypedRect_f32__UnknownUnit Rect_f32;

typedef TypedRect_f32__LayoutUnit LayoutRect;

typedef struct {
  float m11;
  float m12;
  float m21;
  float m22;
  float m31;
  float m32;
} TypedTransform2D_f32__UnknownUnit__LayoutUnit;

typedef struct {
  float m11;
  float m12;
  float m21;
  float m22;
  float m31;
  float m32;
} TypedTransform2D_f32__LayoutUnit__UnknownUnit;

#ifdef __cplusplus
extern ""C"" {
#endif // __cplusplus

void root(TypedLength_f32__UnknownUnit length_a,
          TypedLength_f32__LayoutUnit length_b,
          Length_f32 length_c,
          LayoutLength length_d,
          TypedSideOffsets2D_f32__UnknownUnit side_offsets_a,
          TypedSideOffsets2D_f32__LayoutUnit side_offsets_b,
          SideOffsets2D_f32 side_offsets_c,
          LayoutSideOffsets2D side_offsets_d,
          TypedSize2D_f32__UnknownUnit size_a,
          TypedSize2D_f32__LayoutUnit size_b,
          Size2D_f32 size_c,
          LayoutSize2D size_d,
          TypedPoint2D_f32__UnknownUnit point_a,
          TypedPoint2D_f32__LayoutUnit point_b,
          Point2D_f32 point_c,
          LayoutPoint2D point_d,
          TypedRect_f32__UnknownUnit rect_a,
          TypedRect_f32__LayoutUnit rect_b,
          Rect_f32 rect_c,
          LayoutRect rect_d,
          TypedTransform2D_f32__UnknownUnit__LayoutUnit transform_a,
          TypedTransform2D_f32__LayoutUnit__UnknownUnit transform_b);

#ifdef __cplusplus
}  // extern ""C""
#endif  // __cplusplus
".
(** tests/expectations/euclid_tag.compat.c *)
Definition euclid_compat_tag : string := "#include <stdarg.h>
#include <stdbool.h>
#include <stdint.h>
#include <stdlib.h>

struct TypedLength_f32__UnknownUnit {
  float _0;
};

struct TypedLength_f32__LayoutUnit {
  float _0;
};

typedef struct TypedLength_f32__UnknownUnit Length_f32;

typedef struct TypedLength_f32__LayoutUnit LayoutLength;

struct TypedSideOffsets2D_f32__UnknownUnit {
  float top;
  float right;
  float bottom;
  float left;
};

struct TypedSideOffsets2D_f32__LayoutUnit {
  float top;
  float right;
  float bottom;
  float left;
};

typedef struct TypedSideOffsets2D_f32__UnknownUnit SideOffsets2D_f32;

typedef struct TypedSideOffsets2D_f32__LayoutUnit LayoutSideOffsets2D;

struct TypedSize2D_f32__UnknownUnit {
  float width;
  float height;
};

struct TypedSize2D_f32__LayoutUnit {
  float width;
  float height;
};

typedef struct TypedSize2D_f32__UnknownUnit Size2D_f32;

typedef struct TypedSize2D_f32__LayoutUnit LayoutSize2D;

struct TypedPoint2D_f32__UnknownUnit {
  float x;
  float y;
};

struct TypedPoint2D_f32__LayoutUnit {
  float x;
  float y;
};

typedef struct TypedPoint2D_f32__UnknownUnit Point2D_f32;

typedef struct TypedPoint2D_f32__LayoutUnit LayoutPoint2D;

struct TypedRect_f32__UnknownUnit {
  struct TypedPoint2D_f32__UnknownUnit origin;
  struct TypedSize2D_f32__UnknownUnit size;
};

struct TypedRect_f32__LayoutUnit {
  struct TypedPoint2D_f32__LayoutUnit origin;
  struct TypedSize2D_f32__LayoutUnit size;
};

typedef struct TypedRect_f32__UnknownUnit Rect_f32;

typedef struct TypedRect_f32__LayoutUnit LayoutRect;

struct TypedTransform2D_f32__UnknownUnit__LayoutUnit {
  float m11;
  float m12;
  float m21;
  float m22;
  float m31;
  float m32;
};

struct TypedTransform2D_f32__LayoutUnit__UnknownUnit {
  float m11;
  float m12;
  float m21;
  float m22;
  float m31;
  float m32;
};

#ifdef __cplusplus
extern ""C"" {
#endif // __cplusplus

void root(struct TypedLength_f32__UnknownUnit length_a,
          struct TypedLength_f32__LayoutUnit length_b,
          Length_f32 length_c,
          LayoutLength length_d,
          struct TypedSideOffsets2D_f32__UnknownUnit side_offsets_a,
          struct TypedSideOffsets2D_f32__LayoutUnit side_offsets_b,
          SideOffsets2D_f32 side_offsets_c,
          LayoutSideOffsets2D side_offsets_d,
          struct TypedSize2D_f32__UnknownUnit size_a,
          struct TypedSize2D_f32__LayoutUnit size_b,
          Size2D_f32 size_c,
          LayoutSize2D size_d,
          struct TypedPoint2D_f32__UnknownUnit point_a,
          struct TypedPoint2D_f32__LayoutUnit point_b,
          Point2D_f32 point_c,
          LayoutPoint2D point_d,
          struct TypedRect_f32__UnknownUnit rect_a,
          struct TypedRect_f32__LayoutUnit rect_b,
          Rect_f32 rect_c,
          LayoutRect rect_d,
          struct TypedTransform2D_f32__UnknownUnit__LayoutUnit transform_a,
          struct TypedTransform2D_f32__LayoutUnit__UnknownUnit transform_b);

#ifdef __cplusplus
}  // extern ""C""
#endif  // __cplusplus
".
(** tests/expectations/euclid_both.compat.c *)
Definition euclid_compat_both : string := "#include <stdarg.h>
#include <stdbool.h>
#include <stdint.h>
#include <stdlib.h>

typedef struct TypedLength_f32__UnknownUnit {
  float _0;
} TypedLength_f32__UnknownUnit;

typedef struct TypedLength_f32__LayoutUnit {
  float _0;
} TypedLength_f32__LayoutUnit;

typedef struct TypedLength_f32__UnknownUnit Length_f32;

typedef struct TypedLength_f32__LayoutUnit LayoutLength;

typedef struct TypedSideOffsets2D_f32__UnknownUnit {
  float top;
  float right;
  float bottom;
  float left;
} TypedSideOffsets2D_f32__UnknownUnit;

typedef struct TypedSideOffsets2D_f32__LayoutUnit {
  float top;
  float right;
  float bottom;
  float left;
} TypedSideOffsets2D_f32__LayoutUnit;

typedef struct TypedSideOffsets2D_f32__UnknownUnit SideOffsets2D_f32;

typedef struct TypedSideOffsets2D_f32__LayoutUnit LayoutSideOffsets2D;

typedef struct TypedSize2D_f32__UnknownUnit {
  float width;
  float height;
} TypedSize2D_f32__UnknownUnit;

typedef struct TypedSize2D_f32__LayoutUnit {
  float width;
  float height;
} TypedSize2D_f32__LayoutUnit;

typedef struct TypedSize2D_f32__UnknownUnit Size2D_f32;

typedef struct TypedSize2D_f32__LayoutUnit LayoutSize2D;

typedef struct TypedPoint2D_f32__UnknownUnit {
  float x;
  float y;
} TypedPoint2D_f32__UnknownUnit;

typedef struct TypedPoint2D_f32__LayoutUnit {
  float x;
  float y;
} TypedPoint2D_f32__LayoutUnit;

typedef struct TypedPoint2D_f32__UnknownUnit Point2D_f32;

typedef struct TypedPoint2D_f32__LayoutUnit LayoutPoint2D;

typedef struct TypedRect_f32__UnknownUnit {
  struct TypedPoint2D_f32__UnknownUnit origin;
  struct TypedSize2D_f32__UnknownUnit size;
} TypedRect_f32__UnknownUnit;

typedef struct TypedRect_f32__LayoutUnit {
  struct TypedPoint2D_f32__LayoutUnit origin;
  struct TypedSize2D_f32__LayoutUnit size;
} TypedRect_f32__LayoutUnit;

typedef struct TypedRect_f32__UnknownUnit Rect_f32;

typedef struct TypedRect_f32__LayoutUnit LayoutRect;

typedef struct TypedTransform2D_f32__UnknownUnit__LayoutUnit {
  float m11;
  float m12;
  float m21;
  float m22;
  float m31;
  float m32;
} TypedTransform2D_f32__UnknownUnit__LayoutUnit;

typedef struct TypedTransform2D_f32__LayoutUnit__UnknownUnit {
  float m11;
  float m12;
  float m21;
  float m22;
  float m31;
  float m32;
} TypedTransform2D_f32__LayoutUnit__UnknownUnit;

#ifdef __cplusplus
extern ""C"" {
#endif // __cplusplus

void root(struct TypedLength_f32__UnknownUnit length_a,
          struct TypedLength_f32__LayoutUnit length_b,
          Length_f32 length_c,
          LayoutLength length_d,
          struct TypedSideOffsets2D_f32__UnknownUnit side_offsets_a,
          struct TypedSideOffsets2D_f32__LayoutUnit side_offsets_b,
          SideOffsets2D_f32 side_offsets_c,
          LayoutSideOffsets2D side_offsets_d,
          struct TypedSize2D_f32__UnknownUnit size_a,
          struct TypedSize2D_f32__LayoutUnit size_b,
          Size2D_f32 size_c,
          LayoutSize2D size_d,
          struct TypedPoint2D_f32__UnknownUnit point_a,
          struct TypedPoint2D_f32__LayoutUnit point_b,
          Point2D_f32 point_c,
          LayoutPoint2D point_d,
          struct TypedRect_f32__UnknownUnit rect_a,
          struct TypedRect_f32__LayoutUnit rect_b,
          Rect_f32 rect_c,
          LayoutRect rect_d,
          struct TypedTransform2D_f32__UnknownUnit__LayoutUnit transform_a,
          struct TypedTransform2D_f32__LayoutUnit__UnknownUnit transform_b);

#ifdef __cplusplus
}  // extern ""C""
#endif  // __cplusplus
".
(** tests/expectations/euclid.c *)
Definition euclid_c : string := "#include <stdarg.h>
#include <stdbool.h>
#include <stdint.h>
#include <stdlib.h>

typedef struct {
  float _0;
} TypedLength_f32__UnknownUnit;

typedef struct {
  float _0;
} TypedLength_f32__LayoutUnit;

typedef TypedLength_f32__UnknownUnit Length_f32;

typedef TypedLength_f32__LayoutUnit LayoutLength;

typedef struct {
  float top;
  float right;
  float bottom;
  float left;
} TypedSideOffsets2D_f32__UnknownUnit;

typedef struct {
  float top;
  float right;
  float bottom;
  float left;
} TypedSideOffsets2D_f32__LayoutUnit;

typedef TypedSideOffsets2D_f32__UnknownUnit SideOffsets2D_f32;

typedef TypedSideOffsets2D_f32__LayoutUnit LayoutSideOffsets2D;

typedef struct {
  float width;
  float height;
} TypedSize2D_f32__UnknownUnit;

typedef struct {
  float width;
  float height;
} TypedSize2D_f32__LayoutUnit;

typedef TypedSize2D_f32__UnknownUnit Size2D_f32;

typedef TypedSize2D_f32__LayoutUnit LayoutSize2D;

typedef struct {
  float x;
  float y;
} TypedPoint2D_f32__UnknownUnit;

typedef struct {
  float x;
  float y;
} TypedPoint2D_f32__LayoutUnit;

typedef TypedPoint2D_f32__UnknownUnit Point2D_f32;

typedef TypedPoint2D_f32__LayoutUnit LayoutPoint2D;

typedef struct {
  TypedPoint2D_f32__UnknownUnit origin;
  TypedSize2D_f32__UnknownUnit size;
} TypedRect_f32__UnknownUnit;

typedef struct {
  TypedPoint2D_f32__LayoutUnit origin;
  TypedSize2D_f32__LayoutUnit size;
} TypedRect_f32__LayoutUnit;

typedef TypedRect_f32__UnknownUnit Rect_f32;

typedef TypedRect_f32__LayoutUnit LayoutRect;

typedef struct {
  float m11;
  float m12;
  float m21;
  float m22;
  float m31;
  float m32;
} TypedTransform2D_f32__UnknownUnit__LayoutUnit;

typedef struct {
  float m11;
  float m12;
  float m21;
  float m22;
  float m31;
  float m32;
} TypedTransform2D_f32__LayoutUnit__UnknownUnit;

void root(TypedLength_f32__UnknownUnit length_a,
          TypedLength_f32__LayoutUnit length_b,
          Length_f32 length_c,
          LayoutLength length_d,
          TypedSideOffsets2D_f32__UnknownUnit side_offsets_a,
          TypedSideOffsets2D_f32__LayoutUnit side_offsets_b,
          SideOffsets2D_f32 side_offsets_c,
          LayoutSideOffsets2D side_offsets_d,
          TypedSize2D_f32__UnknownUnit size_a,
          TypedSize2D_f32__LayoutUnit size_b,
          Size2D_f32 size_c,
          LayoutSize2D size_d,
          TypedPoint2D_f32__UnknownUnit point_a,
          TypedPoint2D_f32__LayoutUnit point_b,
          Point2D_f32 point_c,
          LayoutPoint2D point_d,
          TypedRect_f32__UnknownUnit rect_a,
          TypedRect_f32__LayoutUnit rect_b,
          Rect_f32 rect_c,
          LayoutRect rect_d,
          TypedTransform2D_f32__UnknownUnit__LayoutUnit transform_a,
          TypedTransform2D_f32__LayoutUnit__UnknownUnit transform_b);
".
(** tests/expectations/euclid_tag.c *)
Definition euclid_c_tag : string := "#include <stdarg.h>
#include <stdbool.h>
#include <stdint.h>
#include <stdlib.h>

struct TypedLength_f32__UnknownUnit {
  float _0;
};

struct TypedLength_f32__LayoutUnit {
  float _0;
};

typedef struct TypedLength_f32__UnknownUnit Length_f32;

typedef struct TypedLength_f32__LayoutUnit LayoutLength;

struct TypedSideOffsets2D_f32__UnknownUnit {
  float top;
  float right;
  float bottom;
  float left;
};

struct TypedSideOffsets2D_f32__LayoutUnit {
  float top;
  float right;
  float bottom;
  float left;
};

typedef struct TypedSideOffsets2D_f32__UnknownUnit SideOffsets2D_f32;

typedef struct TypedSideOffsets2D_f32__LayoutUnit LayoutSideOffsets2D;

struct TypedSize2D_f32__UnknownUnit {
  float width;
  float height;
};

struct TypedSize2D_f32__LayoutUnit {
  float width;
  float height;
};

typedef struct TypedSize2D_f32__UnknownUnit Size2D_f32;

typedef struct TypedSize2D_f32__LayoutUnit LayoutSize2D;

struct TypedPoint2D_f32__UnknownUnit {
  float x;
  float y;
};

struct TypedPoint2D_f32__LayoutUnit {
  float x;
  float y;
};

typedef struct TypedPoint2D_f32__UnknownUnit Point2D_f32;

typedef struct TypedPoint2D_f32__LayoutUnit LayoutPoint2D;

struct TypedRect_f32__UnknownUnit {
  struct TypedPoint2D_f32__UnknownUnit origin;
  struct TypedSize2D_f32__UnknownUnit size;
};

struct TypedRect_f32__LayoutUnit {
  struct TypedPoint2D_f32__LayoutUnit origin;
  struct TypedSize2D_f32__LayoutUnit size;
};

typedef struct TypedRect_f32__UnknownUnit Rect_f32;

typedef struct TypedRect_f32__LayoutUnit LayoutRect;

struct TypedTransform2D_f32__UnknownUnit__LayoutUnit {
  float m11;
  float m12;
  float m21;
  float m22;
  float m31;
  float m32;
};

struct TypedTransform2D_f32__LayoutUnit__UnknownUnit {
  float m11;
  float m12;
  float m21;
  float m22;
  float m31;
  float m32;
};

void root(struct TypedLength_f32__UnknownUnit length_a,
          struct TypedLength_f32__LayoutUnit length_b,
          Length_f32 length_c,
          LayoutLength length_d,
          struct TypedSideOffsets2D_f32__UnknownUnit side_offsets_a,
          struct TypedSideOffsets2D_f32__LayoutUnit side_offsets_b,
          SideOffsets2D_f32 side_offsets_c,
          LayoutSideOffsets2D side_offsets_d,
          struct TypedSize2D_f32__UnknownUnit size_a,
          struct TypedSize2D_f32__LayoutUnit size_b,
          Size2D_f32 size_c,
          LayoutSize2D size_d,
          struct TypedPoint2D_f32__UnknownUnit point_a,
          struct TypedPoint2D_f32__LayoutUnit point_b,
          Point2D_f32 point_c,
          LayoutPoint2D point_d,
          struct TypedRect_f32__UnknownUnit rect_a,
          struct TypedRect_f32__LayoutUnit rect_b,
          Rect_f32 rect_c,
          LayoutRect rect_d,
          struct TypedTransform2D_f32__UnknownUnit__LayoutUnit transform_a,
          struct TypedTransform2D_f32__LayoutUnit__UnknownUnit transform_b);
".
(** tests/expectations/euclid_both.c *)
Definition euclid_c_both : string := "#include <stdarg.h>
#include <stdbool.h>
#include <stdint.h>
#include <stdlib.h>

typedef struct TypedLength_f32__UnknownUnit {
  float _0;
} TypedLength_f32__UnknownUnit;

typedef struct TypedLength_f32__LayoutUnit {
  float _0;
} TypedLength_f32__LayoutUnit;

typedef struct TypedLength_f32__UnknownUnit Length_f32;

typedef struct TypedLength_f32__LayoutUnit LayoutLength;

typedef struct TypedSideOffsets2D_f32__UnknownUnit {
  float top;
  float right;
  float bottom;
  float left;
} TypedSideOffsets2D_f32__UnknownUnit;

typedef struct TypedSideOffsets2D_f32__LayoutUnit {
  float top;
  float right;
  float bottom;
  float left;
} TypedSideOffsets2D_f32__LayoutUnit;

typedef struct TypedSideOffsets2D_f32__UnknownUnit SideOffsets2D_f32;

typedef struct TypedSideOffsets2D_f32__LayoutUnit LayoutSideOffsets2D;

typedef struct TypedSize2D_f32__UnknownUnit {
  float width;
  float height;
} TypedSize2D_f32__UnknownUnit;

typedef struct TypedSize2D_f32__LayoutUnit {
  float width;
  float height;
} TypedSize2D_f32__LayoutUnit;

typedef struct TypedSize2D_f32__UnknownUnit Size2D_f32;

typedef struct TypedSize2D_f32__LayoutUnit LayoutSize2D;

typedef struct TypedPoint2D_f32__UnknownUnit {
  float x;
  float y;
} TypedPoint2D_f32__UnknownUnit;

typedef struct TypedPoint2D_f32__LayoutUnit {
  float x;
  float y;
} TypedPoint2D_f32__LayoutUnit;

typedef struct TypedPoint2D_f32__UnknownUnit Point2D_f32;

typedef struct TypedPoint2D_f32__LayoutUnit LayoutPoint2D;

typedef struct TypedRect_f32__UnknownUnit {
  struct TypedPoint2D_f32__UnknownUnit origin;
  struct TypedSize2D_f32__UnknownUnit size;
} TypedRect_f32__UnknownUnit;

typedef struct TypedRect_f32__LayoutUnit {
  struct TypedPoint2D_f32__LayoutUnit origin;
  struct TypedSize2D_f32__LayoutUnit size;
} TypedRect_f32__LayoutUnit;

typedef struct TypedRect_f32__UnknownUnit Rect_f32;

typedef struct TypedRect_f32__LayoutUnit LayoutRect;

typedef struct TypedTransform2D_f32__UnknownUnit__LayoutUnit {
  float m11;
  float m12;
  float m21;
  float m22;
  float m31;
  float m32;
} TypedTransform2D_f32__UnknownUnit__LayoutUnit;

typedef struct TypedTransform2D_f32__LayoutUnit__UnknownUnit {
  float m11;
  float m12;
  float m21;
  float m22;
  float m31;
  float m32;
} TypedTransform2D_f32__LayoutUnit__UnknownUnit;

void root(struct TypedLength_f32__UnknownUnit length_a,
          struct TypedLength_f32__LayoutUnit length_b,
          Length_f32 length_c,
          LayoutLength length_d,
          struct TypedSideOffsets2D_f32__UnknownUnit side_offsets_a,
          struct TypedSideOffsets2D_f32__LayoutUnit side_offsets_b,
          SideOffsets2D_f32 side_offsets_c,
          LayoutSideOffsets2D side_offsets_d,
          struct TypedSize2D_f32__UnknownUnit size_a,
          struct TypedSize2D_f32__LayoutUnit size_b,
          Size2D_f32 size_c,
          LayoutSize2D size_d,
          struct TypedPoint2D_f32__UnknownUnit point_a,
          struct TypedPoint2D_f32__LayoutUnit point_b,
          Point2D_f32 point_c,
          LayoutPoint2D point_d,
          struct TypedRect_f32__UnknownUnit rect_a,
          struct TypedRect_f32__LayoutUnit rect_b,
          Rect_f32 rect_c,
          LayoutRect rect_d,
          struct TypedTransform2D_f32__UnknownUnit__LayoutUnit transform_a,
          struct TypedTransform2D_f32__LayoutUnit__UnknownUnit transform_b);
".
(** tests/expectations/euclid.cpp *)
Definition euclid_cpp : string := "#include <cstdarg>
#include <cstdint>
#include <cstdlib>
#include <ostream>
#include <new>

struct LayoutUnit;

struct UnknownUnit;

template<typename T, typename Unit>
struct TypedLength {
  T _0;
};

template<typename T>
using Length = TypedLength<T, UnknownUnit>;

using LayoutLength = TypedLength<float, LayoutUnit>;

template<typename T, typename U>
struct TypedSideOffsets2D {
  T top;
  T right;
  T bottom;
  T left;
};

template<typename T>
using SideOffsets2D = TypedSideOffsets2D<T, UnknownUnit>;

using LayoutSideOffsets2D = TypedSideOffsets2D<float, LayoutUnit>;

template<typename T, typename U>
struct TypedSize2D {
  T width;
  T height;
};

template<typename T>
using Size2D = TypedSize2D<T, UnknownUnit>;

using LayoutSize2D = TypedSize2D<float, LayoutUnit>;

template<typename T, typename U>
struct TypedPoint2D {
  T x;
  T y;
};

template<typename T>
using Point2D = TypedPoint2D<T, UnknownUnit>;

using LayoutPoint2D = TypedPoint2D<float, LayoutUnit>;

template<typename T, typename U>
struct TypedRect {
  TypedPoint2D<T, U> origin;
  TypedSize2D<T, U> size;
};

template<typename T>
using Rect = TypedRect<T, UnknownUnit>;

using LayoutRect = TypedRect<float, LayoutUnit>;

template<typename T, typename Src, typename Dst>
struct TypedTransform2D {
  T m11;
  T m12;
  T m21;
  T m22;
  T m31;
  T m32;
};

extern ""C"" {

void root(TypedLength<float, UnknownUnit> length_a,
          TypedLength<float, LayoutUnit> length_b,
          Length<float> length_c,
          LayoutLength length_d,
          TypedSideOffsets2D<float, UnknownUnit> side_offsets_a,
          TypedSideOffsets2D<float, LayoutUnit> side_offsets_b,
          SideOffsets2D<float> side_offsets_c,
          LayoutSideOffsets2D side_offsets_d,
          TypedSize2D<float, UnknownUnit> size_a,
          TypedSize2D<float, LayoutUnit> size_b,
          Size2D<float> size_c,
          LayoutSize2D size_d,
          TypedPoint2D<float, UnknownUnit> point_a,
          TypedPoint2D<float, LayoutUnit> point_b,
          Point2D<float> point_c,
          LayoutPoint2D point_d,
          TypedRect<float, UnknownUnit> rect_a,
          TypedRect<float, LayoutUnit> rect_b,
          Rect<float> rect_c,
          LayoutRect rect_d,
          TypedTransform2D<float, UnknownUnit, LayoutUnit> transform_a,
          TypedTransform2D<float, LayoutUnit, UnknownUnit> transform_b);

}  // extern ""C""
".
(** tests/expectations/euclid.pyx *)
Definition euclid_pyx : string := "from libc.stdint cimport int8_t, int16_t, int32_t, int64_t, intptr_t
from libc.stdint cimport uint8_t, uint16_t, uint32_t, uint64_t, uintptr_t
cdef extern from *:
  ctypedef bint bool
  ctypedef struct va_list

cdef extern from *:

  ctypedef struct TypedLength_f32__UnknownUnit:
    float _0;

  ctypedef struct TypedLength_f32__LayoutUnit:
    float _0;

  ctypedef TypedLength_f32__UnknownUnit Length_f32;

  ctypedef TypedLength_f32__LayoutUnit LayoutLength;

  ctypedef struct TypedSideOffsets2D_f32__UnknownUnit:
    float top;
    float right;
    float bottom;
    float left;

  ctypedef struct TypedSideOffsets2D_f32__LayoutUnit:
    float top;
    float right;
    float bottom;
    float left;

  ctypedef TypedSideOffsets2D_f32__UnknownUnit SideOffsets2D_f32;

  ctypedef TypedSideOffsets2D_f32__LayoutUnit LayoutSideOffsets2D;

  ctypedef struct TypedSize2D_f32__UnknownUnit:
    float width;
    float height;

  ctypedef struct TypedSize2D_f32__LayoutUnit:
    float width;
    float height;

  ctypedef TypedSize2D_f32__UnknownUnit Size2D_f32;

  ctypedef TypedSize2D_f32__LayoutUnit LayoutSize2D;

  ctypedef struct TypedPoint2D_f32__UnknownUnit:
    float x;
    float y;

  ctypedef struct TypedPoint2D_f32__LayoutUnit:
    float x;
    float y;

  ctypedef TypedPoint2D_f32__UnknownUnit Point2D_f32;

  ctypedef TypedPoint2D_f32__LayoutUnit LayoutPoint2D;

  ctypedef struct TypedRect_f32__UnknownUnit:
    TypedPoint2D_f32__UnknownUnit origin;
    TypedSize2D_f32__UnknownUnit size;

  ctypedef struct TypedRect_f32__LayoutUnit:
    TypedPoint2D_f32__LayoutUnit origin;
    TypedSize2D_f32__LayoutUnit size;

  ctypedef TypedRect_f32__UnknownUnit Rect_f32;

  ctypedef TypedRect_f32__LayoutUnit LayoutRect;

  ctypedef struct TypedTransform2D_f32__UnknownUnit__LayoutUnit:
    float m11;
    float m12;
    float m21;
    float m22;
    float m31;
    float m32;

  ctypedef struct TypedTransform2D_f32__LayoutUnit__UnknownUnit:
    float m11;
    float m12;
    float m21;
    float m22;
    float m31;
    float m32;

  void root(TypedLength_f32__UnknownUnit length_a,
            TypedLength_f32__LayoutUnit length_b,
            Length_f32 length_c,
            LayoutLength length_d,
            TypedSideOffsets2D_f32__UnknownUnit side_offsets_a,
            TypedSideOffsets2D_f32__LayoutUnit side_offsets_b,
            SideOffsets2D_f32 side_offsets_c,
            LayoutSideOffsets2D side_offsets_d,
            TypedSize2D_f32__UnknownUnit size_a,
            TypedSize2D_f32__LayoutUnit size_b,
            Size2D_f32 size_c,
            LayoutSize2D size_d,
            TypedPoint2D_f32__UnknownUnit point_a,
            TypedPoint2D_f32__LayoutUnit point_b,
            Point2D_f32 point_c,
            LayoutPoint2D point_d,
            TypedRect_f32__UnknownUnit rect_a,
            TypedRect_f32__LayoutUnit rect_b,
            Rect_f32 rect_c,
            LayoutRect rect_d,
            TypedTransform2D_f32__UnknownUnit__LayoutUnit transform_a,
            TypedTransform2D_f32__LayoutUnit__UnknownUnit transform_b);
".
(** tests/expectations/euclid_tag.pyx *)
Definition euclid_pyx_tag : string := "from libc.stdint cimport int8_t, int16_t, int32_t, int64_t, intptr_t
from libc.stdint cimport uint8_t, uint16_t, uint32_t, uint64_t, uintptr_t
cdef extern from *:
  ctypedef bint bool
  ctypedef struct va_list

cdef extern from *:

  cdef struct TypedLength_f32__UnknownUnit:
    float _0;

  cdef struct TypedLength_f32__LayoutUnit:
    float _0;

  ctypedef TypedLength_f32__UnknownUnit Length_f32;

  ctypedef TypedLength_f32__LayoutUnit LayoutLength;

  cdef struct TypedSideOffsets2D_f32__UnknownUnit:
    float top;
    float right;
    float bottom;
    float left;

  cdef struct TypedSideOffsets2D_f32__LayoutUnit:
    float top;
    float right;
    float bottom;
    float left;

  ctypedef TypedSideOffsets2D_f32__UnknownUnit SideOffsets2D_f32;

  ctypedef TypedSideOffsets2D_f32__LayoutUnit LayoutSideOffsets2D;

  cdef struct TypedSize2D_f32__UnknownUnit:
    float width;
    float height;

  cdef struct TypedSize2D_f32__LayoutUnit:
    float width;
    float height;

  ctypedef TypedSize2D_f32__UnknownUnit Size2D_f32;

  ctypedef TypedSize2D_f32__LayoutUnit LayoutSize2D;

  cdef struct TypedPoint2D_f32__UnknownUnit:
    float x;
    float y;

  cdef struct TypedPoint2D_f32__LayoutUnit:
    float x;
    float y;

  ctypedef TypedPoint2D_f32__UnknownUnit Point2D_f32;

  ctypedef TypedPoint2D_f32__LayoutUnit LayoutPoint2D;

  cdef struct TypedRect_f32__UnknownUnit:
    TypedPoint2D_f32__UnknownUnit origin;
    TypedSize2D_f32__UnknownUnit size;

  cdef struct TypedRect_f32__LayoutUnit:
    TypedPoint2D_f32__LayoutUnit origin;
    TypedSize2D_f32__LayoutUnit size;

  ctypedef TypedRect_f32__UnknownUnit Rect_f32;

  ctypedef TypedRect_f32__LayoutUnit LayoutRect;

  cdef struct TypedTransform2D_f32__UnknownUnit__LayoutUnit:
    float m11;
    float m12;
    float m21;
    float m22;
    float m31;
    float m32;

  cdef struct TypedTransform2D_f32__LayoutUnit__UnknownUnit:
    float m11;
    float m12;
    float m21;
    float m22;
    float m31;
    float m32;

  void root(TypedLength_f32__UnknownUnit length_a,
            TypedLength_f32__LayoutUnit length_b,
            Length_f32 length_c,
            LayoutLength length_d,
            TypedSideOffsets2D_f32__UnknownUnit side_offsets_a,
            TypedSideOffsets2D_f32__LayoutUnit side_offsets_b,
            SideOffsets2D_f32 side_offsets_c,
            LayoutSideOffsets2D side_offsets_d,
            TypedSize2D_f32__UnknownUnit size_a,
            TypedSize2D_f32__LayoutUnit size_b,
            Size2D_f32 size_c,
            LayoutSize2D size_d,
            TypedPoint2D_f32__UnknownUnit point_a,
            TypedPoint2D_f32__LayoutUnit point_b,
            Point2D_f32 point_c,
            LayoutPoint2D point_d,
            TypedRect_f32__UnknownUnit rect_a,
            TypedRect_f32__LayoutUnit rect_b,
            Rect_f32 rect_c,
            LayoutRect rect_d,
            TypedTransform2D_f32__UnknownUnit__LayoutUnit transform_a,
            TypedTransform2D_f32__LayoutUnit__UnknownUnit transform_b);
".
Example euclid_reproduced : reproduces (in_file euclid_rs) false default_config (Some "{
root;
};")
  [(RunC true Type_, [euclid_compat]);
   (RunC true Tag, [euclid_compat_tag]);
   (RunC true Both, [euclid_compat_both]);
   (RunC false Type_, [euclid_c]);
   (RunC false Tag, [euclid_c_tag]);
   (RunC false Both, [euclid_c_both]);
   (RunCxx, [euclid_cpp]);
   (RunCython Type_, [euclid_pyx]);
   (RunCython Tag, [euclid_pyx_tag])] = true.
Proof. vm_compute. reflexivity. Qed.

(** ** tests/rust/exclude_generic_monomorph.rs *)
Definition exclude_generic_monomorph_rs : list sitem := [
  (ItemStruct [{| at_meta := (AList (Some "repr") [(APath (Some "transparent"))]); at_outer := true |}] "Foo" [] (FieldsUnnamed [{|
  sf_attrs := []; sf_ident := None; sf_ty := (SPath (SegPath [] "NonZeroU64" NoArgs)) |}]));
  (ItemStruct [{| at_meta := (AList (Some "repr") [(APath (Some "C"))]); at_outer := true |}] "Bar" [] (FieldsNamed [{| sf_attrs :=
  []; sf_ident := (Some "foo"); sf_ty := (SPath (SegPath [] "Option" (AngleArgs [(ArgType (SPath (SegPath [] "Foo" NoArgs)))]))) |}]));
  (ItemFn [{| at_meta := (APath (Some "no_mangle")); at_outer := true |}] true {| sg_ident := "root"; sg_abi := (Some (Some "C")); sg_inputs
  := [(FnTyped (PatIdent "f") (SPath (SegPath [] "Bar" NoArgs)))]; sg_variadic := false; sg_output := None |})].
Definition exclude_generic_monomorph_toml : Config := {| header := (Some "#include <stdint.h>

#if 0
''' '
#endif

typedef uint64_t Option_Foo;

#if 0
' '''
#endif

#if 0
from libc.stdint cimport uint64_t
ctypedef uint64_t Option_Foo
#endif
"); includes_ := []; sys_includes_ := []; after_includes := None; trailer := None;
  include_guard_ := None; pragma_once := false; no_includes := false; package_version := false; autogen_warning := None; include_version := false;
  namespace := None; namespaces := None; using_namespaces := None; braces := SameLine; line_length := 100; tab_width := 2; line_endings := LF;
  language := M_Config.C; cpp_compat := false; style := Both; sort_by := SortNone; usize_is_size_t := false; parse := default_parse; export := {| ex_include := []; ex_exclude := ["Option_Foo"]; ex_rename := []; ex_pre_body := []; ex_body := []; ex_prefix := None; ex_item_types := []; ex_renaming_overrides_prefixing := false; ex_mangle := {| rename_types := RNone; remove_underscores := false |} |};
  layout := {| ly_packed := None; ly_aligned_n := None |}; function := {| fn_prefix := None; fn_postfix := None; fn_must_use := None; fn_deprecated := None; fn_deprecated_with_note := None; fn_args := Auto; fn_rename_args := RNone; fn_swift_name_macro := None; fn_sort_by := None; fn_no_return := None |}; structure := {| st_rename_fields := RNone; st_derive_constructor := false; st_derive_eq := false; st_derive_neq := false; st_derive_lt := false; st_derive_lte := false; st_derive_gt := false; st_derive_gte := false; st_derive_ostream := false; st_associated_constants_in_body := false; st_rename_associated_constant := RNone; st_must_use := None; st_deprecated := None; st_deprecated_with_note := None |}; enumeration := {| en_rename_variants := RNone; en_rename_variant_name_fields := SnakeCase; en_add_sentinel := false; en_prefix_with_name := false; en_derive_helper_methods := false; en_derive_const_casts := false; en_derive_mut_casts := false; en_cast_assert_name := None; en_must_use := None; en_deprecated := None; en_deprecated_with_note := None; en_deprecated_variant := None; en_deprecated_variant_with_note := None; en_derive_tagged_enum_destructor := false; en_derive_tagged_enum_copy_constructor := false; en_derive_tagged_enum_copy_assignment := false; en_derive_ostream := false; en_enum_class := true; en_private_default_tagged_enum_constructor := false |}; constant := {| co_allow_static_const := true; co_allow_constexpr := true; co_sort_by := None |}; defines := []; documentation := true;
  documentation_style := DocAuto; documentation_length := Full; pointer := {| pt_non_null_attribute := None; pt_nullable_attribute := None |}; cython := {| cy_header := None; cy_cimports := [] |}; config_path := None |}.
(** tests/expectations/exclude_generic_monomorph.compat.c *)
Definition exclude_generic_monomorph_compat : string := "#include <stdint.h>

#if 0
''' '
#endif

typedef uint64_t Option_Foo;

#if 0
' '''
#endif

#if 0
from libc.stdint cimport uint64_t
ctypedef uint64_t Option_Foo
#endif


#include <stdarg.h>
#include <stdbool.h>
#include <stdint.h>
#include <stdlib.h>

typedef struct {
  Option_Foo foo;
} Bar;

#ifdef __cplusplus
extern ""C"" {
#endif // __cplusplus

void root(Bar f);

#ifdef __cplusplus
}  // extern ""C""
#endif  // __cplusplus
".
(** tests/expectations/exclude_generic_monomorph_tag.compat.c *)
Definition exclude_generic_monomorph_compat_tag : string := "#include <stdint.h>

#if 0
''' '
#endif

typedef uint64_t Option_Foo;

#if 0
' '''
#endif

#if 0
from libc.stdint cimport uint64_t
ctypedef uint64_t Option_Foo
#endif


#include <stdarg.h>
#include <stdbool.h>
#include <stdint.h>
#include <stdlib.h>

struct Bar {
  Option_Foo foo;
};

#ifdef __cplusplus
extern ""C"" {
#endif // __cplusplus

void root(struct Bar f);

#ifdef __cplusplus
}  // extern ""C""
#endif  // __cplusplus
".
(** tests/expectations/exclude_generic_monomorph_both.compat.c *)
Definition exclude_generic_monomorph_compat_both : string := "#include <stdint.h>

#if 0
''' '
#endif

typedef uint64_t Option_Foo;

#if 0
' '''
#endif

#if 0
from libc.stdint cimport uint64_t
ctypedef uint64_t Option_Foo
#endif


#include <stdarg.h>
#include <stdbool.h>
#include <stdint.h>
#include <stdlib.h>

typedef struct Bar {
  Option_Foo foo;
} Bar;

#ifdef __cplusplus
extern ""C"" {
#endif // __cplusplus

void root(struct Bar f);

#ifdef __cplusplus
}  // extern ""C""
#endif  // __cplusplus
".
(** tests/expectations/exclude_generic_monomorph.c *)
Definition exclude_generic_monomorph_c : string := "#include <stdint.h>

#if 0
''' '
#endif

typedef uint64_t Option_Foo;

#if 0
' '''
#endif

#if 0
from libc.stdint cimport uint64_t
ctypedef uint64_t Option_Foo
#endif


#include <stdarg.h>
#include <stdbool.h>
#include <stdint.h>
#include <stdlib.h>

typedef struct {
  Option_Foo foo;
} Bar;

void root(Bar f);
".
(** tests/expectations/exclude_generic_monomorph_tag.c *)
Definition exclude_generic_monomorph_c_tag : string := "#include <stdint.h>

#if 0
''' '
#endif

typedef uint64_t Option_Foo;

#if 0
' '''
#endif

#if 0
from libc.stdint cimport uint64_t
ctypedef uint64_t Option_Foo
#endif


#include <stdarg.h>
#include <stdbool.h>
#include <stdint.h>
#include <stdlib.h>

struct Bar {
  Option_Foo foo;
};

void root(struct Bar f);
".
(** tests/expectations/exclude_generic_monomorph_both.c *)
Definition exclude_generic_monomorph_c_both : string := "#include <stdint.h>

#if 0
''' '
#endif

typedef uint64_t Option_Foo;

#if 0
' '''
#endif

#if 0
from libc.stdint cimport uint64_t
ctypedef uint64_t Option_Foo
#endif


#include <stdarg.h>
#include <stdbool.h>
#include <stdint.h>
#include <stdlib.h>

typedef struct Bar {
  Option_Foo foo;
} Bar;

void root(struct Bar f);
".
(** tests/expectations/exclude_generic_monomorph.cpp *)
Definition exclude_generic_monomorph_cpp : string := "#include <stdint.h>

#if 0
''' '
#endif

typedef uint64_t Option_Foo;

#if 0
' '''
#endif

#if 0
from libc.stdint cimport uint64_t
ctypedef uint64_t Option_Foo
#endif


#include <stdarg.h>
#include <stdbool.h>
#include <stdint.h>
#include <stdlib.h>

typedef struct Bar {
  Option_Foo foo;
} Bar;

void root(struct Bar f);
".
(** tests/expectations/exclude_generic_monomorph.pyx *)
Definition exclude_generic_monomorph_pyx : string := "#include <stdint.h>

#if 0
''' '
#endif

typedef uint64_t Option_Foo;

#if 0
' '''
#endif

#if 0
from libc.stdint cimport uint64_t
ctypedef uint64_t Option_Foo
#endif


from libc.stdint cimport int8_t, int16_t, int32_t, int64_t, intptr_t
from libc.stdint cimport uint8_t, uint16_t, uint32_t, uint64_t, uintptr_t
cdef extern from *:
  ctypedef bint bool
  ctypedef struct va_list

cdef extern from *:

  ctypedef struct Bar:
    Option_Foo foo;

  void root(Bar f);
".
(** tests/expectations/exclude_generic_monomorph_tag.pyx *)
Definition exclude_generic_monomorph_pyx_tag : string := "#include <stdint.h>

#if 0
''' '
#endif

typedef uint64_t Option_Foo;

#if 0
' '''
#endif

#if 0
from libc.stdint cimport uint64_t
ctypedef uint64_t Option_Foo
#endif


from libc.stdint cimport int8_t, int16_t, int32_t, int64_t, intptr_t
from libc.stdint cimport uint8_t, uint16_t, uint32_t, uint64_t, uintptr_t
cdef extern from *:
  ctypedef bint bool
  ctypedef struct va_list

cdef extern from *:

  cdef struct Bar:
    Option_Foo foo;

  void root(Bar f);
".
Example exclude_generic_monomorph_reproduced : reproduces (in_file exclude_generic_monomorph_rs) false exclude_generic_monomorph_toml (Some "{
root;
};")
  [(RunC true Type_, [exclude_generic_monomorph_compat]);
   (RunC true Tag, [exclude_generic_monomorph_compat_tag]);
   (RunC true Both, [exclude_generic_monomorph_compat_both]);
   (RunC false Type_, [exclude_generic_monomorph_c]);
   (RunC false Tag, [exclude_generic_monomorph_c_tag]);
   (RunC false Both, [exclude_generic_monomorph_c_both]);
   (RunCxx, [exclude_generic_monomorph_cpp]);
   (RunCython Type_, [exclude_generic_monomorph_pyx]);
   (RunCython Tag, [exclude_generic_monomorph_pyx_tag])] = true.
Proof. vm_compute. reflexivity. Qed.

(** ** tests/rust/export_name.rs *)
Definition export_name_rs : list sitem := [
  (ItemFn [{| at_meta := (ANameValue (Some "export_name") (Some "do_the_thing_with_export_name")); at_outer := true |}] true {| sg_ident
  := "do_the_thing"; sg_abi := (Some (Some "C")); sg_inputs := []; sg_variadic := false; sg_output := None |});
  (ItemFn [{| at_meta := (AList (Some "unsafe") [(ANameValue (Some "export_name") (Some "do_the_thing_with_unsafe_export_name"))]);
  at_outer := true |}] true {| sg_ident := "unsafe_do_the_thing"; sg_abi := (Some (Some "C")); sg_inputs := []; sg_variadic := false;
  sg_output := None |})].
(** tests/expectations/export_name.compat.c *)
Definition export_name_compat : string := "#include <stdarg.h>
#include <stdbool.h>
#include <stdint.h>
#include <stdlib.h>

#ifdef __cplusplus
extern ""C"" {
#endif // __cplusplus

void do_the_thing_with_export_name(void);

void do_the_thing_with_unsafe_export_name(void);

#ifdef __cplusplus
}  // extern ""C""
#endif  // __cplusplus
".
(** tests/expectations/export_name.c *)
Definition export_name_c : string := "#include <stdarg.h>
#include <stdbool.h>
#include <stdint.h>
#include <stdlib.h>

void do_the_thing_with_export_name(void);

void do_the_thing_with_unsafe_export_name(void);
".
(** tests/expectations/export_name.cpp *)
Definition export_name_cpp : string := "#include <cstdarg>
#include <cstdint>
#include <cstdlib>
#include <ostream>
#include <new>

extern ""C"" {

void do_the_thing_with_export_name();

void do_the_thing_with_unsafe_export_name();

}  // extern ""C""
".
(** tests/expectations/export_name.pyx *)
Definition export_name_pyx : string := "from libc.stdint cimport int8_t, int16_t, int32_t, int64_t, intptr_t
from libc.stdint cimport uint8_t, uint16_t, uint32_t, uint64_t, uintptr_t
cdef extern from *:
  ctypedef bint bool
  ctypedef struct va_list

cdef extern from *:

  void do_the_thing_with_export_name();

  void do_the_thing_with_unsafe_export_name();
".
Example export_name_reproduced : reproduces (in_file export_name_rs) false default_config (Some "{
do_the_thing_with_export_name;
do_the_thing_with_unsafe_export_name;
};")
  [(RunC true Type_, [export_name_compat]);
   (RunC true Tag, [export_name_compat]);
   (RunC true Both, [export_name_compat]);
   (RunC false Type_, [export_name_c]);
   (RunC false Tag, [export_name_compat; export_name_c]);
   (RunC false Both, [export_name_compat; export_name_c]);
   (RunCxx, [export_name_cpp]);
   (RunCython Type_, [export_name_pyx]);
   (RunCython Tag, [export_name_pyx])] = true.
Proof. vm_compute. reflexivity. Qed.

(** ** tests/rust/extern.rs *)
Definition extern_rs : list sitem := [
  (ItemStruct [{| at_meta := (AList (Some "repr") [(APath (Some "C"))]); at_outer := true |}] "Normal" [] (FieldsNamed [{| sf_attrs
  := []; sf_ident := (Some "x"); sf_ty := (SPath (SegPath [] "i32" NoArgs)) |}; {| sf_attrs := []; sf_ident := (Some "y"); sf_ty :=
  (SPath (SegPath [] "f32" NoArgs)) |}]));
  (ItemForeignMod [] (Some "C") [(Some ([], {| sg_ident := "foo"; sg_abi := None; sg_inputs := []; sg_variadic := false; sg_output :=
  (Some (SPath (SegPath [] "i32" NoArgs))) |})); (Some ([], {| sg_ident := "bar"; sg_abi := None; sg_inputs := [(FnTyped (PatIdent
  "a") (SPath (SegPath [] "Normal" NoArgs)))]; sg_variadic := false; sg_output := None |}))]);
  (ItemForeignMod [] None [(Some ([], {| sg_ident := "baz"; sg_abi := None; sg_inputs := []; sg_variadic := false; sg_output := (Some
  (SPath (SegPath [] "i32" NoArgs))) |}))])].
(** tests/expectations/extern.compat.c *)
Definition extern_compat : string := "#include <stdarg.h>
#include <stdbool.h>
#include <stdint.h>
#include <stdlib.h>

typedef struct {
  int32_t x;
  float y;
} Normal;

#ifdef __cplusplus
extern ""C"" {
#endif // __cplusplus

extern int32_t foo(void);

extern void bar(Normal a);

extern int32_t baz(void);

#ifdef __cplusplus
}  // extern ""C""
#endif  // __cplusplus
".
(** tests/expectations/extern_tag.compat.c *)
Definition extern_compat_tag : string := "#include <stdarg.h>
#include <stdbool.h>
#include <stdint.h>
#include <stdlib.h>

struct Normal {
  int32_t x;
  float y;
};

#ifdef __cplusplus
extern ""C"" {
#endif // __cplusplus

extern int32_t foo(void);

extern void bar(struct Normal a);

extern int32_t baz(void);

#ifdef __cplusplus
}  // extern ""C""
#endif  // __cplusplus
".
(** tests/expectations/extern_both.compat.c *)
Definition extern_compat_both : string := "#include <stdarg.h>
#include <stdbool.h>
#include <stdint.h>
#include <stdlib.h>

typedef struct Normal {
  int32_t x;
  float y;
} Normal;

#ifdef __cplusplus
extern ""C"" {
#endif // __cplusplus

extern int32_t foo(void);

extern void bar(struct Normal a);

extern int32_t baz(void);

#ifdef __cplusplus
}  // extern ""C""
#endif  // __cplusplus
".
(** tests/expectations/extern.c *)
Definition extern_c : string := "#include <stdarg.h>
#include <stdbool.h>
#include <stdint.h>
#include <stdlib.h>

typedef struct {
  int32_t x;
  float y;
} Normal;

extern int32_t foo(void);

extern void bar(Normal a);

extern int32_t baz(void);
".
(** tests/expectations/extern_tag.c *)
Definition extern_c_tag : string := "#include <stdarg.h>
#include <stdbool.h>
#include <stdint.h>
#include <stdlib.h>

struct Normal {
  int32_t x;
  float y;
};

extern int32_t foo(void);

extern void bar(struct Normal a);

extern int32_t baz(void);
".
(** tests/expectations/extern_both.c *)
Definition extern_c_both : string := "#include <stdarg.h>
#include <stdbool.h>
#include <stdint.h>
#include <stdlib.h>

typedef struct Normal {
  int32_t x;
  float y;
} Normal;

extern int32_t foo(void);

extern void bar(struct Normal a);

extern int32_t baz(void);
".
(** tests/expectations/extern.cpp *)
Definition extern_cpp : string := "#include <cstdarg>
#include <cstdint>
#include <cstdlib>
#include <ostream>
#include <new>

struct Normal {
  int32_t x;
  float y;
};

extern ""C"" {

extern int32_t foo();

extern void bar(Normal a);

extern int32_t baz();

}  // extern ""C""
".
(** tests/expectations/extern.pyx *)
Definition extern_pyx : string := "from libc.stdint cimport int8_t, int16_t, int32_t, int64_t, intptr_t
from libc.stdint cimport uint8_t, uint16_t, uint32_t, uint64_t, uintptr_t
cdef extern from *:
  ctypedef bint bool
  ctypedef struct va_list

cdef extern from *:

  ctypedef struct Normal:
    int32_t x;
    float y;

  extern int32_t foo();

  extern void bar(Normal a);

  extern int32_t baz();
".
(** tests/expectations/extern_tag.pyx *)
Definition extern_pyx_tag : string := "from libc.stdint cimport int8_t, int16_t, int32_t, int64_t, intptr_t
from libc.stdint cimport uint8_t, uint16_t, uint32_t, uint64_t, uintptr_t
cdef extern from *:
  ctypedef bint bool
  ctypedef struct va_list

cdef extern from *:

  cdef struct Normal:
    int32_t x;
    float y;

  extern int32_t foo();

  extern void bar(Normal a);

  extern int32_t baz();
".
Example extern_reproduced : reproduces (in_file extern_rs) false default_config (Some "{
foo;
bar;
baz;
};")
  [(RunC true Type_, [extern_compat]);
   (RunC true Tag, [extern_compat_tag]);
   (RunC true Both, [extern_compat_both]);
   (RunC false Type_, [extern_c]);
   (RunC false Tag, [extern_c_tag]);
   (RunC false Both, [extern_c_both]);
   (RunCxx, [extern_cpp]);
   (RunCython Type_, [extern_pyx]);
   (RunCython Tag, [extern_pyx_tag])] = true.
Proof. vm_compute. reflexivity. Qed.

(** ** tests/rust/extern_2.rs *)
Definition extern_2_rs : list sitem := [
  (ItemFn [{| at_meta := (APath (Some "no_mangle")); at_outer := true |}] true {| sg_ident := "first"; sg_abi := (Some (Some "C"));
  sg_inputs := []; sg_variadic := false; sg_output := None |});
  (ItemFn [{| at_meta := (APath (Some "no_mangle")); at_outer := true |}] true {| sg_ident := "second"; sg_abi := (Some None); sg_inputs
  := []; sg_variadic := false; sg_output := None |});
  (ItemFn [{| at_meta := (APath (Some "no_mangle")); at_outer := true |}] true {| sg_ident := "third"; sg_abi := None; sg_inputs :=
  []; sg_variadic := false; sg_output := None |})].
(** tests/expectations/extern_2.compat.c *)
Definition extern_2_compat : string := "#include <stdarg.h>
#include <stdbool.h>
#include <stdint.h>
#include <stdlib.h>

#ifdef __cplusplus
extern ""C"" {
#endif // __cplusplus

void first(void);

void second(void);

#ifdef __cplusplus
}  // extern ""C""
#endif  // __cplusplus
".
(** tests/expectations/extern_2.c *)
Definition extern_2_c : string := "#include <stdarg.h>
#include <stdbool.h>
#include <stdint.h>
#include <stdlib.h>

void first(void);

void second(void);
".
(** tests/expectations/extern_2.cpp *)
Definition extern_2_cpp : string := "#include <cstdarg>
#include <cstdint>
#include <cstdlib>
#include <ostream>
#include <new>

extern ""C"" {

void first();

void second();

}  // extern ""C""
".
(** tests/expectations/extern_2.pyx *)
Definition extern_2_pyx : string := "from libc.stdint cimport int8_t, int16_t, int32_t, int64_t, intptr_t
from libc.stdint cimport uint8_t, uint16_t, uint32_t, uint64_t, uintptr_t
cdef extern from *:
  ctypedef bint bool
  ctypedef struct va_list

cdef extern from *:

  void first();

  void second();
".
Example extern_2_reproduced : reproduces (in_file extern_2_rs) false default_config (Some "{
first;
second;
};")
  [(RunC true Type_, [extern_2_compat]);
   (RunC true Tag, [extern_2_compat]);
   (RunC true Both, [extern_2_compat]);
   (RunC false Type_, [extern_2_c]);
   (RunC false Tag, [extern_2_compat; extern_2_c]);
   (RunC false Both, [extern_2_compat; extern_2_c]);
   (RunCxx, [extern_2_cpp]);
   (RunCython Type_, [extern_2_pyx]);
   (RunCython Tag, [extern_2_pyx])] = true.
Proof. vm_compute. reflexivity. Qed.

(** ** tests/rust/fns.rs *)
Definition fns_rs : list sitem := [
  (ItemStruct [{| at_meta := (AList (Some "repr") [(APath (Some "C"))]); at_outer := true |}] "Fns" [] (FieldsNamed [{| sf_attrs :=
  []; sf_ident := (Some "noArgs"); sf_ty := (SFnPtr [] false None) |}; {| sf_attrs := []; sf_ident := (Some "anonymousArg"); sf_ty
  := (SFnPtr [(None, (SPath (SegPath [] "i32" NoArgs)))] false None) |}; {| sf_attrs := []; sf_ident := (Some "returnsNumber"); sf_ty
  := (SFnPtr [] false (Some (SPath (SegPath [] "i32" NoArgs)))) |}; {| sf_attrs := []; sf_ident := (Some "namedArgs"); sf_ty := (SFnPtr
  [((Some "first"), (SPath (SegPath [] "i32" NoArgs))); ((Some "snd"), (SPath (SegPath [] "i16" NoArgs)))] false (Some (SPath (SegPath
  [] "i8" NoArgs)))) |}; {| sf_attrs := []; sf_ident := (Some "namedArgsWildcards"); sf_ty := (SFnPtr [((Some "_"), (SPath (SegPath
  [] "i32" NoArgs))); ((Some "named"), (SPath (SegPath [] "i16" NoArgs))); ((Some "_"), (SPath (SegPath [] "i64" NoArgs)))] false
  (Some (SPath (SegPath [] "i8" NoArgs)))) |}]));
  (ItemFn [{| at_meta := (APath (Some "no_mangle")); at_outer := true |}] true {| sg_ident := "root"; sg_abi := (Some (Some "C")); sg_inputs
  := [(FnTyped (PatIdent "_fns") (SPath (SegPath [] "Fns" NoArgs)))]; sg_variadic := false; sg_output := None |});
  (ItemFn [{| at_meta := (APath (Some "no_mangle")); at_outer := true |}] true {| sg_ident := "no_return"; sg_abi := (Some (Some "C"));
  sg_inputs := []; sg_variadic := false; sg_output := (Some SNever) |})].
(** tests/expectations/fns.compat.c *)
Definition fns_compat : string := "#include <stdarg.h>
#include <stdbool.h>
#include <stdint.h>
#include <stdlib.h>

typedef struct {
  void (*noArgs)(void);
  void (*anonymousArg)(int32_t);
  int32_t (*returnsNumber)(void);
  int8_t (*namedArgs)(int32_t first, int16_t snd);
  int8_t (*namedArgsWildcards)(int32_t _, int16_t named, int64_t _1);
} Fns;

#ifdef __cplusplus
extern ""C"" {
#endif // __cplusplus

void root(Fns _fns);

void no_return(void);

#ifdef __cplusplus
}  // extern ""C""
#endif  // __cplusplus
".
(** tests/expectations/fns_tag.compat.c *)
Definition fns_compat_tag : string := "#include <stdarg.h>
#include <stdbool.h>
#include <stdint.h>
#include <stdlib.h>

struct Fns {
  void (*noArgs)(void);
  void (*anonymousArg)(int32_t);
  int32_t (*returnsNumber)(void);
  int8_t (*namedArgs)(int32_t first, int16_t snd);
  int8_t (*namedArgsWildcards)(int32_t _, int16_t named, int64_t _1);
};

#ifdef __cplusplus
extern ""C"" {
#endif // __cplusplus

void root(struct Fns _fns);

void no_return(void);

#ifdef __cplusplus
}  // extern ""C""
#endif  // __cplusplus
".
(** tests/expectations/fns_both.compat.c *)
Definition fns_compat_both : string := "#include <stdarg.h>
#include <stdbool.h>
#include <stdint.h>
#include <stdlib.h>

typedef struct Fns {
  void (*noArgs)(void);
  void (*anonymousArg)(int32_t);
  int32_t (*returnsNumber)(void);
  int8_t (*namedArgs)(int32_t first, int16_t snd);
  int8_t (*namedArgsWildcards)(int32_t _, int16_t named, int64_t _1);
} Fns;

#ifdef __cplusplus
extern ""C"" {
#endif // __cplusplus

void root(struct Fns _fns);

void no_return(void);

#ifdef __cplusplus
}  // extern ""C""
#endif  // __cplusplus
".
(** tests/expectations/fns.c *)
Definition fns_c : string := "#include <stdarg.h>
#include <stdbool.h>
#include <stdint.h>
#include <stdlib.h>

typedef struct {
  void (*noArgs)(void);
  void (*anonymousArg)(int32_t);
  int32_t (*returnsNumber)(void);
  int8_t (*namedArgs)(int32_t first, int16_t snd);
  int8_t (*namedArgsWildcards)(int32_t _, int16_t named, int64_t _1);
} Fns;

void root(Fns _fns);

void no_return(void);
".
(** tests/expectations/fns_tag.c *)
Definition fns_c_tag : string := "#include <stdarg.h>
#include <stdbool.h>
#include <stdint.h>
#include <stdlib.h>

struct Fns {
  void (*noArgs)(void);
  void (*anonymousArg)(int32_t);
  int32_t (*returnsNumber)(void);
  int8_t (*namedArgs)(int32_t first, int16_t snd);
  int8_t (*namedArgsWildcards)(int32_t _, int16_t named, int64_t _1);
};

void root(struct Fns _fns);

void no_return(void);
".
(** tests/expectations/fns_both.c *)
Definition fns_c_both : string := "#include <stdarg.h>
#include <stdbool.h>
#include <stdint.h>
#include <stdlib.h>

typedef struct Fns {
  void (*noArgs)(void);
  void (*anonymousArg)(int32_t);
  int32_t (*returnsNumber)(void);
  int8_t (*namedArgs)(int32_t first, int16_t snd);
  int8_t (*namedArgsWildcards)(int32_t _, int16_t named, int64_t _1);
} Fns;

void root(struct Fns _fns);

void no_return(void);
".
(** tests/expectations/fns.cpp *)
Definition fns_cpp : string := "#include <cstdarg>
#include <cstdint>
#include <cstdlib>
#include <ostream>
#include <new>

struct Fns {
  void (*noArgs)();
  void (*anonymousArg)(int32_t);
  int32_t (*returnsNumber)();
  int8_t (*namedArgs)(int32_t first, int16_t snd);
  int8_t (*namedArgsWildcards)(int32_t _, int16_t named, int64_t _1);
};

extern ""C"" {

void root(Fns _fns);

void no_return();

}  // extern ""C""
".
(** tests/expectations/fns.pyx *)
Definition fns_pyx : string := "from libc.stdint cimport int8_t, int16_t, int32_t, int64_t, intptr_t
from libc.stdint cimport uint8_t, uint16_t, uint32_t, uint64_t, uintptr_t
cdef extern from *:
  ctypedef bint bool
  ctypedef struct va_list

cdef extern from *:

  ctypedef struct Fns:
    void (*noArgs)();
    void (*anonymousArg)(int32_t);
    int32_t (*returnsNumber)();
    int8_t (*namedArgs)(int32_t first, int16_t snd);
    int8_t (*namedArgsWildcards)(int32_t _, int16_t named, int64_t _1);

  void root(Fns _fns);

  void no_return();
".
(** tests/expectations/fns_tag.pyx *)
Definition fns_pyx_tag : string := "from libc.stdint cimport int8_t, int16_t, int32_t, int64_t, intptr_t
from libc.stdint cimport uint8_t, uint16_t, uint32_t, uint64_t, uintptr_t
cdef extern from *:
  ctypedef bint bool
  ctypedef struct va_list

cdef extern from *:

  cdef struct Fns:
    void (*noArgs)();
    void (*anonymousArg)(int32_t);
    int32_t (*returnsNumber)();
    int8_t (*namedArgs)(int32_t first, int16_t snd);
    int8_t (*namedArgsWildcards)(int32_t _, int16_t named, int64_t _1);

  void root(Fns _fns);

  void no_return();
".
Example fns_reproduced : reproduces (in_file fns_rs) false default_config (Some "{
root;
no_return;
};")
  [(RunC true Type_, [fns_compat]);
   (RunC true Tag, [fns_compat_tag]);
   (RunC true Both, [fns_compat_both]);
   (RunC false Type_, [fns_c]);
   (RunC false Tag, [fns_c_tag]);
   (RunC false Both, [fns_c_both]);
   (RunCxx, [fns_cpp]);
   (RunCython Type_, [fns_pyx]);
   (RunCython Tag, [fns_pyx_tag])] = true.
Proof. vm_compute. reflexivity. Qed.

(** ** tests/rust/forward_declaration.rs *)
Definition forward_declaration_rs : list sitem := [
  (ItemStruct [{| at_meta := (AList (Some "repr") [(APath (Some "C"))]); at_outer := true |}] "TypeInfo" [] (FieldsNamed [{| sf_attrs
  := []; sf_ident := (Some "data"); sf_ty := (SPath (SegPath [] "TypeData" NoArgs)) |}]));
  (ItemEnum [{| at_meta := (AList (Some "repr") [(APath (Some "C"))]); at_outer := true |}] "TypeData" [] [{| sv_attrs := []; sv_ident
  := "Primitive"; sv_fields := FieldsUnit; sv_discriminant := None |}; {| sv_attrs := []; sv_ident := "Struct"; sv_fields := (FieldsUnnamed
  [{| sf_attrs := []; sf_ident := None; sf_ty := (SPath (SegPath [] "StructInfo" NoArgs)) |}]); sv_discriminant := None |}]);
  (ItemStruct [{| at_meta := (AList (Some "repr") [(APath (Some "C"))]); at_outer := true |}] "StructInfo" [] (FieldsNamed [{| sf_attrs
  := []; sf_ident := (Some "fields"); sf_ty := (SPtr false (SPtr false (SPath (SegPath [] "TypeInfo" NoArgs)))) |}; {| sf_attrs :=
  []; sf_ident := (Some "num_fields"); sf_ty := (SPath (SegPath [] "usize" NoArgs)) |}]));
  (ItemFn [{| at_meta := (APath (Some "no_mangle")); at_outer := true |}] true {| sg_ident := "root"; sg_abi := (Some (Some "C")); sg_inputs
  := [(FnTyped (PatIdent "x") (SPath (SegPath [] "TypeInfo" NoArgs)))]; sg_variadic := false; sg_output := None |})].
Definition forward_declaration_toml : Config := {| header := (Some "#if 0
''' '
#endif
#if defined(CBINDGEN_STYLE_TYPE)
/* ANONYMOUS STRUCTS DO NOT SUPPORT FORWARD DECLARATIONS!
#endif
#if 0
' '''
#endif
"); includes_ := []; sys_includes_ := []; after_includes := None; trailer := (Some "#if 0
''' '
#endif
#if defined(CBINDGEN_STYLE_TYPE)
*/
#endif
#if 0
' '''
#endif
");
  include_guard_ := None; pragma_once := false; no_includes := false; package_version := false; autogen_warning := None; include_version := false;
  namespace := None; namespaces := None; using_namespaces := None; braces := SameLine; line_length := 100; tab_width := 2; line_endings := LF;
  language := Cxx; cpp_compat := false; style := Both; sort_by := SortNone; usize_is_size_t := false; parse := default_parse; export := {| ex_include := []; ex_exclude := []; ex_rename := []; ex_pre_body := []; ex_body := []; ex_prefix := None; ex_item_types := []; ex_renaming_overrides_prefixing := false; ex_mangle := {| rename_types := RNone; remove_underscores := false |} |};
  layout := {| ly_packed := None; ly_aligned_n := None |}; function := {| fn_prefix := None; fn_postfix := None; fn_must_use := None; fn_deprecated := None; fn_deprecated_with_note := None; fn_args := Auto; fn_rename_args := RNone; fn_swift_name_macro := None; fn_sort_by := None; fn_no_return := None |}; structure := {| st_rename_fields := RNone; st_derive_constructor := false; st_derive_eq := false; st_derive_neq := false; st_derive_lt := false; st_derive_lte := false; st_derive_gt := false; st_derive_gte := false; st_derive_ostream := false; st_associated_constants_in_body := false; st_rename_associated_constant := RNone; st_must_use := None; st_deprecated := None; st_deprecated_with_note := None |}; enumeration := {| en_rename_variants := RNone; en_rename_variant_name_fields := SnakeCase; en_add_sentinel := false; en_prefix_with_name := false; en_derive_helper_methods := false; en_derive_const_casts := false; en_derive_mut_casts := false; en_cast_assert_name := None; en_must_use := None; en_deprecated := None; en_deprecated_with_note := None; en_deprecated_variant := None; en_deprecated_variant_with_note := None; en_derive_tagged_enum_destructor := false; en_derive_tagged_enum_copy_constructor := false; en_derive_tagged_enum_copy_assignment := false; en_derive_ostream := false; en_enum_class := true; en_private_default_tagged_enum_constructor := false |}; constant := {| co_allow_static_const := true; co_allow_constexpr := true; co_sort_by := None |}; defines := []; documentation := true;
  documentation_style := DocAuto; documentation_length := Full; pointer := {| pt_non_null_attribute := None; pt_nullable_attribute := None |}; cython := {| cy_header := None; cy_cimports := [] |}; config_path := None |}.
(** tests/expectations/forward_declaration.compat.c *)
Definition forward_declaration_compat : string := "#if 0
''' '
#endif
#if defined(CBINDGEN_STYLE_TYPE)
/* ANONYMOUS STRUCTS DO NOT SUPPORT FORWARD DECLARATIONS!
#endif
#if 0
' '''
#endif


#include <stdarg.h>
#include <stdbool.h>
#include <stdint.h>
#include <stdlib.h>

typedef struct {
  const TypeInfo *const *fields;
  uintptr_t num_fields;
} StructInfo;

typedef enum {
  Primitive,
  Struct,
} TypeData_Tag;

typedef struct {
  TypeData_Tag tag;
  union {
    struct {
      StructInfo struct_;
    };
  };
} TypeData;

typedef struct {
  TypeData data;
} TypeInfo;

#ifdef __cplusplus
extern ""C"" {
#endif // __cplusplus

void root(TypeInfo x);

#ifdef __cplusplus
}  // extern ""C""
#endif  // __cplusplus

#if 0
''' '
#endif
#if defined(CBINDGEN_STYLE_TYPE)
*/
#endif
#if 0
' '''
#endif
".
(** tests/expectations/forward_declaration_tag.compat.c *)
Definition forward_declaration_compat_tag : string := "#if 0
''' '
#endif
#if defined(CBINDGEN_STYLE_TYPE)
/* ANONYMOUS STRUCTS DO NOT SUPPORT FORWARD DECLARATIONS!
#endif
#if 0
' '''
#endif


#include <stdarg.h>
#include <stdbool.h>
#include <stdint.h>
#include <stdlib.h>

struct StructInfo {
  const struct TypeInfo *const *fields;
  uintptr_t num_fields;
};

enum TypeData_Tag {
  Primitive,
  Struct,
};

struct TypeData {
  enum TypeData_Tag tag;
  union {
    struct {
      struct StructInfo struct_;
    };
  };
};

struct TypeInfo {
  struct TypeData data;
};

#ifdef __cplusplus
extern ""C"" {
#endif // __cplusplus

void root(struct TypeInfo x);

#ifdef __cplusplus
}  // extern ""C""
#endif  // __cplusplus

#if 0
''' '
#endif
#if defined(CBINDGEN_STYLE_TYPE)
*/
#endif
#if 0
' '''
#endif
".
(** tests/expectations/forward_declaration_both.compat.c *)
Definition forward_declaration_compat_both : string := "#if 0
''' '
#endif
#if defined(CBINDGEN_STYLE_TYPE)
/* ANONYMOUS STRUCTS DO NOT SUPPORT FORWARD DECLARATIONS!
#endif
#if 0
' '''
#endif


#include <stdarg.h>
#include <stdbool.h>
#include <stdint.h>
#include <stdlib.h>

typedef struct StructInfo {
  const struct TypeInfo *const *fields;
  uintptr_t num_fields;
} StructInfo;

typedef enum TypeData_Tag {
  Primitive,
  Struct,
} TypeData_Tag;

typedef struct TypeData {
  TypeData_Tag tag;
  union {
    struct {
      struct StructInfo struct_;
    };
  };
} TypeData;

typedef struct TypeInfo {
  struct TypeData data;
} TypeInfo;

#ifdef __cplusplus
extern ""C"" {
#endif // __cplusplus

void root(struct TypeInfo x);

#ifdef __cplusplus
}  // extern ""C""
#endif  // __cplusplus

#if 0
''' '
#endif
#if defined(CBINDGEN_STYLE_TYPE)
*/
#endif
#if 0
' '''
#endif
".
(** tests/expectations/forward_declaration.c *)
Definition forward_declaration_c : string := "#if 0
''' '
#endif
#if defined(CBINDGEN_STYLE_TYPE)
/* ANONYMOUS STRUCTS DO NOT SUPPORT FORWARD DECLARATIONS!
#endif
#if 0
' '''
#endif


#include <stdarg.h>
#include <stdbool.h>
#include <stdint.h>
#include <stdlib.h>

typedef struct {
  const TypeInfo *const *fields;
  uintptr_t num_fields;
} StructInfo;

typedef enum {
  Primitive,
  Struct,
} TypeData_Tag;

typedef struct {
  TypeData_Tag tag;
  union {
    struct {
      StructInfo struct_;
    };
  };
} TypeData;

typedef struct {
  TypeData data;
} TypeInfo;

void root(TypeInfo x);

#if 0
''' '
#endif
#if defined(CBINDGEN_STYLE_TYPE)
*/
#endif
#if 0
' '''
#endif
".
(** tests/expectations/forward_declaration_tag.c *)
Definition forward_declaration_c_tag : string := "#if 0
''' '
#endif
#if defined(CBINDGEN_STYLE_TYPE)
/* ANONYMOUS STRUCTS DO NOT SUPPORT FORWARD DECLARATIONS!
#endif
#if 0
' '''
#endif


#include <stdarg.h>
#include <stdbool.h>
#include <stdint.h>
#include <stdlib.h>

struct StructInfo {
  const struct TypeInfo *const *fields;
  uintptr_t num_fields;
};

enum TypeData_Tag {
  Primitive,
  Struct,
};

struct TypeData {
  enum TypeData_Tag tag;
  union {
    struct {
      struct StructInfo struct_;
    };
  };
};

struct TypeInfo {
  struct TypeData data;
};

void root(struct TypeInfo x);

#if 0
''' '
#endif
#if defined(CBINDGEN_STYLE_TYPE)
*/
#endif
#if 0
' '''
#endif
".
(** tests/expectations/forward_declaration_both.c *)
Definition forward_declaration_c_both : string := "#if 0
''' '
#endif
#if defined(CBINDGEN_STYLE_TYPE)
/* ANONYMOUS STRUCTS DO NOT SUPPORT FORWARD DECLARATIONS!
#endif
#if 0
' '''
#endif


#include <stdarg.h>
#include <stdbool.h>
#include <stdint.h>
#include <stdlib.h>

typedef struct StructInfo {
  const struct TypeInfo *const *fields;
  uintptr_t num_fields;
} StructInfo;

typedef enum TypeData_Tag {
  Primitive,
  Struct,
} TypeData_Tag;

typedef struct TypeData {
  TypeData_Tag tag;
  union {
    struct {
      struct StructInfo struct_;
    };
  };
} TypeData;

typedef struct TypeInfo {
  struct TypeData data;
} TypeInfo;

void root(struct TypeInfo x);

#if 0
''' '
#endif
#if defined(CBINDGEN_STYLE_TYPE)
*/
#endif
#if 0
' '''
#endif
".
(** tests/expectations/forward_declaration.cpp *)
Definition forward_declaration_cpp : string := "#if 0
''' '
#endif
#if defined(CBINDGEN_STYLE_TYPE)
/* ANONYMOUS STRUCTS DO NOT SUPPORT FORWARD DECLARATIONS!
#endif
#if 0
' '''
#endif


#include <cstdarg>
#include <cstdint>
#include <cstdlib>
#include <ostream>
#include <new>

struct StructInfo {
  const TypeInfo *const *fields;
  uintptr_t num_fields;
};

struct TypeData {
  enum class Tag {
    Primitive,
    Struct,
  };

  struct Struct_Body {
    StructInfo _0;
  };

  Tag tag;
  union {
    Struct_Body struct_;
  };
};

struct TypeInfo {
  TypeData data;
};

extern ""C"" {

void root(TypeInfo x);

}  // extern ""C""

#if 0
''' '
#endif
#if defined(CBINDGEN_STYLE_TYPE)
*/
#endif
#if 0
' '''
#endif
".
(** tests/expectations/forward_declaration.pyx *)
Definition forward_declaration_pyx : string := "#if 0
''' '
#endif
#if defined(CBINDGEN_STYLE_TYPE)
/* ANONYMOUS STRUCTS DO NOT SUPPORT FORWARD DECLARATIONS!
#endif
#if 0
' '''
#endif


from libc.stdint cimport int8_t, int16_t, int32_t, int64_t, intptr_t
from libc.stdint cimport uint8_t, uint16_t, uint32_t, uint64_t, uintptr_t
cdef extern from *:
  ctypedef bint bool
  ctypedef struct va_list

cdef extern from *:

  ctypedef struct StructInfo:
    const TypeInfo *const *fields;
    uintptr_t num_fields;

  ctypedef enum TypeData_Tag:
    Primitive,
    Struct,

  ctypedef struct TypeData:
    TypeData_Tag tag;
    StructInfo struct_;

  ctypedef struct TypeInfo:
    TypeData data;

  void root(TypeInfo x);

#if 0
''' '
#endif
#if defined(CBINDGEN_STYLE_TYPE)
*/
#endif
#if 0
' '''
#endif
".
(** tests/expectations/forward_declaration_tag.pyx *)
Definition forward_declaration_pyx_tag : string := "#if 0
''' '
#endif
#if defined(CBINDGEN_STYLE_TYPE)
/* ANONYMOUS STRUCTS DO NOT SUPPORT FORWARD DECLARATIONS!
#endif
#if 0
' '''
#endif


from libc.stdint cimport int8_t, int16_t, int32_t, int64_t, intptr_t
from libc.stdint cimport uint8_t, uint16_t, uint32_t, uint64_t, uintptr_t
cdef extern from *:
  ctypedef bint bool
  ctypedef struct va_list

cdef extern from *:

  cdef struct StructInfo:
    const TypeInfo *const *fields;
    uintptr_t num_fields;

  cdef enum TypeData_Tag:
    Primitive,
    Struct,

  cdef struct TypeData:
    TypeData_Tag tag;
    StructInfo struct_;

  cdef struct TypeInfo:
    TypeData data;

  void root(TypeInfo x);

#if 0
''' '
#endif
#if defined(CBINDGEN_STYLE_TYPE)
*/
#endif
#if 0
' '''
#endif
".
Example forward_declaration_reproduced : reproduces (in_file forward_declaration_rs) false forward_declaration_toml (Some "{
root;
};")
  [(RunC true Type_, [forward_declaration_compat]);
   (RunC true Tag, [forward_declaration_compat_tag]);
   (RunC true Both, [forward_declaration_compat_both]);
   (RunC false Type_, [forward_declaration_c]);
   (RunC false Tag, [forward_declaration_c_tag]);
   (RunC false Both, [forward_declaration_c_both]);
   (RunCxx, [forward_declaration_cpp]);
   (RunCython Type_, [forward_declaration_pyx]);
   (RunCython Tag, [forward_declaration_pyx_tag])] = true.
Proof. vm_compute. reflexivity. Qed.

(** ** tests/rust/function_args.rs *)
Definition function_args_rs : list sitem := [
  (ItemFn [{| at_meta := (APath (Some "no_mangle")); at_outer := true |}] true {| sg_ident := "array_print"; sg_abi := (Some None);
  sg_inputs := [(FnTyped (PatIdent "a") (SRef false SOtherType))]; sg_variadic := false; sg_output := None |});
  (ItemFn [{| at_meta := (APath (Some "no_mangle")); at_outer := true |}] true {| sg_ident := "array_test"; sg_abi := (Some None); sg_inputs
  := [(FnTyped (PatIdent "a") (SArray (SPath (SegPath [] "u64" NoArgs)) (XLit (LitInt 3 ""))))]; sg_variadic := false; sg_output :=
  None |});
  (ItemFn [{| at_meta := (APath (Some "no_mangle")); at_outer := true |}] true {| sg_ident := "unnamed"; sg_abi := (Some None); sg_inputs
  := [(FnTyped PatWild (SPtr false (SPath (SegPath [] "u64" NoArgs))))]; sg_variadic := false; sg_output := None |});
  (ItemFn [{| at_meta := (APath (Some "no_mangle")); at_outer := true |}] true {| sg_ident := "pointer_test"; sg_abi := (Some None);
  sg_inputs := [(FnTyped (PatIdent "a") (SPtr false (SPath (SegPath [] "u64" NoArgs))))]; sg_variadic := false; sg_output := None
  |});
  (ItemFn [{| at_meta := (APath (Some "no_mangle")); at_outer := true |}] true {| sg_ident := "print_from_rust"; sg_abi := (Some None);
  sg_inputs := []; sg_variadic := false; sg_output := None |})].
(** tests/expectations/function_args.compat.c *)
Definition function_args_compat : string := "#include <stdarg.h>
#include <stdbool.h>
#include <stdint.h>
#include <stdlib.h>

#ifdef __cplusplus
extern ""C"" {
#endif // __cplusplus

void unnamed(const uint64_t*);

void pointer_test(const uint64_t *a);

void print_from_rust(void);

#ifdef __cplusplus
}  // extern ""C""
#endif  // __cplusplus
".
(** tests/expectations/function_args.c *)
Definition function_args_c : string := "#include <stdarg.h>
#include <stdbool.h>
#include <stdint.h>
#include <stdlib.h>

void unnamed(const uint64_t*);

void pointer_test(const uint64_t *a);

void print_from_rust(void);
".
(** tests/expectations/function_args.cpp *)
Definition function_args_cpp : string := "#include <cstdarg>
#include <cstdint>
#include <cstdlib>
#include <ostream>
#include <new>

extern ""C"" {

void unnamed(const uint64_t*);

void pointer_test(const uint64_t *a);

void print_from_rust();

}  // extern ""C""
".
(** tests/expectations/function_args.pyx *)
Definition function_args_pyx : string := "from libc.stdint cimport int8_t, int16_t, int32_t, int64_t, intptr_t
from libc.stdint cimport uint8_t, uint16_t, uint32_t, uint64_t, uintptr_t
cdef extern from *:
  ctypedef bint bool
  ctypedef struct va_list

cdef extern from *:

  void unnamed(const uint64_t*);

  void pointer_test(const uint64_t *a);

  void print_from_rust();
".
Example function_args_reproduced : reproduces (in_file function_args_rs) false default_config (Some "{
unnamed;
pointer_test;
print_from_rust;
};")
  [(RunC true Type_, [function_args_compat]);
   (RunC true Tag, [function_args_compat]);
   (RunC true Both, [function_args_compat]);
   (RunC false Type_, [function_args_c]);
   (RunC false Tag, [function_args_compat; function_args_c]);
   (RunC false Both, [function_args_compat; function_args_c]);
   (RunCxx, [function_args_cpp]);
   (RunCython Type_, [function_args_pyx]);
   (RunCython Tag, [function_args_pyx])] = true.
Proof. vm_compute. reflexivity. Qed.

(** ** tests/rust/function_noreturn.rs *)
Definition function_noreturn_rs : list sitem := [
  (ItemFn [{| at_meta := (APath (Some "no_mangle")); at_outer := true |}] true {| sg_ident := "loop_forever"; sg_abi := (Some (Some
  "C")); sg_inputs := []; sg_variadic := false; sg_output := (Some SNever) |});
  (ItemFn [{| at_meta := (APath (Some "no_mangle")); at_outer := true |}] true {| sg_ident := "normal_return"; sg_abi := (Some (Some
  "C")); sg_inputs := [(FnTyped (PatIdent "arg") (SPath (SegPath [] "Example" NoArgs))); (FnTyped (PatIdent "other") (SFnPtr [(None,
  (SPath (SegPath [] "u8" NoArgs)))] false (Some SNever)))]; sg_variadic := false; sg_output := (Some (SPath (SegPath [] "u8" NoArgs)))
  |});
  (ItemStruct [{| at_meta := (AList (Some "repr") [(APath (Some "C"))]); at_outer := true |}] "Example" [] (FieldsNamed [{| sf_attrs
  := []; sf_ident := (Some "f"); sf_ty := (SFnPtr [(None, (SPath (SegPath [] "usize" NoArgs))); (None, (SPath (SegPath [] "usize"
  NoArgs)))] false (Some SNever)) |}]))].
Definition function_noreturn_toml : Config := {| header := None; includes_ := []; sys_includes_ := []; after_includes := (Some "#ifndef NO_RETURN_ATTR
  #ifdef __GNUC__
    #define NO_RETURN_ATTR __attribute__ ((noreturn))
  #else // __GNUC__
    #define NO_RETURN_ATTR
  #endif // __GNUC__
#endif // NO_RETURN_ATTR
"); trailer := None;
  include_guard_ := None; pragma_once := false; no_includes := false; package_version := false; autogen_warning := None; include_version := false;
  namespace := None; namespaces := None; using_namespaces := None; braces := SameLine; line_length := 100; tab_width := 2; line_endings := LF;
  language := Cxx; cpp_compat := false; style := Both; sort_by := SortNone; usize_is_size_t := false; parse := default_parse; export := {| ex_include := []; ex_exclude := []; ex_rename := []; ex_pre_body := []; ex_body := []; ex_prefix := None; ex_item_types := []; ex_renaming_overrides_prefixing := false; ex_mangle := {| rename_types := RNone; remove_underscores := false |} |};
  layout := {| ly_packed := None; ly_aligned_n := None |}; function := {| fn_prefix := None; fn_postfix := None; fn_must_use := None; fn_deprecated := None; fn_deprecated_with_note := None; fn_args := Auto; fn_rename_args := RNone; fn_swift_name_macro := None; fn_sort_by := None; fn_no_return := (Some "NO_RETURN_ATTR") |}; structure := {| st_rename_fields := RNone; st_derive_constructor := false; st_derive_eq := false; st_derive_neq := false; st_derive_lt := false; st_derive_lte := false; st_derive_gt := false; st_derive_gte := false; st_derive_ostream := false; st_associated_constants_in_body := false; st_rename_associated_constant := RNone; st_must_use := None; st_deprecated := None; st_deprecated_with_note := None |}; enumeration := {| en_rename_variants := RNone; en_rename_variant_name_fields := SnakeCase; en_add_sentinel := false; en_prefix_with_name := false; en_derive_helper_methods := false; en_derive_const_casts := false; en_derive_mut_casts := false; en_cast_assert_name := None; en_must_use := None; en_deprecated := None; en_deprecated_with_note := None; en_deprecated_variant := None; en_deprecated_variant_with_note := None; en_derive_tagged_enum_destructor := false; en_derive_tagged_enum_copy_constructor := false; en_derive_tagged_enum_copy_assignment := false; en_derive_ostream := false; en_enum_class := true; en_private_default_tagged_enum_constructor := false |}; constant := {| co_allow_static_const := true; co_allow_constexpr := true; co_sort_by := None |}; defines := []; documentation := true;
  documentation_style := DocAuto; documentation_length := Full; pointer := {| pt_non_null_attribute := None; pt_nullable_attribute := None |}; cython := {| cy_header := None; cy_cimports := [] |}; config_path := None |}.
(** tests/expectations/function_noreturn.compat.c *)
Definition function_noreturn_compat : string := "#include <stdarg.h>
#include <stdbool.h>
#include <stdint.h>
#include <stdlib.h>
#ifndef NO_RETURN_ATTR
  #ifdef __GNUC__
    #define NO_RETURN_ATTR __attribute__ ((noreturn))
  #else // __GNUC__
    #define NO_RETURN_ATTR
  #endif // __GNUC__
#endif // NO_RETURN_ATTR


typedef struct {
  void (*f)(uintptr_t, uintptr_t) NO_RETURN_ATTR;
} Example;

#ifdef __cplusplus
extern ""C"" {
#endif // __cplusplus

void loop_forever(void) NO_RETURN_ATTR;

uint8_t normal_return(Example arg, void (*other)(uint8_t) NO_RETURN_ATTR);

#ifdef __cplusplus
}  // extern ""C""
#endif  // __cplusplus
".
(** tests/expectations/function_noreturn_tag.compat.c *)
Definition function_noreturn_compat_tag : string := "#include <stdarg.h>
#include <stdbool.h>
#include <stdint.h>
#include <stdlib.h>
#ifndef NO_RETURN_ATTR
  #ifdef __GNUC__
    #define NO_RETURN_ATTR __attribute__ ((noreturn))
  #else // __GNUC__
    #define NO_RETURN_ATTR
  #endif // __GNUC__
#endif // NO_RETURN_ATTR


struct Example {
  void (*f)(uintptr_t, uintptr_t) NO_RETURN_ATTR;
};

#ifdef __cplusplus
extern ""C"" {
#endif // __cplusplus

void loop_forever(void) NO_RETURN_ATTR;

uint8_t normal_return(struct Example arg, void (*other)(uint8_t) NO_RETURN_ATTR);

#ifdef __cplusplus
}  // extern ""C""
#endif  // __cplusplus
".
(** tests/expectations/function_noreturn_both.compat.c *)
Definition function_noreturn_compat_both : string := "#include <stdarg.h>
#include <stdbool.h>
#include <stdint.h>
#include <stdlib.h>
#ifndef NO_RETURN_ATTR
  #ifdef __GNUC__
    #define NO_RETURN_ATTR __attribute__ ((noreturn))
  #else // __GNUC__
    #define NO_RETURN_ATTR
  #endif // __GNUC__
#endif // NO_RETURN_ATTR


typedef struct Example {
  void (*f)(uintptr_t, uintptr_t) NO_RETURN_ATTR;
} Example;

#ifdef __cplusplus
extern ""C"" {
#endif // __cplusplus

void loop_forever(void) NO_RETURN_ATTR;

uint8_t normal_return(struct Example arg, void (*other)(uint8_t) NO_RETURN_ATTR);

#ifdef __cplusplus
}  // extern ""C""
#endif  // __cplusplus
".
(** tests/expectations/function_noreturn.c *)
Definition function_noreturn_c : string := "#include <stdarg.h>
#include <stdbool.h>
#include <stdint.h>
#include <stdlib.h>
#ifndef NO_RETURN_ATTR
  #ifdef __GNUC__
    #define NO_RETURN_ATTR __attribute__ ((noreturn))
  #else // __GNUC__
    #define NO_RETURN_ATTR
  #endif // __GNUC__
#endif // NO_RETURN_ATTR


typedef struct {
  void (*f)(uintptr_t, uintptr_t) NO_RETURN_ATTR;
} Example;

void loop_forever(void) NO_RETURN_ATTR;

uint8_t normal_return(Example arg, void (*other)(uint8_t) NO_RETURN_ATTR);
".
(** tests/expectations/function_noreturn_tag.c *)
Definition function_noreturn_c_tag : string := "#include <stdarg.h>
#include <stdbool.h>
#include <stdint.h>
#include <stdlib.h>
#ifndef NO_RETURN_ATTR
  #ifdef __GNUC__
    #define NO_RETURN_ATTR __attribute__ ((noreturn))
  #else // __GNUC__
    #define NO_RETURN_ATTR
  #endif // __GNUC__
#endif // NO_RETURN_ATTR


struct Example {
  void (*f)(uintptr_t, uintptr_t) NO_RETURN_ATTR;
};

void loop_forever(void) NO_RETURN_ATTR;

uint8_t normal_return(struct Example arg, void (*other)(uint8_t) NO_RETURN_ATTR);
".
(** tests/expectations/function_noreturn_both.c *)
Definition function_noreturn_c_both : string := "#include <stdarg.h>
#include <stdbool.h>
#include <stdint.h>
#include <stdlib.h>
#ifndef NO_RETURN_ATTR
  #ifdef __GNUC__
    #define NO_RETURN_ATTR __attribute__ ((noreturn))
  #else // __GNUC__
    #define NO_RETURN_ATTR
  #endif // __GNUC__
#endif // NO_RETURN_ATTR


typedef struct Example {
  void (*f)(uintptr_t, uintptr_t) NO_RETURN_ATTR;
} Example;

void loop_forever(void) NO_RETURN_ATTR;

uint8_t normal_return(struct Example arg, void (*other)(uint8_t) NO_RETURN_ATTR);
".
(** tests/expectations/function_noreturn.cpp *)
Definition function_noreturn_cpp : string := "#include <cstdarg>
#include <cstdint>
#include <cstdlib>
#include <ostream>
#include <new>
#ifndef NO_RETURN_ATTR
  #ifdef __GNUC__
    #define NO_RETURN_ATTR __attribute__ ((noreturn))
  #else // __GNUC__
    #define NO_RETURN_ATTR
  #endif // __GNUC__
#endif // NO_RETURN_ATTR


struct Example {
  void (*f)(uintptr_t, uintptr_t) NO_RETURN_ATTR;
};

extern ""C"" {

void loop_forever() NO_RETURN_ATTR;

uint8_t normal_return(Example arg, void (*other)(uint8_t) NO_RETURN_ATTR);

}  // extern ""C""
".
(** tests/expectations/function_noreturn.pyx *)
Definition function_noreturn_pyx : string := "from libc.stdint cimport int8_t, int16_t, int32_t, int64_t, intptr_t
from libc.stdint cimport uint8_t, uint16_t, uint32_t, uint64_t, uintptr_t
cdef extern from *:
  ctypedef bint bool
  ctypedef struct va_list
#ifndef NO_RETURN_ATTR
  #ifdef __GNUC__
    #define NO_RETURN_ATTR __attribute__ ((noreturn))
  #else // __GNUC__
    #define NO_RETURN_ATTR
  #endif // __GNUC__
#endif // NO_RETURN_ATTR


cdef extern from *:

  ctypedef struct Example:
    void (*f)(uintptr_t, uintptr_t);

  void loop_forever();

  uint8_t normal_return(Example arg, void (*other)(uint8_t));
".
(** tests/expectations/function_noreturn_tag.pyx *)
Definition function_noreturn_pyx_tag : string := "from libc.stdint cimport int8_t, int16_t, int32_t, int64_t, intptr_t
from libc.stdint cimport uint8_t, uint16_t, uint32_t, uint64_t, uintptr_t
cdef extern from *:
  ctypedef bint bool
  ctypedef struct va_list
#ifndef NO_RETURN_ATTR
  #ifdef __GNUC__
    #define NO_RETURN_ATTR __attribute__ ((noreturn))
  #else // __GNUC__
    #define NO_RETURN_ATTR
  #endif // __GNUC__
#endif // NO_RETURN_ATTR


cdef extern from *:

  cdef struct Example:
    void (*f)(uintptr_t, uintptr_t);

  void loop_forever();

  uint8_t normal_return(Example arg, void (*other)(uint8_t));
".
Example function_noreturn_reproduced : reproduces (in_file function_noreturn_rs) false function_noreturn_toml (Some "{
loop_forever;
normal_return;
};")
  [(RunC true Type_, [function_noreturn_compat]);
   (RunC true Tag, [function_noreturn_compat_tag]);
   (RunC true Both, [function_noreturn_compat_both]);
   (RunC false Type_, [function_noreturn_c]);
   (RunC false Tag, [function_noreturn_c_tag]);
   (RunC false Both, [function_noreturn_c_both]);
   (RunCxx, [function_noreturn_cpp]);
   (RunCython Type_, [function_noreturn_pyx]);
   (RunCython Tag, [function_noreturn_pyx_tag])] = true.
Proof. vm_compute. reflexivity. Qed.

(** ** tests/rust/function_ptr.rs *)
Definition function_ptr_rs : list sitem := [
  (ItemType [] "MyCallback" [] (SPath (SegPath [] "Option" (AngleArgs [(ArgType (SFnPtr [((Some "a"), (SPath (SegPath [] "usize" NoArgs)));
  ((Some "b"), (SPath (SegPath [] "usize" NoArgs)))] false None))]))));
  (ItemType [] "MyOtherCallback" [] (SPath (SegPath [] "Option" (AngleArgs [(ArgType (SFnPtr [((Some "a"), (SPath (SegPath [] "usize"
  NoArgs))); ((Some "lot"), (SPath (SegPath [] "usize" NoArgs))); ((Some "of"), (SPath (SegPath [] "usize" NoArgs))); ((Some "args"),
  (SPath (SegPath [] "usize" NoArgs))); ((Some "and_then_some"), (SPath (SegPath [] "usize" NoArgs)))] false None))]))));
  (ItemFn [{| at_meta := (APath (Some "no_mangle")); at_outer := true |}] true {| sg_ident := "my_function"; sg_abi := (Some (Some "C"));
  sg_inputs := [(FnTyped (PatIdent "a") (SPath (SegPath [] "MyCallback" NoArgs))); (FnTyped (PatIdent "b") (SPath (SegPath [] "MyOtherCallback"
  NoArgs)))]; sg_variadic := false; sg_output := None |})].
(** tests/expectations/function_ptr.compat.c *)
Definition function_ptr_compat : string := "#include <stdarg.h>
#include <stdbool.h>
#include <stdint.h>
#include <stdlib.h>

typedef void (*MyCallback)(uintptr_t a, uintptr_t b);

typedef void (*MyOtherCallback)(uintptr_t a,
                                uintptr_t lot,
                                uintptr_t of,
                                uintptr_t args,
                                uintptr_t and_then_some);

#ifdef __cplusplus
extern ""C"" {
#endif // __cplusplus

void my_function(MyCallback a, MyOtherCallback b);

#ifdef __cplusplus
}  // extern ""C""
#endif  // __cplusplus
".
(** tests/expectations/function_ptr.c *)
Definition function_ptr_c : string := "#include <stdarg.h>
#include <stdbool.h>
#include <stdint.h>
#include <stdlib.h>

typedef void (*MyCallback)(uintptr_t a, uintptr_t b);

typedef void (*MyOtherCallback)(uintptr_t a,
                                uintptr_t lot,
                                uintptr_t of,
                                uintptr_t args,
                                uintptr_t and_then_some);

void my_function(MyCallback a, MyOtherCallback b);
".
(** tests/expectations/function_ptr.cpp *)
Definition function_ptr_cpp : string := "#include <cstdarg>
#include <cstdint>
#include <cstdlib>
#include <ostream>
#include <new>

using MyCallback = void(*)(uintptr_t a, uintptr_t b);

using MyOtherCallback = void(*)(uintptr_t a,
                                uintptr_t lot,
                                uintptr_t of,
                                uintptr_t args,
                                uintptr_t and_then_some);

extern ""C"" {

void my_function(MyCallback a, MyOtherCallback b);

}  // extern ""C""
".
(** tests/expectations/function_ptr.pyx *)
Definition function_ptr_pyx : string := "from libc.stdint cimport int8_t, int16_t, int32_t, int64_t, intptr_t
from libc.stdint cimport uint8_t, uint16_t, uint32_t, uint64_t, uintptr_t
cdef extern from *:
  ctypedef bint bool
  ctypedef struct va_list

cdef extern from *:

  ctypedef void (*MyCallback)(uintptr_t a, uintptr_t b);

  ctypedef void (*MyOtherCallback)(uintptr_t a,
                                   uintptr_t lot,
                                   uintptr_t of,
                                   uintptr_t args,
                                   uintptr_t and_then_some);

  void my_function(MyCallback a, MyOtherCallback b);
".
Example function_ptr_reproduced : reproduces (in_file function_ptr_rs) false default_config (Some "{
my_function;
};")
  [(RunC true Type_, [function_ptr_compat]);
   (RunC true Tag, [function_ptr_compat]);
   (RunC true Both, [function_ptr_compat]);
   (RunC false Type_, [function_ptr_c]);
   (RunC false Tag, [function_ptr_compat; function_ptr_c]);
   (RunC false Both, [function_ptr_compat; function_ptr_c]);
   (RunCxx, [function_ptr_cpp]);
   (RunCython Type_, [function_ptr_pyx]);
   (RunCython Tag, [function_ptr_pyx])] = true.
Proof. vm_compute. reflexivity. Qed.

(** ** tests/rust/function_sort_name.rs *)
Definition function_sort_name_rs : list sitem := [
  (ItemFn [{| at_meta := (APath (Some "no_mangle")); at_outer := true |}] true {| sg_ident := "C"; sg_abi := (Some (Some "C")); sg_inputs
  := []; sg_variadic := false; sg_output := None |});
  (ItemFn [{| at_meta := (APath (Some "no_mangle")); at_outer := true |}] true {| sg_ident := "B"; sg_abi := (Some (Some "C")); sg_inputs
  := []; sg_variadic := false; sg_output := None |});
  (ItemFn [{| at_meta := (APath (Some "no_mangle")); at_outer := true |}] true {| sg_ident := "D"; sg_abi := (Some (Some "C")); sg_inputs
  := []; sg_variadic := false; sg_output := None |});
  (ItemFn [{| at_meta := (APath (Some "no_mangle")); at_outer := true |}] true {| sg_ident := "A"; sg_abi := (Some (Some "C")); sg_inputs
  := []; sg_variadic := false; sg_output := None |})].
Definition function_sort_name_toml : Config := {| header := None; includes_ := []; sys_includes_ := []; after_includes := None; trailer := None;
  include_guard_ := None; pragma_once := false; no_includes := false; package_version := false; autogen_warning := None; include_version := false;
  namespace := None; namespaces := None; using_namespaces := None; braces := SameLine; line_length := 100; tab_width := 2; line_endings := LF;
  language := Cxx; cpp_compat := false; style := Both; sort_by := SortNone; usize_is_size_t := false; parse := default_parse; export := {| ex_include := []; ex_exclude := []; ex_rename := []; ex_pre_body := []; ex_body := []; ex_prefix := None; ex_item_types := []; ex_renaming_overrides_prefixing := false; ex_mangle := {| rename_types := RNone; remove_underscores := false |} |};
  layout := {| ly_packed := None; ly_aligned_n := None |}; function := {| fn_prefix := None; fn_postfix := None; fn_must_use := None; fn_deprecated := None; fn_deprecated_with_note := None; fn_args := Auto; fn_rename_args := RNone; fn_swift_name_macro := None; fn_sort_by := (Some SortName); fn_no_return := None |}; structure := {| st_rename_fields := RNone; st_derive_constructor := false; st_derive_eq := false; st_derive_neq := false; st_derive_lt := false; st_derive_lte := false; st_derive_gt := false; st_derive_gte := false; st_derive_ostream := false; st_associated_constants_in_body := false; st_rename_associated_constant := RNone; st_must_use := None; st_deprecated := None; st_deprecated_with_note := None |}; enumeration := {| en_rename_variants := RNone; en_rename_variant_name_fields := SnakeCase; en_add_sentinel := false; en_prefix_with_name := false; en_derive_helper_methods := false; en_derive_const_casts := false; en_derive_mut_casts := false; en_cast_assert_name := None; en_must_use := None; en_deprecated := None; en_deprecated_with_note := None; en_deprecated_variant := None; en_deprecated_variant_with_note := None; en_derive_tagged_enum_destructor := false; en_derive_tagged_enum_copy_constructor := false; en_derive_tagged_enum_copy_assignment := false; en_derive_ostream := false; en_enum_class := true; en_private_default_tagged_enum_constructor := false |}; constant := {| co_allow_static_const := true; co_allow_constexpr := true; co_sort_by := None |}; defines := []; documentation := true;
  documentation_style := DocAuto; documentation_length := Full; pointer := {| pt_non_null_attribute := None; pt_nullable_attribute := None |}; cython := {| cy_header := None; cy_cimports := [] |}; config_path := None |}.
(** tests/expectations/function_sort_name.compat.c *)
Definition function_sort_name_compat : string := "#include <stdarg.h>
#include <stdbool.h>
#include <stdint.h>
#include <stdlib.h>

#ifdef __cplusplus
extern ""C"" {
#endif // __cplusplus

void A(void);

void B(void);

void C(void);

void D(void);

#ifdef __cplusplus
}  // extern ""C""
#endif  // __cplusplus
".
(** tests/expectations/function_sort_name.c *)
Definition function_sort_name_c : string := "#include <stdarg.h>
#include <stdbool.h>
#include <stdint.h>
#include <stdlib.h>

void A(void);

void B(void);

void C(void);

void D(void);
".
(** tests/expectations/function_sort_name.cpp *)
Definition function_sort_name_cpp : string := "#include <cstdarg>
#include <cstdint>
#include <cstdlib>
#include <ostream>
#include <new>

extern ""C"" {

void A();

void B();

void C();

void D();

}  // extern ""C""
".
(** tests/expectations/function_sort_name.pyx *)
Definition function_sort_name_pyx : string := "from libc.stdint cimport int8_t, int16_t, int32_t, int64_t, intptr_t
from libc.stdint cimport uint8_t, uint16_t, uint32_t, uint64_t, uintptr_t
cdef extern from *:
  ctypedef bint bool
  ctypedef struct va_list

cdef extern from *:

  void A();

  void B();

  void C();

  void D();
".
Example function_sort_name_reproduced : reproduces (in_file function_sort_name_rs) false function_sort_name_toml (Some "{
A;
B;
C;
D;
};")
  [(RunC true Type_, [function_sort_name_compat]);
   (RunC true Tag, [function_sort_name_compat]);
   (RunC true Both, [function_sort_name_compat]);
   (RunC false Type_, [function_sort_name_c]);
   (RunC false Tag, [function_sort_name_compat; function_sort_name_c]);
   (RunC false Both, [function_sort_name_compat; function_sort_name_c]);
   (RunCxx, [function_sort_name_cpp]);
   (RunCython Type_, [function_sort_name_pyx]);
   (RunCython Tag, [function_sort_name_pyx])] = true.
Proof. vm_compute. reflexivity. Qed.

(** ** tests/rust/function_sort_none.rs *)
Definition function_sort_none_rs : list sitem := [
  (ItemFn [{| at_meta := (APath (Some "no_mangle")); at_outer := true |}] true {| sg_ident := "C"; sg_abi := (Some (Some "C")); sg_inputs
  := []; sg_variadic := false; sg_output := None |});
  (ItemFn [{| at_meta := (APath (Some "no_mangle")); at_outer := true |}] true {| sg_ident := "B"; sg_abi := (Some (Some "C")); sg_inputs
  := []; sg_variadic := false; sg_output := None |});
  (ItemFn [{| at_meta := (APath (Some "no_mangle")); at_outer := true |}] true {| sg_ident := "D"; sg_abi := (Some (Some "C")); sg_inputs
  := []; sg_variadic := false; sg_output := None |});
  (ItemFn [{| at_meta := (APath (Some "no_mangle")); at_outer := true |}] true {| sg_ident := "A"; sg_abi := (Some (Some "C")); sg_inputs
  := []; sg_variadic := false; sg_output := None |})].
(** tests/expectations/function_sort_none.compat.c *)
Definition function_sort_none_compat : string := "#include <stdarg.h>
#include <stdbool.h>
#include <stdint.h>
#include <stdlib.h>

#ifdef __cplusplus
extern ""C"" {
#endif // __cplusplus

void C(void);

void B(void);

void D(void);

void A(void);

#ifdef __cplusplus
}  // extern ""C""
#endif  // __cplusplus
".
(** tests/expectations/function_sort_none.c *)
Definition function_sort_none_c : string := "#include <stdarg.h>
#include <stdbool.h>
#include <stdint.h>
#include <stdlib.h>

void C(void);

void B(void);

void D(void);

void A(void);
".
(** tests/expectations/function_sort_none.cpp *)
Definition function_sort_none_cpp : string := "#include <cstdarg>
#include <cstdint>
#include <cstdlib>
#include <ostream>
#include <new>

extern ""C"" {

void C();

void B();

void D();

void A();

}  // extern ""C""
".
(** tests/expectations/function_sort_none.pyx *)
Definition function_sort_none_pyx : string := "from libc.stdint cimport int8_t, int16_t, int32_t, int64_t, intptr_t
from libc.stdint cimport uint8_t, uint16_t, uint32_t, uint64_t, uintptr_t
cdef extern from *:
  ctypedef bint bool
  ctypedef struct va_list

cdef extern from *:

  void C();

  void B();

  void D();

  void A();
".
Example function_sort_none_reproduced : reproduces (in_file function_sort_none_rs) false default_config (Some "{
C;
B;
D;
A;
};")
  [(RunC true Type_, [function_sort_none_compat]);
   (RunC true Tag, [function_sort_none_compat]);
   (RunC true Both, [function_sort_none_compat]);
   (RunC false Type_, [function_sort_none_c]);
   (RunC false Tag, [function_sort_none_compat; function_sort_none_c]);
   (RunC false Both, [function_sort_none_compat; function_sort_none_c]);
   (RunCxx, [function_sort_none_cpp]);
   (RunCython Type_, [function_sort_none_pyx]);
   (RunCython Tag, [function_sort_none_pyx])] = true.
Proof. vm_compute. reflexivity. Qed.

(** ** tests/rust/generic_defaults.rs *)
Definition generic_defaults_rs : list sitem := [
  (ItemStruct [{| at_meta := (AList (Some "repr") [(APath (Some "transparent"))]); at_outer := true |}] "Foo" [(SGType "T" None); (SGType
  "P" (Some (SPath (SegPath [] "c_void" NoArgs))))] (FieldsNamed [{| sf_attrs := []; sf_ident := (Some "field"); sf_ty := (SPath (SegPath
  [] "T" NoArgs)) |}; {| sf_attrs := []; sf_ident := (Some "_phantom"); sf_ty := (SPath (SegPath ["std"; "marker"] "PhantomData" (AngleArgs
  [(ArgType (SPath (SegPath [] "P" NoArgs)))]))) |}]));
  (ItemStruct [{| at_meta := (AList (Some "repr") [(APath (Some "C"))]); at_outer := true |}] "Bar" [(SGType "T" None); (SGType "P"
  None)] (FieldsNamed [{| sf_attrs := []; sf_ident := (Some "f"); sf_ty := (SPath (SegPath [] "Foo" (AngleArgs [(ArgType (SPath (SegPath
  [] "T" NoArgs)))]))) |}; {| sf_attrs := []; sf_ident := (Some "p"); sf_ty := (SPath (SegPath [] "P" NoArgs)) |}]));
  (ItemType [] "Baz" [(SGType "T" None)] (SPath (SegPath [] "Foo" (AngleArgs [(ArgType (SPath (SegPath [] "T" NoArgs)))]))));
  (ItemFn [{| at_meta := (APath (Some "no_mangle")); at_outer := true |}] true {| sg_ident := "foo_root"; sg_abi := (Some (Some "C"));
  sg_inputs := [(FnTyped (PatIdent "f") (SPath (SegPath [] "Foo" (AngleArgs [(ArgType (SPath (SegPath [] "i16" NoArgs)))])))); (FnTyped
  (PatIdent "b") (SPath (SegPath [] "Bar" (AngleArgs [(ArgType (SPath (SegPath [] "i32" NoArgs))); (ArgType (SPath (SegPath [] "u32"
  NoArgs)))])))); (FnTyped (PatIdent "z") (SPath (SegPath [] "Baz" (AngleArgs [(ArgType (SPath (SegPath [] "i64" NoArgs)))]))))];
  sg_variadic := false; sg_output := None |});
  (ItemStruct [{| at_meta := (AList (Some "repr") [(APath (Some "C"))]); at_outer := true |}] "NeverUsedWithDefault" [(SGType "T" (Some
  (STuple [])))] (FieldsNamed [{| sf_attrs := []; sf_ident := (Some "field"); sf_ty := (SPath (SegPath [] "T" NoArgs)) |}]));
  (ItemFn [{| at_meta := (APath (Some "no_mangle")); at_outer := true |}] true {| sg_ident := "with_i32"; sg_abi := (Some (Some "C"));
  sg_inputs := [(FnTyped (PatIdent "x") (SPath (SegPath [] "NeverUsedWithDefault" (AngleArgs [(ArgType (SPath (SegPath [] "i32" NoArgs)))]))))];
  sg_variadic := false; sg_output := None |})].
(** tests/expectations/generic_defaults.compat.c *)
Definition generic_defaults_compat : string := "#include <stdarg.h>
#include <stdbool.h>
#include <stdint.h>
#include <stdlib.h>

typedef int16_t Foo_i16;

typedef int32_t Foo_i32;

typedef struct {
  Foo_i32 f;
  uint32_t p;
} Bar_i32__u32;

typedef int64_t Foo_i64;

typedef Foo_i64 Baz_i64;

typedef struct {
  int32_t field;
} NeverUsedWithDefault_i32;

#ifdef __cplusplus
extern ""C"" {
#endif // __cplusplus

void foo_root(Foo_i16 f, Bar_i32__u32 b, Baz_i64 z);

void with_i32(NeverUsedWithDefault_i32 x);

#ifdef __cplusplus
}  // extern ""C""
#endif  // __cplusplus
".
(** tests/expectations/generic_defaults_tag.compat.c *)
Definition generic_defaults_compat_tag : string := "#include <stdarg.h>
#include <stdbool.h>
#include <stdint.h>
#include <stdlib.h>

typedef int16_t Foo_i16;

typedef int32_t Foo_i32;

struct Bar_i32__u32 {
  Foo_i32 f;
  uint32_t p;
};

typedef int64_t Foo_i64;

typedef Foo_i64 Baz_i64;

struct NeverUsedWithDefault_i32 {
  int32_t field;
};

#ifdef __cplusplus
extern ""C"" {
#endif // __cplusplus

void foo_root(Foo_i16 f, struct Bar_i32__u32 b, Baz_i64 z);

void with_i32(struct NeverUsedWithDefault_i32 x);

#ifdef __cplusplus
}  // extern ""C""
#endif  // __cplusplus
".
(** tests/expectations/generic_defaults_both.compat.c *)
Definition generic_defaults_compat_both : string := "#include <stdarg.h>
#include <stdbool.h>
#include <stdint.h>
#include <stdlib.h>

typedef int16_t Foo_i16;

typedef int32_t Foo_i32;

typedef struct Bar_i32__u32 {
  Foo_i32 f;
  uint32_t p;
} Bar_i32__u32;

typedef int64_t Foo_i64;

typedef Foo_i64 Baz_i64;

typedef struct NeverUsedWithDefault_i32 {
  int32_t field;
} NeverUsedWithDefault_i32;

#ifdef __cplusplus
extern ""C"" {
#endif // __cplusplus

void foo_root(Foo_i16 f, struct Bar_i32__u32 b, Baz_i64 z);

void with_i32(struct NeverUsedWithDefault_i32 x);

#ifdef __cplusplus
}  // extern ""C""
#endif  // __cplusplus
".
(** tests/expectations/generic_defaults.c *)
Definition generic_defaults_c : string := "#include <stdarg.h>
#include <stdbool.h>
#include <stdint.h>
#include <stdlib.h>

typedef int16_t Foo_i16;

typedef int32_t Foo_i32;

typedef struct {
  Foo_i32 f;
  uint32_t p;
} Bar_i32__u32;

typedef int64_t Foo_i64;

typedef Foo_i64 Baz_i64;

typedef struct {
  int32_t field;
} NeverUsedWithDefault_i32;

void foo_root(Foo_i16 f, Bar_i32__u32 b, Baz_i64 z);

void with_i32(NeverUsedWithDefault_i32 x);
".
(** tests/expectations/generic_defaults_tag.c *)
Definition generic_defaults_c_tag : string := "#include <stdarg.h>
#include <stdbool.h>
#include <stdint.h>
#include <stdlib.h>

typedef int16_t Foo_i16;

typedef int32_t Foo_i32;

struct Bar_i32__u32 {
  Foo_i32 f;
  uint32_t p;
};

typedef int64_t Foo_i64;

typedef Foo_i64 Baz_i64;

struct NeverUsedWithDefault_i32 {
  int32_t field;
};

void foo_root(Foo_i16 f, struct Bar_i32__u32 b, Baz_i64 z);

void with_i32(struct NeverUsedWithDefault_i32 x);
".
(** tests/expectations/generic_defaults_both.c *)
Definition generic_defaults_c_both : string := "#include <stdarg.h>
#include <stdbool.h>
#include <stdint.h>
#include <stdlib.h>

typedef int16_t Foo_i16;

typedef int32_t Foo_i32;

typedef struct Bar_i32__u32 {
  Foo_i32 f;
  uint32_t p;
} Bar_i32__u32;

typedef int64_t Foo_i64;

typedef Foo_i64 Baz_i64;

typedef struct NeverUsedWithDefault_i32 {
  int32_t field;
} NeverUsedWithDefault_i32;

void foo_root(Foo_i16 f, struct Bar_i32__u32 b, Baz_i64 z);

void with_i32(struct NeverUsedWithDefault_i32 x);
".
(** tests/expectations/generic_defaults.cpp *)
Definition generic_defaults_cpp : string := "#include <cstdarg>
#include <cstdint>
#include <cstdlib>
#include <ostream>
#include <new>

template<typename T, typename P = void>
using Foo = T;

template<typename T, typename P>
struct Bar {
  Foo<T> f;
  P p;
};

template<typename T>
using Baz = Foo<T>;

template<typename T = void>
struct NeverUsedWithDefault {
  T field;
};

extern ""C"" {

void foo_root(Foo<int16_t> f, Bar<int32_t, uint32_t> b, Baz<int64_t> z);

void with_i32(NeverUsedWithDefault<int32_t> x);

}  // extern ""C""
".
(** tests/expectations/generic_defaults.pyx *)
Definition generic_defaults_pyx : string := "from libc.stdint cimport int8_t, int16_t, int32_t, int64_t, intptr_t
from libc.stdint cimport uint8_t, uint16_t, uint32_t, uint64_t, uintptr_t
cdef extern from *:
  ctypedef bint bool
  ctypedef struct va_list

cdef extern from *:

  ctypedef int16_t Foo_i16;

  ctypedef int32_t Foo_i32;

  ctypedef struct Bar_i32__u32:
    Foo_i32 f;
    uint32_t p;

  ctypedef int64_t Foo_i64;

  ctypedef Foo_i64 Baz_i64;

  ctypedef struct NeverUsedWithDefault_i32:
    int32_t field;

  void foo_root(Foo_i16 f, Bar_i32__u32 b, Baz_i64 z);

  void with_i32(NeverUsedWithDefault_i32 x);
".
(** tests/expectations/generic_defaults_tag.pyx *)
Definition generic_defaults_pyx_tag : string := "from libc.stdint cimport int8_t, int16_t, int32_t, int64_t, intptr_t
from libc.stdint cimport uint8_t, uint16_t, uint32_t, uint64_t, uintptr_t
cdef extern from *:
  ctypedef bint bool
  ctypedef struct va_list

cdef extern from *:

  ctypedef int16_t Foo_i16;

  ctypedef int32_t Foo_i32;

  cdef struct Bar_i32__u32:
    Foo_i32 f;
    uint32_t p;

  ctypedef int64_t Foo_i64;

  ctypedef Foo_i64 Baz_i64;

  cdef struct NeverUsedWithDefault_i32:
    int32_t field;

  void foo_root(Foo_i16 f, Bar_i32__u32 b, Baz_i64 z);

  void with_i32(NeverUsedWithDefault_i32 x);
".
Example generic_defaults_reproduced : reproduces (in_file generic_defaults_rs) false default_config (Some "{
foo_root;
with_i32;
};")
  [(RunC true Type_, [generic_defaults_compat]);
   (RunC true Tag, [generic_defaults_compat_tag]);
   (RunC true Both, [generic_defaults_compat_both]);
   (RunC false Type_, [generic_defaults_c]);
   (RunC false Tag, [generic_defaults_c_tag]);
   (RunC false Both, [generic_defaults_c_both]);
   (RunCxx, [generic_defaults_cpp]);
   (RunCython Type_, [generic_defaults_pyx]);
   (RunCython Tag, [generic_defaults_pyx_tag])] = true.
Proof. vm_compute. reflexivity. Qed.

