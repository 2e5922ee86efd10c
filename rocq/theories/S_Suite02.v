(** See S_Suite.v; generated. *)
Require Import Coq.Strings.String Coq.Strings.Ascii Coq.Lists.List Coq.Bool.Bool Coq.NArith.NArith.
From Verif Require Import Base M_Config M_Cfg M_Type M_Ir M_Item M_Attr M_Syn M_Library M_Loader M_Parser M_Bindings M_Backend S_Heck S_Suite.
Import ListNotations.
Open Scope string_scope.

(** ** tests/rust/bitflags.rs *)
Definition bitflags_rs : list sitem := [
  (ItemMacro [] "bitflags" (Some {| bf_attrs := (Some [{| at_meta := ANameValue (Some "doc") (Some " Constants shared by multiple CSS Box Alignment properties");
  at_outer := true |}; {| at_meta := ANameValue (Some "doc") (Some ""); at_outer := true |}; {| at_meta := ANameValue (Some "doc")
  (Some " These constants match Gecko's `NS_STYLE_ALIGN_*` constants."); at_outer := true |}; {| at_meta := (AList (Some "derive")
  [(APath (Some "MallocSizeOf"))]); at_outer := true |}; {| at_meta := (AList (Some "repr") [(APath (Some "C"))]); at_outer := true
  |}]); bf_name := "AlignFlags"; bf_repr := (SPath (SegPath [] "u8" NoArgs)); bf_flags := [([{| at_meta := ANameValue (Some "doc")
  (Some " 'auto'"); at_outer := true |}], "AUTO", (XLit (LitInt 0 ""))); ([{| at_meta := ANameValue (Some "doc") (Some " 'normal'");
  at_outer := true |}], "NORMAL", (XLit (LitInt 1 ""))); ([{| at_meta := ANameValue (Some "doc") (Some " 'start'"); at_outer := true
  |}], "START", (XBinary Shl (XLit (LitInt 1 "")) (XLit (LitInt 1 "")))); ([{| at_meta := ANameValue (Some "doc") (Some " 'end'");
  at_outer := true |}], "END", (XBinary Shl (XLit (LitInt 1 "")) (XLit (LitInt 2 "")))); ([], "ALIAS", (XMethod (XPath (SegPath ["Self"]
  "END" NoArgs)) "bits" [])); ([{| at_meta := ANameValue (Some "doc") (Some " 'flex-start'"); at_outer := true |}], "FLEX_START",
  (XBinary Shl (XLit (LitInt 1 "")) (XLit (LitInt 3 "")))); ([], "MIXED", (XBinary BitOr (XBinary BitOr (XBinary Shl (XLit (LitInt
  1 "")) (XLit (LitInt 4 ""))) (XMethod (XPath (SegPath ["AlignFlags"] "FLEX_START" NoArgs)) "bits" [])) (XMethod (XPath (SegPath
  ["AlignFlags"] "END" NoArgs)) "bits" []))); ([], "MIXED_SELF", (XBinary BitOr (XBinary BitOr (XBinary Shl (XLit (LitInt 1 "")) (XLit
  (LitInt 5 ""))) (XMethod (XPath (SegPath ["AlignFlags"] "FLEX_START" NoArgs)) "bits" [])) (XMethod (XPath (SegPath ["AlignFlags"]
  "END" NoArgs)) "bits" []))); ([], "_", (XUnary Not (XLit (LitInt 0 ""))))] |}));
  (ItemMacro [] "bitflags" (Some {| bf_attrs := (Some [{| at_meta := (AList (Some "repr") [(APath (Some "C"))]); at_outer := true |}]);
  bf_name := "DebugFlags"; bf_repr := (SPath (SegPath [] "u32" NoArgs)); bf_flags := [([{| at_meta := ANameValue (Some "doc") (Some
  " Flag with the topmost bit set of the u32"); at_outer := true |}], "BIGGEST_ALLOWED", (XBinary Shl (XLit (LitInt 1 "")) (XLit (LitInt
  31 ""))))] |}));
  (ItemMacro [] "bitflags" (Some {| bf_attrs := (Some [{| at_meta := (AList (Some "repr") [(APath (Some "C"))]); at_outer := true |}]);
  bf_name := "LargeFlags"; bf_repr := (SPath (SegPath [] "u64" NoArgs)); bf_flags := [([{| at_meta := ANameValue (Some "doc") (Some
  " Flag with a very large shift that usually would be narrowed."); at_outer := true |}], "LARGE_SHIFT", (XBinary Shl (XLit (LitInt
  1 "u64")) (XLit (LitInt 44 "")))); ([], "INVERTED", (XUnary Not (XMethod (XPath (SegPath ["Self"] "LARGE_SHIFT" NoArgs)) "bits"
  [])))] |}));
  (ItemStruct [{| at_meta := (AList (Some "repr") [(APath (Some "C"))]); at_outer := true |}] "OutOfLine" [] (FieldsUnnamed [{| sf_attrs
  := []; sf_ident := None; sf_ty := (SPath (SegPath [] "u32" NoArgs)) |}]));
  (ItemMacro [] "bitflags" (Some {| bf_attrs := None; bf_name := "OutOfLine"; bf_repr := (SPath (SegPath [] "u32" NoArgs)); bf_flags
  := [([], "A", (XLit (LitInt 1 ""))); ([], "B", (XLit (LitInt 2 ""))); ([], "AB", (XBinary BitOr (XMethod (XPath (SegPath ["Self"]
  "A" NoArgs)) "bits" []) (XMethod (XPath (SegPath ["Self"] "B" NoArgs)) "bits" []))); ([], "_", (XUnary Not (XLit (LitInt 0 ""))))]
  |}));
  (ItemFn [{| at_meta := (APath (Some "no_mangle")); at_outer := true |}] true {| sg_ident := "root"; sg_abi := (Some (Some "C")); sg_inputs
  := [(FnTyped (PatIdent "flags") (SPath (SegPath [] "AlignFlags" NoArgs))); (FnTyped (PatIdent "bigger_flags") (SPath (SegPath []
  "DebugFlags" NoArgs))); (FnTyped (PatIdent "largest_flags") (SPath (SegPath [] "LargeFlags" NoArgs))); (FnTyped (PatIdent "out_of_line")
  (SPath (SegPath [] "OutOfLine" NoArgs)))]; sg_variadic := false; sg_output := None |})].
Definition bitflags_toml : Config := {| header := None; includes_ := []; sys_includes_ := []; after_includes := None; trailer := None;
  include_guard_ := None; pragma_once := false; no_includes := false; package_version := false; autogen_warning := None; include_version := false;
  namespace := None; namespaces := None; using_namespaces := None; braces := SameLine; line_length := 100; tab_width := 2; line_endings := LF;
  language := Cxx; cpp_compat := false; style := Both; sort_by := SortNone; usize_is_size_t := false; parse := default_parse; export := {| ex_include := []; ex_exclude := []; ex_rename := []; ex_pre_body := []; ex_body := []; ex_prefix := None; ex_item_types := []; ex_renaming_overrides_prefixing := false; ex_mangle := {| rename_types := RNone; remove_underscores := false |} |};
  layout := {| ly_packed := None; ly_aligned_n := None |}; function := {| fn_prefix := None; fn_postfix := None; fn_must_use := None; fn_deprecated := None; fn_deprecated_with_note := None; fn_args := Auto; fn_rename_args := RNone; fn_swift_name_macro := None; fn_sort_by := None; fn_no_return := None |}; structure := {| st_rename_fields := RNone; st_derive_constructor := false; st_derive_eq := false; st_derive_neq := false; st_derive_lt := false; st_derive_lte := false; st_derive_gt := false; st_derive_gte := false; st_derive_ostream := false; st_associated_constants_in_body := false; st_rename_associated_constant := RNone; st_must_use := None; st_deprecated := None; st_deprecated_with_note := None |}; enumeration := {| en_rename_variants := RNone; en_rename_variant_name_fields := SnakeCase; en_add_sentinel := false; en_prefix_with_name := false; en_derive_helper_methods := false; en_derive_const_casts := false; en_derive_mut_casts := false; en_cast_assert_name := None; en_must_use := None; en_deprecated := None; en_deprecated_with_note := None; en_deprecated_variant := None; en_deprecated_variant_with_note := None; en_derive_tagged_enum_destructor := false; en_derive_tagged_enum_copy_constructor := false; en_derive_tagged_enum_copy_assignment := false; en_derive_ostream := false; en_enum_class := true; en_private_default_tagged_enum_constructor := false |}; constant := {| co_allow_static_const := true; co_allow_constexpr := true; co_sort_by := None |}; defines := []; documentation := true;
  documentation_style := DocAuto; documentation_length := Full; pointer := {| pt_non_null_attribute := None; pt_nullable_attribute := None |}; cython := {| cy_header := None; cy_cimports := [] |}; config_path := None |}.
(** tests/expectations/bitflags.compat.c *)
Definition bitflags_compat : string := "#include <stdarg.h>
#include <stdbool.h>
#include <stdint.h>
#include <stdlib.h>

/**
 * Constants shared by multiple CSS Box Alignment properties
 *
 * These constants match Gecko's `NS_STYLE_ALIGN_*` constants.
 */
typedef struct {
  uint8_t bits;
} AlignFlags;
/**
 * 'auto'
 */
#define AlignFlags_AUTO (AlignFlags){ .bits = (uint8_t)0 }
/**
 * 'normal'
 */
#define AlignFlags_NORMAL (AlignFlags){ .bits = (uint8_t)1 }
/**
 * 'start'
 */
#define AlignFlags_START (AlignFlags){ .bits = (uint8_t)(1 << 1) }
/**
 * 'end'
 */
#define AlignFlags_END (AlignFlags){ .bits = (uint8_t)(1 << 2) }
#define AlignFlags_ALIAS (AlignFlags){ .bits = (uint8_t)(AlignFlags_END).bits }
/**
 * 'flex-start'
 */
#define AlignFlags_FLEX_START (AlignFlags){ .bits = (uint8_t)(1 << 3) }
#define AlignFlags_MIXED (AlignFlags){ .bits = (uint8_t)(((1 << 4) | (AlignFlags_FLEX_START).bits) | (AlignFlags_END).bits) }
#define AlignFlags_MIXED_SELF (AlignFlags){ .bits = (uint8_t)(((1 << 5) | (AlignFlags_FLEX_START).bits) | (AlignFlags_END).bits) }

typedef struct {
  uint32_t bits;
} DebugFlags;
/**
 * Flag with the topmost bit set of the u32
 */
#define DebugFlags_BIGGEST_ALLOWED (DebugFlags){ .bits = (uint32_t)(1 << 31) }

typedef struct {
  uint64_t bits;
} LargeFlags;
/**
 * Flag with a very large shift that usually would be narrowed.
 */
#define LargeFlags_LARGE_SHIFT (LargeFlags){ .bits = (uint64_t)(1ull << 44) }
#define LargeFlags_INVERTED (LargeFlags){ .bits = (uint64_t)~(LargeFlags_LARGE_SHIFT).bits }

typedef struct {
  uint32_t _0;
} OutOfLine;
#define OutOfLine_A (OutOfLine){ ._0 = (uint32_t)1 }
#define OutOfLine_B (OutOfLine){ ._0 = (uint32_t)2 }
#define OutOfLine_AB (OutOfLine){ ._0 = (uint32_t)((OutOfLine_A)._0 | (OutOfLine_B)._0) }

#ifdef __cplusplus
extern ""C"" {
#endif // __cplusplus

void root(AlignFlags flags,
          DebugFlags bigger_flags,
          LargeFlags largest_flags,
          OutOfLine out_of_line);

#ifdef __cplusplus
}  // extern ""C""
#endif  // __cplusplus
".
(** tests/expectations/bitflags_tag.compat.c *)
Definition bitflags_compat_tag : string := "#include <stdarg.h>
#include <stdbool.h>
#include <stdint.h>
#include <stdlib.h>

/**
 * Constants shared by multiple CSS Box Alignment properties
 *
 * These constants match Gecko's `NS_STYLE_ALIGN_*` constants.
 */
struct AlignFlags {
  uint8_t bits;
};
/**
 * 'auto'
 */
#define AlignFlags_AUTO (AlignFlags){ .bits = (uint8_t)0 }
/**
 * 'normal'
 */
#define AlignFlags_NORMAL (AlignFlags){ .bits = (uint8_t)1 }
/**
 * 'start'
 */
#define AlignFlags_START (AlignFlags){ .bits = (uint8_t)(1 << 1) }
/**
 * 'end'
 */
#define AlignFlags_END (AlignFlags){ .bits = (uint8_t)(1 << 2) }
#define AlignFlags_ALIAS (AlignFlags){ .bits = (uint8_t)(AlignFlags_END).bits }
/**
 * 'flex-start'
 */
#define AlignFlags_FLEX_START (AlignFlags){ .bits = (uint8_t)(1 << 3) }
#define AlignFlags_MIXED (AlignFlags){ .bits = (uint8_t)(((1 << 4) | (AlignFlags_FLEX_START).bits) | (AlignFlags_END).bits) }
#define AlignFlags_MIXED_SELF (AlignFlags){ .bits = (uint8_t)(((1 << 5) | (AlignFlags_FLEX_START).bits) | (AlignFlags_END).bits) }

struct DebugFlags {
  uint32_t bits;
};
/**
 * Flag with the topmost bit set of the u32
 */
#define DebugFlags_BIGGEST_ALLOWED (DebugFlags){ .bits = (uint32_t)(1 << 31) }

struct LargeFlags {
  uint64_t bits;
};
/**
 * Flag with a very large shift that usually would be narrowed.
 */
#define LargeFlags_LARGE_SHIFT (LargeFlags){ .bits = (uint64_t)(1ull << 44) }
#define LargeFlags_INVERTED (LargeFlags){ .bits = (uint64_t)~(LargeFlags_LARGE_SHIFT).bits }

struct OutOfLine {
  uint32_t _0;
};
#define OutOfLine_A (OutOfLine){ ._0 = (uint32_t)1 }
#define OutOfLine_B (OutOfLine){ ._0 = (uint32_t)2 }
#define OutOfLine_AB (OutOfLine){ ._0 = (uint32_t)((OutOfLine_A)._0 | (OutOfLine_B)._0) }

#ifdef __cplusplus
extern ""C"" {
#endif // __cplusplus

void root(struct AlignFlags flags,
          struct DebugFlags bigger_flags,
          struct LargeFlags largest_flags,
          struct OutOfLine out_of_line);

#ifdef __cplusplus
}  // extern ""C""
#endif  // __cplusplus
".
(** tests/expectations/bitflags_both.compat.c *)
Definition bitflags_compat_both : string := "#include <stdarg.h>
#include <stdbool.h>
#include <stdint.h>
#include <stdlib.h>

/**
 * Constants shared by multiple CSS Box Alignment properties
 *
 * These constants match Gecko's `NS_STYLE_ALIGN_*` constants.
 */
typedef struct AlignFlags {
  uint8_t bits;
} AlignFlags;
/**
 * 'auto'
 */
#define AlignFlags_AUTO (AlignFlags){ .bits = (uint8_t)0 }
/**
 * 'normal'
 */
#define AlignFlags_NORMAL (AlignFlags){ .bits = (uint8_t)1 }
/**
 * 'start'
 */
#define AlignFlags_START (AlignFlags){ .bits = (uint8_t)(1 << 1) }
/**
 * 'end'
 */
#define AlignFlags_END (AlignFlags){ .bits = (uint8_t)(1 << 2) }
#define AlignFlags_ALIAS (AlignFlags){ .bits = (uint8_t)(AlignFlags_END).bits }
/**
 * 'flex-start'
 */
#define AlignFlags_FLEX_START (AlignFlags){ .bits = (uint8_t)(1 << 3) }
#define AlignFlags_MIXED (AlignFlags){ .bits = (uint8_t)(((1 << 4) | (AlignFlags_FLEX_START).bits) | (AlignFlags_END).bits) }
#define AlignFlags_MIXED_SELF (AlignFlags){ .bits = (uint8_t)(((1 << 5) | (AlignFlags_FLEX_START).bits) | (AlignFlags_END).bits) }

typedef struct DebugFlags {
  uint32_t bits;
} DebugFlags;
/**
 * Flag with the topmost bit set of the u32
 */
#define DebugFlags_BIGGEST_ALLOWED (DebugFlags){ .bits = (uint32_t)(1 << 31) }

typedef struct LargeFlags {
  uint64_t bits;
} LargeFlags;
/**
 * Flag with a very large shift that usually would be narrowed.
 */
#define LargeFlags_LARGE_SHIFT (LargeFlags){ .bits = (uint64_t)(1ull << 44) }
#define LargeFlags_INVERTED (LargeFlags){ .bits = (uint64_t)~(LargeFlags_LARGE_SHIFT).bits }

typedef struct OutOfLine {
  uint32_t _0;
} OutOfLine;
#define OutOfLine_A (OutOfLine){ ._0 = (uint32_t)1 }
#define OutOfLine_B (OutOfLine){ ._0 = (uint32_t)2 }
#define OutOfLine_AB (OutOfLine){ ._0 = (uint32_t)((OutOfLine_A)._0 | (OutOfLine_B)._0) }

#ifdef __cplusplus
extern ""C"" {
#endif // __cplusplus

void root(struct AlignFlags flags,
          struct DebugFlags bigger_flags,
          struct LargeFlags largest_flags,
          struct OutOfLine out_of_line);

#ifdef __cplusplus
}  // extern ""C""
#endif  // __cplusplus
".
(** tests/expectations/bitflags.c *)
Definition bitflags_c : string := "#include <stdarg.h>
#include <stdbool.h>
#include <stdint.h>
#include <stdlib.h>

/**
 * Constants shared by multiple CSS Box Alignment properties
 *
 * These constants match Gecko's `NS_STYLE_ALIGN_*` constants.
 */
typedef struct {
  uint8_t bits;
} AlignFlags;
/**
 * 'auto'
 */
#define AlignFlags_AUTO (AlignFlags){ .bits = (uint8_t)0 }
/**
 * 'normal'
 */
#define AlignFlags_NORMAL (AlignFlags){ .bits = (uint8_t)1 }
/**
 * 'start'
 */
#define AlignFlags_START (AlignFlags){ .bits = (uint8_t)(1 << 1) }
/**
 * 'end'
 */
#define AlignFlags_END (AlignFlags){ .bits = (uint8_t)(1 << 2) }
#define AlignFlags_ALIAS (AlignFlags){ .bits = (uint8_t)(AlignFlags_END).bits }
/**
 * 'flex-start'
 */
#define AlignFlags_FLEX_START (AlignFlags){ .bits = (uint8_t)(1 << 3) }
#define AlignFlags_MIXED (AlignFlags){ .bits = (uint8_t)(((1 << 4) | (AlignFlags_FLEX_START).bits) | (AlignFlags_END).bits) }
#define AlignFlags_MIXED_SELF (AlignFlags){ .bits = (uint8_t)(((1 << 5) | (AlignFlags_FLEX_START).bits) | (AlignFlags_END).bits) }

typedef struct {
  uint32_t bits;
} DebugFlags;
/**
 * Flag with the topmost bit set of the u32
 */
#define DebugFlags_BIGGEST_ALLOWED (DebugFlags){ .bits = (uint32_t)(1 << 31) }

typedef struct {
  uint64_t bits;
} LargeFlags;
/**
 * Flag with a very large shift that usually would be narrowed.
 */
#define LargeFlags_LARGE_SHIFT (LargeFlags){ .bits = (uint64_t)(1ull << 44) }
#define LargeFlags_INVERTED (LargeFlags){ .bits = (uint64_t)~(LargeFlags_LARGE_SHIFT).bits }

typedef struct {
  uint32_t _0;
} OutOfLine;
#define OutOfLine_A (OutOfLine){ ._0 = (uint32_t)1 }
#define OutOfLine_B (OutOfLine){ ._0 = (uint32_t)2 }
#define OutOfLine_AB (OutOfLine){ ._0 = (uint32_t)((OutOfLine_A)._0 | (OutOfLine_B)._0) }

void root(AlignFlags flags,
          DebugFlags bigger_flags,
          LargeFlags largest_flags,
          OutOfLine out_of_line);
".
(** tests/expectations/bitflags_tag.c *)
Definition bitflags_c_tag : string := "#include <stdarg.h>
#include <stdbool.h>
#include <stdint.h>
#include <stdlib.h>

/**
 * Constants shared by multiple CSS Box Alignment properties
 *
 * These constants match Gecko's `NS_STYLE_ALIGN_*` constants.
 */
struct AlignFlags {
  uint8_t bits;
};
/**
 * 'auto'
 */
#define AlignFlags_AUTO (AlignFlags){ .bits = (uint8_t)0 }
/**
 * 'normal'
 */
#define AlignFlags_NORMAL (AlignFlags){ .bits = (uint8_t)1 }
/**
 * 'start'
 */
#define AlignFlags_START (AlignFlags){ .bits = (uint8_t)(1 << 1) }
/**
 * 'end'
 */
#define AlignFlags_END (AlignFlags){ .bits = (uint8_t)(1 << 2) }
#define AlignFlags_ALIAS (AlignFlags){ .bits = (uint8_t)(AlignFlags_END).bits }
/**
 * 'flex-start'
 */
#define AlignFlags_FLEX_START (AlignFlags){ .bits = (uint8_t)(1 << 3) }
#define AlignFlags_MIXED (AlignFlags){ .bits = (uint8_t)(((1 << 4) | (AlignFlags_FLEX_START).bits) | (AlignFlags_END).bits) }
#define AlignFlags_MIXED_SELF (AlignFlags){ .bits = (uint8_t)(((1 << 5) | (AlignFlags_FLEX_START).bits) | (AlignFlags_END).bits) }

struct DebugFlags {
  uint32_t bits;
};
/**
 * Flag with the topmost bit set of the u32
 */
#define DebugFlags_BIGGEST_ALLOWED (DebugFlags){ .bits = (uint32_t)(1 << 31) }

struct LargeFlags {
  uint64_t bits;
};
/**
 * Flag with a very large shift that usually would be narrowed.
 */
#define LargeFlags_LARGE_SHIFT (LargeFlags){ .bits = (uint64_t)(1ull << 44) }
#define LargeFlags_INVERTED (LargeFlags){ .bits = (uint64_t)~(LargeFlags_LARGE_SHIFT).bits }

struct OutOfLine {
  uint32_t _0;
};
#define OutOfLine_A (OutOfLine){ ._0 = (uint32_t)1 }
#define OutOfLine_B (OutOfLine){ ._0 = (uint32_t)2 }
#define OutOfLine_AB (OutOfLine){ ._0 = (uint32_t)((OutOfLine_A)._0 | (OutOfLine_B)._0) }

void root(struct AlignFlags flags,
          struct DebugFlags bigger_flags,
          struct LargeFlags largest_flags,
          struct OutOfLine out_of_line);
".
(** tests/expectations/bitflags_both.c *)
Definition bitflags_c_both : string := "#include <stdarg.h>
#include <stdbool.h>
#include <stdint.h>
#include <stdlib.h>

/**
 * Constants shared by multiple CSS Box Alignment properties
 *
 * These constants match Gecko's `NS_STYLE_ALIGN_*` constants.
 */
typedef struct AlignFlags {
  uint8_t bits;
} AlignFlags;
/**
 * 'auto'
 */
#define AlignFlags_AUTO (AlignFlags){ .bits = (uint8_t)0 }
/**
 * 'normal'
 */
#define AlignFlags_NORMAL (AlignFlags){ .bits = (uint8_t)1 }
/**
 * 'start'
 */
#define AlignFlags_START (AlignFlags){ .bits = (uint8_t)(1 << 1) }
/**
 * 'end'
 */
#define AlignFlags_END (AlignFlags){ .bits = (uint8_t)(1 << 2) }
#define AlignFlags_ALIAS (AlignFlags){ .bits = (uint8_t)(AlignFlags_END).bits }
/**
 * 'flex-start'
 */
#define AlignFlags_FLEX_START (AlignFlags){ .bits = (uint8_t)(1 << 3) }
#define AlignFlags_MIXED (AlignFlags){ .bits = (uint8_t)(((1 << 4) | (AlignFlags_FLEX_START).bits) | (AlignFlags_END).bits) }
#define AlignFlags_MIXED_SELF (AlignFlags){ .bits = (uint8_t)(((1 << 5) | (AlignFlags_FLEX_START).bits) | (AlignFlags_END).bits) }

typedef struct DebugFlags {
  uint32_t bits;
} DebugFlags;
/**
 * Flag with the topmost bit set of the u32
 */
#define DebugFlags_BIGGEST_ALLOWED (DebugFlags){ .bits = (uint32_t)(1 << 31) }

typedef struct LargeFlags {
  uint64_t bits;
} LargeFlags;
/**
 * Flag with a very large shift that usually would be narrowed.
 */
#define LargeFlags_LARGE_SHIFT (LargeFlags){ .bits = (uint64_t)(1ull << 44) }
#define LargeFlags_INVERTED (LargeFlags){ .bits = (uint64_t)~(LargeFlags_LARGE_SHIFT).bits }

typedef struct OutOfLine {
  uint32_t _0;
} OutOfLine;
#define OutOfLine_A (OutOfLine){ ._0 = (uint32_t)1 }
#define OutOfLine_B (OutOfLine){ ._0 = (uint32_t)2 }
#define OutOfLine_AB (OutOfLine){ ._0 = (uint32_t)((OutOfLine_A)._0 | (OutOfLine_B)._0) }

void root(struct AlignFlags flags,
          struct DebugFlags bigger_flags,
          struct LargeFlags largest_flags,
          struct OutOfLine out_of_line);
".
(** tests/expectations/bitflags.cpp *)
Definition bitflags_cpp : string := "#include <cstdarg>
#include <cstdint>
#include <cstdlib>
#include <ostream>
#include <new>

/// Constants shared by multiple CSS Box Alignment properties
///
/// These constants match Gecko's `NS_STYLE_ALIGN_*` constants.
struct AlignFlags {
  uint8_t bits;

  constexpr explicit operator bool() const {
    return !!bits;
  }
  constexpr AlignFlags operator~() const {
    return AlignFlags { static_cast<decltype(bits)>(~bits) };
  }
  constexpr AlignFlags operator|(const AlignFlags& other) const {
    return AlignFlags { static_cast<decltype(bits)>(this->bits | other.bits) };
  }
  AlignFlags& operator|=(const AlignFlags& other) {
    *this = (*this | other);
    return *this;
  }
  constexpr AlignFlags operator&(const AlignFlags& other) const {
    return AlignFlags { static_cast<decltype(bits)>(this->bits & other.bits) };
  }
  AlignFlags& operator&=(const AlignFlags& other) {
    *this = (*this & other);
    return *this;
  }
  constexpr AlignFlags operator^(const AlignFlags& other) const {
    return AlignFlags { static_cast<decltype(bits)>(this->bits ^ other.bits) };
  }
  AlignFlags& operator^=(const AlignFlags& other) {
    *this = (*this ^ other);
    return *this;
  }
};
/// 'auto'
constexpr static const AlignFlags AlignFlags_AUTO = AlignFlags{
  /* .bits = */ (uint8_t)0
};
/// 'normal'
constexpr static const AlignFlags AlignFlags_NORMAL = AlignFlags{
  /* .bits = */ (uint8_t)1
};
/// 'start'
constexpr static const AlignFlags AlignFlags_START = AlignFlags{
  /* .bits = */ (uint8_t)(1 << 1)
};
/// 'end'
constexpr static const AlignFlags AlignFlags_END = AlignFlags{
  /* .bits = */ (uint8_t)(1 << 2)
};
constexpr static const AlignFlags AlignFlags_ALIAS = AlignFlags{
  /* .bits = */ (uint8_t)(AlignFlags_END).bits
};
/// 'flex-start'
constexpr static const AlignFlags AlignFlags_FLEX_START = AlignFlags{
  /* .bits = */ (uint8_t)(1 << 3)
};
constexpr static const AlignFlags AlignFlags_MIXED = AlignFlags{
  /* .bits = */ (uint8_t)(((1 << 4) | (AlignFlags_FLEX_START).bits) | (AlignFlags_END).bits)
};
constexpr static const AlignFlags AlignFlags_MIXED_SELF = AlignFlags{
  /* .bits = */ (uint8_t)(((1 << 5) | (AlignFlags_FLEX_START).bits) | (AlignFlags_END).bits)
};

struct DebugFlags {
  uint32_t bits;

  constexpr explicit operator bool() const {
    return !!bits;
  }
  constexpr DebugFlags operator~() const {
    return DebugFlags { static_cast<decltype(bits)>(~bits) };
  }
  constexpr DebugFlags operator|(const DebugFlags& other) const {
    return DebugFlags { static_cast<decltype(bits)>(this->bits | other.bits) };
  }
  DebugFlags& operator|=(const DebugFlags& other) {
    *this = (*this | other);
    return *this;
  }
  constexpr DebugFlags operator&(const DebugFlags& other) const {
    return DebugFlags { static_cast<decltype(bits)>(this->bits & other.bits) };
  }
  DebugFlags& operator&=(const DebugFlags& other) {
    *this = (*this & other);
    return *this;
  }
  constexpr DebugFlags operator^(const DebugFlags& other) const {
    return DebugFlags { static_cast<decltype(bits)>(this->bits ^ other.bits) };
  }
  DebugFlags& operator^=(const DebugFlags& other) {
    *this = (*this ^ other);
    return *this;
  }
};
/// Flag with the topmost bit set of the u32
constexpr static const DebugFlags DebugFlags_BIGGEST_ALLOWED = DebugFlags{
  /* .bits = */ (uint32_t)(1 << 31)
};

struct LargeFlags {
  uint64_t bits;

  constexpr explicit operator bool() const {
    return !!bits;
  }
  constexpr LargeFlags operator~() const {
    return LargeFlags { static_cast<decltype(bits)>(~bits) };
  }
  constexpr LargeFlags operator|(const LargeFlags& other) const {
    return LargeFlags { static_cast<decltype(bits)>(this->bits | other.bits) };
  }
  LargeFlags& operator|=(const LargeFlags& other) {
    *this = (*this | other);
    return *this;
  }
  constexpr LargeFlags operator&(const LargeFlags& other) const {
    return LargeFlags { static_cast<decltype(bits)>(this->bits & other.bits) };
  }
  LargeFlags& operator&=(const LargeFlags& other) {
    *this = (*this & other);
    return *this;
  }
  constexpr LargeFlags operator^(const LargeFlags& other) const {
    return LargeFlags { static_cast<decltype(bits)>(this->bits ^ other.bits) };
  }
  LargeFlags& operator^=(const LargeFlags& other) {
    *this = (*this ^ other);
    return *this;
  }
};
/// Flag with a very large shift that usually would be narrowed.
constexpr static const LargeFlags LargeFlags_LARGE_SHIFT = LargeFlags{
  /* .bits = */ (uint64_t)(1ull << 44)
};
constexpr static const LargeFlags LargeFlags_INVERTED = LargeFlags{
  /* .bits = */ (uint64_t)~(LargeFlags_LARGE_SHIFT).bits
};

struct OutOfLine {
  uint32_t _0;

  constexpr explicit operator bool() const {
    return !!_0;
  }
  constexpr OutOfLine operator~() const {
    return OutOfLine { static_cast<decltype(_0)>(~_0) };
  }
  constexpr OutOfLine operator|(const OutOfLine& other) const {
    return OutOfLine { static_cast<decltype(_0)>(this->_0 | other._0) };
  }
  OutOfLine& operator|=(const OutOfLine& other) {
    *this = (*this | other);
    return *this;
  }
  constexpr OutOfLine operator&(const OutOfLine& other) const {
    return OutOfLine { static_cast<decltype(_0)>(this->_0 & other._0) };
  }
  OutOfLine& operator&=(const OutOfLine& other) {
    *this = (*this & other);
    return *this;
  }
  constexpr OutOfLine operator^(const OutOfLine& other) const {
    return OutOfLine { static_cast<decltype(_0)>(this->_0 ^ other._0) };
  }
  OutOfLine& operator^=(const OutOfLine& other) {
    *this = (*this ^ other);
    return *this;
  }
};
constexpr static const OutOfLine OutOfLine_A = OutOfLine{
  /* ._0 = */ (uint32_t)1
};
constexpr static const OutOfLine OutOfLine_B = OutOfLine{
  /* ._0 = */ (uint32_t)2
};
constexpr static const OutOfLine OutOfLine_AB = OutOfLine{
  /* ._0 = */ (uint32_t)((OutOfLine_A)._0 | (OutOfLine_B)._0)
};

extern ""C"" {

void root(AlignFlags flags,
          DebugFlags bigger_flags,
          LargeFlags largest_flags,
          OutOfLine out_of_line);

}  // extern ""C""
".
(** tests/expectations/bitflags.pyx *)
Definition bitflags_pyx : string := "from libc.stdint cimport int8_t, int16_t, int32_t, int64_t, intptr_t
from libc.stdint cimport uint8_t, uint16_t, uint32_t, uint64_t, uintptr_t
cdef extern from *:
  ctypedef bint bool
  ctypedef struct va_list

cdef extern from *:

  # Constants shared by multiple CSS Box Alignment properties
  #
  # These constants match Gecko's `NS_STYLE_ALIGN_*` constants.
  ctypedef struct AlignFlags:
    uint8_t bits;
  # 'auto'
  const AlignFlags AlignFlags_AUTO # = <AlignFlags>{ <uint8_t>0 }
  # 'normal'
  const AlignFlags AlignFlags_NORMAL # = <AlignFlags>{ <uint8_t>1 }
  # 'start'
  const AlignFlags AlignFlags_START # = <AlignFlags>{ <uint8_t>(1 << 1) }
  # 'end'
  const AlignFlags AlignFlags_END # = <AlignFlags>{ <uint8_t>(1 << 2) }
  const AlignFlags AlignFlags_ALIAS # = <AlignFlags>{ <uint8_t>(AlignFlags_END).bits }
  # 'flex-start'
  const AlignFlags AlignFlags_FLEX_START # = <AlignFlags>{ <uint8_t>(1 << 3) }
  const AlignFlags AlignFlags_MIXED # = <AlignFlags>{ <uint8_t>(((1 << 4) | (AlignFlags_FLEX_START).bits) | (AlignFlags_END).bits) }
  const AlignFlags AlignFlags_MIXED_SELF # = <AlignFlags>{ <uint8_t>(((1 << 5) | (AlignFlags_FLEX_START).bits) | (AlignFlags_END).bits) }

  ctypedef struct DebugFlags:
    uint32_t bits;
  # Flag with the topmost bit set of the u32
  const DebugFlags DebugFlags_BIGGEST_ALLOWED # = <DebugFlags>{ <uint32_t>(1 << 31) }

  ctypedef struct LargeFlags:
    uint64_t bits;
  # Flag with a very large shift that usually would be narrowed.
  const LargeFlags LargeFlags_LARGE_SHIFT # = <LargeFlags>{ <uint64_t>(1ull << 44) }
  const LargeFlags LargeFlags_INVERTED # = <LargeFlags>{ <uint64_t>~(LargeFlags_LARGE_SHIFT).bits }

  ctypedef struct OutOfLine:
    uint32_t _0;
  const OutOfLine OutOfLine_A # = <OutOfLine>{ <uint32_t>1 }
  const OutOfLine OutOfLine_B # = <OutOfLine>{ <uint32_t>2 }
  const OutOfLine OutOfLine_AB # = <OutOfLine>{ <uint32_t>((OutOfLine_A)._0 | (OutOfLine_B)._0) }

  void root(AlignFlags flags,
            DebugFlags bigger_flags,
            LargeFlags largest_flags,
            OutOfLine out_of_line);
".
(** tests/expectations/bitflags_tag.pyx *)
Definition bitflags_pyx_tag : string := "from libc.stdint cimport int8_t, int16_t, int32_t, int64_t, intptr_t
from libc.stdint cimport uint8_t, uint16_t, uint32_t, uint64_t, uintptr_t
cdef extern from *:
  ctypedef bint bool
  ctypedef struct va_list

cdef extern from *:

  # Constants shared by multiple CSS Box Alignment properties
  #
  # These constants match Gecko's `NS_STYLE_ALIGN_*` constants.
  cdef struct AlignFlags:
    uint8_t bits;
  # 'auto'
  const AlignFlags AlignFlags_AUTO # = <AlignFlags>{ <uint8_t>0 }
  # 'normal'
  const AlignFlags AlignFlags_NORMAL # = <AlignFlags>{ <uint8_t>1 }
  # 'start'
  const AlignFlags AlignFlags_START # = <AlignFlags>{ <uint8_t>(1 << 1) }
  # 'end'
  const AlignFlags AlignFlags_END # = <AlignFlags>{ <uint8_t>(1 << 2) }
  const AlignFlags AlignFlags_ALIAS # = <AlignFlags>{ <uint8_t>(AlignFlags_END).bits }
  # 'flex-start'
  const AlignFlags AlignFlags_FLEX_START # = <AlignFlags>{ <uint8_t>(1 << 3) }
  const AlignFlags AlignFlags_MIXED # = <AlignFlags>{ <uint8_t>(((1 << 4) | (AlignFlags_FLEX_START).bits) | (AlignFlags_END).bits) }
  const AlignFlags AlignFlags_MIXED_SELF # = <AlignFlags>{ <uint8_t>(((1 << 5) | (AlignFlags_FLEX_START).bits) | (AlignFlags_END).bits) }

  cdef struct DebugFlags:
    uint32_t bits;
  # Flag with the topmost bit set of the u32
  const DebugFlags DebugFlags_BIGGEST_ALLOWED # = <DebugFlags>{ <uint32_t>(1 << 31) }

  cdef struct LargeFlags:
    uint64_t bits;
  # Flag with a very large shift that usually would be narrowed.
  const LargeFlags LargeFlags_LARGE_SHIFT # = <LargeFlags>{ <uint64_t>(1ull << 44) }
  const LargeFlags LargeFlags_INVERTED # = <LargeFlags>{ <uint64_t>~(LargeFlags_LARGE_SHIFT).bits }

  cdef struct OutOfLine:
    uint32_t _0;
  const OutOfLine OutOfLine_A # = <OutOfLine>{ <uint32_t>1 }
  const OutOfLine OutOfLine_B # = <OutOfLine>{ <uint32_t>2 }
  const OutOfLine OutOfLine_AB # = <OutOfLine>{ <uint32_t>((OutOfLine_A)._0 | (OutOfLine_B)._0) }

  void root(AlignFlags flags,
            DebugFlags bigger_flags,
            LargeFlags largest_flags,
            OutOfLine out_of_line);
".
Example bitflags_reproduced : reproduces (in_file bitflags_rs) true bitflags_toml (Some "{
root;
};")
  [(RunC true Type_, [bitflags_compat]);
   (RunC true Tag, [bitflags_compat_tag]);
   (RunC true Both, [bitflags_compat_both]);
   (RunC false Type_, [bitflags_c]);
   (RunC false Tag, [bitflags_c_tag]);
   (RunC false Both, [bitflags_c_both]);
   (RunCxx, [bitflags_cpp]);
   (RunCython Type_, [bitflags_pyx]);
   (RunCython Tag, [bitflags_pyx_tag])] = true.
Proof. vm_compute. reflexivity. Qed.

(** ** tests/rust/bitflags_repr_transparent.rs *)
Definition bitflags_repr_transparent_rs : list sitem := [
  (ItemMacro [] "bitflags" (Some {| bf_attrs := (Some [{| at_meta := ANameValue (Some "doc") (Some " Constants shared by multiple CSS Box Alignment properties");
  at_outer := true |}; {| at_meta := ANameValue (Some "doc") (Some ""); at_outer := true |}; {| at_meta := ANameValue (Some "doc")
  (Some " These constants match Gecko's `NS_STYLE_ALIGN_*` constants."); at_outer := true |}; {| at_meta := (AList (Some "derive")
  [(APath (Some "MallocSizeOf"))]); at_outer := true |}; {| at_meta := (AList (Some "repr") [(APath (Some "transparent"))]); at_outer
  := true |}]); bf_name := "AlignFlags"; bf_repr := (SPath (SegPath [] "u8" NoArgs)); bf_flags := [([{| at_meta := ANameValue (Some
  "doc") (Some " 'auto'"); at_outer := true |}], "AUTO", (XLit (LitInt 0 ""))); ([{| at_meta := ANameValue (Some "doc") (Some " 'normal'");
  at_outer := true |}], "NORMAL", (XLit (LitInt 1 ""))); ([{| at_meta := ANameValue (Some "doc") (Some " 'start'"); at_outer := true
  |}], "START", (XBinary Shl (XLit (LitInt 1 "")) (XLit (LitInt 1 "")))); ([{| at_meta := ANameValue (Some "doc") (Some " 'end'");
  at_outer := true |}], "END", (XBinary Shl (XLit (LitInt 1 "")) (XLit (LitInt 2 "")))); ([], "ALIAS", (XMethod (XPath (SegPath ["Self"]
  "END" NoArgs)) "bits" [])); ([{| at_meta := ANameValue (Some "doc") (Some " 'flex-start'"); at_outer := true |}], "FLEX_START",
  (XBinary Shl (XLit (LitInt 1 "")) (XLit (LitInt 3 "")))); ([], "MIXED", (XBinary BitOr (XBinary BitOr (XBinary Shl (XLit (LitInt
  1 "")) (XLit (LitInt 4 ""))) (XMethod (XPath (SegPath ["AlignFlags"] "FLEX_START" NoArgs)) "bits" [])) (XMethod (XPath (SegPath
  ["AlignFlags"] "END" NoArgs)) "bits" []))); ([], "MIXED_SELF", (XBinary BitOr (XBinary BitOr (XBinary Shl (XLit (LitInt 1 "")) (XLit
  (LitInt 5 ""))) (XMethod (XPath (SegPath ["AlignFlags"] "FLEX_START" NoArgs)) "bits" [])) (XMethod (XPath (SegPath ["AlignFlags"]
  "END" NoArgs)) "bits" [])))] |}));
  (ItemMacro [] "bitflags" (Some {| bf_attrs := (Some [{| at_meta := (AList (Some "repr") [(APath (Some "transparent"))]); at_outer
  := true |}]); bf_name := "DebugFlags"; bf_repr := (SPath (SegPath [] "u32" NoArgs)); bf_flags := [([{| at_meta := ANameValue (Some
  "doc") (Some " Flag with the topmost bit set of the u32"); at_outer := true |}], "BIGGEST_ALLOWED", (XBinary Shl (XLit (LitInt 1
  "")) (XLit (LitInt 31 ""))))] |}));
  (ItemMacro [] "bitflags" (Some {| bf_attrs := (Some [{| at_meta := (AList (Some "repr") [(APath (Some "transparent"))]); at_outer
  := true |}]); bf_name := "LargeFlags"; bf_repr := (SPath (SegPath [] "u64" NoArgs)); bf_flags := [([{| at_meta := ANameValue (Some
  "doc") (Some " Flag with a very large shift that usually would be narrowed."); at_outer := true |}], "LARGE_SHIFT", (XBinary Shl
  (XLit (LitInt 1 "u64")) (XLit (LitInt 44 "")))); ([], "INVERTED", (XUnary Not (XMethod (XPath (SegPath ["Self"] "LARGE_SHIFT" NoArgs))
  "bits" [])))] |}));
  (ItemStruct [{| at_meta := (AList (Some "repr") [(APath (Some "transparent"))]); at_outer := true |}] "OutOfLine" [] (FieldsUnnamed
  [{| sf_attrs := []; sf_ident := None; sf_ty := (SPath (SegPath [] "u32" NoArgs)) |}]));
  (ItemMacro [] "bitflags" (Some {| bf_attrs := None; bf_name := "OutOfLine"; bf_repr := (SPath (SegPath [] "u32" NoArgs)); bf_flags
  := [([], "A", (XLit (LitInt 1 ""))); ([], "B", (XLit (LitInt 2 ""))); ([], "AB", (XBinary BitOr (XMethod (XPath (SegPath ["Self"]
  "A" NoArgs)) "bits" []) (XMethod (XPath (SegPath ["Self"] "B" NoArgs)) "bits" [])))] |}));
  (ItemFn [{| at_meta := (APath (Some "no_mangle")); at_outer := true |}] true {| sg_ident := "root"; sg_abi := (Some (Some "C")); sg_inputs
  := [(FnTyped (PatIdent "flags") (SPath (SegPath [] "AlignFlags" NoArgs))); (FnTyped (PatIdent "bigger_flags") (SPath (SegPath []
  "DebugFlags" NoArgs))); (FnTyped (PatIdent "largest_flags") (SPath (SegPath [] "LargeFlags" NoArgs))); (FnTyped (PatIdent "out_of_line")
  (SPath (SegPath [] "OutOfLine" NoArgs)))]; sg_variadic := false; sg_output := None |})].
Definition bitflags_repr_transparent_toml : Config := {| header := None; includes_ := []; sys_includes_ := []; after_includes := None; trailer := None;
  include_guard_ := None; pragma_once := false; no_includes := false; package_version := false; autogen_warning := None; include_version := false;
  namespace := None; namespaces := None; using_namespaces := None; braces := SameLine; line_length := 100; tab_width := 2; line_endings := LF;
  language := Cxx; cpp_compat := false; style := Both; sort_by := SortNone; usize_is_size_t := false; parse := default_parse; export := {| ex_include := []; ex_exclude := []; ex_rename := []; ex_pre_body := []; ex_body := []; ex_prefix := None; ex_item_types := []; ex_renaming_overrides_prefixing := false; ex_mangle := {| rename_types := RNone; remove_underscores := false |} |};
  layout := {| ly_packed := None; ly_aligned_n := None |}; function := {| fn_prefix := None; fn_postfix := None; fn_must_use := None; fn_deprecated := None; fn_deprecated_with_note := None; fn_args := Auto; fn_rename_args := RNone; fn_swift_name_macro := None; fn_sort_by := None; fn_no_return := None |}; structure := {| st_rename_fields := RNone; st_derive_constructor := false; st_derive_eq := false; st_derive_neq := false; st_derive_lt := false; st_derive_lte := false; st_derive_gt := false; st_derive_gte := false; st_derive_ostream := false; st_associated_constants_in_body := false; st_rename_associated_constant := RNone; st_must_use := None; st_deprecated := None; st_deprecated_with_note := None |}; enumeration := {| en_rename_variants := RNone; en_rename_variant_name_fields := SnakeCase; en_add_sentinel := false; en_prefix_with_name := false; en_derive_helper_methods := false; en_derive_const_casts := false; en_derive_mut_casts := false; en_cast_assert_name := None; en_must_use := None; en_deprecated := None; en_deprecated_with_note := None; en_deprecated_variant := None; en_deprecated_variant_with_note := None; en_derive_tagged_enum_destructor := false; en_derive_tagged_enum_copy_constructor := false; en_derive_tagged_enum_copy_assignment := false; en_derive_ostream := false; en_enum_class := true; en_private_default_tagged_enum_constructor := false |}; constant := {| co_allow_static_const := true; co_allow_constexpr := true; co_sort_by := None |}; defines := []; documentation := true;
  documentation_style := DocAuto; documentation_length := Full; pointer := {| pt_non_null_attribute := None; pt_nullable_attribute := None |}; cython := {| cy_header := None; cy_cimports := [] |}; config_path := None |}.
(** tests/expectations/bitflags_repr_transparent.compat.c *)
Definition bitflags_repr_transparent_compat : string := "#include <stdarg.h>
#include <stdbool.h>
#include <stdint.h>
#include <stdlib.h>

/**
 * Constants shared by multiple CSS Box Alignment properties
 *
 * These constants match Gecko's `NS_STYLE_ALIGN_*` constants.
 */
typedef uint8_t AlignFlags;
/**
 * 'auto'
 */
#define AlignFlags_AUTO (uint8_t)0
/**
 * 'normal'
 */
#define AlignFlags_NORMAL (uint8_t)1
/**
 * 'start'
 */
#define AlignFlags_START (uint8_t)(1 << 1)
/**
 * 'end'
 */
#define AlignFlags_END (uint8_t)(1 << 2)
#define AlignFlags_ALIAS (uint8_t)AlignFlags_END
/**
 * 'flex-start'
 */
#define AlignFlags_FLEX_START (uint8_t)(1 << 3)
#define AlignFlags_MIXED (uint8_t)(((1 << 4) | AlignFlags_FLEX_START) | AlignFlags_END)
#define AlignFlags_MIXED_SELF (uint8_t)(((1 << 5) | AlignFlags_FLEX_START) | AlignFlags_END)

typedef uint32_t DebugFlags;
/**
 * Flag with the topmost bit set of the u32
 */
#define DebugFlags_BIGGEST_ALLOWED (uint32_t)(1 << 31)

typedef uint64_t LargeFlags;
/**
 * Flag with a very large shift that usually would be narrowed.
 */
#define LargeFlags_LARGE_SHIFT (uint64_t)(1ull << 44)
#define LargeFlags_INVERTED (uint64_t)~LargeFlags_LARGE_SHIFT

typedef uint32_t OutOfLine;
#define OutOfLine_A (uint32_t)1
#define OutOfLine_B (uint32_t)2
#define OutOfLine_AB (uint32_t)(OutOfLine_A | OutOfLine_B)

#ifdef __cplusplus
extern ""C"" {
#endif // __cplusplus

void root(AlignFlags flags,
          DebugFlags bigger_flags,
          LargeFlags largest_flags,
          OutOfLine out_of_line);

#ifdef __cplusplus
}  // extern ""C""
#endif  // __cplusplus
".
(** tests/expectations/bitflags_repr_transparent.c *)
Definition bitflags_repr_transparent_c : string := "#include <stdarg.h>
#include <stdbool.h>
#include <stdint.h>
#include <stdlib.h>

/**
 * Constants shared by multiple CSS Box Alignment properties
 *
 * These constants match Gecko's `NS_STYLE_ALIGN_*` constants.
 */
typedef uint8_t AlignFlags;
/**
 * 'auto'
 */
#define AlignFlags_AUTO (uint8_t)0
/**
 * 'normal'
 */
#define AlignFlags_NORMAL (uint8_t)1
/**
 * 'start'
 */
#define AlignFlags_START (uint8_t)(1 << 1)
/**
 * 'end'
 */
#define AlignFlags_END (uint8_t)(1 << 2)
#define AlignFlags_ALIAS (uint8_t)AlignFlags_END
/**
 * 'flex-start'
 */
#define AlignFlags_FLEX_START (uint8_t)(1 << 3)
#define AlignFlags_MIXED (uint8_t)(((1 << 4) | AlignFlags_FLEX_START) | AlignFlags_END)
#define AlignFlags_MIXED_SELF (uint8_t)(((1 << 5) | AlignFlags_FLEX_START) | AlignFlags_END)

typedef uint32_t DebugFlags;
/**
 * Flag with the topmost bit set of the u32
 */
#define DebugFlags_BIGGEST_ALLOWED (uint32_t)(1 << 31)

typedef uint64_t LargeFlags;
/**
 * Flag with a very large shift that usually would be narrowed.
 */
#define LargeFlags_LARGE_SHIFT (uint64_t)(1ull << 44)
#define LargeFlags_INVERTED (uint64_t)~LargeFlags_LARGE_SHIFT

typedef uint32_t OutOfLine;
#define OutOfLine_A (uint32_t)1
#define OutOfLine_B (uint32_t)2
#define OutOfLine_AB (uint32_t)(OutOfLine_A | OutOfLine_B)

void root(AlignFlags flags,
          DebugFlags bigger_flags,
          LargeFlags largest_flags,
          OutOfLine out_of_line);
".
(** tests/expectations/bitflags_repr_transparent.cpp *)
Definition bitflags_repr_transparent_cpp : string := "#include <cstdarg>
#include <cstdint>
#include <cstdlib>
#include <ostream>
#include <new>

/// Constants shared by multiple CSS Box Alignment properties
///
/// These constants match Gecko's `NS_STYLE_ALIGN_*` constants.
using AlignFlags = uint8_t;
/// 'auto'
constexpr static const AlignFlags AlignFlags_AUTO = (uint8_t)0;
/// 'normal'
constexpr static const AlignFlags AlignFlags_NORMAL = (uint8_t)1;
/// 'start'
constexpr static const AlignFlags AlignFlags_START = (uint8_t)(1 << 1);
/// 'end'
constexpr static const AlignFlags AlignFlags_END = (uint8_t)(1 << 2);
constexpr static const AlignFlags AlignFlags_ALIAS = (uint8_t)AlignFlags_END;
/// 'flex-start'
constexpr static const AlignFlags AlignFlags_FLEX_START = (uint8_t)(1 << 3);
constexpr static const AlignFlags AlignFlags_MIXED = (uint8_t)(((1 << 4) | AlignFlags_FLEX_START) | AlignFlags_END);
constexpr static const AlignFlags AlignFlags_MIXED_SELF = (uint8_t)(((1 << 5) | AlignFlags_FLEX_START) | AlignFlags_END);

using DebugFlags = uint32_t;
/// Flag with the topmost bit set of the u32
constexpr static const DebugFlags DebugFlags_BIGGEST_ALLOWED = (uint32_t)(1 << 31);

using LargeFlags = uint64_t;
/// Flag with a very large shift that usually would be narrowed.
constexpr static const LargeFlags LargeFlags_LARGE_SHIFT = (uint64_t)(1ull << 44);
constexpr static const LargeFlags LargeFlags_INVERTED = (uint64_t)~LargeFlags_LARGE_SHIFT;

using OutOfLine = uint32_t;
constexpr static const OutOfLine OutOfLine_A = (uint32_t)1;
constexpr static const OutOfLine OutOfLine_B = (uint32_t)2;
constexpr static const OutOfLine OutOfLine_AB = (uint32_t)(OutOfLine_A | OutOfLine_B);

extern ""C"" {

void root(AlignFlags flags,
          DebugFlags bigger_flags,
          LargeFlags largest_flags,
          OutOfLine out_of_line);

}  // extern ""C""
".
(** tests/expectations/bitflags_repr_transparent.pyx *)
Definition bitflags_repr_transparent_pyx : string := "from libc.stdint cimport int8_t, int16_t, int32_t, int64_t, intptr_t
from libc.stdint cimport uint8_t, uint16_t, uint32_t, uint64_t, uintptr_t
cdef extern from *:
  ctypedef bint bool
  ctypedef struct va_list

cdef extern from *:

  # Constants shared by multiple CSS Box Alignment properties
  #
  # These constants match Gecko's `NS_STYLE_ALIGN_*` constants.
  ctypedef uint8_t AlignFlags;
  # 'auto'
  const AlignFlags AlignFlags_AUTO # = <uint8_t>0
  # 'normal'
  const AlignFlags AlignFlags_NORMAL # = <uint8_t>1
  # 'start'
  const AlignFlags AlignFlags_START # = <uint8_t>(1 << 1)
  # 'end'
  const AlignFlags AlignFlags_END # = <uint8_t>(1 << 2)
  const AlignFlags AlignFlags_ALIAS # = <uint8_t>AlignFlags_END
  # 'flex-start'
  const AlignFlags AlignFlags_FLEX_START # = <uint8_t>(1 << 3)
  const AlignFlags AlignFlags_MIXED # = <uint8_t>(((1 << 4) | AlignFlags_FLEX_START) | AlignFlags_END)
  const AlignFlags AlignFlags_MIXED_SELF # = <uint8_t>(((1 << 5) | AlignFlags_FLEX_START) | AlignFlags_END)

  ctypedef uint32_t DebugFlags;
  # Flag with the topmost bit set of the u32
  const DebugFlags DebugFlags_BIGGEST_ALLOWED # = <uint32_t>(1 << 31)

  ctypedef uint64_t LargeFlags;
  # Flag with a very large shift that usually would be narrowed.
  const LargeFlags LargeFlags_LARGE_SHIFT # = <uint64_t>(1ull << 44)
  const LargeFlags LargeFlags_INVERTED # = <uint64_t>~LargeFlags_LARGE_SHIFT

  ctypedef uint32_t OutOfLine;
  const OutOfLine OutOfLine_A # = <uint32_t>1
  const OutOfLine OutOfLine_B # = <uint32_t>2
  const OutOfLine OutOfLine_AB # = <uint32_t>(OutOfLine_A | OutOfLine_B)

  void root(AlignFlags flags,
            DebugFlags bigger_flags,
            LargeFlags largest_flags,
            OutOfLine out_of_line);
".
Example bitflags_repr_transparent_reproduced : reproduces (in_file bitflags_repr_transparent_rs) true bitflags_repr_transparent_toml (Some "{
root;
};")
  [(RunC true Type_, [bitflags_repr_transparent_compat]);
   (RunC true Tag, [bitflags_repr_transparent_compat]);
   (RunC true Both, [bitflags_repr_transparent_compat]);
   (RunC false Type_, [bitflags_repr_transparent_c]);
   (RunC false Tag, [bitflags_repr_transparent_compat; bitflags_repr_transparent_c]);
   (RunC false Both, [bitflags_repr_transparent_compat; bitflags_repr_transparent_c]);
   (RunCxx, [bitflags_repr_transparent_cpp]);
   (RunCython Type_, [bitflags_repr_transparent_pyx]);
   (RunCython Tag, [bitflags_repr_transparent_pyx])] = true.
Proof. vm_compute. reflexivity. Qed.

(** ** tests/rust/body.rs *)
Definition body_rs : list sitem := [
  (ItemStruct [{| at_meta := (AList (Some "repr") [(APath (Some "C"))]); at_outer := true |}] "MyFancyStruct" [] (FieldsNamed [{| sf_attrs
  := []; sf_ident := (Some "i"); sf_ty := (SPath (SegPath [] "i32" NoArgs)) |}]));
  (ItemEnum [{| at_meta := (AList (Some "repr") [(APath (Some "C"))]); at_outer := true |}] "MyFancyEnum" [] [{| sv_attrs := []; sv_ident
  := "Foo"; sv_fields := FieldsUnit; sv_discriminant := None |}; {| sv_attrs := []; sv_ident := "Bar"; sv_fields := (FieldsUnnamed
  [{| sf_attrs := []; sf_ident := None; sf_ty := (SPath (SegPath [] "i32" NoArgs)) |}]); sv_discriminant := None |}; {| sv_attrs :=
  []; sv_ident := "Baz"; sv_fields := (FieldsUnnamed [{| sf_attrs := []; sf_ident := None; sf_ty := (SPath (SegPath [] "i32" NoArgs))
  |}]); sv_discriminant := None |}]);
  (ItemEnum [{| at_meta := (AList (Some "repr") [(APath (Some "C"))]); at_outer := true |}] "MyCLikeEnum" [] [{| sv_attrs := []; sv_ident
  := "Foo1"; sv_fields := FieldsUnit; sv_discriminant := None |}; {| sv_attrs := []; sv_ident := "Bar1"; sv_fields := FieldsUnit;
  sv_discriminant := None |}; {| sv_attrs := []; sv_ident := "Baz1"; sv_fields := FieldsUnit; sv_discriminant := None |}]);
  (ItemUnion [{| at_meta := (AList (Some "repr") [(APath (Some "C"))]); at_outer := true |}] "MyUnion" [] [{| sf_attrs := []; sf_ident
  := (Some "f"); sf_ty := (SPath (SegPath [] "f32" NoArgs)) |}; {| sf_attrs := []; sf_ident := (Some "u"); sf_ty := (SPath (SegPath
  [] "u32" NoArgs)) |}]);
  (ItemStruct [{| at_meta := (AList (Some "repr") [(APath (Some "C"))]); at_outer := true |}] "MyFancyStruct_Prepended" [] (FieldsNamed
  [{| sf_attrs := []; sf_ident := (Some "i"); sf_ty := (SPath (SegPath [] "i32" NoArgs)) |}]));
  (ItemEnum [{| at_meta := (AList (Some "repr") [(APath (Some "C"))]); at_outer := true |}] "MyFancyEnum_Prepended" [] [{| sv_attrs
  := []; sv_ident := "Foo_Prepended"; sv_fields := FieldsUnit; sv_discriminant := None |}; {| sv_attrs := []; sv_ident := "Bar_Prepended";
  sv_fields := (FieldsUnnamed [{| sf_attrs := []; sf_ident := None; sf_ty := (SPath (SegPath [] "i32" NoArgs)) |}]); sv_discriminant
  := None |}; {| sv_attrs := []; sv_ident := "Baz_Prepended"; sv_fields := (FieldsUnnamed [{| sf_attrs := []; sf_ident := None; sf_ty
  := (SPath (SegPath [] "i32" NoArgs)) |}]); sv_discriminant := None |}]);
  (ItemEnum [{| at_meta := (AList (Some "repr") [(APath (Some "C"))]); at_outer := true |}] "MyCLikeEnum_Prepended" [] [{| sv_attrs
  := []; sv_ident := "Foo1_Prepended"; sv_fields := FieldsUnit; sv_discriminant := None |}; {| sv_attrs := []; sv_ident := "Bar1_Prepended";
  sv_fields := FieldsUnit; sv_discriminant := None |}; {| sv_attrs := []; sv_ident := "Baz1_Prepended"; sv_fields := FieldsUnit; sv_discriminant
  := None |}]);
  (ItemUnion [{| at_meta := (AList (Some "repr") [(APath (Some "C"))]); at_outer := true |}] "MyUnion_Prepended" [] [{| sf_attrs :=
  []; sf_ident := (Some "f"); sf_ty := (SPath (SegPath [] "f32" NoArgs)) |}; {| sf_attrs := []; sf_ident := (Some "u"); sf_ty := (SPath
  (SegPath [] "u32" NoArgs)) |}]);
  (ItemFn [{| at_meta := (APath (Some "no_mangle")); at_outer := true |}] true {| sg_ident := "root"; sg_abi := (Some (Some "C")); sg_inputs
  := [(FnTyped (PatIdent "s") (SPath (SegPath [] "MyFancyStruct" NoArgs))); (FnTyped (PatIdent "e") (SPath (SegPath [] "MyFancyEnum"
  NoArgs))); (FnTyped (PatIdent "c") (SPath (SegPath [] "MyCLikeEnum" NoArgs))); (FnTyped (PatIdent "u") (SPath (SegPath [] "MyUnion"
  NoArgs))); (FnTyped (PatIdent "sp") (SPath (SegPath [] "MyFancyStruct_Prepended" NoArgs))); (FnTyped (PatIdent "ep") (SPath (SegPath
  [] "MyFancyEnum_Prepended" NoArgs))); (FnTyped (PatIdent "cp") (SPath (SegPath [] "MyCLikeEnum_Prepended" NoArgs))); (FnTyped (PatIdent
  "up") (SPath (SegPath [] "MyUnion_Prepended" NoArgs)))]; sg_variadic := false; sg_output := None |})].
Definition body_toml : Config := {| header := None; includes_ := []; sys_includes_ := []; after_includes := None; trailer := None;
  include_guard_ := None; pragma_once := false; no_includes := false; package_version := false; autogen_warning := None; include_version := false;
  namespace := None; namespaces := None; using_namespaces := None; braces := SameLine; line_length := 100; tab_width := 2; line_endings := LF;
  language := Cxx; cpp_compat := false; style := Both; sort_by := SortNone; usize_is_size_t := false; parse := default_parse; export := {| ex_include := []; ex_exclude := []; ex_rename := []; ex_pre_body := [("MyFancyStruct_Prepended", "#ifdef __cplusplus
    inline void prepended_wohoo();
#endif
"); ("MyFancyEnum_Prepended", "#ifdef __cplusplus
    inline void wohoo();
#endif
"); ("MyCLikeEnum_Prepended", "  BogusVariantForSerializationForExample,
"); ("MyUnion_Prepended", "    int32_t extra_member;
")]; ex_body := [("MyFancyStruct", "#ifdef __cplusplus
    inline void foo();
#endif
"); ("MyFancyEnum", "#ifdef __cplusplus
    inline void wohoo();
#endif
"); ("MyCLikeEnum", "  BogusVariantForSerializationForExample,
"); ("MyUnion", "  int32_t extra_member;
")]; ex_prefix := None; ex_item_types := []; ex_renaming_overrides_prefixing := false; ex_mangle := {| rename_types := RNone; remove_underscores := false |} |};
  layout := {| ly_packed := None; ly_aligned_n := None |}; function := {| fn_prefix := None; fn_postfix := None; fn_must_use := None; fn_deprecated := None; fn_deprecated_with_note := None; fn_args := Auto; fn_rename_args := RNone; fn_swift_name_macro := None; fn_sort_by := None; fn_no_return := None |}; structure := {| st_rename_fields := RNone; st_derive_constructor := false; st_derive_eq := false; st_derive_neq := false; st_derive_lt := false; st_derive_lte := false; st_derive_gt := false; st_derive_gte := false; st_derive_ostream := false; st_associated_constants_in_body := false; st_rename_associated_constant := RNone; st_must_use := None; st_deprecated := None; st_deprecated_with_note := None |}; enumeration := {| en_rename_variants := RNone; en_rename_variant_name_fields := SnakeCase; en_add_sentinel := false; en_prefix_with_name := false; en_derive_helper_methods := false; en_derive_const_casts := false; en_derive_mut_casts := false; en_cast_assert_name := None; en_must_use := None; en_deprecated := None; en_deprecated_with_note := None; en_deprecated_variant := None; en_deprecated_variant_with_note := None; en_derive_tagged_enum_destructor := false; en_derive_tagged_enum_copy_constructor := false; en_derive_tagged_enum_copy_assignment := false; en_derive_ostream := false; en_enum_class := true; en_private_default_tagged_enum_constructor := false |}; constant := {| co_allow_static_const := true; co_allow_constexpr := true; co_sort_by := None |}; defines := []; documentation := true;
  documentation_style := DocAuto; documentation_length := Full; pointer := {| pt_non_null_attribute := None; pt_nullable_attribute := None |}; cython := {| cy_header := None; cy_cimports := [] |}; config_path := None |}.
(** tests/expectations/body.compat.c *)
Definition body_compat : string := "#include <stdarg.h>
#include <stdbool.h>
#include <stdint.h>
#include <stdlib.h>

typedef enum {
  Foo1,
  Bar1,
  Baz1,
} MyCLikeEnum;

typedef enum {
  Foo1_Prepended,
  Bar1_Prepended,
  Baz1_Prepended,
} MyCLikeEnum_Prepended;

typedef struct {
  int32_t i;
#ifdef __cplusplus
    inline void foo();
#endif
} MyFancyStruct;

typedef enum {
  Foo,
  Bar,
  Baz,
} MyFancyEnum_Tag;

typedef struct {
  MyFancyEnum_Tag tag;
  union {
    struct {
      int32_t bar;
    };
    struct {
      int32_t baz;
    };
  };
#ifdef __cplusplus
    inline void wohoo();
#endif
} MyFancyEnum;

typedef union {
  float f;
  uint32_t u;
  int32_t extra_member;
} MyUnion;

typedef struct {
#ifdef __cplusplus
    inline void prepended_wohoo();
#endif
  int32_t i;
} MyFancyStruct_Prepended;

typedef enum {
  Foo_Prepended,
  Bar_Prepended,
  Baz_Prepended,
} MyFancyEnum_Prepended_Tag;

typedef struct {
#ifdef __cplusplus
    inline void wohoo();
#endif
  MyFancyEnum_Prepended_Tag tag;
  union {
    struct {
      int32_t bar_prepended;
    };
    struct {
      int32_t baz_prepended;
    };
  };
} MyFancyEnum_Prepended;

typedef union {
    int32_t extra_member;
  float f;
  uint32_t u;
} MyUnion_Prepended;

#ifdef __cplusplus
extern ""C"" {
#endif // __cplusplus

void root(MyFancyStruct s,
          MyFancyEnum e,
          MyCLikeEnum c,
          MyUnion u,
          MyFancyStruct_Prepended sp,
          MyFancyEnum_Prepended ep,
          MyCLikeEnum_Prepended cp,
          MyUnion_Prepended up);

#ifdef __cplusplus
}  // extern ""C""
#endif  // __cplusplus
".
(** tests/expectations/body_tag.compat.c *)
Definition body_compat_tag : string := "#include <stdarg.h>
#include <stdbool.h>
#include <stdint.h>
#include <stdlib.h>

enum MyCLikeEnum {
  Foo1,
  Bar1,
  Baz1,
};

enum MyCLikeEnum_Prepended {
  Foo1_Prepended,
  Bar1_Prepended,
  Baz1_Prepended,
};

struct MyFancyStruct {
  int32_t i;
#ifdef __cplusplus
    inline void foo();
#endif
};

enum MyFancyEnum_Tag {
  Foo,
  Bar,
  Baz,
};

struct MyFancyEnum {
  enum MyFancyEnum_Tag tag;
  union {
    struct {
      int32_t bar;
    };
    struct {
      int32_t baz;
    };
  };
#ifdef __cplusplus
    inline void wohoo();
#endif
};

union MyUnion {
  float f;
  uint32_t u;
  int32_t extra_member;
};

struct MyFancyStruct_Prepended {
#ifdef __cplusplus
    inline void prepended_wohoo();
#endif
  int32_t i;
};

enum MyFancyEnum_Prepended_Tag {
  Foo_Prepended,
  Bar_Prepended,
  Baz_Prepended,
};

struct MyFancyEnum_Prepended {
#ifdef __cplusplus
    inline void wohoo();
#endif
  enum MyFancyEnum_Prepended_Tag tag;
  union {
    struct {
      int32_t bar_prepended;
    };
    struct {
      int32_t baz_prepended;
    };
  };
};

union MyUnion_Prepended {
    int32_t extra_member;
  float f;
  uint32_t u;
};

#ifdef __cplusplus
extern ""C"" {
#endif // __cplusplus

void root(struct MyFancyStruct s,
          struct MyFancyEnum e,
          enum MyCLikeEnum c,
          union MyUnion u,
          struct MyFancyStruct_Prepended sp,
          struct MyFancyEnum_Prepended ep,
          enum MyCLikeEnum_Prepended cp,
          union MyUnion_Prepended up);

#ifdef __cplusplus
}  // extern ""C""
#endif  // __cplusplus
".
(** tests/expectations/body_both.compat.c *)
Definition body_compat_both : string := "#include <stdarg.h>
#include <stdbool.h>
#include <stdint.h>
#include <stdlib.h>

typedef enum MyCLikeEnum {
  Foo1,
  Bar1,
  Baz1,
} MyCLikeEnum;

typedef enum MyCLikeEnum_Prepended {
  Foo1_Prepended,
  Bar1_Prepended,
  Baz1_Prepended,
} MyCLikeEnum_Prepended;

typedef struct MyFancyStruct {
  int32_t i;
#ifdef __cplusplus
    inline void foo();
#endif
} MyFancyStruct;

typedef enum MyFancyEnum_Tag {
  Foo,
  Bar,
  Baz,
} MyFancyEnum_Tag;

typedef struct MyFancyEnum {
  MyFancyEnum_Tag tag;
  union {
    struct {
      int32_t bar;
    };
    struct {
      int32_t baz;
    };
  };
#ifdef __cplusplus
    inline void wohoo();
#endif
} MyFancyEnum;

typedef union MyUnion {
  float f;
  uint32_t u;
  int32_t extra_member;
} MyUnion;

typedef struct MyFancyStruct_Prepended {
#ifdef __cplusplus
    inline void prepended_wohoo();
#endif
  int32_t i;
} MyFancyStruct_Prepended;

typedef enum MyFancyEnum_Prepended_Tag {
  Foo_Prepended,
  Bar_Prepended,
  Baz_Prepended,
} MyFancyEnum_Prepended_Tag;

typedef struct MyFancyEnum_Prepended {
#ifdef __cplusplus
    inline void wohoo();
#endif
  MyFancyEnum_Prepended_Tag tag;
  union {
    struct {
      int32_t bar_prepended;
    };
    struct {
      int32_t baz_prepended;
    };
  };
} MyFancyEnum_Prepended;

typedef union MyUnion_Prepended {
    int32_t extra_member;
  float f;
  uint32_t u;
} MyUnion_Prepended;

#ifdef __cplusplus
extern ""C"" {
#endif // __cplusplus

void root(struct MyFancyStruct s,
          struct MyFancyEnum e,
          enum MyCLikeEnum c,
          union MyUnion u,
          struct MyFancyStruct_Prepended sp,
          struct MyFancyEnum_Prepended ep,
          enum MyCLikeEnum_Prepended cp,
          union MyUnion_Prepended up);

#ifdef __cplusplus
}  // extern ""C""
#endif  // __cplusplus
".
(** tests/expectations/body.c *)
Definition body_c : string := "#include <stdarg.h>
#include <stdbool.h>
#include <stdint.h>
#include <stdlib.h>

typedef enum {
  Foo1,
  Bar1,
  Baz1,
} MyCLikeEnum;

typedef enum {
  Foo1_Prepended,
  Bar1_Prepended,
  Baz1_Prepended,
} MyCLikeEnum_Prepended;

typedef struct {
  int32_t i;
#ifdef __cplusplus
    inline void foo();
#endif
} MyFancyStruct;

typedef enum {
  Foo,
  Bar,
  Baz,
} MyFancyEnum_Tag;

typedef struct {
  MyFancyEnum_Tag tag;
  union {
    struct {
      int32_t bar;
    };
    struct {
      int32_t baz;
    };
  };
#ifdef __cplusplus
    inline void wohoo();
#endif
} MyFancyEnum;

typedef union {
  float f;
  uint32_t u;
  int32_t extra_member;
} MyUnion;

typedef struct {
#ifdef __cplusplus
    inline void prepended_wohoo();
#endif
  int32_t i;
} MyFancyStruct_Prepended;

typedef enum {
  Foo_Prepended,
  Bar_Prepended,
  Baz_Prepended,
} MyFancyEnum_Prepended_Tag;

typedef struct {
#ifdef __cplusplus
    inline void wohoo();
#endif
  MyFancyEnum_Prepended_Tag tag;
  union {
    struct {
      int32_t bar_prepended;
    };
    struct {
      int32_t baz_prepended;
    };
  };
} MyFancyEnum_Prepended;

typedef union {
    int32_t extra_member;
  float f;
  uint32_t u;
} MyUnion_Prepended;

void root(MyFancyStruct s,
          MyFancyEnum e,
          MyCLikeEnum c,
          MyUnion u,
          MyFancyStruct_Prepended sp,
          MyFancyEnum_Prepended ep,
          MyCLikeEnum_Prepended cp,
          MyUnion_Prepended up);
".
(** tests/expectations/body_tag.c *)
Definition body_c_tag : string := "#include <stdarg.h>
#include <stdbool.h>
#include <stdint.h>
#include <stdlib.h>

enum MyCLikeEnum {
  Foo1,
  Bar1,
  Baz1,
};

enum MyCLikeEnum_Prepended {
  Foo1_Prepended,
  Bar1_Prepended,
  Baz1_Prepended,
};

struct MyFancyStruct {
  int32_t i;
#ifdef __cplusplus
    inline void foo();
#endif
};

enum MyFancyEnum_Tag {
  Foo,
  Bar,
  Baz,
};

struct MyFancyEnum {
  enum MyFancyEnum_Tag tag;
  union {
    struct {
      int32_t bar;
    };
    struct {
      int32_t baz;
    };
  };
#ifdef __cplusplus
    inline void wohoo();
#endif
};

union MyUnion {
  float f;
  uint32_t u;
  int32_t extra_member;
};

struct MyFancyStruct_Prepended {
#ifdef __cplusplus
    inline void prepended_wohoo();
#endif
  int32_t i;
};

enum MyFancyEnum_Prepended_Tag {
  Foo_Prepended,
  Bar_Prepended,
  Baz_Prepended,
};

struct MyFancyEnum_Prepended {
#ifdef __cplusplus
    inline void wohoo();
#endif
  enum MyFancyEnum_Prepended_Tag tag;
  union {
    struct {
      int32_t bar_prepended;
    };
    struct {
      int32_t baz_prepended;
    };
  };
};

union MyUnion_Prepended {
    int32_t extra_member;
  float f;
  uint32_t u;
};

void root(struct MyFancyStruct s,
          struct MyFancyEnum e,
          enum MyCLikeEnum c,
          union MyUnion u,
          struct MyFancyStruct_Prepended sp,
          struct MyFancyEnum_Prepended ep,
          enum MyCLikeEnum_Prepended cp,
          union MyUnion_Prepended up);
".
(** tests/expectations/body_both.c *)
Definition body_c_both : string := "#include <stdarg.h>
#include <stdbool.h>
#include <stdint.h>
#include <stdlib.h>

typedef enum MyCLikeEnum {
  Foo1,
  Bar1,
  Baz1,
} MyCLikeEnum;

typedef enum MyCLikeEnum_Prepended {
  Foo1_Prepended,
  Bar1_Prepended,
  Baz1_Prepended,
} MyCLikeEnum_Prepended;

typedef struct MyFancyStruct {
  int32_t i;
#ifdef __cplusplus
    inline void foo();
#endif
} MyFancyStruct;

typedef enum MyFancyEnum_Tag {
  Foo,
  Bar,
  Baz,
} MyFancyEnum_Tag;

typedef struct MyFancyEnum {
  MyFancyEnum_Tag tag;
  union {
    struct {
      int32_t bar;
    };
    struct {
      int32_t baz;
    };
  };
#ifdef __cplusplus
    inline void wohoo();
#endif
} MyFancyEnum;

typedef union MyUnion {
  float f;
  uint32_t u;
  int32_t extra_member;
} MyUnion;

typedef struct MyFancyStruct_Prepended {
#ifdef __cplusplus
    inline void prepended_wohoo();
#endif
  int32_t i;
} MyFancyStruct_Prepended;

typedef enum MyFancyEnum_Prepended_Tag {
  Foo_Prepended,
  Bar_Prepended,
  Baz_Prepended,
} MyFancyEnum_Prepended_Tag;

typedef struct MyFancyEnum_Prepended {
#ifdef __cplusplus
    inline void wohoo();
#endif
  MyFancyEnum_Prepended_Tag tag;
  union {
    struct {
      int32_t bar_prepended;
    };
    struct {
      int32_t baz_prepended;
    };
  };
} MyFancyEnum_Prepended;

typedef union MyUnion_Prepended {
    int32_t extra_member;
  float f;
  uint32_t u;
} MyUnion_Prepended;

void root(struct MyFancyStruct s,
          struct MyFancyEnum e,
          enum MyCLikeEnum c,
          union MyUnion u,
          struct MyFancyStruct_Prepended sp,
          struct MyFancyEnum_Prepended ep,
          enum MyCLikeEnum_Prepended cp,
          union MyUnion_Prepended up);
".
(** tests/expectations/body.cpp *)
Definition body_cpp : string := "#include <cstdarg>
#include <cstdint>
#include <cstdlib>
#include <ostream>
#include <new>

enum class MyCLikeEnum {
  Foo1,
  Bar1,
  Baz1,
};

enum class MyCLikeEnum_Prepended {
  Foo1_Prepended,
  Bar1_Prepended,
  Baz1_Prepended,
};

struct MyFancyStruct {
  int32_t i;
#ifdef __cplusplus
    inline void foo();
#endif
};

struct MyFancyEnum {
  enum class Tag {
    Foo,
    Bar,
    Baz,
  };

  struct Bar_Body {
    int32_t _0;
  };

  struct Baz_Body {
    int32_t _0;
  };

  Tag tag;
  union {
    Bar_Body bar;
    Baz_Body baz;
  };
#ifdef __cplusplus
    inline void wohoo();
#endif
};

union MyUnion {
  float f;
  uint32_t u;
  int32_t extra_member;
};

struct MyFancyStruct_Prepended {
#ifdef __cplusplus
    inline void prepended_wohoo();
#endif
  int32_t i;
};

struct MyFancyEnum_Prepended {
#ifdef __cplusplus
    inline void wohoo();
#endif
  enum class Tag {
    Foo_Prepended,
    Bar_Prepended,
    Baz_Prepended,
  };

  struct Bar_Prepended_Body {
    int32_t _0;
  };

  struct Baz_Prepended_Body {
    int32_t _0;
  };

  Tag tag;
  union {
    Bar_Prepended_Body bar_prepended;
    Baz_Prepended_Body baz_prepended;
  };
};

union MyUnion_Prepended {
    int32_t extra_member;
  float f;
  uint32_t u;
};

extern ""C"" {

void root(MyFancyStruct s,
          MyFancyEnum e,
          MyCLikeEnum c,
          MyUnion u,
          MyFancyStruct_Prepended sp,
          MyFancyEnum_Prepended ep,
          MyCLikeEnum_Prepended cp,
          MyUnion_Prepended up);

}  // extern ""C""
".
(** tests/expectations/body.pyx *)
Definition body_pyx : string := "from libc.stdint cimport int8_t, int16_t, int32_t, int64_t, intptr_t
from libc.stdint cimport uint8_t, uint16_t, uint32_t, uint64_t, uintptr_t
cdef extern from *:
  ctypedef bint bool
  ctypedef struct va_list

cdef extern from *:

  ctypedef enum MyCLikeEnum:
    Foo1,
    Bar1,
    Baz1,

  ctypedef enum MyCLikeEnum_Prepended:
    Foo1_Prepended,
    Bar1_Prepended,
    Baz1_Prepended,

  ctypedef struct MyFancyStruct:
    int32_t i;
#ifdef __cplusplus
    inline void foo();
#endif

  ctypedef enum MyFancyEnum_Tag:
    Foo,
    Bar,
    Baz,

  ctypedef struct MyFancyEnum:
    MyFancyEnum_Tag tag;
    int32_t bar;
    int32_t baz;
#ifdef __cplusplus
    inline void wohoo();
#endif

  ctypedef union MyUnion:
    float f;
    uint32_t u;
  int32_t extra_member;

  ctypedef struct MyFancyStruct_Prepended:
#ifdef __cplusplus
    inline void prepended_wohoo();
#endif
    int32_t i;

  ctypedef enum MyFancyEnum_Prepended_Tag:
    Foo_Prepended,
    Bar_Prepended,
    Baz_Prepended,

  ctypedef struct MyFancyEnum_Prepended:
#ifdef __cplusplus
    inline void wohoo();
#endif
    MyFancyEnum_Prepended_Tag tag;
    int32_t bar_prepended;
    int32_t baz_prepended;

  ctypedef union MyUnion_Prepended:
    int32_t extra_member;
    float f;
    uint32_t u;

  void root(MyFancyStruct s,
            MyFancyEnum e,
            MyCLikeEnum c,
            MyUnion u,
            MyFancyStruct_Prepended sp,
            MyFancyEnum_Prepended ep,
            MyCLikeEnum_Prepended cp,
            MyUnion_Prepended up);
".
(** tests/expectations/body_tag.pyx *)
Definition body_pyx_tag : string := "from libc.stdint cimport int8_t, int16_t, int32_t, int64_t, intptr_t
from libc.stdint cimport uint8_t, uint16_t, uint32_t, uint64_t, uintptr_t
cdef extern from *:
  ctypedef bint bool
  ctypedef struct va_list

cdef extern from *:

  cdef enum MyCLikeEnum:
    Foo1,
    Bar1,
    Baz1,

  cdef enum MyCLikeEnum_Prepended:
    Foo1_Prepended,
    Bar1_Prepended,
    Baz1_Prepended,

  cdef struct MyFancyStruct:
    int32_t i;
#ifdef __cplusplus
    inline void foo();
#endif

  cdef enum MyFancyEnum_Tag:
    Foo,
    Bar,
    Baz,

  cdef struct MyFancyEnum:
    MyFancyEnum_Tag tag;
    int32_t bar;
    int32_t baz;
#ifdef __cplusplus
    inline void wohoo();
#endif

  cdef union MyUnion:
    float f;
    uint32_t u;
  int32_t extra_member;

  cdef struct MyFancyStruct_Prepended:
#ifdef __cplusplus
    inline void prepended_wohoo();
#endif
    int32_t i;

  cdef enum MyFancyEnum_Prepended_Tag:
    Foo_Prepended,
    Bar_Prepended,
    Baz_Prepended,

  cdef struct MyFancyEnum_Prepended:
#ifdef __cplusplus
    inline void wohoo();
#endif
    MyFancyEnum_Prepended_Tag tag;
    int32_t bar_prepended;
    int32_t baz_prepended;

  cdef union MyUnion_Prepended:
    int32_t extra_member;
    float f;
    uint32_t u;

  void root(MyFancyStruct s,
            MyFancyEnum e,
            MyCLikeEnum c,
            MyUnion u,
            MyFancyStruct_Prepended sp,
            MyFancyEnum_Prepended ep,
            MyCLikeEnum_Prepended cp,
            MyUnion_Prepended up);
".
Example body_reproduced : reproduces (in_file body_rs) false body_toml (Some "{
root;
};")
  [(RunC true Type_, [body_compat]);
   (RunC true Tag, [body_compat_tag]);
   (RunC true Both, [body_compat_both]);
   (RunC false Type_, [body_c]);
   (RunC false Tag, [body_c_tag]);
   (RunC false Both, [body_c_both]);
   (RunCxx, [body_cpp]);
   (RunCython Type_, [body_pyx]);
   (RunCython Tag, [body_pyx_tag])] = true.
Proof. vm_compute. reflexivity. Qed.

(** ** tests/rust/box.rs *)
Definition box_rs : list sitem := [
  (ItemStruct [{| at_meta := (AList (Some "repr") [(APath (Some "C"))]); at_outer := true |}] "MyStruct" [] (FieldsNamed [{| sf_attrs
  := []; sf_ident := (Some "number"); sf_ty := (SPath (SegPath [] "Box" (AngleArgs [(ArgType (SPath (SegPath [] "i32" NoArgs)))])))
  |}]));
  (ItemStruct [] "NotReprC" [(SGType "T" None)] (FieldsNamed [{| sf_attrs := []; sf_ident := (Some "inner"); sf_ty := (SPath (SegPath
  [] "T" NoArgs)) |}]));
  (ItemType [] "Foo" [] (SPath (SegPath [] "NotReprC" (AngleArgs [(ArgType (SPath (SegPath [] "Box" (AngleArgs [(ArgType (SPath (SegPath
  [] "i32" NoArgs)))]))))]))));
  (ItemFn [{| at_meta := (APath (Some "no_mangle")); at_outer := true |}] true {| sg_ident := "root"; sg_abi := (Some (Some "C")); sg_inputs
  := [(FnTyped (PatIdent "a") (SRef false (SPath (SegPath [] "Foo" NoArgs)))); (FnTyped (PatIdent "with_box") (SRef false (SPath (SegPath
  [] "MyStruct" NoArgs))))]; sg_variadic := false; sg_output := None |});
  (ItemFn [{| at_meta := (APath (Some "no_mangle")); at_outer := true |}] true {| sg_ident := "drop_box"; sg_abi := (Some (Some "C"));
  sg_inputs := [(FnTyped (PatIdent "x") (SPath (SegPath [] "Box" (AngleArgs [(ArgType (SPath (SegPath [] "i32" NoArgs)))]))))]; sg_variadic
  := false; sg_output := None |});
  (ItemFn [{| at_meta := (APath (Some "no_mangle")); at_outer := true |}] true {| sg_ident := "drop_box_opt"; sg_abi := (Some (Some
  "C")); sg_inputs := [(FnTyped (PatIdent "x") (SPath (SegPath [] "Option" (AngleArgs [(ArgType (SPath (SegPath [] "Box" (AngleArgs
  [(ArgType (SPath (SegPath [] "i32" NoArgs)))]))))]))))]; sg_variadic := false; sg_output := None |})].
Definition box_toml : Config := {| header := (Some "#if 0
''' '
#endif

#ifdef __cplusplus
template <typename T>
using Box = T*;
#endif

#if 0
' '''
#endif
"); includes_ := []; sys_includes_ := []; after_includes := None; trailer := None;
  include_guard_ := None; pragma_once := false; no_includes := false; package_version := false; autogen_warning := None; include_version := false;
  namespace := None; namespaces := None; using_namespaces := None; braces := SameLine; line_length := 100; tab_width := 2; line_endings := LF;
  language := Cxx; cpp_compat := false; style := Both; sort_by := SortNone; usize_is_size_t := false; parse := default_parse; export := {| ex_include := []; ex_exclude := ["Box"]; ex_rename := []; ex_pre_body := []; ex_body := []; ex_prefix := None; ex_item_types := []; ex_renaming_overrides_prefixing := false; ex_mangle := {| rename_types := RNone; remove_underscores := false |} |};
  layout := {| ly_packed := None; ly_aligned_n := None |}; function := {| fn_prefix := None; fn_postfix := None; fn_must_use := None; fn_deprecated := None; fn_deprecated_with_note := None; fn_args := Auto; fn_rename_args := RNone; fn_swift_name_macro := None; fn_sort_by := None; fn_no_return := None |}; structure := {| st_rename_fields := RNone; st_derive_constructor := false; st_derive_eq := false; st_derive_neq := false; st_derive_lt := false; st_derive_lte := false; st_derive_gt := false; st_derive_gte := false; st_derive_ostream := false; st_associated_constants_in_body := false; st_rename_associated_constant := RNone; st_must_use := None; st_deprecated := None; st_deprecated_with_note := None |}; enumeration := {| en_rename_variants := RNone; en_rename_variant_name_fields := SnakeCase; en_add_sentinel := false; en_prefix_with_name := false; en_derive_helper_methods := false; en_derive_const_casts := false; en_derive_mut_casts := false; en_cast_assert_name := None; en_must_use := None; en_deprecated := None; en_deprecated_with_note := None; en_deprecated_variant := None; en_deprecated_variant_with_note := None; en_derive_tagged_enum_destructor := false; en_derive_tagged_enum_copy_constructor := false; en_derive_tagged_enum_copy_assignment := false; en_derive_ostream := false; en_enum_class := true; en_private_default_tagged_enum_constructor := false |}; constant := {| co_allow_static_const := true; co_allow_constexpr := true; co_sort_by := None |}; defines := []; documentation := true;
  documentation_style := DocAuto; documentation_length := Full; pointer := {| pt_non_null_attribute := None; pt_nullable_attribute := None |}; cython := {| cy_header := None; cy_cimports := [] |}; config_path := None |}.
(** tests/expectations/box.compat.c *)
Definition box_compat : string := "#if 0
''' '
#endif

#ifdef __cplusplus
template <typename T>
using Box = T*;
#endif

#if 0
' '''
#endif


#include <stdarg.h>
#include <stdbool.h>
#include <stdint.h>
#include <stdlib.h>

typedef struct NotReprC_____i32 NotReprC_____i32;

typedef NotReprC_____i32 Foo;

typedef struct {
  int32_t *number;
} MyStruct;

#ifdef __cplusplus
extern ""C"" {
#endif // __cplusplus

void root(const Foo *a, const MyStruct *with_box);

void drop_box(int32_t *x);

void drop_box_opt(int32_t *x);

#ifdef __cplusplus
}  // extern ""C""
#endif  // __cplusplus
".
(** tests/expectations/box_tag.compat.c *)
Definition box_compat_tag : string := "#if 0
''' '
#endif

#ifdef __cplusplus
template <typename T>
using Box = T*;
#endif

#if 0
' '''
#endif


#include <stdarg.h>
#include <stdbool.h>
#include <stdint.h>
#include <stdlib.h>

struct NotReprC_____i32;

typedef struct NotReprC_____i32 Foo;

struct MyStruct {
  int32_t *number;
};

#ifdef __cplusplus
extern ""C"" {
#endif // __cplusplus

void root(const Foo *a, const struct MyStruct *with_box);

void drop_box(int32_t *x);

void drop_box_opt(int32_t *x);

#ifdef __cplusplus
}  // extern ""C""
#endif  // __cplusplus
".
(** tests/expectations/box_both.compat.c *)
Definition box_compat_both : string := "#if 0
''' '
#endif

#ifdef __cplusplus
template <typename T>
using Box = T*;
#endif

#if 0
' '''
#endif


#include <stdarg.h>
#include <stdbool.h>
#include <stdint.h>
#include <stdlib.h>

typedef struct NotReprC_____i32 NotReprC_____i32;

typedef struct NotReprC_____i32 Foo;

typedef struct MyStruct {
  int32_t *number;
} MyStruct;

#ifdef __cplusplus
extern ""C"" {
#endif // __cplusplus

void root(const Foo *a, const struct MyStruct *with_box);

void drop_box(int32_t *x);

void drop_box_opt(int32_t *x);

#ifdef __cplusplus
}  // extern ""C""
#endif  // __cplusplus
".
(** tests/expectations/box.c *)
Definition box_c : string := "#if 0
''' '
#endif

#ifdef __cplusplus
template <typename T>
using Box = T*;
#endif

#if 0
' '''
#endif


#include <stdarg.h>
#include <stdbool.h>
#include <stdint.h>
#include <stdlib.h>

typedef struct NotReprC_____i32 NotReprC_____i32;

typedef NotReprC_____i32 Foo;

typedef struct {
  int32_t *number;
} MyStruct;

void root(const Foo *a, const MyStruct *with_box);

void drop_box(int32_t *x);

void drop_box_opt(int32_t *x);
".
(** tests/expectations/box_tag.c *)
Definition box_c_tag : string := "#if 0
''' '
#endif

#ifdef __cplusplus
template <typename T>
using Box = T*;
#endif

#if 0
' '''
#endif


#include <stdarg.h>
#include <stdbool.h>
#include <stdint.h>
#include <stdlib.h>

struct NotReprC_____i32;

typedef struct NotReprC_____i32 Foo;

struct MyStruct {
  int32_t *number;
};

void root(const Foo *a, const struct MyStruct *with_box);

void drop_box(int32_t *x);

void drop_box_opt(int32_t *x);
".
(** tests/expectations/box_both.c *)
Definition box_c_both : string := "#if 0
''' '
#endif

#ifdef __cplusplus
template <typename T>
using Box = T*;
#endif

#if 0
' '''
#endif


#include <stdarg.h>
#include <stdbool.h>
#include <stdint.h>
#include <stdlib.h>

typedef struct NotReprC_____i32 NotReprC_____i32;

typedef struct NotReprC_____i32 Foo;

typedef struct MyStruct {
  int32_t *number;
} MyStruct;

void root(const Foo *a, const struct MyStruct *with_box);

void drop_box(int32_t *x);

void drop_box_opt(int32_t *x);
".
(** tests/expectations/box.cpp *)
Definition box_cpp : string := "#if 0
''' '
#endif

#ifdef __cplusplus
template <typename T>
using Box = T*;
#endif

#if 0
' '''
#endif


#include <cstdarg>
#include <cstdint>
#include <cstdlib>
#include <ostream>
#include <new>

template<typename T = void>
struct NotReprC;

template<typename T = void>
struct Option;

using Foo = NotReprC<Box<int32_t>>;

struct MyStruct {
  Box<int32_t> number;
};

extern ""C"" {

void root(const Foo *a, const MyStruct *with_box);

void drop_box(Box<int32_t> x);

void drop_box_opt(Option<Box<int32_t>> x);

}  // extern ""C""
".
(** tests/expectations/box.pyx *)
Definition box_pyx : string := "#if 0
''' '
#endif

#ifdef __cplusplus
template <typename T>
using Box = T*;
#endif

#if 0
' '''
#endif


from libc.stdint cimport int8_t, int16_t, int32_t, int64_t, intptr_t
from libc.stdint cimport uint8_t, uint16_t, uint32_t, uint64_t, uintptr_t
cdef extern from *:
  ctypedef bint bool
  ctypedef struct va_list

cdef extern from *:

  ctypedef struct NotReprC_____i32:
    pass

  ctypedef NotReprC_____i32 Foo;

  ctypedef struct MyStruct:
    int32_t *number;

  void root(const Foo *a, const MyStruct *with_box);

  void drop_box(int32_t *x);

  void drop_box_opt(int32_t *x);
".
(** tests/expectations/box_tag.pyx *)
Definition box_pyx_tag : string := "#if 0
''' '
#endif

#ifdef __cplusplus
template <typename T>
using Box = T*;
#endif

#if 0
' '''
#endif


from libc.stdint cimport int8_t, int16_t, int32_t, int64_t, intptr_t
from libc.stdint cimport uint8_t, uint16_t, uint32_t, uint64_t, uintptr_t
cdef extern from *:
  ctypedef bint bool
  ctypedef struct va_list

cdef extern from *:

  cdef struct NotReprC_____i32:
    pass

  ctypedef NotReprC_____i32 Foo;

  cdef struct MyStruct:
    int32_t *number;

  void root(const Foo *a, const MyStruct *with_box);

  void drop_box(int32_t *x);

  void drop_box_opt(int32_t *x);
".
Example box_reproduced : reproduces (in_file box_rs) false box_toml (Some "{
root;
drop_box;
drop_box_opt;
};")
  [(RunC true Type_, [box_compat]);
   (RunC true Tag, [box_compat_tag]);
   (RunC true Both, [box_compat_both]);
   (RunC false Type_, [box_c]);
   (RunC false Tag, [box_c_tag]);
   (RunC false Both, [box_c_both]);
   (RunCxx, [box_cpp]);
   (RunCython Type_, [box_pyx]);
   (RunCython Tag, [box_pyx_tag])] = true.
Proof. vm_compute. reflexivity. Qed.

(** ** tests/rust/cdecl.rs *)
Definition cdecl_rs : list sitem := [
  (ItemType [] "A" [] (SFnPtr [] false None));
  (ItemType [] "B" [] (SFnPtr [] false (Some (STuple []))));
  (ItemType [] "C" [] (SFnPtr [(None, (SPath (SegPath [] "i32" NoArgs))); (None, (SPath (SegPath [] "i32" NoArgs)))] false (Some (SPath
  (SegPath [] "bool" NoArgs)))));
  (ItemType [] "D" [] (SFnPtr [(None, (SPath (SegPath [] "i32" NoArgs)))] false (Some (SFnPtr [(None, (SPath (SegPath [] "f32" NoArgs)))]
  false (Some (SPath (SegPath [] "bool" NoArgs)))))));
  (ItemType [] "E" [] (SFnPtr [] false (Some (SPtr false (SArray (SPath (SegPath [] "i32" NoArgs)) (XLit (LitInt 16 "")))))));
  (ItemType [] "F" [] (SPtr false (SPath (SegPath [] "i32" NoArgs))));
  (ItemType [] "G" [] (SPtr false (SPtr false (SPath (SegPath [] "i32" NoArgs)))));
  (ItemType [] "H" [] (SPtr false (SPtr true (SPath (SegPath [] "i32" NoArgs)))));
  (ItemType [] "I" [] (SPtr false (SArray (SPath (SegPath [] "i32" NoArgs)) (XLit (LitInt 16 "")))));
  (ItemType [] "J" [] (SPtr false (SFnPtr [(None, (SPath (SegPath [] "f32" NoArgs)))] false (Some (SPath (SegPath [] "f64" NoArgs))))));
  (ItemType [] "K" [] (SArray (SPath (SegPath [] "i32" NoArgs)) (XLit (LitInt 16 ""))));
  (ItemType [] "L" [] (SArray (SPtr false (SPath (SegPath [] "i32" NoArgs))) (XLit (LitInt 16 ""))));
  (ItemType [] "M" [] (SArray (SFnPtr [(None, (SPath (SegPath [] "i32" NoArgs))); (None, (SPath (SegPath [] "i32" NoArgs)))] false (Some
  (SPath (SegPath [] "bool" NoArgs)))) (XLit (LitInt 16 ""))));
  (ItemType [] "N" [] (SArray (SFnPtr [(None, (SPath (SegPath [] "i32" NoArgs))); (None, (SPath (SegPath [] "i32" NoArgs)))] false (Some
  (STuple []))) (XLit (LitInt 16 ""))));
  (ItemFn [{| at_meta := (APath (Some "no_mangle")); at_outer := true |}] true {| sg_ident := "O"; sg_abi := (Some (Some "C")); sg_inputs
  := []; sg_variadic := false; sg_output := (Some (SFnPtr [] false None)) |});
  (ItemType [] "P" [] (SFnPtr [((Some "named1st"), (SPath (SegPath [] "i32" NoArgs))); (None, (SPath (SegPath [] "bool" NoArgs))); ((Some
  "named3rd"), (SPath (SegPath [] "bool" NoArgs))); ((Some "_"), (SPath (SegPath [] "i32" NoArgs)))] false None));
  (ItemFn [{| at_meta := (APath (Some "no_mangle")); at_outer := true |}] true {| sg_ident := "root"; sg_abi := (Some (Some "C")); sg_inputs
  := [(FnTyped (PatIdent "a") (SPath (SegPath [] "A" NoArgs))); (FnTyped (PatIdent "b") (SPath (SegPath [] "B" NoArgs))); (FnTyped
  (PatIdent "c") (SPath (SegPath [] "C" NoArgs))); (FnTyped (PatIdent "d") (SPath (SegPath [] "D" NoArgs))); (FnTyped (PatIdent "e")
  (SPath (SegPath [] "E" NoArgs))); (FnTyped (PatIdent "f") (SPath (SegPath [] "F" NoArgs))); (FnTyped (PatIdent "g") (SPath (SegPath
  [] "G" NoArgs))); (FnTyped (PatIdent "h") (SPath (SegPath [] "H" NoArgs))); (FnTyped (PatIdent "i") (SPath (SegPath [] "I" NoArgs)));
  (FnTyped (PatIdent "j") (SPath (SegPath [] "J" NoArgs))); (FnTyped (PatIdent "k") (SPath (SegPath [] "K" NoArgs))); (FnTyped (PatIdent
  "l") (SPath (SegPath [] "L" NoArgs))); (FnTyped (PatIdent "m") (SPath (SegPath [] "M" NoArgs))); (FnTyped (PatIdent "n") (SPath
  (SegPath [] "N" NoArgs))); (FnTyped (PatIdent "p") (SPath (SegPath [] "P" NoArgs)))]; sg_variadic := false; sg_output := None |})].
(** tests/expectations/cdecl.compat.c *)
Definition cdecl_compat : string := "#include <stdarg.h>
#include <stdbool.h>
#include <stdint.h>
#include <stdlib.h>

typedef void (*A)(void);

typedef void (*B)(void);

typedef bool (*C)(int32_t, int32_t);

typedef bool (*(*D)(int32_t))(float);

typedef const int32_t (*(*E)(void))[16];

typedef const int32_t *F;

typedef const int32_t *const *G;

typedef int32_t *const *H;

typedef const int32_t (*I)[16];

typedef double (**J)(float);

typedef int32_t K[16];

typedef const int32_t *L[16];

typedef bool (*M[16])(int32_t, int32_t);

typedef void (*N[16])(int32_t, int32_t);

typedef void (*P)(int32_t named1st, bool, bool named3rd, int32_t _);

#ifdef __cplusplus
extern ""C"" {
#endif // __cplusplus

void (*O(void))(void);

void root(A a, B b, C c, D d, E e, F f, G g, H h, I i, J j, K k, L l, M m, N n, P p);

#ifdef __cplusplus
}  // extern ""C""
#endif  // __cplusplus
".
(** tests/expectations/cdecl.c *)
Definition cdecl_c : string := "#include <stdarg.h>
#include <stdbool.h>
#include <stdint.h>
#include <stdlib.h>

typedef void (*A)(void);

typedef void (*B)(void);

typedef bool (*C)(int32_t, int32_t);

typedef bool (*(*D)(int32_t))(float);

typedef const int32_t (*(*E)(void))[16];

typedef const int32_t *F;

typedef const int32_t *const *G;

typedef int32_t *const *H;

typedef const int32_t (*I)[16];

typedef double (**J)(float);

typedef int32_t K[16];

typedef const int32_t *L[16];

typedef bool (*M[16])(int32_t, int32_t);

typedef void (*N[16])(int32_t, int32_t);

typedef void (*P)(int32_t named1st, bool, bool named3rd, int32_t _);

void (*O(void))(void);

void root(A a, B b, C c, D d, E e, F f, G g, H h, I i, J j, K k, L l, M m, N n, P p);
".
(** tests/expectations/cdecl.cpp *)
Definition cdecl_cpp : string := "#include <cstdarg>
#include <cstdint>
#include <cstdlib>
#include <ostream>
#include <new>

using A = void(*)();

using B = void(*)();

using C = bool(*)(int32_t, int32_t);

using D = bool(*(*)(int32_t))(float);

using E = const int32_t(*(*)())[16];

using F = const int32_t*;

using G = const int32_t*const *;

using H = int32_t*const *;

using I = const int32_t(*)[16];

using J = double(**)(float);

using K = int32_t[16];

using L = const int32_t*[16];

using M = bool(*[16])(int32_t, int32_t);

using N = void(*[16])(int32_t, int32_t);

using P = void(*)(int32_t named1st, bool, bool named3rd, int32_t _);

extern ""C"" {

void (*O())();

void root(A a, B b, C c, D d, E e, F f, G g, H h, I i, J j, K k, L l, M m, N n, P p);

}  // extern ""C""
".
(** tests/expectations/cdecl.pyx *)
Definition cdecl_pyx : string := "from libc.stdint cimport int8_t, int16_t, int32_t, int64_t, intptr_t
from libc.stdint cimport uint8_t, uint16_t, uint32_t, uint64_t, uintptr_t
cdef extern from *:
  ctypedef bint bool
  ctypedef struct va_list

cdef extern from *:

  ctypedef void (*A)();

  ctypedef void (*B)();

  ctypedef bool (*C)(int32_t, int32_t);

  ctypedef bool (*(*D)(int32_t))(float);

  ctypedef const int32_t (*(*E)())[16];

  ctypedef const int32_t *F;

  ctypedef const int32_t *const *G;

  ctypedef int32_t *const *H;

  ctypedef const int32_t (*I)[16];

  ctypedef double (**J)(float);

  ctypedef int32_t K[16];

  ctypedef const int32_t *L[16];

  ctypedef bool (*M[16])(int32_t, int32_t);

  ctypedef void (*N[16])(int32_t, int32_t);

  ctypedef void (*P)(int32_t named1st, bool, bool named3rd, int32_t _);

  void (*O())();

  void root(A a, B b, C c, D d, E e, F f, G g, H h, I i, J j, K k, L l, M m, N n, P p);
".
Example cdecl_reproduced : reproduces (in_file cdecl_rs) false default_config (Some "{
O;
root;
};")
  [(RunC true Type_, [cdecl_compat]);
   (RunC true Tag, [cdecl_compat]);
   (RunC true Both, [cdecl_compat]);
   (RunC false Type_, [cdecl_c]);
   (RunC false Tag, [cdecl_compat; cdecl_c]);
   (RunC false Both, [cdecl_compat; cdecl_c]);
   (RunCxx, [cdecl_cpp]);
   (RunCython Type_, [cdecl_pyx]);
   (RunCython Tag, [cdecl_pyx])] = true.
Proof. vm_compute. reflexivity. Qed.

(** ** tests/rust/cell.rs *)
Definition cell_rs : list sitem := [
  (ItemStruct [{| at_meta := (AList (Some "repr") [(APath (Some "C"))]); at_outer := true |}] "MyStruct" [] (FieldsNamed [{| sf_attrs
  := []; sf_ident := (Some "number"); sf_ty := (SPath (SegPath ["std"; "cell"] "Cell" (AngleArgs [(ArgType (SPath (SegPath [] "i32"
  NoArgs)))]))) |}]));
  (ItemStruct [] "NotReprC" [(SGType "T" None)] (FieldsNamed [{| sf_attrs := []; sf_ident := (Some "inner"); sf_ty := (SPath (SegPath
  [] "T" NoArgs)) |}]));
  (ItemType [] "Foo" [] (SPath (SegPath [] "NotReprC" (AngleArgs [(ArgType (SPath (SegPath ["std"; "cell"] "RefCell" (AngleArgs [(ArgType
  (SPath (SegPath [] "i32" NoArgs)))]))))]))));
  (ItemFn [{| at_meta := (APath (Some "no_mangle")); at_outer := true |}] true {| sg_ident := "root"; sg_abi := (Some (Some "C")); sg_inputs
  := [(FnTyped (PatIdent "a") (SRef false (SPath (SegPath [] "Foo" NoArgs)))); (FnTyped (PatIdent "with_cell") (SRef false (SPath
  (SegPath [] "MyStruct" NoArgs))))]; sg_variadic := false; sg_output := None |})].
(** tests/expectations/cell.compat.c *)
Definition cell_compat : string := "#include <stdarg.h>
#include <stdbool.h>
#include <stdint.h>
#include <stdlib.h>

typedef struct NotReprC_RefCell_i32 NotReprC_RefCell_i32;

typedef NotReprC_RefCell_i32 Foo;

typedef struct {
  int32_t number;
} MyStruct;

#ifdef __cplusplus
extern ""C"" {
#endif // __cplusplus

void root(const Foo *a, const MyStruct *with_cell);

#ifdef __cplusplus
}  // extern ""C""
#endif  // __cplusplus
".
(** tests/expectations/cell_tag.compat.c *)
Definition cell_compat_tag : string := "#include <stdarg.h>
#include <stdbool.h>
#include <stdint.h>
#include <stdlib.h>

struct NotReprC_RefCell_i32;

typedef struct NotReprC_RefCell_i32 Foo;

struct MyStruct {
  int32_t number;
};

#ifdef __cplusplus
extern ""C"" {
#endif // __cplusplus

void root(const Foo *a, const struct MyStruct *with_cell);

#ifdef __cplusplus
}  // extern ""C""
#endif  // __cplusplus
".
(** tests/expectations/cell_both.compat.c *)
Definition cell_compat_both : string := "#include <stdarg.h>
#include <stdbool.h>
#include <stdint.h>
#include <stdlib.h>

typedef struct NotReprC_RefCell_i32 NotReprC_RefCell_i32;

typedef struct NotReprC_RefCell_i32 Foo;

typedef struct MyStruct {
  int32_t number;
} MyStruct;

#ifdef __cplusplus
extern ""C"" {
#endif // __cplusplus

void root(const Foo *a, const struct MyStruct *with_cell);

#ifdef __cplusplus
}  // extern ""C""
#endif  // __cplusplus
".
(** tests/expectations/cell.c *)
Definition cell_c : string := "#include <stdarg.h>
#include <stdbool.h>
#include <stdint.h>
#include <stdlib.h>

typedef struct NotReprC_RefCell_i32 NotReprC_RefCell_i32;

typedef NotReprC_RefCell_i32 Foo;

typedef struct {
  int32_t number;
} MyStruct;

void root(const Foo *a, const MyStruct *with_cell);
".
(** tests/expectations/cell_tag.c *)
Definition cell_c_tag : string := "#include <stdarg.h>
#include <stdbool.h>
#include <stdint.h>
#include <stdlib.h>

struct NotReprC_RefCell_i32;

typedef struct NotReprC_RefCell_i32 Foo;

struct MyStruct {
  int32_t number;
};

void root(const Foo *a, const struct MyStruct *with_cell);
".
(** tests/expectations/cell_both.c *)
Definition cell_c_both : string := "#include <stdarg.h>
#include <stdbool.h>
#include <stdint.h>
#include <stdlib.h>

typedef struct NotReprC_RefCell_i32 NotReprC_RefCell_i32;

typedef struct NotReprC_RefCell_i32 Foo;

typedef struct MyStruct {
  int32_t number;
} MyStruct;

void root(const Foo *a, const struct MyStruct *with_cell);
".
(** tests/expectations/cell.cpp *)
Definition cell_cpp : string := "#include <cstdarg>
#include <cstdint>
#include <cstdlib>
#include <ostream>
#include <new>

template<typename T = void>
struct NotReprC;

template<typename T = void>
struct RefCell;

using Foo = NotReprC<RefCell<int32_t>>;

struct MyStruct {
  int32_t number;
};

extern ""C"" {

void root(const Foo *a, const MyStruct *with_cell);

}  // extern ""C""
".
(** tests/expectations/cell.pyx *)
Definition cell_pyx : string := "from libc.stdint cimport int8_t, int16_t, int32_t, int64_t, intptr_t
from libc.stdint cimport uint8_t, uint16_t, uint32_t, uint64_t, uintptr_t
cdef extern from *:
  ctypedef bint bool
  ctypedef struct va_list

cdef extern from *:

  ctypedef struct NotReprC_RefCell_i32:
    pass

  ctypedef NotReprC_RefCell_i32 Foo;

  ctypedef struct MyStruct:
    int32_t number;

  void root(const Foo *a, const MyStruct *with_cell);
".
(** tests/expectations/cell_tag.pyx *)
Definition cell_pyx_tag : string := "from libc.stdint cimport int8_t, int16_t, int32_t, int64_t, intptr_t
from libc.stdint cimport uint8_t, uint16_t, uint32_t, uint64_t, uintptr_t
cdef extern from *:
  ctypedef bint bool
  ctypedef struct va_list

cdef extern from *:

  cdef struct NotReprC_RefCell_i32:
    pass

  ctypedef NotReprC_RefCell_i32 Foo;

  cdef struct MyStruct:
    int32_t number;

  void root(const Foo *a, const MyStruct *with_cell);
".
Example cell_reproduced : reproduces (in_file cell_rs) false default_config (Some "{
root;
};")
  [(RunC true Type_, [cell_compat]);
   (RunC true Tag, [cell_compat_tag]);
   (RunC true Both, [cell_compat_both]);
   (RunC false Type_, [cell_c]);
   (RunC false Tag, [cell_c_tag]);
   (RunC false Both, [cell_c_both]);
   (RunCxx, [cell_cpp]);
   (RunCython Type_, [cell_pyx]);
   (RunCython Tag, [cell_pyx_tag])] = true.
Proof. vm_compute. reflexivity. Qed.

