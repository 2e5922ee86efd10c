(** See S_Suite.v; generated. *)
Require Import Coq.Strings.String Coq.Strings.Ascii Coq.Lists.List Coq.Bool.Bool Coq.NArith.NArith.
From Verif Require Import Base M_Config M_Cfg M_Type M_Ir M_Item M_Attr M_Syn M_Library M_Loader M_Parser M_Bindings M_Backend S_Heck S_Suite.
Import ListNotations.
Open Scope string_scope.

(** ** tests/rust/linestyle_cr.rs *)
Definition linestyle_cr_rs : list sitem := [
  (ItemStruct [{| at_meta := (AList (Some "repr") [(APath (Some "C"))]); at_outer := true |}] "Dummy" [] (FieldsNamed [{| sf_attrs :=
  []; sf_ident := (Some "x"); sf_ty := (SPath (SegPath [] "i32" NoArgs)) |}; {| sf_attrs := []; sf_ident := (Some "y"); sf_ty := (SPath
  (SegPath [] "f32" NoArgs)) |}]));
  (ItemFn [{| at_meta := (APath (Some "no_mangle")); at_outer := true |}] true {| sg_ident := "root"; sg_abi := (Some (Some "C")); sg_inputs
  := [(FnTyped (PatIdent "d") (SPath (SegPath [] "Dummy" NoArgs)))]; sg_variadic := false; sg_output := None |})].
Definition linestyle_cr_toml : Config := {| header := None; includes_ := []; sys_includes_ := []; after_includes := None; trailer := None;
  include_guard_ := None; pragma_once := false; no_includes := false; package_version := false; autogen_warning := None; include_version := false;
  namespace := None; namespaces := None; using_namespaces := None; braces := SameLine; line_length := 100; tab_width := 2; line_endings := CR;
  language := Cxx; cpp_compat := false; style := Both; sort_by := SortNone; usize_is_size_t := false; parse := default_parse; export := {| ex_include := []; ex_exclude := []; ex_rename := []; ex_pre_body := []; ex_body := []; ex_prefix := None; ex_item_types := []; ex_renaming_overrides_prefixing := false; ex_mangle := {| rename_types := RNone; remove_underscores := false |} |};
  layout := {| ly_packed := None; ly_aligned_n := None |}; function := {| fn_prefix := None; fn_postfix := None; fn_must_use := None; fn_deprecated := None; fn_deprecated_with_note := None; fn_args := Auto; fn_rename_args := RNone; fn_swift_name_macro := None; fn_sort_by := None; fn_no_return := None |}; structure := {| st_rename_fields := RNone; st_derive_constructor := false; st_derive_eq := false; st_derive_neq := false; st_derive_lt := false; st_derive_lte := false; st_derive_gt := false; st_derive_gte := false; st_derive_ostream := false; st_associated_constants_in_body := false; st_rename_associated_constant := RNone; st_must_use := None; st_deprecated := None; st_deprecated_with_note := None |}; enumeration := {| en_rename_variants := RNone; en_rename_variant_name_fields := SnakeCase; en_add_sentinel := false; en_prefix_with_name := false; en_derive_helper_methods := false; en_derive_const_casts := false; en_derive_mut_casts := false; en_cast_assert_name := None; en_must_use := None; en_deprecated := None; en_deprecated_with_note := None; en_deprecated_variant := None; en_deprecated_variant_with_note := None; en_derive_tagged_enum_destructor := false; en_derive_tagged_enum_copy_constructor := false; en_derive_tagged_enum_copy_assignment := false; en_derive_ostream := false; en_enum_class := true; en_private_default_tagged_enum_constructor := false |}; constant := {| co_allow_static_const := true; co_allow_constexpr := true; co_sort_by := None |}; defines := []; documentation := true;
  documentation_style := DocAuto; documentation_length := Full; pointer := {| pt_non_null_attribute := None; pt_nullable_attribute := None |}; cython := {| cy_header := None; cy_cimports := [] |}; config_path := None |}.
(** tests/expectations/linestyle_cr.compat.c *)
Definition linestyle_cr_compat : string := join (String (ascii_of_nat 13) "") ["#include <stdarg.h>"; "#include <stdbool.h>"; "#include <stdint.h>"; "#include <stdlib.h>"; ""; "typedef struct {"; "  int32_t x;"; "  float y;"; "} Dummy;"; ""; "#ifdef __cplusplus"; "extern ""C"" {"; "#endif // __cplusplus"; ""; "void root(Dummy d);"; ""; "#ifdef __cplusplus"; "}  // extern ""C"""; "#endif  // __cplusplus"; ""].
(** tests/expectations/linestyle_cr_tag.compat.c *)
Definition linestyle_cr_compat_tag : string := join (String (ascii_of_nat 13) "") ["#include <stdarg.h>"; "#include <stdbool.h>"; "#include <stdint.h>"; "#include <stdlib.h>"; ""; "struct Dummy {"; "  int32_t x;"; "  float y;"; "};"; ""; "#ifdef __cplusplus"; "extern ""C"" {"; "#endif // __cplusplus"; ""; "void root(struct Dummy d);"; ""; "#ifdef __cplusplus"; "}  // extern ""C"""; "#endif  // __cplusplus"; ""].
(** tests/expectations/linestyle_cr_both.compat.c *)
Definition linestyle_cr_compat_both : string := join (String (ascii_of_nat 13) "") ["#include <stdarg.h>"; "#include <stdbool.h>"; "#include <stdint.h>"; "#include <stdlib.h>"; ""; "typedef struct Dummy {"; "  int32_t x;"; "  float y;"; "} Dummy;"; ""; "#ifdef __cplusplus"; "extern ""C"" {"; "#endif // __cplusplus"; ""; "void root(struct Dummy d);"; ""; "#ifdef __cplusplus"; "}  // extern ""C"""; "#endif  // __cplusplus"; ""].
(** tests/expectations/linestyle_cr.c *)
Definition linestyle_cr_c : string := join (String (ascii_of_nat 13) "") ["#include <stdarg.h>"; "#include <stdbool.h>"; "#include <stdint.h>"; "#include <stdlib.h>"; ""; "typedef struct {"; "  int32_t x;"; "  float y;"; "} Dummy;"; ""; "void root(Dummy d);"; ""].
(** tests/expectations/linestyle_cr_tag.c *)
Definition linestyle_cr_c_tag : string := join (String (ascii_of_nat 13) "") ["#include <stdarg.h>"; "#include <stdbool.h>"; "#include <stdint.h>"; "#include <stdlib.h>"; ""; "struct Dummy {"; "  int32_t x;"; "  float y;"; "};"; ""; "void root(struct Dummy d);"; ""].
(** tests/expectations/linestyle_cr_both.c *)
Definition linestyle_cr_c_both : string := join (String (ascii_of_nat 13) "") ["#include <stdarg.h>"; "#include <stdbool.h>"; "#include <stdint.h>"; "#include <stdlib.h>"; ""; "typedef struct Dummy {"; "  int32_t x;"; "  float y;"; "} Dummy;"; ""; "void root(struct Dummy d);"; ""].
(** tests/expectations/linestyle_cr.cpp *)
Definition linestyle_cr_cpp : string := join (String (ascii_of_nat 13) "") ["#include <cstdarg>"; "#include <cstdint>"; "#include <cstdlib>"; "#include <ostream>"; "#include <new>"; ""; "struct Dummy {"; "  int32_t x;"; "  float y;"; "};"; ""; "extern ""C"" {"; ""; "void root(Dummy d);"; ""; "}  // extern ""C"""; ""].
(** tests/expectations/linestyle_cr.pyx *)
Definition linestyle_cr_pyx : string := join (String (ascii_of_nat 13) "") ["from libc.stdint cimport int8_t, int16_t, int32_t, int64_t, intptr_t"; "from libc.stdint cimport uint8_t, uint16_t, uint32_t, uint64_t, uintptr_t"; "cdef extern from *:"; "  ctypedef bint bool"; "  ctypedef struct va_list"; ""; "cdef extern from *:"; ""; "  ctypedef struct Dummy:"; "    int32_t x;"; "    float y;"; ""; "  void root(Dummy d);"; ""].
(** tests/expectations/linestyle_cr_tag.pyx *)
Definition linestyle_cr_pyx_tag : string := join (String (ascii_of_nat 13) "") ["from libc.stdint cimport int8_t, int16_t, int32_t, int64_t, intptr_t"; "from libc.stdint cimport uint8_t, uint16_t, uint32_t, uint64_t, uintptr_t"; "cdef extern from *:"; "  ctypedef bint bool"; "  ctypedef struct va_list"; ""; "cdef extern from *:"; ""; "  cdef struct Dummy:"; "    int32_t x;"; "    float y;"; ""; "  void root(Dummy d);"; ""].
Example linestyle_cr_reproduced : reproduces (in_file linestyle_cr_rs) false linestyle_cr_toml (Some "{
root;
};")
  [(RunC true Type_, [linestyle_cr_compat]);
   (RunC true Tag, [linestyle_cr_compat_tag]);
   (RunC true Both, [linestyle_cr_compat_both]);
   (RunC false Type_, [linestyle_cr_c]);
   (RunC false Tag, [linestyle_cr_c_tag]);
   (RunC false Both, [linestyle_cr_c_both]);
   (RunCxx, [linestyle_cr_cpp]);
   (RunCython Type_, [linestyle_cr_pyx]);
   (RunCython Tag, [linestyle_cr_pyx_tag])] = true.
Proof. vm_compute. reflexivity. Qed.

(** ** tests/rust/linestyle_crlf.rs *)
Definition linestyle_crlf_rs : list sitem := [
  (ItemStruct [{| at_meta := (AList (Some "repr") [(APath (Some "C"))]); at_outer := true |}] "Dummy" [] (FieldsNamed [{| sf_attrs :=
  []; sf_ident := (Some "x"); sf_ty := (SPath (SegPath [] "i32" NoArgs)) |}; {| sf_attrs := []; sf_ident := (Some "y"); sf_ty := (SPath
  (SegPath [] "f32" NoArgs)) |}]));
  (ItemFn [{| at_meta := (APath (Some "no_mangle")); at_outer := true |}] true {| sg_ident := "root"; sg_abi := (Some (Some "C")); sg_inputs
  := [(FnTyped (PatIdent "d") (SPath (SegPath [] "Dummy" NoArgs)))]; sg_variadic := false; sg_output := None |})].
Definition linestyle_crlf_toml : Config := {| header := None; includes_ := []; sys_includes_ := []; after_includes := None; trailer := None;
  include_guard_ := None; pragma_once := false; no_includes := false; package_version := false; autogen_warning := None; include_version := false;
  namespace := None; namespaces := None; using_namespaces := None; braces := SameLine; line_length := 100; tab_width := 2; line_endings := CRLF;
  language := Cxx; cpp_compat := false; style := Both; sort_by := SortNone; usize_is_size_t := false; parse := default_parse; export := {| ex_include := []; ex_exclude := []; ex_rename := []; ex_pre_body := []; ex_body := []; ex_prefix := None; ex_item_types := []; ex_renaming_overrides_prefixing := false; ex_mangle := {| rename_types := RNone; remove_underscores := false |} |};
  layout := {| ly_packed := None; ly_aligned_n := None |}; function := {| fn_prefix := None; fn_postfix := None; fn_must_use := None; fn_deprecated := None; fn_deprecated_with_note := None; fn_args := Auto; fn_rename_args := RNone; fn_swift_name_macro := None; fn_sort_by := None; fn_no_return := None |}; structure := {| st_rename_fields := RNone; st_derive_constructor := false; st_derive_eq := false; st_derive_neq := false; st_derive_lt := false; st_derive_lte := false; st_derive_gt := false; st_derive_gte := false; st_derive_ostream := false; st_associated_constants_in_body := false; st_rename_associated_constant := RNone; st_must_use := None; st_deprecated := None; st_deprecated_with_note := None |}; enumeration := {| en_rename_variants := RNone; en_rename_variant_name_fields := SnakeCase; en_add_sentinel := false; en_prefix_with_name := false; en_derive_helper_methods := false; en_derive_const_casts := false; en_derive_mut_casts := false; en_cast_assert_name := None; en_must_use := None; en_deprecated := None; en_deprecated_with_note := None; en_deprecated_variant := None; en_deprecated_variant_with_note := None; en_derive_tagged_enum_destructor := false; en_derive_tagged_enum_copy_constructor := false; en_derive_tagged_enum_copy_assignment := false; en_derive_ostream := false; en_enum_class := true; en_private_default_tagged_enum_constructor := false |}; constant := {| co_allow_static_const := true; co_allow_constexpr := true; co_sort_by := None |}; defines := []; documentation := true;
  documentation_style := DocAuto; documentation_length := Full; pointer := {| pt_non_null_attribute := None; pt_nullable_attribute := None |}; cython := {| cy_header := None; cy_cimports := [] |}; config_path := None |}.
(** tests/expectations/linestyle_crlf.compat.c *)
Definition linestyle_crlf_compat : string := join (String (ascii_of_nat 13) "") ["#include <stdarg.h>"; "
#include <stdbool.h>"; "
#include <stdint.h>"; "
#include <stdlib.h>"; "
"; "
typedef struct {"; "
  int32_t x;"; "
  float y;"; "
} Dummy;"; "
"; "
#ifdef __cplusplus"; "
extern ""C"" {"; "
#endif // __cplusplus"; "
"; "
void root(Dummy d);"; "
"; "
#ifdef __cplusplus"; "
}  // extern ""C"""; "
#endif  // __cplusplus"; "
"].
(** tests/expectations/linestyle_crlf_tag.compat.c *)
Definition linestyle_crlf_compat_tag : string := join (String (ascii_of_nat 13) "") ["#include <stdarg.h>"; "
#include <stdbool.h>"; "
#include <stdint.h>"; "
#include <stdlib.h>"; "
"; "
struct Dummy {"; "
  int32_t x;"; "
  float y;"; "
};"; "
"; "
#ifdef __cplusplus"; "
extern ""C"" {"; "
#endif // __cplusplus"; "
"; "
void root(struct Dummy d);"; "
"; "
#ifdef __cplusplus"; "
}  // extern ""C"""; "
#endif  // __cplusplus"; "
"].
(** tests/expectations/linestyle_crlf_both.compat.c *)
Definition linestyle_crlf_compat_both : string := join (String (ascii_of_nat 13) "") ["#include <stdarg.h>"; "
#include <stdbool.h>"; "
#include <stdint.h>"; "
#include <stdlib.h>"; "
"; "
typedef struct Dummy {"; "
  int32_t x;"; "
  float y;"; "
} Dummy;"; "
"; "
#ifdef __cplusplus"; "
extern ""C"" {"; "
#endif // __cplusplus"; "
"; "
void root(struct Dummy d);"; "
"; "
#ifdef __cplusplus"; "
}  // extern ""C"""; "
#endif  // __cplusplus"; "
"].
(** tests/expectations/linestyle_crlf.c *)
Definition linestyle_crlf_c : string := join (String (ascii_of_nat 13) "") ["#include <stdarg.h>"; "
#include <stdbool.h>"; "
#include <stdint.h>"; "
#include <stdlib.h>"; "
"; "
typedef struct {"; "
  int32_t x;"; "
  float y;"; "
} Dummy;"; "
"; "
void root(Dummy d);"; "
"].
(** tests/expectations/linestyle_crlf_tag.c *)
Definition linestyle_crlf_c_tag : string := join (String (ascii_of_nat 13) "") ["#include <stdarg.h>"; "
#include <stdbool.h>"; "
#include <stdint.h>"; "
#include <stdlib.h>"; "
"; "
struct Dummy {"; "
  int32_t x;"; "
  float y;"; "
};"; "
"; "
void root(struct Dummy d);"; "
"].
(** tests/expectations/linestyle_crlf_both.c *)
Definition linestyle_crlf_c_both : string := join (String (ascii_of_nat 13) "") ["#include <stdarg.h>"; "
#include <stdbool.h>"; "
#include <stdint.h>"; "
#include <stdlib.h>"; "
"; "
typedef struct Dummy {"; "
  int32_t x;"; "
  float y;"; "
} Dummy;"; "
"; "
void root(struct Dummy d);"; "
"].
(** tests/expectations/linestyle_crlf.cpp *)
Definition linestyle_crlf_cpp : string := join (String (ascii_of_nat 13) "") ["#include <cstdarg>"; "
#include <cstdint>"; "
#include <cstdlib>"; "
#include <ostream>"; "
#include <new>"; "
"; "
struct Dummy {"; "
  int32_t x;"; "
  float y;"; "
};"; "
"; "
extern ""C"" {"; "
"; "
void root(Dummy d);"; "
"; "
}  // extern ""C"""; "
"].
(** tests/expectations/linestyle_crlf.pyx *)
Definition linestyle_crlf_pyx : string := join (String (ascii_of_nat 13) "") ["from libc.stdint cimport int8_t, int16_t, int32_t, int64_t, intptr_t"; "
from libc.stdint cimport uint8_t, uint16_t, uint32_t, uint64_t, uintptr_t"; "
cdef extern from *:"; "
  ctypedef bint bool"; "
  ctypedef struct va_list"; "
"; "
cdef extern from *:"; "
"; "
  ctypedef struct Dummy:"; "
    int32_t x;"; "
    float y;"; "
"; "
  void root(Dummy d);"; "
"].
(** tests/expectations/linestyle_crlf_tag.pyx *)
Definition linestyle_crlf_pyx_tag : string := join (String (ascii_of_nat 13) "") ["from libc.stdint cimport int8_t, int16_t, int32_t, int64_t, intptr_t"; "
from libc.stdint cimport uint8_t, uint16_t, uint32_t, uint64_t, uintptr_t"; "
cdef extern from *:"; "
  ctypedef bint bool"; "
  ctypedef struct va_list"; "
"; "
cdef extern from *:"; "
"; "
  cdef struct Dummy:"; "
    int32_t x;"; "
    float y;"; "
"; "
  void root(Dummy d);"; "
"].
Example linestyle_crlf_reproduced : reproduces (in_file linestyle_crlf_rs) false linestyle_crlf_toml (Some "{
root;
};")
  [(RunC true Type_, [linestyle_crlf_compat]);
   (RunC true Tag, [linestyle_crlf_compat_tag]);
   (RunC true Both, [linestyle_crlf_compat_both]);
   (RunC false Type_, [linestyle_crlf_c]);
   (RunC false Tag, [linestyle_crlf_c_tag]);
   (RunC false Both, [linestyle_crlf_c_both]);
   (RunCxx, [linestyle_crlf_cpp]);
   (RunCython Type_, [linestyle_crlf_pyx]);
   (RunCython Tag, [linestyle_crlf_pyx_tag])] = true.
Proof. vm_compute. reflexivity. Qed.

(** ** tests/rust/linestyle_lf.rs *)
Definition linestyle_lf_rs : list sitem := [
  (ItemStruct [{| at_meta := (AList (Some "repr") [(APath (Some "C"))]); at_outer := true |}] "Dummy" [] (FieldsNamed [{| sf_attrs :=
  []; sf_ident := (Some "x"); sf_ty := (SPath (SegPath [] "i32" NoArgs)) |}; {| sf_attrs := []; sf_ident := (Some "y"); sf_ty := (SPath
  (SegPath [] "f32" NoArgs)) |}]));
  (ItemFn [{| at_meta := (APath (Some "no_mangle")); at_outer := true |}] true {| sg_ident := "root"; sg_abi := (Some (Some "C")); sg_inputs
  := [(FnTyped (PatIdent "d") (SPath (SegPath [] "Dummy" NoArgs)))]; sg_variadic := false; sg_output := None |})].
Definition linestyle_lf_toml : Config := {| header := None; includes_ := []; sys_includes_ := []; after_includes := None; trailer := None;
  include_guard_ := None; pragma_once := false; no_includes := false; package_version := false; autogen_warning := None; include_version := false;
  namespace := None; namespaces := None; using_namespaces := None; braces := SameLine; line_length := 100; tab_width := 2; line_endings := LF;
  language := Cxx; cpp_compat := false; style := Both; sort_by := SortNone; usize_is_size_t := false; parse := default_parse; export := {| ex_include := []; ex_exclude := []; ex_rename := []; ex_pre_body := []; ex_body := []; ex_prefix := None; ex_item_types := []; ex_renaming_overrides_prefixing := false; ex_mangle := {| rename_types := RNone; remove_underscores := false |} |};
  layout := {| ly_packed := None; ly_aligned_n := None |}; function := {| fn_prefix := None; fn_postfix := None; fn_must_use := None; fn_deprecated := None; fn_deprecated_with_note := None; fn_args := Auto; fn_rename_args := RNone; fn_swift_name_macro := None; fn_sort_by := None; fn_no_return := None |}; structure := {| st_rename_fields := RNone; st_derive_constructor := false; st_derive_eq := false; st_derive_neq := false; st_derive_lt := false; st_derive_lte := false; st_derive_gt := false; st_derive_gte := false; st_derive_ostream := false; st_associated_constants_in_body := false; st_rename_associated_constant := RNone; st_must_use := None; st_deprecated := None; st_deprecated_with_note := None |}; enumeration := {| en_rename_variants := RNone; en_rename_variant_name_fields := SnakeCase; en_add_sentinel := false; en_prefix_with_name := false; en_derive_helper_methods := false; en_derive_const_casts := false; en_derive_mut_casts := false; en_cast_assert_name := None; en_must_use := None; en_deprecated := None; en_deprecated_with_note := None; en_deprecated_variant := None; en_deprecated_variant_with_note := None; en_derive_tagged_enum_destructor := false; en_derive_tagged_enum_copy_constructor := false; en_derive_tagged_enum_copy_assignment := false; en_derive_ostream := false; en_enum_class := true; en_private_default_tagged_enum_constructor := false |}; constant := {| co_allow_static_const := true; co_allow_constexpr := true; co_sort_by := None |}; defines := []; documentation := true;
  documentation_style := DocAuto; documentation_length := Full; pointer := {| pt_non_null_attribute := None; pt_nullable_attribute := None |}; cython := {| cy_header := None; cy_cimports := [] |}; config_path := None |}.
(** tests/expectations/linestyle_lf.compat.c *)
Definition linestyle_lf_compat : string := "#include <stdarg.h>
#include <stdbool.h>
#include <stdint.h>
#include <stdlib.h>

typedef struct {
  int32_t x;
  float y;
} Dummy;

#ifdef __cplusplus
extern ""C"" {
#endif // __cplusplus

void root(Dummy d);

#ifdef __cplusplus
}  // extern ""C""
#endif  // __cplusplus
".
(** tests/expectations/linestyle_lf_tag.compat.c *)
Definition linestyle_lf_compat_tag : string := "#include <stdarg.h>
#include <stdbool.h>
#include <stdint.h>
#include <stdlib.h>

struct Dummy {
  int32_t x;
  float y;
};

#ifdef __cplusplus
extern ""C"" {
#endif // __cplusplus

void root(struct Dummy d);

#ifdef __cplusplus
}  // extern ""C""
#endif  // __cplusplus
".
(** tests/expectations/linestyle_lf_both.compat.c *)
Definition linestyle_lf_compat_both : string := "#include <stdarg.h>
#include <stdbool.h>
#include <stdint.h>
#include <stdlib.h>

typedef struct Dummy {
  int32_t x;
  float y;
} Dummy;

#ifdef __cplusplus
extern ""C"" {
#endif // __cplusplus

void root(struct Dummy d);

#ifdef __cplusplus
}  // extern ""C""
#endif  // __cplusplus
".
(** tests/expectations/linestyle_lf.c *)
Definition linestyle_lf_c : string := "#include <stdarg.h>
#include <stdbool.h>
#include <stdint.h>
#include <stdlib.h>

typedef struct {
  int32_t x;
  float y;
} Dummy;

void root(Dummy d);
".
(** tests/expectations/linestyle_lf_tag.c *)
Definition linestyle_lf_c_tag : string := "#include <stdarg.h>
#include <stdbool.h>
#include <stdint.h>
#include <stdlib.h>

struct Dummy {
  int32_t x;
  float y;
};

void root(struct Dummy d);
".
(** tests/expectations/linestyle_lf_both.c *)
Definition linestyle_lf_c_both : string := "#include <stdarg.h>
#include <stdbool.h>
#include <stdint.h>
#include <stdlib.h>

typedef struct Dummy {
  int32_t x;
  float y;
} Dummy;

void root(struct Dummy d);
".
(** tests/expectations/linestyle_lf.cpp *)
Definition linestyle_lf_cpp : string := "#include <cstdarg>
#include <cstdint>
#include <cstdlib>
#include <ostream>
#include <new>

struct Dummy {
  int32_t x;
  float y;
};

extern ""C"" {

void root(Dummy d);

}  // extern ""C""
".
(** tests/expectations/linestyle_lf.pyx *)
Definition linestyle_lf_pyx : string := "from libc.stdint cimport int8_t, int16_t, int32_t, int64_t, intptr_t
from libc.stdint cimport uint8_t, uint16_t, uint32_t, uint64_t, uintptr_t
cdef extern from *:
  ctypedef bint bool
  ctypedef struct va_list

cdef extern from *:

  ctypedef struct Dummy:
    int32_t x;
    float y;

  void root(Dummy d);
".
(** tests/expectations/linestyle_lf_tag.pyx *)
Definition linestyle_lf_pyx_tag : string := "from libc.stdint cimport int8_t, int16_t, int32_t, int64_t, intptr_t
from libc.stdint cimport uint8_t, uint16_t, uint32_t, uint64_t, uintptr_t
cdef extern from *:
  ctypedef bint bool
  ctypedef struct va_list

cdef extern from *:

  cdef struct Dummy:
    int32_t x;
    float y;

  void root(Dummy d);
".
Example linestyle_lf_reproduced : reproduces (in_file linestyle_lf_rs) false linestyle_lf_toml (Some "{
root;
};")
  [(RunC true Type_, [linestyle_lf_compat]);
   (RunC true Tag, [linestyle_lf_compat_tag]);
   (RunC true Both, [linestyle_lf_compat_both]);
   (RunC false Type_, [linestyle_lf_c]);
   (RunC false Tag, [linestyle_lf_c_tag]);
   (RunC false Both, [linestyle_lf_c_both]);
   (RunCxx, [linestyle_lf_cpp]);
   (RunCython Type_, [linestyle_lf_pyx]);
   (RunCython Tag, [linestyle_lf_pyx_tag])] = true.
Proof. vm_compute. reflexivity. Qed.

(** ** tests/rust/mangle.rs *)
Definition mangle_rs : list sitem := [
  (ItemStruct [{| at_meta := (AList (Some "repr") [(APath (Some "C"))]); at_outer := true |}] "Foo" [(SGType "T" None)] (FieldsNamed
  [{| sf_attrs := []; sf_ident := (Some "a"); sf_ty := (SPath (SegPath [] "T" NoArgs)) |}]));
  (ItemType [] "Boo" [] (SPath (SegPath [] "Foo" (AngleArgs [(ArgType (SPath (SegPath [] "u8" NoArgs)))]))));
  (ItemEnum [{| at_meta := ANameValue (Some "doc") (Some " cbindgen:prefix-with-name=true"); at_outer := true |}; {| at_meta := (AList
  (Some "repr") [(APath (Some "C"))]); at_outer := true |}] "Bar" [] [{| sv_attrs := []; sv_ident := "Some"; sv_fields := FieldsUnit;
  sv_discriminant := None |}; {| sv_attrs := []; sv_ident := "Thing"; sv_fields := FieldsUnit; sv_discriminant := None |}]);
  (ItemFn [{| at_meta := (APath (Some "no_mangle")); at_outer := true |}] true {| sg_ident := "root"; sg_abi := (Some (Some "C")); sg_inputs
  := [(FnTyped (PatIdent "x") (SPath (SegPath [] "Boo" NoArgs))); (FnTyped (PatIdent "y") (SPath (SegPath [] "Bar" NoArgs)))]; sg_variadic
  := false; sg_output := None |});
  (ItemFn [{| at_meta := (AList (Some "unsafe") [(APath (Some "no_mangle"))]); at_outer := true |}] true {| sg_ident := "unsafe_root";
  sg_abi := (Some (Some "C")); sg_inputs := [(FnTyped (PatIdent "x") (SPath (SegPath [] "Boo" NoArgs))); (FnTyped (PatIdent "y") (SPath
  (SegPath [] "Bar" NoArgs)))]; sg_variadic := false; sg_output := None |})].
Definition mangle_toml : Config := {| header := None; includes_ := []; sys_includes_ := []; after_includes := None; trailer := None;
  include_guard_ := None; pragma_once := false; no_includes := false; package_version := false; autogen_warning := None; include_version := false;
  namespace := None; namespaces := None; using_namespaces := None; braces := SameLine; line_length := 100; tab_width := 2; line_endings := LF;
  language := Cxx; cpp_compat := false; style := Both; sort_by := SortNone; usize_is_size_t := false; parse := default_parse; export := {| ex_include := []; ex_exclude := []; ex_rename := []; ex_pre_body := []; ex_body := []; ex_prefix := None; ex_item_types := []; ex_renaming_overrides_prefixing := false; ex_mangle := {| rename_types := PascalCase; remove_underscores := true |} |};
  layout := {| ly_packed := None; ly_aligned_n := None |}; function := {| fn_prefix := None; fn_postfix := None; fn_must_use := None; fn_deprecated := None; fn_deprecated_with_note := None; fn_args := Auto; fn_rename_args := RNone; fn_swift_name_macro := None; fn_sort_by := None; fn_no_return := None |}; structure := {| st_rename_fields := RNone; st_derive_constructor := false; st_derive_eq := false; st_derive_neq := false; st_derive_lt := false; st_derive_lte := false; st_derive_gt := false; st_derive_gte := false; st_derive_ostream := false; st_associated_constants_in_body := false; st_rename_associated_constant := RNone; st_must_use := None; st_deprecated := None; st_deprecated_with_note := None |}; enumeration := {| en_rename_variants := RNone; en_rename_variant_name_fields := SnakeCase; en_add_sentinel := false; en_prefix_with_name := false; en_derive_helper_methods := false; en_derive_const_casts := false; en_derive_mut_casts := false; en_cast_assert_name := None; en_must_use := None; en_deprecated := None; en_deprecated_with_note := None; en_deprecated_variant := None; en_deprecated_variant_with_note := None; en_derive_tagged_enum_destructor := false; en_derive_tagged_enum_copy_constructor := false; en_derive_tagged_enum_copy_assignment := false; en_derive_ostream := false; en_enum_class := true; en_private_default_tagged_enum_constructor := false |}; constant := {| co_allow_static_const := true; co_allow_constexpr := true; co_sort_by := None |}; defines := []; documentation := true;
  documentation_style := DocAuto; documentation_length := Full; pointer := {| pt_non_null_attribute := None; pt_nullable_attribute := None |}; cython := {| cy_header := None; cy_cimports := [] |}; config_path := None |}.
(** tests/expectations/mangle.compat.c *)
Definition mangle_compat : string := "#include <stdarg.h>
#include <stdbool.h>
#include <stdint.h>
#include <stdlib.h>

typedef enum {
  BarSome,
  BarThing,
} Bar;

typedef struct {
  uint8_t a;
} FooU8;

typedef FooU8 Boo;

#ifdef __cplusplus
extern ""C"" {
#endif // __cplusplus

void root(Boo x, Bar y);

void unsafe_root(Boo x, Bar y);

#ifdef __cplusplus
}  // extern ""C""
#endif  // __cplusplus
".
(** tests/expectations/mangle_tag.compat.c *)
Definition mangle_compat_tag : string := "#include <stdarg.h>
#include <stdbool.h>
#include <stdint.h>
#include <stdlib.h>

enum Bar {
  BarSome,
  BarThing,
};

struct FooU8 {
  uint8_t a;
};

typedef struct FooU8 Boo;

#ifdef __cplusplus
extern ""C"" {
#endif // __cplusplus

void root(Boo x, enum Bar y);

void unsafe_root(Boo x, enum Bar y);

#ifdef __cplusplus
}  // extern ""C""
#endif  // __cplusplus
".
(** tests/expectations/mangle_both.compat.c *)
Definition mangle_compat_both : string := "#include <stdarg.h>
#include <stdbool.h>
#include <stdint.h>
#include <stdlib.h>

typedef enum Bar {
  BarSome,
  BarThing,
} Bar;

typedef struct FooU8 {
  uint8_t a;
} FooU8;

typedef struct FooU8 Boo;

#ifdef __cplusplus
extern ""C"" {
#endif // __cplusplus

void root(Boo x, enum Bar y);

void unsafe_root(Boo x, enum Bar y);

#ifdef __cplusplus
}  // extern ""C""
#endif  // __cplusplus
".
(** tests/expectations/mangle.c *)
Definition mangle_c : string := "#include <stdarg.h>
#include <stdbool.h>
#include <stdint.h>
#include <stdlib.h>

typedef enum {
  BarSome,
  BarThing,
} Bar;

typedef struct {
  uint8_t a;
} FooU8;

typedef FooU8 Boo;

void root(Boo x, Bar y);

void unsafe_root(Boo x, Bar y);
".
(** tests/expectations/mangle_tag.c *)
Definition mangle_c_tag : string := "#include <stdarg.h>
#include <stdbool.h>
#include <stdint.h>
#include <stdlib.h>

enum Bar {
  BarSome,
  BarThing,
};

struct FooU8 {
  uint8_t a;
};

typedef struct FooU8 Boo;

void root(Boo x, enum Bar y);

void unsafe_root(Boo x, enum Bar y);
".
(** tests/expectations/mangle_both.c *)
Definition mangle_c_both : string := "#include <stdarg.h>
#include <stdbool.h>
#include <stdint.h>
#include <stdlib.h>

typedef enum Bar {
  BarSome,
  BarThing,
} Bar;

typedef struct FooU8 {
  uint8_t a;
} FooU8;

typedef struct FooU8 Boo;

void root(Boo x, enum Bar y);

void unsafe_root(Boo x, enum Bar y);
".
(** tests/expectations/mangle.cpp *)
Definition mangle_cpp : string := "#include <cstdarg>
#include <cstdint>
#include <cstdlib>
#include <ostream>
#include <new>

enum class Bar {
  BarSome,
  BarThing,
};

template<typename T>
struct Foo {
  T a;
};

using Boo = Foo<uint8_t>;

extern ""C"" {

void root(Boo x, Bar y);

void unsafe_root(Boo x, Bar y);

}  // extern ""C""
".
(** tests/expectations/mangle.pyx *)
Definition mangle_pyx : string := "from libc.stdint cimport int8_t, int16_t, int32_t, int64_t, intptr_t
from libc.stdint cimport uint8_t, uint16_t, uint32_t, uint64_t, uintptr_t
cdef extern from *:
  ctypedef bint bool
  ctypedef struct va_list

cdef extern from *:

  ctypedef enum Bar:
    BarSome,
    BarThing,

  ctypedef struct FooU8:
    uint8_t a;

  ctypedef FooU8 Boo;

  void root(Boo x, Bar y);

  void unsafe_root(Boo x, Bar y);
".
(** tests/expectations/mangle_tag.pyx *)
Definition mangle_pyx_tag : string := "from libc.stdint cimport int8_t, int16_t, int32_t, int64_t, intptr_t
from libc.stdint cimport uint8_t, uint16_t, uint32_t, uint64_t, uintptr_t
cdef extern from *:
  ctypedef bint bool
  ctypedef struct va_list

cdef extern from *:

  cdef enum Bar:
    BarSome,
    BarThing,

  cdef struct FooU8:
    uint8_t a;

  ctypedef FooU8 Boo;

  void root(Boo x, Bar y);

  void unsafe_root(Boo x, Bar y);
".
Example mangle_reproduced : reproduces (in_file mangle_rs) false mangle_toml (Some "{
root;
unsafe_root;
};")
  [(RunC true Type_, [mangle_compat]);
   (RunC true Tag, [mangle_compat_tag]);
   (RunC true Both, [mangle_compat_both]);
   (RunC false Type_, [mangle_c]);
   (RunC false Tag, [mangle_c_tag]);
   (RunC false Both, [mangle_c_both]);
   (RunCxx, [mangle_cpp]);
   (RunCython Type_, [mangle_pyx]);
   (RunCython Tag, [mangle_pyx_tag])] = true.
Proof. vm_compute. reflexivity. Qed.

(** ** tests/rust/manuallydrop.rs *)
Definition manuallydrop_rs : list sitem := [
  (ItemStruct [{| at_meta := (AList (Some "repr") [(APath (Some "C"))]); at_outer := true |}] "Point" [] (FieldsNamed [{| sf_attrs :=
  []; sf_ident := (Some "x"); sf_ty := (SPath (SegPath [] "i32" NoArgs)) |}; {| sf_attrs := []; sf_ident := (Some "y"); sf_ty := (SPath
  (SegPath [] "i32" NoArgs)) |}]));
  (ItemStruct [{| at_meta := (AList (Some "repr") [(APath (Some "C"))]); at_outer := true |}] "MyStruct" [] (FieldsNamed [{| sf_attrs
  := []; sf_ident := (Some "point"); sf_ty := (SPath (SegPath ["std"; "mem"] "ManuallyDrop" (AngleArgs [(ArgType (SPath (SegPath []
  "Point" NoArgs)))]))) |}]));
  (ItemStruct [] "NotReprC" [(SGType "T" None)] (FieldsNamed [{| sf_attrs := []; sf_ident := (Some "inner"); sf_ty := (SPath (SegPath
  [] "T" NoArgs)) |}]));
  (ItemType [] "Foo" [] (SPath (SegPath [] "NotReprC" (AngleArgs [(ArgType (SPath (SegPath ["std"; "mem"] "ManuallyDrop" (AngleArgs
  [(ArgType (SPath (SegPath [] "Point" NoArgs)))]))))]))));
  (ItemFn [{| at_meta := (APath (Some "no_mangle")); at_outer := true |}] true {| sg_ident := "root"; sg_abi := (Some (Some "C")); sg_inputs
  := [(FnTyped (PatIdent "a") (SRef false (SPath (SegPath [] "Foo" NoArgs)))); (FnTyped (PatIdent "with_manual_drop") (SRef false
  (SPath (SegPath [] "MyStruct" NoArgs))))]; sg_variadic := false; sg_output := None |});
  (ItemFn [{| at_meta := (APath (Some "no_mangle")); at_outer := true |}] true {| sg_ident := "take"; sg_abi := (Some (Some "C")); sg_inputs
  := [(FnTyped (PatIdent "with_manual_drop") (SPath (SegPath ["std"; "mem"] "ManuallyDrop" (AngleArgs [(ArgType (SPath (SegPath []
  "Point" NoArgs)))]))))]; sg_variadic := false; sg_output := None |})].
Definition manuallydrop_toml : Config := {| header := (Some "#if 0
''' '
#endif

#ifdef __cplusplus
template <typename T>
using ManuallyDrop = T;
#endif

#if 0
' '''
#endif
"); includes_ := []; sys_includes_ := []; after_includes := None; trailer := None;
  include_guard_ := None; pragma_once := false; no_includes := false; package_version := false; autogen_warning := None; include_version := false;
  namespace := None; namespaces := None; using_namespaces := None; braces := SameLine; line_length := 100; tab_width := 2; line_endings := LF;
  language := Cxx; cpp_compat := false; style := Both; sort_by := SortNone; usize_is_size_t := false; parse := default_parse; export := {| ex_include := []; ex_exclude := ["ManuallyDrop"]; ex_rename := []; ex_pre_body := []; ex_body := []; ex_prefix := None; ex_item_types := []; ex_renaming_overrides_prefixing := false; ex_mangle := {| rename_types := RNone; remove_underscores := false |} |};
  layout := {| ly_packed := None; ly_aligned_n := None |}; function := {| fn_prefix := None; fn_postfix := None; fn_must_use := None; fn_deprecated := None; fn_deprecated_with_note := None; fn_args := Auto; fn_rename_args := RNone; fn_swift_name_macro := None; fn_sort_by := None; fn_no_return := None |}; structure := {| st_rename_fields := RNone; st_derive_constructor := false; st_derive_eq := false; st_derive_neq := false; st_derive_lt := false; st_derive_lte := false; st_derive_gt := false; st_derive_gte := false; st_derive_ostream := false; st_associated_constants_in_body := false; st_rename_associated_constant := RNone; st_must_use := None; st_deprecated := None; st_deprecated_with_note := None |}; enumeration := {| en_rename_variants := RNone; en_rename_variant_name_fields := SnakeCase; en_add_sentinel := false; en_prefix_with_name := false; en_derive_helper_methods := false; en_derive_const_casts := false; en_derive_mut_casts := false; en_cast_assert_name := None; en_must_use := None; en_deprecated := None; en_deprecated_with_note := None; en_deprecated_variant := None; en_deprecated_variant_with_note := None; en_derive_tagged_enum_destructor := false; en_derive_tagged_enum_copy_constructor := false; en_derive_tagged_enum_copy_assignment := false; en_derive_ostream := false; en_enum_class := true; en_private_default_tagged_enum_constructor := false |}; constant := {| co_allow_static_const := true; co_allow_constexpr := true; co_sort_by := None |}; defines := []; documentation := true;
  documentation_style := DocAuto; documentation_length := Full; pointer := {| pt_non_null_attribute := None; pt_nullable_attribute := None |}; cython := {| cy_header := None; cy_cimports := [] |}; config_path := None |}.
(** tests/expectations/manuallydrop.compat.c *)
Definition manuallydrop_compat : string := "#if 0
''' '
#endif

#ifdef __cplusplus
template <typename T>
using ManuallyDrop = T;
#endif

#if 0
' '''
#endif


#include <stdarg.h>
#include <stdbool.h>
#include <stdint.h>
#include <stdlib.h>

typedef struct NotReprC_Point NotReprC_Point;

typedef NotReprC_Point Foo;

typedef struct {
  int32_t x;
  int32_t y;
} Point;

typedef struct {
  Point point;
} MyStruct;

#ifdef __cplusplus
extern ""C"" {
#endif // __cplusplus

void root(const Foo *a, const MyStruct *with_manual_drop);

void take(Point with_manual_drop);

#ifdef __cplusplus
}  // extern ""C""
#endif  // __cplusplus
".
(** tests/expectations/manuallydrop_tag.compat.c *)
Definition manuallydrop_compat_tag : string := "#if 0
''' '
#endif

#ifdef __cplusplus
template <typename T>
using ManuallyDrop = T;
#endif

#if 0
' '''
#endif


#include <stdarg.h>
#include <stdbool.h>
#include <stdint.h>
#include <stdlib.h>

struct NotReprC_Point;

typedef struct NotReprC_Point Foo;

struct Point {
  int32_t x;
  int32_t y;
};

struct MyStruct {
  struct Point point;
};

#ifdef __cplusplus
extern ""C"" {
#endif // __cplusplus

void root(const Foo *a, const struct MyStruct *with_manual_drop);

void take(struct Point with_manual_drop);

#ifdef __cplusplus
}  // extern ""C""
#endif  // __cplusplus
".
(** tests/expectations/manuallydrop_both.compat.c *)
Definition manuallydrop_compat_both : string := "#if 0
''' '
#endif

#ifdef __cplusplus
template <typename T>
using ManuallyDrop = T;
#endif

#if 0
' '''
#endif


#include <stdarg.h>
#include <stdbool.h>
#include <stdint.h>
#include <stdlib.h>

typedef struct NotReprC_Point NotReprC_Point;

typedef struct NotReprC_Point Foo;

typedef struct Point {
  int32_t x;
  int32_t y;
} Point;

typedef struct MyStruct {
  struct Point point;
} MyStruct;

#ifdef __cplusplus
extern ""C"" {
#endif // __cplusplus

void root(const Foo *a, const struct MyStruct *with_manual_drop);

void take(struct Point with_manual_drop);

#ifdef __cplusplus
}  // extern ""C""
#endif  // __cplusplus
".
(** tests/expectations/manuallydrop.c *)
Definition manuallydrop_c : string := "#if 0
''' '
#endif

#ifdef __cplusplus
template <typename T>
using ManuallyDrop = T;
#endif

#if 0
' '''
#endif


#include <stdarg.h>
#include <stdbool.h>
#include <stdint.h>
#include <stdlib.h>

typedef struct NotReprC_Point NotReprC_Point;

typedef NotReprC_Point Foo;

typedef struct {
  int32_t x;
  int32_t y;
} Point;

typedef struct {
  Point point;
} MyStruct;

void root(const Foo *a, const MyStruct *with_manual_drop);

void take(Point with_manual_drop);
".
(** tests/expectations/manuallydrop_tag.c *)
Definition manuallydrop_c_tag : string := "#if 0
''' '
#endif

#ifdef __cplusplus
template <typename T>
using ManuallyDrop = T;
#endif

#if 0
' '''
#endif


#include <stdarg.h>
#include <stdbool.h>
#include <stdint.h>
#include <stdlib.h>

struct NotReprC_Point;

typedef struct NotReprC_Point Foo;

struct Point {
  int32_t x;
  int32_t y;
};

struct MyStruct {
  struct Point point;
};

void root(const Foo *a, const struct MyStruct *with_manual_drop);

void take(struct Point with_manual_drop);
".
(** tests/expectations/manuallydrop_both.c *)
Definition manuallydrop_c_both : string := "#if 0
''' '
#endif

#ifdef __cplusplus
template <typename T>
using ManuallyDrop = T;
#endif

#if 0
' '''
#endif


#include <stdarg.h>
#include <stdbool.h>
#include <stdint.h>
#include <stdlib.h>

typedef struct NotReprC_Point NotReprC_Point;

typedef struct NotReprC_Point Foo;

typedef struct Point {
  int32_t x;
  int32_t y;
} Point;

typedef struct MyStruct {
  struct Point point;
} MyStruct;

void root(const Foo *a, const struct MyStruct *with_manual_drop);

void take(struct Point with_manual_drop);
".
(** tests/expectations/manuallydrop.cpp *)
Definition manuallydrop_cpp : string := "#if 0
''' '
#endif

#ifdef __cplusplus
template <typename T>
using ManuallyDrop = T;
#endif

#if 0
' '''
#endif


#include <cstdarg>
#include <cstdint>
#include <cstdlib>
#include <ostream>
#include <new>

template<typename T = void>
struct NotReprC;

struct Point {
  int32_t x;
  int32_t y;
};

using Foo = NotReprC<ManuallyDrop<Point>>;

struct MyStruct {
  ManuallyDrop<Point> point;
};

extern ""C"" {

void root(const Foo *a, const MyStruct *with_manual_drop);

void take(ManuallyDrop<Point> with_manual_drop);

}  // extern ""C""
".
(** tests/expectations/manuallydrop.pyx *)
Definition manuallydrop_pyx : string := "#if 0
''' '
#endif

#ifdef __cplusplus
template <typename T>
using ManuallyDrop = T;
#endif

#if 0
' '''
#endif


from libc.stdint cimport int8_t, int16_t, int32_t, int64_t, intptr_t
from libc.stdint cimport uint8_t, uint16_t, uint32_t, uint64_t, uintptr_t
cdef extern from *:
  ctypedef bint bool
  ctypedef struct va_list

cdef extern from *:

  ctypedef struct NotReprC_Point:
    pass

  ctypedef NotReprC_Point Foo;

  ctypedef struct Point:
    int32_t x;
    int32_t y;

  ctypedef struct MyStruct:
    Point point;

  void root(const Foo *a, const MyStruct *with_manual_drop);

  void take(Point with_manual_drop);
".
(** tests/expectations/manuallydrop_tag.pyx *)
Definition manuallydrop_pyx_tag : string := "#if 0
''' '
#endif

#ifdef __cplusplus
template <typename T>
using ManuallyDrop = T;
#endif

#if 0
' '''
#endif


from libc.stdint cimport int8_t, int16_t, int32_t, int64_t, intptr_t
from libc.stdint cimport uint8_t, uint16_t, uint32_t, uint64_t, uintptr_t
cdef extern from *:
  ctypedef bint bool
  ctypedef struct va_list

cdef extern from *:

  cdef struct NotReprC_Point:
    pass

  ctypedef NotReprC_Point Foo;

  cdef struct Point:
    int32_t x;
    int32_t y;

  cdef struct MyStruct:
    Point point;

  void root(const Foo *a, const MyStruct *with_manual_drop);

  void take(Point with_manual_drop);
".
Example manuallydrop_reproduced : reproduces (in_file manuallydrop_rs) false manuallydrop_toml (Some "{
root;
take;
};")
  [(RunC true Type_, [manuallydrop_compat]);
   (RunC true Tag, [manuallydrop_compat_tag]);
   (RunC true Both, [manuallydrop_compat_both]);
   (RunC false Type_, [manuallydrop_c]);
   (RunC false Tag, [manuallydrop_c_tag]);
   (RunC false Both, [manuallydrop_c_both]);
   (RunCxx, [manuallydrop_cpp]);
   (RunCython Type_, [manuallydrop_pyx]);
   (RunCython Tag, [manuallydrop_pyx_tag])] = true.
Proof. vm_compute. reflexivity. Qed.

(** ** tests/rust/maybeuninit.rs *)
Definition maybeuninit_rs : list sitem := [
  (ItemStruct [{| at_meta := (AList (Some "repr") [(APath (Some "C"))]); at_outer := true |}] "MyStruct" [SGLifetime] (FieldsNamed [{|
  sf_attrs := []; sf_ident := (Some "number"); sf_ty := (SPath (SegPath ["std"; "mem"] "MaybeUninit" (AngleArgs [(ArgType (SRef false
  (SPath (SegPath [] "i32" NoArgs))))]))) |}]));
  (ItemStruct [] "NotReprC" [(SGType "T" None)] (FieldsNamed [{| sf_attrs := []; sf_ident := (Some "inner"); sf_ty := (SPath (SegPath
  [] "T" NoArgs)) |}]));
  (ItemType [] "Foo" [SGLifetime] (SPath (SegPath [] "NotReprC" (AngleArgs [(ArgType (SPath (SegPath ["std"; "mem"] "MaybeUninit" (AngleArgs
  [(ArgType (SRef false (SPath (SegPath [] "i32" NoArgs))))]))))]))));
  (ItemFn [{| at_meta := (APath (Some "no_mangle")); at_outer := true |}] true {| sg_ident := "root"; sg_abi := (Some (Some "C")); sg_inputs
  := [(FnTyped (PatIdent "a") (SRef false (SPath (SegPath [] "Foo" NoArgs)))); (FnTyped (PatIdent "with_maybe_uninit") (SRef false
  (SPath (SegPath [] "MyStruct" NoArgs))))]; sg_variadic := false; sg_output := None |})].
Definition maybeuninit_toml : Config := {| header := (Some "#if 0
''' '
#endif

#ifdef __cplusplus
template <typename T>
using MaybeUninit = T;
#endif

#if 0
' '''
#endif
"); includes_ := []; sys_includes_ := []; after_includes := None; trailer := None;
  include_guard_ := None; pragma_once := false; no_includes := false; package_version := false; autogen_warning := None; include_version := false;
  namespace := None; namespaces := None; using_namespaces := None; braces := SameLine; line_length := 100; tab_width := 2; line_endings := LF;
  language := Cxx; cpp_compat := false; style := Both; sort_by := SortNone; usize_is_size_t := false; parse := default_parse; export := {| ex_include := []; ex_exclude := ["MaybeUninit"]; ex_rename := []; ex_pre_body := []; ex_body := []; ex_prefix := None; ex_item_types := []; ex_renaming_overrides_prefixing := false; ex_mangle := {| rename_types := RNone; remove_underscores := false |} |};
  layout := {| ly_packed := None; ly_aligned_n := None |}; function := {| fn_prefix := None; fn_postfix := None; fn_must_use := None; fn_deprecated := None; fn_deprecated_with_note := None; fn_args := Auto; fn_rename_args := RNone; fn_swift_name_macro := None; fn_sort_by := None; fn_no_return := None |}; structure := {| st_rename_fields := RNone; st_derive_constructor := false; st_derive_eq := false; st_derive_neq := false; st_derive_lt := false; st_derive_lte := false; st_derive_gt := false; st_derive_gte := false; st_derive_ostream := false; st_associated_constants_in_body := false; st_rename_associated_constant := RNone; st_must_use := None; st_deprecated := None; st_deprecated_with_note := None |}; enumeration := {| en_rename_variants := RNone; en_rename_variant_name_fields := SnakeCase; en_add_sentinel := false; en_prefix_with_name := false; en_derive_helper_methods := false; en_derive_const_casts := false; en_derive_mut_casts := false; en_cast_assert_name := None; en_must_use := None; en_deprecated := None; en_deprecated_with_note := None; en_deprecated_variant := None; en_deprecated_variant_with_note := None; en_derive_tagged_enum_destructor := false; en_derive_tagged_enum_copy_constructor := false; en_derive_tagged_enum_copy_assignment := false; en_derive_ostream := false; en_enum_class := true; en_private_default_tagged_enum_constructor := false |}; constant := {| co_allow_static_const := true; co_allow_constexpr := true; co_sort_by := None |}; defines := []; documentation := true;
  documentation_style := DocAuto; documentation_length := Full; pointer := {| pt_non_null_attribute := None; pt_nullable_attribute := None |}; cython := {| cy_header := None; cy_cimports := [] |}; config_path := None |}.
(** tests/expectations/maybeuninit.compat.c *)
Definition maybeuninit_compat : string := "#if 0
''' '
#endif

#ifdef __cplusplus
template <typename T>
using MaybeUninit = T;
#endif

#if 0
' '''
#endif


#include <stdarg.h>
#include <stdbool.h>
#include <stdint.h>
#include <stdlib.h>

typedef struct NotReprC______i32 NotReprC______i32;

typedef NotReprC______i32 Foo;

typedef struct {
  const int32_t *number;
} MyStruct;

#ifdef __cplusplus
extern ""C"" {
#endif // __cplusplus

void root(const Foo *a, const MyStruct *with_maybe_uninit);

#ifdef __cplusplus
}  // extern ""C""
#endif  // __cplusplus
".
(** tests/expectations/maybeuninit_tag.compat.c *)
Definition maybeuninit_compat_tag : string := "#if 0
''' '
#endif

#ifdef __cplusplus
template <typename T>
using MaybeUninit = T;
#endif

#if 0
' '''
#endif


#include <stdarg.h>
#include <stdbool.h>
#include <stdint.h>
#include <stdlib.h>

struct NotReprC______i32;

typedef struct NotReprC______i32 Foo;

struct MyStruct {
  const int32_t *number;
};

#ifdef __cplusplus
extern ""C"" {
#endif // __cplusplus

void root(const Foo *a, const struct MyStruct *with_maybe_uninit);

#ifdef __cplusplus
}  // extern ""C""
#endif  // __cplusplus
".
(** tests/expectations/maybeuninit_both.compat.c *)
Definition maybeuninit_compat_both : string := "#if 0
''' '
#endif

#ifdef __cplusplus
template <typename T>
using MaybeUninit = T;
#endif

#if 0
' '''
#endif


#include <stdarg.h>
#include <stdbool.h>
#include <stdint.h>
#include <stdlib.h>

typedef struct NotReprC______i32 NotReprC______i32;

typedef struct NotReprC______i32 Foo;

typedef struct MyStruct {
  const int32_t *number;
} MyStruct;

#ifdef __cplusplus
extern ""C"" {
#endif // __cplusplus

void root(const Foo *a, const struct MyStruct *with_maybe_uninit);

#ifdef __cplusplus
}  // extern ""C""
#endif  // __cplusplus
".
(** tests/expectations/maybeuninit.c *)
Definition maybeuninit_c : string := "#if 0
''' '
#endif

#ifdef __cplusplus
template <typename T>
using MaybeUninit = T;
#endif

#if 0
' '''
#endif


#include <stdarg.h>
#include <stdbool.h>
#include <stdint.h>
#include <stdlib.h>

typedef struct NotReprC______i32 NotReprC______i32;

typedef NotReprC______i32 Foo;

typedef struct {
  const int32_t *number;
} MyStruct;

void root(const Foo *a, const MyStruct *with_maybe_uninit);
".
(** tests/expectations/maybeuninit_tag.c *)
Definition maybeuninit_c_tag : string := "#if 0
''' '
#endif

#ifdef __cplusplus
template <typename T>
using MaybeUninit = T;
#endif

#if 0
' '''
#endif


#include <stdarg.h>
#include <stdbool.h>
#include <stdint.h>
#include <stdlib.h>

struct NotReprC______i32;

typedef struct NotReprC______i32 Foo;

struct MyStruct {
  const int32_t *number;
};

void root(const Foo *a, const struct MyStruct *with_maybe_uninit);
".
(** tests/expectations/maybeuninit_both.c *)
Definition maybeuninit_c_both : string := "#if 0
''' '
#endif

#ifdef __cplusplus
template <typename T>
using MaybeUninit = T;
#endif

#if 0
' '''
#endif


#include <stdarg.h>
#include <stdbool.h>
#include <stdint.h>
#include <stdlib.h>

typedef struct NotReprC______i32 NotReprC______i32;

typedef struct NotReprC______i32 Foo;

typedef struct MyStruct {
  const int32_t *number;
} MyStruct;

void root(const Foo *a, const struct MyStruct *with_maybe_uninit);
".
(** tests/expectations/maybeuninit.cpp *)
Definition maybeuninit_cpp : string := "#if 0
''' '
#endif

#ifdef __cplusplus
template <typename T>
using MaybeUninit = T;
#endif

#if 0
' '''
#endif


#include <cstdarg>
#include <cstdint>
#include <cstdlib>
#include <ostream>
#include <new>

template<typename T = void>
struct NotReprC;

using Foo = NotReprC<MaybeUninit<const int32_t*>>;

struct MyStruct {
  MaybeUninit<const int32_t*> number;
};

extern ""C"" {

void root(const Foo *a, const MyStruct *with_maybe_uninit);

}  // extern ""C""
".
(** tests/expectations/maybeuninit.pyx *)
Definition maybeuninit_pyx : string := "#if 0
''' '
#endif

#ifdef __cplusplus
template <typename T>
using MaybeUninit = T;
#endif

#if 0
' '''
#endif


from libc.stdint cimport int8_t, int16_t, int32_t, int64_t, intptr_t
from libc.stdint cimport uint8_t, uint16_t, uint32_t, uint64_t, uintptr_t
cdef extern from *:
  ctypedef bint bool
  ctypedef struct va_list

cdef extern from *:

  ctypedef struct NotReprC______i32:
    pass

  ctypedef NotReprC______i32 Foo;

  ctypedef struct MyStruct:
    const int32_t *number;

  void root(const Foo *a, const MyStruct *with_maybe_uninit);
".
(** tests/expectations/maybeuninit_tag.pyx *)
Definition maybeuninit_pyx_tag : string := "#if 0
''' '
#endif

#ifdef __cplusplus
template <typename T>
using MaybeUninit = T;
#endif

#if 0
' '''
#endif


from libc.stdint cimport int8_t, int16_t, int32_t, int64_t, intptr_t
from libc.stdint cimport uint8_t, uint16_t, uint32_t, uint64_t, uintptr_t
cdef extern from *:
  ctypedef bint bool
  ctypedef struct va_list

cdef extern from *:

  cdef struct NotReprC______i32:
    pass

  ctypedef NotReprC______i32 Foo;

  cdef struct MyStruct:
    const int32_t *number;

  void root(const Foo *a, const MyStruct *with_maybe_uninit);
".
Example maybeuninit_reproduced : reproduces (in_file maybeuninit_rs) false maybeuninit_toml (Some "{
root;
};")
  [(RunC true Type_, [maybeuninit_compat]);
   (RunC true Tag, [maybeuninit_compat_tag]);
   (RunC true Both, [maybeuninit_compat_both]);
   (RunC false Type_, [maybeuninit_c]);
   (RunC false Tag, [maybeuninit_c_tag]);
   (RunC false Both, [maybeuninit_c_both]);
   (RunCxx, [maybeuninit_cpp]);
   (RunCython Type_, [maybeuninit_pyx]);
   (RunCython Tag, [maybeuninit_pyx_tag])] = true.
Proof. vm_compute. reflexivity. Qed.

(** ** tests/rust/monomorph_1.rs *)
Definition monomorph_1_rs : list sitem := [
  (ItemStruct [{| at_meta := (AList (Some "repr") [(APath (Some "C"))]); at_outer := true |}] "Foo" [(SGType "T" None)] (FieldsNamed
  [{| sf_attrs := []; sf_ident := (Some "data"); sf_ty := (SPtr false (SPath (SegPath [] "T" NoArgs))) |}]));
  (ItemStruct [] "Bar" [(SGType "T" None)] (FieldsNamed [{| sf_attrs := []; sf_ident := (Some "data"); sf_ty := (SPtr false (SPath (SegPath
  [] "T" NoArgs))) |}]));
  (ItemStruct [{| at_meta := (AList (Some "repr") [(APath (Some "C"))]); at_outer := true |}] "Tuple" [(SGType "T" None); (SGType "E"
  None)] (FieldsNamed [{| sf_attrs := []; sf_ident := (Some "a"); sf_ty := (SPtr false (SPath (SegPath [] "T" NoArgs))) |}; {| sf_attrs
  := []; sf_ident := (Some "b"); sf_ty := (SPtr false (SPath (SegPath [] "E" NoArgs))) |}]));
  (ItemType [] "Indirection" [(SGType "T" None)] (SPath (SegPath [] "Tuple" (AngleArgs [(ArgType (SPath (SegPath [] "T" NoArgs))); (ArgType
  (SPath (SegPath [] "f32" NoArgs)))]))));
  (ItemFn [{| at_meta := (APath (Some "no_mangle")); at_outer := true |}] true {| sg_ident := "root"; sg_abi := (Some (Some "C")); sg_inputs
  := [(FnTyped (PatIdent "a") (SPath (SegPath [] "Foo" (AngleArgs [(ArgType (SPath (SegPath [] "i32" NoArgs)))])))); (FnTyped (PatIdent
  "b") (SPath (SegPath [] "Foo" (AngleArgs [(ArgType (SPath (SegPath [] "f32" NoArgs)))])))); (FnTyped (PatIdent "c") (SPath (SegPath
  [] "Bar" (AngleArgs [(ArgType (SPath (SegPath [] "f32" NoArgs)))])))); (FnTyped (PatIdent "d") (SPath (SegPath [] "Foo" (AngleArgs
  [(ArgType (SPath (SegPath [] "Bar" (AngleArgs [(ArgType (SPath (SegPath [] "f32" NoArgs)))]))))])))); (FnTyped (PatIdent "e") (SPath
  (SegPath [] "Bar" (AngleArgs [(ArgType (SPath (SegPath [] "Foo" (AngleArgs [(ArgType (SPath (SegPath [] "f32" NoArgs)))]))))]))));
  (FnTyped (PatIdent "f") (SPath (SegPath [] "Bar" (AngleArgs [(ArgType (SPath (SegPath [] "Bar" (AngleArgs [(ArgType (SPath (SegPath
  [] "f32" NoArgs)))]))))])))); (FnTyped (PatIdent "g") (SPath (SegPath [] "Tuple" (AngleArgs [(ArgType (SPath (SegPath [] "Foo" (AngleArgs
  [(ArgType (SPath (SegPath [] "f32" NoArgs)))])))); (ArgType (SPath (SegPath [] "f32" NoArgs)))])))); (FnTyped (PatIdent "h") (SPath
  (SegPath [] "Indirection" (AngleArgs [(ArgType (SPath (SegPath [] "f32" NoArgs)))]))))]; sg_variadic := false; sg_output := None
  |})].
(** tests/expectations/monomorph_1.compat.c *)
Definition monomorph_1_compat : string := "#include <stdarg.h>
#include <stdbool.h>
#include <stdint.h>
#include <stdlib.h>

typedef struct Bar_Bar_f32 Bar_Bar_f32;

typedef struct Bar_Foo_f32 Bar_Foo_f32;

typedef struct Bar_f32 Bar_f32;

typedef struct {
  const int32_t *data;
} Foo_i32;

typedef struct {
  const float *data;
} Foo_f32;

typedef struct {
  const Bar_f32 *data;
} Foo_Bar_f32;

typedef struct {
  const Foo_f32 *a;
  const float *b;
} Tuple_Foo_f32_____f32;

typedef struct {
  const float *a;
  const float *b;
} Tuple_f32__f32;

typedef Tuple_f32__f32 Indirection_f32;

#ifdef __cplusplus
extern ""C"" {
#endif // __cplusplus

void root(Foo_i32 a,
          Foo_f32 b,
          Bar_f32 c,
          Foo_Bar_f32 d,
          Bar_Foo_f32 e,
          Bar_Bar_f32 f,
          Tuple_Foo_f32_____f32 g,
          Indirection_f32 h);

#ifdef __cplusplus
}  // extern ""C""
#endif  // __cplusplus
".
(** tests/expectations/monomorph_1_tag.compat.c *)
Definition monomorph_1_compat_tag : string := "#include <stdarg.h>
#include <stdbool.h>
#include <stdint.h>
#include <stdlib.h>

struct Bar_Bar_f32;

struct Bar_Foo_f32;

struct Bar_f32;

struct Foo_i32 {
  const int32_t *data;
};

struct Foo_f32 {
  const float *data;
};

struct Foo_Bar_f32 {
  const struct Bar_f32 *data;
};

struct Tuple_Foo_f32_____f32 {
  const struct Foo_f32 *a;
  const float *b;
};

struct Tuple_f32__f32 {
  const float *a;
  const float *b;
};

typedef struct Tuple_f32__f32 Indirection_f32;

#ifdef __cplusplus
extern ""C"" {
#endif // __cplusplus

void root(struct Foo_i32 a,
          struct Foo_f32 b,
          struct Bar_f32 c,
          struct Foo_Bar_f32 d,
          struct Bar_Foo_f32 e,
          struct Bar_Bar_f32 f,
          struct Tuple_Foo_f32_____f32 g,
          Indirection_f32 h);

#ifdef __cplusplus
}  // extern ""C""
#endif  // __cplusplus
".
(** tests/expectations/monomorph_1_both.compat.c *)
Definition monomorph_1_compat_both : string := "#include <stdarg.h>
#include <stdbool.h>
#include <stdint.h>
#include <stdlib.h>

typedef struct Bar_Bar_f32 Bar_Bar_f32;

typedef struct Bar_Foo_f32 Bar_Foo_f32;

typedef struct Bar_f32 Bar_f32;

typedef struct Foo_i32 {
  const int32_t *data;
} Foo_i32;

typedef struct Foo_f32 {
  const float *data;
} Foo_f32;

typedef struct Foo_Bar_f32 {
  const struct Bar_f32 *data;
} Foo_Bar_f32;

typedef struct Tuple_Foo_f32_____f32 {
  const struct Foo_f32 *a;
  const float *b;
} Tuple_Foo_f32_____f32;

typedef struct Tuple_f32__f32 {
  const float *a;
  const float *b;
} Tuple_f32__f32;

typedef struct Tuple_f32__f32 Indirection_f32;

#ifdef __cplusplus
extern ""C"" {
#endif // __cplusplus

void root(struct Foo_i32 a,
          struct Foo_f32 b,
          struct Bar_f32 c,
          struct Foo_Bar_f32 d,
          struct Bar_Foo_f32 e,
          struct Bar_Bar_f32 f,
          struct Tuple_Foo_f32_____f32 g,
          Indirection_f32 h);

#ifdef __cplusplus
}  // extern ""C""
#endif  // __cplusplus
".
(** tests/expectations/monomorph_1.c *)
Definition monomorph_1_c : string := "#include <stdarg.h>
#include <stdbool.h>
#include <stdint.h>
#include <stdlib.h>

typedef struct Bar_Bar_f32 Bar_Bar_f32;

typedef struct Bar_Foo_f32 Bar_Foo_f32;

typedef struct Bar_f32 Bar_f32;

typedef struct {
  const int32_t *data;
} Foo_i32;

typedef struct {
  const float *data;
} Foo_f32;

typedef struct {
  const Bar_f32 *data;
} Foo_Bar_f32;

typedef struct {
  const Foo_f32 *a;
  const float *b;
} Tuple_Foo_f32_____f32;

typedef struct {
  const float *a;
  const float *b;
} Tuple_f32__f32;

typedef Tuple_f32__f32 Indirection_f32;

void root(Foo_i32 a,
          Foo_f32 b,
          Bar_f32 c,
          Foo_Bar_f32 d,
          Bar_Foo_f32 e,
          Bar_Bar_f32 f,
          Tuple_Foo_f32_____f32 g,
          Indirection_f32 h);
".
(** tests/expectations/monomorph_1_tag.c *)
Definition monomorph_1_c_tag : string := "#include <stdarg.h>
#include <stdbool.h>
#include <stdint.h>
#include <stdlib.h>

struct Bar_Bar_f32;

struct Bar_Foo_f32;

struct Bar_f32;

struct Foo_i32 {
  const int32_t *data;
};

struct Foo_f32 {
  const float *data;
};

struct Foo_Bar_f32 {
  const struct Bar_f32 *data;
};

struct Tuple_Foo_f32_____f32 {
  const struct Foo_f32 *a;
  const float *b;
};

struct Tuple_f32__f32 {
  const float *a;
  const float *b;
};

typedef struct Tuple_f32__f32 Indirection_f32;

void root(struct Foo_i32 a,
          struct Foo_f32 b,
          struct Bar_f32 c,
          struct Foo_Bar_f32 d,
          struct Bar_Foo_f32 e,
          struct Bar_Bar_f32 f,
          struct Tuple_Foo_f32_____f32 g,
          Indirection_f32 h);
".
(** tests/expectations/monomorph_1_both.c *)
Definition monomorph_1_c_both : string := "#include <stdarg.h>
#include <stdbool.h>
#include <stdint.h>
#include <stdlib.h>

typedef struct Bar_Bar_f32 Bar_Bar_f32;

typedef struct Bar_Foo_f32 Bar_Foo_f32;

typedef struct Bar_f32 Bar_f32;

typedef struct Foo_i32 {
  const int32_t *data;
} Foo_i32;

typedef struct Foo_f32 {
  const float *data;
} Foo_f32;

typedef struct Foo_Bar_f32 {
  const struct Bar_f32 *data;
} Foo_Bar_f32;

typedef struct Tuple_Foo_f32_____f32 {
  const struct Foo_f32 *a;
  const float *b;
} Tuple_Foo_f32_____f32;

typedef struct Tuple_f32__f32 {
  const float *a;
  const float *b;
} Tuple_f32__f32;

typedef struct Tuple_f32__f32 Indirection_f32;

void root(struct Foo_i32 a,
          struct Foo_f32 b,
          struct Bar_f32 c,
          struct Foo_Bar_f32 d,
          struct Bar_Foo_f32 e,
          struct Bar_Bar_f32 f,
          struct Tuple_Foo_f32_____f32 g,
          Indirection_f32 h);
".
(** tests/expectations/monomorph_1.cpp *)
Definition monomorph_1_cpp : string := "#include <cstdarg>
#include <cstdint>
#include <cstdlib>
#include <ostream>
#include <new>

template<typename T = void>
struct Bar;

template<typename T>
struct Foo {
  const T *data;
};

template<typename T, typename E>
struct Tuple {
  const T *a;
  const E *b;
};

template<typename T>
using Indirection = Tuple<T, float>;

extern ""C"" {

void root(Foo<int32_t> a,
          Foo<float> b,
          Bar<float> c,
          Foo<Bar<float>> d,
          Bar<Foo<float>> e,
          Bar<Bar<float>> f,
          Tuple<Foo<float>, float> g,
          Indirection<float> h);

}  // extern ""C""
".
(** tests/expectations/monomorph_1.pyx *)
Definition monomorph_1_pyx : string := "from libc.stdint cimport int8_t, int16_t, int32_t, int64_t, intptr_t
from libc.stdint cimport uint8_t, uint16_t, uint32_t, uint64_t, uintptr_t
cdef extern from *:
  ctypedef bint bool
  ctypedef struct va_list

cdef extern from *:

  ctypedef struct Bar_Bar_f32:
    pass

  ctypedef struct Bar_Foo_f32:
    pass

  ctypedef struct Bar_f32:
    pass

  ctypedef struct Foo_i32:
    const int32_t *data;

  ctypedef struct Foo_f32:
    const float *data;

  ctypedef struct Foo_Bar_f32:
    const Bar_f32 *data;

  ctypedef struct Tuple_Foo_f32_____f32:
    const Foo_f32 *a;
    const float *b;

  ctypedef struct Tuple_f32__f32:
    const float *a;
    const float *b;

  ctypedef Tuple_f32__f32 Indirection_f32;

  void root(Foo_i32 a,
            Foo_f32 b,
            Bar_f32 c,
            Foo_Bar_f32 d,
            Bar_Foo_f32 e,
            Bar_Bar_f32 f,
            Tuple_Foo_f32_____f32 g,
            Indirection_f32 h);
".
(** tests/expectations/monomorph_1_tag.pyx *)
Definition monomorph_1_pyx_tag : string := "from libc.stdint cimport int8_t, int16_t, int32_t, int64_t, intptr_t
from libc.stdint cimport uint8_t, uint16_t, uint32_t, uint64_t, uintptr_t
cdef extern from *:
  ctypedef bint bool
  ctypedef struct va_list

cdef extern from *:

  cdef struct Bar_Bar_f32:
    pass

  cdef struct Bar_Foo_f32:
    pass

  cdef struct Bar_f32:
    pass

  cdef struct Foo_i32:
    const int32_t *data;

  cdef struct Foo_f32:
    const float *data;

  cdef struct Foo_Bar_f32:
    const Bar_f32 *data;

  cdef struct Tuple_Foo_f32_____f32:
    const Foo_f32 *a;
    const float *b;

  cdef struct Tuple_f32__f32:
    const float *a;
    const float *b;

  ctypedef Tuple_f32__f32 Indirection_f32;

  void root(Foo_i32 a,
            Foo_f32 b,
            Bar_f32 c,
            Foo_Bar_f32 d,
            Bar_Foo_f32 e,
            Bar_Bar_f32 f,
            Tuple_Foo_f32_____f32 g,
            Indirection_f32 h);
".
Example monomorph_1_reproduced : reproduces (in_file monomorph_1_rs) false default_config (Some "{
root;
};")
  [(RunC true Type_, [monomorph_1_compat]);
   (RunC true Tag, [monomorph_1_compat_tag]);
   (RunC true Both, [monomorph_1_compat_both]);
   (RunC false Type_, [monomorph_1_c]);
   (RunC false Tag, [monomorph_1_c_tag]);
   (RunC false Both, [monomorph_1_c_both]);
   (RunCxx, [monomorph_1_cpp]);
   (RunCython Type_, [monomorph_1_pyx]);
   (RunCython Tag, [monomorph_1_pyx_tag])] = true.
Proof. vm_compute. reflexivity. Qed.

(** ** tests/rust/monomorph_2.rs *)
Definition monomorph_2_rs : list sitem := [
  (ItemStruct [{| at_meta := (AList (Some "repr") [(APath (Some "C"))]); at_outer := true |}] "List" [(SGType "T" None)] (FieldsNamed
  [{| sf_attrs := []; sf_ident := (Some "members"); sf_ty := (SPtr true (SPath (SegPath [] "T" NoArgs))) |}; {| sf_attrs := []; sf_ident
  := (Some "count"); sf_ty := (SPath (SegPath [] "usize" NoArgs)) |}]));
  (ItemStruct [] "A" [] FieldsUnit);
  (ItemStruct [] "B" [] FieldsUnit);
  (ItemFn [{| at_meta := (APath (Some "no_mangle")); at_outer := true |}] true {| sg_ident := "foo"; sg_abi := (Some (Some "C")); sg_inputs
  := [(FnTyped (PatIdent "a") (SPath (SegPath [] "List" (AngleArgs [(ArgType (SPath (SegPath [] "A" NoArgs)))]))))]; sg_variadic :=
  false; sg_output := None |});
  (ItemFn [{| at_meta := (APath (Some "no_mangle")); at_outer := true |}] true {| sg_ident := "bar"; sg_abi := (Some (Some "C")); sg_inputs
  := [(FnTyped (PatIdent "b") (SPath (SegPath [] "List" (AngleArgs [(ArgType (SPath (SegPath [] "B" NoArgs)))]))))]; sg_variadic :=
  false; sg_output := None |})].
(** tests/expectations/monomorph_2.compat.c *)
Definition monomorph_2_compat : string := "#include <stdarg.h>
#include <stdbool.h>
#include <stdint.h>
#include <stdlib.h>

typedef struct A A;

typedef struct B B;

typedef struct {
  A *members;
  uintptr_t count;
} List_A;

typedef struct {
  B *members;
  uintptr_t count;
} List_B;

#ifdef __cplusplus
extern ""C"" {
#endif // __cplusplus

void foo(List_A a);

void bar(List_B b);

#ifdef __cplusplus
}  // extern ""C""
#endif  // __cplusplus
".
(** tests/expectations/monomorph_2_tag.compat.c *)
Definition monomorph_2_compat_tag : string := "#include <stdarg.h>
#include <stdbool.h>
#include <stdint.h>
#include <stdlib.h>

struct A;

struct B;

struct List_A {
  struct A *members;
  uintptr_t count;
};

struct List_B {
  struct B *members;
  uintptr_t count;
};

#ifdef __cplusplus
extern ""C"" {
#endif // __cplusplus

void foo(struct List_A a);

void bar(struct List_B b);

#ifdef __cplusplus
}  // extern ""C""
#endif  // __cplusplus
".
(** tests/expectations/monomorph_2_both.compat.c *)
Definition monomorph_2_compat_both : string := "#include <stdarg.h>
#include <stdbool.h>
#include <stdint.h>
#include <stdlib.h>

typedef struct A A;

typedef struct B B;

typedef struct List_A {
  struct A *members;
  uintptr_t count;
} List_A;

typedef struct List_B {
  struct B *members;
  uintptr_t count;
} List_B;

#ifdef __cplusplus
extern ""C"" {
#endif // __cplusplus

void foo(struct List_A a);

void bar(struct List_B b);

#ifdef __cplusplus
}  // extern ""C""
#endif  // __cplusplus
".
(** tests/expectations/monomorph_2.c *)
Definition monomorph_2_c : string := "#include <stdarg.h>
#include <stdbool.h>
#include <stdint.h>
#include <stdlib.h>

typedef struct A A;

typedef struct B B;

typedef struct {
  A *members;
  uintptr_t count;
} List_A;

typedef struct {
  B *members;
  uintptr_t count;
} List_B;

void foo(List_A a);

void bar(List_B b);
".
(** tests/expectations/monomorph_2_tag.c *)
Definition monomorph_2_c_tag : string := "#include <stdarg.h>
#include <stdbool.h>
#include <stdint.h>
#include <stdlib.h>

struct A;

struct B;

struct List_A {
  struct A *members;
  uintptr_t count;
};

struct List_B {
  struct B *members;
  uintptr_t count;
};

void foo(struct List_A a);

void bar(struct List_B b);
".
(** tests/expectations/monomorph_2_both.c *)
Definition monomorph_2_c_both : string := "#include <stdarg.h>
#include <stdbool.h>
#include <stdint.h>
#include <stdlib.h>

typedef struct A A;

typedef struct B B;

typedef struct List_A {
  struct A *members;
  uintptr_t count;
} List_A;

typedef struct List_B {
  struct B *members;
  uintptr_t count;
} List_B;

void foo(struct List_A a);

void bar(struct List_B b);
".
(** tests/expectations/monomorph_2.cpp *)
Definition monomorph_2_cpp : string := "#include <cstdarg>
#include <cstdint>
#include <cstdlib>
#include <ostream>
#include <new>

struct A;

struct B;

template<typename T>
struct List {
  T *members;
  uintptr_t count;
};

extern ""C"" {

void foo(List<A> a);

void bar(List<B> b);

}  // extern ""C""
".
(** tests/expectations/monomorph_2.pyx *)
Definition monomorph_2_pyx : string := "from libc.stdint cimport int8_t, int16_t, int32_t, int64_t, intptr_t
from libc.stdint cimport uint8_t, uint16_t, uint32_t, uint64_t, uintptr_t
cdef extern from *:
  ctypedef bint bool
  ctypedef struct va_list

cdef extern from *:

  ctypedef struct A:
    pass

  ctypedef struct B:
    pass

  ctypedef struct List_A:
    A *members;
    uintptr_t count;

  ctypedef struct List_B:
    B *members;
    uintptr_t count;

  void foo(List_A a);

  void bar(List_B b);
".
(** tests/expectations/monomorph_2_tag.pyx *)
Definition monomorph_2_pyx_tag : string := "from libc.stdint cimport int8_t, int16_t, int32_t, int64_t, intptr_t
from libc.stdint cimport uint8_t, uint16_t, uint32_t, uint64_t, uintptr_t
cdef extern from *:
  ctypedef bint bool
  ctypedef struct va_list

cdef extern from *:

  cdef struct A:
    pass

  cdef struct B:
    pass

  cdef struct List_A:
    A *members;
    uintptr_t count;

  cdef struct List_B:
    B *members;
    uintptr_t count;

  void foo(List_A a);

  void bar(List_B b);
".
Example monomorph_2_reproduced : reproduces (in_file monomorph_2_rs) false default_config (Some "{
foo;
bar;
};")
  [(RunC true Type_, [monomorph_2_compat]);
   (RunC true Tag, [monomorph_2_compat_tag]);
   (RunC true Both, [monomorph_2_compat_both]);
   (RunC false Type_, [monomorph_2_c]);
   (RunC false Tag, [monomorph_2_c_tag]);
   (RunC false Both, [monomorph_2_c_both]);
   (RunCxx, [monomorph_2_cpp]);
   (RunCython Type_, [monomorph_2_pyx]);
   (RunCython Tag, [monomorph_2_pyx_tag])] = true.
Proof. vm_compute. reflexivity. Qed.

(** ** tests/rust/monomorph_3.rs *)
Definition monomorph_3_rs : list sitem := [
  (ItemUnion [{| at_meta := (AList (Some "repr") [(APath (Some "C"))]); at_outer := true |}] "Foo" [(SGType "T" None)] [{| sf_attrs
  := []; sf_ident := (Some "data"); sf_ty := (SPtr false (SPath (SegPath [] "T" NoArgs))) |}]);
  (ItemUnion [] "Bar" [(SGType "T" None)] [{| sf_attrs := []; sf_ident := (Some "data"); sf_ty := (SPtr false (SPath (SegPath [] "T"
  NoArgs))) |}]);
  (ItemUnion [{| at_meta := (AList (Some "repr") [(APath (Some "C"))]); at_outer := true |}] "Tuple" [(SGType "T" None); (SGType "E"
  None)] [{| sf_attrs := []; sf_ident := (Some "a"); sf_ty := (SPtr false (SPath (SegPath [] "T" NoArgs))) |}; {| sf_attrs := [];
  sf_ident := (Some "b"); sf_ty := (SPtr false (SPath (SegPath [] "E" NoArgs))) |}]);
  (ItemType [] "Indirection" [(SGType "T" None)] (SPath (SegPath [] "Tuple" (AngleArgs [(ArgType (SPath (SegPath [] "T" NoArgs))); (ArgType
  (SPath (SegPath [] "f32" NoArgs)))]))));
  (ItemFn [{| at_meta := (APath (Some "no_mangle")); at_outer := true |}] true {| sg_ident := "root"; sg_abi := (Some (Some "C")); sg_inputs
  := [(FnTyped (PatIdent "a") (SPath (SegPath [] "Foo" (AngleArgs [(ArgType (SPath (SegPath [] "i32" NoArgs)))])))); (FnTyped (PatIdent
  "b") (SPath (SegPath [] "Foo" (AngleArgs [(ArgType (SPath (SegPath [] "f32" NoArgs)))])))); (FnTyped (PatIdent "c") (SPath (SegPath
  [] "Bar" (AngleArgs [(ArgType (SPath (SegPath [] "f32" NoArgs)))])))); (FnTyped (PatIdent "d") (SPath (SegPath [] "Foo" (AngleArgs
  [(ArgType (SPath (SegPath [] "Bar" (AngleArgs [(ArgType (SPath (SegPath [] "f32" NoArgs)))]))))])))); (FnTyped (PatIdent "e") (SPath
  (SegPath [] "Bar" (AngleArgs [(ArgType (SPath (SegPath [] "Foo" (AngleArgs [(ArgType (SPath (SegPath [] "f32" NoArgs)))]))))]))));
  (FnTyped (PatIdent "f") (SPath (SegPath [] "Bar" (AngleArgs [(ArgType (SPath (SegPath [] "Bar" (AngleArgs [(ArgType (SPath (SegPath
  [] "f32" NoArgs)))]))))])))); (FnTyped (PatIdent "g") (SPath (SegPath [] "Tuple" (AngleArgs [(ArgType (SPath (SegPath [] "Foo" (AngleArgs
  [(ArgType (SPath (SegPath [] "f32" NoArgs)))])))); (ArgType (SPath (SegPath [] "f32" NoArgs)))])))); (FnTyped (PatIdent "h") (SPath
  (SegPath [] "Indirection" (AngleArgs [(ArgType (SPath (SegPath [] "f32" NoArgs)))]))))]; sg_variadic := false; sg_output := None
  |})].
(** tests/expectations/monomorph_3.compat.c *)
Definition monomorph_3_compat : string := "#include <stdarg.h>
#include <stdbool.h>
#include <stdint.h>
#include <stdlib.h>

typedef struct Bar_Bar_f32 Bar_Bar_f32;

typedef struct Bar_Foo_f32 Bar_Foo_f32;

typedef struct Bar_f32 Bar_f32;

typedef union {
  const int32_t *data;
} Foo_i32;

typedef union {
  const float *data;
} Foo_f32;

typedef union {
  const Bar_f32 *data;
} Foo_Bar_f32;

typedef union {
  const Foo_f32 *a;
  const float *b;
} Tuple_Foo_f32_____f32;

typedef union {
  const float *a;
  const float *b;
} Tuple_f32__f32;

typedef Tuple_f32__f32 Indirection_f32;

#ifdef __cplusplus
extern ""C"" {
#endif // __cplusplus

void root(Foo_i32 a,
          Foo_f32 b,
          Bar_f32 c,
          Foo_Bar_f32 d,
          Bar_Foo_f32 e,
          Bar_Bar_f32 f,
          Tuple_Foo_f32_____f32 g,
          Indirection_f32 h);

#ifdef __cplusplus
}  // extern ""C""
#endif  // __cplusplus
".
(** tests/expectations/monomorph_3_tag.compat.c *)
Definition monomorph_3_compat_tag : string := "#include <stdarg.h>
#include <stdbool.h>
#include <stdint.h>
#include <stdlib.h>

struct Bar_Bar_f32;

struct Bar_Foo_f32;

struct Bar_f32;

union Foo_i32 {
  const int32_t *data;
};

union Foo_f32 {
  const float *data;
};

union Foo_Bar_f32 {
  const struct Bar_f32 *data;
};

union Tuple_Foo_f32_____f32 {
  const union Foo_f32 *a;
  const float *b;
};

union Tuple_f32__f32 {
  const float *a;
  const float *b;
};

typedef union Tuple_f32__f32 Indirection_f32;

#ifdef __cplusplus
extern ""C"" {
#endif // __cplusplus

void root(union Foo_i32 a,
          union Foo_f32 b,
          struct Bar_f32 c,
          union Foo_Bar_f32 d,
          struct Bar_Foo_f32 e,
          struct Bar_Bar_f32 f,
          union Tuple_Foo_f32_____f32 g,
          Indirection_f32 h);

#ifdef __cplusplus
}  // extern ""C""
#endif  // __cplusplus
".
(** tests/expectations/monomorph_3_both.compat.c *)
Definition monomorph_3_compat_both : string := "#include <stdarg.h>
#include <stdbool.h>
#include <stdint.h>
#include <stdlib.h>

typedef struct Bar_Bar_f32 Bar_Bar_f32;

typedef struct Bar_Foo_f32 Bar_Foo_f32;

typedef struct Bar_f32 Bar_f32;

typedef union Foo_i32 {
  const int32_t *data;
} Foo_i32;

typedef union Foo_f32 {
  const float *data;
} Foo_f32;

typedef union Foo_Bar_f32 {
  const struct Bar_f32 *data;
} Foo_Bar_f32;

typedef union Tuple_Foo_f32_____f32 {
  const union Foo_f32 *a;
  const float *b;
} Tuple_Foo_f32_____f32;

typedef union Tuple_f32__f32 {
  const float *a;
  const float *b;
} Tuple_f32__f32;

typedef union Tuple_f32__f32 Indirection_f32;

#ifdef __cplusplus
extern ""C"" {
#endif // __cplusplus

void root(union Foo_i32 a,
          union Foo_f32 b,
          struct Bar_f32 c,
          union Foo_Bar_f32 d,
          struct Bar_Foo_f32 e,
          struct Bar_Bar_f32 f,
          union Tuple_Foo_f32_____f32 g,
          Indirection_f32 h);

#ifdef __cplusplus
}  // extern ""C""
#endif  // __cplusplus
".
(** tests/expectations/monomorph_3.c *)
Definition monomorph_3_c : string := "#include <stdarg.h>
#include <stdbool.h>
#include <stdint.h>
#include <stdlib.h>

typedef struct Bar_Bar_f32 Bar_Bar_f32;

typedef struct Bar_Foo_f32 Bar_Foo_f32;

typedef struct Bar_f32 Bar_f32;

typedef union {
  const int32_t *data;
} Foo_i32;

typedef union {
  const float *data;
} Foo_f32;

typedef union {
  const Bar_f32 *data;
} Foo_Bar_f32;

typedef union {
  const Foo_f32 *a;
  const float *b;
} Tuple_Foo_f32_____f32;

typedef union {
  const float *a;
  const float *b;
} Tuple_f32__f32;

typedef Tuple_f32__f32 Indirection_f32;

void root(Foo_i32 a,
          Foo_f32 b,
          Bar_f32 c,
          Foo_Bar_f32 d,
          Bar_Foo_f32 e,
          Bar_Bar_f32 f,
          Tuple_Foo_f32_____f32 g,
          Indirection_f32 h);
".
(** tests/expectations/monomorph_3_tag.c *)
Definition monomorph_3_c_tag : string := "#include <stdarg.h>
#include <stdbool.h>
#include <stdint.h>
#include <stdlib.h>

struct Bar_Bar_f32;

struct Bar_Foo_f32;

struct Bar_f32;

union Foo_i32 {
  const int32_t *data;
};

union Foo_f32 {
  const float *data;
};

union Foo_Bar_f32 {
  const struct Bar_f32 *data;
};

union Tuple_Foo_f32_____f32 {
  const union Foo_f32 *a;
  const float *b;
};

union Tuple_f32__f32 {
  const float *a;
  const float *b;
};

typedef union Tuple_f32__f32 Indirection_f32;

void root(union Foo_i32 a,
          union Foo_f32 b,
          struct Bar_f32 c,
          union Foo_Bar_f32 d,
          struct Bar_Foo_f32 e,
          struct Bar_Bar_f32 f,
          union Tuple_Foo_f32_____f32 g,
          Indirection_f32 h);
".
(** tests/expectations/monomorph_3_both.c *)
Definition monomorph_3_c_both : string := "#include <stdarg.h>
#include <stdbool.h>
#include <stdint.h>
#include <stdlib.h>

typedef struct Bar_Bar_f32 Bar_Bar_f32;

typedef struct Bar_Foo_f32 Bar_Foo_f32;

typedef struct Bar_f32 Bar_f32;

typedef union Foo_i32 {
  const int32_t *data;
} Foo_i32;

typedef union Foo_f32 {
  const float *data;
} Foo_f32;

typedef union Foo_Bar_f32 {
  const struct Bar_f32 *data;
} Foo_Bar_f32;

typedef union Tuple_Foo_f32_____f32 {
  const union Foo_f32 *a;
  const float *b;
} Tuple_Foo_f32_____f32;

typedef union Tuple_f32__f32 {
  const float *a;
  const float *b;
} Tuple_f32__f32;

typedef union Tuple_f32__f32 Indirection_f32;

void root(union Foo_i32 a,
          union Foo_f32 b,
          struct Bar_f32 c,
          union Foo_Bar_f32 d,
          struct Bar_Foo_f32 e,
          struct Bar_Bar_f32 f,
          union Tuple_Foo_f32_____f32 g,
          Indirection_f32 h);
".
(** tests/expectations/monomorph_3.cpp *)
Definition monomorph_3_cpp : string := "#include <cstdarg>
#include <cstdint>
#include <cstdlib>
#include <ostream>
#include <new>

template<typename T = void>
struct Bar;

template<typename T>
union Foo {
  const T *data;
};

template<typename T, typename E>
union Tuple {
  const T *a;
  const E *b;
};

template<typename T>
using Indirection = Tuple<T, float>;

extern ""C"" {

void root(Foo<int32_t> a,
          Foo<float> b,
          Bar<float> c,
          Foo<Bar<float>> d,
          Bar<Foo<float>> e,
          Bar<Bar<float>> f,
          Tuple<Foo<float>, float> g,
          Indirection<float> h);

}  // extern ""C""
".
(** tests/expectations/monomorph_3.pyx *)
Definition monomorph_3_pyx : string := "from libc.stdint cimport int8_t, int16_t, int32_t, int64_t, intptr_t
from libc.stdint cimport uint8_t, uint16_t, uint32_t, uint64_t, uintptr_t
cdef extern from *:
  ctypedef bint bool
  ctypedef struct va_list

cdef extern from *:

  ctypedef struct Bar_Bar_f32:
    pass

  ctypedef struct Bar_Foo_f32:
    pass

  ctypedef struct Bar_f32:
    pass

  ctypedef union Foo_i32:
    const int32_t *data;

  ctypedef union Foo_f32:
    const float *data;

  ctypedef union Foo_Bar_f32:
    const Bar_f32 *data;

  ctypedef union Tuple_Foo_f32_____f32:
    const Foo_f32 *a;
    const float *b;

  ctypedef union Tuple_f32__f32:
    const float *a;
    const float *b;

  ctypedef Tuple_f32__f32 Indirection_f32;

  void root(Foo_i32 a,
            Foo_f32 b,
            Bar_f32 c,
            Foo_Bar_f32 d,
            Bar_Foo_f32 e,
            Bar_Bar_f32 f,
            Tuple_Foo_f32_____f32 g,
            Indirection_f32 h);
".
(** tests/expectations/monomorph_3_tag.pyx *)
Definition monomorph_3_pyx_tag : string := "from libc.stdint cimport int8_t, int16_t, int32_t, int64_t, intptr_t
from libc.stdint cimport uint8_t, uint16_t, uint32_t, uint64_t, uintptr_t
cdef extern from *:
  ctypedef bint bool
  ctypedef struct va_list

cdef extern from *:

  cdef struct Bar_Bar_f32:
    pass

  cdef struct Bar_Foo_f32:
    pass

  cdef struct Bar_f32:
    pass

  cdef union Foo_i32:
    const int32_t *data;

  cdef union Foo_f32:
    const float *data;

  cdef union Foo_Bar_f32:
    const Bar_f32 *data;

  cdef union Tuple_Foo_f32_____f32:
    const Foo_f32 *a;
    const float *b;

  cdef union Tuple_f32__f32:
    const float *a;
    const float *b;

  ctypedef Tuple_f32__f32 Indirection_f32;

  void root(Foo_i32 a,
            Foo_f32 b,
            Bar_f32 c,
            Foo_Bar_f32 d,
            Bar_Foo_f32 e,
            Bar_Bar_f32 f,
            Tuple_Foo_f32_____f32 g,
            Indirection_f32 h);
".
Example monomorph_3_reproduced : reproduces (in_file monomorph_3_rs) false default_config (Some "{
root;
};")
  [(RunC true Type_, [monomorph_3_compat]);
   (RunC true Tag, [monomorph_3_compat_tag]);
   (RunC true Both, [monomorph_3_compat_both]);
   (RunC false Type_, [monomorph_3_c]);
   (RunC false Tag, [monomorph_3_c_tag]);
   (RunC false Both, [monomorph_3_c_both]);
   (RunCxx, [monomorph_3_cpp]);
   (RunCython Type_, [monomorph_3_pyx]);
   (RunCython Tag, [monomorph_3_pyx_tag])] = true.
Proof. vm_compute. reflexivity. Qed.

(** ** tests/rust/must_use.rs *)
Definition must_use_rs : list sitem := [
  (ItemStruct [{| at_meta := (AList (Some "repr") [(APath (Some "C"))]); at_outer := true |}; {| at_meta := (APath (Some "must_use"));
  at_outer := true |}] "OwnedPtr" [(SGType "T" None)] (FieldsNamed [{| sf_attrs := []; sf_ident := (Some "ptr"); sf_ty := (SPtr true
  (SPath (SegPath [] "T" NoArgs))) |}]));
  (ItemEnum [{| at_meta := (AList (Some "repr") [(APath (Some "C")); (APath (Some "u8"))]); at_outer := true |}; {| at_meta := (APath
  (Some "must_use")); at_outer := true |}] "MaybeOwnedPtr" [(SGType "T" None)] [{| sv_attrs := []; sv_ident := "Owned"; sv_fields
  := (FieldsUnnamed [{| sf_attrs := []; sf_ident := None; sf_ty := (SPtr true (SPath (SegPath [] "T" NoArgs))) |}]); sv_discriminant
  := None |}; {| sv_attrs := []; sv_ident := "None"; sv_fields := FieldsUnit; sv_discriminant := None |}]);
  (ItemFn [{| at_meta := (APath (Some "no_mangle")); at_outer := true |}; {| at_meta := (APath (Some "must_use")); at_outer := true
  |}] true {| sg_ident := "maybe_consume"; sg_abi := (Some (Some "C")); sg_inputs := [(FnTyped (PatIdent "input") (SPath (SegPath
  [] "OwnedPtr" (AngleArgs [(ArgType (SPath (SegPath [] "i32" NoArgs)))]))))]; sg_variadic := false; sg_output := (Some (SPath (SegPath
  [] "MaybeOwnedPtr" (AngleArgs [(ArgType (SPath (SegPath [] "i32" NoArgs)))])))) |})].
Definition must_use_toml : Config := {| header := (Some "#define MUST_USE_FUNC __attribute__((warn_unused_result))
#define MUST_USE_STRUCT __attribute__((warn_unused))
#define MUST_USE_ENUM /* nothing */
"); includes_ := []; sys_includes_ := []; after_includes := None; trailer := None;
  include_guard_ := None; pragma_once := false; no_includes := false; package_version := false; autogen_warning := None; include_version := false;
  namespace := None; namespaces := None; using_namespaces := None; braces := SameLine; line_length := 100; tab_width := 2; line_endings := LF;
  language := Cxx; cpp_compat := false; style := Both; sort_by := SortNone; usize_is_size_t := false; parse := default_parse; export := {| ex_include := []; ex_exclude := []; ex_rename := []; ex_pre_body := []; ex_body := []; ex_prefix := None; ex_item_types := []; ex_renaming_overrides_prefixing := false; ex_mangle := {| rename_types := RNone; remove_underscores := false |} |};
  layout := {| ly_packed := None; ly_aligned_n := None |}; function := {| fn_prefix := None; fn_postfix := None; fn_must_use := (Some "MUST_USE_FUNC"); fn_deprecated := None; fn_deprecated_with_note := None; fn_args := Auto; fn_rename_args := RNone; fn_swift_name_macro := None; fn_sort_by := None; fn_no_return := None |}; structure := {| st_rename_fields := RNone; st_derive_constructor := false; st_derive_eq := false; st_derive_neq := false; st_derive_lt := false; st_derive_lte := false; st_derive_gt := false; st_derive_gte := false; st_derive_ostream := false; st_associated_constants_in_body := false; st_rename_associated_constant := RNone; st_must_use := (Some "MUST_USE_STRUCT"); st_deprecated := None; st_deprecated_with_note := None |}; enumeration := {| en_rename_variants := RNone; en_rename_variant_name_fields := SnakeCase; en_add_sentinel := false; en_prefix_with_name := false; en_derive_helper_methods := false; en_derive_const_casts := false; en_derive_mut_casts := false; en_cast_assert_name := None; en_must_use := (Some "MUST_USE_ENUM"); en_deprecated := None; en_deprecated_with_note := None; en_deprecated_variant := None; en_deprecated_variant_with_note := None; en_derive_tagged_enum_destructor := false; en_derive_tagged_enum_copy_constructor := false; en_derive_tagged_enum_copy_assignment := false; en_derive_ostream := false; en_enum_class := true; en_private_default_tagged_enum_constructor := false |}; constant := {| co_allow_static_const := true; co_allow_constexpr := true; co_sort_by := None |}; defines := []; documentation := true;
  documentation_style := DocAuto; documentation_length := Full; pointer := {| pt_non_null_attribute := None; pt_nullable_attribute := None |}; cython := {| cy_header := None; cy_cimports := [] |}; config_path := None |}.
(** tests/expectations/must_use.compat.c *)
Definition must_use_compat : string := "#define MUST_USE_FUNC __attribute__((warn_unused_result))
#define MUST_USE_STRUCT __attribute__((warn_unused))
#define MUST_USE_ENUM /* nothing */


#include <stdarg.h>
#include <stdbool.h>
#include <stdint.h>
#include <stdlib.h>

enum MaybeOwnedPtr_i32_Tag
#if defined(__cplusplus) || __STDC_VERSION__ >= 202311L
  : uint8_t
#endif // defined(__cplusplus) || __STDC_VERSION__ >= 202311L
 {
  Owned_i32,
  None_i32,
};
#ifndef __cplusplus
#if __STDC_VERSION__ >= 202311L
typedef enum MaybeOwnedPtr_i32_Tag MaybeOwnedPtr_i32_Tag;
#else
typedef uint8_t MaybeOwnedPtr_i32_Tag;
#endif // __STDC_VERSION__ >= 202311L
#endif // __cplusplus

typedef struct MUST_USE_STRUCT {
  MaybeOwnedPtr_i32_Tag tag;
  union {
    struct {
      int32_t *owned;
    };
  };
} MaybeOwnedPtr_i32;

typedef struct MUST_USE_STRUCT {
  int32_t *ptr;
} OwnedPtr_i32;

#ifdef __cplusplus
extern ""C"" {
#endif // __cplusplus

MUST_USE_FUNC MaybeOwnedPtr_i32 maybe_consume(OwnedPtr_i32 input);

#ifdef __cplusplus
}  // extern ""C""
#endif  // __cplusplus
".
(** tests/expectations/must_use_tag.compat.c *)
Definition must_use_compat_tag : string := "#define MUST_USE_FUNC __attribute__((warn_unused_result))
#define MUST_USE_STRUCT __attribute__((warn_unused))
#define MUST_USE_ENUM /* nothing */


#include <stdarg.h>
#include <stdbool.h>
#include <stdint.h>
#include <stdlib.h>

enum MaybeOwnedPtr_i32_Tag
#if defined(__cplusplus) || __STDC_VERSION__ >= 202311L
  : uint8_t
#endif // defined(__cplusplus) || __STDC_VERSION__ >= 202311L
 {
  Owned_i32,
  None_i32,
};
#ifndef __cplusplus
#if __STDC_VERSION__ >= 202311L
typedef enum MaybeOwnedPtr_i32_Tag MaybeOwnedPtr_i32_Tag;
#else
typedef uint8_t MaybeOwnedPtr_i32_Tag;
#endif // __STDC_VERSION__ >= 202311L
#endif // __cplusplus

struct MUST_USE_STRUCT MaybeOwnedPtr_i32 {
  MaybeOwnedPtr_i32_Tag tag;
  union {
    struct {
      int32_t *owned;
    };
  };
};

struct MUST_USE_STRUCT OwnedPtr_i32 {
  int32_t *ptr;
};

#ifdef __cplusplus
extern ""C"" {
#endif // __cplusplus

MUST_USE_FUNC struct MaybeOwnedPtr_i32 maybe_consume(struct OwnedPtr_i32 input);

#ifdef __cplusplus
}  // extern ""C""
#endif  // __cplusplus
".
(** tests/expectations/must_use_both.compat.c *)
Definition must_use_compat_both : string := "#define MUST_USE_FUNC __attribute__((warn_unused_result))
#define MUST_USE_STRUCT __attribute__((warn_unused))
#define MUST_USE_ENUM /* nothing */


#include <stdarg.h>
#include <stdbool.h>
#include <stdint.h>
#include <stdlib.h>

enum MaybeOwnedPtr_i32_Tag
#if defined(__cplusplus) || __STDC_VERSION__ >= 202311L
  : uint8_t
#endif // defined(__cplusplus) || __STDC_VERSION__ >= 202311L
 {
  Owned_i32,
  None_i32,
};
#ifndef __cplusplus
#if __STDC_VERSION__ >= 202311L
typedef enum MaybeOwnedPtr_i32_Tag MaybeOwnedPtr_i32_Tag;
#else
typedef uint8_t MaybeOwnedPtr_i32_Tag;
#endif // __STDC_VERSION__ >= 202311L
#endif // __cplusplus

typedef struct MUST_USE_STRUCT MaybeOwnedPtr_i32 {
  MaybeOwnedPtr_i32_Tag tag;
  union {
    struct {
      int32_t *owned;
    };
  };
} MaybeOwnedPtr_i32;

typedef struct MUST_USE_STRUCT OwnedPtr_i32 {
  int32_t *ptr;
} OwnedPtr_i32;

#ifdef __cplusplus
extern ""C"" {
#endif // __cplusplus

MUST_USE_FUNC struct MaybeOwnedPtr_i32 maybe_consume(struct OwnedPtr_i32 input);

#ifdef __cplusplus
}  // extern ""C""
#endif  // __cplusplus
".
(** tests/expectations/must_use.c *)
Definition must_use_c : string := "#define MUST_USE_FUNC __attribute__((warn_unused_result))
#define MUST_USE_STRUCT __attribute__((warn_unused))
#define MUST_USE_ENUM /* nothing */


#include <stdarg.h>
#include <stdbool.h>
#include <stdint.h>
#include <stdlib.h>

enum MaybeOwnedPtr_i32_Tag
#if __STDC_VERSION__ >= 202311L
  : uint8_t
#endif // __STDC_VERSION__ >= 202311L
 {
  Owned_i32,
  None_i32,
};
#if __STDC_VERSION__ >= 202311L
typedef enum MaybeOwnedPtr_i32_Tag MaybeOwnedPtr_i32_Tag;
#else
typedef uint8_t MaybeOwnedPtr_i32_Tag;
#endif // __STDC_VERSION__ >= 202311L

typedef struct MUST_USE_STRUCT {
  MaybeOwnedPtr_i32_Tag tag;
  union {
    struct {
      int32_t *owned;
    };
  };
} MaybeOwnedPtr_i32;

typedef struct MUST_USE_STRUCT {
  int32_t *ptr;
} OwnedPtr_i32;

MUST_USE_FUNC MaybeOwnedPtr_i32 maybe_consume(OwnedPtr_i32 input);
".
(** tests/expectations/must_use_tag.c *)
Definition must_use_c_tag : string := "#define MUST_USE_FUNC __attribute__((warn_unused_result))
#define MUST_USE_STRUCT __attribute__((warn_unused))
#define MUST_USE_ENUM /* nothing */


#include <stdarg.h>
#include <stdbool.h>
#include <stdint.h>
#include <stdlib.h>

enum MaybeOwnedPtr_i32_Tag
#if __STDC_VERSION__ >= 202311L
  : uint8_t
#endif // __STDC_VERSION__ >= 202311L
 {
  Owned_i32,
  None_i32,
};
#if __STDC_VERSION__ >= 202311L
typedef enum MaybeOwnedPtr_i32_Tag MaybeOwnedPtr_i32_Tag;
#else
typedef uint8_t MaybeOwnedPtr_i32_Tag;
#endif // __STDC_VERSION__ >= 202311L

struct MUST_USE_STRUCT MaybeOwnedPtr_i32 {
  MaybeOwnedPtr_i32_Tag tag;
  union {
    struct {
      int32_t *owned;
    };
  };
};

struct MUST_USE_STRUCT OwnedPtr_i32 {
  int32_t *ptr;
};

MUST_USE_FUNC struct MaybeOwnedPtr_i32 maybe_consume(struct OwnedPtr_i32 input);
".
(** tests/expectations/must_use_both.c *)
Definition must_use_c_both : string := "#define MUST_USE_FUNC __attribute__((warn_unused_result))
#define MUST_USE_STRUCT __attribute__((warn_unused))
#define MUST_USE_ENUM /* nothing */


#include <stdarg.h>
#include <stdbool.h>
#include <stdint.h>
#include <stdlib.h>

enum MaybeOwnedPtr_i32_Tag
#if __STDC_VERSION__ >= 202311L
  : uint8_t
#endif // __STDC_VERSION__ >= 202311L
 {
  Owned_i32,
  None_i32,
};
#if __STDC_VERSION__ >= 202311L
typedef enum MaybeOwnedPtr_i32_Tag MaybeOwnedPtr_i32_Tag;
#else
typedef uint8_t MaybeOwnedPtr_i32_Tag;
#endif // __STDC_VERSION__ >= 202311L

typedef struct MUST_USE_STRUCT MaybeOwnedPtr_i32 {
  MaybeOwnedPtr_i32_Tag tag;
  union {
    struct {
      int32_t *owned;
    };
  };
} MaybeOwnedPtr_i32;

typedef struct MUST_USE_STRUCT OwnedPtr_i32 {
  int32_t *ptr;
} OwnedPtr_i32;

MUST_USE_FUNC struct MaybeOwnedPtr_i32 maybe_consume(struct OwnedPtr_i32 input);
".
(** tests/expectations/must_use.cpp *)
Definition must_use_cpp : string := "#define MUST_USE_FUNC __attribute__((warn_unused_result))
#define MUST_USE_STRUCT __attribute__((warn_unused))
#define MUST_USE_ENUM /* nothing */


#include <cstdarg>
#include <cstdint>
#include <cstdlib>
#include <ostream>
#include <new>

template<typename T>
struct MUST_USE_STRUCT MaybeOwnedPtr {
  enum class MUST_USE_ENUM Tag : uint8_t {
    Owned,
    None,
  };

  struct Owned_Body {
    T *_0;
  };

  Tag tag;
  union {
    Owned_Body owned;
  };
};

template<typename T>
struct MUST_USE_STRUCT OwnedPtr {
  T *ptr;
};

extern ""C"" {

MUST_USE_FUNC MaybeOwnedPtr<int32_t> maybe_consume(OwnedPtr<int32_t> input);

}  // extern ""C""
".
(** tests/expectations/must_use.pyx *)
Definition must_use_pyx : string := "#define MUST_USE_FUNC __attribute__((warn_unused_result))
#define MUST_USE_STRUCT __attribute__((warn_unused))
#define MUST_USE_ENUM /* nothing */


from libc.stdint cimport int8_t, int16_t, int32_t, int64_t, intptr_t
from libc.stdint cimport uint8_t, uint16_t, uint32_t, uint64_t, uintptr_t
cdef extern from *:
  ctypedef bint bool
  ctypedef struct va_list

cdef extern from *:

  cdef enum:
    Owned_i32,
    None_i32,
  ctypedef uint8_t MaybeOwnedPtr_i32_Tag;

  ctypedef struct MaybeOwnedPtr_i32:
    MaybeOwnedPtr_i32_Tag tag;
    int32_t *owned;

  ctypedef struct OwnedPtr_i32:
    int32_t *ptr;

  MaybeOwnedPtr_i32 maybe_consume(OwnedPtr_i32 input);
".
(** tests/expectations/must_use_tag.pyx *)
Definition must_use_pyx_tag : string := "#define MUST_USE_FUNC __attribute__((warn_unused_result))
#define MUST_USE_STRUCT __attribute__((warn_unused))
#define MUST_USE_ENUM /* nothing */


from libc.stdint cimport int8_t, int16_t, int32_t, int64_t, intptr_t
from libc.stdint cimport uint8_t, uint16_t, uint32_t, uint64_t, uintptr_t
cdef extern from *:
  ctypedef bint bool
  ctypedef struct va_list

cdef extern from *:

  cdef enum:
    Owned_i32,
    None_i32,
  ctypedef uint8_t MaybeOwnedPtr_i32_Tag;

  cdef struct MaybeOwnedPtr_i32:
    MaybeOwnedPtr_i32_Tag tag;
    int32_t *owned;

  cdef struct OwnedPtr_i32:
    int32_t *ptr;

  MaybeOwnedPtr_i32 maybe_consume(OwnedPtr_i32 input);
".
Example must_use_reproduced : reproduces (in_file must_use_rs) false must_use_toml (Some "{
maybe_consume;
};")
  [(RunC true Type_, [must_use_compat]);
   (RunC true Tag, [must_use_compat_tag]);
   (RunC true Both, [must_use_compat_both]);
   (RunC false Type_, [must_use_c]);
   (RunC false Tag, [must_use_c_tag]);
   (RunC false Both, [must_use_c_both]);
   (RunCxx, [must_use_cpp]);
   (RunCython Type_, [must_use_pyx]);
   (RunCython Tag, [must_use_pyx_tag])] = true.
Proof. vm_compute. reflexivity. Qed.

(** ** tests/rust/namespace_constant.rs *)
Definition namespace_constant_rs : list sitem := [
  (ItemConst [] true "FOO" (SPath (SegPath [] "i32" NoArgs)) (XLit (LitInt 10 "")));
  (ItemConst [] true "BAR" (SRef false (SPath (SegPath [] "str" NoArgs))) (XLit LitOther));
  (ItemConst [] true "ZOM" (SPath (SegPath [] "f32" NoArgs)) (XLit (LitFloat "3.14")));
  (ItemStruct [{| at_meta := (AList (Some "repr") [(APath (Some "C"))]); at_outer := true |}] "Foo" [] (FieldsNamed [{| sf_attrs :=
  []; sf_ident := (Some "x"); sf_ty := (SArray (SPath (SegPath [] "i32" NoArgs)) (XPath (SegPath [] "FOO" NoArgs))) |}]));
  (ItemFn [{| at_meta := (APath (Some "no_mangle")); at_outer := true |}] true {| sg_ident := "root"; sg_abi := (Some (Some "C")); sg_inputs
  := [(FnTyped (PatIdent "x") (SPath (SegPath [] "Foo" NoArgs)))]; sg_variadic := false; sg_output := None |})].
Definition namespace_constant_toml : Config := {| header := None; includes_ := []; sys_includes_ := []; after_includes := None; trailer := None;
  include_guard_ := None; pragma_once := false; no_includes := false; package_version := false; autogen_warning := None; include_version := false;
  namespace := (Some "constants"); namespaces := None; using_namespaces := None; braces := SameLine; line_length := 100; tab_width := 2; line_endings := LF;
  language := Cxx; cpp_compat := false; style := Both; sort_by := SortNone; usize_is_size_t := false; parse := default_parse; export := {| ex_include := []; ex_exclude := []; ex_rename := []; ex_pre_body := []; ex_body := []; ex_prefix := None; ex_item_types := []; ex_renaming_overrides_prefixing := false; ex_mangle := {| rename_types := RNone; remove_underscores := false |} |};
  layout := {| ly_packed := None; ly_aligned_n := None |}; function := {| fn_prefix := None; fn_postfix := None; fn_must_use := None; fn_deprecated := None; fn_deprecated_with_note := None; fn_args := Auto; fn_rename_args := RNone; fn_swift_name_macro := None; fn_sort_by := None; fn_no_return := None |}; structure := {| st_rename_fields := RNone; st_derive_constructor := false; st_derive_eq := false; st_derive_neq := false; st_derive_lt := false; st_derive_lte := false; st_derive_gt := false; st_derive_gte := false; st_derive_ostream := false; st_associated_constants_in_body := false; st_rename_associated_constant := RNone; st_must_use := None; st_deprecated := None; st_deprecated_with_note := None |}; enumeration := {| en_rename_variants := RNone; en_rename_variant_name_fields := SnakeCase; en_add_sentinel := false; en_prefix_with_name := false; en_derive_helper_methods := false; en_derive_const_casts := false; en_derive_mut_casts := false; en_cast_assert_name := None; en_must_use := None; en_deprecated := None; en_deprecated_with_note := None; en_deprecated_variant := None; en_deprecated_variant_with_note := None; en_derive_tagged_enum_destructor := false; en_derive_tagged_enum_copy_constructor := false; en_derive_tagged_enum_copy_assignment := false; en_derive_ostream := false; en_enum_class := true; en_private_default_tagged_enum_constructor := false |}; constant := {| co_allow_static_const := true; co_allow_constexpr := true; co_sort_by := None |}; defines := []; documentation := true;
  documentation_style := DocAuto; documentation_length := Full; pointer := {| pt_non_null_attribute := None; pt_nullable_attribute := None |}; cython := {| cy_header := None; cy_cimports := [] |}; config_path := None |}.
(** tests/expectations/namespace_constant.compat.c *)
Definition namespace_constant_compat : string := "#include <stdarg.h>
#include <stdbool.h>
#include <stdint.h>
#include <stdlib.h>

#ifdef __cplusplus
namespace constants {
#endif  // __cplusplus

#define FOO 10

#define ZOM 3.14

typedef struct {
  int32_t x[FOO];
} Foo;

#ifdef __cplusplus
extern ""C"" {
#endif // __cplusplus

void root(Foo x);

#ifdef __cplusplus
}  // extern ""C""
#endif  // __cplusplus

#ifdef __cplusplus
}  // namespace constants
#endif  // __cplusplus
".
(** tests/expectations/namespace_constant_tag.compat.c *)
Definition namespace_constant_compat_tag : string := "#include <stdarg.h>
#include <stdbool.h>
#include <stdint.h>
#include <stdlib.h>

#ifdef __cplusplus
namespace constants {
#endif  // __cplusplus

#define FOO 10

#define ZOM 3.14

struct Foo {
  int32_t x[FOO];
};

#ifdef __cplusplus
extern ""C"" {
#endif // __cplusplus

void root(struct Foo x);

#ifdef __cplusplus
}  // extern ""C""
#endif  // __cplusplus

#ifdef __cplusplus
}  // namespace constants
#endif  // __cplusplus
".
(** tests/expectations/namespace_constant_both.compat.c *)
Definition namespace_constant_compat_both : string := "#include <stdarg.h>
#include <stdbool.h>
#include <stdint.h>
#include <stdlib.h>

#ifdef __cplusplus
namespace constants {
#endif  // __cplusplus

#define FOO 10

#define ZOM 3.14

typedef struct Foo {
  int32_t x[FOO];
} Foo;

#ifdef __cplusplus
extern ""C"" {
#endif // __cplusplus

void root(struct Foo x);

#ifdef __cplusplus
}  // extern ""C""
#endif  // __cplusplus

#ifdef __cplusplus
}  // namespace constants
#endif  // __cplusplus
".
(** tests/expectations/namespace_constant.c *)
Definition namespace_constant_c : string := "#include <stdarg.h>
#include <stdbool.h>
#include <stdint.h>
#include <stdlib.h>

#define FOO 10

#define ZOM 3.14

typedef struct {
  int32_t x[FOO];
} Foo;

void root(Foo x);
".
(** tests/expectations/namespace_constant_tag.c *)
Definition namespace_constant_c_tag : string := "#include <stdarg.h>
#include <stdbool.h>
#include <stdint.h>
#include <stdlib.h>

#define FOO 10

#define ZOM 3.14

struct Foo {
  int32_t x[FOO];
};

void root(struct Foo x);
".
(** tests/expectations/namespace_constant_both.c *)
Definition namespace_constant_c_both : string := "#include <stdarg.h>
#include <stdbool.h>
#include <stdint.h>
#include <stdlib.h>

#define FOO 10

#define ZOM 3.14

typedef struct Foo {
  int32_t x[FOO];
} Foo;

void root(struct Foo x);
".
(** tests/expectations/namespace_constant.cpp *)
Definition namespace_constant_cpp : string := "#include <cstdarg>
#include <cstdint>
#include <cstdlib>
#include <ostream>
#include <new>

namespace constants {

constexpr static const int32_t FOO = 10;

constexpr static const float ZOM = 3.14;

struct Foo {
  int32_t x[FOO];
};

extern ""C"" {

void root(Foo x);

}  // extern ""C""

}  // namespace constants
".
(** tests/expectations/namespace_constant.pyx *)
Definition namespace_constant_pyx : string := "from libc.stdint cimport int8_t, int16_t, int32_t, int64_t, intptr_t
from libc.stdint cimport uint8_t, uint16_t, uint32_t, uint64_t, uintptr_t
cdef extern from *:
  ctypedef bint bool
  ctypedef struct va_list

cdef extern from *:

  const int32_t FOO # = 10

  const float ZOM # = 3.14

  ctypedef struct Foo:
    int32_t x[FOO];

  void root(Foo x);
".
(** tests/expectations/namespace_constant_tag.pyx *)
Definition namespace_constant_pyx_tag : string := "from libc.stdint cimport int8_t, int16_t, int32_t, int64_t, intptr_t
from libc.stdint cimport uint8_t, uint16_t, uint32_t, uint64_t, uintptr_t
cdef extern from *:
  ctypedef bint bool
  ctypedef struct va_list

cdef extern from *:

  const int32_t FOO # = 10

  const float ZOM # = 3.14

  cdef struct Foo:
    int32_t x[FOO];

  void root(Foo x);
".
Example namespace_constant_reproduced : reproduces (in_file namespace_constant_rs) false namespace_constant_toml (Some "{
root;
};")
  [(RunC true Type_, [namespace_constant_compat]);
   (RunC true Tag, [namespace_constant_compat_tag]);
   (RunC true Both, [namespace_constant_compat_both]);
   (RunC false Type_, [namespace_constant_c]);
   (RunC false Tag, [namespace_constant_c_tag]);
   (RunC false Both, [namespace_constant_c_both]);
   (RunCxx, [namespace_constant_cpp]);
   (RunCython Type_, [namespace_constant_pyx]);
   (RunCython Tag, [namespace_constant_pyx_tag])] = true.
Proof. vm_compute. reflexivity. Qed.

(** ** tests/rust/namespaces_constant.rs *)
Definition namespaces_constant_rs : list sitem := [
  (ItemConst [] true "FOO" (SPath (SegPath [] "i32" NoArgs)) (XLit (LitInt 10 "")));
  (ItemConst [] true "BAR" (SRef false (SPath (SegPath [] "str" NoArgs))) (XLit LitOther));
  (ItemConst [] true "ZOM" (SPath (SegPath [] "f32" NoArgs)) (XLit (LitFloat "3.14")));
  (ItemStruct [{| at_meta := (AList (Some "repr") [(APath (Some "C"))]); at_outer := true |}] "Foo" [] (FieldsNamed [{| sf_attrs :=
  []; sf_ident := (Some "x"); sf_ty := (SArray (SPath (SegPath [] "i32" NoArgs)) (XPath (SegPath [] "FOO" NoArgs))) |}]));
  (ItemFn [{| at_meta := (APath (Some "no_mangle")); at_outer := true |}] true {| sg_ident := "root"; sg_abi := (Some (Some "C")); sg_inputs
  := [(FnTyped (PatIdent "x") (SPath (SegPath [] "Foo" NoArgs)))]; sg_variadic := false; sg_output := None |})].
Definition namespaces_constant_toml : Config := {| header := None; includes_ := []; sys_includes_ := []; after_includes := None; trailer := None;
  include_guard_ := None; pragma_once := false; no_includes := false; package_version := false; autogen_warning := None; include_version := false;
  namespace := None; namespaces := (Some ["constants"; "test"]); using_namespaces := None; braces := SameLine; line_length := 100; tab_width := 2; line_endings := LF;
  language := Cxx; cpp_compat := false; style := Both; sort_by := SortNone; usize_is_size_t := false; parse := default_parse; export := {| ex_include := []; ex_exclude := []; ex_rename := []; ex_pre_body := []; ex_body := []; ex_prefix := None; ex_item_types := []; ex_renaming_overrides_prefixing := false; ex_mangle := {| rename_types := RNone; remove_underscores := false |} |};
  layout := {| ly_packed := None; ly_aligned_n := None |}; function := {| fn_prefix := None; fn_postfix := None; fn_must_use := None; fn_deprecated := None; fn_deprecated_with_note := None; fn_args := Auto; fn_rename_args := RNone; fn_swift_name_macro := None; fn_sort_by := None; fn_no_return := None |}; structure := {| st_rename_fields := RNone; st_derive_constructor := false; st_derive_eq := false; st_derive_neq := false; st_derive_lt := false; st_derive_lte := false; st_derive_gt := false; st_derive_gte := false; st_derive_ostream := false; st_associated_constants_in_body := false; st_rename_associated_constant := RNone; st_must_use := None; st_deprecated := None; st_deprecated_with_note := None |}; enumeration := {| en_rename_variants := RNone; en_rename_variant_name_fields := SnakeCase; en_add_sentinel := false; en_prefix_with_name := false; en_derive_helper_methods := false; en_derive_const_casts := false; en_derive_mut_casts := false; en_cast_assert_name := None; en_must_use := None; en_deprecated := None; en_deprecated_with_note := None; en_deprecated_variant := None; en_deprecated_variant_with_note := None; en_derive_tagged_enum_destructor := false; en_derive_tagged_enum_copy_constructor := false; en_derive_tagged_enum_copy_assignment := false; en_derive_ostream := false; en_enum_class := true; en_private_default_tagged_enum_constructor := false |}; constant := {| co_allow_static_const := true; co_allow_constexpr := true; co_sort_by := None |}; defines := []; documentation := true;
  documentation_style := DocAuto; documentation_length := Full; pointer := {| pt_non_null_attribute := None; pt_nullable_attribute := None |}; cython := {| cy_header := None; cy_cimports := [] |}; config_path := None |}.
(** tests/expectations/namespaces_constant.compat.c *)
Definition namespaces_constant_compat : string := "#include <stdarg.h>
#include <stdbool.h>
#include <stdint.h>
#include <stdlib.h>

#ifdef __cplusplus
namespace constants {
namespace test {
#endif  // __cplusplus

#define FOO 10

#define ZOM 3.14

typedef struct {
  int32_t x[FOO];
} Foo;

#ifdef __cplusplus
extern ""C"" {
#endif // __cplusplus

void root(Foo x);

#ifdef __cplusplus
}  // extern ""C""
#endif  // __cplusplus

#ifdef __cplusplus
}  // namespace test
}  // namespace constants
#endif  // __cplusplus
".
(** tests/expectations/namespaces_constant_tag.compat.c *)
Definition namespaces_constant_compat_tag : string := "#include <stdarg.h>
#include <stdbool.h>
#include <stdint.h>
#include <stdlib.h>

#ifdef __cplusplus
namespace constants {
namespace test {
#endif  // __cplusplus

#define FOO 10

#define ZOM 3.14

struct Foo {
  int32_t x[FOO];
};

#ifdef __cplusplus
extern ""C"" {
#endif // __cplusplus

void root(struct Foo x);

#ifdef __cplusplus
}  // extern ""C""
#endif  // __cplusplus

#ifdef __cplusplus
}  // namespace test
}  // namespace constants
#endif  // __cplusplus
".
(** tests/expectations/namespaces_constant_both.compat.c *)
Definition namespaces_constant_compat_both : string := "#include <stdarg.h>
#include <stdbool.h>
#include <stdint.h>
#include <stdlib.h>

#ifdef __cplusplus
namespace constants {
namespace test {
#endif  // __cplusplus

#define FOO 10

#define ZOM 3.14

typedef struct Foo {
  int32_t x[FOO];
} Foo;

#ifdef __cplusplus
extern ""C"" {
#endif // __cplusplus

void root(struct Foo x);

#ifdef __cplusplus
}  // extern ""C""
#endif  // __cplusplus

#ifdef __cplusplus
}  // namespace test
}  // namespace constants
#endif  // __cplusplus
".
(** tests/expectations/namespaces_constant.c *)
Definition namespaces_constant_c : string := "#include <stdarg.h>
#include <stdbool.h>
#include <stdint.h>
#include <stdlib.h>

#define FOO 10

#define ZOM 3.14

typedef struct {
  int32_t x[FOO];
} Foo;

void root(Foo x);
".
(** tests/expectations/namespaces_constant_tag.c *)
Definition namespaces_constant_c_tag : string := "#include <stdarg.h>
#include <stdbool.h>
#include <stdint.h>
#include <stdlib.h>

#define FOO 10

#define ZOM 3.14

struct Foo {
  int32_t x[FOO];
};

void root(struct Foo x);
".
(** tests/expectations/namespaces_constant_both.c *)
Definition namespaces_constant_c_both : string := "#include <stdarg.h>
#include <stdbool.h>
#include <stdint.h>
#include <stdlib.h>

#define FOO 10

#define ZOM 3.14

typedef struct Foo {
  int32_t x[FOO];
} Foo;

void root(struct Foo x);
".
(** tests/expectations/namespaces_constant.cpp *)
Definition namespaces_constant_cpp : string := "#include <cstdarg>
#include <cstdint>
#include <cstdlib>
#include <ostream>
#include <new>

namespace constants {
namespace test {

constexpr static const int32_t FOO = 10;

constexpr static const float ZOM = 3.14;

struct Foo {
  int32_t x[FOO];
};

extern ""C"" {

void root(Foo x);

}  // extern ""C""

}  // namespace test
}  // namespace constants
".
(** tests/expectations/namespaces_constant.pyx *)
Definition namespaces_constant_pyx : string := "from libc.stdint cimport int8_t, int16_t, int32_t, int64_t, intptr_t
from libc.stdint cimport uint8_t, uint16_t, uint32_t, uint64_t, uintptr_t
cdef extern from *:
  ctypedef bint bool
  ctypedef struct va_list

cdef extern from *:

  const int32_t FOO # = 10

  const float ZOM # = 3.14

  ctypedef struct Foo:
    int32_t x[FOO];

  void root(Foo x);
".
(** tests/expectations/namespaces_constant_tag.pyx *)
Definition namespaces_constant_pyx_tag : string := "from libc.stdint cimport int8_t, int16_t, int32_t, int64_t, intptr_t
from libc.stdint cimport uint8_t, uint16_t, uint32_t, uint64_t, uintptr_t
cdef extern from *:
  ctypedef bint bool
  ctypedef struct va_list

cdef extern from *:

  const int32_t FOO # = 10

  const float ZOM # = 3.14

  cdef struct Foo:
    int32_t x[FOO];

  void root(Foo x);
".
Example namespaces_constant_reproduced : reproduces (in_file namespaces_constant_rs) false namespaces_constant_toml (Some "{
root;
};")
  [(RunC true Type_, [namespaces_constant_compat]);
   (RunC true Tag, [namespaces_constant_compat_tag]);
   (RunC true Both, [namespaces_constant_compat_both]);
   (RunC false Type_, [namespaces_constant_c]);
   (RunC false Tag, [namespaces_constant_c_tag]);
   (RunC false Both, [namespaces_constant_c_both]);
   (RunCxx, [namespaces_constant_cpp]);
   (RunCython Type_, [namespaces_constant_pyx]);
   (RunCython Tag, [namespaces_constant_pyx_tag])] = true.
Proof. vm_compute. reflexivity. Qed.

(** ** tests/rust/nested_import.rs *)
Definition nested_import_rs : list sitem := [
  (ItemOther [])].
(** tests/expectations/nested_import.compat.c *)
Definition nested_import_compat : string := "#include <stdarg.h>
#include <stdbool.h>
#include <stdint.h>
#include <stdlib.h>
".
(** tests/expectations/nested_import.cpp *)
Definition nested_import_cpp : string := "#include <cstdarg>
#include <cstdint>
#include <cstdlib>
#include <ostream>
#include <new>
".
(** tests/expectations/nested_import.pyx *)
Definition nested_import_pyx : string := "from libc.stdint cimport int8_t, int16_t, int32_t, int64_t, intptr_t
from libc.stdint cimport uint8_t, uint16_t, uint32_t, uint64_t, uintptr_t
cdef extern from *:
  ctypedef bint bool
  ctypedef struct va_list

cdef extern from *:
  pass".
Example nested_import_reproduced : reproduces (in_file nested_import_rs) false default_config None
  [(RunC true Type_, [nested_import_compat]);
   (RunC true Tag, [nested_import_compat]);
   (RunC true Both, [nested_import_compat]);
   (RunC false Type_, [nested_import_compat]);
   (RunC false Tag, [nested_import_compat]);
   (RunC false Both, [nested_import_compat]);
   (RunCxx, [nested_import_cpp]);
   (RunCython Type_, [nested_import_pyx]);
   (RunCython Tag, [nested_import_pyx])] = true.
Proof. vm_compute. reflexivity. Qed.

