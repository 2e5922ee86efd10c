(** See S_Suite.v; generated. *)
Require Import Coq.Strings.String Coq.Strings.Ascii Coq.Lists.List Coq.Bool.Bool Coq.NArith.NArith.
From Verif Require Import Base M_Config M_Cfg M_Type M_Ir M_Item M_Attr M_Syn M_Library M_Loader M_Parser M_Bindings M_Backend S_Heck S_Suite.
Import ListNotations.
Open Scope string_scope.

(** ** tests/rust/swift_name.rs *)
Definition swift_name_rs : list sitem := [
  (ItemFn [{| at_meta := (ANameValue (Some "export_name") (Some "rust_print_hello_world")); at_outer := true |}] true {| sg_ident :=
  "say_hello"; sg_abi := (Some None); sg_inputs := []; sg_variadic := false; sg_output := None |});
  (ItemStruct [{| at_meta := (AList (Some "repr") [(APath (Some "C"))]); at_outer := true |}] "SelfTypeTestStruct" [] (FieldsNamed [{|
  sf_attrs := []; sf_ident := (Some "times"); sf_ty := (SPath (SegPath [] "u8" NoArgs)) |}]));
  (ItemImpl [] (SPath (SegPath [] "SelfTypeTestStruct" NoArgs)) [(ImplFn [{| at_meta := (ANameValue (Some "export_name") (Some "SelfTypeTestStruct_should_exist_ref"));
  at_outer := true |}; {| at_meta := (APath (Some "no_mangle")); at_outer := true |}] true {| sg_ident := "should_exist_ref"; sg_abi
  := (Some None); sg_inputs := [(FnReceiver (RecvRef false))]; sg_variadic := false; sg_output := None |}); (ImplFn [{| at_meta :=
  (ANameValue (Some "export_name") (Some "SelfTypeTestStruct_should_exist_ref_mut")); at_outer := true |}; {| at_meta := (APath (Some
  "no_mangle")); at_outer := true |}] true {| sg_ident := "should_exist_ref_mut"; sg_abi := (Some None); sg_inputs := [(FnReceiver
  (RecvRef true))]; sg_variadic := false; sg_output := None |}); (ImplFn [{| at_meta := (ANameValue (Some "export_name") (Some "SelfTypeTestStruct_should_not_exist_box"));
  at_outer := true |}; {| at_meta := (APath (Some "no_mangle")); at_outer := true |}] true {| sg_ident := "should_not_exist_box";
  sg_abi := (Some None); sg_inputs := [(FnReceiver (RecvTyped (SPath (SegPath [] "Box" (AngleArgs [(ArgType (SPath (SegPath [] "SelfTypeTestStruct"
  NoArgs)))])))))]; sg_variadic := false; sg_output := None |}); (ImplFn [{| at_meta := (ANameValue (Some "export_name") (Some "SelfTypeTestStruct_should_not_exist_return_box"));
  at_outer := true |}; {| at_meta := (APath (Some "no_mangle")); at_outer := true |}] true {| sg_ident := "should_not_exist_box";
  sg_abi := (Some None); sg_inputs := []; sg_variadic := false; sg_output := (Some (SPath (SegPath [] "Box" (AngleArgs [(ArgType (SPath
  (SegPath [] "Self" NoArgs)))])))) |}); (ImplFn [{| at_meta := (ANameValue (Some "export_name") (Some "SelfTypeTestStruct_should_exist_annotated_self"));
  at_outer := true |}; {| at_meta := (APath (Some "no_mangle")); at_outer := true |}] true {| sg_ident := "should_exist_annotated_self";
  sg_abi := (Some None); sg_inputs := [(FnReceiver (RecvTyped (SPath (SegPath [] "Self" NoArgs))))]; sg_variadic := false; sg_output
  := None |}); (ImplFn [{| at_meta := (ANameValue (Some "export_name") (Some "SelfTypeTestStruct_should_exist_annotated_mut_self"));
  at_outer := true |}; {| at_meta := (APath (Some "no_mangle")); at_outer := true |}; {| at_meta := (AList (Some "allow") [(APath
  (Some "unused_mut"))]); at_outer := true |}] true {| sg_ident := "should_exist_annotated_mut_self"; sg_abi := (Some None); sg_inputs
  := [(FnReceiver (RecvTyped (SPath (SegPath [] "Self" NoArgs))))]; sg_variadic := false; sg_output := None |}); (ImplFn [{| at_meta
  := (ANameValue (Some "export_name") (Some "SelfTypeTestStruct_should_exist_annotated_by_name")); at_outer := true |}; {| at_meta
  := (APath (Some "no_mangle")); at_outer := true |}] true {| sg_ident := "should_exist_annotated_by_name"; sg_abi := (Some None);
  sg_inputs := [(FnReceiver (RecvTyped (SPath (SegPath [] "SelfTypeTestStruct" NoArgs))))]; sg_variadic := false; sg_output := None
  |}); (ImplFn [{| at_meta := (ANameValue (Some "export_name") (Some "SelfTypeTestStruct_should_exist_annotated_mut_by_name")); at_outer
  := true |}; {| at_meta := (APath (Some "no_mangle")); at_outer := true |}; {| at_meta := (AList (Some "allow") [(APath (Some "unused_mut"))]);
  at_outer := true |}] true {| sg_ident := "should_exist_annotated_mut_by_name"; sg_abi := (Some None); sg_inputs := [(FnReceiver
  (RecvTyped (SPath (SegPath [] "SelfTypeTestStruct" NoArgs))))]; sg_variadic := false; sg_output := None |}); (ImplFn [{| at_meta
  := (ANameValue (Some "export_name") (Some "SelfTypeTestStruct_should_exist_unannotated")); at_outer := true |}; {| at_meta := (APath
  (Some "no_mangle")); at_outer := true |}] true {| sg_ident := "should_exist_unannotated"; sg_abi := (Some None); sg_inputs := [(FnReceiver
  RecvValue)]; sg_variadic := false; sg_output := None |}); (ImplFn [{| at_meta := (ANameValue (Some "export_name") (Some "SelfTypeTestStruct_should_exist_mut_unannotated"));
  at_outer := true |}; {| at_meta := (APath (Some "no_mangle")); at_outer := true |}; {| at_meta := (AList (Some "allow") [(APath
  (Some "unused_mut"))]); at_outer := true |}] true {| sg_ident := "should_exist_mut_unannotated"; sg_abi := (Some None); sg_inputs
  := [(FnReceiver RecvValue)]; sg_variadic := false; sg_output := None |})]);
  (ItemFn [{| at_meta := (APath (Some "no_mangle")); at_outer := true |}; {| at_meta := (AList (Some "allow") [(APath (Some "unused_variables"))]);
  at_outer := true |}] true {| sg_ident := "free_function_should_exist_ref"; sg_abi := (Some None); sg_inputs := [(FnTyped (PatIdent
  "test_struct") (SRef false (SPath (SegPath [] "SelfTypeTestStruct" NoArgs))))]; sg_variadic := false; sg_output := None |});
  (ItemFn [{| at_meta := (APath (Some "no_mangle")); at_outer := true |}; {| at_meta := (AList (Some "allow") [(APath (Some "unused_variables"))]);
  at_outer := true |}] true {| sg_ident := "free_function_should_exist_ref_mut"; sg_abi := (Some None); sg_inputs := [(FnTyped (PatIdent
  "test_struct") (SRef true (SPath (SegPath [] "SelfTypeTestStruct" NoArgs))))]; sg_variadic := false; sg_output := None |});
  (ItemFn [{| at_meta := (APath (Some "no_mangle")); at_outer := true |}] true {| sg_ident := "unnamed_argument"; sg_abi := (Some None);
  sg_inputs := [(FnTyped PatWild (SRef true (SPath (SegPath [] "SelfTypeTestStruct" NoArgs))))]; sg_variadic := false; sg_output :=
  None |});
  (ItemFn [{| at_meta := (APath (Some "no_mangle")); at_outer := true |}; {| at_meta := (AList (Some "allow") [(APath (Some "unused_variables"))]);
  at_outer := true |}] true {| sg_ident := "free_function_should_not_exist_box"; sg_abi := (Some None); sg_inputs := [(FnTyped (PatIdent
  "boxed") (SPath (SegPath [] "Box" (AngleArgs [(ArgType (SPath (SegPath [] "SelfTypeTestStruct" NoArgs)))]))))]; sg_variadic := false;
  sg_output := None |});
  (ItemFn [{| at_meta := (APath (Some "no_mangle")); at_outer := true |}; {| at_meta := (AList (Some "allow") [(APath (Some "unused_variables"))]);
  at_outer := true |}] true {| sg_ident := "free_function_should_exist_annotated_by_name"; sg_abi := (Some None); sg_inputs := [(FnTyped
  (PatIdent "test_struct") (SPath (SegPath [] "SelfTypeTestStruct" NoArgs)))]; sg_variadic := false; sg_output := None |});
  (ItemFn [{| at_meta := (APath (Some "no_mangle")); at_outer := true |}; {| at_meta := (AList (Some "allow") [(APath (Some "unused_mut"))]);
  at_outer := true |}; {| at_meta := (AList (Some "allow") [(APath (Some "unused_variables"))]); at_outer := true |}] true {| sg_ident
  := "free_function_should_exist_annotated_mut_by_name"; sg_abi := (Some None); sg_inputs := [(FnTyped (PatIdent "test_struct") (SPath
  (SegPath [] "SelfTypeTestStruct" NoArgs)))]; sg_variadic := false; sg_output := None |});
  (ItemStruct [] "Opaque" [] (FieldsNamed [{| sf_attrs := []; sf_ident := (Some "times"); sf_ty := (SPath (SegPath [] "u8" NoArgs))
  |}]));
  (ItemStruct [{| at_meta := (AList (Some "repr") [(APath (Some "C"))]); at_outer := true |}] "PointerToOpaque" [] (FieldsNamed [{|
  sf_attrs := []; sf_ident := (Some "ptr"); sf_ty := (SPtr true (SPath (SegPath [] "Opaque" NoArgs))) |}]));
  (ItemImpl [] (SPath (SegPath [] "PointerToOpaque" NoArgs)) [(ImplFn [{| at_meta := (ANameValue (Some "export_name") (Some "PointerToOpaque_create"));
  at_outer := true |}] true {| sg_ident := "create"; sg_abi := (Some None); sg_inputs := [(FnTyped (PatIdent "times") (SPath (SegPath
  [] "u8" NoArgs)))]; sg_variadic := false; sg_output := (Some (SPath (SegPath [] "PointerToOpaque" NoArgs))) |}); (ImplFn [{| at_meta
  := (ANameValue (Some "export_name") (Some "PointerToOpaque_sayHello")); at_outer := true |}] true {| sg_ident := "say_hello"; sg_abi
  := (Some None); sg_inputs := [(FnReceiver (RecvTyped (SPath (SegPath [] "PointerToOpaque" NoArgs))))]; sg_variadic := false; sg_output
  := None |})])].
Definition swift_name_toml : Config := {| header := (Some "#define CF_SWIFT_NAME(_name) __attribute__((swift_name(#_name)))"); includes_ := []; sys_includes_ := []; after_includes := None; trailer := None;
  include_guard_ := None; pragma_once := false; no_includes := false; package_version := false; autogen_warning := None; include_version := false;
  namespace := None; namespaces := None; using_namespaces := None; braces := SameLine; line_length := 100; tab_width := 2; line_endings := LF;
  language := Cxx; cpp_compat := false; style := Both; sort_by := SortNone; usize_is_size_t := false; parse := default_parse; export := {| ex_include := []; ex_exclude := []; ex_rename := []; ex_pre_body := []; ex_body := []; ex_prefix := None; ex_item_types := []; ex_renaming_overrides_prefixing := false; ex_mangle := {| rename_types := RNone; remove_underscores := false |} |};
  layout := {| ly_packed := None; ly_aligned_n := None |}; function := {| fn_prefix := None; fn_postfix := None; fn_must_use := None; fn_deprecated := None; fn_deprecated_with_note := None; fn_args := Auto; fn_rename_args := RNone; fn_swift_name_macro := (Some "CF_SWIFT_NAME"); fn_sort_by := None; fn_no_return := None |}; structure := {| st_rename_fields := RNone; st_derive_constructor := false; st_derive_eq := false; st_derive_neq := false; st_derive_lt := false; st_derive_lte := false; st_derive_gt := false; st_derive_gte := false; st_derive_ostream := false; st_associated_constants_in_body := false; st_rename_associated_constant := RNone; st_must_use := None; st_deprecated := None; st_deprecated_with_note := None |}; enumeration := {| en_rename_variants := RNone; en_rename_variant_name_fields := SnakeCase; en_add_sentinel := false; en_prefix_with_name := false; en_derive_helper_methods := false; en_derive_const_casts := false; en_derive_mut_casts := false; en_cast_assert_name := None; en_must_use := None; en_deprecated := None; en_deprecated_with_note := None; en_deprecated_variant := None; en_deprecated_variant_with_note := None; en_derive_tagged_enum_destructor := false; en_derive_tagged_enum_copy_constructor := false; en_derive_tagged_enum_copy_assignment := false; en_derive_ostream := false; en_enum_class := true; en_private_default_tagged_enum_constructor := false |}; constant := {| co_allow_static_const := true; co_allow_constexpr := true; co_sort_by := None |}; defines := []; documentation := true;
  documentation_style := DocAuto; documentation_length := Full; pointer := {| pt_non_null_attribute := None; pt_nullable_attribute := None |}; cython := {| cy_header := None; cy_cimports := [] |}; config_path := None |}.
(** tests/expectations/swift_name.compat.c *)
Definition swift_name_compat : string := "#define CF_SWIFT_NAME(_name) __attribute__((swift_name(#_name)))

#include <stdarg.h>
#include <stdbool.h>
#include <stdint.h>
#include <stdlib.h>

typedef struct Opaque Opaque;

typedef struct {
  uint8_t times;
} SelfTypeTestStruct;

typedef struct {
  Opaque *ptr;
} PointerToOpaque;

#ifdef __cplusplus
extern ""C"" {
#endif // __cplusplus

void rust_print_hello_world(void) CF_SWIFT_NAME(rust_print_hello_world());

void SelfTypeTestStruct_should_exist_ref(const SelfTypeTestStruct *self) CF_SWIFT_NAME(SelfTypeTestStruct.should_exist_ref(self:));

void SelfTypeTestStruct_should_exist_ref_mut(SelfTypeTestStruct *self) CF_SWIFT_NAME(SelfTypeTestStruct.should_exist_ref_mut(self:));

void SelfTypeTestStruct_should_not_exist_box(SelfTypeTestStruct *self) CF_SWIFT_NAME(SelfTypeTestStruct.should_not_exist_box(self:));

SelfTypeTestStruct *SelfTypeTestStruct_should_not_exist_return_box(void) CF_SWIFT_NAME(SelfTypeTestStruct.should_not_exist_return_box());

void SelfTypeTestStruct_should_exist_annotated_self(SelfTypeTestStruct self) CF_SWIFT_NAME(SelfTypeTestStruct.should_exist_annotated_self(self:));

void SelfTypeTestStruct_should_exist_annotated_mut_self(SelfTypeTestStruct self) CF_SWIFT_NAME(SelfTypeTestStruct.should_exist_annotated_mut_self(self:));

void SelfTypeTestStruct_should_exist_annotated_by_name(SelfTypeTestStruct self) CF_SWIFT_NAME(SelfTypeTestStruct.should_exist_annotated_by_name(self:));

void SelfTypeTestStruct_should_exist_annotated_mut_by_name(SelfTypeTestStruct self) CF_SWIFT_NAME(SelfTypeTestStruct.should_exist_annotated_mut_by_name(self:));

void SelfTypeTestStruct_should_exist_unannotated(SelfTypeTestStruct self) CF_SWIFT_NAME(SelfTypeTestStruct.should_exist_unannotated(self:));

void SelfTypeTestStruct_should_exist_mut_unannotated(SelfTypeTestStruct self) CF_SWIFT_NAME(SelfTypeTestStruct.should_exist_mut_unannotated(self:));

void free_function_should_exist_ref(const SelfTypeTestStruct *test_struct) CF_SWIFT_NAME(free_function_should_exist_ref(test_struct:));

void free_function_should_exist_ref_mut(SelfTypeTestStruct *test_struct) CF_SWIFT_NAME(free_function_should_exist_ref_mut(test_struct:));

void unnamed_argument(SelfTypeTestStruct*);

void free_function_should_not_exist_box(SelfTypeTestStruct *boxed) CF_SWIFT_NAME(free_function_should_not_exist_box(boxed:));

void free_function_should_exist_annotated_by_name(SelfTypeTestStruct test_struct) CF_SWIFT_NAME(free_function_should_exist_annotated_by_name(test_struct:));

void free_function_should_exist_annotated_mut_by_name(SelfTypeTestStruct test_struct) CF_SWIFT_NAME(free_function_should_exist_annotated_mut_by_name(test_struct:));

PointerToOpaque PointerToOpaque_create(uint8_t times) CF_SWIFT_NAME(PointerToOpaque.create(times:));

void PointerToOpaque_sayHello(PointerToOpaque self) CF_SWIFT_NAME(PointerToOpaque.sayHello(self:));

#ifdef __cplusplus
}  // extern ""C""
#endif  // __cplusplus
".
(** tests/expectations/swift_name_tag.compat.c *)
Definition swift_name_compat_tag : string := "#define CF_SWIFT_NAME(_name) __attribute__((swift_name(#_name)))

#include <stdarg.h>
#include <stdbool.h>
#include <stdint.h>
#include <stdlib.h>

struct Opaque;

struct SelfTypeTestStruct {
  uint8_t times;
};

struct PointerToOpaque {
  struct Opaque *ptr;
};

#ifdef __cplusplus
extern ""C"" {
#endif // __cplusplus

void rust_print_hello_world(void) CF_SWIFT_NAME(rust_print_hello_world());

void SelfTypeTestStruct_should_exist_ref(const struct SelfTypeTestStruct *self) CF_SWIFT_NAME(SelfTypeTestStruct.should_exist_ref(self:));

void SelfTypeTestStruct_should_exist_ref_mut(struct SelfTypeTestStruct *self) CF_SWIFT_NAME(SelfTypeTestStruct.should_exist_ref_mut(self:));

void SelfTypeTestStruct_should_not_exist_box(struct SelfTypeTestStruct *self) CF_SWIFT_NAME(SelfTypeTestStruct.should_not_exist_box(self:));

struct SelfTypeTestStruct *SelfTypeTestStruct_should_not_exist_return_box(void) CF_SWIFT_NAME(SelfTypeTestStruct.should_not_exist_return_box());

void SelfTypeTestStruct_should_exist_annotated_self(struct SelfTypeTestStruct self) CF_SWIFT_NAME(SelfTypeTestStruct.should_exist_annotated_self(self:));

void SelfTypeTestStruct_should_exist_annotated_mut_self(struct SelfTypeTestStruct self) CF_SWIFT_NAME(SelfTypeTestStruct.should_exist_annotated_mut_self(self:));

void SelfTypeTestStruct_should_exist_annotated_by_name(struct SelfTypeTestStruct self) CF_SWIFT_NAME(SelfTypeTestStruct.should_exist_annotated_by_name(self:));

void SelfTypeTestStruct_should_exist_annotated_mut_by_name(struct SelfTypeTestStruct self) CF_SWIFT_NAME(SelfTypeTestStruct.should_exist_annotated_mut_by_name(self:));

void SelfTypeTestStruct_should_exist_unannotated(struct SelfTypeTestStruct self) CF_SWIFT_NAME(SelfTypeTestStruct.should_exist_unannotated(self:));

void SelfTypeTestStruct_should_exist_mut_unannotated(struct SelfTypeTestStruct self) CF_SWIFT_NAME(SelfTypeTestStruct.should_exist_mut_unannotated(self:));

void free_function_should_exist_ref(const struct SelfTypeTestStruct *test_struct) CF_SWIFT_NAME(free_function_should_exist_ref(test_struct:));

void free_function_should_exist_ref_mut(struct SelfTypeTestStruct *test_struct) CF_SWIFT_NAME(free_function_should_exist_ref_mut(test_struct:));

void unnamed_argument(struct SelfTypeTestStruct*);

void free_function_should_not_exist_box(struct SelfTypeTestStruct *boxed) CF_SWIFT_NAME(free_function_should_not_exist_box(boxed:));

void free_function_should_exist_annotated_by_name(struct SelfTypeTestStruct test_struct) CF_SWIFT_NAME(free_function_should_exist_annotated_by_name(test_struct:));

void free_function_should_exist_annotated_mut_by_name(struct SelfTypeTestStruct test_struct) CF_SWIFT_NAME(free_function_should_exist_annotated_mut_by_name(test_struct:));

struct PointerToOpaque PointerToOpaque_create(uint8_t times) CF_SWIFT_NAME(PointerToOpaque.create(times:));

void PointerToOpaque_sayHello(struct PointerToOpaque self) CF_SWIFT_NAME(PointerToOpaque.sayHello(self:));

#ifdef __cplusplus
}  // extern ""C""
#endif  // __cplusplus
".
(** tests/expectations/swift_name_both.compat.c *)
Definition swift_name_compat_both : string := "#define CF_SWIFT_NAME(_name) __attribute__((swift_name(#_name)))

#include <stdarg.h>
#include <stdbool.h>
#include <stdint.h>
#include <stdlib.h>

typedef struct Opaque Opaque;

typedef struct SelfTypeTestStruct {
  uint8_t times;
} SelfTypeTestStruct;

typedef struct PointerToOpaque {
  struct Opaque *ptr;
} PointerToOpaque;

#ifdef __cplusplus
extern ""C"" {
#endif // __cplusplus

void rust_print_hello_world(void) CF_SWIFT_NAME(rust_print_hello_world());

void SelfTypeTestStruct_should_exist_ref(const struct SelfTypeTestStruct *self) CF_SWIFT_NAME(SelfTypeTestStruct.should_exist_ref(self:));

void SelfTypeTestStruct_should_exist_ref_mut(struct SelfTypeTestStruct *self) CF_SWIFT_NAME(SelfTypeTestStruct.should_exist_ref_mut(self:));

void SelfTypeTestStruct_should_not_exist_box(struct SelfTypeTestStruct *self) CF_SWIFT_NAME(SelfTypeTestStruct.should_not_exist_box(self:));

struct SelfTypeTestStruct *SelfTypeTestStruct_should_not_exist_return_box(void) CF_SWIFT_NAME(SelfTypeTestStruct.should_not_exist_return_box());

void SelfTypeTestStruct_should_exist_annotated_self(struct SelfTypeTestStruct self) CF_SWIFT_NAME(SelfTypeTestStruct.should_exist_annotated_self(self:));

void SelfTypeTestStruct_should_exist_annotated_mut_self(struct SelfTypeTestStruct self) CF_SWIFT_NAME(SelfTypeTestStruct.should_exist_annotated_mut_self(self:));

void SelfTypeTestStruct_should_exist_annotated_by_name(struct SelfTypeTestStruct self) CF_SWIFT_NAME(SelfTypeTestStruct.should_exist_annotated_by_name(self:));

void SelfTypeTestStruct_should_exist_annotated_mut_by_name(struct SelfTypeTestStruct self) CF_SWIFT_NAME(SelfTypeTestStruct.should_exist_annotated_mut_by_name(self:));

void SelfTypeTestStruct_should_exist_unannotated(struct SelfTypeTestStruct self) CF_SWIFT_NAME(SelfTypeTestStruct.should_exist_unannotated(self:));

void SelfTypeTestStruct_should_exist_mut_unannotated(struct SelfTypeTestStruct self) CF_SWIFT_NAME(SelfTypeTestStruct.should_exist_mut_unannotated(self:));

void free_function_should_exist_ref(const struct SelfTypeTestStruct *test_struct) CF_SWIFT_NAME(free_function_should_exist_ref(test_struct:));

void free_function_should_exist_ref_mut(struct SelfTypeTestStruct *test_struct) CF_SWIFT_NAME(free_function_should_exist_ref_mut(test_struct:));

void unnamed_argument(struct SelfTypeTestStruct*);

void free_function_should_not_exist_box(struct SelfTypeTestStruct *boxed) CF_SWIFT_NAME(free_function_should_not_exist_box(boxed:));

void free_function_should_exist_annotated_by_name(struct SelfTypeTestStruct test_struct) CF_SWIFT_NAME(free_function_should_exist_annotated_by_name(test_struct:));

void free_function_should_exist_annotated_mut_by_name(struct SelfTypeTestStruct test_struct) CF_SWIFT_NAME(free_function_should_exist_annotated_mut_by_name(test_struct:));

struct PointerToOpaque PointerToOpaque_create(uint8_t times) CF_SWIFT_NAME(PointerToOpaque.create(times:));

void PointerToOpaque_sayHello(struct PointerToOpaque self) CF_SWIFT_NAME(PointerToOpaque.sayHello(self:));

#ifdef __cplusplus
}  // extern ""C""
#endif  // __cplusplus
".
(** tests/expectations/swift_name.c *)
Definition swift_name_c : string := "#define CF_SWIFT_NAME(_name) __attribute__((swift_name(#_name)))

#include <stdarg.h>
#include <stdbool.h>
#include <stdint.h>
#include <stdlib.h>

typedef struct Opaque Opaque;

typedef struct {
  uint8_t times;
} SelfTypeTestStruct;

typedef struct {
  Opaque *ptr;
} PointerToOpaque;

void rust_print_hello_world(void) CF_SWIFT_NAME(rust_print_hello_world());

void SelfTypeTestStruct_should_exist_ref(const SelfTypeTestStruct *self) CF_SWIFT_NAME(SelfTypeTestStruct.should_exist_ref(self:));

void SelfTypeTestStruct_should_exist_ref_mut(SelfTypeTestStruct *self) CF_SWIFT_NAME(SelfTypeTestStruct.should_exist_ref_mut(self:));

void SelfTypeTestStruct_should_not_exist_box(SelfTypeTestStruct *self) CF_SWIFT_NAME(SelfTypeTestStruct.should_not_exist_box(self:));

SelfTypeTestStruct *SelfTypeTestStruct_should_not_exist_return_box(void) CF_SWIFT_NAME(SelfTypeTestStruct.should_not_exist_return_box());

void SelfTypeTestStruct_should_exist_annotated_self(SelfTypeTestStruct self) CF_SWIFT_NAME(SelfTypeTestStruct.should_exist_annotated_self(self:));

void SelfTypeTestStruct_should_exist_annotated_mut_self(SelfTypeTestStruct self) CF_SWIFT_NAME(SelfTypeTestStruct.should_exist_annotated_mut_self(self:));

void SelfTypeTestStruct_should_exist_annotated_by_name(SelfTypeTestStruct self) CF_SWIFT_NAME(SelfTypeTestStruct.should_exist_annotated_by_name(self:));

void SelfTypeTestStruct_should_exist_annotated_mut_by_name(SelfTypeTestStruct self) CF_SWIFT_NAME(SelfTypeTestStruct.should_exist_annotated_mut_by_name(self:));

void SelfTypeTestStruct_should_exist_unannotated(SelfTypeTestStruct self) CF_SWIFT_NAME(SelfTypeTestStruct.should_exist_unannotated(self:));

void SelfTypeTestStruct_should_exist_mut_unannotated(SelfTypeTestStruct self) CF_SWIFT_NAME(SelfTypeTestStruct.should_exist_mut_unannotated(self:));

void free_function_should_exist_ref(const SelfTypeTestStruct *test_struct) CF_SWIFT_NAME(free_function_should_exist_ref(test_struct:));

void free_function_should_exist_ref_mut(SelfTypeTestStruct *test_struct) CF_SWIFT_NAME(free_function_should_exist_ref_mut(test_struct:));

void unnamed_argument(SelfTypeTestStruct*);

void free_function_should_not_exist_box(SelfTypeTestStruct *boxed) CF_SWIFT_NAME(free_function_should_not_exist_box(boxed:));

void free_function_should_exist_annotated_by_name(SelfTypeTestStruct test_struct) CF_SWIFT_NAME(free_function_should_exist_annotated_by_name(test_struct:));

void free_function_should_exist_annotated_mut_by_name(SelfTypeTestStruct test_struct) CF_SWIFT_NAME(free_function_should_exist_annotated_mut_by_name(test_struct:));

PointerToOpaque PointerToOpaque_create(uint8_t times) CF_SWIFT_NAME(PointerToOpaque.create(times:));

void PointerToOpaque_sayHello(PointerToOpaque self) CF_SWIFT_NAME(PointerToOpaque.sayHello(self:));
".
(** tests/expectations/swift_name_tag.c *)
Definition swift_name_c_tag : string := "#define CF_SWIFT_NAME(_name) __attribute__((swift_name(#_name)))

#include <stdarg.h>
#include <stdbool.h>
#include <stdint.h>
#include <stdlib.h>

struct Opaque;

struct SelfTypeTestStruct {
  uint8_t times;
};

struct PointerToOpaque {
  struct Opaque *ptr;
};

void rust_print_hello_world(void) CF_SWIFT_NAME(rust_print_hello_world());

void SelfTypeTestStruct_should_exist_ref(const struct SelfTypeTestStruct *self) CF_SWIFT_NAME(SelfTypeTestStruct.should_exist_ref(self:));

void SelfTypeTestStruct_should_exist_ref_mut(struct SelfTypeTestStruct *self) CF_SWIFT_NAME(SelfTypeTestStruct.should_exist_ref_mut(self:));

void SelfTypeTestStruct_should_not_exist_box(struct SelfTypeTestStruct *self) CF_SWIFT_NAME(SelfTypeTestStruct.should_not_exist_box(self:));

struct SelfTypeTestStruct *SelfTypeTestStruct_should_not_exist_return_box(void) CF_SWIFT_NAME(SelfTypeTestStruct.should_not_exist_return_box());

void SelfTypeTestStruct_should_exist_annotated_self(struct SelfTypeTestStruct self) CF_SWIFT_NAME(SelfTypeTestStruct.should_exist_annotated_self(self:));

void SelfTypeTestStruct_should_exist_annotated_mut_self(struct SelfTypeTestStruct self) CF_SWIFT_NAME(SelfTypeTestStruct.should_exist_annotated_mut_self(self:));

void SelfTypeTestStruct_should_exist_annotated_by_name(struct SelfTypeTestStruct self) CF_SWIFT_NAME(SelfTypeTestStruct.should_exist_annotated_by_name(self:));

void SelfTypeTestStruct_should_exist_annotated_mut_by_name(struct SelfTypeTestStruct self) CF_SWIFT_NAME(SelfTypeTestStruct.should_exist_annotated_mut_by_name(self:));

void SelfTypeTestStruct_should_exist_unannotated(struct SelfTypeTestStruct self) CF_SWIFT_NAME(SelfTypeTestStruct.should_exist_unannotated(self:));

void SelfTypeTestStruct_should_exist_mut_unannotated(struct SelfTypeTestStruct self) CF_SWIFT_NAME(SelfTypeTestStruct.should_exist_mut_unannotated(self:));

void free_function_should_exist_ref(const struct SelfTypeTestStruct *test_struct) CF_SWIFT_NAME(free_function_should_exist_ref(test_struct:));

void free_function_should_exist_ref_mut(struct SelfTypeTestStruct *test_struct) CF_SWIFT_NAME(free_function_should_exist_ref_mut(test_struct:));

void unnamed_argument(struct SelfTypeTestStruct*);

void free_function_should_not_exist_box(struct SelfTypeTestStruct *boxed) CF_SWIFT_NAME(free_function_should_not_exist_box(boxed:));

void free_function_should_exist_annotated_by_name(struct SelfTypeTestStruct test_struct) CF_SWIFT_NAME(free_function_should_exist_annotated_by_name(test_struct:));

void free_function_should_exist_annotated_mut_by_name(struct SelfTypeTestStruct test_struct) CF_SWIFT_NAME(free_function_should_exist_annotated_mut_by_name(test_struct:));

struct PointerToOpaque PointerToOpaque_create(uint8_t times) CF_SWIFT_NAME(PointerToOpaque.create(times:));

void PointerToOpaque_sayHello(struct PointerToOpaque self) CF_SWIFT_NAME(PointerToOpaque.sayHello(self:));
".
(** tests/expectations/swift_name_both.c *)
Definition swift_name_c_both : string := "#define CF_SWIFT_NAME(_name) __attribute__((swift_name(#_name)))

#include <stdarg.h>
#include <stdbool.h>
#include <stdint.h>
#include <stdlib.h>

typedef struct Opaque Opaque;

typedef struct SelfTypeTestStruct {
  uint8_t times;
} SelfTypeTestStruct;

typedef struct PointerToOpaque {
  struct Opaque *ptr;
} PointerToOpaque;

void rust_print_hello_world(void) CF_SWIFT_NAME(rust_print_hello_world());

void SelfTypeTestStruct_should_exist_ref(const struct SelfTypeTestStruct *self) CF_SWIFT_NAME(SelfTypeTestStruct.should_exist_ref(self:));

void SelfTypeTestStruct_should_exist_ref_mut(struct SelfTypeTestStruct *self) CF_SWIFT_NAME(SelfTypeTestStruct.should_exist_ref_mut(self:));

void SelfTypeTestStruct_should_not_exist_box(struct SelfTypeTestStruct *self) CF_SWIFT_NAME(SelfTypeTestStruct.should_not_exist_box(self:));

struct SelfTypeTestStruct *SelfTypeTestStruct_should_not_exist_return_box(void) CF_SWIFT_NAME(SelfTypeTestStruct.should_not_exist_return_box());

void SelfTypeTestStruct_should_exist_annotated_self(struct SelfTypeTestStruct self) CF_SWIFT_NAME(SelfTypeTestStruct.should_exist_annotated_self(self:));

void SelfTypeTestStruct_should_exist_annotated_mut_self(struct SelfTypeTestStruct self) CF_SWIFT_NAME(SelfTypeTestStruct.should_exist_annotated_mut_self(self:));

void SelfTypeTestStruct_should_exist_annotated_by_name(struct SelfTypeTestStruct self) CF_SWIFT_NAME(SelfTypeTestStruct.should_exist_annotated_by_name(self:));

void SelfTypeTestStruct_should_exist_annotated_mut_by_name(struct SelfTypeTestStruct self) CF_SWIFT_NAME(SelfTypeTestStruct.should_exist_annotated_mut_by_name(self:));

void SelfTypeTestStruct_should_exist_unannotated(struct SelfTypeTestStruct self) CF_SWIFT_NAME(SelfTypeTestStruct.should_exist_unannotated(self:));

void SelfTypeTestStruct_should_exist_mut_unannotated(struct SelfTypeTestStruct self) CF_SWIFT_NAME(SelfTypeTestStruct.should_exist_mut_unannotated(self:));

void free_function_should_exist_ref(const struct SelfTypeTestStruct *test_struct) CF_SWIFT_NAME(free_function_should_exist_ref(test_struct:));

void free_function_should_exist_ref_mut(struct SelfTypeTestStruct *test_struct) CF_SWIFT_NAME(free_function_should_exist_ref_mut(test_struct:));

void unnamed_argument(struct SelfTypeTestStruct*);

void free_function_should_not_exist_box(struct SelfTypeTestStruct *boxed) CF_SWIFT_NAME(free_function_should_not_exist_box(boxed:));

void free_function_should_exist_annotated_by_name(struct SelfTypeTestStruct test_struct) CF_SWIFT_NAME(free_function_should_exist_annotated_by_name(test_struct:));

void free_function_should_exist_annotated_mut_by_name(struct SelfTypeTestStruct test_struct) CF_SWIFT_NAME(free_function_should_exist_annotated_mut_by_name(test_struct:));

struct PointerToOpaque PointerToOpaque_create(uint8_t times) CF_SWIFT_NAME(PointerToOpaque.create(times:));

void PointerToOpaque_sayHello(struct PointerToOpaque self) CF_SWIFT_NAME(PointerToOpaque.sayHello(self:));
".
(** tests/expectations/swift_name.cpp *)
Definition swift_name_cpp : string := "#define CF_SWIFT_NAME(_name) __attribute__((swift_name(#_name)))

#include <cstdarg>
#include <cstdint>
#include <cstdlib>
#include <ostream>
#include <new>

template<typename T = void>
struct Box;

struct Opaque;

struct SelfTypeTestStruct {
  uint8_t times;
};

struct PointerToOpaque {
  Opaque *ptr;
};

extern ""C"" {

void rust_print_hello_world() CF_SWIFT_NAME(rust_print_hello_world());

void SelfTypeTestStruct_should_exist_ref(const SelfTypeTestStruct *self) CF_SWIFT_NAME(SelfTypeTestStruct.should_exist_ref(self:));

void SelfTypeTestStruct_should_exist_ref_mut(SelfTypeTestStruct *self) CF_SWIFT_NAME(SelfTypeTestStruct.should_exist_ref_mut(self:));

void SelfTypeTestStruct_should_not_exist_box(Box<SelfTypeTestStruct> self) CF_SWIFT_NAME(SelfTypeTestStruct.should_not_exist_box(self:));

Box<SelfTypeTestStruct> SelfTypeTestStruct_should_not_exist_return_box() CF_SWIFT_NAME(SelfTypeTestStruct.should_not_exist_return_box());

void SelfTypeTestStruct_should_exist_annotated_self(SelfTypeTestStruct self) CF_SWIFT_NAME(SelfTypeTestStruct.should_exist_annotated_self(self:));

void SelfTypeTestStruct_should_exist_annotated_mut_self(SelfTypeTestStruct self) CF_SWIFT_NAME(SelfTypeTestStruct.should_exist_annotated_mut_self(self:));

void SelfTypeTestStruct_should_exist_annotated_by_name(SelfTypeTestStruct self) CF_SWIFT_NAME(SelfTypeTestStruct.should_exist_annotated_by_name(self:));

void SelfTypeTestStruct_should_exist_annotated_mut_by_name(SelfTypeTestStruct self) CF_SWIFT_NAME(SelfTypeTestStruct.should_exist_annotated_mut_by_name(self:));

void SelfTypeTestStruct_should_exist_unannotated(SelfTypeTestStruct self) CF_SWIFT_NAME(SelfTypeTestStruct.should_exist_unannotated(self:));

void SelfTypeTestStruct_should_exist_mut_unannotated(SelfTypeTestStruct self) CF_SWIFT_NAME(SelfTypeTestStruct.should_exist_mut_unannotated(self:));

void free_function_should_exist_ref(const SelfTypeTestStruct *test_struct) CF_SWIFT_NAME(free_function_should_exist_ref(test_struct:));

void free_function_should_exist_ref_mut(SelfTypeTestStruct *test_struct) CF_SWIFT_NAME(free_function_should_exist_ref_mut(test_struct:));

void unnamed_argument(SelfTypeTestStruct*);

void free_function_should_not_exist_box(Box<SelfTypeTestStruct> boxed) CF_SWIFT_NAME(free_function_should_not_exist_box(boxed:));

void free_function_should_exist_annotated_by_name(SelfTypeTestStruct test_struct) CF_SWIFT_NAME(free_function_should_exist_annotated_by_name(test_struct:));

void free_function_should_exist_annotated_mut_by_name(SelfTypeTestStruct test_struct) CF_SWIFT_NAME(free_function_should_exist_annotated_mut_by_name(test_struct:));

PointerToOpaque PointerToOpaque_create(uint8_t times) CF_SWIFT_NAME(PointerToOpaque.create(times:));

void PointerToOpaque_sayHello(PointerToOpaque self) CF_SWIFT_NAME(PointerToOpaque.sayHello(self:));

}  // extern ""C""
".
(** tests/expectations/swift_name.pyx *)
Definition swift_name_pyx : string := "#define CF_SWIFT_NAME(_name) __attribute__((swift_name(#_name)))

from libc.stdint cimport int8_t, int16_t, int32_t, int64_t, intptr_t
from libc.stdint cimport uint8_t, uint16_t, uint32_t, uint64_t, uintptr_t
cdef extern from *:
  ctypedef bint bool
  ctypedef struct va_list

cdef extern from *:

  ctypedef struct Opaque:
    pass

  ctypedef struct SelfTypeTestStruct:
    uint8_t times;

  ctypedef struct PointerToOpaque:
    Opaque *ptr;

  void rust_print_hello_world();

  void SelfTypeTestStruct_should_exist_ref(const SelfTypeTestStruct *self);

  void SelfTypeTestStruct_should_exist_ref_mut(SelfTypeTestStruct *self);

  void SelfTypeTestStruct_should_not_exist_box(SelfTypeTestStruct *self);

  SelfTypeTestStruct *SelfTypeTestStruct_should_not_exist_return_box();

  void SelfTypeTestStruct_should_exist_annotated_self(SelfTypeTestStruct self);

  void SelfTypeTestStruct_should_exist_annotated_mut_self(SelfTypeTestStruct self);

  void SelfTypeTestStruct_should_exist_annotated_by_name(SelfTypeTestStruct self);

  void SelfTypeTestStruct_should_exist_annotated_mut_by_name(SelfTypeTestStruct self);

  void SelfTypeTestStruct_should_exist_unannotated(SelfTypeTestStruct self);

  void SelfTypeTestStruct_should_exist_mut_unannotated(SelfTypeTestStruct self);

  void free_function_should_exist_ref(const SelfTypeTestStruct *test_struct);

  void free_function_should_exist_ref_mut(SelfTypeTestStruct *test_struct);

  void unnamed_argument(SelfTypeTestStruct*);

  void free_function_should_not_exist_box(SelfTypeTestStruct *boxed);

  void free_function_should_exist_annotated_by_name(SelfTypeTestStruct test_struct);

  void free_function_should_exist_annotated_mut_by_name(SelfTypeTestStruct test_struct);

  PointerToOpaque PointerToOpaque_create(uint8_t times);

  void PointerToOpaque_sayHello(PointerToOpaque self);
".
(** tests/expectations/swift_name_tag.pyx *)
Definition swift_name_pyx_tag : string := "#define CF_SWIFT_NAME(_name) __attribute__((swift_name(#_name)))

from libc.stdint cimport int8_t, int16_t, int32_t, int64_t, intptr_t
from libc.stdint cimport uint8_t, uint16_t, uint32_t, uint64_t, uintptr_t
cdef extern from *:
  ctypedef bint bool
  ctypedef struct va_list

cdef extern from *:

  cdef struct Opaque:
    pass

  cdef struct SelfTypeTestStruct:
    uint8_t times;

  cdef struct PointerToOpaque:
    Opaque *ptr;

  void rust_print_hello_world();

  void SelfTypeTestStruct_should_exist_ref(const SelfTypeTestStruct *self);

  void SelfTypeTestStruct_should_exist_ref_mut(SelfTypeTestStruct *self);

  void SelfTypeTestStruct_should_not_exist_box(SelfTypeTestStruct *self);

  SelfTypeTestStruct *SelfTypeTestStruct_should_not_exist_return_box();

  void SelfTypeTestStruct_should_exist_annotated_self(SelfTypeTestStruct self);

  void SelfTypeTestStruct_should_exist_annotated_mut_self(SelfTypeTestStruct self);

  void SelfTypeTestStruct_should_exist_annotated_by_name(SelfTypeTestStruct self);

  void SelfTypeTestStruct_should_exist_annotated_mut_by_name(SelfTypeTestStruct self);

  void SelfTypeTestStruct_should_exist_unannotated(SelfTypeTestStruct self);

  void SelfTypeTestStruct_should_exist_mut_unannotated(SelfTypeTestStruct self);

  void free_function_should_exist_ref(const SelfTypeTestStruct *test_struct);

  void free_function_should_exist_ref_mut(SelfTypeTestStruct *test_struct);

  void unnamed_argument(SelfTypeTestStruct*);

  void free_function_should_not_exist_box(SelfTypeTestStruct *boxed);

  void free_function_should_exist_annotated_by_name(SelfTypeTestStruct test_struct);

  void free_function_should_exist_annotated_mut_by_name(SelfTypeTestStruct test_struct);

  PointerToOpaque PointerToOpaque_create(uint8_t times);

  void PointerToOpaque_sayHello(PointerToOpaque self);
".
Example swift_name_reproduced : reproduces (in_file swift_name_rs) false swift_name_toml (Some "{
rust_print_hello_world;
SelfTypeTestStruct_should_exist_ref;
SelfTypeTestStruct_should_exist_ref_mut;
SelfTypeTestStruct_should_not_exist_box;
SelfTypeTestStruct_should_not_exist_return_box;
SelfTypeTestStruct_should_exist_annotated_self;
SelfTypeTestStruct_should_exist_annotated_mut_self;
SelfTypeTestStruct_should_exist_annotated_by_name;
SelfTypeTestStruct_should_exist_annotated_mut_by_name;
SelfTypeTestStruct_should_exist_unannotated;
SelfTypeTestStruct_should_exist_mut_unannotated;
free_function_should_exist_ref;
free_function_should_exist_ref_mut;
unnamed_argument;
free_function_should_not_exist_box;
free_function_should_exist_annotated_by_name;
free_function_should_exist_annotated_mut_by_name;
PointerToOpaque_create;
PointerToOpaque_sayHello;
};")
  [(RunC true Type_, [swift_name_compat]);
   (RunC true Tag, [swift_name_compat_tag]);
   (RunC true Both, [swift_name_compat_both]);
   (RunC false Type_, [swift_name_c]);
   (RunC false Tag, [swift_name_c_tag]);
   (RunC false Both, [swift_name_c_both]);
   (RunCxx, [swift_name_cpp]);
   (RunCython Type_, [swift_name_pyx]);
   (RunCython Tag, [swift_name_pyx_tag])] = true.
Proof. vm_compute. reflexivity. Qed.

(** ** tests/rust/transform_op.rs *)
Definition transform_op_rs : list sitem := [
  (ItemStruct [{| at_meta := (AList (Some "repr") [(APath (Some "C"))]); at_outer := true |}] "Point" [(SGType "T" None)] (FieldsNamed
  [{| sf_attrs := []; sf_ident := (Some "x"); sf_ty := (SPath (SegPath [] "T" NoArgs)) |}; {| sf_attrs := []; sf_ident := (Some "y");
  sf_ty := (SPath (SegPath [] "T" NoArgs)) |}]));
  (ItemEnum [{| at_meta := (AList (Some "repr") [(APath (Some "u8"))]); at_outer := true |}] "Foo" [(SGType "T" None)] [{| sv_attrs
  := []; sv_ident := "Foo"; sv_fields := (FieldsNamed [{| sf_attrs := []; sf_ident := (Some "x"); sf_ty := (SPath (SegPath [] "i32"
  NoArgs)) |}; {| sf_attrs := []; sf_ident := (Some "y"); sf_ty := (SPath (SegPath [] "Point" (AngleArgs [(ArgType (SPath (SegPath
  [] "T" NoArgs)))]))) |}; {| sf_attrs := []; sf_ident := (Some "z"); sf_ty := (SPath (SegPath [] "Point" (AngleArgs [(ArgType (SPath
  (SegPath [] "f32" NoArgs)))]))) |}]); sv_discriminant := None |}; {| sv_attrs := []; sv_ident := "Bar"; sv_fields := (FieldsUnnamed
  [{| sf_attrs := []; sf_ident := None; sf_ty := (SPath (SegPath [] "T" NoArgs)) |}]); sv_discriminant := None |}; {| sv_attrs :=
  []; sv_ident := "Baz"; sv_fields := (FieldsUnnamed [{| sf_attrs := []; sf_ident := None; sf_ty := (SPath (SegPath [] "Point" (AngleArgs
  [(ArgType (SPath (SegPath [] "T" NoArgs)))]))) |}]); sv_discriminant := None |}; {| sv_attrs := []; sv_ident := "Bazz"; sv_fields
  := FieldsUnit; sv_discriminant := None |}]);
  (ItemEnum [{| at_meta := (AList (Some "repr") [(APath (Some "C"))]); at_outer := true |}] "Bar" [(SGType "T" None)] [{| sv_attrs :=
  []; sv_ident := "Bar1"; sv_fields := (FieldsNamed [{| sf_attrs := []; sf_ident := (Some "x"); sf_ty := (SPath (SegPath [] "i32"
  NoArgs)) |}; {| sf_attrs := []; sf_ident := (Some "y"); sf_ty := (SPath (SegPath [] "Point" (AngleArgs [(ArgType (SPath (SegPath
  [] "T" NoArgs)))]))) |}; {| sf_attrs := []; sf_ident := (Some "z"); sf_ty := (SPath (SegPath [] "Point" (AngleArgs [(ArgType (SPath
  (SegPath [] "f32" NoArgs)))]))) |}; {| sf_attrs := []; sf_ident := (Some "u"); sf_ty := (SFnPtr [(None, (SPath (SegPath [] "i32"
  NoArgs)))] false (Some (SPath (SegPath [] "i32" NoArgs)))) |}]); sv_discriminant := None |}; {| sv_attrs := []; sv_ident := "Bar2";
  sv_fields := (FieldsUnnamed [{| sf_attrs := []; sf_ident := None; sf_ty := (SPath (SegPath [] "T" NoArgs)) |}]); sv_discriminant
  := None |}; {| sv_attrs := []; sv_ident := "Bar3"; sv_fields := (FieldsUnnamed [{| sf_attrs := []; sf_ident := None; sf_ty := (SPath
  (SegPath [] "Point" (AngleArgs [(ArgType (SPath (SegPath [] "T" NoArgs)))]))) |}]); sv_discriminant := None |}; {| sv_attrs := [];
  sv_ident := "Bar4"; sv_fields := FieldsUnit; sv_discriminant := None |}]);
  (ItemEnum [{| at_meta := (AList (Some "repr") [(APath (Some "u8"))]); at_outer := true |}] "Baz" [] [{| sv_attrs := []; sv_ident :=
  "Baz1"; sv_fields := (FieldsUnnamed [{| sf_attrs := []; sf_ident := None; sf_ty := (SPath (SegPath [] "Bar" (AngleArgs [(ArgType
  (SPath (SegPath [] "u32" NoArgs)))]))) |}]); sv_discriminant := None |}; {| sv_attrs := []; sv_ident := "Baz2"; sv_fields := (FieldsUnnamed
  [{| sf_attrs := []; sf_ident := None; sf_ty := (SPath (SegPath [] "Point" (AngleArgs [(ArgType (SPath (SegPath [] "i32" NoArgs)))])))
  |}]); sv_discriminant := None |}; {| sv_attrs := []; sv_ident := "Baz3"; sv_fields := FieldsUnit; sv_discriminant := None |}]);
  (ItemEnum [{| at_meta := (AList (Some "repr") [(APath (Some "C")); (APath (Some "u8"))]); at_outer := true |}] "Taz" [] [{| sv_attrs
  := []; sv_ident := "Taz1"; sv_fields := (FieldsUnnamed [{| sf_attrs := []; sf_ident := None; sf_ty := (SPath (SegPath [] "Bar" (AngleArgs
  [(ArgType (SPath (SegPath [] "u32" NoArgs)))]))) |}]); sv_discriminant := None |}; {| sv_attrs := []; sv_ident := "Taz2"; sv_fields
  := (FieldsUnnamed [{| sf_attrs := []; sf_ident := None; sf_ty := (SPath (SegPath [] "Baz" NoArgs)) |}]); sv_discriminant := None
  |}; {| sv_attrs := []; sv_ident := "Taz3"; sv_fields := FieldsUnit; sv_discriminant := None |}]);
  (ItemFn [{| at_meta := (APath (Some "no_mangle")); at_outer := true |}] true {| sg_ident := "foo"; sg_abi := (Some (Some "C")); sg_inputs
  := [(FnTyped (PatIdent "foo") (SPtr false (SPath (SegPath [] "Foo" (AngleArgs [(ArgType (SPath (SegPath [] "i32" NoArgs)))])))));
  (FnTyped (PatIdent "bar") (SPtr false (SPath (SegPath [] "Bar" (AngleArgs [(ArgType (SPath (SegPath [] "i32" NoArgs)))]))))); (FnTyped
  (PatIdent "baz") (SPtr false (SPath (SegPath [] "Baz" NoArgs)))); (FnTyped (PatIdent "taz") (SPtr false (SPath (SegPath [] "Taz"
  NoArgs))))]; sg_variadic := false; sg_output := None |})].
Definition transform_op_toml : Config := {| header := None; includes_ := []; sys_includes_ := []; after_includes := None; trailer := None;
  include_guard_ := None; pragma_once := false; no_includes := false; package_version := false; autogen_warning := None; include_version := false;
  namespace := None; namespaces := None; using_namespaces := None; braces := SameLine; line_length := 100; tab_width := 2; line_endings := LF;
  language := Cxx; cpp_compat := false; style := Both; sort_by := SortNone; usize_is_size_t := false; parse := default_parse; export := {| ex_include := []; ex_exclude := []; ex_rename := []; ex_pre_body := []; ex_body := []; ex_prefix := (Some "Style"); ex_item_types := []; ex_renaming_overrides_prefixing := false; ex_mangle := {| rename_types := RNone; remove_underscores := false |} |};
  layout := {| ly_packed := None; ly_aligned_n := None |}; function := {| fn_prefix := None; fn_postfix := None; fn_must_use := None; fn_deprecated := None; fn_deprecated_with_note := None; fn_args := Auto; fn_rename_args := RNone; fn_swift_name_macro := None; fn_sort_by := None; fn_no_return := None |}; structure := {| st_rename_fields := RNone; st_derive_constructor := false; st_derive_eq := false; st_derive_neq := false; st_derive_lt := false; st_derive_lte := false; st_derive_gt := false; st_derive_gte := false; st_derive_ostream := false; st_associated_constants_in_body := false; st_rename_associated_constant := RNone; st_must_use := None; st_deprecated := None; st_deprecated_with_note := None |}; enumeration := {| en_rename_variants := RNone; en_rename_variant_name_fields := SnakeCase; en_add_sentinel := false; en_prefix_with_name := false; en_derive_helper_methods := true; en_derive_const_casts := true; en_derive_mut_casts := true; en_cast_assert_name := None; en_must_use := None; en_deprecated := None; en_deprecated_with_note := None; en_deprecated_variant := None; en_deprecated_variant_with_note := None; en_derive_tagged_enum_destructor := false; en_derive_tagged_enum_copy_constructor := false; en_derive_tagged_enum_copy_assignment := false; en_derive_ostream := false; en_enum_class := true; en_private_default_tagged_enum_constructor := false |}; constant := {| co_allow_static_const := true; co_allow_constexpr := true; co_sort_by := None |}; defines := []; documentation := true;
  documentation_style := DocAuto; documentation_length := Full; pointer := {| pt_non_null_attribute := None; pt_nullable_attribute := None |}; cython := {| cy_header := None; cy_cimports := [] |}; config_path := None |}.
(** tests/expectations/transform_op.compat.c *)
Definition transform_op_compat : string := "#include <stdarg.h>
#include <stdbool.h>
#include <stdint.h>
#include <stdlib.h>

typedef struct {
  int32_t x;
  int32_t y;
} StylePoint_i32;

typedef struct {
  float x;
  float y;
} StylePoint_f32;

enum StyleFoo_i32_Tag
#if defined(__cplusplus) || __STDC_VERSION__ >= 202311L
  : uint8_t
#endif // defined(__cplusplus) || __STDC_VERSION__ >= 202311L
 {
  Foo_i32,
  Bar_i32,
  Baz_i32,
  Bazz_i32,
};
#ifndef __cplusplus
#if __STDC_VERSION__ >= 202311L
typedef enum StyleFoo_i32_Tag StyleFoo_i32_Tag;
#else
typedef uint8_t StyleFoo_i32_Tag;
#endif // __STDC_VERSION__ >= 202311L
#endif // __cplusplus

typedef struct {
  StyleFoo_i32_Tag tag;
  int32_t x;
  StylePoint_i32 y;
  StylePoint_f32 z;
} StyleFoo_Body_i32;

typedef union {
  StyleFoo_i32_Tag tag;
  StyleFoo_Body_i32 foo;
  struct {
    StyleFoo_i32_Tag bar_tag;
    int32_t bar;
  };
  struct {
    StyleFoo_i32_Tag baz_tag;
    StylePoint_i32 baz;
  };
} StyleFoo_i32;

typedef enum {
  Bar1_i32,
  Bar2_i32,
  Bar3_i32,
  Bar4_i32,
} StyleBar_i32_Tag;

typedef struct {
  int32_t x;
  StylePoint_i32 y;
  StylePoint_f32 z;
  int32_t (*u)(int32_t);
} StyleBar1_Body_i32;

typedef struct {
  StyleBar_i32_Tag tag;
  union {
    StyleBar1_Body_i32 bar1;
    struct {
      int32_t bar2;
    };
    struct {
      StylePoint_i32 bar3;
    };
  };
} StyleBar_i32;

typedef struct {
  uint32_t x;
  uint32_t y;
} StylePoint_u32;

typedef enum {
  Bar1_u32,
  Bar2_u32,
  Bar3_u32,
  Bar4_u32,
} StyleBar_u32_Tag;

typedef struct {
  int32_t x;
  StylePoint_u32 y;
  StylePoint_f32 z;
  int32_t (*u)(int32_t);
} StyleBar1_Body_u32;

typedef struct {
  StyleBar_u32_Tag tag;
  union {
    StyleBar1_Body_u32 bar1;
    struct {
      uint32_t bar2;
    };
    struct {
      StylePoint_u32 bar3;
    };
  };
} StyleBar_u32;

enum StyleBaz_Tag
#if defined(__cplusplus) || __STDC_VERSION__ >= 202311L
  : uint8_t
#endif // defined(__cplusplus) || __STDC_VERSION__ >= 202311L
 {
  Baz1,
  Baz2,
  Baz3,
};
#ifndef __cplusplus
#if __STDC_VERSION__ >= 202311L
typedef enum StyleBaz_Tag StyleBaz_Tag;
#else
typedef uint8_t StyleBaz_Tag;
#endif // __STDC_VERSION__ >= 202311L
#endif // __cplusplus

typedef union {
  StyleBaz_Tag tag;
  struct {
    StyleBaz_Tag baz1_tag;
    StyleBar_u32 baz1;
  };
  struct {
    StyleBaz_Tag baz2_tag;
    StylePoint_i32 baz2;
  };
} StyleBaz;

enum StyleTaz_Tag
#if defined(__cplusplus) || __STDC_VERSION__ >= 202311L
  : uint8_t
#endif // defined(__cplusplus) || __STDC_VERSION__ >= 202311L
 {
  Taz1,
  Taz2,
  Taz3,
};
#ifndef __cplusplus
#if __STDC_VERSION__ >= 202311L
typedef enum StyleTaz_Tag StyleTaz_Tag;
#else
typedef uint8_t StyleTaz_Tag;
#endif // __STDC_VERSION__ >= 202311L
#endif // __cplusplus

typedef struct {
  StyleTaz_Tag tag;
  union {
    struct {
      StyleBar_u32 taz1;
    };
    struct {
      StyleBaz taz2;
    };
  };
} StyleTaz;

#ifdef __cplusplus
extern ""C"" {
#endif // __cplusplus

void foo(const StyleFoo_i32 *foo,
         const StyleBar_i32 *bar,
         const StyleBaz *baz,
         const StyleTaz *taz);

#ifdef __cplusplus
}  // extern ""C""
#endif  // __cplusplus
".
(** tests/expectations/transform_op_tag.compat.c *)
Definition transform_op_compat_tag : string := "#include <stdarg.h>
#include <stdbool.h>
#include <stdint.h>
#include <stdlib.h>

struct StylePoint_i32 {
  int32_t x;
  int32_t y;
};

struct StylePoint_f32 {
  float x;
  float y;
};

enum StyleFoo_i32_Tag
#if defined(__cplusplus) || __STDC_VERSION__ >= 202311L
  : uint8_t
#endif // defined(__cplusplus) || __STDC_VERSION__ >= 202311L
 {
  Foo_i32,
  Bar_i32,
  Baz_i32,
  Bazz_i32,
};
#ifndef __cplusplus
#if __STDC_VERSION__ >= 202311L
typedef enum StyleFoo_i32_Tag StyleFoo_i32_Tag;
#else
typedef uint8_t StyleFoo_i32_Tag;
#endif // __STDC_VERSION__ >= 202311L
#endif // __cplusplus

struct StyleFoo_Body_i32 {
  StyleFoo_i32_Tag tag;
  int32_t x;
  struct StylePoint_i32 y;
  struct StylePoint_f32 z;
};

union StyleFoo_i32 {
  StyleFoo_i32_Tag tag;
  struct StyleFoo_Body_i32 foo;
  struct {
    StyleFoo_i32_Tag bar_tag;
    int32_t bar;
  };
  struct {
    StyleFoo_i32_Tag baz_tag;
    struct StylePoint_i32 baz;
  };
};

enum StyleBar_i32_Tag {
  Bar1_i32,
  Bar2_i32,
  Bar3_i32,
  Bar4_i32,
};

struct StyleBar1_Body_i32 {
  int32_t x;
  struct StylePoint_i32 y;
  struct StylePoint_f32 z;
  int32_t (*u)(int32_t);
};

struct StyleBar_i32 {
  enum StyleBar_i32_Tag tag;
  union {
    struct StyleBar1_Body_i32 bar1;
    struct {
      int32_t bar2;
    };
    struct {
      struct StylePoint_i32 bar3;
    };
  };
};

struct StylePoint_u32 {
  uint32_t x;
  uint32_t y;
};

enum StyleBar_u32_Tag {
  Bar1_u32,
  Bar2_u32,
  Bar3_u32,
  Bar4_u32,
};

struct StyleBar1_Body_u32 {
  int32_t x;
  struct StylePoint_u32 y;
  struct StylePoint_f32 z;
  int32_t (*u)(int32_t);
};

struct StyleBar_u32 {
  enum StyleBar_u32_Tag tag;
  union {
    struct StyleBar1_Body_u32 bar1;
    struct {
      uint32_t bar2;
    };
    struct {
      struct StylePoint_u32 bar3;
    };
  };
};

enum StyleBaz_Tag
#if defined(__cplusplus) || __STDC_VERSION__ >= 202311L
  : uint8_t
#endif // defined(__cplusplus) || __STDC_VERSION__ >= 202311L
 {
  Baz1,
  Baz2,
  Baz3,
};
#ifndef __cplusplus
#if __STDC_VERSION__ >= 202311L
typedef enum StyleBaz_Tag StyleBaz_Tag;
#else
typedef uint8_t StyleBaz_Tag;
#endif // __STDC_VERSION__ >= 202311L
#endif // __cplusplus

union StyleBaz {
  StyleBaz_Tag tag;
  struct {
    StyleBaz_Tag baz1_tag;
    struct StyleBar_u32 baz1;
  };
  struct {
    StyleBaz_Tag baz2_tag;
    struct StylePoint_i32 baz2;
  };
};

enum StyleTaz_Tag
#if defined(__cplusplus) || __STDC_VERSION__ >= 202311L
  : uint8_t
#endif // defined(__cplusplus) || __STDC_VERSION__ >= 202311L
 {
  Taz1,
  Taz2,
  Taz3,
};
#ifndef __cplusplus
#if __STDC_VERSION__ >= 202311L
typedef enum StyleTaz_Tag StyleTaz_Tag;
#else
typedef uint8_t StyleTaz_Tag;
#endif // __STDC_VERSION__ >= 202311L
#endif // __cplusplus

struct StyleTaz {
  StyleTaz_Tag tag;
  union {
    struct {
      struct StyleBar_u32 taz1;
    };
    struct {
      union StyleBaz taz2;
    };
  };
};

#ifdef __cplusplus
extern ""C"" {
#endif // __cplusplus

void foo(const union StyleFoo_i32 *foo,
         const struct StyleBar_i32 *bar,
         const union StyleBaz *baz,
         const struct StyleTaz *taz);

#ifdef __cplusplus
}  // extern ""C""
#endif  // __cplusplus
".
(** tests/expectations/transform_op_both.compat.c *)
Definition transform_op_compat_both : string := "#include <stdarg.h>
#include <stdbool.h>
#include <stdint.h>
#include <stdlib.h>

typedef struct StylePoint_i32 {
  int32_t x;
  int32_t y;
} StylePoint_i32;

typedef struct StylePoint_f32 {
  float x;
  float y;
} StylePoint_f32;

enum StyleFoo_i32_Tag
#if defined(__cplusplus) || __STDC_VERSION__ >= 202311L
  : uint8_t
#endif // defined(__cplusplus) || __STDC_VERSION__ >= 202311L
 {
  Foo_i32,
  Bar_i32,
  Baz_i32,
  Bazz_i32,
};
#ifndef __cplusplus
#if __STDC_VERSION__ >= 202311L
typedef enum StyleFoo_i32_Tag StyleFoo_i32_Tag;
#else
typedef uint8_t StyleFoo_i32_Tag;
#endif // __STDC_VERSION__ >= 202311L
#endif // __cplusplus

typedef struct StyleFoo_Body_i32 {
  StyleFoo_i32_Tag tag;
  int32_t x;
  struct StylePoint_i32 y;
  struct StylePoint_f32 z;
} StyleFoo_Body_i32;

typedef union StyleFoo_i32 {
  StyleFoo_i32_Tag tag;
  StyleFoo_Body_i32 foo;
  struct {
    StyleFoo_i32_Tag bar_tag;
    int32_t bar;
  };
  struct {
    StyleFoo_i32_Tag baz_tag;
    struct StylePoint_i32 baz;
  };
} StyleFoo_i32;

typedef enum StyleBar_i32_Tag {
  Bar1_i32,
  Bar2_i32,
  Bar3_i32,
  Bar4_i32,
} StyleBar_i32_Tag;

typedef struct StyleBar1_Body_i32 {
  int32_t x;
  struct StylePoint_i32 y;
  struct StylePoint_f32 z;
  int32_t (*u)(int32_t);
} StyleBar1_Body_i32;

typedef struct StyleBar_i32 {
  StyleBar_i32_Tag tag;
  union {
    StyleBar1_Body_i32 bar1;
    struct {
      int32_t bar2;
    };
    struct {
      struct StylePoint_i32 bar3;
    };
  };
} StyleBar_i32;

typedef struct StylePoint_u32 {
  uint32_t x;
  uint32_t y;
} StylePoint_u32;

typedef enum StyleBar_u32_Tag {
  Bar1_u32,
  Bar2_u32,
  Bar3_u32,
  Bar4_u32,
} StyleBar_u32_Tag;

typedef struct StyleBar1_Body_u32 {
  int32_t x;
  struct StylePoint_u32 y;
  struct StylePoint_f32 z;
  int32_t (*u)(int32_t);
} StyleBar1_Body_u32;

typedef struct StyleBar_u32 {
  StyleBar_u32_Tag tag;
  union {
    StyleBar1_Body_u32 bar1;
    struct {
      uint32_t bar2;
    };
    struct {
      struct StylePoint_u32 bar3;
    };
  };
} StyleBar_u32;

enum StyleBaz_Tag
#if defined(__cplusplus) || __STDC_VERSION__ >= 202311L
  : uint8_t
#endif // defined(__cplusplus) || __STDC_VERSION__ >= 202311L
 {
  Baz1,
  Baz2,
  Baz3,
};
#ifndef __cplusplus
#if __STDC_VERSION__ >= 202311L
typedef enum StyleBaz_Tag StyleBaz_Tag;
#else
typedef uint8_t StyleBaz_Tag;
#endif // __STDC_VERSION__ >= 202311L
#endif // __cplusplus

typedef union StyleBaz {
  StyleBaz_Tag tag;
  struct {
    StyleBaz_Tag baz1_tag;
    struct StyleBar_u32 baz1;
  };
  struct {
    StyleBaz_Tag baz2_tag;
    struct StylePoint_i32 baz2;
  };
} StyleBaz;

enum StyleTaz_Tag
#if defined(__cplusplus) || __STDC_VERSION__ >= 202311L
  : uint8_t
#endif // defined(__cplusplus) || __STDC_VERSION__ >= 202311L
 {
  Taz1,
  Taz2,
  Taz3,
};
#ifndef __cplusplus
#if __STDC_VERSION__ >= 202311L
typedef enum StyleTaz_Tag StyleTaz_Tag;
#else
typedef uint8_t StyleTaz_Tag;
#endif // __STDC_VERSION__ >= 202311L
#endif // __cplusplus

typedef struct StyleTaz {
  StyleTaz_Tag tag;
  union {
    struct {
      struct StyleBar_u32 taz1;
    };
    struct {
      union StyleBaz taz2;
    };
  };
} StyleTaz;

#ifdef __cplusplus
extern ""C"" {
#endif // __cplusplus

void foo(const union StyleFoo_i32 *foo,
         const struct StyleBar_i32 *bar,
         const union StyleBaz *baz,
         const struct StyleTaz *taz);

#ifdef __cplusplus
}  // extern ""C""
#endif  // __cplusplus
".
(** tests/expectations/transform_op.c *)
Definition transform_op_c : string := "#include <stdarg.h>
#include <stdbool.h>
#include <stdint.h>
#include <stdlib.h>

typedef struct {
  int32_t x;
  int32_t y;
} StylePoint_i32;

typedef struct {
  float x;
  float y;
} StylePoint_f32;

enum StyleFoo_i32_Tag
#if __STDC_VERSION__ >= 202311L
  : uint8_t
#endif // __STDC_VERSION__ >= 202311L
 {
  Foo_i32,
  Bar_i32,
  Baz_i32,
  Bazz_i32,
};
#if __STDC_VERSION__ >= 202311L
typedef enum StyleFoo_i32_Tag StyleFoo_i32_Tag;
#else
typedef uint8_t StyleFoo_i32_Tag;
#endif // __STDC_VERSION__ >= 202311L

typedef struct {
  StyleFoo_i32_Tag tag;
  int32_t x;
  StylePoint_i32 y;
  StylePoint_f32 z;
} StyleFoo_Body_i32;

typedef union {
  StyleFoo_i32_Tag tag;
  StyleFoo_Body_i32 foo;
  struct {
    StyleFoo_i32_Tag bar_tag;
    int32_t bar;
  };
  struct {
    StyleFoo_i32_Tag baz_tag;
    StylePoint_i32 baz;
  };
} StyleFoo_i32;

typedef enum {
  Bar1_i32,
  Bar2_i32,
  Bar3_i32,
  Bar4_i32,
} StyleBar_i32_Tag;

typedef struct {
  int32_t x;
  StylePoint_i32 y;
  StylePoint_f32 z;
  int32_t (*u)(int32_t);
} StyleBar1_Body_i32;

typedef struct {
  StyleBar_i32_Tag tag;
  union {
    StyleBar1_Body_i32 bar1;
    struct {
      int32_t bar2;
    };
    struct {
      StylePoint_i32 bar3;
    };
  };
} StyleBar_i32;

typedef struct {
  uint32_t x;
  uint32_t y;
} StylePoint_u32;

typedef enum {
  Bar1_u32,
  Bar2_u32,
  Bar3_u32,
  Bar4_u32,
} StyleBar_u32_Tag;

typedef struct {
  int32_t x;
  StylePoint_u32 y;
  StylePoint_f32 z;
  int32_t (*u)(int32_t);
} StyleBar1_Body_u32;

typedef struct {
  StyleBar_u32_Tag tag;
  union {
    StyleBar1_Body_u32 bar1;
    struct {
      uint32_t bar2;
    };
    struct {
      StylePoint_u32 bar3;
    };
  };
} StyleBar_u32;

enum StyleBaz_Tag
#if __STDC_VERSION__ >= 202311L
  : uint8_t
#endif // __STDC_VERSION__ >= 202311L
 {
  Baz1,
  Baz2,
  Baz3,
};
#if __STDC_VERSION__ >= 202311L
typedef enum StyleBaz_Tag StyleBaz_Tag;
#else
typedef uint8_t StyleBaz_Tag;
#endif // __STDC_VERSION__ >= 202311L

typedef union {
  StyleBaz_Tag tag;
  struct {
    StyleBaz_Tag baz1_tag;
    StyleBar_u32 baz1;
  };
  struct {
    StyleBaz_Tag baz2_tag;
    StylePoint_i32 baz2;
  };
} StyleBaz;

enum StyleTaz_Tag
#if __STDC_VERSION__ >= 202311L
  : uint8_t
#endif // __STDC_VERSION__ >= 202311L
 {
  Taz1,
  Taz2,
  Taz3,
};
#if __STDC_VERSION__ >= 202311L
typedef enum StyleTaz_Tag StyleTaz_Tag;
#else
typedef uint8_t StyleTaz_Tag;
#endif // __STDC_VERSION__ >= 202311L

typedef struct {
  StyleTaz_Tag tag;
  union {
    struct {
      StyleBar_u32 taz1;
    };
    struct {
      StyleBaz taz2;
    };
  };
} StyleTaz;

void foo(const StyleFoo_i32 *foo,
         const StyleBar_i32 *bar,
         const StyleBaz *baz,
         const StyleTaz *taz);
".
(** tests/expectations/transform_op_tag.c *)
Definition transform_op_c_tag : string := "#include <stdarg.h>
#include <stdbool.h>
#include <stdint.h>
#include <stdlib.h>

struct StylePoint_i32 {
  int32_t x;
  int32_t y;
};

struct StylePoint_f32 {
  float x;
  float y;
};

enum StyleFoo_i32_Tag
#if __STDC_VERSION__ >= 202311L
  : uint8_t
#endif // __STDC_VERSION__ >= 202311L
 {
  Foo_i32,
  Bar_i32,
  Baz_i32,
  Bazz_i32,
};
#if __STDC_VERSION__ >= 202311L
typedef enum StyleFoo_i32_Tag StyleFoo_i32_Tag;
#else
typedef uint8_t StyleFoo_i32_Tag;
#endif // __STDC_VERSION__ >= 202311L

struct StyleFoo_Body_i32 {
  StyleFoo_i32_Tag tag;
  int32_t x;
  struct StylePoint_i32 y;
  struct StylePoint_f32 z;
};

union StyleFoo_i32 {
  StyleFoo_i32_Tag tag;
  struct StyleFoo_Body_i32 foo;
  struct {
    StyleFoo_i32_Tag bar_tag;
    int32_t bar;
  };
  struct {
    StyleFoo_i32_Tag baz_tag;
    struct StylePoint_i32 baz;
  };
};

enum StyleBar_i32_Tag {
  Bar1_i32,
  Bar2_i32,
  Bar3_i32,
  Bar4_i32,
};

struct StyleBar1_Body_i32 {
  int32_t x;
  struct StylePoint_i32 y;
  struct StylePoint_f32 z;
  int32_t (*u)(int32_t);
};

struct StyleBar_i32 {
  enum StyleBar_i32_Tag tag;
  union {
    struct StyleBar1_Body_i32 bar1;
    struct {
      int32_t bar2;
    };
    struct {
      struct StylePoint_i32 bar3;
    };
  };
};

struct StylePoint_u32 {
  uint32_t x;
  uint32_t y;
};

enum StyleBar_u32_Tag {
  Bar1_u32,
  Bar2_u32,
  Bar3_u32,
  Bar4_u32,
};

struct StyleBar1_Body_u32 {
  int32_t x;
  struct StylePoint_u32 y;
  struct StylePoint_f32 z;
  int32_t (*u)(int32_t);
};

struct StyleBar_u32 {
  enum StyleBar_u32_Tag tag;
  union {
    struct StyleBar1_Body_u32 bar1;
    struct {
      uint32_t bar2;
    };
    struct {
      struct StylePoint_u32 bar3;
    };
  };
};

enum StyleBaz_Tag
#if __STDC_VERSION__ >= 202311L
  : uint8_t
#endif // __STDC_VERSION__ >= 202311L
 {
  Baz1,
  Baz2,
  Baz3,
};
#if __STDC_VERSION__ >= 202311L
typedef enum StyleBaz_Tag StyleBaz_Tag;
#else
typedef uint8_t StyleBaz_Tag;
#endif // __STDC_VERSION__ >= 202311L

union StyleBaz {
  StyleBaz_Tag tag;
  struct {
    StyleBaz_Tag baz1_tag;
    struct StyleBar_u32 baz1;
  };
  struct {
    StyleBaz_Tag baz2_tag;
    struct StylePoint_i32 baz2;
  };
};

enum StyleTaz_Tag
#if __STDC_VERSION__ >= 202311L
  : uint8_t
#endif // __STDC_VERSION__ >= 202311L
 {
  Taz1,
  Taz2,
  Taz3,
};
#if __STDC_VERSION__ >= 202311L
typedef enum StyleTaz_Tag StyleTaz_Tag;
#else
typedef uint8_t StyleTaz_Tag;
#endif // __STDC_VERSION__ >= 202311L

struct StyleTaz {
  StyleTaz_Tag tag;
  union {
    struct {
      struct StyleBar_u32 taz1;
    };
    struct {
      union StyleBaz taz2;
    };
  };
};

void foo(const union StyleFoo_i32 *foo,
         const struct StyleBar_i32 *bar,
         const union StyleBaz *baz,
         const struct StyleTaz *taz);
".
(** tests/expectations/transform_op_both.c *)
Definition transform_op_c_both : string := "#include <stdarg.h>
#include <stdbool.h>
#include <stdint.h>
#include <stdlib.h>

typedef struct StylePoint_i32 {
  int32_t x;
  int32_t y;
} StylePoint_i32;

typedef struct StylePoint_f32 {
  float x;
  float y;
} StylePoint_f32;

enum StyleFoo_i32_Tag
#if __STDC_VERSION__ >= 202311L
  : uint8_t
#endif // __STDC_VERSION__ >= 202311L
 {
  Foo_i32,
  Bar_i32,
  Baz_i32,
  Bazz_i32,
};
#if __STDC_VERSION__ >= 202311L
typedef enum StyleFoo_i32_Tag StyleFoo_i32_Tag;
#else
typedef uint8_t StyleFoo_i32_Tag;
#endif // __STDC_VERSION__ >= 202311L

typedef struct StyleFoo_Body_i32 {
  StyleFoo_i32_Tag tag;
  int32_t x;
  struct StylePoint_i32 y;
  struct StylePoint_f32 z;
} StyleFoo_Body_i32;

typedef union StyleFoo_i32 {
  StyleFoo_i32_Tag tag;
  StyleFoo_Body_i32 foo;
  struct {
    StyleFoo_i32_Tag bar_tag;
    int32_t bar;
  };
  struct {
    StyleFoo_i32_Tag baz_tag;
    struct StylePoint_i32 baz;
  };
} StyleFoo_i32;

typedef enum StyleBar_i32_Tag {
  Bar1_i32,
  Bar2_i32,
  Bar3_i32,
  Bar4_i32,
} StyleBar_i32_Tag;

typedef struct StyleBar1_Body_i32 {
  int32_t x;
  struct StylePoint_i32 y;
  struct StylePoint_f32 z;
  int32_t (*u)(int32_t);
} StyleBar1_Body_i32;

typedef struct StyleBar_i32 {
  StyleBar_i32_Tag tag;
  union {
    StyleBar1_Body_i32 bar1;
    struct {
      int32_t bar2;
    };
    struct {
      struct StylePoint_i32 bar3;
    };
  };
} StyleBar_i32;

typedef struct StylePoint_u32 {
  uint32_t x;
  uint32_t y;
} StylePoint_u32;

typedef enum StyleBar_u32_Tag {
  Bar1_u32,
  Bar2_u32,
  Bar3_u32,
  Bar4_u32,
} StyleBar_u32_Tag;

typedef struct StyleBar1_Body_u32 {
  int32_t x;
  struct StylePoint_u32 y;
  struct StylePoint_f32 z;
  int32_t (*u)(int32_t);
} StyleBar1_Body_u32;

typedef struct StyleBar_u32 {
  StyleBar_u32_Tag tag;
  union {
    StyleBar1_Body_u32 bar1;
    struct {
      uint32_t bar2;
    };
    struct {
      struct StylePoint_u32 bar3;
    };
  };
} StyleBar_u32;

enum StyleBaz_Tag
#if __STDC_VERSION__ >= 202311L
  : uint8_t
#endif // __STDC_VERSION__ >= 202311L
 {
  Baz1,
  Baz2,
  Baz3,
};
#if __STDC_VERSION__ >= 202311L
typedef enum StyleBaz_Tag StyleBaz_Tag;
#else
typedef uint8_t StyleBaz_Tag;
#endif // __STDC_VERSION__ >= 202311L

typedef union StyleBaz {
  StyleBaz_Tag tag;
  struct {
    StyleBaz_Tag baz1_tag;
    struct StyleBar_u32 baz1;
  };
  struct {
    StyleBaz_Tag baz2_tag;
    struct StylePoint_i32 baz2;
  };
} StyleBaz;

enum StyleTaz_Tag
#if __STDC_VERSION__ >= 202311L
  : uint8_t
#endif // __STDC_VERSION__ >= 202311L
 {
  Taz1,
  Taz2,
  Taz3,
};
#if __STDC_VERSION__ >= 202311L
typedef enum StyleTaz_Tag StyleTaz_Tag;
#else
typedef uint8_t StyleTaz_Tag;
#endif // __STDC_VERSION__ >= 202311L

typedef struct StyleTaz {
  StyleTaz_Tag tag;
  union {
    struct {
      struct StyleBar_u32 taz1;
    };
    struct {
      union StyleBaz taz2;
    };
  };
} StyleTaz;

void foo(const union StyleFoo_i32 *foo,
         const struct StyleBar_i32 *bar,
         const union StyleBaz *baz,
         const struct StyleTaz *taz);
".
(** tests/expectations/transform_op.cpp *)
Definition transform_op_cpp : string := "#include <cstdarg>
#include <cstdint>
#include <cstdlib>
#include <ostream>
#include <new>
#include <cassert>

template<typename T>
struct StylePoint {
  T x;
  T y;
};

template<typename T>
union StyleFoo {
  enum class Tag : uint8_t {
    Foo,
    Bar,
    Baz,
    Bazz,
  };

  struct Foo_Body {
    Tag tag;
    int32_t x;
    StylePoint<T> y;
    StylePoint<float> z;
  };

  struct Bar_Body {
    Tag tag;
    T _0;
  };

  struct Baz_Body {
    Tag tag;
    StylePoint<T> _0;
  };

  struct {
    Tag tag;
  };
  Foo_Body foo;
  Bar_Body bar;
  Baz_Body baz;

  static StyleFoo Foo(const int32_t &x,
                      const StylePoint<T> &y,
                      const StylePoint<float> &z) {
    StyleFoo result;
    ::new (&result.foo.x) (int32_t)(x);
    ::new (&result.foo.y) (StylePoint<T>)(y);
    ::new (&result.foo.z) (StylePoint<float>)(z);
    result.tag = Tag::Foo;
    return result;
  }

  bool IsFoo() const {
    return tag == Tag::Foo;
  }

  const Foo_Body& AsFoo() const {
    assert(IsFoo());
    return foo;
  }

  Foo_Body& AsFoo() {
    assert(IsFoo());
    return foo;
  }

  static StyleFoo Bar(const T &_0) {
    StyleFoo result;
    ::new (&result.bar._0) (T)(_0);
    result.tag = Tag::Bar;
    return result;
  }

  bool IsBar() const {
    return tag == Tag::Bar;
  }

  const T& AsBar() const {
    assert(IsBar());
    return bar._0;
  }

  T& AsBar() {
    assert(IsBar());
    return bar._0;
  }

  static StyleFoo Baz(const StylePoint<T> &_0) {
    StyleFoo result;
    ::new (&result.baz._0) (StylePoint<T>)(_0);
    result.tag = Tag::Baz;
    return result;
  }

  bool IsBaz() const {
    return tag == Tag::Baz;
  }

  const StylePoint<T>& AsBaz() const {
    assert(IsBaz());
    return baz._0;
  }

  StylePoint<T>& AsBaz() {
    assert(IsBaz());
    return baz._0;
  }

  static StyleFoo Bazz() {
    StyleFoo result;
    result.tag = Tag::Bazz;
    return result;
  }

  bool IsBazz() const {
    return tag == Tag::Bazz;
  }
};

template<typename T>
struct StyleBar {
  enum class Tag {
    Bar1,
    Bar2,
    Bar3,
    Bar4,
  };

  struct StyleBar1_Body {
    int32_t x;
    StylePoint<T> y;
    StylePoint<float> z;
    int32_t (*u)(int32_t);
  };

  struct StyleBar2_Body {
    T _0;
  };

  struct StyleBar3_Body {
    StylePoint<T> _0;
  };

  Tag tag;
  union {
    StyleBar1_Body bar1;
    StyleBar2_Body bar2;
    StyleBar3_Body bar3;
  };

  static StyleBar Bar1(const int32_t &x,
                       const StylePoint<T> &y,
                       const StylePoint<float> &z,
                       int32_t (*&u)(int32_t)) {
    StyleBar result;
    ::new (&result.bar1.x) (int32_t)(x);
    ::new (&result.bar1.y) (StylePoint<T>)(y);
    ::new (&result.bar1.z) (StylePoint<float>)(z);
    ::new (&result.bar1.u) (int32_t(*)(int32_t))(u);
    result.tag = Tag::Bar1;
    return result;
  }

  bool IsBar1() const {
    return tag == Tag::Bar1;
  }

  const StyleBar1_Body& AsBar1() const {
    assert(IsBar1());
    return bar1;
  }

  StyleBar1_Body& AsBar1() {
    assert(IsBar1());
    return bar1;
  }

  static StyleBar Bar2(const T &_0) {
    StyleBar result;
    ::new (&result.bar2._0) (T)(_0);
    result.tag = Tag::Bar2;
    return result;
  }

  bool IsBar2() const {
    return tag == Tag::Bar2;
  }

  const T& AsBar2() const {
    assert(IsBar2());
    return bar2._0;
  }

  T& AsBar2() {
    assert(IsBar2());
    return bar2._0;
  }

  static StyleBar Bar3(const StylePoint<T> &_0) {
    StyleBar result;
    ::new (&result.bar3._0) (StylePoint<T>)(_0);
    result.tag = Tag::Bar3;
    return result;
  }

  bool IsBar3() const {
    return tag == Tag::Bar3;
  }

  const StylePoint<T>& AsBar3() const {
    assert(IsBar3());
    return bar3._0;
  }

  StylePoint<T>& AsBar3() {
    assert(IsBar3());
    return bar3._0;
  }

  static StyleBar Bar4() {
    StyleBar result;
    result.tag = Tag::Bar4;
    return result;
  }

  bool IsBar4() const {
    return tag == Tag::Bar4;
  }
};

union StyleBaz {
  enum class Tag : uint8_t {
    Baz1,
    Baz2,
    Baz3,
  };

  struct Baz1_Body {
    Tag tag;
    StyleBar<uint32_t> _0;
  };

  struct Baz2_Body {
    Tag tag;
    StylePoint<int32_t> _0;
  };

  struct {
    Tag tag;
  };
  Baz1_Body baz1;
  Baz2_Body baz2;

  static StyleBaz Baz1(const StyleBar<uint32_t> &_0) {
    StyleBaz result;
    ::new (&result.baz1._0) (StyleBar<uint32_t>)(_0);
    result.tag = Tag::Baz1;
    return result;
  }

  bool IsBaz1() const {
    return tag == Tag::Baz1;
  }

  const StyleBar<uint32_t>& AsBaz1() const {
    assert(IsBaz1());
    return baz1._0;
  }

  StyleBar<uint32_t>& AsBaz1() {
    assert(IsBaz1());
    return baz1._0;
  }

  static StyleBaz Baz2(const StylePoint<int32_t> &_0) {
    StyleBaz result;
    ::new (&result.baz2._0) (StylePoint<int32_t>)(_0);
    result.tag = Tag::Baz2;
    return result;
  }

  bool IsBaz2() const {
    return tag == Tag::Baz2;
  }

  const StylePoint<int32_t>& AsBaz2() const {
    assert(IsBaz2());
    return baz2._0;
  }

  StylePoint<int32_t>& AsBaz2() {
    assert(IsBaz2());
    return baz2._0;
  }

  static StyleBaz Baz3() {
    StyleBaz result;
    result.tag = Tag::Baz3;
    return result;
  }

  bool IsBaz3() const {
    return tag == Tag::Baz3;
  }
};

struct StyleTaz {
  enum class Tag : uint8_t {
    Taz1,
    Taz2,
    Taz3,
  };

  struct StyleTaz1_Body {
    StyleBar<uint32_t> _0;
  };

  struct StyleTaz2_Body {
    StyleBaz _0;
  };

  Tag tag;
  union {
    StyleTaz1_Body taz1;
    StyleTaz2_Body taz2;
  };

  static StyleTaz Taz1(const StyleBar<uint32_t> &_0) {
    StyleTaz result;
    ::new (&result.taz1._0) (StyleBar<uint32_t>)(_0);
    result.tag = Tag::Taz1;
    return result;
  }

  bool IsTaz1() const {
    return tag == Tag::Taz1;
  }

  const StyleBar<uint32_t>& AsTaz1() const {
    assert(IsTaz1());
    return taz1._0;
  }

  StyleBar<uint32_t>& AsTaz1() {
    assert(IsTaz1());
    return taz1._0;
  }

  static StyleTaz Taz2(const StyleBaz &_0) {
    StyleTaz result;
    ::new (&result.taz2._0) (StyleBaz)(_0);
    result.tag = Tag::Taz2;
    return result;
  }

  bool IsTaz2() const {
    return tag == Tag::Taz2;
  }

  const StyleBaz& AsTaz2() const {
    assert(IsTaz2());
    return taz2._0;
  }

  StyleBaz& AsTaz2() {
    assert(IsTaz2());
    return taz2._0;
  }

  static StyleTaz Taz3() {
    StyleTaz result;
    result.tag = Tag::Taz3;
    return result;
  }

  bool IsTaz3() const {
    return tag == Tag::Taz3;
  }
};

extern ""C"" {

void foo(const StyleFoo<int32_t> *foo,
         const StyleBar<int32_t> *bar,
         const StyleBaz *baz,
         const StyleTaz *taz);

}  // extern ""C""
".
(** tests/expectations/transform_op.pyx *)
Definition transform_op_pyx : string := "from libc.stdint cimport int8_t, int16_t, int32_t, int64_t, intptr_t
from libc.stdint cimport uint8_t, uint16_t, uint32_t, uint64_t, uintptr_t
cdef extern from *:
  ctypedef bint bool
  ctypedef struct va_list

cdef extern from *:

  ctypedef struct StylePoint_i32:
    int32_t x;
    int32_t y;

  ctypedef struct StylePoint_f32:
    float x;
    float y;

  cdef enum:
    Foo_i32,
    Bar_i32,
    Baz_i32,
    Bazz_i32,
  ctypedef uint8_t StyleFoo_i32_Tag;

  ctypedef struct StyleFoo_Body_i32:
    StyleFoo_i32_Tag tag;
    int32_t x;
    StylePoint_i32 y;
    StylePoint_f32 z;

  ctypedef union StyleFoo_i32:
    StyleFoo_i32_Tag tag;
    StyleFoo_Body_i32 foo;
    int32_t bar;
    StylePoint_i32 baz;

  ctypedef enum StyleBar_i32_Tag:
    Bar1_i32,
    Bar2_i32,
    Bar3_i32,
    Bar4_i32,

  ctypedef struct StyleBar1_Body_i32:
    int32_t x;
    StylePoint_i32 y;
    StylePoint_f32 z;
    int32_t (*u)(int32_t);

  ctypedef struct StyleBar_i32:
    StyleBar_i32_Tag tag;
    StyleBar1_Body_i32 bar1;
    int32_t bar2;
    StylePoint_i32 bar3;

  ctypedef struct StylePoint_u32:
    uint32_t x;
    uint32_t y;

  ctypedef enum StyleBar_u32_Tag:
    Bar1_u32,
    Bar2_u32,
    Bar3_u32,
    Bar4_u32,

  ctypedef struct StyleBar1_Body_u32:
    int32_t x;
    StylePoint_u32 y;
    StylePoint_f32 z;
    int32_t (*u)(int32_t);

  ctypedef struct StyleBar_u32:
    StyleBar_u32_Tag tag;
    StyleBar1_Body_u32 bar1;
    uint32_t bar2;
    StylePoint_u32 bar3;

  cdef enum:
    Baz1,
    Baz2,
    Baz3,
  ctypedef uint8_t StyleBaz_Tag;

  ctypedef union StyleBaz:
    StyleBaz_Tag tag;
    StyleBar_u32 baz1;
    StylePoint_i32 baz2;

  cdef enum:
    Taz1,
    Taz2,
    Taz3,
  ctypedef uint8_t StyleTaz_Tag;

  ctypedef struct StyleTaz:
    StyleTaz_Tag tag;
    StyleBar_u32 taz1;
    StyleBaz taz2;

  void foo(const StyleFoo_i32 *foo,
           const StyleBar_i32 *bar,
           const StyleBaz *baz,
           const StyleTaz *taz);
".
(** tests/expectations/transform_op_tag.pyx *)
Definition transform_op_pyx_tag : string := "from libc.stdint cimport int8_t, int16_t, int32_t, int64_t, intptr_t
from libc.stdint cimport uint8_t, uint16_t, uint32_t, uint64_t, uintptr_t
cdef extern from *:
  ctypedef bint bool
  ctypedef struct va_list

cdef extern from *:

  cdef struct StylePoint_i32:
    int32_t x;
    int32_t y;

  cdef struct StylePoint_f32:
    float x;
    float y;

  cdef enum:
    Foo_i32,
    Bar_i32,
    Baz_i32,
    Bazz_i32,
  ctypedef uint8_t StyleFoo_i32_Tag;

  cdef struct StyleFoo_Body_i32:
    StyleFoo_i32_Tag tag;
    int32_t x;
    StylePoint_i32 y;
    StylePoint_f32 z;

  cdef union StyleFoo_i32:
    StyleFoo_i32_Tag tag;
    StyleFoo_Body_i32 foo;
    int32_t bar;
    StylePoint_i32 baz;

  cdef enum StyleBar_i32_Tag:
    Bar1_i32,
    Bar2_i32,
    Bar3_i32,
    Bar4_i32,

  cdef struct StyleBar1_Body_i32:
    int32_t x;
    StylePoint_i32 y;
    StylePoint_f32 z;
    int32_t (*u)(int32_t);

  cdef struct StyleBar_i32:
    StyleBar_i32_Tag tag;
    StyleBar1_Body_i32 bar1;
    int32_t bar2;
    StylePoint_i32 bar3;

  cdef struct StylePoint_u32:
    uint32_t x;
    uint32_t y;

  cdef enum StyleBar_u32_Tag:
    Bar1_u32,
    Bar2_u32,
    Bar3_u32,
    Bar4_u32,

  cdef struct StyleBar1_Body_u32:
    int32_t x;
    StylePoint_u32 y;
    StylePoint_f32 z;
    int32_t (*u)(int32_t);

  cdef struct StyleBar_u32:
    StyleBar_u32_Tag tag;
    StyleBar1_Body_u32 bar1;
    uint32_t bar2;
    StylePoint_u32 bar3;

  cdef enum:
    Baz1,
    Baz2,
    Baz3,
  ctypedef uint8_t StyleBaz_Tag;

  cdef union StyleBaz:
    StyleBaz_Tag tag;
    StyleBar_u32 baz1;
    StylePoint_i32 baz2;

  cdef enum:
    Taz1,
    Taz2,
    Taz3,
  ctypedef uint8_t StyleTaz_Tag;

  cdef struct StyleTaz:
    StyleTaz_Tag tag;
    StyleBar_u32 taz1;
    StyleBaz taz2;

  void foo(const StyleFoo_i32 *foo,
           const StyleBar_i32 *bar,
           const StyleBaz *baz,
           const StyleTaz *taz);
".
Example transform_op_reproduced : reproduces (in_file transform_op_rs) false transform_op_toml (Some "{
foo;
};")
  [(RunC true Type_, [transform_op_compat]);
   (RunC true Tag, [transform_op_compat_tag]);
   (RunC true Both, [transform_op_compat_both]);
   (RunC false Type_, [transform_op_c]);
   (RunC false Tag, [transform_op_c_tag]);
   (RunC false Both, [transform_op_c_both]);
   (RunCxx, [transform_op_cpp]);
   (RunCython Type_, [transform_op_pyx]);
   (RunCython Tag, [transform_op_pyx_tag])] = true.
Proof. vm_compute. reflexivity. Qed.

(** ** tests/rust/transparent.rs *)
Definition transparent_rs : list sitem := [
  (ItemStruct [] "DummyStruct" [] FieldsUnit);
  (ItemStruct [{| at_meta := (AList (Some "repr") [(APath (Some "transparent"))]); at_outer := true |}] "TransparentComplexWrappingStructTuple"
  [] (FieldsUnnamed [{| sf_attrs := []; sf_ident := None; sf_ty := (SPath (SegPath [] "DummyStruct" NoArgs)) |}]));
  (ItemStruct [{| at_meta := (AList (Some "repr") [(APath (Some "transparent"))]); at_outer := true |}] "TransparentPrimitiveWrappingStructTuple"
  [] (FieldsUnnamed [{| sf_attrs := []; sf_ident := None; sf_ty := (SPath (SegPath [] "u32" NoArgs)) |}]));
  (ItemStruct [{| at_meta := (AList (Some "repr") [(APath (Some "transparent"))]); at_outer := true |}] "TransparentComplexWrappingStructure"
  [] (FieldsNamed [{| sf_attrs := []; sf_ident := (Some "only_field"); sf_ty := (SPath (SegPath [] "DummyStruct" NoArgs)) |}]));
  (ItemStruct [{| at_meta := (AList (Some "repr") [(APath (Some "transparent"))]); at_outer := true |}] "TransparentPrimitiveWrappingStructure"
  [] (FieldsNamed [{| sf_attrs := []; sf_ident := (Some "only_field"); sf_ty := (SPath (SegPath [] "u32" NoArgs)) |}]));
  (ItemStruct [{| at_meta := (AList (Some "repr") [(APath (Some "transparent"))]); at_outer := true |}] "TransparentComplexWrapper"
  [(SGType "T" None)] (FieldsNamed [{| sf_attrs := []; sf_ident := (Some "only_non_zero_sized_field"); sf_ty := (SPath (SegPath []
  "DummyStruct" NoArgs)) |}; {| sf_attrs := []; sf_ident := (Some "marker"); sf_ty := (SPath (SegPath [] "PhantomData" (AngleArgs
  [(ArgType (SPath (SegPath [] "T" NoArgs)))]))) |}]));
  (ItemStruct [{| at_meta := (AList (Some "repr") [(APath (Some "transparent"))]); at_outer := true |}] "TransparentPrimitiveWrapper"
  [(SGType "T" None)] (FieldsNamed [{| sf_attrs := []; sf_ident := (Some "only_non_zero_sized_field"); sf_ty := (SPath (SegPath []
  "u32" NoArgs)) |}; {| sf_attrs := []; sf_ident := (Some "marker"); sf_ty := (SPath (SegPath [] "PhantomData" (AngleArgs [(ArgType
  (SPath (SegPath [] "T" NoArgs)))]))) |}]));
  (ItemImpl [] (SPath (SegPath [] "TransparentPrimitiveWithAssociatedConstants" NoArgs)) [(ImplConst [] true "ZERO" (SPath (SegPath
  [] "TransparentPrimitiveWithAssociatedConstants" NoArgs)) (XStruct (SegPath [] "TransparentPrimitiveWithAssociatedConstants" NoArgs)
  [([], (Named "bits"), (XLit (LitInt 0 "")))] None))]);
  (ItemStruct [{| at_meta := (AList (Some "repr") [(APath (Some "transparent"))]); at_outer := true |}] "TransparentPrimitiveWithAssociatedConstants"
  [] (FieldsNamed [{| sf_attrs := []; sf_ident := (Some "bits"); sf_ty := (SPath (SegPath [] "u32" NoArgs)) |}]));
  (ItemStruct [{| at_meta := (AList (Some "repr") [(APath (Some "transparent"))]); at_outer := true |}] "TransparentEmptyStructure"
  [] FieldsUnit);
  (ItemImpl [] (SPath (SegPath [] "TransparentPrimitiveWithAssociatedConstants" NoArgs)) [(ImplConst [] true "ONE" (SPath (SegPath []
  "TransparentPrimitiveWithAssociatedConstants" NoArgs)) (XStruct (SegPath [] "TransparentPrimitiveWithAssociatedConstants" NoArgs)
  [([], (Named "bits"), (XLit (LitInt 1 "")))] None))]);
  (ItemEnum [] "EnumWithAssociatedConstantInImpl" [] [{| sv_attrs := []; sv_ident := "A"; sv_fields := FieldsUnit; sv_discriminant :=
  None |}]);
  (ItemImpl [] (SPath (SegPath [] "EnumWithAssociatedConstantInImpl" NoArgs)) [(ImplConst [] true "TEN" (SPath (SegPath [] "TransparentPrimitiveWrappingStructure"
  NoArgs)) (XStruct (SegPath [] "TransparentPrimitiveWrappingStructure" NoArgs) [([], (Named "only_field"), (XLit (LitInt 10 "")))]
  None))]);
  (ItemFn [{| at_meta := (APath (Some "no_mangle")); at_outer := true |}] true {| sg_ident := "root"; sg_abi := (Some (Some "C")); sg_inputs
  := [(FnTyped (PatIdent "a") (SPath (SegPath [] "TransparentComplexWrappingStructTuple" NoArgs))); (FnTyped (PatIdent "b") (SPath
  (SegPath [] "TransparentPrimitiveWrappingStructTuple" NoArgs))); (FnTyped (PatIdent "c") (SPath (SegPath [] "TransparentComplexWrappingStructure"
  NoArgs))); (FnTyped (PatIdent "d") (SPath (SegPath [] "TransparentPrimitiveWrappingStructure" NoArgs))); (FnTyped (PatIdent "e")
  (SPath (SegPath [] "TransparentComplexWrapper" (AngleArgs [(ArgType (SPath (SegPath [] "i32" NoArgs)))])))); (FnTyped (PatIdent
  "f") (SPath (SegPath [] "TransparentPrimitiveWrapper" (AngleArgs [(ArgType (SPath (SegPath [] "i32" NoArgs)))])))); (FnTyped (PatIdent
  "g") (SPath (SegPath [] "TransparentPrimitiveWithAssociatedConstants" NoArgs))); (FnTyped (PatIdent "h") (SPath (SegPath [] "TransparentEmptyStructure"
  NoArgs))); (FnTyped (PatIdent "i") (SPath (SegPath [] "EnumWithAssociatedConstantInImpl" NoArgs)))]; sg_variadic := false; sg_output
  := None |})].
(** tests/expectations/transparent.compat.c *)
Definition transparent_compat : string := "#include <stdarg.h>
#include <stdbool.h>
#include <stdint.h>
#include <stdlib.h>

typedef struct DummyStruct DummyStruct;

typedef struct EnumWithAssociatedConstantInImpl EnumWithAssociatedConstantInImpl;

typedef DummyStruct TransparentComplexWrappingStructTuple;

typedef uint32_t TransparentPrimitiveWrappingStructTuple;

typedef DummyStruct TransparentComplexWrappingStructure;

typedef uint32_t TransparentPrimitiveWrappingStructure;

typedef DummyStruct TransparentComplexWrapper_i32;

typedef uint32_t TransparentPrimitiveWrapper_i32;

typedef uint32_t TransparentPrimitiveWithAssociatedConstants;
#define TransparentPrimitiveWithAssociatedConstants_ZERO 0
#define TransparentPrimitiveWithAssociatedConstants_ONE 1

typedef struct {

} TransparentEmptyStructure;

#define EnumWithAssociatedConstantInImpl_TEN 10

#ifdef __cplusplus
extern ""C"" {
#endif // __cplusplus

void root(TransparentComplexWrappingStructTuple a,
          TransparentPrimitiveWrappingStructTuple b,
          TransparentComplexWrappingStructure c,
          TransparentPrimitiveWrappingStructure d,
          TransparentComplexWrapper_i32 e,
          TransparentPrimitiveWrapper_i32 f,
          TransparentPrimitiveWithAssociatedConstants g,
          TransparentEmptyStructure h,
          EnumWithAssociatedConstantInImpl i);

#ifdef __cplusplus
}  // extern ""C""
#endif  // __cplusplus
".
(** tests/expectations/transparent_tag.compat.c *)
Definition transparent_compat_tag : string := "#include <stdarg.h>
#include <stdbool.h>
#include <stdint.h>
#include <stdlib.h>

struct DummyStruct;

struct EnumWithAssociatedConstantInImpl;

typedef struct DummyStruct TransparentComplexWrappingStructTuple;

typedef uint32_t TransparentPrimitiveWrappingStructTuple;

typedef struct DummyStruct TransparentComplexWrappingStructure;

typedef uint32_t TransparentPrimitiveWrappingStructure;

typedef struct DummyStruct TransparentComplexWrapper_i32;

typedef uint32_t TransparentPrimitiveWrapper_i32;

typedef uint32_t TransparentPrimitiveWithAssociatedConstants;
#define TransparentPrimitiveWithAssociatedConstants_ZERO 0
#define TransparentPrimitiveWithAssociatedConstants_ONE 1

struct TransparentEmptyStructure {

};

#define EnumWithAssociatedConstantInImpl_TEN 10

#ifdef __cplusplus
extern ""C"" {
#endif // __cplusplus

void root(TransparentComplexWrappingStructTuple a,
          TransparentPrimitiveWrappingStructTuple b,
          TransparentComplexWrappingStructure c,
          TransparentPrimitiveWrappingStructure d,
          TransparentComplexWrapper_i32 e,
          TransparentPrimitiveWrapper_i32 f,
          TransparentPrimitiveWithAssociatedConstants g,
          struct TransparentEmptyStructure h,
          struct EnumWithAssociatedConstantInImpl i);

#ifdef __cplusplus
}  // extern ""C""
#endif  // __cplusplus
".
(** tests/expectations/transparent_both.compat.c *)
Definition transparent_compat_both : string := "#include <stdarg.h>
#include <stdbool.h>
#include <stdint.h>
#include <stdlib.h>

typedef struct DummyStruct DummyStruct;

typedef struct EnumWithAssociatedConstantInImpl EnumWithAssociatedConstantInImpl;

typedef struct DummyStruct TransparentComplexWrappingStructTuple;

typedef uint32_t TransparentPrimitiveWrappingStructTuple;

typedef struct DummyStruct TransparentComplexWrappingStructure;

typedef uint32_t TransparentPrimitiveWrappingStructure;

typedef struct DummyStruct TransparentComplexWrapper_i32;

typedef uint32_t TransparentPrimitiveWrapper_i32;

typedef uint32_t TransparentPrimitiveWithAssociatedConstants;
#define TransparentPrimitiveWithAssociatedConstants_ZERO 0
#define TransparentPrimitiveWithAssociatedConstants_ONE 1

typedef struct TransparentEmptyStructure {

} TransparentEmptyStructure;

#define EnumWithAssociatedConstantInImpl_TEN 10

#ifdef __cplusplus
extern ""C"" {
#endif // __cplusplus

void root(TransparentComplexWrappingStructTuple a,
          TransparentPrimitiveWrappingStructTuple b,
          TransparentComplexWrappingStructure c,
          TransparentPrimitiveWrappingStructure d,
          TransparentComplexWrapper_i32 e,
          TransparentPrimitiveWrapper_i32 f,
          TransparentPrimitiveWithAssociatedConstants g,
          struct TransparentEmptyStructure h,
          struct EnumWithAssociatedConstantInImpl i);

#ifdef __cplusplus
}  // extern ""C""
#endif  // __cplusplus
".
(** tests/expectations/transparent.c *)
Definition transparent_c : string := "#include <stdarg.h>
#include <stdbool.h>
#include <stdint.h>
#include <stdlib.h>

typedef struct DummyStruct DummyStruct;

typedef struct EnumWithAssociatedConstantInImpl EnumWithAssociatedConstantInImpl;

typedef DummyStruct TransparentComplexWrappingStructTuple;

typedef uint32_t TransparentPrimitiveWrappingStructTuple;

typedef DummyStruct TransparentComplexWrappingStructure;

typedef uint32_t TransparentPrimitiveWrappingStructure;

typedef DummyStruct TransparentComplexWrapper_i32;

typedef uint32_t TransparentPrimitiveWrapper_i32;

typedef uint32_t TransparentPrimitiveWithAssociatedConstants;
#define TransparentPrimitiveWithAssociatedConstants_ZERO 0
#define TransparentPrimitiveWithAssociatedConstants_ONE 1

typedef struct {

} TransparentEmptyStructure;

#define EnumWithAssociatedConstantInImpl_TEN 10

void root(TransparentComplexWrappingStructTuple a,
          TransparentPrimitiveWrappingStructTuple b,
          TransparentComplexWrappingStructure c,
          TransparentPrimitiveWrappingStructure d,
          TransparentComplexWrapper_i32 e,
          TransparentPrimitiveWrapper_i32 f,
          TransparentPrimitiveWithAssociatedConstants g,
          TransparentEmptyStructure h,
          EnumWithAssociatedConstantInImpl i);
".
(** tests/expectations/transparent_tag.c *)
Definition transparent_c_tag : string := "#include <stdarg.h>
#include <stdbool.h>
#include <stdint.h>
#include <stdlib.h>

struct DummyStruct;

struct EnumWithAssociatedConstantInImpl;

typedef struct DummyStruct TransparentComplexWrappingStructTuple;

typedef uint32_t TransparentPrimitiveWrappingStructTuple;

typedef struct DummyStruct TransparentComplexWrappingStructure;

typedef uint32_t TransparentPrimitiveWrappingStructure;

typedef struct DummyStruct TransparentComplexWrapper_i32;

typedef uint32_t TransparentPrimitiveWrapper_i32;

typedef uint32_t TransparentPrimitiveWithAssociatedConstants;
#define TransparentPrimitiveWithAssociatedConstants_ZERO 0
#define TransparentPrimitiveWithAssociatedConstants_ONE 1

struct TransparentEmptyStructure {

};

#define EnumWithAssociatedConstantInImpl_TEN 10

void root(TransparentComplexWrappingStructTuple a,
          TransparentPrimitiveWrappingStructTuple b,
          TransparentComplexWrappingStructure c,
          TransparentPrimitiveWrappingStructure d,
          TransparentComplexWrapper_i32 e,
          TransparentPrimitiveWrapper_i32 f,
          TransparentPrimitiveWithAssociatedConstants g,
          struct TransparentEmptyStructure h,
          struct EnumWithAssociatedConstantInImpl i);
".
(** tests/expectations/transparent_both.c *)
Definition transparent_c_both : string := "#include <stdarg.h>
#include <stdbool.h>
#include <stdint.h>
#include <stdlib.h>

typedef struct DummyStruct DummyStruct;

typedef struct EnumWithAssociatedConstantInImpl EnumWithAssociatedConstantInImpl;

typedef struct DummyStruct TransparentComplexWrappingStructTuple;

typedef uint32_t TransparentPrimitiveWrappingStructTuple;

typedef struct DummyStruct TransparentComplexWrappingStructure;

typedef uint32_t TransparentPrimitiveWrappingStructure;

typedef struct DummyStruct TransparentComplexWrapper_i32;

typedef uint32_t TransparentPrimitiveWrapper_i32;

typedef uint32_t TransparentPrimitiveWithAssociatedConstants;
#define TransparentPrimitiveWithAssociatedConstants_ZERO 0
#define TransparentPrimitiveWithAssociatedConstants_ONE 1

typedef struct TransparentEmptyStructure {

} TransparentEmptyStructure;

#define EnumWithAssociatedConstantInImpl_TEN 10

void root(TransparentComplexWrappingStructTuple a,
          TransparentPrimitiveWrappingStructTuple b,
          TransparentComplexWrappingStructure c,
          TransparentPrimitiveWrappingStructure d,
          TransparentComplexWrapper_i32 e,
          TransparentPrimitiveWrapper_i32 f,
          TransparentPrimitiveWithAssociatedConstants g,
          struct TransparentEmptyStructure h,
          struct EnumWithAssociatedConstantInImpl i);
".
(** tests/expectations/transparent.cpp *)
Definition transparent_cpp : string := "#include <cstdarg>
#include <cstdint>
#include <cstdlib>
#include <ostream>
#include <new>

struct DummyStruct;

struct EnumWithAssociatedConstantInImpl;

using TransparentComplexWrappingStructTuple = DummyStruct;

using TransparentPrimitiveWrappingStructTuple = uint32_t;

using TransparentComplexWrappingStructure = DummyStruct;

using TransparentPrimitiveWrappingStructure = uint32_t;

template<typename T>
using TransparentComplexWrapper = DummyStruct;

template<typename T>
using TransparentPrimitiveWrapper = uint32_t;

using TransparentPrimitiveWithAssociatedConstants = uint32_t;
constexpr static const TransparentPrimitiveWithAssociatedConstants TransparentPrimitiveWithAssociatedConstants_ZERO = 0;
constexpr static const TransparentPrimitiveWithAssociatedConstants TransparentPrimitiveWithAssociatedConstants_ONE = 1;

struct TransparentEmptyStructure {

};

constexpr static const TransparentPrimitiveWrappingStructure EnumWithAssociatedConstantInImpl_TEN = 10;

extern ""C"" {

void root(TransparentComplexWrappingStructTuple a,
          TransparentPrimitiveWrappingStructTuple b,
          TransparentComplexWrappingStructure c,
          TransparentPrimitiveWrappingStructure d,
          TransparentComplexWrapper<int32_t> e,
          TransparentPrimitiveWrapper<int32_t> f,
          TransparentPrimitiveWithAssociatedConstants g,
          TransparentEmptyStructure h,
          EnumWithAssociatedConstantInImpl i);

}  // extern ""C""
".
(** tests/expectations/transparent.pyx *)
Definition transparent_pyx : string := "from libc.stdint cimport int8_t, int16_t, int32_t, int64_t, intptr_t
from libc.stdint cimport uint8_t, uint16_t, uint32_t, uint64_t, uintptr_t
cdef extern from *:
  ctypedef bint bool
  ctypedef struct va_list

cdef extern from *:

  ctypedef struct DummyStruct:
    pass

  ctypedef struct EnumWithAssociatedConstantInImpl:
    pass

  ctypedef DummyStruct TransparentComplexWrappingStructTuple;

  ctypedef uint32_t TransparentPrimitiveWrappingStructTuple;

  ctypedef DummyStruct TransparentComplexWrappingStructure;

  ctypedef uint32_t TransparentPrimitiveWrappingStructure;

  ctypedef DummyStruct TransparentComplexWrapper_i32;

  ctypedef uint32_t TransparentPrimitiveWrapper_i32;

  ctypedef uint32_t TransparentPrimitiveWithAssociatedConstants;
  const TransparentPrimitiveWithAssociatedConstants TransparentPrimitiveWithAssociatedConstants_ZERO # = 0
  const TransparentPrimitiveWithAssociatedConstants TransparentPrimitiveWithAssociatedConstants_ONE # = 1

  ctypedef struct TransparentEmptyStructure:
    pass

  const TransparentPrimitiveWrappingStructure EnumWithAssociatedConstantInImpl_TEN # = 10

  void root(TransparentComplexWrappingStructTuple a,
            TransparentPrimitiveWrappingStructTuple b,
            TransparentComplexWrappingStructure c,
            TransparentPrimitiveWrappingStructure d,
            TransparentComplexWrapper_i32 e,
            TransparentPrimitiveWrapper_i32 f,
            TransparentPrimitiveWithAssociatedConstants g,
            TransparentEmptyStructure h,
            EnumWithAssociatedConstantInImpl i);
".
(** tests/expectations/transparent_tag.pyx *)
Definition transparent_pyx_tag : string := "from libc.stdint cimport int8_t, int16_t, int32_t, int64_t, intptr_t
from libc.stdint cimport uint8_t, uint16_t, uint32_t, uint64_t, uintptr_t
cdef extern from *:
  ctypedef bint bool
  ctypedef struct va_list

cdef extern from *:

  cdef struct DummyStruct:
    pass

  cdef struct EnumWithAssociatedConstantInImpl:
    pass

  ctypedef DummyStruct TransparentComplexWrappingStructTuple;

  ctypedef uint32_t TransparentPrimitiveWrappingStructTuple;

  ctypedef DummyStruct TransparentComplexWrappingStructure;

  ctypedef uint32_t TransparentPrimitiveWrappingStructure;

  ctypedef DummyStruct TransparentComplexWrapper_i32;

  ctypedef uint32_t TransparentPrimitiveWrapper_i32;

  ctypedef uint32_t TransparentPrimitiveWithAssociatedConstants;
  const TransparentPrimitiveWithAssociatedConstants TransparentPrimitiveWithAssociatedConstants_ZERO # = 0
  const TransparentPrimitiveWithAssociatedConstants TransparentPrimitiveWithAssociatedConstants_ONE # = 1

  cdef struct TransparentEmptyStructure:
    pass

  const TransparentPrimitiveWrappingStructure EnumWithAssociatedConstantInImpl_TEN # = 10

  void root(TransparentComplexWrappingStructTuple a,
            TransparentPrimitiveWrappingStructTuple b,
            TransparentComplexWrappingStructure c,
            TransparentPrimitiveWrappingStructure d,
            TransparentComplexWrapper_i32 e,
            TransparentPrimitiveWrapper_i32 f,
            TransparentPrimitiveWithAssociatedConstants g,
            TransparentEmptyStructure h,
            EnumWithAssociatedConstantInImpl i);
".
Example transparent_reproduced : reproduces (in_file transparent_rs) false default_config (Some "{
root;
};")
  [(RunC true Type_, [transparent_compat]);
   (RunC true Tag, [transparent_compat_tag]);
   (RunC true Both, [transparent_compat_both]);
   (RunC false Type_, [transparent_c]);
   (RunC false Tag, [transparent_c_tag]);
   (RunC false Both, [transparent_c_both]);
   (RunCxx, [transparent_cpp]);
   (RunCython Type_, [transparent_pyx]);
   (RunCython Tag, [transparent_pyx_tag])] = true.
Proof. vm_compute. reflexivity. Qed.

(** ** tests/rust/typedef.rs *)
Definition typedef_rs : list sitem := [
  (ItemStruct [{| at_meta := (AList (Some "repr") [(APath (Some "C"))]); at_outer := true |}] "Foo" [(SGType "T" None); (SGType "U"
  None)] (FieldsNamed [{| sf_attrs := []; sf_ident := (Some "x"); sf_ty := (SPath (SegPath [] "T" NoArgs)) |}; {| sf_attrs := [];
  sf_ident := (Some "y"); sf_ty := (SPath (SegPath [] "U" NoArgs)) |}]));
  (ItemType [] "IntFoo" [(SGType "T" None)] (SPath (SegPath [] "Foo" (AngleArgs [(ArgType (SPath (SegPath [] "i32" NoArgs))); (ArgType
  (SPath (SegPath [] "T" NoArgs)))]))));
  (ItemFn [{| at_meta := (APath (Some "no_mangle")); at_outer := true |}] true {| sg_ident := "root"; sg_abi := (Some (Some "C")); sg_inputs
  := [(FnTyped (PatIdent "a") (SPath (SegPath [] "IntFoo" (AngleArgs [(ArgType (SPath (SegPath [] "i32" NoArgs)))]))))]; sg_variadic
  := false; sg_output := None |})].
(** tests/expectations/typedef.compat.c *)
Definition typedef_compat : string := "#include <stdarg.h>
#include <stdbool.h>
#include <stdint.h>
#include <stdlib.h>

typedef struct {
  int32_t x;
  int32_t y;
} Foo_i32__i32;

typedef Foo_i32__i32 IntFoo_i32;

#ifdef __cplusplus
extern ""C"" {
#endif // __cplusplus

void root(IntFoo_i32 a);

#ifdef __cplusplus
}  // extern ""C""
#endif  // __cplusplus
".
(** tests/expectations/typedef_tag.compat.c *)
Definition typedef_compat_tag : string := "#include <stdarg.h>
#include <stdbool.h>
#include <stdint.h>
#include <stdlib.h>

struct Foo_i32__i32 {
  int32_t x;
  int32_t y;
};

typedef struct Foo_i32__i32 IntFoo_i32;

#ifdef __cplusplus
extern ""C"" {
#endif // __cplusplus

void root(IntFoo_i32 a);

#ifdef __cplusplus
}  // extern ""C""
#endif  // __cplusplus
".
(** tests/expectations/typedef_both.compat.c *)
Definition typedef_compat_both : string := "#include <stdarg.h>
#include <stdbool.h>
#include <stdint.h>
#include <stdlib.h>

typedef struct Foo_i32__i32 {
  int32_t x;
  int32_t y;
} Foo_i32__i32;

typedef struct Foo_i32__i32 IntFoo_i32;

#ifdef __cplusplus
extern ""C"" {
#endif // __cplusplus

void root(IntFoo_i32 a);

#ifdef __cplusplus
}  // extern ""C""
#endif  // __cplusplus
".
(** tests/expectations/typedef.c *)
Definition typedef_c : string := "#include <stdarg.h>
#include <stdbool.h>
#include <stdint.h>
#include <stdlib.h>

typedef struct {
  int32_t x;
  int32_t y;
} Foo_i32__i32;

typedef Foo_i32__i32 IntFoo_i32;

void root(IntFoo_i32 a);
".
(** tests/expectations/typedef_tag.c *)
Definition typedef_c_tag : string := "#include <stdarg.h>
#include <stdbool.h>
#include <stdint.h>
#include <stdlib.h>

struct Foo_i32__i32 {
  int32_t x;
  int32_t y;
};

typedef struct Foo_i32__i32 IntFoo_i32;

void root(IntFoo_i32 a);
".
(** tests/expectations/typedef_both.c *)
Definition typedef_c_both : string := "#include <stdarg.h>
#include <stdbool.h>
#include <stdint.h>
#include <stdlib.h>

typedef struct Foo_i32__i32 {
  int32_t x;
  int32_t y;
} Foo_i32__i32;

typedef struct Foo_i32__i32 IntFoo_i32;

void root(IntFoo_i32 a);
".
(** tests/expectations/typedef.cpp *)
Definition typedef_cpp : string := "#include <cstdarg>
#include <cstdint>
#include <cstdlib>
#include <ostream>
#include <new>

template<typename T, typename U>
struct Foo {
  T x;
  U y;
};

template<typename T>
using IntFoo = Foo<int32_t, T>;

extern ""C"" {

void root(IntFoo<int32_t> a);

}  // extern ""C""
".
(** tests/expectations/typedef.pyx *)
Definition typedef_pyx : string := "from libc.stdint cimport int8_t, int16_t, int32_t, int64_t, intptr_t
from libc.stdint cimport uint8_t, uint16_t, uint32_t, uint64_t, uintptr_t
cdef extern from *:
  ctypedef bint bool
  ctypedef struct va_list

cdef extern from *:

  ctypedef struct Foo_i32__i32:
    int32_t x;
    int32_t y;

  ctypedef Foo_i32__i32 IntFoo_i32;

  void root(IntFoo_i32 a);
".
(** tests/expectations/typedef_tag.pyx *)
Definition typedef_pyx_tag : string := "from libc.stdint cimport int8_t, int16_t, int32_t, int64_t, intptr_t
from libc.stdint cimport uint8_t, uint16_t, uint32_t, uint64_t, uintptr_t
cdef extern from *:
  ctypedef bint bool
  ctypedef struct va_list

cdef extern from *:

  cdef struct Foo_i32__i32:
    int32_t x;
    int32_t y;

  ctypedef Foo_i32__i32 IntFoo_i32;

  void root(IntFoo_i32 a);
".
Example typedef_reproduced : reproduces (in_file typedef_rs) false default_config (Some "{
root;
};")
  [(RunC true Type_, [typedef_compat]);
   (RunC true Tag, [typedef_compat_tag]);
   (RunC true Both, [typedef_compat_both]);
   (RunC false Type_, [typedef_c]);
   (RunC false Tag, [typedef_c_tag]);
   (RunC false Both, [typedef_c_both]);
   (RunCxx, [typedef_cpp]);
   (RunCython Type_, [typedef_pyx]);
   (RunCython Tag, [typedef_pyx_tag])] = true.
Proof. vm_compute. reflexivity. Qed.

(** ** tests/rust/union.rs *)
Definition union_rs : list sitem := [
  (ItemOther []);
  (ItemUnion [] "Opaque" [] [{| sf_attrs := []; sf_ident := (Some "x"); sf_ty := (SPath (SegPath [] "i32" NoArgs)) |}; {| sf_attrs :=
  []; sf_ident := (Some "y"); sf_ty := (SPath (SegPath [] "f32" NoArgs)) |}]);
  (ItemUnion [{| at_meta := (AList (Some "repr") [(APath (Some "C"))]); at_outer := true |}] "Normal" [] [{| sf_attrs := []; sf_ident
  := (Some "x"); sf_ty := (SPath (SegPath [] "i32" NoArgs)) |}; {| sf_attrs := []; sf_ident := (Some "y"); sf_ty := (SPath (SegPath
  [] "f32" NoArgs)) |}]);
  (ItemUnion [{| at_meta := (AList (Some "repr") [(APath (Some "C"))]); at_outer := true |}] "NormalWithZST" [] [{| sf_attrs := [];
  sf_ident := (Some "x"); sf_ty := (SPath (SegPath [] "i32" NoArgs)) |}; {| sf_attrs := []; sf_ident := (Some "y"); sf_ty := (SPath
  (SegPath [] "f32" NoArgs)) |}; {| sf_attrs := []; sf_ident := (Some "z"); sf_ty := (STuple []) |}; {| sf_attrs := []; sf_ident :=
  (Some "w"); sf_ty := (SPath (SegPath [] "PhantomData" (AngleArgs [(ArgType (SPath (SegPath [] "i32" NoArgs)))]))) |}]);
  (ItemFn [{| at_meta := (APath (Some "no_mangle")); at_outer := true |}] true {| sg_ident := "root"; sg_abi := (Some (Some "C")); sg_inputs
  := [(FnTyped (PatIdent "a") (SPtr true (SPath (SegPath [] "Opaque" NoArgs)))); (FnTyped (PatIdent "b") (SPath (SegPath [] "Normal"
  NoArgs))); (FnTyped (PatIdent "c") (SPath (SegPath [] "NormalWithZST" NoArgs)))]; sg_variadic := false; sg_output := None |})].
(** tests/expectations/union.compat.c *)
Definition union_compat : string := "#include <stdarg.h>
#include <stdbool.h>
#include <stdint.h>
#include <stdlib.h>

typedef struct Opaque Opaque;

typedef union {
  int32_t x;
  float y;
} Normal;

typedef union {
  int32_t x;
  float y;
} NormalWithZST;

#ifdef __cplusplus
extern ""C"" {
#endif // __cplusplus

void root(Opaque *a, Normal b, NormalWithZST c);

#ifdef __cplusplus
}  // extern ""C""
#endif  // __cplusplus
".
(** tests/expectations/union_tag.compat.c *)
Definition union_compat_tag : string := "#include <stdarg.h>
#include <stdbool.h>
#include <stdint.h>
#include <stdlib.h>

struct Opaque;

union Normal {
  int32_t x;
  float y;
};

union NormalWithZST {
  int32_t x;
  float y;
};

#ifdef __cplusplus
extern ""C"" {
#endif // __cplusplus

void root(struct Opaque *a, union Normal b, union NormalWithZST c);

#ifdef __cplusplus
}  // extern ""C""
#endif  // __cplusplus
".
(** tests/expectations/union_both.compat.c *)
Definition union_compat_both : string := "#include <stdarg.h>
#include <stdbool.h>
#include <stdint.h>
#include <stdlib.h>

typedef struct Opaque Opaque;

typedef union Normal {
  int32_t x;
  float y;
} Normal;

typedef union NormalWithZST {
  int32_t x;
  float y;
} NormalWithZST;

#ifdef __cplusplus
extern ""C"" {
#endif // __cplusplus

void root(struct Opaque *a, union Normal b, union NormalWithZST c);

#ifdef __cplusplus
}  // extern ""C""
#endif  // __cplusplus
".
(** tests/expectations/union.c *)
Definition union_c : string := "#include <stdarg.h>
#include <stdbool.h>
#include <stdint.h>
#include <stdlib.h>

typedef struct Opaque Opaque;

typedef union {
  int32_t x;
  float y;
} Normal;

typedef union {
  int32_t x;
  float y;
} NormalWithZST;

void root(Opaque *a, Normal b, NormalWithZST c);
".
(** tests/expectations/union_tag.c *)
Definition union_c_tag : string := "#include <stdarg.h>
#include <stdbool.h>
#include <stdint.h>
#include <stdlib.h>

struct Opaque;

union Normal {
  int32_t x;
  float y;
};

union NormalWithZST {
  int32_t x;
  float y;
};

void root(struct Opaque *a, union Normal b, union NormalWithZST c);
".
(** tests/expectations/union_both.c *)
Definition union_c_both : string := "#include <stdarg.h>
#include <stdbool.h>
#include <stdint.h>
#include <stdlib.h>

typedef struct Opaque Opaque;

typedef union Normal {
  int32_t x;
  float y;
} Normal;

typedef union NormalWithZST {
  int32_t x;
  float y;
} NormalWithZST;

void root(struct Opaque *a, union Normal b, union NormalWithZST c);
".
(** tests/expectations/union.cpp *)
Definition union_cpp : string := "#include <cstdarg>
#include <cstdint>
#include <cstdlib>
#include <ostream>
#include <new>

struct Opaque;

union Normal {
  int32_t x;
  float y;
};

union NormalWithZST {
  int32_t x;
  float y;
};

extern ""C"" {

void root(Opaque *a, Normal b, NormalWithZST c);

}  // extern ""C""
".
(** tests/expectations/union.pyx *)
Definition union_pyx : string := "from libc.stdint cimport int8_t, int16_t, int32_t, int64_t, intptr_t
from libc.stdint cimport uint8_t, uint16_t, uint32_t, uint64_t, uintptr_t
cdef extern from *:
  ctypedef bint bool
  ctypedef struct va_list

cdef extern from *:

  ctypedef struct Opaque:
    pass

  ctypedef union Normal:
    int32_t x;
    float y;

  ctypedef union NormalWithZST:
    int32_t x;
    float y;

  void root(Opaque *a, Normal b, NormalWithZST c);
".
(** tests/expectations/union_tag.pyx *)
Definition union_pyx_tag : string := "from libc.stdint cimport int8_t, int16_t, int32_t, int64_t, intptr_t
from libc.stdint cimport uint8_t, uint16_t, uint32_t, uint64_t, uintptr_t
cdef extern from *:
  ctypedef bint bool
  ctypedef struct va_list

cdef extern from *:

  cdef struct Opaque:
    pass

  cdef union Normal:
    int32_t x;
    float y;

  cdef union NormalWithZST:
    int32_t x;
    float y;

  void root(Opaque *a, Normal b, NormalWithZST c);
".
Example union_reproduced : reproduces (in_file union_rs) false default_config (Some "{
root;
};")
  [(RunC true Type_, [union_compat]);
   (RunC true Tag, [union_compat_tag]);
   (RunC true Both, [union_compat_both]);
   (RunC false Type_, [union_c]);
   (RunC false Tag, [union_c_tag]);
   (RunC false Both, [union_c_both]);
   (RunCxx, [union_cpp]);
   (RunCython Type_, [union_pyx]);
   (RunCython Tag, [union_pyx_tag])] = true.
Proof. vm_compute. reflexivity. Qed.

(** ** tests/rust/union_self.rs *)
Definition union_self_rs : list sitem := [
  (ItemStruct [{| at_meta := (AList (Some "repr") [(APath (Some "C"))]); at_outer := true |}] "Foo" [(SGType "T" None)] (FieldsNamed
  [{| sf_attrs := []; sf_ident := (Some "something"); sf_ty := (SPtr false (SPath (SegPath [] "i32" NoArgs))) |}; {| sf_attrs := [];
  sf_ident := (Some "phantom"); sf_ty := (SPath (SegPath ["std"; "marker"] "PhantomData" (AngleArgs [(ArgType (SPath (SegPath [] "T"
  NoArgs)))]))) |}]));
  (ItemUnion [{| at_meta := (AList (Some "repr") [(APath (Some "C"))]); at_outer := true |}] "Bar" [] [{| sf_attrs := []; sf_ident :=
  (Some "something"); sf_ty := (SPath (SegPath [] "i32" NoArgs)) |}; {| sf_attrs := []; sf_ident := (Some "subexpressions"); sf_ty
  := (SPath (SegPath [] "Foo" (AngleArgs [(ArgType (SPath (SegPath [] "Self" NoArgs)))]))) |}]);
  (ItemFn [{| at_meta := (APath (Some "no_mangle")); at_outer := true |}] true {| sg_ident := "root"; sg_abi := (Some (Some "C")); sg_inputs
  := [(FnTyped (PatIdent "b") (SPath (SegPath [] "Bar" NoArgs)))]; sg_variadic := false; sg_output := None |})].
(** tests/expectations/union_self.compat.c *)
Definition union_self_compat : string := "#include <stdarg.h>
#include <stdbool.h>
#include <stdint.h>
#include <stdlib.h>

typedef struct {
  const int32_t *something;
} Foo_Bar;

typedef union {
  int32_t something;
  Foo_Bar subexpressions;
} Bar;

#ifdef __cplusplus
extern ""C"" {
#endif // __cplusplus

void root(Bar b);

#ifdef __cplusplus
}  // extern ""C""
#endif  // __cplusplus
".
(** tests/expectations/union_self_tag.compat.c *)
Definition union_self_compat_tag : string := "#include <stdarg.h>
#include <stdbool.h>
#include <stdint.h>
#include <stdlib.h>

struct Foo_Bar {
  const int32_t *something;
};

union Bar {
  int32_t something;
  struct Foo_Bar subexpressions;
};

#ifdef __cplusplus
extern ""C"" {
#endif // __cplusplus

void root(union Bar b);

#ifdef __cplusplus
}  // extern ""C""
#endif  // __cplusplus
".
(** tests/expectations/union_self_both.compat.c *)
Definition union_self_compat_both : string := "#include <stdarg.h>
#include <stdbool.h>
#include <stdint.h>
#include <stdlib.h>

typedef struct Foo_Bar {
  const int32_t *something;
} Foo_Bar;

typedef union Bar {
  int32_t something;
  struct Foo_Bar subexpressions;
} Bar;

#ifdef __cplusplus
extern ""C"" {
#endif // __cplusplus

void root(union Bar b);

#ifdef __cplusplus
}  // extern ""C""
#endif  // __cplusplus
".
(** tests/expectations/union_self.c *)
Definition union_self_c : string := "#include <stdarg.h>
#include <stdbool.h>
#include <stdint.h>
#include <stdlib.h>

typedef struct {
  const int32_t *something;
} Foo_Bar;

typedef union {
  int32_t something;
  Foo_Bar subexpressions;
} Bar;

void root(Bar b);
".
(** tests/expectations/union_self_tag.c *)
Definition union_self_c_tag : string := "#include <stdarg.h>
#include <stdbool.h>
#include <stdint.h>
#include <stdlib.h>

struct Foo_Bar {
  const int32_t *something;
};

union Bar {
  int32_t something;
  struct Foo_Bar subexpressions;
};

void root(union Bar b);
".
(** tests/expectations/union_self_both.c *)
Definition union_self_c_both : string := "#include <stdarg.h>
#include <stdbool.h>
#include <stdint.h>
#include <stdlib.h>

typedef struct Foo_Bar {
  const int32_t *something;
} Foo_Bar;

typedef union Bar {
  int32_t something;
  struct Foo_Bar subexpressions;
} Bar;

void root(union Bar b);
".
(** tests/expectations/union_self.cpp *)
Definition union_self_cpp : string := "#include <cstdarg>
#include <cstdint>
#include <cstdlib>
#include <ostream>
#include <new>

template<typename T>
struct Foo {
  const int32_t *something;
};

union Bar {
  int32_t something;
  Foo<Bar> subexpressions;
};

extern ""C"" {

void root(Bar b);

}  // extern ""C""
".
(** tests/expectations/union_self.pyx *)
Definition union_self_pyx : string := "from libc.stdint cimport int8_t, int16_t, int32_t, int64_t, intptr_t
from libc.stdint cimport uint8_t, uint16_t, uint32_t, uint64_t, uintptr_t
cdef extern from *:
  ctypedef bint bool
  ctypedef struct va_list

cdef extern from *:

  ctypedef struct Foo_Bar:
    const int32_t *something;

  ctypedef union Bar:
    int32_t something;
    Foo_Bar subexpressions;

  void root(Bar b);
".
(** tests/expectations/union_self_tag.pyx *)
Definition union_self_pyx_tag : string := "from libc.stdint cimport int8_t, int16_t, int32_t, int64_t, intptr_t
from libc.stdint cimport uint8_t, uint16_t, uint32_t, uint64_t, uintptr_t
cdef extern from *:
  ctypedef bint bool
  ctypedef struct va_list

cdef extern from *:

  cdef struct Foo_Bar:
    const int32_t *something;

  cdef union Bar:
    int32_t something;
    Foo_Bar subexpressions;

  void root(Bar b);
".
Example union_self_reproduced : reproduces (in_file union_self_rs) false default_config (Some "{
root;
};")
  [(RunC true Type_, [union_self_compat]);
   (RunC true Tag, [union_self_compat_tag]);
   (RunC true Both, [union_self_compat_both]);
   (RunC false Type_, [union_self_c]);
   (RunC false Tag, [union_self_c_tag]);
   (RunC false Both, [union_self_c_both]);
   (RunCxx, [union_self_cpp]);
   (RunCython Type_, [union_self_pyx]);
   (RunCython Tag, [union_self_pyx_tag])] = true.
Proof. vm_compute. reflexivity. Qed.

