(** A file of the test suite: tests/rust/cfg_2.rs and what the tests expect to be
    written for it in tests/expectations, for every language and style. *)
Require Import Coq.Strings.String Coq.Lists.List Coq.Bool.Bool.
From Verif Require Import Base M_Config M_Cfg M_Type M_Ir M_Item M_Library S_Demo.
Import ListNotations.
Open Scope string_scope.

Definition lf : string := String (Ascii.ascii_of_nat 10) "".
Definition lines (l : list string) : string := join lf l.

(** The default configuration with what the tests set. *)
Definition test_config (lang : Language) (st : Style) (compat : bool) (hdr : option string) (defs : list (string * string)) : Config := {|
  header := hdr; includes_ := []; sys_includes_ := []; after_includes := None; trailer := None;
  include_guard_ := None; pragma_once := false; no_includes := false; package_version := false;
  autogen_warning := None; include_version := false; namespace := None; namespaces := None;
  using_namespaces := None; braces := SameLine; line_length := 100; tab_width := 2;
  line_endings := LF; language := lang; cpp_compat := compat; style := st; sort_by := SortNone;
  usize_is_size_t := false; parse := default_parse; export := default_export;
  layout := {| ly_packed := None; ly_aligned_n := None |}; function := default_function;
  structure := default_structure; enumeration := default_enumeration; constant := default_constant;
  defines := defs; documentation := true; documentation_style := DocAuto;
  documentation_length := Full;
  pointer := {| pt_non_null_attribute := None; pt_nullable_attribute := None |};
  cython := {| cy_header := None; cy_cimports := [] |}; config_path := None |}.

(** tests/rust/cfg_2.toml *)
Definition cfg_2_config (lang : Language) (st : Style) (compat : bool) : Config :=
  test_config lang st compat (Some (lines ["#if 0"; "DEF DEFINED = 1"; "DEF NOT_DEFINED = 0"; "#endif"; ""]))
    [("unix", "DEFINED"); ("macos", "NOT_DEFINED"); ("windows", "NOT_DEFINED")].
(** tests/rust/cfg_2.rs *)
Definition i32 : Ty := TPrim (PInteger true true B32).
Definition windows : Cfg := CBoolean "windows".
Definition unix : Cfg := CBoolean "unix".
Definition struct_if (n : string) (k : option Cfg) (fs : list Field) : Struct := Struct_new n [] fs false false None false k AnnotationSet_new [].
Definition const_if (n : string) (k : option Cfg) (t : Ty) (v : string) : Constant :=
  {| c_path := n; c_export_name := n; c_ty := t; c_value := LExpr v; c_cfg := k; c_annotations := AnnotationSet_new;
     c_documentation := []; c_associated_to := None |}.
Definition cfg_2 (c : Config) : Library :=
  lib c [const_if "DEFAULT_X" (Some windows) i32 "8"; const_if "DEFAULT_X" (Some unix) i32 "42"] [] []
    [struct_if "Foo" (Some (CAny [windows; unix])) [fld "x" i32]; struct_if "Bar" (Some windows) [fld "y" (ty "Foo")];
     struct_if "Bar" (Some unix) [fld "z" (ty "Foo")]; struct_if "Root" None [fld "w" (ty "Bar")]] [] [] []
    [fn "root" [("a", ty "Root")] void].

(** tests/expectations/cfg_2.c *)
Definition cfg_2_c : Config * string := (cfg_2_config M_Config.C Type_ false, lines [
   "#if 0"; "DEF DEFINED = 1"; "DEF NOT_DEFINED = 0"; "#endif"; ""; ""; "#include <stdarg.h>";
   "#include <stdbool.h>"; "#include <stdint.h>"; "#include <stdlib.h>"; ""; "#if defined(NOT_DEFINED)";
   "#define DEFAULT_X 8"; "#endif"; ""; "#if defined(DEFINED)"; "#define DEFAULT_X 42"; "#endif"; "";
   "#if (defined(NOT_DEFINED) || defined(DEFINED))"; "typedef struct {"; "  int32_t x;"; "} Foo;"; "#endif"; "";
   "#if defined(NOT_DEFINED)"; "typedef struct {"; "  Foo y;"; "} Bar;"; "#endif"; ""; "#if defined(DEFINED)";
   "typedef struct {"; "  Foo z;"; "} Bar;"; "#endif"; ""; "typedef struct {"; "  Bar w;"; "} Root;"; "";
   "void root(Root a);"; "" ]).
(** tests/expectations/cfg_2_tag.c *)
Definition cfg_2_c_tag : Config * string := (cfg_2_config M_Config.C Tag false, lines [
   "#if 0"; "DEF DEFINED = 1"; "DEF NOT_DEFINED = 0"; "#endif"; ""; ""; "#include <stdarg.h>";
   "#include <stdbool.h>"; "#include <stdint.h>"; "#include <stdlib.h>"; ""; "#if defined(NOT_DEFINED)";
   "#define DEFAULT_X 8"; "#endif"; ""; "#if defined(DEFINED)"; "#define DEFAULT_X 42"; "#endif"; "";
   "#if (defined(NOT_DEFINED) || defined(DEFINED))"; "struct Foo {"; "  int32_t x;"; "};"; "#endif"; "";
   "#if defined(NOT_DEFINED)"; "struct Bar {"; "  struct Foo y;"; "};"; "#endif"; ""; "#if defined(DEFINED)";
   "struct Bar {"; "  struct Foo z;"; "};"; "#endif"; ""; "struct Root {"; "  struct Bar w;"; "};"; "";
   "void root(struct Root a);"; "" ]).
(** tests/expectations/cfg_2_both.c *)
Definition cfg_2_c_both : Config * string := (cfg_2_config M_Config.C Both false, lines [
   "#if 0"; "DEF DEFINED = 1"; "DEF NOT_DEFINED = 0"; "#endif"; ""; ""; "#include <stdarg.h>";
   "#include <stdbool.h>"; "#include <stdint.h>"; "#include <stdlib.h>"; ""; "#if defined(NOT_DEFINED)";
   "#define DEFAULT_X 8"; "#endif"; ""; "#if defined(DEFINED)"; "#define DEFAULT_X 42"; "#endif"; "";
   "#if (defined(NOT_DEFINED) || defined(DEFINED))"; "typedef struct Foo {"; "  int32_t x;"; "} Foo;"; "#endif";
   ""; "#if defined(NOT_DEFINED)"; "typedef struct Bar {"; "  struct Foo y;"; "} Bar;"; "#endif"; "";
   "#if defined(DEFINED)"; "typedef struct Bar {"; "  struct Foo z;"; "} Bar;"; "#endif"; "";
   "typedef struct Root {"; "  struct Bar w;"; "} Root;"; ""; "void root(struct Root a);"; "" ]).
(** tests/expectations/cfg_2.compat.c *)
Definition cfg_2_compat : Config * string := (cfg_2_config M_Config.C Type_ true, lines [
   "#if 0"; "DEF DEFINED = 1"; "DEF NOT_DEFINED = 0"; "#endif"; ""; ""; "#include <stdarg.h>";
   "#include <stdbool.h>"; "#include <stdint.h>"; "#include <stdlib.h>"; ""; "#if defined(NOT_DEFINED)";
   "#define DEFAULT_X 8"; "#endif"; ""; "#if defined(DEFINED)"; "#define DEFAULT_X 42"; "#endif"; "";
   "#if (defined(NOT_DEFINED) || defined(DEFINED))"; "typedef struct {"; "  int32_t x;"; "} Foo;"; "#endif"; "";
   "#if defined(NOT_DEFINED)"; "typedef struct {"; "  Foo y;"; "} Bar;"; "#endif"; ""; "#if defined(DEFINED)";
   "typedef struct {"; "  Foo z;"; "} Bar;"; "#endif"; ""; "typedef struct {"; "  Bar w;"; "} Root;"; "";
   "#ifdef __cplusplus"; "extern ""C"" {"; "#endif // __cplusplus"; ""; "void root(Root a);"; "";
   "#ifdef __cplusplus"; "}  // extern ""C"""; "#endif  // __cplusplus"; "" ]).
(** tests/expectations/cfg_2_tag.compat.c *)
Definition cfg_2_compat_tag : Config * string := (cfg_2_config M_Config.C Tag true, lines [
   "#if 0"; "DEF DEFINED = 1"; "DEF NOT_DEFINED = 0"; "#endif"; ""; ""; "#include <stdarg.h>";
   "#include <stdbool.h>"; "#include <stdint.h>"; "#include <stdlib.h>"; ""; "#if defined(NOT_DEFINED)";
   "#define DEFAULT_X 8"; "#endif"; ""; "#if defined(DEFINED)"; "#define DEFAULT_X 42"; "#endif"; "";
   "#if (defined(NOT_DEFINED) || defined(DEFINED))"; "struct Foo {"; "  int32_t x;"; "};"; "#endif"; "";
   "#if defined(NOT_DEFINED)"; "struct Bar {"; "  struct Foo y;"; "};"; "#endif"; ""; "#if defined(DEFINED)";
   "struct Bar {"; "  struct Foo z;"; "};"; "#endif"; ""; "struct Root {"; "  struct Bar w;"; "};"; "";
   "#ifdef __cplusplus"; "extern ""C"" {"; "#endif // __cplusplus"; ""; "void root(struct Root a);"; "";
   "#ifdef __cplusplus"; "}  // extern ""C"""; "#endif  // __cplusplus"; "" ]).
(** tests/expectations/cfg_2.cpp *)
Definition cfg_2_cpp : Config * string := (cfg_2_config Cxx Type_ false, lines [
   "#if 0"; "DEF DEFINED = 1"; "DEF NOT_DEFINED = 0"; "#endif"; ""; ""; "#include <cstdarg>";
   "#include <cstdint>"; "#include <cstdlib>"; "#include <ostream>"; "#include <new>"; "";
   "#if defined(NOT_DEFINED)"; "constexpr static const int32_t DEFAULT_X = 8;"; "#endif"; "";
   "#if defined(DEFINED)"; "constexpr static const int32_t DEFAULT_X = 42;"; "#endif"; "";
   "#if (defined(NOT_DEFINED) || defined(DEFINED))"; "struct Foo {"; "  int32_t x;"; "};"; "#endif"; "";
   "#if defined(NOT_DEFINED)"; "struct Bar {"; "  Foo y;"; "};"; "#endif"; ""; "#if defined(DEFINED)";
   "struct Bar {"; "  Foo z;"; "};"; "#endif"; ""; "struct Root {"; "  Bar w;"; "};"; ""; "extern ""C"" {"; "";
   "void root(Root a);"; ""; "}  // extern ""C"""; "" ]).
(** tests/expectations/cfg_2.pyx *)
Definition cfg_2_pyx : Config * string := (cfg_2_config Cython Type_ false, lines [
   "#if 0"; "DEF DEFINED = 1"; "DEF NOT_DEFINED = 0"; "#endif"; ""; "";
   "from libc.stdint cimport int8_t, int16_t, int32_t, int64_t, intptr_t";
   "from libc.stdint cimport uint8_t, uint16_t, uint32_t, uint64_t, uintptr_t"; "cdef extern from *:";
   "  ctypedef bint bool"; "  ctypedef struct va_list"; ""; "cdef extern from *:"; ""; "  IF NOT_DEFINED:";
   "    const int32_t DEFAULT_X # = 8"; ""; "  IF DEFINED:"; "    const int32_t DEFAULT_X # = 42"; "";
   "  IF (NOT_DEFINED or DEFINED):"; "    ctypedef struct Foo:"; "      int32_t x;"; ""; "  IF NOT_DEFINED:";
   "    ctypedef struct Bar:"; "      Foo y;"; ""; "  IF DEFINED:"; "    ctypedef struct Bar:"; "      Foo z;";
   ""; "  ctypedef struct Root:"; "    Bar w;"; ""; "  void root(Root a);"; "" ]).
(** tests/expectations/cfg_2_tag.pyx *)
Definition cfg_2_pyx_tag : Config * string := (cfg_2_config Cython Tag false, lines [
   "#if 0"; "DEF DEFINED = 1"; "DEF NOT_DEFINED = 0"; "#endif"; ""; "";
   "from libc.stdint cimport int8_t, int16_t, int32_t, int64_t, intptr_t";
   "from libc.stdint cimport uint8_t, uint16_t, uint32_t, uint64_t, uintptr_t"; "cdef extern from *:";
   "  ctypedef bint bool"; "  ctypedef struct va_list"; ""; "cdef extern from *:"; ""; "  IF NOT_DEFINED:";
   "    const int32_t DEFAULT_X # = 8"; ""; "  IF DEFINED:"; "    const int32_t DEFAULT_X # = 42"; "";
   "  IF (NOT_DEFINED or DEFINED):"; "    cdef struct Foo:"; "      int32_t x;"; ""; "  IF NOT_DEFINED:";
   "    cdef struct Bar:"; "      Foo y;"; ""; "  IF DEFINED:"; "    cdef struct Bar:"; "      Foo z;"; "";
   "  cdef struct Root:"; "    Bar w;"; ""; "  void root(Root a);"; "" ]).
Definition cfg_2_expected : list (Config * string) := [cfg_2_c; cfg_2_c_tag; cfg_2_c_both; cfg_2_compat; cfg_2_compat_tag; cfg_2_cpp; cfg_2_pyx; cfg_2_pyx_tag].

(** tests/rust/namespaces_constant.rs and its configuration; the constant of
    type [&str] is dropped when it is read. *)
Definition with_namespaces (ns : list string) (c : Config) : Config := {|
  header := header c; includes_ := includes_ c; sys_includes_ := sys_includes_ c; after_includes := after_includes c; trailer := trailer c;
  include_guard_ := include_guard_ c; pragma_once := pragma_once c; no_includes := no_includes c; package_version := package_version c;
  autogen_warning := autogen_warning c; include_version := include_version c; namespace := namespace c; namespaces := Some ns;
  using_namespaces := using_namespaces c; braces := braces c; line_length := line_length c; tab_width := tab_width c;
  line_endings := line_endings c; language := language c; cpp_compat := cpp_compat c; style := style c; sort_by := sort_by c;
  usize_is_size_t := usize_is_size_t c; parse := parse c; export := export c; layout := layout c; function := function c;
  structure := structure c; enumeration := enumeration c; constant := constant c; defines := defines c; documentation := documentation c;
  documentation_style := documentation_style c; documentation_length := documentation_length c; pointer := pointer c;
  cython := cython c; config_path := config_path c |}.
Definition namespaces_constant (c : Config) : Library :=
  lib c [const_if "FOO" None i32 "10"; const_if "ZOM" None (TPrim PFloat) "3.14"] [] []
    [struct_if "Foo" None [fld "x" (TArray i32 (EPath (GPath "FOO" "FOO" [] None)))]] [] [] [] [fn "root" [("x", ty "Foo")] void].
(** tests/expectations/namespaces_constant.cpp *)
Definition namespaces_cpp : Config * string := (with_namespaces ["constants"; "test"] (test_config Cxx Type_ false None []), lines [
   "#include <cstdarg>"; "#include <cstdint>"; "#include <cstdlib>"; "#include <ostream>"; "#include <new>"; "";
   "namespace constants {"; "namespace test {"; ""; "constexpr static const int32_t FOO = 10;"; "";
   "constexpr static const float ZOM = 3.14;"; ""; "struct Foo {"; "  int32_t x[FOO];"; "};"; "";
   "extern ""C"" {"; ""; "void root(Foo x);"; ""; "}  // extern ""C"""; ""; "}  // namespace test";
   "}  // namespace constants"; "" ]).
(** tests/expectations/namespaces_constant_both.compat.c *)
Definition namespaces_compat_both : Config * string := (with_namespaces ["constants"; "test"] (test_config M_Config.C Both true None []), lines [
   "#include <stdarg.h>"; "#include <stdbool.h>"; "#include <stdint.h>"; "#include <stdlib.h>"; "";
   "#ifdef __cplusplus"; "namespace constants {"; "namespace test {"; "#endif  // __cplusplus"; "";
   "#define FOO 10"; ""; "#define ZOM 3.14"; ""; "typedef struct Foo {"; "  int32_t x[FOO];"; "} Foo;"; "";
   "#ifdef __cplusplus"; "extern ""C"" {"; "#endif // __cplusplus"; ""; "void root(struct Foo x);"; "";
   "#ifdef __cplusplus"; "}  // extern ""C"""; "#endif  // __cplusplus"; ""; "#ifdef __cplusplus";
   "}  // namespace test"; "}  // namespace constants"; "#endif  // __cplusplus"; "" ]).
(** tests/expectations/namespaces_constant.c *)
Definition namespaces_c : Config * string := (with_namespaces ["constants"; "test"] (test_config M_Config.C Type_ false None []), lines [
   "#include <stdarg.h>"; "#include <stdbool.h>"; "#include <stdint.h>"; "#include <stdlib.h>"; "";
   "#define FOO 10"; ""; "#define ZOM 3.14"; ""; "typedef struct {"; "  int32_t x[FOO];"; "} Foo;"; "";
   "void root(Foo x);"; "" ]).
(** tests/expectations/namespaces_constant.pyx *)
Definition namespaces_pyx : Config * string := (with_namespaces ["constants"; "test"] (test_config Cython Type_ false None []), lines [
   "from libc.stdint cimport int8_t, int16_t, int32_t, int64_t, intptr_t";
   "from libc.stdint cimport uint8_t, uint16_t, uint32_t, uint64_t, uintptr_t"; "cdef extern from *:";
   "  ctypedef bint bool"; "  ctypedef struct va_list"; ""; "cdef extern from *:"; "";
   "  const int32_t FOO # = 10"; ""; "  const float ZOM # = 3.14"; ""; "  ctypedef struct Foo:";
   "    int32_t x[FOO];"; ""; "  void root(Foo x);"; "" ]).
Definition namespaces_expected : list (Config * string) := [namespaces_cpp; namespaces_compat_both; namespaces_c; namespaces_pyx].
