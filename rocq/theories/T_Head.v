(** C49: what stands above and below the declarations, and that the header
    declares the standard types it uses. *)
Require Import Coq.Strings.String Coq.Strings.Ascii Coq.Lists.List Coq.Bool.Bool.
From Verif Require Import Base M_Config M_Cfg M_Type M_Ir M_Item M_Library M_Bindings M_Literal M_Backend S_File S_Head P_Head.
From Verif Require T_Method S_Demo.
Import ListNotations.
Open Scope string_scope.

(** The head of a file is what the configuration asks for, and so is its tail:
    in this order the version of the package, the given header, the include
    guard, the pragma, the version of the program, the warning, the includes
    and the namespaces; below the declarations the namespaces and the include
    guard are closed, and the trailer is last. *)
Theorem C49_file : forall (H : Heck) fuel b t, b_noop b = false -> bindings_text fuel b = Done t ->
  exists defs syms tail, file fuel b (head_text b) defs syms tail t /\ exists above, t = above ++ tail /\ tail_text b above tail.
Proof. intros H fuel b t. exact (whole_file fuel b t). Qed.
Print Assumptions C49_file.
(** Every include that is asked for has a line of its own. *)
Theorem C49_includes : forall (H : Heck) fuel b t line, b_noop b = false -> language (b_config b) <> Cython -> bindings_text fuel b = Done t ->
  In line (include_lines b) -> has_line b t line.
Proof. intros H fuel b t line. exact (include_written fuel b t line). Qed.
Print Assumptions C49_includes.
Theorem C49_cython_lines : forall (H : Heck) fuel b t line, b_noop b = false -> language (b_config b) = Cython -> bindings_text fuel b = Done t ->
  In line (cython_lines b) -> has_line b t line.
Proof. intros H fuel b t line. exact (cython_written fuel b t line). Qed.
Print Assumptions C49_cython_lines.
(** The name of every primitive type but two is built in or declared by a
    standard header, and this header is included. *)
Theorem C49_types_declared : forall (H : Heck) fuel b t p, b_noop b = false -> language (b_config b) <> Cython -> no_includes (b_config b) = false ->
  bindings_text fuel b = Done t ->
  (forall z, p <> PInteger z true KSizeT) -> (p = PPtrDiffT -> usize_is_size_t (b_config b) = true) ->
  In (to_repr_c (b_config b) p) (built_in b)
  \/ exists h, In (to_repr_c (b_config b) p) (declares h) /\ has_line b t ("#include <" ++ h ++ ">").
Proof.
  intros H fuel b t p N L NI W NS PD. destruct (types_declared b p L NS PD) as [B|(h & I & D)]; [left; exact B|]. right. exists h. split; [exact D|].
  apply (include_written fuel b t _ N L W). unfold include_lines. rewrite NI. apply in_or_app. left. apply in_map_iff. exists h. auto.
Qed.
Print Assumptions C49_types_declared.
(** [assert] is declared if the casts that use it are derived for all enums. *)
Theorem C49_assert_declared : forall (H : Heck) fuel b t, b_noop b = false -> language (b_config b) = Cxx -> no_includes (b_config b) = false ->
  bindings_text fuel b = Done t -> en_cast_assert_name (enumeration (b_config b)) = None ->
  en_derive_mut_casts (enumeration (b_config b)) = true \/ en_derive_const_casts (enumeration (b_config b)) = true ->
  has_line b t "#include <cassert>".
Proof.
  intros H fuel b t N L NI W A D. apply (include_written fuel b t _ N); [congruence|exact W|]. unfold include_lines. rewrite NI. apply in_or_app. left.
  apply in_map_iff. exists "cassert". split; [reflexivity|]. unfold standard_headers. rewrite L, A. apply in_or_app. right. apply in_or_app. right. apply in_or_app. right.
  destruct D as [-> | ->]; [left; reflexivity|rewrite orb_true_r; left; reflexivity].
Qed.
Print Assumptions C49_assert_declared.

(** ** Examples *)
Definition everything (lang : Language) (compat : bool) (e : EnumConfig) : Config := {|
  header := Some "// Mine"; includes_ := ["mine.h"]; sys_includes_ := ["math.h"]; after_includes := Some "typedef int first;"; trailer := Some "// The end";
  include_guard_ := Some "MINE_H"; pragma_once := true; no_includes := false; package_version := true;
  autogen_warning := Some "/* Do not edit. */"; include_version := true; namespace := Some "outer"; namespaces := Some ["inner"];
  using_namespaces := None; braces := SameLine; line_length := 100; tab_width := 2;
  line_endings := LF; language := lang; cpp_compat := compat; style := Both; sort_by := SortNone;
  usize_is_size_t := true; parse := default_parse; export := default_export;
  layout := {| ly_packed := None; ly_aligned_n := None |}; function := default_function;
  structure := default_structure; enumeration := e; M_Config.constant := default_constant;
  defines := []; documentation := true; documentation_style := DocAuto;
  documentation_length := Full;
  M_Config.pointer := {| pt_non_null_attribute := None; pt_nullable_attribute := None |};
  cython := {| cy_header := Some """mine.h"""; cy_cimports := [("libc.math", ["sin"; "cos"])] |}; config_path := None |}.
Definition holding (c : Config) (items : list ItemContainer) : Bindings :=
  {| b_config := c; b_struct_map := []; b_enum_map := []; b_typedef_map := []; b_constants := []; b_globals := []; b_items := items;
     b_functions := []; b_source_files := []; b_noop := false; b_package_version := "1.2" |}.
Definition dot : ItemContainer := ICStruct (S_Demo.struct "Dot" [] [S_Demo.fld "x" S_Demo.u8]).
Example C49_c : forall H : Heck, bindings_text 9 (holding (everything M_Config.C true default_enumeration) [dot]) = Done (T_Method.printed
  ["/* Package version: 1.2 */"; ""; "// Mine"; ""; "#ifndef MINE_H"; "#define MINE_H"; ""; "#pragma once"; ""; "/* Generated with cbindgen:0.29.4 */"; "";
   "/* Do not edit. */"; ""; "#include <stdarg.h>"; "#include <stdbool.h>"; "#include <stddef.h>"; "#include <stdint.h>"; "#include <stdlib.h>";
   "#include <math.h>"; "#include ""mine.h"""; "typedef int first;"; ""; "#ifdef __cplusplus"; "namespace outer {"; "namespace inner {";
   "#endif  // __cplusplus"; ""; "typedef struct Dot {"; "  uint8_t x;"; "} Dot;"; ""; "#ifdef __cplusplus"; "}  // namespace inner";
   "}  // namespace outer"; "#endif  // __cplusplus"; ""; "#endif  /* MINE_H */"; ""; "// The end"]).
Proof. intros. vm_compute. reflexivity. Qed.
Example C49_cython : forall H : Heck, bindings_text 9 (holding (everything Cython true default_enumeration) [dot]) = Done (T_Method.printed
  ["''' Package version: 1.2 '''"; ""; "// Mine"; ""; "/* Generated with cbindgen:0.29.4 */"; ""; "/* Do not edit. */"; "";
   "from libc.stdint cimport int8_t, int16_t, int32_t, int64_t, intptr_t"; "from libc.stdint cimport uint8_t, uint16_t, uint32_t, uint64_t, uintptr_t";
   "cdef extern from *:"; "  ctypedef bint bool"; "  ctypedef struct va_list"; "from libc.math cimport sin, cos"; "typedef int first;"; "";
   "cdef extern from ""mine.h"":"; ""; "  cdef struct Dot:"; "    uint8_t x;"; ""; "// The end"]).
Proof. intros. vm_compute. reflexivity. Qed.

(** ** Where it fails *)

(** [ptrdiff_t] is not declared unless [usize_is_size_t] is set, and [ssize_t]
    never is. *)
Definition differences : ItemContainer := ICStruct (S_Demo.struct "Range" [] [S_Demo.fld "d" (TPrim PPtrDiffT); S_Demo.fld "s" (TPrim (PInteger true true KSizeT))]).
Definition ssize : PrimitiveType := PInteger true true KSizeT.
Theorem C49_undeclared_refuted : forall H : Heck,
  let b := T_Method.header_in (S_Demo.config_with M_Config.C default_export SortNone) [differences] in
  bindings_text 9 b = Done (T_Method.printed
    ["#include <stdarg.h>"; "#include <stdbool.h>"; "#include <stdint.h>"; "#include <stdlib.h>"; "";
     "typedef struct Range {"; "  ptrdiff_t d;"; "  ssize_t s;"; "} Range;"])
  /\ PrimitiveType_maybe "ptrdiff_t" = Some PPtrDiffT /\ PrimitiveType_maybe "ssize_t" = Some ssize
  /\ (forall p, In p [PPtrDiffT; ssize] ->
        ~ In (to_repr_c (b_config b) p) (built_in b) /\ forall h, In h (standard_headers b) -> ~ In (to_repr_c (b_config b) p) (declares h)).
Proof.
  intros H b. split; [vm_compute; reflexivity|]. split; [reflexivity|]. split; [reflexivity|].
  intros p [<-|[<- |[]]]; (split; [vm_compute; intuition discriminate|intros h [<-|[<- |[<- |[<- |[]]]]]; vm_compute; intuition discriminate]).
Qed.
(** The casts of an enum that asks for them by an annotation use [assert], which
    no header declares. *)
Definition casting : ItemContainer :=
  ICEnum (Enum_new "Shape" [] S_Demo.repr_c [EnumVariant_new "Circle" None (VBody "circle" (S_Demo.body "Circle_Body" [] [S_Demo.fld "r" S_Demo.u8]) false false) None []] (Some "Tag") None
    (T_Method.asking ["derive-helper-methods"; "derive-const-casts"]) []).
Theorem C49_assert_refuted : forall H : Heck,
  bindings_text 9 (T_Method.header_of [casting]) = Done (T_Method.printed
    ["#include <cstdarg>"; "#include <cstdint>"; "#include <cstdlib>"; "#include <ostream>"; "#include <new>"; "";
     "struct Shape {"; "  enum class Tag {"; "    Circle,"; "  };"; ""; "  struct Circle_Body {"; "    uint8_t r;"; "  };"; "";
     "  Tag tag;"; "  union {"; "    Circle_Body circle;"; "  };"; "";
     "  static Shape Circle(const uint8_t &r) {"; "    Shape result;"; "    ::new (&result.circle.r) (uint8_t)(r);"; "    result.tag = Tag::Circle;"; "    return result;"; "  }"; "";
     "  bool IsCircle() const {"; "    return tag == Tag::Circle;"; "  }"; "";
     "  const Circle_Body& AsCircle() const {"; "    assert(IsCircle());"; "    return circle;"; "  }"; "};"]).
Proof. intros. vm_compute. reflexivity. Qed.
