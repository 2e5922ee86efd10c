(** C05, C21, C22 and C23: the whole written file. *)
Require Import Coq.Strings.String Coq.Strings.Ascii Coq.Lists.List Coq.Bool.Bool Coq.Arith.Arith.
From Verif Require Import Base P_Base M_Config M_Writer S_Writer M_Cfg S_Cfg M_Type M_Ir M_Item M_Library M_Bindings M_Docs M_Literal M_Syn M_Backend
  S_Outline S_Tame P_Outline S_File P_File S_Layers P_Layers S_Guarded P_Guarded P_Bracketed P_Alike S_Demo S_Samples.
Import ListNotations.
Open Scope string_scope.

(** The model writes what the project's tests expect, byte for byte. *)
Definition whole {H : Heck} (l : Library) : outcome string :=
  match generate 9 (fun x => x) l with Done b => bindings_text 9 b | Panic => Panic | Diverge => Diverge end.
Example written_as_tested : forall H : Heck, Forall (fun x => whole (cfg_2 (fst x)) = Done (snd x)) cfg_2_expected
  /\ Forall (fun x => whole (namespaces_constant (fst x)) = Done (snd x)) namespaces_expected.
Proof. intros. split; repeat (constructor; [vm_compute; reflexivity|]); constructor. Qed.

(** ** C05 *)

(** A compiler reading the whole header, whatever conditions hold, finds every
    conditional block and every bracket closed, in the right order, and no
    comment or literal left open. *)
Theorem C05_balanced : forall (H : Heck) fuel b t holds, tame b -> bindings_text fuel b = Done t -> self_contained holds t.
Proof. intros H fuel b t holds T. exact (whole_self_contained fuel b T holds t). Qed.
Print Assumptions C05_balanced.

(** So is the text of every single declaration. *)
Theorem C05_declaration_balanced : forall (H : Heck) fuel b d top t holds, tame b -> In d (definitions b) \/ In d (symbols b) ->
  alone fuel b top d t -> self_contained holds (t ++ LineEndingStyle_as_str (line_endings (b_config b))).
Proof. intros H fuel b d top t holds T. exact (declaration_self_contained fuel b T holds d top t). Qed.
Print Assumptions C05_declaration_balanced.

(** The text of a guarded declaration is the text of the same declaration
    without a cfg, between its guard's [#if] and an [#endif].  (A constant that
    cannot be written has no text at all, and no guard.) *)
Theorem C05_guard_wraps : forall (H : Heck) fuel b d top t cond line,
  language (b_config b) <> Cython ->
  to_condition_opt (defines (b_config b)) (cfg_of d) = Some cond -> plain_text (Condition_write (language (b_config b)) cond) = Some line ->
  typedef_with_constants d = false -> alone fuel b top d t ->
  (exists k, d = AConstant k /\ t = "") \/ exists t', some_layout fuel b (always d) t' /\ t = enclosed b line t'.
Proof. intros H fuel b d top t cond line L G P T A. exact (guard_wraps fuel b L cond line P d top t G T A). Qed.
Print Assumptions C05_guard_wraps.

(** And the line of the [#if], read as a preprocessor condition, says what the
    cfg says in Rust. *)
Theorem C05_guard_wraps_exact : forall (H : Heck) fuel b d top t cfg rho mu,
  let c := b_config b in
  language c <> Cython -> tab_width c <> 0 ->
  (forall k m, In (k, m) (defines c) -> macro_name false m = true) ->
  (forall k m a, In (k, m) (defines c) -> denotes k a -> mu m = rho a) ->
  (forall a, In a (atoms cfg) -> exists k m, In (k, m) (defines c) /\ denotes k a) ->
  no_empty cfg = true -> cfg_of d = Some cfg -> typedef_with_constants d = false -> alone fuel b top d t ->
  (exists k, d = AConstant k /\ t = "") \/
  exists t' line e, some_layout fuel b (always d) t' /\ t = enclosed b line t' /\ read_condition false line = Some e /\ peval mu e = cfg_eval rho cfg.
Proof. exact @guard_wraps_exact. Qed.
Print Assumptions C05_guard_wraps_exact.

(** Without a condition the cfg changes nothing. *)
Theorem C05_no_guard : forall (H : Heck) fuel b d, to_condition_opt (defines (b_config b)) (cfg_of d) = None ->
  write_declaration fuel b d = write_declaration fuel b (always d).
Proof. intros H fuel b d G. exact (eq_sym (unguarded_same fuel b d G)). Qed.
Print Assumptions C05_no_guard.

(** Variants and fields, on their own lines within a declaration. *)
Theorem C05_variant_guard_wraps : forall (H : Heck) fuel b v sp t cond line,
  language (b_config b) <> Cython ->
  to_condition_opt (defines (b_config b)) (v_cfg v) = Some cond -> plain_text (Condition_write (language (b_config b)) cond) = Some line ->
  member_text b sp (backend_variant fuel b v) t -> exists t', member_text b sp (backend_variant fuel b (variant_always v)) t' /\ t = enclosed b line t'.
Proof. intros H fuel b v sp t cond line L G P A. exact (variant_wraps fuel b L cond line P v sp t G A). Qed.
Print Assumptions C05_variant_guard_wraps.
Theorem C05_field_guard_wraps : forall b f sp t cond line,
  language (b_config b) <> Cython ->
  to_condition_opt (defines (b_config b)) (fd_cfg f) = Some cond -> plain_text (Condition_write (language (b_config b)) cond) = Some line ->
  member_text b sp (backend_field b f) t ->
  exists t', member_text b sp (backend_field b (field_always f)) t' /\ t = enclosed b line t' ++ LineEndingStyle_as_str (line_endings (b_config b)).
Proof. intros b f sp t cond line L G P A. exact (field_wraps b L cond line P f sp t G A). Qed.
Print Assumptions C05_field_guard_wraps.

(** *** A case *)
Definition made {H : Heck} (l : Library) : Bindings :=
  match generate 9 (fun x => x) l with
  | Done b => b
  | _ => {| b_config := l_config l; b_struct_map := []; b_enum_map := []; b_typedef_map := []; b_constants := []; b_globals := []; b_items := [];
            b_functions := []; b_source_files := []; b_noop := false; b_package_version := "" |}
  end.
Lemma skipped_header : forall holds, self_contained holds (lines ["#if 0"; "DEF DEFINED = 1"; "DEF NOT_DEFINED = 0"; "#endif"; ""; ""]).
Proof.
  intro holds. unfold self_contained.
  change (lines ["#if 0"; "DEF DEFINED = 1"; "DEF NOT_DEFINED = 0"; "#endif"; ""; ""]) with
    (("#if 0" ++ S_Samples.lf) ++ lines ["DEF DEFINED = 1"; "DEF NOT_DEFINED = 0"; "#endif"; ""; ""]).
  rewrite read_app.
  assert (E : read holds outset ("#if 0" ++ S_Samples.lf) =
    Some (At BlankLine Plain [{| f_on := holds "#if 0"; f_taken := holds "#if 0"; f_else := false |}] [])) by (vm_compute; reflexivity).
  rewrite E. generalize (holds "#if 0"). intros []; vm_compute; reflexivity.
Qed.
Ltac is_tame :=
  match goal with |- tame ?m => let b := eval vm_compute in m in replace m with b by (vm_compute; reflexivity) end;
  split; [discriminate|]; split; [discriminate|]; split; [vm_compute; reflexivity|]; split;
  [split; [|split]; [intros x I; cbn in I; repeat destruct I as [I|I]; try discriminate; try contradiction; injection I as <-; exact skipped_header
                    |intros p x [I|I]; discriminate|intros x I; discriminate]
  |split; [intros p e I; cbn in I; contradiction|repeat split; vm_compute; reflexivity]].
Example C05_balanced_applies : forall H : Heck,
  Forall (fun x => tame (made (cfg_2 (fst x))) /\ bindings_text 9 (made (cfg_2 (fst x))) = Done (snd x)) [cfg_2_c; cfg_2_compat_tag; cfg_2_cpp].
Proof.
  intro H. repeat (constructor; [split; [is_tame|vm_compute; reflexivity]|]). constructor.
Qed.
Example C05_guard_wraps_applies : forall H : Heck, let b := made (cfg_2 (fst cfg_2_c)) in
  let d := AnItem (ICStruct (struct_if "Bar" (Some windows) [fld "y" (ty "Foo")])) in
  In d (definitions b) /\ cfg_of d = Some windows /\ no_empty windows = true /\ typedef_with_constants d = false
  /\ to_condition_opt (defines (b_config b)) (cfg_of d) = Some (Define "NOT_DEFINED")
  /\ plain_text (Condition_write (language (b_config b)) (Define "NOT_DEFINED")) = Some "defined(NOT_DEFINED)"
  /\ alone 9 b false d (lines ["#if defined(NOT_DEFINED)"; "typedef struct {"; "  Foo y;"; "} Bar;"; "#endif"])
  /\ alone 9 b false (always d) (lines ["typedef struct {"; "  Foo y;"; "} Bar;"]).
Proof.
  intros. split; [vm_compute; do 3 right; left; reflexivity|]. do 5 (split; [vm_compute; reflexivity|]).
  split; (eexists; eexists; split; [vm_compute; reflexivity|]; split; [vm_compute; reflexivity|reflexivity]).
Qed.

(** *** Where it fails *)

(** A transparent struct is written as a typedef inside its guard; its
    associated constants follow after the [#endif]. *)
Definition unguarded_constants (c : Config) : Library :=
  lib c [] [] []
    [{| s_path := "Handle"; s_export_name := "Handle"; s_generic_params := []; s_fields := [fld "0" i32]; s_has_tag_field := false;
        s_is_enum_variant_body := false; s_alignment := None; s_is_transparent := true; s_cfg := Some unix; s_annotations := AnnotationSet_new;
        s_documentation := []; s_associated_constants := [const "INVALID" i32 (LExpr "-1")] |}] [] [] []
    [fn "use_it" [("h", ty "Handle")] void].
Definition defined_unix (lang : Language) : Config := test_config lang Type_ false None [("unix", "UNIX")].
Theorem C05_typedef_constants_refuted : forall H : Heck, exists d, In d (definitions (made (unguarded_constants (defined_unix Cxx))))
  /\ cfg_of d = Some unix
  /\ alone 9 (made (unguarded_constants (defined_unix Cxx))) false d
       (lines ["#if defined(UNIX)"; "using Handle = int32_t;"; "#endif"; "constexpr static const int32_t INVALID = -1;"]).
Proof.
  intros. eexists. split; [vm_compute; left; reflexivity|]. split; [reflexivity|].
  eexists; eexists; split; [vm_compute; reflexivity|]; split; [vm_compute; reflexivity|reflexivity].
Qed.
(** The semicolon after a conditional field stands outside its guard. *)
Theorem C05_field_semicolon_refuted : forall H : Heck, exists d,
  d = AnItem (ICStruct (struct "Pair" [] [{| fd_name := "a"; fd_ty := i32; fd_cfg := Some unix; fd_annotations := AnnotationSet_new; fd_documentation := [] |}]))
  /\ alone 9 (made (unguarded_constants (defined_unix M_Config.C))) false d
       (lines ["typedef struct {"; "#if defined(UNIX)"; "  int32_t a"; "#endif"; "  ;"; "} Pair;"]).
Proof.
  intros. eexists. split; [reflexivity|]. eexists; eexists; split; [vm_compute; reflexivity|]; split; [vm_compute; reflexivity|reflexivity].
Qed.
(** In Cython conditional fields and variants are always there. *)
Theorem C05_cython_members_refuted : forall (H : Heck) fuel b, language (b_config b) = Cython ->
  (forall f, backend_field b f = backend_field b (field_always f)) /\ (forall v, backend_variant fuel b v = backend_variant fuel b (variant_always v)).
Proof. intros H fuel b L. unfold backend_field, backend_variant. rewrite L. split; reflexivity. Qed.
(** The guard's line counts when deciding how to lay out the arguments of a
    function: with a long condition they go on several lines. *)
Theorem C05_layout_refuted : forall H : Heck, exists f t, alone 9 (made (unguarded_constants (defined_unix M_Config.C))) false (AFunction f) t
  /\ ~ exists t', alone 9 (made (unguarded_constants (defined_unix M_Config.C))) false (always (AFunction f)) t' /\ t = enclosed (made (unguarded_constants (defined_unix M_Config.C))) "!!!!!!!!!!!!!!!!!!!!!!!!!!!!!!!!!!!!!!!!!!!!!!!!!!!!!!!!!!!!!!!!!!!!!!!!!!!!!!!!!!!!!defined(UNIX)" t'.
Proof.
  intros. exists (let f := fn "twice" [("a", i32); ("b", i32)] void in {| f_path := f_path f; f_self_type_path := None; f_ret := f_ret f; f_args := f_args f; f_extern_decl := false;
    f_cfg := Some (Nat.iter 84 CNot unix); f_annotations := AnnotationSet_new; f_documentation := []; f_never_return := false |}).
  eexists. split; [eexists; eexists; split; [vm_compute; reflexivity|]; split; [vm_compute; reflexivity|reflexivity]|].
  intros (t' & (p & w & E & R & O) & X). vm_compute in E. injection E as <-. vm_compute in R. injection R as <-. subst t'. vm_compute in X. discriminate.
Qed.

(** ** C21 *)

(** Writing bindings, for any language, opens and closes indentation in
    matched pairs: it ends at the level it started from. *)
Theorem C21_bindings_bracket : forall (H : Heck) fuel b p, write_bindings fuel b = Done p ->
  well_bracketed p
  /\ (tab_width (b_config b) <> 0 -> exists w, run (tab_width (b_config b)) (LineEndingStyle_as_str (line_endings (b_config b))) p writer_new = Some w /\ w_spaces w = [0]).
Proof. exact @bindings_bracket. Qed.
Print Assumptions C21_bindings_bracket.

(** ** C22 *)

(** The file consists of its head, the declarations in their order, each with
    its own text on its own lines, and its tail.  Constants come first if they
    have primitive types, then types, then other constants; globals and
    functions follow in their [extern "C"] block.  Of types, globals and
    functions exactly those not annotated [no-export] are there.  Head and tail
    are what is written for bindings without any declaration. *)
Theorem C22_file : forall (H : Heck) fuel b t, b_noop b = false -> bindings_text fuel b = Done t ->
  exists head defs syms tail,
    file fuel b head defs syms tail t
    /\ (head <> "" -> bindings_text fuel (emptied b) = Done (head ++ cython_pass (emptied b) ++ tail)).
Proof. exact @file_text. Qed.
Print Assumptions C22_file.
Theorem C22_noop : forall (H : Heck) fuel b, b_noop b = true -> bindings_text fuel b = Done "".
Proof. intros H fuel b N. unfold bindings_text. rewrite N. reflexivity. Qed.

Example C22_file_applies : forall H : Heck, let b := made (cfg_2 (fst cfg_2_cpp)) in
  b_noop b = false /\ bindings_text 9 b = Done (snd cfg_2_cpp) /\ length (definitions b) = 6 /\ length (symbols b) = 1.
Proof. intros. vm_compute. auto. Qed.

(** *** Where it fails *)

(** Constants annotated [no-export] are written all the same. *)
Definition no_export : AnnotationSet := {| an_values := [("no-export", ABool true)]; an_must_use := false; an_deprecated := None |}.
Definition hidden_constant (c : Config) : Library :=
  lib c [{| c_path := "SECRET"; c_export_name := "SECRET"; c_ty := i32; c_value := LExpr "1"; c_cfg := None; c_annotations := no_export;
            c_documentation := []; c_associated_to := None |}] [] [] [] [] [] [] [].
Theorem C22_no_export_constant_refuted : forall H : Heck, whole (hidden_constant (test_config M_Config.C Type_ false (Some "// header") [])) =
  Done (lines ["// header"; ""; "#include <stdarg.h>"; "#include <stdbool.h>"; "#include <stdint.h>"; "#include <stdlib.h>"; ""; "#define SECRET 1"; ""]).
Proof. intros. vm_compute. reflexivity. Qed.
(** If nothing but [no-export] items is left, Cython gets an empty block
    without [pass], which is not valid, and C++ an empty [extern "C"] block. *)
Definition hidden_function (c : Config) : Library :=
  lib c [] [] [] [] [] [] [] [{| f_path := "f"; f_self_type_path := None; f_ret := void; f_args := []; f_extern_decl := false; f_cfg := None;
    f_annotations := no_export; f_documentation := []; f_never_return := false |}].
Theorem C22_empty_block_refuted : forall H : Heck,
  whole (hidden_function (test_config Cython Type_ false None [])) =
    Done (lines ["from libc.stdint cimport int8_t, int16_t, int32_t, int64_t, intptr_t";
      "from libc.stdint cimport uint8_t, uint16_t, uint32_t, uint64_t, uintptr_t"; "cdef extern from *:"; "  ctypedef bint bool"; "  ctypedef struct va_list"; "";
      "cdef extern from *:"; ""])
  /\ whole (hidden_function (test_config Cxx Type_ false None [])) =
    Done (lines ["#include <cstdarg>"; "#include <cstdint>"; "#include <cstdlib>"; "#include <ostream>"; "#include <new>"; "";
      "extern ""C"" {"; ""; "}  // extern ""C"""; ""]).
Proof. intros. split; vm_compute; reflexivity. Qed.

(** ** C23 *)

(** What a compiler has open in each part of the file, whatever conditions
    hold: after the head it is inside the include guard and, if it is a C++
    compiler, the namespaces; there it sees the types and constants.  Inside
    the [extern "C"] block, if there is one, it sees globals and functions.
    The block's end brings it back to the namespaces, and the tail closes all
    that is left. *)
Theorem C23_layers : forall (H : Heck) fuel b t, tame b -> b_noop b = false -> bindings_text fuel b = Done t ->
  exists head defs syms tail upper lower,
    laid fuel b head (definitions b) defs upper
    /\ laid fuel b (upper ++ extern_opening b upper) (symbols b) syms lower
    /\ t = lower ++ extern_closing b ++ tail
    /\ forall holds,
      let le := LineEndingStyle_as_str (line_endings (b_config b)) in
      let outer := layer holds b (namespace_count b) in
      let inner := layer holds b (namespace_count b + extern_count b) in
      read holds outset head = Some outer
      /\ Forall (fun x => read holds outer (x ++ le) = Some outer) defs
      /\ read holds outer (extern_opening b upper) = Some inner
      /\ Forall (fun x => read holds inner (x ++ le) = Some inner) syms
      /\ read holds inner (extern_closing b) = Some outer
      /\ read holds outer tail = Some outset.
Proof. intros H fuel b t T. exact (layers fuel b T t). Qed.
Print Assumptions C23_layers.

Example C23_layers_applies : forall H : Heck, let b := made (namespaces_constant (fst namespaces_compat_both)) in
  tame b /\ b_noop b = false /\ bindings_text 9 b = Done (snd namespaces_compat_both)
  /\ namespace_count b = 2 /\ extern_count b = 1 /\ length (definitions b) = 3 /\ length (symbols b) = 1.
Proof. intros. split; [is_tame|]. do 5 (split; [vm_compute; reflexivity|]). vm_compute. reflexivity. Qed.
