(** C19: the C declarations written for fields, types and functions declare
    what they should. *)
Require Import Coq.Strings.String Coq.Strings.Ascii Coq.Lists.List Coq.Bool.Bool.
From Verif Require Import Base S_Lex M_Config M_Writer S_Writer M_Type M_Ir M_Cdecl S_Decl P_Cdecl P_Declared P_DeclWritten S_Demo.
Import ListNotations.
Open Scope string_scope.

(** The text written for a field, read with the rules for C declarations,
    declares the field's name with the C type that stands for its Rust type:
    the same pointers, arrays, parameters and qualifiers at every level. *)
Theorem C19_field : forall c, proper_attributes c = true -> forall tabw e, tabw <> 0 ->
  forall t x w, declarable c t = true -> usable c x = true -> w_spaces w <> [] ->
  exists p w' s, write_field c t x = Some p /\ run tabw (LineEndingStyle_as_str e) p w = Some w'
    /\ w_out w' = w_out w ++ s /\ w_spaces w' = w_spaces w
    /\ declares (dialect_of c) s (Some x) (c_type c false t).
Proof. exact field_written. Qed.
Print Assumptions C19_field.

(** A type alone. *)
Theorem C19_type : forall c, proper_attributes c = true -> forall tabw e, tabw <> 0 ->
  forall t w, declarable c t = true -> w_spaces w <> [] ->
  exists p w' s, write_type c t = Some p /\ run tabw (LineEndingStyle_as_str e) p w = Some w'
    /\ w_out w' = w_out w ++ s /\ w_spaces w' = w_spaces w
    /\ declares (dialect_of c) s None (c_type c false t).
Proof. exact type_written. Qed.
Print Assumptions C19_type.

(** A function, whatever the layout of its parameters. *)
Theorem C19_function : forall c, proper_attributes c = true -> forall tabw e, tabw <> 0 ->
  forall f layout w, declarable_function c f = true -> w_spaces w <> [] ->
  exists p w' s, write_func c f layout = Some p /\ run tabw (LineEndingStyle_as_str e) p w = Some w'
    /\ w_out w' = w_out w ++ s /\ w_spaces w' = w_spaces w
    /\ declares (dialect_of c) s (Some (f_path f)) (c_function c f).
Proof. exact function_written. Qed.
Print Assumptions C19_function.

(** A text declares one name with one type. *)
Theorem C19_one_reading : forall d s x t y u, declares d s x t -> declares d s y u -> x = y /\ t = u.
Proof. exact declares_once. Qed.
Print Assumptions C19_one_reading.

(** So fields with different C types are never written alike. *)
Theorem C19_same_text : forall c t u x y e p, proper_attributes c = true ->
  declarable c t = true -> declarable c u = true -> usable c x = true -> usable c y = true -> tab_width c <> 0 ->
  forall q w' w'', write_field c t x = Some p -> write_field c u y = Some q ->
  run (tab_width c) (LineEndingStyle_as_str e) p writer_new = Some w' -> run (tab_width c) (LineEndingStyle_as_str e) q writer_new = Some w'' ->
  w_out w' = w_out w'' -> x = y /\ c_type c false t = c_type c false u.
Proof. exact same_text. Qed.
Print Assumptions C19_same_text.

(** No assertion fails while a declaration is built: not for any type, and not
    for any function after its arguments were renamed. *)
Theorem C19_never_panics : forall c t x, (exists p, write_field c t x = Some p) /\ (exists p, write_type c t = Some p).
Proof. exact (fun c t x => conj (field_builds c t x) (type_builds c t)). Qed.
Print Assumptions C19_never_panics.
Theorem C19_functions_never_panic : forall {H : Heck} c f g layout, Function_rename_for_config c f = Some g ->
  Forall (fun a => a_array_length a = None) (f_args f) -> exists p, write_func c g layout = Some p.
Proof. exact @renamed_builds. Qed.
Print Assumptions C19_functions_never_panic.

(** ** Where the text says something else *)
(** A pointer to constant function pointers is written like a pointer to mutable ones. *)
Theorem C19_const_refuted : forall c ret args n nv n2 r x,
  write_field c (TPtr (TFuncPtr ret args n nv) true n2 r) x = write_field c (TPtr (TFuncPtr ret args n nv) false n2 r) x
  /\ c_type c false (TPtr (TFuncPtr ret args n nv) true n2 r) <> c_type c false (TPtr (TFuncPtr ret args n nv) false n2 r).
Proof. exact function_pointer_const. Qed.
Print Assumptions C19_const_refuted.

(** A function pointer that cannot be null is written like one that can. *)
Definition with_pointer_words (lang : Language) (non_null nullable : string) : Config :=
  {| header := None; includes_ := []; sys_includes_ := []; after_includes := None; trailer := None;
     include_guard_ := None; pragma_once := false; no_includes := false; package_version := false;
     autogen_warning := None; include_version := false; namespace := None; namespaces := None;
     using_namespaces := None; braces := SameLine; line_length := 40; tab_width := 2;
     line_endings := LF; language := lang; cpp_compat := false; style := Both; sort_by := SortNone;
     usize_is_size_t := false; parse := default_parse; export := default_export;
     layout := {| ly_packed := None; ly_aligned_n := None |}; function := default_function;
     structure := default_structure; enumeration := default_enumeration; constant := default_constant;
     defines := []; documentation := true; documentation_style := DocAuto;
     documentation_length := Full;
     pointer := {| pt_non_null_attribute := Some non_null; pt_nullable_attribute := Some nullable |};
     cython := {| cy_header := None; cy_cimports := [] |}; config_path := None |}.
Theorem C19_nullable_refuted : exists c, proper_attributes c = true /\ forall ret args nv x,
  write_field c (TFuncPtr ret args false nv) x = write_field c (TFuncPtr ret args true nv) x
  /\ c_type c false (TFuncPtr ret args false nv) <> c_type c false (TFuncPtr ret args true nv).
Proof.
  exists (with_pointer_words M_Config.C "_Nonnull" "_Nullable"). split; [reflexivity|]. intros ret args nv x. split; [reflexivity|]. discriminate.
Qed.
Print Assumptions C19_nullable_refuted.

Definition text (c : Config) (o : option prog) : option string := match o with Some p => run_config c p | None => None end.
Definition ansi : Config := config_with M_Config.C default_export SortNone.
Definition cxx : Config := config_with Cxx default_export SortNone.
Definition pyx : Config := config_with Cython default_export SortNone.
Definition i32 : Ty := TPrim (PInteger true true B32).
Definition unreadable (c : Config) (s : string) : Prop := forall n x t r, declaration (dialect_of c) n (tokens s) <> Some (x, t, r).

(** A function returning an array, and a parameter of type [VaList], are not C. *)
Theorem C19_array_result_refuted :
  text ansi (write_func ansi (fn "digest" [("x", u8)] (TArray u8 (EValue "4"))) Auto) = Some "uint8_t (digest(uint8_t x))[4]"
  /\ unreadable ansi "uint8_t (digest(uint8_t x))[4]".
Proof.
  split; [vm_compute; reflexivity|]. intros n x t r. do 9 (destruct n as [|n]; [vm_compute; discriminate|]). vm_compute. discriminate.
Qed.
Print Assumptions C19_array_result_refuted.
Theorem C19_va_list_refuted :
  text ansi (write_func ansi (fn "log_args" [("n", u8); ("ap", TPrim PVaList)] void) Auto) = Some "void log_args(uint8_t n, ... ap)"
  /\ unreadable ansi "void log_args(uint8_t n, ... ap)".
Proof.
  split; [vm_compute; reflexivity|]. intros n x t r. do 9 (destruct n as [|n]; [vm_compute; discriminate|]). vm_compute. discriminate.
Qed.
Print Assumptions C19_va_list_refuted.

(** ** Examples *)
Definition callback (args : list (option string * Ty)) (ret : Ty) : Ty := TFuncPtr ret args true false.
(** a table of pointers to functions returning a pointer to an array *)
Definition table : Ty :=
  TArray (callback [(Some "key", TPtr (ty "Key") true false false); (None, i32)] (TPtr (TArray (ptr u8) (EValue "4")) true true false)) (EPath (GenericPath_new "N" [])).
Example C19_table : declarable ansi table = true /\ usable ansi "table" = true /\ proper_attributes ansi = true
  /\ text ansi (write_field ansi table "table") = Some "uint8_t *const (*(*table[N])(const Key *key, int32_t))[4]".
Proof. repeat split; vm_compute; reflexivity. Qed.
Example C19_table_read : exists n, declaration (dialect_of ansi) n (tokens "uint8_t *const (*(*table[N])(const Key *key, int32_t))[4]")
  = Some (Some "table", c_type ansi false table, []).
Proof. exists 20. vm_compute. reflexivity. Qed.
(** The arguments of function pointers follow the configured layout, here on several lines. *)
Example C19_attributes : let c := with_pointer_words Cxx "_Nonnull" "_Nullable" in
  let t := TPtr (callback [(Some "key", TPtr (ty "SomeLongName") true false false); (Some "n", TPtr u8 false true true)]
                  (ty1 "Vec" (ty1 "Vec" (TPtr (ty "Node") true false false)))) false false false in
  declarable c t = true /\ proper_attributes c = true
  /\ text c (write_field c t "x") = Some ("Vec<Vec<const Node*_Nonnull >> (*_Nullable *_Nonnull x)(const SomeLongName *_Nonnull key," ++ nl ++
                                         "                                                        uint8_t &_Nullable n)").
Proof. repeat split; vm_compute; reflexivity. Qed.
Definition signal : Function := fn "set_handler" [("sig", i32); ("handler", callback [(None, i32)] void)] (callback [(None, i32)] void).
Example C19_signal : declarable_function ansi signal = true
  /\ text ansi (write_func ansi signal Vertical)
     = Some ("void (*set_handler(int32_t sig," ++ nl ++ "                   void (*handler)(int32_t)))(int32_t)")
  /\ text pyx (write_func pyx signal Horizontal) = Some "void (*set_handler(int32_t sig, void (*handler)(int32_t)))(int32_t)".
Proof. repeat split; vm_compute; reflexivity. Qed.
(** Without parameters; with an ellipsis; with an array parameter. *)
Definition variadic : Function :=
  {| f_path := "print_all"; f_self_type_path := None; f_ret := void;
     f_args := [ {| a_name := Some "fmt"; a_ty := TPtr (TPrim PChar) true true false; a_array_length := Some "16" |};
                 {| a_name := None; a_ty := TPrim PVaList; a_array_length := None |} ];
     f_extern_decl := false; f_cfg := None; f_annotations := AnnotationSet_new; f_documentation := []; f_never_return := false |}.
Example C19_variadic : declarable_function ansi variadic = true
  /\ text ansi (write_func ansi variadic Auto) = Some "void print_all(const char fmt[16], ...)"
  /\ text ansi (write_func ansi (fn "f" [] void) Auto) = Some "void f(void)"
  /\ text cxx (write_func cxx (fn "f" [] void) Auto) = Some "void f()".
Proof. repeat split; vm_compute; reflexivity. Qed.
