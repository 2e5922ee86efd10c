(** What is open around the declarations of a written file, for a C or C++
    compiler reading it: the include guard, the namespaces and the
    [extern "C"] block. *)
Require Import Coq.Strings.String Coq.Strings.Ascii Coq.Lists.List Coq.Bool.Bool.
From Verif Require Import Base M_Config M_Ir M_Library S_Outline S_File.
Import ListNotations.
Open Scope string_scope.

Section Layers.
  Variables (holds : string -> bool) (b : Bindings).
  Let c : Config := b_config b.

  (** The include guard: its text is read when the macro is not defined yet. *)
  Definition guard_frames : list frame :=
    match include_guard c with
    | Some g => let on := holds ("#ifndef " ++ g) in [{| f_on := on; f_taken := on; f_else := false |}]
    | None => []
    end.
  (** Whether the compiler is a C++ compiler, as far as the file can tell. *)
  Definition seen_as_cxx : bool :=
    match language c with
    | Cxx => true
    | M_Config.C => cpp_compat c && holds "#ifdef __cplusplus"
    | Cython => false
    end.
  Definition namespace_count : nat :=
    (match namespace c with Some _ => 1 | None => 0 end) + match namespaces c with Some l => length l | None => 0 end.
  Definition extern_count : nat := if any_symbol b then 1 else 0.

  (** At the start of a line, inside the include guard, [n] braces deep. *)
  Definition layer (n : nat) : outline :=
    At BlankLine Plain guard_frames (if active guard_frames && seen_as_cxx then repeat "{"%char n else []).
End Layers.
