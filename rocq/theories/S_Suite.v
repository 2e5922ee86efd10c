(** The project's own test suite run on the model: for each file (or crate) in
    tests/rust, with its configuration, everything tests/tests.rs compares with
    tests/expectations and tests/expectations-symbols (tests.rs:243-420): C with
    and without C++ compatibility in three styles, C++, and Cython in two styles.
    A file missing there stands for text already written for an earlier style.

    The sources are given as syntax trees, generated from the files by a script. *)
Require Import Coq.Strings.String Coq.Strings.Ascii Coq.Lists.List Coq.Bool.Bool Coq.NArith.NArith.
From Verif Require Import Base M_Config M_Cfg M_Type M_Ir M_Item M_Attr M_Syn M_Library M_Loader M_Parser M_Bindings M_Backend S_Heck.
Import ListNotations.
Open Scope string_scope.

Inductive run_as := RunC (compat : bool) (s : Style) | RunCxx | RunCython (s : Style).
(** tests.rs:65-88, main.rs:28-73: C++ is run without [--lang] and [--style]. *)
Definition with_run (r : run_as) (c : Config) : Config :=
  let '(lang, compat, st) := match r with
                             | RunC compat s => (M_Config.C, compat || cpp_compat c, s)
                             | RunCxx => (language c, cpp_compat c, style c)
                             | RunCython s => (Cython, cpp_compat c, s)
                             end in
  {| header := header c; includes_ := includes_ c; sys_includes_ := sys_includes_ c; after_includes := after_includes c; trailer := trailer c;
     include_guard_ := include_guard_ c; pragma_once := pragma_once c; no_includes := no_includes c; package_version := package_version c;
     autogen_warning := autogen_warning c; include_version := include_version c; namespace := namespace c; namespaces := namespaces c;
     using_namespaces := using_namespaces c; braces := braces c; line_length := line_length c; tab_width := tab_width c;
     line_endings := line_endings c; language := lang; cpp_compat := compat; style := st; sort_by := sort_by c;
     usize_is_size_t := usize_is_size_t c; parse := parse c; export := export c; layout := layout c; function := function c;
     structure := structure c; enumeration := enumeration c; constant := constant c; defines := defines c; documentation := documentation c;
     documentation_style := documentation_style c; documentation_length := documentation_length c; pointer := pointer c;
     cython := cython c; config_path := config_path c |}.

Record input := { in_disk : disk; in_srcs : list cpath; in_cargo : option Cargo }.
Definition same_path (p q : cpath) : bool := if list_eq_dec string_dec p q then true else false.
Definition disk_of (files : list (cpath * list sitem)) : disk :=
  {| dk_exists := fun p => existsb (fun f => same_path (fst f) p) files;
     dk_items := fun p => option_map snd (find (fun f => same_path (fst f) p) files) |}.
Definition in_file (items : list sitem) : input :=
  {| in_disk := disk_of [(["test.rs"], items)]; in_srcs := [["test.rs"]]; in_cargo := None |}.
Definition in_crate (files : list (cpath * list sitem)) (cargo : Cargo) : input :=
  {| in_disk := disk_of files; in_srcs := []; in_cargo := Some cargo |}.

(** From sources to bindings, and to the text of the header *)
Definition bindings_of {H : Heck} (i : input) (bitflags : bool) (c : Config) : outcome Bindings :=
  match parse_all (in_disk i) c bitflags 30 30 true (in_srcs i) (in_cargo i) with
  | Parsed l => generate 60 (fun x => x) l
  | Failed | Panicked => Panic
  | Endless => Diverge
  end.
Definition reproduces (i : input) (bitflags : bool) (c : Config) (symbols : option string) (expected : list (run_as * list string)) : bool :=
  forallb (fun r => match @bindings_of ascii_heck i bitflags (with_run (fst r) c) with
                    | Done b => match @bindings_text ascii_heck 60 b with Done t => mem_str t (snd r) | _ => false end
                                && match fst r, symbols with
                                   | RunC false Type_, Some s => String.eqb (symfile_text b) s
                                   | _, _ => true
                                   end
                    | _ => false
                    end) expected.
