(** Model of src/bindgen/builder.rs, the interface for build scripts, and of
    src/lib.rs.  The calls that begin with [with_] are the values of a type, so
    that a script is a list of them. *)
Require Import Coq.Strings.String Coq.Lists.List Coq.Bool.Bool.
From Verif Require Import Base M_Config M_Type M_Ir M_Item M_Library M_Bindings M_Files M_Attr M_Syn M_Loader M_Parser M_Settings M_Cli.
Import ListNotations.
Open Scope string_scope.

(** ** Assignments to the fields of the configuration: [self.config.f = x] *)

Definition set_header (x : option string) (c : Config) : Config :=
  {| header := x; includes_ := includes_ c; sys_includes_ := sys_includes_ c; after_includes := after_includes c; trailer := trailer c;
     include_guard_ := include_guard_ c; pragma_once := pragma_once c; no_includes := no_includes c; package_version := package_version c;
     autogen_warning := autogen_warning c; include_version := include_version c; namespace := namespace c; namespaces := namespaces c;
     using_namespaces := using_namespaces c; braces := braces c; line_length := line_length c; tab_width := tab_width c;
     line_endings := line_endings c; language := language c; cpp_compat := cpp_compat c; style := style c; sort_by := sort_by c;
     usize_is_size_t := usize_is_size_t c; parse := parse c; export := export c; layout := layout c; function := function c;
     structure := structure c; enumeration := enumeration c; constant := constant c; defines := defines c; documentation := documentation c;
     documentation_style := documentation_style c; documentation_length := documentation_length c; pointer := pointer c; cython := cython c;
     config_path := config_path c |}.
Definition set_includes_ (x : list string) (c : Config) : Config :=
  {| header := header c; includes_ := x; sys_includes_ := sys_includes_ c; after_includes := after_includes c; trailer := trailer c;
     include_guard_ := include_guard_ c; pragma_once := pragma_once c; no_includes := no_includes c; package_version := package_version c;
     autogen_warning := autogen_warning c; include_version := include_version c; namespace := namespace c; namespaces := namespaces c;
     using_namespaces := using_namespaces c; braces := braces c; line_length := line_length c; tab_width := tab_width c;
     line_endings := line_endings c; language := language c; cpp_compat := cpp_compat c; style := style c; sort_by := sort_by c;
     usize_is_size_t := usize_is_size_t c; parse := parse c; export := export c; layout := layout c; function := function c;
     structure := structure c; enumeration := enumeration c; constant := constant c; defines := defines c; documentation := documentation c;
     documentation_style := documentation_style c; documentation_length := documentation_length c; pointer := pointer c; cython := cython c;
     config_path := config_path c |}.
Definition set_sys_includes_ (x : list string) (c : Config) : Config :=
  {| header := header c; includes_ := includes_ c; sys_includes_ := x; after_includes := after_includes c; trailer := trailer c;
     include_guard_ := include_guard_ c; pragma_once := pragma_once c; no_includes := no_includes c; package_version := package_version c;
     autogen_warning := autogen_warning c; include_version := include_version c; namespace := namespace c; namespaces := namespaces c;
     using_namespaces := using_namespaces c; braces := braces c; line_length := line_length c; tab_width := tab_width c;
     line_endings := line_endings c; language := language c; cpp_compat := cpp_compat c; style := style c; sort_by := sort_by c;
     usize_is_size_t := usize_is_size_t c; parse := parse c; export := export c; layout := layout c; function := function c;
     structure := structure c; enumeration := enumeration c; constant := constant c; defines := defines c; documentation := documentation c;
     documentation_style := documentation_style c; documentation_length := documentation_length c; pointer := pointer c; cython := cython c;
     config_path := config_path c |}.
Definition set_after_includes (x : option string) (c : Config) : Config :=
  {| header := header c; includes_ := includes_ c; sys_includes_ := sys_includes_ c; after_includes := x; trailer := trailer c;
     include_guard_ := include_guard_ c; pragma_once := pragma_once c; no_includes := no_includes c; package_version := package_version c;
     autogen_warning := autogen_warning c; include_version := include_version c; namespace := namespace c; namespaces := namespaces c;
     using_namespaces := using_namespaces c; braces := braces c; line_length := line_length c; tab_width := tab_width c;
     line_endings := line_endings c; language := language c; cpp_compat := cpp_compat c; style := style c; sort_by := sort_by c;
     usize_is_size_t := usize_is_size_t c; parse := parse c; export := export c; layout := layout c; function := function c;
     structure := structure c; enumeration := enumeration c; constant := constant c; defines := defines c; documentation := documentation c;
     documentation_style := documentation_style c; documentation_length := documentation_length c; pointer := pointer c; cython := cython c;
     config_path := config_path c |}.
Definition set_trailer (x : option string) (c : Config) : Config :=
  {| header := header c; includes_ := includes_ c; sys_includes_ := sys_includes_ c; after_includes := after_includes c; trailer := x;
     include_guard_ := include_guard_ c; pragma_once := pragma_once c; no_includes := no_includes c; package_version := package_version c;
     autogen_warning := autogen_warning c; include_version := include_version c; namespace := namespace c; namespaces := namespaces c;
     using_namespaces := using_namespaces c; braces := braces c; line_length := line_length c; tab_width := tab_width c;
     line_endings := line_endings c; language := language c; cpp_compat := cpp_compat c; style := style c; sort_by := sort_by c;
     usize_is_size_t := usize_is_size_t c; parse := parse c; export := export c; layout := layout c; function := function c;
     structure := structure c; enumeration := enumeration c; constant := constant c; defines := defines c; documentation := documentation c;
     documentation_style := documentation_style c; documentation_length := documentation_length c; pointer := pointer c; cython := cython c;
     config_path := config_path c |}.
Definition set_include_guard_ (x : option string) (c : Config) : Config :=
  {| header := header c; includes_ := includes_ c; sys_includes_ := sys_includes_ c; after_includes := after_includes c; trailer := trailer c;
     include_guard_ := x; pragma_once := pragma_once c; no_includes := no_includes c; package_version := package_version c;
     autogen_warning := autogen_warning c; include_version := include_version c; namespace := namespace c; namespaces := namespaces c;
     using_namespaces := using_namespaces c; braces := braces c; line_length := line_length c; tab_width := tab_width c;
     line_endings := line_endings c; language := language c; cpp_compat := cpp_compat c; style := style c; sort_by := sort_by c;
     usize_is_size_t := usize_is_size_t c; parse := parse c; export := export c; layout := layout c; function := function c;
     structure := structure c; enumeration := enumeration c; constant := constant c; defines := defines c; documentation := documentation c;
     documentation_style := documentation_style c; documentation_length := documentation_length c; pointer := pointer c; cython := cython c;
     config_path := config_path c |}.
Definition set_pragma_once (x : bool) (c : Config) : Config :=
  {| header := header c; includes_ := includes_ c; sys_includes_ := sys_includes_ c; after_includes := after_includes c; trailer := trailer c;
     include_guard_ := include_guard_ c; pragma_once := x; no_includes := no_includes c; package_version := package_version c;
     autogen_warning := autogen_warning c; include_version := include_version c; namespace := namespace c; namespaces := namespaces c;
     using_namespaces := using_namespaces c; braces := braces c; line_length := line_length c; tab_width := tab_width c;
     line_endings := line_endings c; language := language c; cpp_compat := cpp_compat c; style := style c; sort_by := sort_by c;
     usize_is_size_t := usize_is_size_t c; parse := parse c; export := export c; layout := layout c; function := function c;
     structure := structure c; enumeration := enumeration c; constant := constant c; defines := defines c; documentation := documentation c;
     documentation_style := documentation_style c; documentation_length := documentation_length c; pointer := pointer c; cython := cython c;
     config_path := config_path c |}.
Definition set_no_includes (x : bool) (c : Config) : Config :=
  {| header := header c; includes_ := includes_ c; sys_includes_ := sys_includes_ c; after_includes := after_includes c; trailer := trailer c;
     include_guard_ := include_guard_ c; pragma_once := pragma_once c; no_includes := x; package_version := package_version c;
     autogen_warning := autogen_warning c; include_version := include_version c; namespace := namespace c; namespaces := namespaces c;
     using_namespaces := using_namespaces c; braces := braces c; line_length := line_length c; tab_width := tab_width c;
     line_endings := line_endings c; language := language c; cpp_compat := cpp_compat c; style := style c; sort_by := sort_by c;
     usize_is_size_t := usize_is_size_t c; parse := parse c; export := export c; layout := layout c; function := function c;
     structure := structure c; enumeration := enumeration c; constant := constant c; defines := defines c; documentation := documentation c;
     documentation_style := documentation_style c; documentation_length := documentation_length c; pointer := pointer c; cython := cython c;
     config_path := config_path c |}.
Definition set_autogen_warning (x : option string) (c : Config) : Config :=
  {| header := header c; includes_ := includes_ c; sys_includes_ := sys_includes_ c; after_includes := after_includes c; trailer := trailer c;
     include_guard_ := include_guard_ c; pragma_once := pragma_once c; no_includes := no_includes c; package_version := package_version c;
     autogen_warning := x; include_version := include_version c; namespace := namespace c; namespaces := namespaces c;
     using_namespaces := using_namespaces c; braces := braces c; line_length := line_length c; tab_width := tab_width c;
     line_endings := line_endings c; language := language c; cpp_compat := cpp_compat c; style := style c; sort_by := sort_by c;
     usize_is_size_t := usize_is_size_t c; parse := parse c; export := export c; layout := layout c; function := function c;
     structure := structure c; enumeration := enumeration c; constant := constant c; defines := defines c; documentation := documentation c;
     documentation_style := documentation_style c; documentation_length := documentation_length c; pointer := pointer c; cython := cython c;
     config_path := config_path c |}.
Definition set_include_version (x : bool) (c : Config) : Config :=
  {| header := header c; includes_ := includes_ c; sys_includes_ := sys_includes_ c; after_includes := after_includes c; trailer := trailer c;
     include_guard_ := include_guard_ c; pragma_once := pragma_once c; no_includes := no_includes c; package_version := package_version c;
     autogen_warning := autogen_warning c; include_version := x; namespace := namespace c; namespaces := namespaces c;
     using_namespaces := using_namespaces c; braces := braces c; line_length := line_length c; tab_width := tab_width c;
     line_endings := line_endings c; language := language c; cpp_compat := cpp_compat c; style := style c; sort_by := sort_by c;
     usize_is_size_t := usize_is_size_t c; parse := parse c; export := export c; layout := layout c; function := function c;
     structure := structure c; enumeration := enumeration c; constant := constant c; defines := defines c; documentation := documentation c;
     documentation_style := documentation_style c; documentation_length := documentation_length c; pointer := pointer c; cython := cython c;
     config_path := config_path c |}.
Definition set_namespace (x : option string) (c : Config) : Config :=
  {| header := header c; includes_ := includes_ c; sys_includes_ := sys_includes_ c; after_includes := after_includes c; trailer := trailer c;
     include_guard_ := include_guard_ c; pragma_once := pragma_once c; no_includes := no_includes c; package_version := package_version c;
     autogen_warning := autogen_warning c; include_version := include_version c; namespace := x; namespaces := namespaces c;
     using_namespaces := using_namespaces c; braces := braces c; line_length := line_length c; tab_width := tab_width c;
     line_endings := line_endings c; language := language c; cpp_compat := cpp_compat c; style := style c; sort_by := sort_by c;
     usize_is_size_t := usize_is_size_t c; parse := parse c; export := export c; layout := layout c; function := function c;
     structure := structure c; enumeration := enumeration c; constant := constant c; defines := defines c; documentation := documentation c;
     documentation_style := documentation_style c; documentation_length := documentation_length c; pointer := pointer c; cython := cython c;
     config_path := config_path c |}.
Definition set_namespaces (x : option (list string)) (c : Config) : Config :=
  {| header := header c; includes_ := includes_ c; sys_includes_ := sys_includes_ c; after_includes := after_includes c; trailer := trailer c;
     include_guard_ := include_guard_ c; pragma_once := pragma_once c; no_includes := no_includes c; package_version := package_version c;
     autogen_warning := autogen_warning c; include_version := include_version c; namespace := namespace c; namespaces := x;
     using_namespaces := using_namespaces c; braces := braces c; line_length := line_length c; tab_width := tab_width c;
     line_endings := line_endings c; language := language c; cpp_compat := cpp_compat c; style := style c; sort_by := sort_by c;
     usize_is_size_t := usize_is_size_t c; parse := parse c; export := export c; layout := layout c; function := function c;
     structure := structure c; enumeration := enumeration c; constant := constant c; defines := defines c; documentation := documentation c;
     documentation_style := documentation_style c; documentation_length := documentation_length c; pointer := pointer c; cython := cython c;
     config_path := config_path c |}.
Definition set_using_namespaces (x : option (list string)) (c : Config) : Config :=
  {| header := header c; includes_ := includes_ c; sys_includes_ := sys_includes_ c; after_includes := after_includes c; trailer := trailer c;
     include_guard_ := include_guard_ c; pragma_once := pragma_once c; no_includes := no_includes c; package_version := package_version c;
     autogen_warning := autogen_warning c; include_version := include_version c; namespace := namespace c; namespaces := namespaces c;
     using_namespaces := x; braces := braces c; line_length := line_length c; tab_width := tab_width c; line_endings := line_endings c;
     language := language c; cpp_compat := cpp_compat c; style := style c; sort_by := sort_by c; usize_is_size_t := usize_is_size_t c;
     parse := parse c; export := export c; layout := layout c; function := function c; structure := structure c; enumeration := enumeration c;
     constant := constant c; defines := defines c; documentation := documentation c; documentation_style := documentation_style c;
     documentation_length := documentation_length c; pointer := pointer c; cython := cython c; config_path := config_path c |}.
Definition set_braces (x : Braces) (c : Config) : Config :=
  {| header := header c; includes_ := includes_ c; sys_includes_ := sys_includes_ c; after_includes := after_includes c; trailer := trailer c;
     include_guard_ := include_guard_ c; pragma_once := pragma_once c; no_includes := no_includes c; package_version := package_version c;
     autogen_warning := autogen_warning c; include_version := include_version c; namespace := namespace c; namespaces := namespaces c;
     using_namespaces := using_namespaces c; braces := x; line_length := line_length c; tab_width := tab_width c;
     line_endings := line_endings c; language := language c; cpp_compat := cpp_compat c; style := style c; sort_by := sort_by c;
     usize_is_size_t := usize_is_size_t c; parse := parse c; export := export c; layout := layout c; function := function c;
     structure := structure c; enumeration := enumeration c; constant := constant c; defines := defines c; documentation := documentation c;
     documentation_style := documentation_style c; documentation_length := documentation_length c; pointer := pointer c; cython := cython c;
     config_path := config_path c |}.
Definition set_line_length (x : nat) (c : Config) : Config :=
  {| header := header c; includes_ := includes_ c; sys_includes_ := sys_includes_ c; after_includes := after_includes c; trailer := trailer c;
     include_guard_ := include_guard_ c; pragma_once := pragma_once c; no_includes := no_includes c; package_version := package_version c;
     autogen_warning := autogen_warning c; include_version := include_version c; namespace := namespace c; namespaces := namespaces c;
     using_namespaces := using_namespaces c; braces := braces c; line_length := x; tab_width := tab_width c; line_endings := line_endings c;
     language := language c; cpp_compat := cpp_compat c; style := style c; sort_by := sort_by c; usize_is_size_t := usize_is_size_t c;
     parse := parse c; export := export c; layout := layout c; function := function c; structure := structure c; enumeration := enumeration c;
     constant := constant c; defines := defines c; documentation := documentation c; documentation_style := documentation_style c;
     documentation_length := documentation_length c; pointer := pointer c; cython := cython c; config_path := config_path c |}.
Definition set_tab_width (x : nat) (c : Config) : Config :=
  {| header := header c; includes_ := includes_ c; sys_includes_ := sys_includes_ c; after_includes := after_includes c; trailer := trailer c;
     include_guard_ := include_guard_ c; pragma_once := pragma_once c; no_includes := no_includes c; package_version := package_version c;
     autogen_warning := autogen_warning c; include_version := include_version c; namespace := namespace c; namespaces := namespaces c;
     using_namespaces := using_namespaces c; braces := braces c; line_length := line_length c; tab_width := x; line_endings := line_endings c;
     language := language c; cpp_compat := cpp_compat c; style := style c; sort_by := sort_by c; usize_is_size_t := usize_is_size_t c;
     parse := parse c; export := export c; layout := layout c; function := function c; structure := structure c; enumeration := enumeration c;
     constant := constant c; defines := defines c; documentation := documentation c; documentation_style := documentation_style c;
     documentation_length := documentation_length c; pointer := pointer c; cython := cython c; config_path := config_path c |}.
Definition set_line_endings (x : LineEndingStyle) (c : Config) : Config :=
  {| header := header c; includes_ := includes_ c; sys_includes_ := sys_includes_ c; after_includes := after_includes c; trailer := trailer c;
     include_guard_ := include_guard_ c; pragma_once := pragma_once c; no_includes := no_includes c; package_version := package_version c;
     autogen_warning := autogen_warning c; include_version := include_version c; namespace := namespace c; namespaces := namespaces c;
     using_namespaces := using_namespaces c; braces := braces c; line_length := line_length c; tab_width := tab_width c; line_endings := x;
     language := language c; cpp_compat := cpp_compat c; style := style c; sort_by := sort_by c; usize_is_size_t := usize_is_size_t c;
     parse := parse c; export := export c; layout := layout c; function := function c; structure := structure c; enumeration := enumeration c;
     constant := constant c; defines := defines c; documentation := documentation c; documentation_style := documentation_style c;
     documentation_length := documentation_length c; pointer := pointer c; cython := cython c; config_path := config_path c |}.
Definition set_language (x : Language) (c : Config) : Config :=
  {| header := header c; includes_ := includes_ c; sys_includes_ := sys_includes_ c; after_includes := after_includes c; trailer := trailer c;
     include_guard_ := include_guard_ c; pragma_once := pragma_once c; no_includes := no_includes c; package_version := package_version c;
     autogen_warning := autogen_warning c; include_version := include_version c; namespace := namespace c; namespaces := namespaces c;
     using_namespaces := using_namespaces c; braces := braces c; line_length := line_length c; tab_width := tab_width c;
     line_endings := line_endings c; language := x; cpp_compat := cpp_compat c; style := style c; sort_by := sort_by c;
     usize_is_size_t := usize_is_size_t c; parse := parse c; export := export c; layout := layout c; function := function c;
     structure := structure c; enumeration := enumeration c; constant := constant c; defines := defines c; documentation := documentation c;
     documentation_style := documentation_style c; documentation_length := documentation_length c; pointer := pointer c; cython := cython c;
     config_path := config_path c |}.
Definition set_cpp_compat (x : bool) (c : Config) : Config :=
  {| header := header c; includes_ := includes_ c; sys_includes_ := sys_includes_ c; after_includes := after_includes c; trailer := trailer c;
     include_guard_ := include_guard_ c; pragma_once := pragma_once c; no_includes := no_includes c; package_version := package_version c;
     autogen_warning := autogen_warning c; include_version := include_version c; namespace := namespace c; namespaces := namespaces c;
     using_namespaces := using_namespaces c; braces := braces c; line_length := line_length c; tab_width := tab_width c;
     line_endings := line_endings c; language := language c; cpp_compat := x; style := style c; sort_by := sort_by c;
     usize_is_size_t := usize_is_size_t c; parse := parse c; export := export c; layout := layout c; function := function c;
     structure := structure c; enumeration := enumeration c; constant := constant c; defines := defines c; documentation := documentation c;
     documentation_style := documentation_style c; documentation_length := documentation_length c; pointer := pointer c; cython := cython c;
     config_path := config_path c |}.
Definition set_style (x : Style) (c : Config) : Config :=
  {| header := header c; includes_ := includes_ c; sys_includes_ := sys_includes_ c; after_includes := after_includes c; trailer := trailer c;
     include_guard_ := include_guard_ c; pragma_once := pragma_once c; no_includes := no_includes c; package_version := package_version c;
     autogen_warning := autogen_warning c; include_version := include_version c; namespace := namespace c; namespaces := namespaces c;
     using_namespaces := using_namespaces c; braces := braces c; line_length := line_length c; tab_width := tab_width c;
     line_endings := line_endings c; language := language c; cpp_compat := cpp_compat c; style := x; sort_by := sort_by c;
     usize_is_size_t := usize_is_size_t c; parse := parse c; export := export c; layout := layout c; function := function c;
     structure := structure c; enumeration := enumeration c; constant := constant c; defines := defines c; documentation := documentation c;
     documentation_style := documentation_style c; documentation_length := documentation_length c; pointer := pointer c; cython := cython c;
     config_path := config_path c |}.
Definition set_parse (x : ParseConfig) (c : Config) : Config :=
  {| header := header c; includes_ := includes_ c; sys_includes_ := sys_includes_ c; after_includes := after_includes c; trailer := trailer c;
     include_guard_ := include_guard_ c; pragma_once := pragma_once c; no_includes := no_includes c; package_version := package_version c;
     autogen_warning := autogen_warning c; include_version := include_version c; namespace := namespace c; namespaces := namespaces c;
     using_namespaces := using_namespaces c; braces := braces c; line_length := line_length c; tab_width := tab_width c;
     line_endings := line_endings c; language := language c; cpp_compat := cpp_compat c; style := style c; sort_by := sort_by c;
     usize_is_size_t := usize_is_size_t c; parse := x; export := export c; layout := layout c; function := function c;
     structure := structure c; enumeration := enumeration c; constant := constant c; defines := defines c; documentation := documentation c;
     documentation_style := documentation_style c; documentation_length := documentation_length c; pointer := pointer c; cython := cython c;
     config_path := config_path c |}.
Definition set_export (x : ExportConfig) (c : Config) : Config :=
  {| header := header c; includes_ := includes_ c; sys_includes_ := sys_includes_ c; after_includes := after_includes c; trailer := trailer c;
     include_guard_ := include_guard_ c; pragma_once := pragma_once c; no_includes := no_includes c; package_version := package_version c;
     autogen_warning := autogen_warning c; include_version := include_version c; namespace := namespace c; namespaces := namespaces c;
     using_namespaces := using_namespaces c; braces := braces c; line_length := line_length c; tab_width := tab_width c;
     line_endings := line_endings c; language := language c; cpp_compat := cpp_compat c; style := style c; sort_by := sort_by c;
     usize_is_size_t := usize_is_size_t c; parse := parse c; export := x; layout := layout c; function := function c; structure := structure c;
     enumeration := enumeration c; constant := constant c; defines := defines c; documentation := documentation c;
     documentation_style := documentation_style c; documentation_length := documentation_length c; pointer := pointer c; cython := cython c;
     config_path := config_path c |}.
Definition set_defines (x : list (string * string)) (c : Config) : Config :=
  {| header := header c; includes_ := includes_ c; sys_includes_ := sys_includes_ c; after_includes := after_includes c; trailer := trailer c;
     include_guard_ := include_guard_ c; pragma_once := pragma_once c; no_includes := no_includes c; package_version := package_version c;
     autogen_warning := autogen_warning c; include_version := include_version c; namespace := namespace c; namespaces := namespaces c;
     using_namespaces := using_namespaces c; braces := braces c; line_length := line_length c; tab_width := tab_width c;
     line_endings := line_endings c; language := language c; cpp_compat := cpp_compat c; style := style c; sort_by := sort_by c;
     usize_is_size_t := usize_is_size_t c; parse := parse c; export := export c; layout := layout c; function := function c;
     structure := structure c; enumeration := enumeration c; constant := constant c; defines := x; documentation := documentation c;
     documentation_style := documentation_style c; documentation_length := documentation_length c; pointer := pointer c; cython := cython c;
     config_path := config_path c |}.
Definition set_documentation (x : bool) (c : Config) : Config :=
  {| header := header c; includes_ := includes_ c; sys_includes_ := sys_includes_ c; after_includes := after_includes c; trailer := trailer c;
     include_guard_ := include_guard_ c; pragma_once := pragma_once c; no_includes := no_includes c; package_version := package_version c;
     autogen_warning := autogen_warning c; include_version := include_version c; namespace := namespace c; namespaces := namespaces c;
     using_namespaces := using_namespaces c; braces := braces c; line_length := line_length c; tab_width := tab_width c;
     line_endings := line_endings c; language := language c; cpp_compat := cpp_compat c; style := style c; sort_by := sort_by c;
     usize_is_size_t := usize_is_size_t c; parse := parse c; export := export c; layout := layout c; function := function c;
     structure := structure c; enumeration := enumeration c; constant := constant c; defines := defines c; documentation := x;
     documentation_style := documentation_style c; documentation_length := documentation_length c; pointer := pointer c; cython := cython c;
     config_path := config_path c |}.
Definition set_ex_include (x : list string) (e : ExportConfig) : ExportConfig :=
  {| ex_include := x; ex_exclude := ex_exclude e; ex_rename := ex_rename e; ex_pre_body := ex_pre_body e; ex_body := ex_body e;
     ex_prefix := ex_prefix e; ex_item_types := ex_item_types e; ex_renaming_overrides_prefixing := ex_renaming_overrides_prefixing e;
     ex_mangle := ex_mangle e |}.
Definition set_ex_exclude (x : list string) (e : ExportConfig) : ExportConfig :=
  {| ex_include := ex_include e; ex_exclude := x; ex_rename := ex_rename e; ex_pre_body := ex_pre_body e; ex_body := ex_body e;
     ex_prefix := ex_prefix e; ex_item_types := ex_item_types e; ex_renaming_overrides_prefixing := ex_renaming_overrides_prefixing e;
     ex_mangle := ex_mangle e |}.
Definition set_ex_rename (x : list (string * string)) (e : ExportConfig) : ExportConfig :=
  {| ex_include := ex_include e; ex_exclude := ex_exclude e; ex_rename := x; ex_pre_body := ex_pre_body e; ex_body := ex_body e;
     ex_prefix := ex_prefix e; ex_item_types := ex_item_types e; ex_renaming_overrides_prefixing := ex_renaming_overrides_prefixing e;
     ex_mangle := ex_mangle e |}.
Definition set_ex_prefix (x : option string) (e : ExportConfig) : ExportConfig :=
  {| ex_include := ex_include e; ex_exclude := ex_exclude e; ex_rename := ex_rename e; ex_pre_body := ex_pre_body e; ex_body := ex_body e;
     ex_prefix := x; ex_item_types := ex_item_types e; ex_renaming_overrides_prefixing := ex_renaming_overrides_prefixing e;
     ex_mangle := ex_mangle e |}.
Definition set_pa_parse_deps (x : bool) (p : ParseConfig) : ParseConfig :=
  {| pa_parse_deps := x; pa_include := pa_include p; pa_exclude := pa_exclude p; pa_expand_crates := pa_expand_crates p;
     pa_extra_bindings := pa_extra_bindings p |}.
Definition set_pa_include (x : option (list string)) (p : ParseConfig) : ParseConfig :=
  {| pa_parse_deps := pa_parse_deps p; pa_include := x; pa_exclude := pa_exclude p; pa_expand_crates := pa_expand_crates p;
     pa_extra_bindings := pa_extra_bindings p |}.
Definition set_pa_exclude (x : list string) (p : ParseConfig) : ParseConfig :=
  {| pa_parse_deps := pa_parse_deps p; pa_include := pa_include p; pa_exclude := x; pa_expand_crates := pa_expand_crates p;
     pa_extra_bindings := pa_extra_bindings p |}.
Definition set_pa_expand_crates (x : list string) (p : ParseConfig) : ParseConfig :=
  {| pa_parse_deps := pa_parse_deps p; pa_include := pa_include p; pa_exclude := pa_exclude p; pa_expand_crates := x;
     pa_extra_bindings := pa_extra_bindings p |}.
Definition set_pa_extra_bindings (x : list string) (p : ParseConfig) : ParseConfig :=
  {| pa_parse_deps := pa_parse_deps p; pa_include := pa_include p; pa_exclude := pa_exclude p; pa_expand_crates := pa_expand_crates p;
     pa_extra_bindings := x |}.
Definition set_xp_all_features (x : bool) (e : ExpandConfig) : ExpandConfig :=
  {| xp_all_features := x; xp_default_features := xp_default_features e; xp_features := xp_features e; xp_profile := xp_profile e |}.
Definition set_xp_default_features (x : bool) (e : ExpandConfig) : ExpandConfig :=
  {| xp_all_features := xp_all_features e; xp_default_features := x; xp_features := xp_features e; xp_profile := xp_profile e |}.
Definition set_xp_features (x : option (list string)) (e : ExpandConfig) : ExpandConfig :=
  {| xp_all_features := xp_all_features e; xp_default_features := xp_default_features e; xp_features := x; xp_profile := xp_profile e |}.
Definition set_xp_profile (x : Profile) (e : ExpandConfig) : ExpandConfig :=
  {| xp_all_features := xp_all_features e; xp_default_features := xp_default_features e; xp_features := xp_features e; xp_profile := x |}.
(** [HashMap::insert] *)
Definition map_insert {A} (k : string) (v : A) (m : list (string * A)) : list (string * A) :=
  (k, v) :: filter (fun e => negb (String.eqb (fst e) k)) m.

(** ** The builder *)

(** builder.rs:16-23.  Left out: [lib_cargo], which only main.rs sets (M_Cli). *)
Record Builder := {
  bu_settings : Settings;
  bu_srcs : list cpath;
  bu_lib : option (cpath * option string);
  bu_std_types : bool;
  bu_lockfile : option cpath
}.
(** builder.rs:27-36 *)
Definition Builder_new : Builder :=
  {| bu_settings := default_settings; bu_srcs := []; bu_lib := None; bu_std_types := true; bu_lockfile := None |}.

Definition on_settings (f : Settings -> Settings) (b : Builder) : Builder :=
  {| bu_settings := f (bu_settings b); bu_srcs := bu_srcs b; bu_lib := bu_lib b; bu_std_types := bu_std_types b; bu_lockfile := bu_lockfile b |}.
Definition on_config (f : Config -> Config) : Builder -> Builder :=
  on_settings (fun s => {| se_config := f (se_config s); se_bitflags := se_bitflags s; se_only_target := se_only_target s;
                           se_clean := se_clean s; se_expand := se_expand s |}).
Definition on_expand (f : ExpandConfig -> ExpandConfig) : Builder -> Builder :=
  on_settings (fun s => {| se_config := se_config s; se_bitflags := se_bitflags s; se_only_target := se_only_target s;
                           se_clean := se_clean s; se_expand := f (se_expand s) |}).
Definition on_export (f : ExportConfig -> ExportConfig) : Builder -> Builder := on_config (fun c => set_export (f (export c)) c).
Definition on_parse (f : ParseConfig -> ParseConfig) : Builder -> Builder := on_config (fun c => set_parse (f (parse c)) c).

(** builder.rs:38-350: the calls, in the order of the file *)
Inductive call :=
| WithHeader (s : string)
| WithNoIncludes
| WithInclude (s : string)
| WithSysInclude (s : string)
| WithAfterInclude (s : string)
| WithTrailer (s : string)
| WithIncludeGuard (s : string)
| WithPragmaOnce (f : bool)
| WithAutogenWarning (s : string)
| WithIncludeVersion (f : bool)
| WithNamespace (s : string)
| WithNamespaces (l : list string)
| WithUsingNamespaces (l : list string)
| WithBraces (x : Braces)
| WithLineLength (n : nat)
| WithTabWidth (n : nat)
| WithLanguage (x : Language)
| WithCppCompat (f : bool)
| WithStyle (x : Style)
| IncludeItem (s : string)
| ExcludeItem (s : string)
| RenameItem (from to : string)
| WithItemPrefix (s : string)
| WithParseDeps (f : bool)
| WithParseInclude (l : list string)
| WithParseExclude (l : list string)
| WithParseExpand (l : list string)
| WithParseExpandAllFeatures (f : bool)
| WithParseExpandDefaultFeatures (f : bool)
| WithParseExpandFeatures (l : list string)
| WithParseExpandProfile (x : Profile)
| WithParseExtraBindings (l : list string)
| WithOnlyTargetDependencies (f : bool)
| WithDocumentation (f : bool)
| WithTargetOsDefine (platform define : string)
| WithDefine (k v define : string)
| WithConfig (s : Settings)
| WithStdTypes (f : bool)
| WithSrc (p : cpath)
| WithCrate (dir : cpath)
| WithCrateAndName (dir : cpath) (name : string)
| WithLockfile (p : cpath)
| WithLineEndings (x : LineEndingStyle).
(** … and what they do, without the [debug_assert!]s *)
Definition plain_call (c : call) (b : Builder) : Builder :=
  match c with
  | WithHeader s => on_config (set_header (Some s)) b
  | WithNoIncludes => on_config (set_no_includes true) b
  | WithInclude s => on_config (fun c => set_includes_ (includes_ c ++ [s])%list c) b
  | WithSysInclude s => on_config (fun c => set_sys_includes_ (sys_includes_ c ++ [s])%list c) b
  | WithAfterInclude s => on_config (set_after_includes (Some s)) b
  | WithTrailer s => on_config (set_trailer (Some s)) b
  | WithIncludeGuard s => on_config (set_include_guard_ (Some s)) b
  | WithPragmaOnce f => on_config (set_pragma_once f) b
  | WithAutogenWarning s => on_config (set_autogen_warning (Some s)) b
  | WithIncludeVersion f => on_config (set_include_version f) b
  | WithNamespace s => on_config (set_namespace (Some s)) b
  | WithNamespaces l => on_config (set_namespaces (Some l)) b
  | WithUsingNamespaces l => on_config (set_using_namespaces (Some l)) b
  | WithBraces x => on_config (set_braces x) b
  | WithLineLength n => on_config (set_line_length n) b
  | WithTabWidth n => on_config (set_tab_width n) b
  | WithLanguage x => on_config (set_language x) b
  | WithCppCompat f => on_config (set_cpp_compat f) b
  | WithStyle x => on_config (set_style x) b
  | IncludeItem s => on_export (fun e => set_ex_include (ex_include e ++ [s])%list e) b
  | ExcludeItem s => on_export (fun e => set_ex_exclude (ex_exclude e ++ [s])%list e) b
  | RenameItem from to => on_export (fun e => set_ex_rename (map_insert from to (ex_rename e)) e) b
  | WithItemPrefix s => on_export (set_ex_prefix (Some s)) b
  | WithParseDeps f => on_parse (set_pa_parse_deps f) b
  | WithParseInclude l => on_parse (set_pa_include (Some l)) b
  | WithParseExclude l => on_parse (set_pa_exclude l) b
  | WithParseExpand l => on_parse (set_pa_expand_crates l) b
  | WithParseExpandAllFeatures f => on_expand (set_xp_all_features f) b
  | WithParseExpandDefaultFeatures f => on_expand (set_xp_default_features f) b
  | WithParseExpandFeatures l => on_expand (set_xp_features (Some l)) b
  | WithParseExpandProfile x => on_expand (set_xp_profile x) b
  | WithParseExtraBindings l => on_parse (set_pa_extra_bindings l) b
  | WithOnlyTargetDependencies f => on_settings (fun s => {| se_config := se_config s; se_bitflags := se_bitflags s; se_only_target := f;
                         se_clean := se_clean s; se_expand := se_expand s |}) b
  | WithDocumentation f => on_config (set_documentation f) b
  | WithTargetOsDefine platform define => on_config (fun c => set_defines (map_insert ("target_os = " ++ platform) define (defines c)) c) b
  | WithDefine k v define => on_config (fun c => set_defines (map_insert (k ++ " = " ++ v) define (defines c)) c) b
  | WithConfig s => on_settings (fun _ => s) b
  | WithStdTypes f => {| bu_settings := bu_settings b; bu_srcs := bu_srcs b; bu_lib := bu_lib b; bu_std_types := f; bu_lockfile := bu_lockfile b |}
  | WithSrc p => {| bu_settings := bu_settings b; bu_srcs := (bu_srcs b ++ [p])%list; bu_lib := bu_lib b; bu_std_types := bu_std_types b; bu_lockfile := bu_lockfile b |}
  | WithCrate dir => {| bu_settings := bu_settings b; bu_srcs := bu_srcs b; bu_lib := Some (dir, None); bu_std_types := bu_std_types b; bu_lockfile := bu_lockfile b |}
  | WithCrateAndName dir name => {| bu_settings := bu_settings b; bu_srcs := bu_srcs b; bu_lib := Some (dir, Some name); bu_std_types := bu_std_types b; bu_lockfile := bu_lockfile b |}
  | WithLockfile p => {| bu_settings := bu_settings b; bu_srcs := bu_srcs b; bu_lib := bu_lib b; bu_std_types := bu_std_types b; bu_lockfile := Some p |}
  | WithLineEndings x => on_config (set_line_endings x) b
  end.
(** builder.rs:307-343: the assertions hold in a build without debug assertions
    whatever is given. *)
Definition is_some {A} (o : option A) : bool := match o with Some _ => true | None => false end.
Definition asserts (c : call) (b : Builder) : bool :=
  match c with
  | WithCrate _ | WithCrateAndName _ _ => negb (is_some (bu_lib b))
  | WithLockfile _ => negb (is_some (bu_lockfile b))
  | _ => true
  end.
Definition apply_call (debug : bool) (c : call) (b : Builder) : option Builder :=
  if debug && negb (asserts c b) then None else Some (plain_call c b).
Fixpoint apply_calls (debug : bool) (l : list call) (b : Builder) : option Builder :=
  match l with
  | [] => Some b
  | c :: r => let? b' := apply_call debug c b in apply_calls debug r b'
  end.

(** ** Generating *)

Section Generate.
  Context {H : Heck}.
  Variables (w : Outside) (mfuel fuel gfuel : nat) (visit : list (string * AnnotationSet) -> list (string * AnnotationSet)).
  (** builder.rs:352-418.  The source files are read before cargo is asked: a
      file that cannot be read is the first to end the run. *)
  Definition generate_with (b : Builder) (lib : option Cargo) : ran Bindings :=
    let s := bu_settings b in
    match parse_all (ou_disk w) (se_config s) (se_bitflags s) mfuel fuel (bu_std_types b) (bu_srcs b) lib with
    | Failed => Refused
    | Panicked => Crashed
    | Endless => Unending
    | Parsed l => match generate gfuel visit l with Done x => Ran x | Panic => Crashed | Diverge => Unending end
    end.
  Definition Builder_generate (b : Builder) : ran Bindings :=
    let s := bu_settings b in
    if ou_running w then Ran (noop_bindings (se_config s))
    else match parse_srcs (ou_disk w) (se_config s) (se_bitflags s) mfuel (bu_srcs b) (Parse_new, []) with
         | Failed => Refused
         | Panicked => Crashed
         | Endless => Unending
         | Parsed _ =>
             match bu_lib b with
             | None => generate_with b None
             | Some (dir, name) =>
                 match builder_cargo w dir name (bu_lockfile b) s with
                 | None => Refused
                 | Some cargo => generate_with b (Some cargo)
                 end
             end
         end.
  (** lib.rs:22-44 *)
  Definition generate_with_config (debug : bool) (dir : cpath) (s : Settings) : ran Bindings :=
    bind_ran (or_crash (apply_calls debug [WithConfig s; WithCrate dir] Builder_new)) Builder_generate.
  Definition generate_crate (debug : bool) (dir : cpath) : ran Bindings :=
    bind_ran (or_crash (from_root_or_default w dir)) (generate_with_config debug dir).
End Generate.
