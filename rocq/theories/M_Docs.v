(** Model of the writing of documentation: language_backend/clike.rs:774-838
    and language_backend/cython.rs:319-334. *)
Require Import Coq.Strings.String Coq.Lists.List Coq.Bool.Bool.
From Verif Require Import Base M_Config M_Writer M_Ir.
Import ListNotations.
Open Scope string_scope.
Local Open Scope prog_scope.

(** clike.rs:779-782, cython.rs:324-327 *)
Definition doc_lines (c : Config) (d : Documentation) : list string :=
  match documentation_length c with Short => firstn 1 d | Full => d end.
(** clike.rs:784-793; the last case is never reached by the C-like backend *)
Definition doc_style (c : Config) : DocumentationStyle :=
  match documentation_style c with
  | DocAuto => match language c with M_Config.C => DocDoxy | Cxx => DocCxx | Cython => DocC end
  | s => s
  end.
(** clike.rs:812-819 *)
Definition doc_prefix (s : DocumentationStyle) : string :=
  match s with DocC => "" | DocDoxy => " *" | DocC99 => "//" | DocCxx => "///" | DocAuto => "" end.
Definition write_doc_line (prefix line : string) : prog := write prefix ;; write line ;; newline.
Definition clike_write_documentation (c : Config) (d : Documentation) : prog :=
  match d with
  | [] => PRet
  | _ =>
      if negb (documentation c) then PRet
      else
        let style := doc_style c in
        (match style with DocC => write "/*" ;; newline | DocDoxy => write "/**" ;; newline | _ => PRet end) ;;
        seqs (map (write_doc_line (doc_prefix style)) (doc_lines c d)) ;;
        (match style with DocC | DocDoxy => write " */" ;; newline | _ => PRet end)
  end.
(** cython.rs:319-334 *)
Definition cython_write_documentation (c : Config) (d : Documentation) : prog :=
  match d with
  | [] => PRet
  | _ => if negb (documentation c) then PRet else seqs (map (fun l => write ("#" ++ l) ;; newline) (doc_lines c d))
  end.
Definition write_documentation (c : Config) (d : Documentation) : prog :=
  match language c with Cython => cython_write_documentation c d | _ => clike_write_documentation c d end.
