(** What stands above and below the declarations of a file. *)
Require Import Coq.Strings.String Coq.Strings.Ascii Coq.Lists.List Coq.Bool.Bool.
From Verif Require Import Base M_Config M_Type M_Ir M_Library S_File.
Import ListNotations.
Open Scope string_scope.

Section Head.
  Variable b : Bindings.
  Let c : Config := b_config b.
  Let le : string := LineEndingStyle_as_str (line_endings c).
  Definition given {A} (o : option A) : list A := match o with Some x => [x] | None => [] end.
  Definition asked (x : bool) (s : string) : list string := if x then [s] else [].

  (** Paragraphs stand on lines of their own, with empty lines between. *)
  Definition below (above paragraph : string) : string := above ++ gap b above ++ paragraph ++ le.
  Definition paragraphs (l : list string) : string := fold_left below l "".

  (** ** C and C++ *)
  (** The standard headers. *)
  Definition standard_headers : list string :=
    match language c with
    | M_Config.C => (["stdarg.h"; "stdbool.h"] ++ asked (usize_is_size_t c) "stddef.h" ++ ["stdint.h"; "stdlib.h"])%list
    | Cxx =>
        (["cstdarg"] ++ asked (usize_is_size_t c) "cstddef" ++ ["cstdint"; "cstdlib"; "ostream"; "new"]
         ++ match en_cast_assert_name (enumeration c) with
            | Some _ => []
            | None => asked (en_derive_mut_casts (enumeration c) || en_derive_const_casts (enumeration c)) "cassert"
            end)%list
    | Cython => []
    end.
  Definition include_lines : list string :=
    ((if no_includes c then [] else map (fun h => "#include <" ++ h ++ ">")%string standard_headers)
     ++ map (fun h => "#include <" ++ h ++ ">")%string (sys_includes_ c)
     ++ map (fun h => "#include " ++ dquote ++ h ++ dquote)%string (includes_ c)
     ++ given (after_includes c))%list.
  Definition block (l : list string) : list string := match l with [] => [] | _ => [join le l] end.
  Definition first_paragraphs : list string :=
    (asked (package_version c) ("/* Package version: " ++ b_package_version b ++ " */")%string
     ++ given (header c)
     ++ match include_guard_ c with Some g => [("#ifndef " ++ g ++ le ++ "#define " ++ g)%string] | None => [] end
     ++ asked (pragma_once c) "#pragma once"
     ++ asked (include_version c) "/* Generated with cbindgen:0.29.4 */"
     ++ given (autogen_warning c)
     ++ block include_lines)%list.

  (** The namespaces, for a C++ compiler. *)
  Definition names : list string := (given (namespace c) ++ match namespaces c with Some l => l | None => [] end)%list.
  Definition for_cxx (above inside : string) : string :=
    match language c with
    | Cxx => inside
    | M_Config.C => if cpp_compat c then gap b above ++ "#ifdef __cplusplus" ++ inside ++ "#endif  // __cplusplus" ++ le else ""
    | Cython => ""
    end.
  Definition namespaces_open (above : string) : string :=
    match names with [] => "" | _ => for_cxx above (sconcat (map (fun n => le ++ "namespace " ++ n ++ " {") names) ++ le) end.
  Definition namespaces_close (above : string) : string :=
    match names with [] => "" | _ => for_cxx above (sconcat (map (fun n => le ++ "}  // namespace " ++ n) (rev names)) ++ le) end.
  Definition guard_end (above : string) : string :=
    match include_guard_ c with
    | Some g => gap b above ++ "#endif  " ++ match language c with M_Config.C => "/* " ++ g ++ " */" | _ => "// " ++ g end ++ le
    | None => ""
    end.

  (** ** Cython *)
  Definition cython_lines : list string :=
    ((if no_includes c then []
      else ["from libc.stdint cimport int8_t, int16_t, int32_t, int64_t, intptr_t";
            "from libc.stdint cimport uint8_t, uint16_t, uint32_t, uint64_t, uintptr_t";
            "cdef extern from *:"; (srepeat " " (tab_width c) ++ "ctypedef bint bool")%string; (srepeat " " (tab_width c) ++ "ctypedef struct va_list")%string])
     ++ map (fun m => "from " ++ fst m ++ " cimport " ++ join ", " (snd m))%string (cy_cimports (cython c))
     ++ given (after_includes c))%list.
  Definition cython_paragraphs : list string :=
    (asked (package_version c) ("''' Package version: " ++ b_package_version b ++ " '''")%string
     ++ given (header c)
     ++ asked (include_version c) "/* Generated with cbindgen:0.29.4 */"
     ++ given (autogen_warning c)
     ++ block cython_lines)%list.
  Definition cython_open : string := le ++ "cdef extern from " ++ match cy_header (cython c) with Some h => h | None => "*" end ++ ":" ++ le.

  (** ** The whole *)
  Definition head_text : string :=
    match language c with
    | Cython => let above := paragraphs cython_paragraphs in above ++ cython_open
    | _ => let above := paragraphs first_paragraphs in above ++ namespaces_open above
    end.
  (** The last character is a line feed. *)
  Definition ended (s : string) : Prop := exists r, s = r ++ String (ascii_of_nat 10) "".
  Definition trailer_text (above : string) (t : string) : Prop :=
    match trailer c with
    | Some f => ended f /\ t = gap b above ++ f \/ ~ ended f /\ t = gap b above ++ f ++ le
    | None => t = ""
    end.
  Definition tail_text (above : string) (t : string) : Prop :=
    match language c with
    | Cython => trailer_text above t
    | _ =>
        let x := namespaces_close above in
        let y := guard_end (above ++ x) in
        exists z, trailer_text (above ++ x ++ y) z /\ t = x ++ y ++ z
    end.

  (** A line of the text. *)
  Definition has_line (t line : string) : Prop := exists x y, t = x ++ line ++ le ++ y /\ (x = "" \/ exists x', x = x' ++ le).

  (** ** What headers declare *)
  Definition declares (h : string) : list string :=
    match h with
    | "stdarg.h" | "cstdarg" => ["va_list"]
    | "stdbool.h" => ["bool"; "true"; "false"]
    | "stddef.h" | "cstddef" => ["size_t"; "ptrdiff_t"; "wchar_t"; "NULL"]
    | "stdint.h" | "cstdint" =>
        ["int8_t"; "int16_t"; "int32_t"; "int64_t"; "uint8_t"; "uint16_t"; "uint32_t"; "uint64_t"; "intptr_t"; "uintptr_t"]
    | "stdlib.h" | "cstdlib" => ["size_t"; "wchar_t"; "NULL"]
    | "cassert" => ["assert"]
    | _ => []
    end.
  (** Types that need no header. *)
  Definition built_in : list string :=
    (["void"; "char"; "signed char"; "unsigned char"; "short"; "unsigned short"; "int"; "unsigned int"; "long"; "unsigned long";
      "long long"; "unsigned long long"; "float"; "double"; "..."] ++ match language c with Cxx => ["bool"] | _ => [] end)%list.
End Head.
