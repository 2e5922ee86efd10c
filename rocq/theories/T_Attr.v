(** C30 (annotations), C31 (repr), C35 (doc comments). *)
Require Import Coq.Strings.String Coq.Strings.Ascii Coq.Lists.List Coq.Bool.Bool Coq.Arith.Arith Coq.NArith.NArith Coq.Sorting.Permutation.
From Verif Require Import Base M_Config M_Writer M_Cfg S_Cfg M_Type M_Ir M_Attr S_Attr P_Attr P_Repr S_Hints P_Hints M_Docs S_Comment P_Docs.
Import ListNotations.
Open Scope string_scope.

(** ** C30 *)

(** The documentation is the comment lines that do not address cbindgen, in
    order; the rest are the annotation lines. *)
Theorem C30_split : forall attrs, exists notes, sorted_out (get_comment_lines attrs) (Documentation_load attrs) notes.
Proof. exact docs_are_rest. Qed.
Theorem C30_split_unique : forall ls d n d' n', sorted_out ls d n -> sorted_out ls d' n' -> d = d' /\ n = n'.
Proof. exact sorted_out_unique. Qed.
(** Every annotation line says something, and for every name the value said
    last is the one found. *)
Theorem C30_last_wins : forall attrs s docs notes, AnnotationSet_load attrs = Some s ->
  sorted_out (get_comment_lines attrs) docs notes ->
  exists given, Forall2 (fun l kv => says l (fst kv) (snd kv)) notes given
    /\ forall name, lookup name (an_values s) = last_value name given.
Proof. exact load_values. Qed.
(** A line says at most one thing. *)
Theorem C30_says_one : forall l n v n' v', says l n v -> says l n' v' -> n = n' /\ v = v'.
Proof. intros l n v n' v' A B. apply says_reads in A, B. rewrite A in B. now injection B. Qed.
(** Loading fails exactly when an annotation line has more than one '=', and
    these are the annotation lines that say nothing. *)
Theorem C30_malformed : forall attrs docs notes, sorted_out (get_comment_lines attrs) docs notes ->
  (AnnotationSet_load attrs = None <-> exists l, In l notes /\ 2 <= count_eq l).
Proof. exact load_error. Qed.
Theorem C30_malformed_lines : forall l, addressed l -> (2 <= count_eq l <-> forall n v, ~ says l n v).
Proof. exact unsaid. Qed.
(** No text of a doc attribute is lost when it is cut into lines. *)
Theorem C30_text_kept : forall v, text_of (split_doc_attr v) = text_of (split_on newline_c v).
Proof. exact text_kept. Qed.

(** The empty list is read as a list of one empty name. *)
Theorem C30_empty_list_refuted :
  option_map (fun s => lookup "field-names" (an_values s))
    (AnnotationSet_load [{| at_meta := ANameValue (Some "doc") (Some " cbindgen:field-names=[]"); at_outer := true |}])
  = Some (Some (M_Ir.AList [""])).
Proof. reflexivity. Qed.

Definition doc (s : string) : attribute := {| at_meta := ANameValue (Some "doc") (Some s); at_outer := true |}.
Definition word (s : string) : attribute := {| at_meta := APath (Some s); at_outer := true |}.
Definition noted : list attribute :=
  [doc " Says x."; doc " cbindgen:prefix-with-name"; doc " cbindgen: rename-all = CamelCase "; word "must_use";
   doc "cbindgen:field-names=[a, b ,c]"; doc " cbindgen:prefix-with-name = false"; doc " The end: a=b=c"].
Example C30_noted : option_map (fun s => (map (fun n => lookup n (an_values s)) ["prefix-with-name"; "rename-all"; "field-names"; "x"], an_must_use s))
    (AnnotationSet_load noted)
  = Some ([Some (ABool false); Some (AAtom (Some "CamelCase")); Some (M_Ir.AList ["a"; "b"; "c"]); None], true)
  /\ Documentation_load noted = [" Says x."; " The end: a=b=c"].
Proof. split; vm_compute; reflexivity. Qed.
Example C30_bad : AnnotationSet_load [doc "cbindgen:a=b=c"] = None. Proof. reflexivity. Qed.
Example C30_block : Documentation_load [doc (sconcat [nl; "     * one"; nl; nl; "       two"; nl; "    "])] = [" * one"; ""; "   two"].
Proof. vm_compute. reflexivity. Qed.

(** ** C31 *)

(** Accepted hints: known ones, with at most one integer type and at most one
    alignment; the result is what they ask for. *)
Theorem C31_accepts : forall attrs r, Repr_load attrs = Some r <->
  exists args ks, repr_args attrs args /\ Forall2 hint_arg args ks /\ asks ks r.
Proof. exact load_asked. Qed.
(** A hint has one meaning. *)
Theorem C31_meaning : forall attrs args args' ks ks', repr_args attrs args -> Forall2 hint_arg args ks ->
  repr_args attrs args' -> Forall2 hint_arg args' ks' -> args = args' /\ ks = ks'.
Proof.
  intros attrs args args' ks ks' A F A' F'. rewrite (args_unique _ _ _ A' A) in *. split; [reflexivity|]. exact (hint_arg_unique _ _ _ F F').
Qed.
(** The order of the attributes does not matter, nor that of the hints in
    them, unless both C and transparent are asked for. *)
Theorem C31_order : forall attrs attrs' args, Permutation attrs attrs' -> repr_args attrs args ->
  ~ (In (APath (Some "C")) args /\ In (APath (Some "transparent")) args) -> Repr_load attrs = Repr_load attrs'.
Proof. exact order_free. Qed.
Theorem C31_hint_order : forall hs hs', Permutation hs hs' ->
  ~ (In ("C", None) hs /\ In ("transparent", None) hs) -> apply_hints hs Repr_default = apply_hints hs' Repr_default.
Proof. exact apply_perm. Qed.
Theorem C31_align : forall attrs r n, Repr_load attrs = Some r -> rp_align r = Some (Align n) -> exists k, (k < 64)%N /\ n = (2 ^ k)%N.
Proof. exact align_power. Qed.

Definition repr (l : list arg) : attribute := {| at_meta := AList (Some "repr") l; at_outer := true |}.
Definition hint_ (s : string) : arg := APath (Some s).
Definition align_ (s : string) : arg := AList (Some "align") [AInt s].
(** C and transparent contradict each other; the last one is taken. *)
Theorem C31_conflict_refuted :
  Repr_load [repr [hint_ "C"; hint_ "transparent"]] = Some {| rp_style := ReprTransparent; rp_ty := None; rp_align := None |} /\
  Repr_load [repr [hint_ "transparent"; hint_ "C"]] = Some {| rp_style := ReprC; rp_ty := None; rp_align := None |}.
Proof. split; reflexivity. Qed.
(** Rust accepts integer literals of any form; here only plain decimal ones are. *)
Theorem C31_literals_refuted : forall t, In t ["0x10"; "1_6"; "8u32"] -> Repr_load [repr [align_ t]] = None.
Proof. intros t [<- | [<- | [<- | []]]]; reflexivity. Qed.
(** Rust takes the largest of several alignments. *)
Theorem C31_repeated_refuted : Repr_load [repr [align_ "8"]; repr [align_ "4"]] = None.
Proof. reflexivity. Qed.
Example C31_example : Repr_load [repr [align_ "16"; hint_ "C"]; doc "x"; repr [hint_ "u8"]]
  = Some {| rp_style := ReprC; rp_ty := Some {| rt_kind := B8; rt_signed := false |}; rp_align := Some (Align 16) |}
  /\ Repr_load [repr [hint_ "u8"; hint_ "C"; hint_ "i8"]] = None /\ Repr_load [repr [align_ "12"]] = None
  /\ Repr_load [repr [AList (Some "packed") [AInt "2"]]] = None
  /\ Repr_load [repr [AList (Some "packed") []]; repr [hint_ "C"]] = Some {| rp_style := ReprC; rp_ty := None; rp_align := Some Packed |}.
Proof. repeat split; vm_compute; reflexivity. Qed.

(** ** C35 *)

(** Documentation of safe lines is comments only: it changes nothing for a
    reader of the code before or after it.  Writing it never panics. *)
Theorem C35_comment : forall c d w, language c = Cython \/ line_endings c <> CR ->
  (forall s, In s (doc_lines c d) -> safe_line (language c) (doc_style c) s = true) -> w_spaces w <> [] ->
  exists w' t, run (tab_width c) (LineEndingStyle_as_str (line_endings c)) (write_documentation c d) w = Some w'
    /\ w_out w' = w_out w ++ t /\ comment_only (language c) t.
Proof. intro c. exact (documentation_comment (tab_width c) c). Qed.
(** What is written: all lines (the first one only if so configured), in
    their frame, at the current indentation. *)
Theorem C35_text : forall c d w indent rest, w_spaces w = indent :: rest ->
  let eol := LineEndingStyle_as_str (line_endings c) in
  exists w', run (tab_width c) eol (write_documentation c d) w = Some w' /\ w_spaces w' = w_spaces w /\
    w_out w' = w_out w ++
      if documentation c && negb (is_nil d)
      then laid_out eol (w_started w) indent
             (framed (language c) (doc_style c) (match documentation_length c with Short => firstn 1 d | Full => d end))
      else "".
Proof. intros c d w indent rest Sp. exact (documentation_text (tab_width c) (LineEndingStyle_as_str (line_endings c)) c d w indent rest Sp). Qed.
(** The style chosen. *)
Theorem C35_style : forall c, doc_style c = match documentation_style c, language c with
                                            | DocAuto, M_Config.C => DocDoxy
                                            | DocAuto, Cxx => DocCxx
                                            | DocAuto, Cython => doc_style c
                                            | s, _ => s
                                            end.
Proof. intro c. unfold doc_style. now destruct (documentation_style c), (language c). Qed.
(** Lines of documentation read from attributes hold no line break. *)
Theorem C35_one_line : forall attrs l, In l (Documentation_load attrs) -> one_line l = true.
Proof. exact doc_lines_one. Qed.

Definition documenting (lang : Language) (ds : DocumentationStyle) (le : LineEndingStyle) : Config := {|
  header := None; includes_ := []; sys_includes_ := []; after_includes := None; trailer := None;
  include_guard_ := None; pragma_once := false; no_includes := false; package_version := false;
  autogen_warning := None; include_version := false; namespace := None; namespaces := None;
  using_namespaces := None; braces := SameLine; line_length := 100; tab_width := 2;
  line_endings := le; language := lang; cpp_compat := false; style := Both; sort_by := SortNone;
  usize_is_size_t := false; parse := default_parse; export := default_export;
  layout := {| ly_packed := None; ly_aligned_n := None |}; function := default_function;
  structure := default_structure; enumeration := default_enumeration; constant := default_constant;
  defines := []; documentation := true; documentation_style := ds;
  documentation_length := Full;
  pointer := {| pt_non_null_attribute := None; pt_nullable_attribute := None |};
  cython := {| cy_header := None; cy_cimports := [] |}; config_path := None |}.
Definition in_c : Config := documenting M_Config.C DocAuto LF.
Definition in_cxx : Config := documenting Cxx DocAuto LF.
Definition in_cython : Config := documenting Cython DocAuto LF.
Definition written (c : Config) (attrs : list attribute) : option string := run_config c (write_documentation c (Documentation_load attrs)).
Definition bs : string := String "092" "".
(** Doc comments that leak. *)
Theorem C35_block_closed_refuted :
  option_map c_code (written in_c [doc " a */ int x; /* b"]) = Some (" int x; " ++ nl).
Proof. vm_compute. reflexivity. Qed.
Theorem C35_leading_slash_refuted :
  option_map c_code (written in_c [doc "/etc"]) = Some ("etc" ++ nl ++ " */" ++ nl).
Proof. vm_compute. reflexivity. Qed.
Theorem C35_backslash_refuted :
  option_map (fun t => c_code (t ++ "int x;" ++ nl ++ "int y;" ++ nl)) (written in_cxx [doc (" a path C:" ++ bs)]) = Some (nl ++ "int y;" ++ nl).
Proof. vm_compute. reflexivity. Qed.
Theorem C35_c_style_backslash_refuted :
  option_map c_code (written (documenting M_Config.C DocC LF) [doc ("*" ++ bs); doc "/ int x;"]) = Some (" int x;" ++ nl ++ " */" ++ nl).
Proof. vm_compute. reflexivity. Qed.
Theorem C35_cython_cr_refuted :
  option_map (python_code false) (written in_cython [doc (" a" ++ String cr "x = 1")]) = Some (String cr "x = 1" ++ nl).
Proof. vm_compute. reflexivity. Qed.
(** With CR line endings a line comment has no end for a compiler. *)
Theorem C35_cr_refuted :
  option_map (fun t => c_code (t ++ "int x;" ++ nl)) (written (documenting Cxx DocAuto CR) [doc " a"]) = Some nl.
Proof. vm_compute. reflexivity. Qed.

Example C35_written : written in_c (doc " a */b" :: noted) = Some ("/**" ++ nl ++ " * a */b" ++ nl ++ " * Says x." ++ nl ++ " * The end: a=b=c" ++ nl ++ " */" ++ nl).
Proof. vm_compute. reflexivity. Qed.
Example C35_safe : forallb (safe_line M_Config.C DocDoxy) (Documentation_load noted) = true
  /\ forallb (safe_line Cxx DocCxx) (Documentation_load noted) = true /\ forallb (safe_line Cython DocC) (Documentation_load noted) = true
  /\ safe_line M_Config.C DocDoxy ("ends with " ++ bs) = true /\ safe_line M_Config.C DocC99 "*/" = true.
Proof. repeat split; vm_compute; reflexivity. Qed.

Print Assumptions C30_split.
Print Assumptions C30_last_wins.
Print Assumptions C30_malformed.
Print Assumptions C30_malformed_lines.
Print Assumptions C30_text_kept.
Print Assumptions C31_accepts.
Print Assumptions C31_meaning.
Print Assumptions C31_order.
Print Assumptions C31_align.
Print Assumptions C35_comment.
Print Assumptions C35_text.
Print Assumptions C35_one_line.
