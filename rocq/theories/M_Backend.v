(** Model of the writing of whole bindings: src/bindgen/language_backend/mod.rs,
    clike.rs and cython.rs, the writing part of ir/enumeration.rs, and the
    configuration accessors they use.

    Every function that writes gives an [outcome prog]: [Panic] if it panics
    before or while writing, otherwise the calls it makes on the writer. *)
Require Import Coq.Strings.String Coq.Strings.Ascii Coq.Lists.List Coq.Bool.Bool Coq.Arith.Arith NArith.
From Verif Require Import Base M_Config M_Writer M_Cfg M_Type M_Ir M_Item M_Library M_Cdecl M_Bindings M_Docs M_Literal M_Syn.
Import ListNotations.
Open Scope string_scope.
Local Open Scope prog_scope.

(** One after the other. *)
Definition then_ (p q : outcome prog) : outcome prog := do x := p in do y := q in Done (x ;; y).
Notation "p >> q" := (then_ p q) (at level 61, right associativity) : prog_scope.
Definition nothing : outcome prog := Done PRet.
Definition text (s : string) : outcome prog := Done (write s).
Definition line : outcome prog := Done newline.
Definition when (b : bool) (p : outcome prog) : outcome prog := if b then p else nothing.
Definition if_some {A} (o : option A) (f : A -> outcome prog) : outcome prog := match o with Some x => f x | None => nothing end.
(** A [for] loop. *)
Fixpoint each {A} (f : A -> outcome prog) (l : list A) : outcome prog :=
  match l with [] => nothing | x :: r => f x >> each f r end.
(** The writers of the elements of a list. *)
Fixpoint collect {A} (f : A -> outcome prog) (l : list A) : outcome (list prog) :=
  match l with [] => Done [] | x :: r => do p := f x in do ps := collect f r in Done (p :: ps) end.
(** write_vertical_source_list with a writer that may panic *)
Definition vertical {A} (l : list A) (lt : ListType) (f : A -> outcome prog) : outcome prog :=
  do ps := collect f l in Done (write_vertical_source_list ps lt (fun p => p)).

(** ** Configuration accessors *)

(** config.rs:508-555, 641-710: an annotation overrides the configuration *)
Definition flag (a : AnnotationSet) (name : string) (dflt : bool) : bool :=
  match an_bool a name with Some x => x | None => dflt end.
(** [str::trim_matches('\n')] *)
Fixpoint trim_newlines_start (s : string) : string :=
  match s with String a r => if Ascii.eqb a (ascii_of_nat 10) then trim_newlines_start r else s | "" => "" end.
Definition trim_newlines (s : string) : string := srev (trim_newlines_start (srev (trim_newlines_start s))).
(** config.rs:363-369 *)
Definition pre_body (e : ExportConfig) (path : string) : option string := option_map trim_newlines (lookup path (ex_pre_body e)).
Definition post_body (e : ExportConfig) (path : string) : option string := option_map trim_newlines (lookup path (ex_body e)).
(** config.rs:453-467 *)
Definition function_prefix (c : FunctionConfig) (a : AnnotationSet) : option string :=
  match an_atom a "prefix" with Some x => x | None => fn_prefix c end.
Definition function_postfix (c : FunctionConfig) (a : AnnotationSet) : option string :=
  match an_atom a "postfix" with Some x => x | None => fn_postfix c end.

(** annotation.rs:42-47 *)
Inductive NoteKind := NFunction | NStruct | NEnum | NEnumVariant.
(** [{:?}] of a [str].  Bytes from 128 on are taken to belong to printable
    characters, which are left alone. *)
Definition debug_char (a : ascii) : string :=
  let n := N_of_ascii a in
  if (n =? 34)%N then "\" ++ dquote
  else if Ascii.eqb a "\" then "\\"
  else if (n =? 0)%N then "\0"
  else if (n =? 9)%N then "\t"
  else if (n =? 10)%N then "\n"
  else if (n =? 13)%N then "\r"
  else if (n <? 16)%N then "\u{" ++ hex false 1 n ++ "}"
  else if (n <? 32)%N || (n =? 127)%N then "\u{" ++ hex false 2 n ++ "}"
  else String a "".
Fixpoint debug_chars (s : string) : string :=
  match s with "" => "" | String a r => debug_char a ++ debug_chars r end.
Definition debug_str (s : string) : string := dquote ++ debug_chars s ++ dquote.
(** [replace("{}", by)] *)
Fixpoint fill_in (by_ s : string) : string :=
  match s with
  | "" => ""
  | String a r => match r with
                  | String b r' => if Ascii.eqb a "{" && Ascii.eqb b "}" then by_ ++ fill_in by_ r' else String a (fill_in by_ r)
                  | "" => s
                  end
  end.
(** annotation.rs:70-101 *)
Definition deprecated_note (c : Config) (k : NoteKind) (a : AnnotationSet) : option string :=
  let? note := an_deprecated a in
  if Language_eqb (language c) Cython then None
  else if String.eqb note "" then
    match k with
    | NEnum => en_deprecated (enumeration c)
    | NEnumVariant => en_deprecated_variant (enumeration c)
    | NFunction => fn_deprecated (function c)
    | NStruct => st_deprecated (structure c)
    end
  else
    let? format := match k with
                   | NEnum => en_deprecated_with_note (enumeration c)
                   | NEnumVariant => en_deprecated_variant_with_note (enumeration c)
                   | NFunction => fn_deprecated_with_note (function c)
                   | NStruct => st_deprecated_with_note (structure c)
                   end in
    Some (fill_in (debug_str note) format).
(** annotation.rs:62-64 *)
Definition must_use (c : Config) (a : AnnotationSet) : bool := an_must_use a && negb (Language_eqb (language c) Cython).
(** [if must_use { if let Some(anno) .. }] *)
Definition must_use_text (c : Config) (a : AnnotationSet) (anno : option string) : option string :=
  if must_use c a then anno else None.

(** ty.rs:225-227, 841-850 *)
Definition can_cmp_order (t : Ty) : bool :=
  match t with
  | TPtr _ _ _ is_ref => negb is_ref
  | TPath _ => true
  | TPrim p => match p with PBool => false | _ => true end
  | TArray _ _ => false
  | TFuncPtr _ _ _ _ => false
  end.
(** repr.rs:22-28 *)
Definition repr_size (c : Config) (r : Repr) : option string :=
  option_map (fun t => to_repr_c c (PInteger true (rt_signed t) (rt_kind t))) (rp_ty r).

Section Backend.
  Context {H : Heck}.
  (** [fuel]: steps for following typedefs, see [resolved_struct_path] *)
  Variables (fuel : nat) (b : Bindings).
  Let c : Config := b_config b.
  Let lang : Language := language c.
  Let cxx : bool := Language_eqb (language c) Cxx.
  Let plain_c : bool := Language_eqb (language c) M_Config.C.
  Let is_cython : bool := Language_eqb (language c) Cython.

  Definition opened : outcome prog := Done (open_brace c).
  Definition closed (semicolon : bool) : outcome prog := Done (close_brace c semicolon).
  Definition docs (d : Documentation) : outcome prog := Done (write_documentation c d).
  Definition guard (cfg : option Cfg) : option Condition := to_condition_opt (defines c) cfg.
  Definition before (cond : option Condition) : outcome prog := Done (write_before c cond).
  Definition after (cond : option Condition) : outcome prog := Done (write_after c cond).
  Definition type_text (t : Ty) : outcome prog := of_option (write_type c t).
  Definition raw_block (s : string) : outcome prog := Done (write_raw_block s).
  (** the recurring [if let Some(x) .. { write!(out, " {x}") }] *)
  Definition spaced (o : option string) : outcome prog := if_some o (fun x => text (" " ++ x)).
  Definition renamed_arg (name : string) : string := RenameRule_apply (fn_rename_args (function c)) name FunctionArg.

  (** clike.rs:22-43, cython.rs:20-30 *)
  Definition backend_variant (v : EnumVariant) : outcome prog :=
    let cond := guard (v_cfg v) in
    if is_cython then
      docs (v_documentation v) >> text (v_export_name v) >>
      if_some (v_discriminant v) (fun d => text " # = " >> write_literal fuel b d) >> text ","
    else
      before cond >> docs (v_documentation v) >> text (v_export_name v) >>
      spaced (deprecated_note c NEnumVariant (VariantBody_annotations (v_body v))) >>
      if_some (v_discriminant v) (fun d => text " = " >> write_literal fuel b d) >>
      text "," >> after cond.

  (** clike.rs:45-63, cython.rs:32-41 *)
  Definition backend_field (f : Field) : outcome prog :=
    let cond := guard (fd_cfg f) in
    let declared := of_option (write_field c (fd_ty f) (fd_name f)) in
    if is_cython then docs (fd_documentation f) >> declared
    else
      before cond >> docs (fd_documentation f) >> declared >>
      if_some (an_atom (fd_annotations f) "bitfield")
        (fun x => text (": " ++ match x with Some n => n | None => "" end)) >>
      after cond >> when (is_some cond) line.

  (** generic_path.rs:141-185 *)
  Definition generic_param (with_default : bool) (p : GenericParam) : outcome prog :=
    match gp_ty p with
    | GPType =>
        text ("typename " ++ gp_name_ p) >>
        match gp_default p with
        | Some (GType t) => text " = " >> type_text t
        | _ => when with_default (text " = void")
        end
    | GPConst t =>
        of_option (write_field c t (gp_name_ p)) >>
        match gp_default p with
        | Some (GConst x) => text (" = " ++ ConstExpr_as_str x)
        | _ => when with_default (text " = 0")
        end
    end.
  Fixpoint generic_params_text (with_default : bool) (ps : GenericParams) : outcome prog :=
    match ps with
    | [] => nothing
    | [p] => generic_param with_default p
    | p :: r => generic_param with_default p >> text ", " >> generic_params_text with_default r
    end.
  Definition write_generic_params (with_default : bool) (ps : GenericParams) : outcome prog :=
    when (negb (is_nil ps) && cxx) (text "template<" >> generic_params_text with_default ps >> text ">" >> line).

  (** clike.rs:69-84 *)
  Definition all_namespaces : list string :=
    if negb cxx && negb (cpp_compatible_c c) then []
    else (match namespace c with Some n => [n] | None => [] end ++ match namespaces c with Some l => l | None => [] end)%list.
  (** clike.rs:86-113 *)
  Definition open_close_namespaces (open : bool) : outcome prog :=
    let names := if open then all_namespaces else rev all_namespaces in
    when (negb (is_nil names))
      (when (cpp_compatible_c c) (Done newline_if_not_start >> text "#ifdef __cplusplus") >>
       each (fun n => line >> text (if open then "namespace " ++ n ++ " {" else "}  // namespace " ++ n)) names >>
       line >>
       when (cpp_compatible_c c) (text "#endif  // __cplusplus" >> line)).

  (** clike.rs:115-117 *)
  Definition with_typedef : bool := plain_c && generate_typedef (style c).

  (** ** Derived operators of structs: clike.rs:119-338.

      Every section starts with a line break of its own; the first one also
      gets the line break guarded by [wrote_start_newline]. *)

  (** clike.rs:122-170 *)
  Definition derived_constructor (s : Struct) : outcome prog :=
    let args := map (fun f => from_name_and_type ("const& " ++ renamed_arg (fd_name f)) (fd_ty f)) (s_fields s) in
    let inits := map (fun f => fd_name f ++ "(" ++ renamed_arg (fd_name f) ++ ")") (s_fields s) in
    line >> text (s_export_name s ++ "(") >> vertical args (Join ",") backend_field >> text ")" >> line >>
    text "  : " >> vertical inits (Join ",") text >> line >> text "{}" >> line.
  (** structure.rs:225-265 *)
  Definition bitflags_binop (constexpr op other bits : string) (s : Struct) : outcome prog :=
    let n := s_export_name s in
    line >> text (constexpr ++ n ++ " operator" ++ op ++ "(const " ++ n ++ "& " ++ other ++ ") const") >>
    opened >>
    text ("return " ++ n ++ " { static_cast<decltype(" ++ bits ++ ")>(this->" ++ bits ++ " " ++ op ++ " " ++ other ++ "." ++ bits ++ ") };") >>
    closed false >>
    line >> text (n ++ "& operator" ++ op ++ "=(const " ++ n ++ "& " ++ other ++ ")") >>
    opened >> text ("*this = (*this " ++ op ++ " " ++ other ++ ");") >> line >> text "return *this;" >> closed false.
  (** clike.rs:178-217; the assertion that there is one field *)
  Definition derived_bitflags (s : Struct) : outcome prog :=
    match s_fields s with
    | [f] =>
        let bits := fd_name f in
        let constexpr := if co_allow_constexpr (constant c) then "constexpr " else "" in
        let n := s_export_name s in
        line >> text (constexpr ++ "explicit operator bool() const") >> opened >> text ("return !!" ++ bits ++ ";") >> closed false >>
        line >> text (constexpr ++ n ++ " operator~() const") >> opened >>
        text ("return " ++ n ++ " { static_cast<decltype(" ++ bits ++ ")>(~" ++ bits ++ ") };") >> closed false >>
        each (fun op => bitflags_binop constexpr op (renamed_arg "other") bits s) ["|"; "&"; "^"]
    | _ => Panic
    end.
  (** clike.rs:223-262 *)
  Definition derived_ostream (s : Struct) : outcome prog :=
    let stream := renamed_arg "stream" in
    let instance := renamed_arg "instance" in
    let q := dquote in
    line >>
    text ("friend std::ostream& operator<<(std::ostream& " ++ stream ++ ", const " ++ s_export_name s ++ "& " ++ instance ++ ")") >>
    opened >>
    text ("return " ++ stream ++ " << " ++ q ++ "{ " ++ q) >>
    vertical (map (fun f => " << " ++ q ++ fd_name f ++ "=" ++ q ++ " << " ++ instance ++ "." ++ fd_name f) (s_fields s))
      (Join (" << " ++ q ++ ", " ++ q)) text >>
    text (" << " ++ q ++ " }" ++ q ++ ";") >> closed false.
  (** clike.rs:264-306 *)
  Definition derived_op (name op conj : string) (s : Struct) : outcome prog :=
    let other := renamed_arg "other" in
    line >>
    match an_atom (s_annotations s) (name ++ "-attributes") with Some (Some attrs) => text (attrs ++ " ") | _ => nothing end >>
    text ("bool operator" ++ op ++ "(const " ++ s_export_name s ++ "& " ++ other ++ ") const") >>
    opened >> text "return " >>
    vertical (map (fun f => fd_name f ++ " " ++ op ++ " " ++ other ++ "." ++ fd_name f)
                (if s_has_tag_field s then skipn 1 (s_fields s) else s_fields s))
      (Join (" " ++ conj)) text >>
    text ";" >> closed false.
  (** clike.rs:314-337: one field, of an ordered type *)
  Definition orderable (s : Struct) : bool := match s_fields s with [f] => can_cmp_order (fd_ty f) | _ => false end.
  Definition derived_sections (s : Struct) : list (outcome prog) :=
    let a := s_annotations s in
    let st := structure c in
    let sec (b : bool) p := if b then [p] else [] in
    (sec (flag a "derive-constructor" (st_derive_constructor st) && negb (is_nil (s_fields s))) (derived_constructor s) ++
     sec (flag a "internal-derive-bitflags" false) (derived_bitflags s) ++
     sec (flag a "derive-ostream" (st_derive_ostream st)) (derived_ostream s) ++
     sec (flag a "derive-eq" (st_derive_eq st) && Struct_can_derive_eq s) (derived_op "eq" "==" "&&" s) ++
     sec (flag a "derive-neq" (st_derive_neq st) && Struct_can_derive_eq s) (derived_op "neq" "!=" "||" s) ++
     sec (flag a "derive-lt" (st_derive_lt st) && orderable s) (derived_op "lt" "<" "&&" s) ++
     sec (flag a "derive-lte" (st_derive_lte st) && orderable s) (derived_op "lte" "<=" "&&" s) ++
     sec (flag a "derive-gt" (st_derive_gt st) && orderable s) (derived_op "gt" ">" "&&" s) ++
     sec (flag a "derive-gte" (st_derive_gte st) && orderable s) (derived_op "gte" ">=" "&&" s))%list.
  Definition write_derived_ops (s : Struct) : outcome prog :=
    let sections := derived_sections s in
    when (negb (is_nil sections)) line >> each (fun p => p) sections.

  (** ** Items *)

  (** clike.rs:565-578, 663-676 *)
  Definition alignment_text (al : option ReprAlign) : outcome prog :=
    match al with
    | None => nothing
    | Some Packed => spaced (ly_packed (layout c))
    | Some (Align n) => if_some (ly_aligned_n (layout c)) (fun a => text (" " ++ a ++ "(" ++ decimal n ++ ")"))
    end.
  Definition before_body (path : string) : outcome prog := if_some (pre_body (export c) path) (fun x => raw_block x >> line).
  Definition after_body (path : string) : outcome prog := if_some (post_body (export c) path) (fun x => line >> raw_block x).
  (** clike.rs:627-632, 698-703, 531-536 *)
  Definition close_item (export_name : string) : outcome prog :=
    if with_typedef then closed false >> text (" " ++ export_name ++ ";") else closed true.
  Definition item_tag (export_name : string) : outcome prog :=
    when (negb plain_c || generate_tag (style c)) (text (" " ++ export_name)).

  (** constants of a type: clike.rs:634-637, cython.rs:222-225, mod.rs:151-154 *)
  Definition associated_constants (s : Struct) : outcome prog :=
    each (fun k => line >> Constant_write fuel b k (Some s)) (s_associated_constants s).

  (** clike.rs:542-640 *)
  Definition clike_struct (s : Struct) : outcome prog :=
    let cond := guard (s_cfg s) in
    before cond >> docs (s_documentation s) >>
    when (negb (s_is_enum_variant_body s)) (write_generic_params false (s_generic_params s)) >>
    when with_typedef (text "typedef ") >>
    text "struct" >>
    alignment_text (s_alignment s) >>
    spaced (must_use_text c (s_annotations s) (st_must_use (structure c))) >>
    spaced (deprecated_note c NStruct (s_annotations s)) >>
    item_tag (s_export_name s) >>
    opened >>
    before_body (s_path s) >>
    vertical (s_fields s) (Cap ";") backend_field >>
    when cxx (write_derived_ops s) >>
    after_body (s_path s) >>
    when (cxx && st_associated_constants_in_body (structure c) && co_allow_static_const (constant c))
      (each (fun k => line >> of_option (Constant_write_declaration b k)) (s_associated_constants s)) >>
    close_item (s_export_name s) >>
    associated_constants s >>
    after cond.
  (** cython.rs:158-228 *)
  Definition cython_struct (s : Struct) : outcome prog :=
    let cond := guard (s_cfg s) in
    before cond >> docs (s_documentation s) >>
    text (cython_def (style c)) >>
    match s_alignment s with Some Packed => text "packed " | _ => nothing end >>
    text "struct" >>
    spaced (must_use_text c (s_annotations s) (st_must_use (structure c))) >>
    spaced (deprecated_note c NStruct (s_annotations s)) >>
    text (" " ++ s_export_name s) >>
    opened >>
    before_body (s_path s) >>
    vertical (s_fields s) (Cap ";") backend_field >>
    when (is_nil (s_fields s)) (text "pass") >>
    after_body (s_path s) >>
    closed true >>
    associated_constants s >>
    after cond.
  Definition write_struct (s : Struct) : outcome prog := if is_cython then cython_struct s else clike_struct s.

  (** clike.rs:642-706 *)
  Definition clike_union (u : Union) : outcome prog :=
    let cond := guard (u_cfg u) in
    before cond >> docs (u_documentation u) >>
    write_generic_params false (u_generic_params u) >>
    when with_typedef (text "typedef ") >>
    text "union" >>
    alignment_text (u_alignment u) >>
    item_tag (u_export_name u) >>
    opened >>
    before_body (u_path u) >>
    vertical (u_fields u) (Cap ";") backend_field >>
    after_body (u_path u) >>
    close_item (u_export_name u) >>
    after cond.
  (** cython.rs:230-263 *)
  Definition cython_union (u : Union) : outcome prog :=
    let cond := guard (u_cfg u) in
    before cond >> docs (u_documentation u) >>
    text (cython_def (style c)) >> text "union" >> text (" " ++ u_export_name u) >>
    opened >>
    before_body (u_path u) >>
    vertical (u_fields u) (Cap ";") backend_field >>
    when (is_nil (u_fields u)) (text "pass") >>
    after_body (u_path u) >>
    closed true >>
    after cond.
  Definition write_union (u : Union) : outcome prog := if is_cython then cython_union u else clike_union u.

  (** clike.rs:708-728, cython.rs:265-284 *)
  Definition write_opaque_item (o : OpaqueItem) : outcome prog :=
    let cond := guard (o_cfg o) in
    let n := o_export_name o in
    before cond >> docs (o_documentation o) >>
    write_generic_params true (o_generic_params o) >>
    (if is_cython then text (cython_def (style c) ++ "struct " ++ n) >> opened >> text "pass" >> closed false
     else if with_typedef then text ("typedef struct " ++ n ++ " " ++ n ++ ";")
     else text ("struct " ++ n ++ ";")) >>
    after cond.

  (** clike.rs:730-752, cython.rs:286-302 *)
  Definition write_type_def (t : Typedef) : outcome prog :=
    let cond := guard (t_cfg t) in
    before cond >> docs (t_documentation t) >>
    when (negb is_cython) (write_generic_params false (t_generic_params t)) >>
    (if cxx then text ("using " ++ t_export_name t ++ " = ") >> type_text (t_aliased t)
     else text (Language_typedef lang ++ " ") >> backend_field (from_name_and_type (t_export_name t) (t_aliased t))) >>
    text ";" >>
    after cond.

  (** clike.rs:754-768, cython.rs:304-318 *)
  Definition write_static (g : Static) : outcome prog :=
    let cond := guard (g_cfg g) in
    before cond >> docs (g_documentation g) >>
    text "extern " >>
    when (negb (is_const_ptr (g_ty g)) && negb (g_mutable g)) (text "const ") >>
    of_option (write_field c (g_ty g) (g_export_name g)) >>
    text ";" >>
    after cond.

  (** ** Enums *)

  (** enumeration.rs:683-688 *)
  Definition typed_enum_condition : string :=
    if cpp_compatible_c c then "defined(__cplusplus) || __STDC_VERSION__ >= 202311L" else "__STDC_VERSION__ >= 202311L".
  (** enumeration.rs:669-747: the head of the tag enum *)
  Definition open_tag_enum (e : Enum) (size : option string) : outcome prog :=
    let tag := tag_name e in
    let note := deprecated_note c NEnum (e_annotations e) in
    match lang with
    | M_Config.C =>
        match size with
        | Some prim =>
            text "enum" >> spaced note >> text (" " ++ tag) >>
            line >> text ("#if " ++ typed_enum_condition) >>
            line >> text ("  : " ++ prim) >>
            line >> text ("#endif // " ++ typed_enum_condition) >> line
        | None =>
            when (generate_typedef (style c)) (text "typedef ") >> text "enum" >> spaced note >>
            when (generate_tag (style c)) (text (" " ++ tag))
        end
    | Cxx =>
        text (if enum_class (enumeration c) (e_annotations e) then "enum class" else "enum") >>
        spaced (must_use_text c (e_annotations e) (en_must_use (enumeration c))) >>
        spaced note >> text (" " ++ tag) >>
        if_some size (fun prim => text (" : " ++ prim))
    | Cython =>
        match size with
        | Some _ => text "cdef enum"
        | None => text (cython_def (style c) ++ "enum " ++ tag)
        end
    end.
  (** enumeration.rs:750-756 *)
  Fixpoint enumerators (vs : list EnumVariant) : outcome prog :=
    match vs with
    | [] => nothing
    | [v] => backend_variant v
    | v :: r => backend_variant v >> line >> enumerators r
    end.
  (** enumeration.rs:766-806 *)
  Definition tag_size_typedef (tag prim : string) : outcome prog :=
    when (cpp_compatible_c c) (Done newline_if_not_start >> text "#ifndef __cplusplus") >>
    when (negb cxx)
      (when plain_c
         (line >> text "#if __STDC_VERSION__ >= 202311L" >>
          line >> text (Language_typedef lang ++ " enum " ++ tag ++ " " ++ tag ++ ";") >>
          line >> text "#else") >>
       line >> text (Language_typedef lang ++ " " ++ prim ++ " " ++ tag ++ ";") >>
       when plain_c (line >> text "#endif // __STDC_VERSION__ >= 202311L")) >>
    when (cpp_compatible_c c) (Done newline_if_not_start >> text "#endif // __cplusplus").

  Definition quoted (s : string) : string := dquote ++ s ++ dquote.
  (** enumeration.rs:978-1131 *)
  Definition derived_functions_enum (e : Enum) : outcome prog :=
    let tag := tag_name e in
    let name := e_export_name e in
    let stream := renamed_arg "stream" in
    let instance := renamed_arg "instance" in
    let has_data := is_some (e_tag e) in
    let using_tag := text ("using " ++ tag ++ " = " ++ name ++ "::" ++ tag ++ ";") >> line in
    let tag_case v := "case " ++ tag ++ "::" ++ v_export_name v ++ ": " ++ stream ++ " << " ++ quoted (v_export_name v) ++ "; break;" in
    let body_case v :=
      match v_body v with
      | VBody n s _ _ =>
          "case " ++ tag ++ "::" ++ v_export_name v ++ ": " ++ stream ++ " << " ++
          (if s_has_tag_field s then "" else quoted (v_export_name v) ++ " << ") ++ instance ++ "." ++ n ++ "; break;"
      | VEmpty _ => tag_case v
      end in
    when (cxx && flag (e_annotations e) "derive-ostream" (en_derive_ostream (enumeration c)))
      (line >> line >>
       text ((if has_data then "friend" else "inline") ++ " std::ostream& operator<<(std::ostream& " ++ stream ++ ", const " ++ tag ++ "& " ++ instance ++ ")") >>
       opened >> when has_data using_tag >>
       text ("switch (" ++ instance ++ ")") >> opened >>
       vertical (map tag_case (e_variants e)) (Join "") text >>
       closed false >> line >> text ("return " ++ stream ++ ";") >> closed false >>
       when has_data
         (line >> line >>
          text ("friend std::ostream& operator<<(std::ostream& " ++ stream ++ ", const " ++ name ++ "& " ++ instance ++ ")") >>
          opened >> using_tag >>
          text ("switch (" ++ instance ++ ".tag)") >> opened >>
          vertical (map body_case (e_variants e)) (Join "") text >>
          closed false >> line >> text ("return " ++ stream ++ ";") >> closed false)).

  (** enumeration.rs:655-810 *)
  Definition write_tag_enum (e : Enum) (size : option string) : outcome prog :=
    open_tag_enum e size >>
    opened >>
    enumerators (e_variants e) >>
    (if plain_c && negb (is_some size) && generate_typedef (style c)
     then closed false >> text (" " ++ tag_name e ++ ";") else closed true) >>
    if_some size (tag_size_typedef (tag_name e)) >>
    derived_functions_enum e.

  (** enumeration.rs:813-851 *)
  Definition open_struct_or_union (e : Enum) (inline_tag : bool) : outcome prog :=
    (if is_cython then text (cython_def (style c)) else when with_typedef (text "typedef ")) >>
    text (if inline_tag then "union" else "struct") >>
    spaced (must_use_text c (e_annotations e) (st_must_use (structure c))) >>
    if_some (deprecated_note c NStruct (e_annotations e)) (fun n => text (" " ++ n ++ " ")) >>
    item_tag (e_export_name e) >>
    opened >>
    before_body (e_path e).

  (** enumeration.rs:854-880 *)
  Definition write_variant_def (v : EnumVariant) : outcome prog :=
    match v_body v with
    | VBody _ body false _ =>
        let cond := guard (v_cfg v) in
        line >> line >> when (negb is_cython) (before cond) >> write_struct body >> when (negb is_cython) (after cond)
    | _ => nothing
    end.
  Definition write_variant_defs (e : Enum) : outcome prog := each write_variant_def (e_variants e).

  (** enumeration.rs:886-912 *)
  Definition write_tag_field (e : Enum) (size : option string) (inline_tag : bool) : outcome prog :=
    let wrap := inline_tag && cxx in
    when wrap (text "struct" >> opened) >>
    when (plain_c && negb (is_some size) && negb (generate_typedef (style c))) (text "enum ") >>
    text (tag_name e ++ " tag;") >>
    when wrap (closed true).

  (** enumeration.rs:942-969: one variant with data; the slice panics if the tag field is not there *)
  Definition variant_field (inline_tag : bool) (name : string) (body : Struct) (is_inline : bool) : outcome prog :=
    if is_inline then
      let start := if inline_tag && is_cython then 1 else 0 in
      if Nat.ltb (length (s_fields body)) start then Panic
      else
        when (negb is_cython) (text "struct" >> opened) >>
        vertical (skipn start (s_fields body)) (Cap ";") backend_field >>
        when (negb is_cython) (closed true)
    else if generate_typedef (style c) || is_cython then text (s_export_name body ++ " " ++ name ++ ";")
    else text ("struct " ++ s_export_name body ++ " " ++ name ++ ";").
  Fixpoint variant_fields (inline_tag first : bool) (vs : list EnumVariant) : outcome prog :=
    match vs with
    | [] => nothing
    | v :: r =>
        match v_body v with
        | VBody name body is_inline _ =>
            let cond := guard (v_cfg v) in
            when (negb first) line >>
            when (negb is_cython) (before cond) >>
            variant_field inline_tag name body is_inline >>
            when (negb is_cython) (after cond) >>
            variant_fields inline_tag false r
        | VEmpty _ => variant_fields inline_tag first r
        end
    end.

  (** *** Helper methods: enumeration.rs:1150-1325 *)

  (** [write_attrs!] *)
  Definition attrs_text (a : AnnotationSet) (name : string) : outcome prog :=
    match an_atom a (name ++ "-attributes") with Some (Some x) => text (x ++ " ") | _ => nothing end.
  Definition data_fields (body : Struct) : list Field :=
    if s_has_tag_field body then skipn 1 (s_fields body) else s_fields body.
  (** enumeration.rs:1216-1235 *)
  Definition init_field (variant : string) (f : Field) : outcome prog :=
    line >>
    match fd_ty f with
    | TArray t len =>
        text ("for (int i = 0; i < " ++ ConstExpr_as_str len ++ "; i++)") >> opened >>
        text ("::new (&result." ++ variant ++ "." ++ fd_name f ++ "[i]) (") >> type_text t >>
        text (")(" ++ renamed_arg (fd_name f) ++ "[i]);") >> closed false
    | t =>
        text ("::new (&result." ++ variant ++ "." ++ fd_name f ++ ") (") >> type_text t >>
        text (")(" ++ renamed_arg (fd_name f) ++ ");")
    end.
  (** enumeration.rs:1179-1242 *)
  Definition variant_constructor (e : Enum) (v : EnumVariant) : outcome prog :=
    attrs_text (VariantBody_annotations (v_body v)) "variant-constructor" >>
    text ("static " ++ e_export_name e ++ " " ++ v_export_name v ++ "(") >>
    match v_body v with
    | VBody _ body _ _ =>
        vertical (map (fun f => from_name_and_type (renamed_arg (fd_name f)) (const_ref_to (fd_ty f))) (data_fields body))
          (Join ",") backend_field
    | VEmpty _ => nothing
    end >>
    text ")" >> opened >>
    text (e_export_name e ++ " result;") >>
    match v_body v with
    | VBody n body _ _ => each (init_field n) (data_fields body)
    | VEmpty _ => nothing
    end >>
    line >> text ("result.tag = " ++ tag_name e ++ "::" ++ v_export_name v ++ ";") >>
    line >> text "return result;" >> closed false.
  (** enumeration.rs:1247-1252 *)
  Definition variant_is (e : Enum) (v : EnumVariant) : outcome prog :=
    attrs_text (VariantBody_annotations (v_body v)) "variant-is" >>
    text ("bool Is" ++ v_export_name v ++ "() const") >> opened >>
    text ("return tag == " ++ tag_name e ++ "::" ++ v_export_name v ++ ";") >> closed false.
  (** enumeration.rs:1259-1313; the subtraction panics if the tag field is not there *)
  Definition derive_casts (v : EnumVariant) (const_casts : bool) : outcome prog :=
    match v_body v with
    | VEmpty _ => nothing
    | VBody member body _ inline_casts =>
        if s_has_tag_field body && is_nil (s_fields body) then Panic
        else if is_nil (data_fields body) then nothing
        else
          line >> line >>
          attrs_text (VariantBody_annotations (v_body v)) (if const_casts then "variant-const-cast" else "variant-mut-cast") >>
          (if inline_casts then
             do f := of_option (last (map Some (s_fields body)) None) in type_text (TPtr (fd_ty f) const_casts false true)
           else text ((if const_casts then "const " else "") ++ s_export_name body ++ "&")) >>
          text (" As" ++ v_export_name v ++ "()") >> when const_casts (text " const") >> opened >>
          text (match en_cast_assert_name (enumeration c) with Some n => n | None => "assert" end ++ "(Is" ++ v_export_name v ++ "());") >>
          line >> text ("return " ++ member) >> when inline_casts (text "._0") >> text ";" >> closed false
    end.
  Definition variant_helpers (e : Enum) (v : EnumVariant) : outcome prog :=
    let cond := guard (v_cfg v) in
    line >> line >> before cond >>
    variant_constructor e v >> line >> line >> variant_is e v >>
    when (flag (e_annotations e) "derive-const-casts" (en_derive_const_casts (enumeration c))) (derive_casts v true) >>
    when (flag (e_annotations e) "derive-mut-casts" (en_derive_mut_casts (enumeration c))) (derive_casts v false) >>
    after cond.

  (** *** Special member functions: enumeration.rs:1327-1531 *)

  (** enumeration.rs:1355-1384, 1431-1458, 1477-1506 *)
  Definition variant_case (body_case : EnumVariant -> string -> Struct -> string) (v : EnumVariant) : outcome prog :=
    match v_body v with
    | VBody n s _ _ => let cond := guard (v_cfg v) in before cond >> text (body_case v n s) >> after cond >> line
    | VEmpty _ => nothing
    end.
  Definition switch_tag (e : Enum) (body_case : EnumVariant -> string -> Struct -> string) : outcome prog :=
    text "switch (tag)" >> opened >>
    each (variant_case body_case) (e_variants e) >>
    when (existsb (fun v => VariantBody_is_empty (v_body v)) (e_variants e)) (text "default: break;") >>
    closed false.
  (** enumeration.rs:1340-1404 *)
  Definition derived_enum_eq (e : Enum) : outcome prog :=
    let n := e_export_name e in
    let other := renamed_arg "other" in
    line >> line >> attrs_text (e_annotations e) "eq" >>
    text ("bool operator==(const " ++ n ++ "& " ++ other ++ ") const") >> opened >>
    text ("if (tag != " ++ other ++ ".tag)") >> opened >> text "return false;" >> closed false >> line >>
    switch_tag e (fun v m _ => "case " ++ tag_name e ++ "::" ++ v_export_name v ++ ": return " ++ m ++ " == " ++ other ++ "." ++ m ++ ";") >>
    line >> text "return true;" >> closed false >>
    when (flag (e_annotations e) "derive-neq" (st_derive_neq (structure c)))
      (line >> line >> attrs_text (e_annotations e) "neq" >>
       text ("bool operator!=(const " ++ n ++ "& " ++ other ++ ") const") >> opened >>
       text ("return !(*this == " ++ other ++ ");") >> closed false).
  (** enumeration.rs:1410-1419 *)
  Definition private_constructor (e : Enum) : outcome prog :=
    line >> line >> text "private:" >> line >> text (e_export_name e ++ "()") >> opened >> closed false >>
    line >> text "public:" >> line.
  (** enumeration.rs:1426-1459 *)
  Definition derived_destructor (e : Enum) : outcome prog :=
    line >> line >> attrs_text (e_annotations e) "destructor" >>
    text ("~" ++ e_export_name e ++ "()") >> opened >>
    switch_tag e (fun v m s => "case " ++ tag_name e ++ "::" ++ v_export_name v ++ ": " ++ m ++ ".~" ++ s_export_name s ++ "(); break;") >>
    closed false.
  (** enumeration.rs:1466-1530 *)
  Definition derived_copy (e : Enum) : outcome prog :=
    let n := e_export_name e in
    let other := renamed_arg "other" in
    line >> line >> attrs_text (e_annotations e) "copy-constructor" >>
    text (n ++ "(const " ++ n ++ "& " ++ other ++ ")") >> line >> text (" : tag(" ++ other ++ ".tag)") >> opened >>
    switch_tag e (fun v m s => "case " ++ tag_name e ++ "::" ++ v_export_name v ++ ": ::new (&" ++ m ++ ") (" ++ s_export_name s ++ ")(" ++ other ++ "." ++ m ++ "); break;") >>
    closed false >>
    when (flag (e_annotations e) "derive-tagged-enum-copy-assignment" (en_derive_tagged_enum_copy_assignment (enumeration c)))
      (line >> attrs_text (e_annotations e) "copy-assignment" >>
       text (n ++ "& operator=(const " ++ n ++ "& " ++ other ++ ")") >> opened >>
       text ("if (this != &" ++ other ++ ")") >> opened >>
       text ("this->~" ++ n ++ "();") >> line >> text ("new (this) " ++ n ++ "(" ++ other ++ ");") >> closed false >>
       line >> text "return *this;" >> closed false).
  (** enumeration.rs:1134-1532; only called for enums with data, which have a tag *)
  Definition derived_functions_data (e : Enum) : outcome prog :=
    let a := e_annotations e in
    let en := enumeration c in
    when cxx
      (when (flag a "derive-helper-methods" (en_derive_helper_methods en)) (each (variant_helpers e) (e_variants e)) >>
       when (Enum_can_derive_eq e && flag a "derive-eq" (st_derive_eq (structure c))) (derived_enum_eq e) >>
       when (flag a "private-default-tagged-enum-constructor" (en_private_default_tagged_enum_constructor en)) (private_constructor e) >>
       when (flag a "derive-tagged-enum-destructor" (en_derive_tagged_enum_destructor en)) (derived_destructor e) >>
       when (flag a "derive-tagged-enum-copy-constructor" (en_derive_tagged_enum_copy_constructor en)) (derived_copy e)).

  (** clike.rs:468-540, cython.rs:115-156 *)
  Definition write_enum (e : Enum) : outcome prog :=
    let size := repr_size c (e_repr e) in
    let has_data := is_some (e_tag e) in
    let inline_tag := inline_tag_field (e_repr e) in
    let cond := guard (e_cfg e) in
    before cond >> docs (e_documentation e) >>
    when (negb is_cython) (write_generic_params false (e_generic_params e)) >>
    when (has_data && cxx) (open_struct_or_union e inline_tag) >>
    write_tag_enum e size >>
    when has_data
      (write_variant_defs e >> line >> line >>
       when (negb cxx) (open_struct_or_union e inline_tag) >>
       write_tag_field e size inline_tag >> line >>
       when (negb inline_tag && negb is_cython) (text "union" >> opened) >>
       variant_fields inline_tag true (e_variants e) >>
       when (negb inline_tag && negb is_cython) (closed true) >>
       derived_functions_data e >>
       after_body (e_path e) >>
       close_item (e_export_name e)) >>
    after cond.

  (** ** Functions: mod.rs:29-113 *)
  Definition write_space (l : Layout) : outcome prog := match l with Vertical => line | _ => text " " end.
  Definition write_function_with_layout (f : Function) (l : Layout) : outcome prog :=
    let cond := guard (f_cfg f) in
    let attribute (o : option string) := if_some o (fun x => text x >> write_space l) in
    before cond >> docs (f_documentation f) >>
    (if f_extern_decl f then text "extern "
     else attribute (function_prefix (function c) (f_annotations f)) >>
          attribute (must_use_text c (f_annotations f) (fn_must_use (function c))) >>
          attribute (deprecated_note c NFunction (f_annotations f))) >>
    of_option (write_func c f l) >>
    when (negb (f_extern_decl f))
      (if_some (function_postfix (function c) (f_annotations f)) (fun x => write_space l >> text x)) >>
    if_some (fn_swift_name_macro (function c))
      (fun m => if_some (swift_name c f) (fun n => text (" " ++ m ++ "(" ++ n ++ ")"))) >>
    text ";" >> after cond.
  (** mod.rs:29-50; building a declaration panics for both layouts or for none *)
  Definition write_function (f : Function) : outcome prog :=
    match fn_args (function c) with
    | Auto =>
        do h := write_function_with_layout f Horizontal in
        do v := write_function_with_layout f Vertical in
        Done (PTry h (line_length c) (fun ok => if ok then PRet else v))
    | l => write_function_with_layout f l
    end.

  (** ** The whole file *)
  Definition paragraph (p : outcome prog) : outcome prog := Done newline_if_not_start >> p >> line.

  (** clike.rs:342-446.  [VERSION] is the version in Cargo.toml. *)
  Definition include_line (s : string) : outcome prog := text ("#include " ++ s) >> line.
  Definition clike_headers : outcome prog :=
    when (package_version c) (text ("/* Package version: " ++ b_package_version b ++ " */") >> line) >>
    if_some (header c) (fun f => paragraph (text f)) >>
    if_some (include_guard c) (fun f => paragraph (text ("#ifndef " ++ f) >> line >> text ("#define " ++ f))) >>
    when (pragma_once c) (paragraph (text "#pragma once")) >>
    when (include_version c) (paragraph (text "/* Generated with cbindgen:0.29.4 */")) >>
    if_some (autogen_warning c) (fun f => paragraph (text f)) >>
    when (negb (no_includes c && is_nil (sys_includes c) && is_nil (includes c) && negb (is_some (after_includes c))))
      (Done newline_if_not_start >>
       when (negb (no_includes c))
         match lang with
         | M_Config.C =>
             include_line "<stdarg.h>" >> include_line "<stdbool.h>" >>
             when (usize_is_size_t c) (include_line "<stddef.h>") >>
             include_line "<stdint.h>" >> include_line "<stdlib.h>"
         | Cxx =>
             include_line "<cstdarg>" >>
             when (usize_is_size_t c) (include_line "<cstddef>") >>
             include_line "<cstdint>" >> include_line "<cstdlib>" >> include_line "<ostream>" >> include_line "<new>" >>
             when (negb (is_some (en_cast_assert_name (enumeration c)))
                   && (en_derive_mut_casts (enumeration c) || en_derive_const_casts (enumeration c)))
               (include_line "<cassert>")
         | Cython => nothing
         end >>
       each (fun i => include_line ("<" ++ i ++ ">")) (sys_includes c) >>
       each (fun i => include_line (quoted i)) (includes c) >>
       if_some (after_includes c) (fun l => text l >> line)).
  (** cython.rs:45-101 *)
  Definition cython_headers : outcome prog :=
    when (package_version c) (text ("''' Package version: " ++ b_package_version b ++ " '''") >> line) >>
    if_some (header c) (fun f => paragraph (text f)) >>
    when (include_version c) (paragraph (text "/* Generated with cbindgen:0.29.4 */")) >>
    if_some (autogen_warning c) (fun f => paragraph (text f)) >>
    when (negb (no_includes c && is_nil (sys_includes c) && is_nil (includes c) && is_nil (cy_cimports (cython c))
                && negb (is_some (after_includes c))))
      (Done newline_if_not_start >>
       when (negb (no_includes c))
         (text "from libc.stdint cimport int8_t, int16_t, int32_t, int64_t, intptr_t" >> line >>
          text "from libc.stdint cimport uint8_t, uint16_t, uint32_t, uint64_t, uintptr_t" >> line >>
          text "cdef extern from *" >> opened >>
          text "ctypedef bint bool" >> line >> text "ctypedef struct va_list" >> line >> closed false) >>
       each (fun m => text ("from " ++ fst m ++ " cimport " ++ join ", " (snd m)) >> line) (cy_cimports (cython c)) >>
       if_some (after_includes c) (fun l => text l >> line)).
  Definition write_headers : outcome prog := if is_cython then cython_headers else clike_headers.

  (** clike.rs:448-454, cython.rs:103-112 *)
  Definition open_namespaces : outcome prog :=
    if is_cython then
      line >> text ("cdef extern from " ++ match cy_header (cython c) with Some h => h | None => "*" end) >> opened
    else open_close_namespaces true.
  Definition close_namespaces : outcome prog := if is_cython then closed false else open_close_namespaces false.
  (** clike.rs:456-466, cython.rs:114 *)
  Definition write_footers : outcome prog :=
    if is_cython then nothing
    else if_some (include_guard c) (fun f => paragraph (text (if plain_c then "#endif  /* " ++ f ++ " */" else "#endif  // " ++ f))).
  (** mod.rs:220-228; the text ends with a newline or gets one *)
  Definition ends_with_newline (s : string) : bool := match srev s with String a _ => Ascii.eqb a (ascii_of_nat 10) | "" => false end.
  Definition write_trailer : outcome prog :=
    if_some (trailer c) (fun f => Done newline_if_not_start >> text f >> when (negb (ends_with_newline f)) line).

  (** mod.rs:132-140, 180-188 *)
  Definition write_constants (primitive : bool) : outcome prog :=
    each (fun k => when (Bool.eqb (Constant_uses_only_primitive_types k) primitive) (paragraph (Constant_write fuel b k None))) (b_constants b).
  (** mod.rs:143-158 *)
  Definition write_struct_or_typedef (s : Struct) : outcome prog :=
    match as_typedef s with
    | Some t => write_type_def t >> associated_constants s
    | None => write_struct s
    end.
  (** mod.rs:160-178.  Constants and statics are never among the items: the
      model's containers have no such case (see M_Library). *)
  Definition write_item (i : ItemContainer) : outcome prog :=
    match i with
    | ICEnum x => write_enum x
    | ICStruct x => write_struct_or_typedef x
    | ICUnion x => write_union x
    | ICOpaque x => write_opaque_item x
    | ICTypedef x => write_type_def x
    end.
  Definition item_annotations (i : ItemContainer) : AnnotationSet :=
    match i with
    | ICEnum x => e_annotations x
    | ICStruct x => s_annotations x
    | ICUnion x => u_annotations x
    | ICOpaque x => o_annotations x
    | ICTypedef x => t_annotations x
    end.
  Definition write_items : outcome prog :=
    each (fun i => when (should_export (item_annotations i)) (paragraph (write_item i))) (b_items b).
  (** mod.rs:194-203, 209-218 *)
  Definition write_globals_default : outcome prog :=
    each (fun g => when (should_export (g_annotations g)) (paragraph (write_static g))) (b_globals b).
  Definition write_functions_default : outcome prog :=
    each (fun f => when (should_export (f_annotations f)) (paragraph (write_function f))) (b_functions b).

  Definition has_symbols : bool := negb (is_nil (b_functions b)) || negb (is_nil (b_globals b)).
  Definition extern_c : bool := cxx || cpp_compatible_c c.
  (** clike.rs:966-998 *)
  Definition clike_globals : outcome prog :=
    when has_symbols
      (when (cpp_compatible_c c) (Done newline_if_not_start >> text "#ifdef __cplusplus") >>
       when cxx (if_some (using_namespaces c)
         (fun l => each (fun n => line >> text ("using namespace " ++ n ++ ";")) l >> line)) >>
       when extern_c (line >> text ("extern " ++ quoted "C" ++ " {") >> line) >>
       when (cpp_compatible_c c) (text "#endif // __cplusplus" >> line) >>
       write_globals_default).
  (** clike.rs:1000-1022 *)
  Definition clike_functions : outcome prog :=
    when has_symbols
      (write_functions_default >>
       when (cpp_compatible_c c) (line >> text "#ifdef __cplusplus") >>
       when extern_c (line >> text ("}  // extern " ++ quoted "C") >> line) >>
       when (cpp_compatible_c c) (text "#endif  // __cplusplus" >> line)).
  (** cython.rs:421-431 *)
  Definition cython_functions : outcome prog :=
    write_functions_default >>
    when (is_nil (b_globals b) && is_nil (b_constants b) && is_nil (b_items b) && is_nil (b_functions b)) (text "pass").
  Definition write_globals : outcome prog := if is_cython then write_globals_default else clike_globals.
  Definition write_functions : outcome prog := if is_cython then cython_functions else clike_functions.

  (** mod.rs:119-130 *)
  Definition write_bindings : outcome prog :=
    write_headers >> open_namespaces >> write_constants true >> write_items >> write_constants false >>
    write_globals >> write_functions >> close_namespaces >> write_footers >> write_trailer.
  (** bindings.rs:271-297: nothing is written for a no-op *)
  Definition bindings_text : outcome string :=
    if b_noop b then Done ""
    else do p := write_bindings in of_option (run_config c p).
End Backend.
