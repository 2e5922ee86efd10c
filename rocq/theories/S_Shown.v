(** What the text of each declaration consists of, from its first to its last
    character: which words, names, declarators and values in which order.
    Only white space is left open. *)
Require Import Coq.Strings.String Coq.Strings.Ascii Coq.Lists.List Coq.Bool.Bool.
From Verif Require Import Base S_Lex M_Config M_Writer M_Cfg M_Type M_Ir M_Item M_Library M_Cdecl S_Decl M_Bindings M_Docs M_Literal M_Syn M_Backend S_File S_Style.
Import ListNotations.
Open Scope string_scope.

(** A piece of text with something known about it. *)
Definition piece : Type := string -> Prop.
Fixpoint all_blank (s : string) : bool := match s with "" => true | String a r => blank a && all_blank r end.
(** Does the text end in a letter, a digit or an underscore? *)
Fixpoint ends_word (s : string) : bool :=
  match s with
  | "" => false
  | String a "" => wordchar a
  | String _ r => ends_word r
  end.
(** [s] and [r] do not run together into one word. *)
Definition apart (s r : string) : bool := negb (ends_word s && head_wordchar r).
(** [made_of t ps]: [t] is pieces like [ps], one after the other, with nothing but white space around and between them, and with white
    space where a word would otherwise run into the next one. *)
Fixpoint made_of (t : string) (ps : list piece) : Prop :=
  match ps with
  | [] => all_blank t = true
  | p :: ps => exists a s r, t = a ++ s ++ r /\ all_blank a = true /\ p s /\ apart s r = true /\ made_of r ps
  end.
(** Pieces like [ps], in this order, among other text. *)
Fixpoint found_in (t : string) (ps : list piece) : Prop :=
  match ps with
  | [] => True
  | p :: ps => exists a s r, t = a ++ s ++ r /\ p s /\ found_in r ps
  end.
(** exactly this text *)
Definition say (x : string) : piece := fun s => s = x.
Definition opt {A} (o : option A) (f : A -> list piece) : list piece := match o with Some x => f x | None => [] end.
Definition only (x : bool) (ps : list piece) : list piece := if x then ps else [].
(** each followed by [cap] *)
Definition capped {A} (cap : string) (f : A -> list piece) (l : list A) : list piece := flat_map (fun x => (f x ++ [say cap])%list) l.
(** [sep] between any two *)
Fixpoint separated {A} (sep : string) (f : A -> list piece) (l : list A) : list piece :=
  match l with
  | [] => []
  | [x] => f x
  | x :: r => (f x ++ say sep :: separated sep f r)%list
  end.
Local Open Scope list_scope.

(** The keyword of a type in Cython *)
Definition cdef (s : Style) : string := match s with Type_ => "ctypedef " | Tag | Both => "cdef " end.

Section Shown.
  Context {H : Heck} (fuel : nat) (b : Bindings).
  Let c : Config := b_config b.
  Let le : string := LineEndingStyle_as_str (line_endings c).
  Let is_c : bool := Language_eqb (language c) M_Config.C.
  Let is_cxx : bool := Language_eqb (language c) Cxx.
  Let is_cython : bool := Language_eqb (language c) Cython.

  (** what [o] writes at some place of the file *)
  Definition written (o : outcome prog) : piece := fun s =>
    exists p w w', o = Done p /\ w_spaces w <> [] /\ run (tab_width c) le p w = Some w' /\ w_out w' = (w_out w ++ s)%string.

  (** A macro: its name and what it stands for, on the same line. *)
  Definition macro (name : string) (value : outcome prog) : piece := fun s =>
    exists v, s = ("#define " ++ name ++ " " ++ v)%string /\ written value v.

  (** A C declaration of [x] with the C type standing for [t]. *)
  Definition declared (x : string) (t : Ty) : piece := fun s =>
    written (of_option (write_field c t x)) s
    /\ (declarable c t = true -> usable c x = true -> declares (dialect_of c) s (Some x) (c_type c false t)).
  (** the C type standing for [t], alone *)
  Definition named_type (t : Ty) : piece := fun s =>
    written (of_option (write_type c t)) s
    /\ (declarable c t = true -> declares (dialect_of c) s None (c_type c false t)).
  (** A C declaration of the function. *)
  Definition prototype (l : Layout) (f : Function) : piece := fun s =>
    written (of_option (write_func c f l)) s
    /\ (declarable_function c f = true -> declares (dialect_of c) s (Some (f_path f)) (c_function c f)).

  Definition documented (d : Documentation) : list piece := [written (Done (write_documentation c d))].
  (** Around what is only there under a condition. *)
  Definition conditional (k : option Cfg) (ps : list piece) : list piece :=
    match to_condition_opt (defines c) k with
    | None => ps
    | Some q =>
        let condition := written (Done (Condition_write (language c) q)) in
        if is_cython then [say "IF"; condition; say ":"] ++ ps
        else [say "#if"; condition] ++ ps ++ [say "#endif"]
    end.
  Definition opens : list piece := [say (if is_cython then ":" else "{")].
  Definition closes (semicolon : bool) : list piece := only (negb is_cython) [say (if semicolon then "};" else "}")].
  Definition with_note (o : option string) : list piece := opt o (fun x => [say x]).
  Definition own_text (o : option string) : list piece := opt o (fun x => [say x]).

  (** ** Members *)
  Definition shown_field (f : Field) : list piece :=
    let bits := opt (an_atom (fd_annotations f) "bitfield") (fun n => [say (": " ++ match n with Some n => n | None => "" end)]) in
    if is_cython then documented (fd_documentation f) ++ [declared (fd_name f) (fd_ty f)]
    else conditional (fd_cfg f) (documented (fd_documentation f) ++ [declared (fd_name f) (fd_ty f)] ++ bits).
  Definition shown_variant (v : EnumVariant) : list piece :=
    if is_cython then
      documented (v_documentation v) ++ [say (v_export_name v)] ++
      opt (v_discriminant v) (fun d => [say "# ="; written (write_literal fuel b d)]) ++ [say ","]
    else
      conditional (v_cfg v)
        (documented (v_documentation v) ++ [say (v_export_name v)] ++
         with_note (deprecated_note c NEnumVariant (VariantBody_annotations (v_body v))) ++
         opt (v_discriminant v) (fun d => [say "="; written (write_literal fuel b d)]) ++ [say ","]).

  (** ** Template parameters *)
  Definition shown_param (with_default : bool) (p : GenericParam) : list piece :=
    match gp_ty p, gp_default p with
    | GPType, Some (GType t) => [say ("typename " ++ gp_name_ p); say "="; named_type t]
    | GPType, _ => say ("typename " ++ gp_name_ p) :: only with_default [say "= void"]
    | GPConst t, Some (GConst x) => [declared (gp_name_ p) t; say ("= " ++ ConstExpr_as_str x)]
    | GPConst t, _ => declared (gp_name_ p) t :: only with_default [say "= 0"]
    end.
  Definition shown_params (with_default : bool) (ps : GenericParams) : list piece :=
    match ps with
    | [] => []
    | _ => only is_cxx (say "template<" :: separated "," (shown_param with_default) ps ++ [say ">"])
    end.

  (** ** Constants *)
  (** [s]: the struct the constant belongs to *)
  Definition shown_constant (k : Constant) (s : option Struct) : list piece :=
    if match s with Some st => negb (is_nil (s_generic_params st)) | None => false end then []
    else
      match is_valid fuel b (c_value k), constant_name b k s, unwrap_transparent b (c_value k) with
      | Done true, Some name, Some v =>
          let value := written (write_literal fuel b v) in
          let constexpr := co_allow_constexpr (constant c) && can_be_constexpr (c_value k) in
          let static_ := co_allow_static_const (constant c) in
          conditional (c_cfg k)
            (documented (c_documentation k) ++
             (if is_cython then [say "const"; declared name (c_ty k); say "# ="; value]
              else if is_c || negb static_ && negb constexpr then [macro name (write_literal fuel b v)]
              else only constexpr [say "constexpr"] ++
                   only static_ [say (if constant_in_body b s then "inline" else "static")] ++
                   only (negb (is_const_ptr (c_ty k))) [say "const"] ++
                   [declared name (c_ty k); say "="; value; say ";"]))
      | _, _, _ => []
      end.
  (** its declaration in the body of the struct *)
  Definition shown_constant_member (k : Constant) : list piece :=
    conditional (c_cfg k)
      [say (if is_const_ptr (c_ty k) then "static" else "static const"); declared (c_export_name k) (c_ty k); say ";"].

  (** ** Structs and unions *)
  Definition typedefs : bool := is_c && has_typedef (style c).
  Definition tag_shown (name : string) : list piece := only (negb is_c || has_tag (style c)) [say name].
  Definition ending (name : string) : list piece :=
    if typedefs then [say "}"; say (name ++ ";")] else closes true.
  Definition aligned (a : option ReprAlign) : list piece :=
    match a with
    | None => []
    | Some Packed => own_text (ly_packed (layout c))
    | Some (Align n) => opt (ly_aligned_n (layout c)) (fun x => [say (x ++ "(" ++ decimal n ++ ")")])
    end.
  Definition shown_fields (fs : list Field) : list piece := capped ";" shown_field fs.
  Definition nothing_inside {A} (l : list A) : list piece := only (is_nil l) [say "pass"].

  (** *** Derived operators of C++ structs *)
  Definition renamed (x : string) : string := RenameRule_apply (fn_rename_args (function c)) x FunctionArg.
  Definition asked (a : AnnotationSet) (name : string) (default : bool) : bool :=
    match an_bool a name with Some x => x | None => default end.
  Definition own_attributes (a : AnnotationSet) (name : string) : list piece :=
    match an_atom a (name ++ "-attributes") with Some (Some x) => [say x] | _ => [] end.
  (** A function or method: its head and the statements of its body. *)
  Definition method (head : string) (body : list piece) : list piece := [say head; say "{"] ++ body ++ [say "}"].
  Definition shown_constructor (s : Struct) : list piece :=
    [say (s_export_name s ++ "(")] ++
    separated "," (fun f => shown_field (from_name_and_type ("const& " ++ renamed (fd_name f)) (fd_ty f))) (s_fields s) ++
    [say ")"; say ":"] ++ separated "," (fun f => [say (fd_name f ++ "(" ++ renamed (fd_name f) ++ ")")]) (s_fields s) ++ [say "{}"].
  (** All fields are compared, but for the tag of the data of a variant. *)
  Definition compared (s : Struct) : list Field := if s_has_tag_field s then tl (s_fields s) else s_fields s.
  Definition shown_comparison (name op joined : string) (s : Struct) : list piece :=
    let other := renamed "other" in
    own_attributes (s_annotations s) name ++
    method ("bool operator" ++ op ++ "(const " ++ s_export_name s ++ "& " ++ other ++ ") const")
      ([say "return"] ++ separated joined (fun f => [say (fd_name f ++ " " ++ op ++ " " ++ other ++ "." ++ fd_name f)]) (compared s) ++ [say ";"]).
  Definition shown_ostream (s : Struct) : list piece :=
    let stream := renamed "stream" in
    let instance := renamed "instance" in
    let q := dquote in
    method ("friend std::ostream& operator<<(std::ostream& " ++ stream ++ ", const " ++ s_export_name s ++ "& " ++ instance ++ ")")
      ([say ("return " ++ stream ++ " << " ++ q ++ "{ " ++ q)] ++
       separated ("<< " ++ q ++ ", " ++ q) (fun f => [say ("<< " ++ q ++ fd_name f ++ "=" ++ q ++ " << " ++ instance ++ "." ++ fd_name f)]) (s_fields s) ++
       [say ("<< " ++ q ++ " }" ++ q ++ ";")]).
  Definition shown_bitflags (s : Struct) : list piece :=
    match s_fields s with
    | [f] =>
        let bits := fd_name f in
        let n := s_export_name s in
        let other := renamed "other" in
        let constexpr := if co_allow_constexpr (constant c) then "constexpr " else "" in
        let from e := (n ++ " { static_cast<decltype(" ++ bits ++ ")>(" ++ e ++ ") }")%string in
        method (constexpr ++ "explicit operator bool() const") [say ("return !!" ++ bits ++ ";")] ++
        method (constexpr ++ n ++ " operator~() const") [say ("return " ++ from ("~" ++ bits)%string ++ ";")] ++
        flat_map (fun op =>
          method (constexpr ++ n ++ " operator" ++ op ++ "(const " ++ n ++ "& " ++ other ++ ") const")
            [say ("return " ++ from ("this->" ++ bits ++ " " ++ op ++ " " ++ other ++ "." ++ bits)%string ++ ";")] ++
          method (n ++ "& operator" ++ op ++ "=(const " ++ n ++ "& " ++ other ++ ")")
            [say ("*this = (*this " ++ op ++ " " ++ other ++ ");"); say "return *this;"]) ["|"; "&"; "^"]
    | _ => []
    end.
  Definition shown_derived (s : Struct) : list piece :=
    let a := s_annotations s in
    let st := structure c in
    let eq := Struct_can_derive_eq s in
    let ord := match s_fields s with [f] => can_cmp_order (fd_ty f) | _ => false end in
    only (asked a "derive-constructor" (st_derive_constructor st) && negb (is_nil (s_fields s))) (shown_constructor s) ++
    only (asked a "internal-derive-bitflags" false) (shown_bitflags s) ++
    only (asked a "derive-ostream" (st_derive_ostream st)) (shown_ostream s) ++
    only (asked a "derive-eq" (st_derive_eq st) && eq) (shown_comparison "eq" "==" "&&" s) ++
    only (asked a "derive-neq" (st_derive_neq st) && eq) (shown_comparison "neq" "!=" "||" s) ++
    only (asked a "derive-lt" (st_derive_lt st) && ord) (shown_comparison "lt" "<" "&&" s) ++
    only (asked a "derive-lte" (st_derive_lte st) && ord) (shown_comparison "lte" "<=" "&&" s) ++
    only (asked a "derive-gt" (st_derive_gt st) && ord) (shown_comparison "gt" ">" "&&" s) ++
    only (asked a "derive-gte" (st_derive_gte st) && ord) (shown_comparison "gte" ">=" "&&" s).

  Definition shown_struct (s : Struct) : list piece :=
    let notes := with_note (must_use_text c (s_annotations s) (st_must_use (structure c))) ++
                 with_note (deprecated_note c NStruct (s_annotations s)) in
    let constants := flat_map (fun k => shown_constant k (Some s)) (s_associated_constants s) in
    conditional (s_cfg s)
      (documented (s_documentation s) ++
       if is_cython then
         [say (cdef (style c))] ++
         match s_alignment s with Some Packed => [say "packed"] | _ => [] end ++
         [say "struct"] ++ notes ++ [say (s_export_name s)] ++ opens ++
         own_text (pre_body (export c) (s_path s)) ++
         shown_fields (s_fields s) ++ nothing_inside (s_fields s) ++
         own_text (post_body (export c) (s_path s)) ++ constants
       else
         only (negb (s_is_enum_variant_body s)) (shown_params false (s_generic_params s)) ++
         only typedefs [say "typedef"] ++
         [say "struct"] ++ aligned (s_alignment s) ++ notes ++ tag_shown (s_export_name s) ++ opens ++
         own_text (pre_body (export c) (s_path s)) ++
         shown_fields (s_fields s) ++
         only is_cxx (shown_derived s) ++
         own_text (post_body (export c) (s_path s)) ++
         only (is_cxx && st_associated_constants_in_body (structure c) && co_allow_static_const (constant c))
           (flat_map shown_constant_member (s_associated_constants s)) ++
         ending (s_export_name s) ++ constants).

  Definition shown_union (u : Union) : list piece :=
    conditional (u_cfg u)
      (documented (u_documentation u) ++
       if is_cython then
         [say (cdef (style c)); say "union"; say (u_export_name u)] ++ opens ++
         own_text (pre_body (export c) (u_path u)) ++
         shown_fields (u_fields u) ++ nothing_inside (u_fields u) ++
         own_text (post_body (export c) (u_path u))
       else
         shown_params false (u_generic_params u) ++
         only typedefs [say "typedef"] ++
         [say "union"] ++ aligned (u_alignment u) ++ tag_shown (u_export_name u) ++ opens ++
         own_text (pre_body (export c) (u_path u)) ++
         shown_fields (u_fields u) ++
         own_text (post_body (export c) (u_path u)) ++
         ending (u_export_name u)).

  Definition shown_opaque (o : OpaqueItem) : list piece :=
    let n := o_export_name o in
    conditional (o_cfg o)
      (documented (o_documentation o) ++ shown_params true (o_generic_params o) ++
       if is_cython then [say (cdef (style c) ++ "struct " ++ n); say ":"; say "pass"]
       else if typedefs then [say ("typedef struct " ++ n ++ " " ++ n ++ ";")]
       else [say ("struct " ++ n ++ ";")]).

  Definition shown_typedef (t : Typedef) : list piece :=
    conditional (t_cfg t)
      (documented (t_documentation t) ++ shown_params false (t_generic_params t) ++
       (if is_cxx then [say ("using " ++ t_export_name t ++ " ="); named_type (t_aliased t)]
        else say (if is_cython then "ctypedef" else "typedef") :: documented [] ++ [declared (t_export_name t) (t_aliased t)]) ++
       [say ";"]).

  Definition shown_static (g : Static) : list piece :=
    conditional (g_cfg g)
      (documented (g_documentation g) ++ [say "extern"] ++
       only (negb (is_const_ptr (g_ty g)) && negb (g_mutable g)) [say "const"] ++
       [declared (g_export_name g) (g_ty g); say ";"]).

  (** ** Functions *)
  Definition shown_function_as (l : Layout) (f : Function) : list piece :=
    conditional (f_cfg f)
      (documented (f_documentation f) ++
       (if f_extern_decl f then [say "extern"]
        else with_note (function_prefix (function c) (f_annotations f)) ++
             with_note (must_use_text c (f_annotations f) (fn_must_use (function c))) ++
             with_note (deprecated_note c NFunction (f_annotations f))) ++
       [prototype l f] ++
       only (negb (f_extern_decl f)) (with_note (function_postfix (function c) (f_annotations f))) ++
       opt (fn_swift_name_macro (function c)) (fun m => opt (swift_name c f) (fun n => [say (m ++ "(" ++ n ++ ")")])) ++
       [say ";"]).

  (** ** Enums *)
  Definition shown_tag_head (e : Enum) (size : option string) : list piece :=
    let tag := tag_name e in
    let note := with_note (deprecated_note c NEnum (e_annotations e)) in
    let condition := ((if cpp_compat c then "defined(__cplusplus) || " else "") ++ "__STDC_VERSION__ >= 202311L")%string in
    match language c, size with
    | M_Config.C, Some prim =>
        [say "enum"] ++ note ++ [say tag; say ("#if " ++ condition); say (": " ++ prim); say ("#endif // " ++ condition)]
    | M_Config.C, None =>
        only (has_typedef (style c)) [say "typedef"] ++ [say "enum"] ++ note ++ only (has_tag (style c)) [say tag]
    | Cxx, _ =>
        [say (if enum_class (enumeration c) (e_annotations e) then "enum class" else "enum")] ++
        with_note (must_use_text c (e_annotations e) (en_must_use (enumeration c))) ++
        note ++ [say tag] ++ opt size (fun prim => [say (": " ++ prim)])
    | Cython, Some _ => [say "cdef enum"]
    | Cython, None => [say (cdef (style c) ++ "enum " ++ tag)]
    end.
  Definition shown_size (tag prim : string) : list piece :=
    match language c with
    | M_Config.C =>
        let ps := [say "#if __STDC_VERSION__ >= 202311L"; say ("typedef enum " ++ tag ++ " " ++ tag ++ ";"); say "#else";
                   say ("typedef " ++ prim ++ " " ++ tag ++ ";"); say "#endif // __STDC_VERSION__ >= 202311L"] in
        if cpp_compat c then [say "#ifndef __cplusplus"] ++ ps ++ [say "#endif // __cplusplus"] else ps
    | Cxx => []
    | Cython => [say ("ctypedef " ++ prim ++ " " ++ tag ++ ";")]
    end.
  (** *** Functions derived for C++ enums *)
  Definition statements (l : list string) : list piece := map say l.
  Definition in_quotes (x : string) : string := dquote ++ x ++ dquote.
  (** Statements under the condition of their variant. *)
  Definition shown_enum_stream (e : Enum) : list piece :=
    let tag := tag_name e in
    let stream := renamed "stream" in
    let instance := renamed "instance" in
    let data := is_some (e_tag e) in
    let using_tag := [say ("using " ++ tag ++ " = " ++ e_export_name e ++ "::" ++ tag ++ ";")] in
    let case v what := ("case " ++ tag ++ "::" ++ v_export_name v ++ ": " ++ stream ++ " << " ++ what ++ "; break;")%string in
    let of_body v :=
      match v_body v with
      | VBody n s _ _ =>
          "case " ++ tag ++ "::" ++ v_export_name v ++ ": " ++ stream ++ " << " ++
          (if s_has_tag_field s then "" else in_quotes (v_export_name v) ++ " << ") ++ instance ++ "." ++ n ++ "; break;"
      | VEmpty _ => case v (in_quotes (v_export_name v))
      end%string in
    let head kind what := (kind ++ " std::ostream& operator<<(std::ostream& " ++ stream ++ ", const " ++ what ++ "& " ++ instance ++ ")")%string in
    let switch on cases := [say ("switch (" ++ on ++ ")"); say "{"] ++ statements cases ++ [say "}"; say ("return " ++ stream ++ ";")] in
    only (is_cxx && asked (e_annotations e) "derive-ostream" (en_derive_ostream (enumeration c)))
      (method (head (if data then "friend" else "inline") tag)
         (only data using_tag ++ switch instance (map (fun v => case v (in_quotes (v_export_name v))) (e_variants e))) ++
       only data
         (method (head "friend" (e_export_name e)) (using_tag ++ switch (instance ++ ".tag")%string (map of_body (e_variants e))))).
  Definition shown_tag_enum (e : Enum) (size : option string) : list piece :=
    shown_tag_head e size ++ opens ++ flat_map shown_variant (e_variants e) ++
    (if is_c && negb (is_some size) && has_typedef (style c) then [say "}"; say (tag_name e ++ ";")] else closes true) ++
    opt size (shown_size (tag_name e)) ++
    shown_enum_stream e.
  Definition shown_container (e : Enum) (as_union : bool) : list piece :=
    (if is_cython then [say (cdef (style c))] else only typedefs [say "typedef"]) ++
    [say (if as_union then "union" else "struct")] ++
    with_note (must_use_text c (e_annotations e) (st_must_use (structure c))) ++
    with_note (deprecated_note c NStruct (e_annotations e)) ++
    tag_shown (e_export_name e) ++ opens ++ own_text (pre_body (export c) (e_path e)).
  (** the struct of a variant with data, unless it is written in place *)
  Definition unless_cython (k : option Cfg) (ps : list piece) : list piece := if is_cython then ps else conditional k ps.
  Definition shown_body (v : EnumVariant) : list piece :=
    match v_body v with
    | VBody _ body false _ => unless_cython (v_cfg v) (shown_struct body)
    | _ => []
    end.
  Definition shown_member (inline_tag : bool) (v : EnumVariant) : list piece :=
    match v_body v with
    | VEmpty _ => []
    | VBody name body in_place _ =>
        unless_cython (v_cfg v)
          (if in_place then
             if is_cython then shown_fields (if inline_tag then tl (s_fields body) else s_fields body)
             else [say "struct"; say "{"] ++ shown_fields (s_fields body) ++ [say "};"]
           else [say ((if has_typedef (style c) || is_cython then "" else "struct ") ++ s_export_name body ++ " " ++ name ++ ";")])
    end.
  Definition shown_tag (e : Enum) (size : option string) (inline_tag : bool) : list piece :=
    let field := only (is_c && negb (is_some size) && negb (has_typedef (style c))) [say "enum"] ++ [say (tag_name e ++ " tag;")] in
    if inline_tag && is_cxx then [say "struct"; say "{"] ++ field ++ [say "};"] else field.
  (** *** Functions derived for C++ enums with data *)
  Definition payload (body : Struct) : list Field := if s_has_tag_field body then tl (s_fields body) else s_fields body.
  Definition shown_init (variant : string) (f : Field) : list piece :=
    match fd_ty f with
    | TArray t len =>
        method ("for (int i = 0; i < " ++ ConstExpr_as_str len ++ "; i++)")
          [say ("::new (&result." ++ variant ++ "." ++ fd_name f ++ "[i]) ("); named_type t; say (")(" ++ renamed (fd_name f) ++ "[i]);")]
    | t => [say ("::new (&result." ++ variant ++ "." ++ fd_name f ++ ") ("); named_type t; say (")(" ++ renamed (fd_name f) ++ ");")]
    end.
  Definition shown_variant_constructor (e : Enum) (v : EnumVariant) : list piece :=
    let args := match v_body v with
                | VBody _ body _ _ =>
                    separated "," (fun f => shown_field (from_name_and_type (renamed (fd_name f)) (const_ref_to (fd_ty f)))) (payload body)
                | VEmpty _ => []
                end in
    let inits := match v_body v with VBody n body _ _ => flat_map (shown_init n) (payload body) | VEmpty _ => [] end in
    own_attributes (VariantBody_annotations (v_body v)) "variant-constructor" ++
    [say ("static " ++ e_export_name e ++ " " ++ v_export_name v ++ "(")] ++ args ++
    method ")" ([say (e_export_name e ++ " result;")] ++ inits ++
                [say ("result.tag = " ++ tag_name e ++ "::" ++ v_export_name v ++ ";"); say "return result;"]).
  Definition shown_is (e : Enum) (v : EnumVariant) : list piece :=
    own_attributes (VariantBody_annotations (v_body v)) "variant-is" ++
    method ("bool Is" ++ v_export_name v ++ "() const") [say ("return tag == " ++ tag_name e ++ "::" ++ v_export_name v ++ ";")].
  Definition shown_cast (v : EnumVariant) (const_ : bool) : list piece :=
    match v_body v with
    | VEmpty _ => []
    | VBody member body _ only_field =>
        match payload body, last (map Some (s_fields body)) None with
        | [], _ | _, None => []
        | _, Some f =>
            own_attributes (VariantBody_annotations (v_body v)) (if const_ then "variant-const-cast" else "variant-mut-cast") ++
            (if only_field then [named_type (TPtr (fd_ty f) const_ false true)]
             else [say ((if const_ then "const " else "") ++ s_export_name body ++ "&")]) ++
            [say ("As" ++ v_export_name v ++ "()")] ++ only const_ [say "const"] ++
            [say "{"; say (match en_cast_assert_name (enumeration c) with Some n => n | None => "assert" end ++ "(Is" ++ v_export_name v ++ "());");
             say ("return " ++ member)] ++ only only_field [say "._0"] ++ [say ";"; say "}"]
        end
    end.
  Definition shown_helpers (e : Enum) (v : EnumVariant) : list piece :=
    let en := enumeration c in
    conditional (v_cfg v)
      (shown_variant_constructor e v ++ shown_is e v ++
       only (asked (e_annotations e) "derive-const-casts" (en_derive_const_casts en)) (shown_cast v true) ++
       only (asked (e_annotations e) "derive-mut-casts" (en_derive_mut_casts en)) (shown_cast v false)).
  (** one case for every variant with data *)
  Definition shown_switch (e : Enum) (what : string -> Struct -> string) : list piece :=
    let case v := match v_body v with
                  | VBody n s _ _ => conditional (v_cfg v) [say ("case " ++ tag_name e ++ "::" ++ v_export_name v ++ ": " ++ what n s)]
                  | VEmpty _ => []
                  end in
    [say "switch (tag)"; say "{"] ++ flat_map case (e_variants e) ++
    only (existsb (fun v => VariantBody_is_empty (v_body v)) (e_variants e)) [say "default: break;"] ++ [say "}"].
  Definition shown_data_functions (e : Enum) : list piece :=
    let a := e_annotations e in
    let en := enumeration c in
    let st := structure c in
    let n := e_export_name e in
    let other := renamed "other" in
    only is_cxx
      (only (asked a "derive-helper-methods" (en_derive_helper_methods en)) (flat_map (shown_helpers e) (e_variants e)) ++
       only (Enum_can_derive_eq e && asked a "derive-eq" (st_derive_eq st))
         (own_attributes a "eq" ++
          method ("bool operator==(const " ++ n ++ "& " ++ other ++ ") const")
            ([say ("if (tag != " ++ other ++ ".tag)"); say "{"; say "return false;"; say "}"] ++
             shown_switch e (fun m _ => "return " ++ m ++ " == " ++ other ++ "." ++ m ++ ";")%string ++ [say "return true;"]) ++
          only (asked a "derive-neq" (st_derive_neq st))
            (own_attributes a "neq" ++ method ("bool operator!=(const " ++ n ++ "& " ++ other ++ ") const") [say ("return !(*this == " ++ other ++ ");")])) ++
       only (asked a "private-default-tagged-enum-constructor" (en_private_default_tagged_enum_constructor en))
         ([say "private:"] ++ method (n ++ "()") [] ++ [say "public:"]) ++
       only (asked a "derive-tagged-enum-destructor" (en_derive_tagged_enum_destructor en))
         (own_attributes a "destructor" ++ method ("~" ++ n ++ "()") (shown_switch e (fun m s => m ++ ".~" ++ s_export_name s ++ "(); break;")%string)) ++
       only (asked a "derive-tagged-enum-copy-constructor" (en_derive_tagged_enum_copy_constructor en))
         (own_attributes a "copy-constructor" ++ [say (n ++ "(const " ++ n ++ "& " ++ other ++ ")")] ++
          method (": tag(" ++ other ++ ".tag)")
            (shown_switch e (fun m s => "::new (&" ++ m ++ ") (" ++ s_export_name s ++ ")(" ++ other ++ "." ++ m ++ "); break;")%string) ++
          only (asked a "derive-tagged-enum-copy-assignment" (en_derive_tagged_enum_copy_assignment en))
            (own_attributes a "copy-assignment" ++
             method (n ++ "& operator=(const " ++ n ++ "& " ++ other ++ ")")
               (method ("if (this != &" ++ other ++ ")") [say ("this->~" ++ n ++ "();"); say ("new (this) " ++ n ++ "(" ++ other ++ ");")] ++ [say "return *this;"])))).

  Definition shown_enum (e : Enum) : list piece :=
    let size := repr_size c (e_repr e) in
    let data := is_some (e_tag e) in
    let inline_tag := inline_tag_field (e_repr e) in
    conditional (e_cfg e)
      (documented (e_documentation e) ++
       only (negb is_cython) (shown_params false (e_generic_params e)) ++
       only (data && is_cxx) (shown_container e inline_tag) ++
       shown_tag_enum e size ++
       only data
         (flat_map shown_body (e_variants e) ++
          only (negb is_cxx) (shown_container e inline_tag) ++
          shown_tag e size inline_tag ++
          only (negb inline_tag && negb is_cython) [say "union"; say "{"] ++
          flat_map (shown_member inline_tag) (e_variants e) ++
          only (negb inline_tag && negb is_cython) [say "};"] ++
          shown_data_functions e ++
          own_text (post_body (export c) (e_path e)) ++
          ending (e_export_name e))).

  (** ** Any declaration; more than one list where there is a choice of layouts. *)
  Definition shown (d : declaration) : list (list piece) :=
    match d with
    | AConstant k => [shown_constant k None]
    | AnItem (ICStruct s) =>
        [match as_typedef s with
         | Some t => shown_typedef t ++ flat_map (fun k => shown_constant k (Some s)) (s_associated_constants s)
         | None => shown_struct s
         end]
    | AnItem (ICUnion u) => [shown_union u]
    | AnItem (ICEnum e) => [shown_enum e]
    | AnItem (ICOpaque o) => [shown_opaque o]
    | AnItem (ICTypedef t) => [shown_typedef t]
    | AGlobal g => [shown_static g]
    | AFunction f =>
        match fn_args (function c) with
        | Auto => [shown_function_as Horizontal f; shown_function_as Vertical f]
        | l => [shown_function_as l f]
        end
    end.
End Shown.
