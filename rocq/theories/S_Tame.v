(** What a user's texts and names must be like for the header around them to
    make sense: names are words, attributes and values are pieces of one line,
    and the texts that are copied in whole stand on lines of their own. *)
Require Import Coq.Strings.String Coq.Strings.Ascii Coq.Lists.List Coq.Bool.Bool.
From Verif Require Import Base M_Config M_Type M_Ir M_Item M_Library M_Bindings M_Docs M_Literal M_Backend S_Lex S_Comment S_Outline.
Import ListNotations.
Open Scope string_scope.

Definition opt {A} (f : A -> bool) (o : option A) : bool := match o with Some x => f x | None => true end.

(** Types: names are words, array lengths and constant arguments are calm. *)
Fixpoint tame_ty (t : Ty) : bool :=
  match t with
  | TPtr u _ _ _ => tame_ty u
  | TPath (GPath _ e gs _) =>
      wordy e && forallb (fun g => match g with GType u => tame_ty u | GConst x => calm (ConstExpr_as_str x) end) gs
  | TPrim _ => true
  | TArray u len => tame_ty u && calm (ConstExpr_as_str len)
  | TFuncPtr ret args _ _ => tame_ty ret && forallb (fun a => opt wordy (fst a) && tame_ty (snd a)) args
  end.
(** No function pointers, whose arguments may be put on several lines. *)
Fixpoint without_functions (t : Ty) : bool :=
  match t with
  | TPtr u _ _ _ | TArray u _ => without_functions u
  | TPath (GPath _ _ gs _) => forallb (fun g => match g with GType u => without_functions u | GConst _ => true end) gs
  | TPrim _ => true
  | TFuncPtr _ _ _ _ => false
  end.

Fixpoint tame_literal (l : Literal) : bool :=
  match l with
  | LExpr s => calm s
  | LPath a name => wordy name && opt (fun x => wordy (snd x)) a
  | LUnary op v => calm op && tame_literal v
  | LBin x op y => tame_literal x && calm (" " ++ op ++ " ") && tame_literal y
  | LField v f => tame_literal v && wordy f
  | LStruct _ e fields => wordy e && forallb (fun f => wordy (fst f) && tame_literal (fst (snd f))) fields
  | LCast t v => tame_ty t && tame_literal v
  | LArray items => forallb tame_literal items
  end.
(** A deprecation format: calm, and without the characters that could hide its
    place holders. *)
Definition tame_format (s : string) : bool :=
  calm s && all_chars (fun a => negb (existsb (Ascii.eqb a) ["'"%char; """"%char; "\"%char; "/"%char; "#"%char])) s.
Definition tame_notes (a : AnnotationSet) : bool :=
  forallb (fun kv => match snd kv with AAtom (Some s) => calm s | _ => true end) (an_values a).

Section Tame.
  Context {H : Heck}.
  Variable b : Bindings.
  Let c : Config := b_config b.

  Definition tame_doc (d : Documentation) : bool := forallb (safe_line (language c) (doc_style c)) d.
  Definition tame_field (f : Field) : bool :=
    wordy (fd_name f) && tame_ty (fd_ty f) && tame_notes (fd_annotations f) && tame_doc (fd_documentation f)
    && wordy (RenameRule_apply (fn_rename_args (function c)) (fd_name f) FunctionArg).
  Definition tame_argument (g : GenericArgument) : bool :=
    match g with GType t => tame_ty t | GConst x => calm (ConstExpr_as_str x) end.
  Definition tame_param (p : GenericParam) : bool :=
    wordy (gp_name_ p) && match gp_ty p with GPType => true | GPConst t => tame_ty t end && opt tame_argument (gp_default p).

  (** A constant that has to be a macro must be written on one line. *)
  Definition a_macro (k : Constant) : bool :=
    Language_eqb (language c) M_Config.C
    || Language_eqb (language c) Cxx
       && negb (co_allow_static_const (constant c) || co_allow_constexpr (constant c) && can_be_constexpr (c_value k)).
  Definition on_one_line (l : Literal) : bool :=
    forallb (fun x => match x with
                      | LStruct _ _ _ => negb (literal_is_constexpr b x)
                      | LCast t _ => without_functions t
                      | _ => true
                      end) (Literal_visited l).
  Definition tame_constant (s : option Struct) (k : Constant) : bool :=
    opt wordy (constant_name b k s) && wordy (c_export_name k) && tame_ty (c_ty k) && tame_literal (c_value k)
    && tame_doc (c_documentation k) && (negb (a_macro k) || on_one_line (c_value k)).

  Definition tame_struct (s : Struct) : bool :=
    wordy (s_export_name s) && forallb tame_param (s_generic_params s) && forallb tame_field (s_fields s)
    && tame_notes (s_annotations s) && tame_doc (s_documentation s)
    && forallb (tame_constant (Some s)) (s_associated_constants s).
  Definition tame_union (u : Union) : bool :=
    wordy (u_export_name u) && forallb tame_param (u_generic_params u) && forallb tame_field (u_fields u)
    && tame_doc (u_documentation u).
  Definition tame_body (v : VariantBody) : bool :=
    match v with VEmpty a => tame_notes a | VBody n s _ _ => wordy n && tame_struct s end.
  Definition tame_variant (v : EnumVariant) : bool :=
    wordy (v_export_name v) && opt tame_literal (v_discriminant v) && tame_body (v_body v) && tame_doc (v_documentation v).
  Definition tame_enum (e : Enum) : bool :=
    wordy (e_export_name e) && opt wordy (e_tag e) && forallb tame_param (e_generic_params e)
    && forallb tame_variant (e_variants e) && tame_notes (e_annotations e) && tame_doc (e_documentation e).
  Definition tame_typedef (t : Typedef) : bool :=
    wordy (t_export_name t) && forallb tame_param (t_generic_params t) && tame_ty (t_aliased t) && tame_doc (t_documentation t).
  Definition tame_opaque (o : OpaqueItem) : bool :=
    wordy (o_export_name o) && forallb tame_param (o_generic_params o) && tame_doc (o_documentation o).
  Definition tame_item (i : ItemContainer) : bool :=
    match i with
    | ICEnum x => tame_enum x
    | ICStruct x => tame_struct x
    | ICUnion x => tame_union x
    | ICOpaque x => tame_opaque x
    | ICTypedef x => tame_typedef x
    end.
  Definition tame_static (g : Static) : bool := wordy (g_export_name g) && tame_ty (g_ty g) && tame_doc (g_documentation g).
  Definition tame_function (f : Function) : bool :=
    wordy (f_path f) && opt wordy (f_self_type_path f) && tame_ty (f_ret f)
    && forallb (fun a => opt wordy (a_name a) && tame_ty (a_ty a) && opt calm (a_array_length a)) (f_args f)
    && tame_notes (f_annotations f) && tame_doc (f_documentation f).

  (** The texts of the configuration that go into lines. *)
  Definition tame_texts : bool :=
    forallb (fun d => wordy (snd d)) (defines c)
    && forallb (opt calm) [fn_prefix (function c); fn_postfix (function c); fn_must_use (function c); fn_deprecated (function c);
                           fn_swift_name_macro (function c); fn_no_return (function c);
                           st_must_use (structure c); st_deprecated (structure c);
                           en_must_use (enumeration c); en_deprecated (enumeration c); en_deprecated_variant (enumeration c);
                           en_cast_assert_name (enumeration c);
                           ly_packed (layout c); ly_aligned_n (layout c);
                           pt_non_null_attribute (pointer c); pt_nullable_attribute (pointer c)]
    && forallb (opt tame_format) [fn_deprecated_with_note (function c); st_deprecated_with_note (structure c);
                                  en_deprecated_with_note (enumeration c); en_deprecated_variant_with_note (enumeration c)]
    && opt wordy (namespace c) && opt (forallb wordy) (namespaces c) && opt (forallb wordy) (using_namespaces c)
    && opt wordy (include_guard c) && wordy (b_package_version b)
    && forallb (fun i => calm ("<" ++ i ++ ">")) (sys_includes c) && forallb (fun i => calm (dquote ++ i ++ dquote)) (includes c)
    && forallb (fun n => wordy (RenameRule_apply (fn_rename_args (function c)) n FunctionArg)) ["other"; "stream"; "instance"].

  (** Whole blocks. *)
  Definition line_ending : string := LineEndingStyle_as_str (line_endings c).
  Definition own_lines (x : string) : Prop := forall holds, self_contained holds (x ++ line_ending).
  Definition tame_blocks : Prop :=
    (forall x, In (Some x) [header c; autogen_warning c; after_includes c] -> own_lines x)
    /\ (forall p x, pre_body (export c) p = Some x \/ post_body (export c) p = Some x -> own_lines x)
    /\ (forall x, trailer c = Some x -> if ends_with_newline x then forall holds, self_contained holds x else own_lines x).

  (** The names that constants may refer to. *)
  Definition tame_enums : Prop :=
    forall p e, In e (for_items (b_enum_map b) p) -> wordy (e_export_name e) = true /\ forallb (fun v => wordy (v_export_name v)) (e_variants e) = true.

  Definition tame : Prop :=
    language c <> Cython /\ line_endings c <> CR /\ tame_texts = true /\ tame_blocks /\ tame_enums
    /\ forallb tame_item (b_items b) = true /\ forallb (tame_constant None) (b_constants b) = true
    /\ forallb tame_static (b_globals b) = true /\ forallb tame_function (b_functions b) = true.
End Tame.
