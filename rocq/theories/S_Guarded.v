(** Declarations and their conditions: the cfg a declaration has, and the same
    declaration without it. *)
Require Import Coq.Strings.String Coq.Strings.Ascii Coq.Lists.List Coq.Bool.Bool.
From Verif Require Import Base M_Config M_Writer M_Cfg M_Type M_Ir M_Item M_Library M_Bindings M_Docs M_Literal M_Syn M_Backend S_File.
Import ListNotations.
Open Scope string_scope.

Definition constant_always (k : Constant) : Constant :=
  {| c_path := c_path k; c_export_name := c_export_name k; c_ty := c_ty k; c_value := c_value k; c_cfg := None;
     c_annotations := c_annotations k; c_documentation := c_documentation k; c_associated_to := c_associated_to k |}.
Definition struct_always (s : Struct) : Struct :=
  {| s_path := s_path s; s_export_name := s_export_name s; s_generic_params := s_generic_params s; s_fields := s_fields s;
     s_has_tag_field := s_has_tag_field s; s_is_enum_variant_body := s_is_enum_variant_body s; s_alignment := s_alignment s;
     s_is_transparent := s_is_transparent s; s_cfg := None; s_annotations := s_annotations s;
     s_documentation := s_documentation s; s_associated_constants := s_associated_constants s |}.
Definition union_always (u : Union) : Union :=
  {| u_path := u_path u; u_export_name := u_export_name u; u_generic_params := u_generic_params u; u_fields := u_fields u;
     u_tuple_union := u_tuple_union u; u_alignment := u_alignment u; u_cfg := None; u_annotations := u_annotations u;
     u_documentation := u_documentation u |}.
Definition typedef_always (t : Typedef) : Typedef :=
  {| t_path := t_path t; t_export_name := t_export_name t; t_generic_params := t_generic_params t; t_aliased := t_aliased t;
     t_cfg := None; t_annotations := t_annotations t; t_documentation := t_documentation t |}.
Definition opaque_always (o : OpaqueItem) : OpaqueItem :=
  {| o_path := o_path o; o_export_name := o_export_name o; o_generic_params := o_generic_params o; o_cfg := None;
     o_annotations := o_annotations o; o_documentation := o_documentation o |}.
Definition enum_always (e : Enum) : Enum :=
  {| e_path := e_path e; e_export_name := e_export_name e; e_generic_params := e_generic_params e; e_repr := e_repr e;
     e_variants := e_variants e; e_tag := e_tag e; e_cfg := None; e_annotations := e_annotations e;
     e_documentation := e_documentation e |}.
Definition static_always (g : Static) : Static :=
  {| g_path := g_path g; g_export_name := g_export_name g; g_ty := g_ty g; g_mutable := g_mutable g; g_cfg := None;
     g_annotations := g_annotations g; g_documentation := g_documentation g |}.
Definition function_always (f : Function) : Function :=
  {| f_path := f_path f; f_self_type_path := f_self_type_path f; f_ret := f_ret f; f_args := f_args f;
     f_extern_decl := f_extern_decl f; f_cfg := None; f_annotations := f_annotations f;
     f_documentation := f_documentation f; f_never_return := f_never_return f |}.
Definition field_always (f : Field) : Field :=
  {| fd_name := fd_name f; fd_ty := fd_ty f; fd_cfg := None; fd_annotations := fd_annotations f; fd_documentation := fd_documentation f |}.
Definition variant_always (v : EnumVariant) : EnumVariant :=
  {| v_name := v_name v; v_export_name := v_export_name v; v_discriminant := v_discriminant v; v_body := v_body v; v_cfg := None;
     v_documentation := v_documentation v |}.

Definition cfg_of (d : declaration) : option Cfg :=
  match d with
  | AConstant k => c_cfg k
  | AnItem (ICStruct s) => s_cfg s
  | AnItem (ICUnion u) => u_cfg u
  | AnItem (ICEnum e) => e_cfg e
  | AnItem (ICOpaque o) => o_cfg o
  | AnItem (ICTypedef t) => t_cfg t
  | AGlobal g => g_cfg g
  | AFunction f => f_cfg f
  end.
Definition always (d : declaration) : declaration :=
  match d with
  | AConstant k => AConstant (constant_always k)
  | AnItem (ICStruct s) => AnItem (ICStruct (struct_always s))
  | AnItem (ICUnion u) => AnItem (ICUnion (union_always u))
  | AnItem (ICEnum e) => AnItem (ICEnum (enum_always e))
  | AnItem (ICOpaque o) => AnItem (ICOpaque (opaque_always o))
  | AnItem (ICTypedef t) => AnItem (ICTypedef (typedef_always t))
  | AGlobal g => AGlobal (static_always g)
  | AFunction f => AFunction (function_always f)
  end.

(** A transparent struct is written as a typedef, followed by its constants. *)
Definition typedef_with_constants (d : declaration) : bool :=
  match d with
  | AnItem (ICStruct s) =>
      s_is_transparent s && match s_fields s, s_associated_constants s with _ :: _, _ :: _ => true | _, _ => false end
  | _ => false
  end.
(** A function whose arguments are laid out by the width of its lines. *)
Definition fitted (b : Bindings) (d : declaration) : bool :=
  match d with AFunction _ => match fn_args (function (b_config b)) with Auto => true | _ => false end | _ => false end.

Section Guarded.
  Context {H : Heck} (fuel : nat) (b : Bindings).
  Let c : Config := b_config b.
  Let le : string := LineEndingStyle_as_str (line_endings c).
  (** The text of a declaration, whatever layout a function gets. *)
  Definition some_layout (d : declaration) (t : string) : Prop :=
    match d with
    | AFunction f => exists l, text_alone b false (write_function_with_layout b f l) t
    | _ => alone fuel b false d t
    end.
  (** A member of a declaration, on a line indented by [sp]. *)
  Definition indented (sp : nat) : writer :=
    {| w_out := ""; w_spaces := [sp]; w_started := false; w_len := 0; w_lineno := 2; w_max := 0 |}.
  Definition member_text (sp : nat) (o : outcome prog) (t : string) : Prop :=
    exists p w, o = Done p /\ run (tab_width c) le p (indented sp) = Some w /\ w_out w = t.
  Definition enclosed (k t : string) : string := "#if " ++ k ++ le ++ t ++ le ++ "#endif".
End Guarded.
