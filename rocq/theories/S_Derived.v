(** Which methods C++ classes get, and what each of them is for. *)
Require Import Coq.Strings.String Coq.Lists.List Coq.Bool.Bool.
From Verif Require Import Base S_Lex M_Config M_Type M_Ir M_Item M_Library M_Backend S_File S_Shown S_Expr S_Method.
Import ListNotations.
Open Scope string_scope.

(** ** Names *)
(** Words of C++ that mean something in the methods below. *)
Definition reserved : list string := ["true"; "false"; "this"; "return"; "break"; "if"; "switch"; "case"; "default"].
Definition plain_name (n : string) : bool := S_Lex.is_ident n && negb (mem_str n reserved).
(** The parameter of the methods that take another object of the class. *)
Definition other_name {H : Heck} (c : Config) : string := RenameRule_apply (fn_rename_args (function c)) "other" FunctionArg.

(** ** Comparisons of structs *)
(** [de_every]: does it hold of every field, or of some field?  [de_ordered]:
    does it take an order, or only equality? *)
Record derived := { de_name : string; de_op : string; de_default : StructConfig -> bool; de_every : bool; de_ordered : bool }.
Definition derived_operators : list derived :=
  [{| de_name := "derive-eq"; de_op := "=="; de_default := st_derive_eq; de_every := true; de_ordered := false |};
   {| de_name := "derive-neq"; de_op := "!="; de_default := st_derive_neq; de_every := false; de_ordered := false |};
   {| de_name := "derive-lt"; de_op := "<"; de_default := st_derive_lt; de_every := true; de_ordered := true |};
   {| de_name := "derive-lte"; de_op := "<="; de_default := st_derive_lte; de_every := true; de_ordered := true |};
   {| de_name := "derive-gt"; de_op := ">"; de_default := st_derive_gt; de_every := true; de_ordered := true |};
   {| de_name := "derive-gte"; de_op := ">="; de_default := st_derive_gte; de_every := true; de_ordered := true |}].
(** Arrays cannot be compared, nor references to them. *)
Fixpoint equated (t : Ty) : Prop :=
  match t with TArray _ _ => False | TPtr u _ _ true => equated u | _ => True end.
Definition ordered (t : Ty) : Prop :=
  match t with TPath _ | TPtr _ _ _ false => True | TPrim p => p <> PBool | _ => False end.
(** The annotation decides, then the configuration. *)
Definition wanted (a : AnnotationSet) (name : string) (default : bool) : bool := match an_bool a name with Some x => x | None => default end.
Definition operator_for (c : Config) (s : Struct) (d : derived) : Prop :=
  wanted (s_annotations s) (de_name d) (de_default d (structure c)) = true
  /\ if de_ordered d then exists f, s_fields s = [f] /\ ordered (fd_ty f)
     else s_fields s <> [] /\ Forall (fun f => equated (fd_ty f)) (s_fields s).
(** The fields: the tag of the data of a variant is compared with the whole. *)
Definition compared_fields (s : Struct) : list string := map fd_name (if s_has_tag_field s then tl (s_fields s) else s_fields s).
Definition operator_head (op class other : string) : list etok :=
  [Id "bool"; Id "operator"; Op op; Op "("; Id "const"; Id class; Op "&"; Id other; Op ")"; Id "const"].
(** The structs declared as such: those of the bindings and those of the variants. *)
Definition struct_declared (b : Bindings) (s : Struct) : Prop :=
  In (AnItem (ICStruct s)) (definitions b) /\ as_typedef s = None
  \/ exists e v n only_field, In (AnItem (ICEnum e)) (definitions b) /\ e_tag e <> None /\ In v (e_variants e) /\ v_body v = VBody n s false only_field.
(** How the members [f] of two objects compare. *)
Definition member_compares (W : world) (op : string) (self x : wo_value W) (f : string) (r : bool) : Prop :=
  exists a b, wo_member W self f = Some a /\ wo_member W x f = Some b /\ wo_compare W op a b = Some r.

(** ** Operators of flags *)
Definition const_words (c : Config) : list etok := if co_allow_constexpr (constant c) then [Id "constexpr"] else [].
Definition binary_head (op class other : string) : list etok :=
  [Id class; Id "operator"; Op op; Op "("; Id "const"; Id class; Op "&"; Id other; Op ")"; Id "const"].
Definition assign_head (op class other : string) : list etok :=
  [Id class; Op "&"; Id "operator"; Op (op ++ "="); Op "("; Id "const"; Id class; Op "&"; Id other; Op ")"].

(** ** Enums with data *)
Definition enumerator (e : Enum) (v : EnumVariant) : string := tag_name e ++ "::" ++ v_export_name v.
(** [t] is the value of the enumerator of [v], and of no other. *)
Definition tag_of (W : world) (e : Enum) (t : wo_value W) (v : EnumVariant) : Prop :=
  forall w, In w (e_variants e) -> exists k, wo_named W (enumerator e w) = Some k
    /\ wo_compare W "==" t k = Some (String.eqb (v_export_name w) (v_export_name v)).
(** Nothing of the enum depends on a condition. *)
Definition unconditional (c : Config) (e : Enum) : Prop := Forall (fun v => M_Cfg.to_condition_opt (defines c) (v_cfg v) = None) (e_variants e).
(** The names are those of C++: every variant has its own, and neither the tag
    nor the data of a variant is called like the parameter of the methods. *)
Definition enum_named {H : Heck} (c : Config) (e : Enum) : Prop :=
  S_Lex.is_ident (tag_name e) = true /\ S_Lex.is_ident (e_export_name e) = true /\ NoDup (map v_export_name (e_variants e))
  /\ plain_name (other_name c) = true /\ other_name c <> "tag"
  /\ Forall (fun v => S_Lex.is_ident (v_export_name v) = true
       /\ match v_body v with
          | VBody n s _ _ => plain_name n = true /\ n <> other_name c /\ S_Lex.is_ident (s_export_name s) = true
          | VEmpty _ => True
          end) (e_variants e).
Definition enum_equated (e : Enum) : Prop :=
  Forall (fun v => match v_body v with
                   | VBody _ s _ _ => s_fields s <> [] /\ Forall (fun f => equated (fd_ty f)) (s_fields s)
                   | VEmpty _ => True
                   end) (e_variants e).
Definition data_name (v : EnumVariant) : option string := match v_body v with VBody n _ _ _ => Some n | VEmpty _ => None end.
Definition is_head (v : EnumVariant) : list etok := [Id "bool"; Id ("Is" ++ v_export_name v); Op "("; Op ")"; Id "const"].
Definition destructor_head (class : string) : list etok := [Op "~"; Id class; Op "("; Op ")"].
Definition copy_head (class other : string) : list etok :=
  [Id class; Op "("; Id "const"; Id class; Op "&"; Id other; Op ")"; Op ":"; Id "tag"; Op "("; Id other; Op "."; Id "tag"; Op ")"].
