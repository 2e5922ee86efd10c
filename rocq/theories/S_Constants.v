(** Specification of what is declared for the constants of the sources (C46). *)
Require Import Coq.Strings.String Coq.Strings.Ascii Coq.Lists.List Coq.Bool.Bool Coq.NArith.NArith Coq.ZArith.ZArith.
From Verif Require Import Base S_Lex M_Config M_Cfg S_Cfg M_Type M_Ir M_Item M_Attr M_Docs M_Syn S_Decl M_Loader M_Reserved M_Library M_Bindings M_Backend S_Library S_Names S_Parse S_Sources S_Signature
  S_Expr S_Literal S_Value S_File S_Shown S_Datatypes S_Enums.
Import ListNotations.
Open Scope string_scope.

(** ** In the sources *)
(** The name of the type an impl block is for *)
Fixpoint block_name (t : sty) : option string :=
  match t with
  | SPath (SegPath _ ident _) => Some (unraw ident)
  | SRef _ u | SPtr _ u => block_name u
  | _ => None
  end.
(** What [bitflags!] makes of the value [x] of a flag: a struct with one field;
    a value without other flags is kept. *)
Definition flag_value (b : sbitflags) (x value : sexpr) : Prop :=
  exists y, (forall e, x = syntax e -> y = x)
    /\ let v := XCast (XParen y) (bf_repr b) in
       value = XCall (XPath (SegPath [] (M_Loader.bf_name b) NoArgs)) [v] \/ value = XStruct (SegPath [] (M_Loader.bf_name b) NoArgs) [([], Named "bits", v)] None.
(** The public constants of an item; [self] is the type of the impl block. *)
Inductive source_constant : sitem -> option string -> attributes -> string -> sty -> sexpr -> Prop :=
| sc_item : forall attrs ident ty value, source_constant (ItemConst attrs true ident ty value) None attrs ident ty value
| sc_impl : forall own self_ty items self attrs ident ty value, block_name self_ty = Some self ->
    In (ImplConst attrs true ident ty value) items -> should_skip_parsing attrs = false ->
    source_constant (ItemImpl own self_ty items) (Some self) attrs ident ty value
| sc_flag : forall own m b attrs ident x value, In (attrs, ident, x) (bf_flags b) -> ident <> "_" -> should_skip_parsing attrs = false -> flag_value b x value ->
    source_constant (ItemMacro own m (Some b)) (Some (unraw (M_Loader.bf_name b))) attrs ident (SPath (SegPath [] (M_Loader.bf_name b) NoArgs)) value.

(** ** In the bindings *)
(** Names without parameters, and pointers to and arrays of them *)
Fixpoint argumentless (t : sty) : bool :=
  match t with
  | SPath (SegPath _ _ NoArgs) => true
  | SRef _ u | SPtr _ u | SArray u _ => argumentless u
  | _ => false
  end.
(** a struct literal with one field *)
Inductive one_field : sexpr -> sexpr -> Prop :=
| of_struct : forall p a m v rest, one_field (XStruct p [(a, m, v)] rest) v
| of_call : forall n g v, one_field (XCall (XPath (SegPath [] n g)) [v]) v.
(** [k] is what is declared for a constant of the sources. *)
Record constant_for (c : Config) (here : (atom -> bool) -> bool) (self : option string) (attrs : attributes) (ident : string) (ty : sty) (value : sexpr)
  (k : Constant) : Prop := {
  kf_path : c_path k = unraw ident ++ match self with Some s => s | None => "" end;
  kf_name : c_export_name k = match self with None => export_rename (export c) (unraw ident) | Some _ => unraw ident end;
  kf_self : c_associated_to k = self;
  kf_type : argumentless ty = true -> forall t, rust_type c (fun _ => None) self false false ty = Some t -> declarable c (c_ty k) = true /\ c_type c false (c_ty k) = t;
  kf_cfg : in_condition here attrs (c_cfg k);
  kf_annotations : AnnotationSet_load attrs = Some (c_annotations k);
  kf_documentation : c_documentation k = Documentation_load attrs;
  kf_number : same_number c (Some value) (Some (M_Ir.c_value k));
  kf_field : forall v, one_field value v -> exists path e f l g, M_Ir.c_value k = LStruct path e [(f, (l, g))] /\ same_number c (Some v) (Some l) }.
(** Every constant of the bindings is one of the sources; those that are kept
    with a struct are from an impl block, or [bitflags!], for it. *)
Record constants_from_sources {H : Heck} (c : Config) (vss : list (list visit)) (rs : list reading) (b : Bindings) : Prop := {
  ks_free : forall k, In k (b_constants b) -> exists v i self attrs ident ty value,
    item_read vss rs v i /\ source_constant i self attrs ident ty value /\ constant_for c (module_holds v) self attrs ident ty value k;
  ks_structs : forall s k, In (ICStruct s) (b_items b) -> In k (s_associated_constants s) -> instance_path c (s_path s) \/ exists v i attrs ident ty value,
    item_read vss rs v i /\ source_constant i (Some (s_path s)) attrs ident ty value /\ constant_for c (module_holds v) (Some (s_path s)) attrs ident ty value k }.

(** ** In the text *)
(** Its name: that of the type comes first. *)
Definition free_constant_name (c : Config) (self : option string) (ident : string) : string :=
  match self with
  | None => export_rename (export c) (unraw ident)
  | Some s => export_rename (export c) s ++ "_" ++ unraw ident
  end.
Definition in_body (c : Config) (s : Struct) : bool :=
  match language c with Cxx => st_associated_constants_in_body (structure c) && co_allow_static_const (M_Config.constant c) && negb (s_is_transparent s) | _ => false end.
Definition struct_constant_name {H : Heck} (c : Config) (s : Struct) (ident : string) : option string :=
  if in_body c s then Some (s_export_name s ++ "::" ++ unraw ident)
  else let? rule := rule_or (s_annotations s) "rename-associated-constant" (st_rename_associated_constant (structure c)) in
       Some (RenameRule_apply rule (s_export_name s) IType ++ "_" ++ unraw ident).
(** A macro in C, and in C++ if nothing else is allowed *)
Definition as_macro (c : Config) : bool :=
  match language c with Cxx => negb (co_allow_constexpr (M_Config.constant c)) && negb (co_allow_static_const (M_Config.constant c)) | _ => true end.
Definition one_line (s : string) : bool := negb (contains_char "010"%char s) && negb (contains_char "013"%char s).
Definition says_constant (c : Config) (types : string -> bool) (self : option string) (name : string) (inline : bool) (ty : sty) (x : cexpr) : list piece :=
  if as_macro c then [fun s => exists v, s = "#define " ++ name ++ " " ++ v /\ one_line v = true /\ reads c types (Some x) v]
  else (only (co_allow_constexpr (M_Config.constant c)) [say "constexpr"]
        ++ only (co_allow_static_const (M_Config.constant c)) [say (if inline then "inline" else "static")]
        ++ only (match ty with SRef false _ | SPtr false _ => false | _ => true end) [say "const"]
        ++ [fun s => argumentless ty = true -> says c (fun _ => None) self name ty s; say "="; reads c types (Some x); say ";"])%list.
(** In the conditions of its module and its own *)
Definition in_conditions (q : option pexp) (inside : list piece) : list piece :=
  match q with Some q => ([say "#if"; reads_condition q] ++ inside ++ [say "#endif"])%list | None => inside end.
Definition condition_for (c : Config) (gs : list Cfg) (attrs : attributes) (q : option pexp) : Prop :=
  forall rho mu, defines_agree c rho mu -> Forall (known c) gs -> known_opt c (Cfg_of_attrs attrs) ->
  match q with Some q => peval mu q | None => true end = guards_hold rho gs && attrs_hold rho attrs.
(** The text [t] declares the constant with the value it has in Rust, if that
    is a number [x] that can be written in C and fits the types C computes it in. *)
Definition number_written (b : Bindings) (c : Config) (types : string -> bool) (names : string -> option (rtype * Z)) (c_names : string -> option (itype * Z))
  (gs : list Cfg) (self : option string) (name : option string) (inline : bool) (attrs : attributes) (ty : sty) (value : sexpr) (t : string) : Prop :=
  forall x u z, value = syntax x -> rust_value names x = Some (u, z) -> kept_in_c c names c_names x ->
  writable (fun n => value_word types (export_rename (export c) n) = true) x ->
  exists n q e k before s after, name = Some n /\ condition_for c gs attrs q /\ c_value c_names e = Some (k, z) /\ t = before ++ s ++ after
    /\ made_of s (in_conditions q (documented b (Documentation_load attrs) ++ says_constant c types self n inline ty e)).
Record constants_written {H : Heck} (c : Config) (types : string -> bool) (names : string -> option (rtype * Z)) (c_names : string -> option (itype * Z))
  (vss : list (list visit)) (rs : list reading) (b : Bindings) (t : string) : Prop := {
  kw_free : forall k, In k (b_constants b) -> exists v i self attrs ident ty value,
    item_read vss rs v i /\ source_constant i self attrs ident ty value /\ c_path k = unraw ident ++ match self with Some s => s | None => "" end
    /\ number_written b c types names c_names (vi_guards v) self (Some (free_constant_name c self ident)) false attrs ty value t;
  kw_structs : forall s k, In (ICStruct s) (b_items b) -> kept (s_annotations s) = true -> s_generic_params s = [] -> In k (s_associated_constants s) ->
    instance_path c (s_path s) \/ exists v i attrs ident ty value,
      item_read vss rs v i /\ source_constant i (Some (s_path s)) attrs ident ty value /\ c_path k = unraw ident ++ s_path s
      /\ number_written b c types names c_names (vi_guards v) (Some (s_path s)) (struct_constant_name c s ident) (in_body c s) attrs ty value t }.
