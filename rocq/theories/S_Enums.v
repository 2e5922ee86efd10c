(** Specification of what is declared for the enums of the sources, and of the
    numbers of their variants in Rust and in C (C45). *)
Require Import Coq.Strings.String Coq.Lists.List Coq.Bool.Bool Coq.NArith.NArith Coq.ZArith.ZArith.
From Verif Require Import Base S_Lex M_Config M_Cfg S_Cfg M_Type M_Ir M_Item M_Attr M_Docs M_Syn S_Decl M_Loader M_Reserved M_Library M_Bindings M_Backend S_Library S_Names S_Parse S_Sources S_Signature
  S_Expr S_Literal S_Value S_File S_Shown S_Datatypes.
Import ListNotations.
Open Scope string_scope.

(** ** Names *)
(** A variant is declared under its name in Rust; before it comes the name of
    the enum if the annotation [prefix-with-name] or the configuration asks for
    it; the whole is changed as the annotation [rename-all] or the
    configuration asks. *)
Definition joined (c : Config) (a b : string) : string := a ++ (if remove_underscores (ex_mangle (export c)) then "" else "_") ++ b.
Definition prefixed (c : Config) (ann : AnnotationSet) : bool :=
  match an_bool ann "prefix-with-name" with Some b => b | None => en_prefix_with_name (enumeration c) end.
Definition variant_name {H : Heck} (c : Config) (ann : AnnotationSet) (enum_name n : string) : option string :=
  let? rule := rule_or ann "rename-all" (en_rename_variants (enumeration c)) in
  let n := if prefixed c ann then joined c enum_name (escape_str n) else escape_str n in
  Some (match rule with RNone => n | r => RenameRule_apply r n (IEnumVariant enum_name) end).
(** The member that holds the data of a variant: [given] are the annotations in
    the sources, [ann] those of the enum in the end. *)
Definition member_name {H : Heck} (c : Config) (given : AnnotationSet) (n : string) : option string :=
  let? rule := rule_or given "rename-variant-name-fields" (en_rename_variant_name_fields (enumeration c)) in
  Some (RenameRule_apply rule n StructMember).
Definition final_member {H : Heck} (c : Config) (ann : AnnotationSet) (n : string) : option string :=
  let? rule := rule_or ann "rename-all" (en_rename_variants (enumeration c)) in
  Some (match rule with RNone => escape_str n | r => RenameRule_apply r (escape_str n) StructMember end).
(** What comes after the variants of the sources *)
Definition extra_names (c : Config) (given : AnnotationSet) : list string :=
  ((match an_list given "enum-trailing-values" with Some l => l | None => [] end)
   ++ (if match an_bool given "add-sentinel" with Some b => b | None => en_add_sentinel (enumeration c) end then ["Sentinel"] else []))%list.

(** ** The data of variants *)
(** The fields that are declared; one without a name is known by its position,
    and the only field of a variant, in C and Cython, by the variant's name. *)
Fixpoint variant_members (only_name : option string) (position : nat) (l : list sfield) : list (string * sfield) :=
  match l with
  | [] => []
  | f :: r =>
      let rest := variant_members only_name (S position) r in
      if sizeless (sf_ty f) then rest
      else (match only_name with Some n => n | None => match sf_ident f with Some i => unraw i | None => decimal (N.of_nat position) end end, f) :: rest
  end.
Definition is_tuple (f : sfields) : bool := match f with FieldsUnnamed _ => true | _ => false end.
Definition source_fields (f : sfields) : list sfield := match f with FieldsUnit => [] | FieldsNamed l | FieldsUnnamed l => l end.
Definition has_data (v : svariant) : bool := match sv_fields v with FieldsUnit => false | _ => true end.
(** data that is written in place, without a struct of its own *)
Definition in_place (c : Config) (f : sfields) : bool := is_tuple f && Nat.eqb (length (source_fields f)) 1 && negb (Language_eqb (language c) Cxx).

(** [s] holds the data of the variant [v] of the enum [self]: the tag, unless
    the tag is outside of the union, and all fields, in order. *)
Record body_for {H : Heck} (c : Config) (keyword : string -> option DeclarationType) (self : string) (prefix : option string) (tag : option string) (member : string)
  (params : GenericParams) (v : svariant) (s : Struct) : Prop := {
  bf_params : s_generic_params s = params;
  bf_name : s_export_name s = (let n := if is_some tag && Language_eqb (language c) Cxx then sv_ident v ++ "_Body" else export_rename (export c) (sv_ident v ++ "_Body") in
                               match prefix with Some p => joined c p n | None => n end);
  bf_fields : parameters_kept c params -> exists a names tags fs,
    let inside := if in_place c (sv_fields v) then Some member else None in
    let ms := variant_members inside 0 (source_fields (sv_fields v)) in
    let tag_names := match tag with Some _ => [match inside with Some n => n ++ "_tag" | None => "tag" end] | None => [] end in
    AnnotationSet_load (sv_attrs v) = Some a
    /\ field_names c a (tag_names ++ map fst ms) = Some names
    /\ s_fields s = (tags ++ fs)%list
    /\ length tags = length tag_names
    /\ map fd_name tags = map escape_str (firstn (length tags) names)
    /\ Forall (fun f => Some (fd_ty f) = option_map (fun t => TPath (GenericPath_new t [])) tag /\ fd_cfg f = None) tags
    /\ fields_for c keyword self (map escape_str (skipn (length tags) names)) ms fs }.

(** ** Numbers *)
(** In Rust a variant has the number its discriminant says, else one more than
    the variant before it, the first one 0; variants that are left out do not
    count. *)
Local Open Scope Z_scope.
Fixpoint rust_numbers (names : string -> option (rtype * Z)) (next : Z) (l : list (bool * option rexpr)) : option (list (option Z) * Z) :=
  match l with
  | [] => Some ([], next)
  | (false, _) :: r => let? (zs, n) := rust_numbers names next r in Some (None :: zs, n)
  | (true, d) :: r =>
      let? z := match d with None => Some next | Some x => option_map snd (rust_value names x) end in
      let? (zs, n) := rust_numbers names (z + 1) r in Some (Some z :: zs, n)
  end.
(** In C the same holds of the enumerators the preprocessor leaves (6.7.2.2). *)
Record enumerator := {
  er_condition : option pexp;
  er_docs : Documentation;
  er_name : string;
  er_note : option string;
  er_value : option (option cexpr) }.                     (* [Some None]: a value nothing is known about *)
Definition present (mu : string -> bool) (m : enumerator) : bool := match er_condition m with Some q => peval mu q | None => true end.
Fixpoint c_numbers (names : string -> option (itype * Z)) (mu : string -> bool) (next : Z) (l : list enumerator) : option (list (option Z)) :=
  match l with
  | [] => Some []
  | m :: r =>
      if present mu m then
        let? z := match er_value m with
                  | None => Some next
                  | Some None => None
                  | Some (Some x) => option_map snd (c_value names x)
                  end in
        let? zs := c_numbers names mu (z + 1) r in Some (Some z :: zs)
      else let? zs := c_numbers names mu next r in Some (None :: zs)
  end.
Fixpoint counted (next : Z) (n : nat) : list (option Z) := match n with O => [] | S n => Some next :: counted (next + 1) n end.

(** The constants a discriminant uses: C knows each, under the name it has
    there, with the value it has in Rust. *)
Definition c_name_of (c : Config) (c_names : string -> option (itype * Z)) (x : string) : option (itype * Z) := leaf_value c_names (export_rename (export c) x).
Definition constants_known (c : Config) (names : string -> option (rtype * Z)) (c_names : string -> option (itype * Z)) : Prop :=
  forall x t v, names x = Some (t, v) -> valid t v /\ exists k, c_name_of c c_names x = Some (k, v).
Fixpoint names_in (e : rexpr) : list string :=
  match e with
  | RName x => [x]
  | RParen x | RNeg x | RNot x | RCast x _ => names_in x
  | RArith _ a b | RBits _ a b | RShl a b | RShr a b | RCompare _ a b | RAnd a b | ROr a b => (names_in a ++ names_in b)%list
  | _ => []
  end.
(** no character beyond Latin-1, and no least number of an unsigned type, for
    which C has no name *)
Fixpoint narrow (e : rexpr) : Prop :=
  match e with
  | RCharLit n => (n <= 255)%N
  | RLimit s w m => m = true \/ s = true
  | RParen x | RNeg x | RNot x | RCast x _ => narrow x
  | RArith _ x y | RBits _ x y | RShl x y | RShr x y | RCompare _ x y | RAnd x y | ROr x y => narrow x /\ narrow y
  | _ => True
  end.
Definition kept_in_c (c : Config) (names : string -> option (rtype * Z)) (c_names : string -> option (itype * Z)) (x : rexpr) : Prop :=
  fits names (c_name_of c c_names) x /\ narrow x /\ Forall free_name (names_in x).
(** Its number as C computes it *)
Definition same_number (c : Config) (v : option sexpr) (d : option Literal) : Prop :=
  match v, d with
  | None, None => True
  | Some e, Some l => forall x names c_names t z, e = syntax x -> constants_known c names c_names -> rust_value names x = Some (t, z) ->
      kept_in_c c names c_names x -> forall fuel b, exists k, c_value c_names (tree fuel b l) = Some (k, z)
  | _, _ => False
  end.

(** ** Enums *)
Record variant_for {H : Heck} (c : Config) (keyword : string -> option DeclarationType) (here : (atom -> bool) -> bool) (given ann : AnnotationSet)
  (self enum_name : string) (style : ReprStyle) (tag : option string) (params : GenericParams) (v : svariant) (x : EnumVariant) : Prop := {
  vf_name : variant_name c ann enum_name (unraw (sv_ident v)) = Some (v_export_name x);
  vf_cfg : in_condition here (sv_attrs v) (v_cfg x);
  vf_documentation : v_documentation x = Documentation_load (sv_attrs v);
  vf_deprecated : exists a, AnnotationSet_load (sv_attrs v) = Some a /\ an_deprecated (VariantBody_annotations (v_body x)) = an_deprecated a;
  vf_number : same_number c (sv_discriminant v) (v_discriminant x);
  vf_body : match v_body x with
            | VEmpty _ => has_data v = false
            | VBody n s inside _ =>
                has_data v = true /\ inside = in_place c (sv_fields v)
                /\ exists member, member_name c given (unraw (sv_ident v)) = Some member /\ final_member c ann member = Some n
                   /\ (style <> ReprTransparent ->
                       body_for c keyword self (if prefixed c ann then Some enum_name else None) (match style with ReprC => None | _ => tag end) member params v s)
            end }.
Record extra_for {H : Heck} (c : Config) (ann : AnnotationSet) (enum_name : string) (n : string) (x : EnumVariant) : Prop := {
  xf_name : variant_name c ann enum_name n = Some (v_export_name x);
  xf_rest : v_discriminant x = None /\ v_cfg x = None /\ v_body x = VEmpty AnnotationSet_new }.
Record enum_for {H : Heck} (c : Config) (keyword : string -> option DeclarationType) (here : (atom -> bool) -> bool)
  (attrs : attributes) (ident : string) (generics : list sgparam) (vs : list svariant) (e : Enum) : Prop := {
  ef_path : e_path e = unraw ident;
  ef_name : e_export_name e = export_rename (export c) (unraw ident);
  ef_params : GenericParams_load generics = Some (e_generic_params e);
  ef_cfg : in_condition here attrs (e_cfg e);
  ef_documentation : e_documentation e = Documentation_load attrs;
  ef_repr : Repr_load attrs = Some (e_repr e) /\ rp_align (e_repr e) = None /\ (rp_style (e_repr e) = ReprRust -> rp_ty (e_repr e) <> None);
  ef_tag : e_tag e = if existsb has_data vs then Some (if Language_eqb (language c) Cxx then "Tag" else e_export_name e ++ "_Tag") else None;
  ef_variants : exists given own extra, AnnotationSet_load attrs = Some given /\ e_variants e = (own ++ extra)%list
    /\ Forall2 (variant_for c keyword here given (e_annotations e) (unraw ident) (e_export_name e) (rp_style (e_repr e)) (e_tag e) (e_generic_params e)) vs own
    /\ Forall2 (extra_for c (e_annotations e) (e_export_name e)) (extra_names c given) extra }.
(** Every enum of the bindings is one of the sources, or an instance of one. *)
Definition enums_from_sources {H : Heck} (c : Config) (keyword : string -> option DeclarationType) (vss : list (list visit)) (rs : list reading) (b : Bindings) : Prop :=
  forall e, In (ICEnum e) (b_items b) -> instance_path c (e_path e) \/
    exists v attrs ident generics vs, item_read vss rs v (ItemEnum attrs ident generics vs)
      /\ enum_for c keyword (module_holds v) attrs ident generics vs e.

(** ** In the text *)
Definition reads_condition (q : pexp) : piece := fun s => read_condition false s = Some q.
Definition reads (c : Config) (types : string -> bool) (o : option cexpr) : piece := fun s =>
  match o with
  | None => True
  | Some x => exists tokens, Lexes s tokens /\ operand types (pointer_words (dialect_of c)) (Language_eqb (language c) Cxx) tokens x
  end.
Definition says_enumerator (b : Bindings) (types : string -> bool) (m : enumerator) : list piece :=
  let inside := (documented b (er_docs m) ++ [say (er_name m)] ++ with_note (er_note m)
                 ++ opt (er_value m) (fun x => [say "="; reads (b_config b) types x]) ++ [say ","])%list in
  match er_condition m with
  | Some q => ([say "#if"; reads_condition q] ++ inside ++ [say "#endif"])%list
  | None => inside
  end.

(** The configuration knows all of a condition, and [mu] and [rho] agree on it. *)
Definition known (c : Config) (g : Cfg) : Prop :=
  (forall a, In a (atoms g) -> exists k m, In (k, m) (defines c) /\ denotes k a) /\ no_empty g = true.
Definition known_opt (c : Config) (g : option Cfg) : Prop := match g with Some g => known c g | None => True end.
Definition defines_agree (c : Config) (rho : atom -> bool) (mu : string -> bool) : Prop :=
  forall k m a, In (k, m) (defines c) -> denotes k a -> mu m = rho a.

Record enumerator_for {H : Heck} (c : Config) (ann : AnnotationSet) (enum_name : string) (gs : list Cfg) (v : svariant) (m : enumerator) : Prop := {
  mf_condition : forall rho mu, defines_agree c rho mu -> Forall (known c) gs -> known_opt c (Cfg_of_attrs (sv_attrs v)) ->
    present mu m = guards_hold rho gs && attrs_hold rho (sv_attrs v);
  mf_docs : er_docs m = Documentation_load (sv_attrs v);
  mf_name : variant_name c ann enum_name (unraw (sv_ident v)) = Some (er_name m);
  mf_note : exists a, AnnotationSet_load (sv_attrs v) = Some a /\ er_note m = deprecated_note c NEnumVariant a;
  mf_value : is_some (er_value m) = is_some (sv_discriminant v) }.
Record extra_enumerator {H : Heck} (c : Config) (ann : AnnotationSet) (enum_name : string) (n : string) (m : enumerator) : Prop := {
  xm_name : variant_name c ann enum_name n = Some (er_name m);
  xm_rest : er_condition m = None /\ er_note m = None /\ er_value m = None }.
(** The text [t] has, between braces, one enumerator for each variant of the
    sources, in order, and the extra ones; and nothing else there. *)
Record says_enumerators {H : Heck} (b : Bindings) (types : string -> bool) (given ann : AnnotationSet) (enum_name : string) (gs : list Cfg) (vs : list svariant)
  (own extra : list enumerator) (t : string) : Prop := {
  se_text : exists before s after, t = before ++ s ++ after
    /\ made_of s (say "{" :: flat_map (says_enumerator b types) (own ++ extra) ++ [fun x => exists r, x = ("}" ++ r)%string])%list;
  se_own : Forall2 (enumerator_for (b_config b) ann enum_name gs) vs own;
  se_extra : Forall2 (extra_enumerator (b_config b) ann enum_name) (extra_names (b_config b) given) extra }.
(** The discriminants [ds] of the sources keep their numbers: if the module
    exists, C counts as Rust does, and the extra ones come after that. *)
Definition numbers_kept (c : Config) (names : string -> option (rtype * Z)) (c_names : string -> option (itype * Z)) (gs : list Cfg)
  (vs : list svariant) (ds : list (option rexpr)) (own extra : list enumerator) : Prop :=
  forall rho mu zs next, defines_agree c rho mu -> Forall (known c) gs -> Forall (fun v => known_opt c (Cfg_of_attrs (sv_attrs v))) vs -> guards_hold rho gs = true ->
  rust_numbers names 0 (combine (map (fun v => attrs_hold rho (sv_attrs v)) vs) ds) = Some (zs, next) ->
  c_numbers c_names mu 0 (own ++ extra) = Some (zs ++ counted next (length extra))%list.

(** Every enum of the bindings is in the text with the enumerators of its
    source; where its discriminants [ds] can be written in C and fit the types
    C computes them in, with the same numbers. *)
Definition enums_written {H : Heck} (c : Config) (types : string -> bool) (names : string -> option (rtype * Z)) (c_names : string -> option (itype * Z))
  (vss : list (list visit)) (rs : list reading) (b : Bindings) (t : string) : Prop :=
  forall e, In (ICEnum e) (b_items b) -> kept (e_annotations e) = true -> instance_path c (e_path e) \/
    exists v attrs ident generics vs given, item_read vss rs v (ItemEnum attrs ident generics vs) /\ AnnotationSet_load attrs = Some given
      /\ e_export_name e = export_rename (export c) (unraw ident)
      /\ (exists own extra, says_enumerators b types given (e_annotations e) (e_export_name e) (vi_guards v) vs own extra t)
      /\ forall ds, Forall2 (fun v d => sv_discriminant v = option_map syntax d) vs ds ->
         Forall (fun d => forall x, d = Some x -> kept_in_c c names c_names x
                   /\ writable (fun n => value_word types (export_rename (export c) n) = true) x) ds ->
         exists own extra, says_enumerators b types given (e_annotations e) (e_export_name e) (vi_guards v) vs own extra t
           /\ numbers_kept c names c_names (vi_guards v) vs ds own extra.
