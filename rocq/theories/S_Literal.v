(** Specification: the C expression that stands for a constant's value, and
    which values C can express. *)
Require Import Coq.Strings.String Coq.Lists.List Coq.Bool.Bool.
From Verif Require Import Base S_Lex M_Config M_Type M_Ir M_Cfg M_Library M_Bindings M_Literal S_Decl S_Expr.
Import ListNotations.
Open Scope string_scope.

Section Meaning.
  Variables (fuel : nat) (b : Bindings).
  Let c : Config := b_config b.
  (** the names that stand for types *)
  Variable types : string -> bool.

  (** The name a path is written with. *)
  Definition written_name (associated_to : option (string * string)) (name : string) : string :=
    match associated_to with
    | None => name
    | Some (path, export_name) =>
        match to_known_assoc_constant path name with
        | Some known => known
        | None => match enum_variant_reference b path name with
                  | Some variant => variant
                  | None => export_name ++ (if Language_eqb (language c) Cxx && st_associated_constants_in_body (structure c) then "::" else "_") ++ name
                  end
        end
    end.

  (** The fields of a struct in the order of its definition, with their values.
      C names each field; C++ goes by the order. *)
  Definition in_order (order : list string) (values : list (string * cexpr)) : list (option string * cexpr) :=
    filter_map (fun k => option_map (pair (if Language_eqb (language c) Cxx then None else Some k)) (lookup k values)) order.
  (** Which field each value goes to: the named one, else the one after the
      previous value's (C17 6.7.9 (17)); none if there are too many values. *)
  Fixpoint after_field (f : string) (order : list string) : list string :=
    match order with [] => [] | k :: r => if String.eqb k f then r else after_field f r end.
  Fixpoint assigned (all order : list string) (items : list (option string * cexpr)) : option (list (string * cexpr)) :=
    match items with
    | [] => Some []
    | (Some f, x) :: r => option_map (cons (f, x)) (assigned all (after_field f all) r)
    | (None, x) :: r => match order with k :: o => option_map (cons (k, x)) (assigned all o r) | [] => None end
    end.
  Definition order_of (path : string) : list string := match field_order fuel b path with Done o => o | _ => [] end.

  Fixpoint tree (l : Literal) : cexpr :=
    match l with
    | LExpr s => CLeaf s
    | LPath a n => CLeaf (written_name a n)
    | LUnary op v => CUn op (tree v)
    | LBin x op y => CBin op (tree x) (tree y)
    | LField v f => CDot (tree v) f
    | LCast t v => CCast (c_type c false t) (tree v)
    | LArray items => CBraces None (map (fun x => (None, tree x)) items)
    | LStruct path export_name fields =>
        CBraces (Some (CName false None [export_name] []))
          (in_order (order_of path) (map (fun f => (fst f, tree (fst (snd f)))) fields))
    end.

  (** A word that neither stands for a type nor starts one. *)
  Definition value_word (w : string) : bool :=
    S_Lex.is_ident w && negb (mem_str w ("const" :: tag_words ++ specifier_words)) && negb (types w).
  Definition value_name (s : string) : Prop := value_word s = true \/ (exists w ws, ws <> [] /\ Forall (fun x => S_Lex.is_ident x = true) (w :: ws) /\ s = qualified_name (w :: ws)).
  (** Casts are to numbers, named types and pointers to these. *)
  Definition type_word (w : string) : bool := S_Lex.is_ident w && negb (mem_str w (("const" :: tag_words ++ specifier_words) ++ pointer_words (dialect_of c))).
  Fixpoint cast_type (t : Ty) : bool :=
    match t with
    | TPtr u _ _ is_ref => cast_type u && negb is_ref
    | TPath (GPath _ name args k) => type_word name && (match tag_of c k with None => types name | Some _ => true end) && is_nil args
    | TPrim PVaList => false
    | TPrim p => forallb (fun w => mem_str w specifier_words || (types w && type_word w)) (primitive c p)
    | _ => false
    end.
  Definition starts_with_minus (l : Literal) : bool := match l with LUnary op _ => String.eqb op "-" | _ => false end.

  Section Fields.
    Variable ok : Literal -> Prop.
    Fixpoint all_ok (l : list Literal) : Prop := match l with [] => True | x :: r => ok x /\ all_ok r end.
    Fixpoint fields_ok (l : list (string * (Literal * option Cfg))) : Prop :=
      match l with [] => True | (_, (x, _)) :: r => ok x /\ fields_ok r end.
  End Fields.
  (** [braces]: may a list in braces stand here? *)
  Fixpoint expressible (braces : bool) (l : Literal) : Prop :=
    match l with
    | LExpr s => is_number s = true \/ is_character s = true \/ value_word s = true
    | LPath a n => value_name (written_name a n)
    | LUnary op v => (op = "-" \/ op = "~") /\ expressible false v /\ (op = "-" -> starts_with_minus v = false)
    | LBin x op y => level op <> None /\ expressible false x /\ expressible false y
    | LField v f => S_Lex.is_ident f = true /\ expressible false v
    | LCast t v => cast_type t = true /\ expressible false v
    | LArray items => braces = true /\ all_ok (expressible true) items
    | LStruct path export_name fields =>
        type_word export_name = true /\ (language c = M_Config.C -> types export_name = true)
        /\ (exists order, field_order fuel b path = Done order
              /\ Forall (fun k => S_Lex.is_ident k = true /\ exists v cfg, lookup k fields = Some (v, cfg)
                                  /\ (literal_is_constexpr b l = true -> to_condition_opt (defines c) cfg = None)) order)
        /\ fields_ok (expressible true) fields
    end.
End Meaning.
