(** Which constants and statics of the sources are bound: all that are public (or
    exported), of a type and with a value that can be said in a header. *)
Require Import Coq.Strings.String Coq.Lists.List Coq.Bool.Bool.
From Verif Require Import Base M_Config M_Cfg S_Cfg M_Type M_Ir M_Item M_Attr M_Syn M_Library M_Bindings M_Loader M_Parser S_Parse S_Library S_Sources S_Datatypes
  S_Constants.
Import ListNotations.
Open Scope string_scope.

(** A type made of names without arguments, references, pointers and arrays *)
Fixpoint plain_length (e : sexpr) : bool :=
  match e with
  | XLit (LitInt _ _) | XLit (LitByte _) | XLit (LitChar _) | XLit (LitBool _) => true
  | XPath (SegPath _ _ NoArgs) => true
  | XCast x _ => plain_length x
  | _ => false
  end.
Fixpoint plain_type (t : sty) : bool :=
  match t with
  | SRef _ u | SPtr _ u => plain_type u
  | SPath (SegPath _ ident NoArgs) => negb (String.eqb (unraw ident) "PhantomData") && negb (String.eqb (unraw ident) "PhantomPinned")
  | SArray u len => plain_type u && plain_length len
  | _ => false
  end.
(** A value made of literals, names, operators, fields, casts, arrays and structs;
    no method is called, nothing is dereferenced. *)
Fixpoint plain_value (e : sexpr) : bool :=
  match e with
  | XBinary _ a b => plain_value a && plain_value b
  | XLit LitOther => false
  | XLit _ => true
  | XField x _ | XParen x => plain_value x
  | XUnary op x => match op with Deref => false | _ => plain_value x end
  | XCall (XPath (SegPath [] _ _)) args => forallb plain_value args
  | XCall _ _ => false
  | XStruct _ fields _ => forallb (fun f => plain_value (snd f)) fields
  | XPath (SegPath before _ _) => Nat.leb (length before) 1
  | XCast x t => plain_value x && plain_type t
  | XArray xs => forallb plain_value xs
  | XMethod _ _ _ | XOther => false
  end.

(** An item has a condition of its own or from the modules around it. *)
Definition conditional_item (v : visit) (attrs : attributes) : Prop := Cfg_append (Cfg_join (vi_guards v)) (Cfg_of_attrs attrs) <> None.
(** Of the constants with the name [n] there is only the one of [i], or all have conditions. *)
Definition constant_alone (vss : list (list visit)) (rs : list reading) (v : visit) (i : sitem) (n : string) : Prop :=
  let others (P : visit -> sitem -> attributes -> Prop) :=
    forall v' i' self attrs ident ty value, item_read vss rs v' i' -> source_constant i' self attrs ident ty value ->
      unraw ident ++ match self with Some s => s | None => "" end = n -> P v' i' attrs in
  others (fun v' _ attrs => conditional_item v' attrs) \/ others (fun v' i' _ => v' = v /\ i' = i).
(** The same for statics; their names are the symbols. *)
Definition static_alone (vss : list (list visit)) (rs : list reading) (v : visit) (i : sitem) (n : string) : Prop :=
  let others (P : visit -> sitem -> attributes -> Prop) :=
    forall v' attrs ident mutable ty, item_read vss rs v' (ItemStatic attrs ident mutable ty) ->
      symbol attrs (unraw ident) n -> P v' (ItemStatic attrs ident mutable ty) attrs in
  others (fun v' _ attrs => conditional_item v' attrs) \/ others (fun v' i' _ => v' = v /\ i' = i).

(** A constant that is to be bound *)
Record bindable_constant (c : Config) (attrs : attributes) (ident : string) (ty : sty) (value : sexpr) : Prop := {
  bc_read : should_skip_parsing attrs = false;
  bc_type : plain_type ty = true;
  bc_value : plain_value value = true;
  bc_annotations : AnnotationSet_load attrs <> None;
  bc_included : ~ In (unraw ident) (ex_exclude (export c));
  bc_wanted : wanted c Constants }.
Record bindable_static (c : Config) (attrs : attributes) (name : string) (ty : sty) : Prop := {
  bs_read : should_skip_parsing attrs = false;
  bs_type : plain_type ty = true;
  bs_annotations : AnnotationSet_load attrs <> None;
  bs_included : ~ In name (ex_exclude (export c));
  bs_wanted : wanted c Globals }.

(** ** Constants of impl blocks for enums, unions and other types that are no structs *)
(** No struct, and nothing declared with [bitflags!], has the name [T]. *)
Definition no_struct_called (vss : list (list visit)) (rs : list reading) (T : string) : Prop :=
  forall v i, item_read vss rs v i ->
  match i with ItemStruct _ ident _ _ => unraw ident <> T | ItemMacro _ _ (Some b) => unraw (M_Loader.bf_name b) <> T | _ => True end.
(** The block for the type [T], with the constant behind [before]; there is no
    constant that is not public in front of it, since that ends the block. *)
Definition impl_block (own : attributes) (path : list string) (T : string) (before : list simpl_item) (this : simpl_item) (after : list simpl_item) : sitem :=
  ItemImpl own (SPath (SegPath path T NoArgs)) (before ++ this :: after).
Definition none_private (before : list simpl_item) : Prop :=
  Forall (fun x => match x with ImplConst attrs public _ _ _ => public = true \/ should_skip_parsing attrs = true | _ => True end) before.
Record bindable_associated (c : Config) (T : string) (attrs : attributes) (ident : string) (ty : sty) (value : sexpr) : Prop := {
  ba_owner : plain_type (SPath (SegPath [] T NoArgs)) = true /\ PrimitiveType_maybe (unraw T) = None;
  ba_read : should_skip_parsing attrs = false;
  ba_type : plain_type ty = true;
  ba_value : plain_value value = true;
  ba_annotations : AnnotationSet_load attrs <> None;
  ba_included : ~ In (unraw ident ++ unraw T) (ex_exclude (export c));
  ba_wanted : wanted c Constants }.
(** Of the constants kept under the name [n] there is only this one, or all have conditions. *)
Definition associated_alone (vss : list (list visit)) (rs : list reading) (v : visit) (i : sitem) (attrs : attributes) (ident : string) (ty : sty) (value : sexpr) (n : string) : Prop :=
  let others (P : visit -> sitem -> attributes -> string -> sty -> sexpr -> Prop) :=
    forall v' i' self attrs' ident' ty' value', item_read vss rs v' i' -> source_constant i' self attrs' ident' ty' value' ->
      unraw ident' ++ match self with Some s => s | None => "" end = n -> P v' i' attrs' ident' ty' value' in
  others (fun v' _ attrs' _ _ _ => conditional_item v' attrs')
  \/ others (fun v' i' attrs' ident' ty' value' => v' = v /\ i' = i /\ attrs' = attrs /\ ident' = ident /\ ty' = ty /\ value' = value).
