(** C24: constant expressions keep their structure. *)
Require Import Coq.Strings.String Coq.Lists.List Coq.Bool.Bool Coq.NArith.NArith.
From Verif Require Import Base P_Base S_Lex M_Config M_Writer S_Writer M_Type M_Ir M_Cfg M_Library M_Bindings M_Cdecl M_Syn M_Literal S_Decl S_Expr S_Literal S_Demo P_Expr P_Literal S_Fields S_Known P_Known.
Import ListNotations.
Open Scope string_scope.

(** The text written for a value is read by a C or C++ compiler as the
    expression it stands for, wherever it is written. *)
Theorem C24_structure : forall fuel b types le w l,
  language (b_config b) <> Cython -> tab_width (b_config b) <> 0 -> w_spaces w <> [] ->
  Forall (fun a => S_Lex.is_ident a = true) (pointer_words (dialect_of (b_config b))) ->
  expressible fuel b types true l ->
  exists p w' text, clike_write_literal fuel b l = Done p /\ run (tab_width (b_config b)) (LineEndingStyle_as_str le) p w = Some w'
    /\ w_out w' = w_out w ++ text
    /\ denotes_expr types (pointer_words (dialect_of (b_config b))) (Language_eqb (language (b_config b)) Cxx) text (tree fuel b l).
Proof. intros fuel b types le w l H1 H2 H3 H4 H5. exact (literal_denotes _ le fuel b types H1 H4 l w H2 H3 H5). Qed.
Print Assumptions C24_structure.

(** Except for lists in braces, it is one operand: used in place of a name, as
    the preprocessor does with [#define], it keeps its meaning next to any operator. *)
Theorem C24_operand : forall fuel b types le w l,
  language (b_config b) <> Cython -> tab_width (b_config b) <> 0 -> w_spaces w <> [] ->
  Forall (fun a => S_Lex.is_ident a = true) (pointer_words (dialect_of (b_config b))) ->
  expressible fuel b types false l ->
  exists p w' text tokens, clike_write_literal fuel b l = Done p /\ run (tab_width (b_config b)) (LineEndingStyle_as_str le) p w = Some w'
    /\ w_out w' = w_out w ++ text /\ Lexes text tokens
    /\ operand types (pointer_words (dialect_of (b_config b))) (Language_eqb (language (b_config b)) Cxx) tokens (tree fuel b l).
Proof. intros fuel b types le w l H1 H2 H3 H4 H5. exact (literal_operand _ le fuel b types H1 H4 l w H2 H3 H5). Qed.
Print Assumptions C24_operand.

(** A struct's values are given to the fields they belong to. *)
Theorem C24_fields : forall b order values, Forall (fun k => lookup k values <> None) order ->
  assigned order order (in_order b order values) = Some (filter_map (fun k => option_map (pair k) (lookup k values)) order).
Proof. intros b order values. exact (fields_assigned b order order values). Qed.
Print Assumptions C24_fields.

(** A constant whose value uses a struct or an enum the bindings do not have
    is left out, and only such a constant. *)
Theorem C24_unknown_left_out : forall (H : Heck) fuel b k s p, Constant_write fuel b k s = Done p -> ~ known b (c_value k) -> p = PRet.
Proof. exact unknown_unwritten. Qed.
Print Assumptions C24_unknown_left_out.
Theorem C24_known : forall fuel b l v, is_valid fuel b l = Done v -> (v = true <-> known b l).
Proof. exact valid_known. Qed.
Print Assumptions C24_known.

(** ** Where it fails *)
Definition with_structs (c : Config) (l : list Struct) : Bindings :=
  {| b_config := c; b_struct_map := l_structs (lib c [] [] [] l [] [] [] []); b_enum_map := []; b_typedef_map := []; b_constants := []; b_globals := [];
     b_items := []; b_functions := []; b_source_files := []; b_noop := false; b_package_version := "" |}.
Definition written (b : Bindings) (l : Literal) : option string :=
  match clike_write_literal 10 b l with Done p => run_config (b_config b) p | _ => None end.
Definition read_as (b : Bindings) (types : string -> bool) : string -> cexpr -> Prop :=
  denotes_expr types (pointer_words (dialect_of (b_config b))) (Language_eqb (language (b_config b)) Cxx).
Definition c11 : Config := config_with M_Config.C default_export SortNone.
Definition cpp : Config := config_with Cxx default_export SortNone.
Definition int (n : N) : sexpr := XLit (LitInt n "").
Definition name (s : string) : spath := SegPath [] s NoArgs.

(** [-(-1)] is written as a decrement. *)
Theorem C24_double_minus_refuted : forall types, exists l, Literal_load (XUnary Neg (XParen (XUnary Neg (int 1)))) = Some l
  /\ forall c, In c [c11; cpp] -> let b := with_structs c [] in
     written b l = Some "--1" /\ tree 10 b l = CUn "-" (CUn "-" (CLeaf "1")) /\ ~ read_as b types "--1" (tree 10 b l).
Proof.
  intros types. eexists. split; [reflexivity|]. intros c Hc b. destruct Hc as [<- | [<- | []]].
  all: split; [vm_compute; reflexivity|]; split; [reflexivity|]; intros D; apply (denotes_tokens _ _ _ _ _ 10 [Op "--"; Num "1"]) in D; [|reflexivity].
  all: destruct D as (k & Hk); specialize (Hk 6); cbn in Hk; discriminate.
Qed.
Print Assumptions C24_double_minus_refuted.

(** [S { b: 2, ..A }] loses the values taken from [A].  In C what is left is
    no expression; in C++ it gives [b]'s value to [a]. *)
Theorem C24_update_syntax_refuted : exists l, Literal_load (XStruct (name "S") [([], Named "b", int 2)] (Some (XPath (name "A")))) = Some l
  /\ (let b := with_structs c11 [struct "S" [] [fld "a" u8; fld "b" u8]] in
      written b l = Some "(S){ , .b = 2 }" /\ forall types e, ~ read_as b types "(S){ , .b = 2 }" e)
  /\ (let b := with_structs cpp [struct "S" [] [fld "a" u8; fld "b" u8]] in
      written b l = Some ("S{" ++ nl ++ "  /* .b = */ 2" ++ nl ++ "}") /\ order_of 10 b "S" = ["a"; "b"]
      /\ forall types, types "S" = true -> read_as b types ("S{" ++ nl ++ "  /* .b = */ 2" ++ nl ++ "}") (CBraces (Some (CName false None ["S"] [])) [(None, CLeaf "2")])
      /\ assigned ["a"; "b"] ["a"; "b"] [(None, CLeaf "2")] = Some [("a", CLeaf "2")]).
Proof.
  eexists. split; [reflexivity|]. split; [split; [vm_compute; reflexivity|]|split; [vm_compute; reflexivity|split; [vm_compute; reflexivity|]]].
  - intros types e D. apply (denotes_tokens _ _ _ _ _ 30 [Op "("; Id "S"; Op ")"; Op "{"; Op ","; Op "."; Id "b"; Op "="; Num "2"; Op "}"]) in D; [|vm_compute; reflexivity].
    destruct D as (k & Hk). specialize (Hk 9). cbn [Nat.add] in Hk. rewrite step_init in Hk by discriminate. rewrite step_binary in Hk. destruct (types "S") eqn:Et.
    + rewrite paren_type in Hk; [discriminate Hk|exact Et|reflexivity].
    + rewrite paren_name in Hk; [discriminate Hk|exact Et|reflexivity].
  - intros types Ht. split; [|reflexivity]. exists [Id "S"; Op "{"; Num "2"; Op "}"]. split; [apply (lex_lexes 40); vm_compute; reflexivity|].
    exists 9. intros m L. do 9 (destruct m as [|m]; [exfalso; Lia.lia|]). reflexivity.
Qed.
Print Assumptions C24_update_syntax_refuted.

(** When types are declared by their tags alone, a struct's name is no type,
    but the values of constants are written as if it were. *)
Definition tag_only : Config := configured c11 Tag default_structure default_constant.
Theorem C24_tag_style_refuted : exists l, Literal_load (XStruct (name "S") [([], Named "a", int 1)] None) = Some l
  /\ let b := with_structs tag_only [struct "S" [] [fld "a" u8]] in
     written b l = Some "(S){ .a = 1 }" /\ forall types e, types "S" = false -> ~ read_as b types "(S){ .a = 1 }" e.
Proof.
  eexists. split; [reflexivity|]. split; [vm_compute; reflexivity|]. intros types e Ht D.
  apply (denotes_tokens _ _ _ _ _ 30 [Op "("; Id "S"; Op ")"; Op "{"; Op "."; Id "a"; Op "="; Num "1"; Op "}"]) in D; [|vm_compute; reflexivity].
  destruct D as (k & Hk). specialize (Hk 9). cbn [Nat.add] in Hk. rewrite step_init in Hk by discriminate. rewrite step_binary in Hk.
  rewrite paren_name in Hk; [discriminate Hk|exact Ht|reflexivity].
Qed.
Print Assumptions C24_tag_style_refuted.

(** Without static constants, a value with a pointer inside goes on one
    [#define] line, but a struct in it is spread over several. *)
Definition defining : Config := configured cpp Both default_structure {| co_allow_static_const := false; co_allow_constexpr := true; co_sort_by := None |}.
Theorem C24_define_lines_refuted : forall H : Heck, exists l,
  Literal_load (XStruct (name "S") [([], Named "p", XCast (int 0) (SPtr false (SPath (name "u8")))); ([], Named "t", XStruct (name "T") [([], Named "x", int 1)] None)] None) = Some l
  /\ let b := with_structs defining [struct "T" [] [fld "x" u8]; struct "S" [] [fld "p" (ptr u8); fld "t" (ty "T")]] in
     exists p, Constant_write 10 b (const "K" (ty "S") l) None = Done p
     /\ run_config defining p = Some ("#define K S{ /* .p = */ (const uint8_t*)0, /* .t = */ T{" ++ nl ++ "  /* .x = */ 1" ++ nl ++ "} }").
Proof. intros H. eexists. split; [reflexivity|]. eexists. split; [reflexivity|]. vm_compute. reflexivity. Qed.
Print Assumptions C24_define_lines_refuted.

(** The values of a struct's fields are not looked at: here [T] is unknown. *)
Theorem C24_unknown_field_refuted : forall H : Heck, exists l inner,
  Literal_load (XStruct (name "S") [([], Named "t", XStruct (name "T") [([], Named "x", int 1)] None)] None) = Some l
  /\ let b := with_structs c11 [struct "S" [] [fld "t" (ty "T")]] in
     In inner (Literal_visited l) /\ ~ known b inner /\
     exists p, Constant_write 10 b (const "K" (ty "S") l) None = Done p /\ run_config c11 p = Some "#define K (S){ .t = (T){  } }".
Proof.
  intros H. do 2 eexists. split; [reflexivity|]. split; [right; left; reflexivity|]. split.
  - intro K. refine (match proj2 (C24_known 10 _ _ false _) K in _ = v return (if v then False else True) with eq_refl => Logic.I end). reflexivity.
  - eexists. split; [reflexivity|]. vm_compute. reflexivity.
Qed.
Print Assumptions C24_unknown_field_refuted.

(** ** Examples *)
Definition shapes : list Struct := [struct "Pt" [] [fld "x" u8; fld "y" u8]; struct "Rect" [] [fld "n" u8; fld "b" (ty "Pt")]].
Definition rect : sexpr :=
  XStruct (name "Rect") [([], Named "b", XStruct (name "Pt") [([], Named "y", XUnary Neg (int 5)); ([], Named "x", XCast (XBinary Shl (int 1) (int 3)) (SPath (name "u8")))] None);
                         ([], Named "n", XBinary Mul (XParen (XBinary Add (XPath (name "N")) (int 1))) (XField (XPath (name "ORIGIN")) (Named "x")))] None.
Definition known_types (w : string) : bool := mem_str w ["Pt"; "Rect"; "uint8_t"].
Ltac express :=
  lazymatch goal with
  | |- expressible _ _ _ _ (LExpr _) => first [left; reflexivity | right; left; reflexivity | right; right; reflexivity]
  | |- expressible _ _ _ _ (LPath _ _) => left; reflexivity
  | |- expressible _ _ _ _ (LUnary _ _) => split; [tauto|split; [express|intros _; reflexivity]]
  | |- expressible _ _ _ _ (LBin _ _ _) => split; [discriminate|split; express]
  | |- expressible _ _ _ _ (LField _ _) => split; [reflexivity|express]
  | |- expressible _ _ _ _ (LCast _ _) => split; [reflexivity|express]
  | |- expressible _ _ _ _ (LStruct _ _ _) =>
      split; [reflexivity|split; [reflexivity|split; [eexists; split; [vm_compute; reflexivity|repeat (constructor; [split; [reflexivity|do 2 eexists; split; [reflexivity|intros _; reflexivity]]|]); constructor]|
                                                   cbn [fields_ok]; repeat (split; [express|]); exact Logic.I]]]
  end.
Example C24_rect : exists l, Literal_load rect = Some l
  /\ Forall (fun c => let b := with_structs c shapes in expressible 10 b known_types false l /\ Forall (fun a => S_Lex.is_ident a = true) (pointer_words (dialect_of c))) [c11; cpp]
  /\ written (with_structs c11 shapes) l = Some "(Rect){ .n = ((N + 1) * (ORIGIN).x), .b = (Pt){ .x = (uint8_t)(1 << 3), .y = -5 } }"
  /\ written (with_structs cpp shapes) l = Some ("Rect{" ++ nl ++ "  /* .n = */ ((N + 1) * (ORIGIN).x)," ++ nl ++ "  /* .b = */ Pt{" ++ nl
        ++ "    /* .x = */ (uint8_t)(1 << 3)," ++ nl ++ "    /* .y = */ -5" ++ nl ++ "  }" ++ nl ++ "}")
  /\ tree 10 (with_structs c11 shapes) l = CBraces (Some (CName false None ["Rect"] []))
       [(Some "n", CBin "*" (CBin "+" (CLeaf "N") (CLeaf "1")) (CDot (CLeaf "ORIGIN") "x"));
        (Some "b", CBraces (Some (CName false None ["Pt"] [])) [(Some "x", CCast (CName false None ["uint8_t"] []) (CBin "<<" (CLeaf "1") (CLeaf "3"))); (Some "y", CUn "-" (CLeaf "5"))])].
Proof.
  eexists. split; [vm_compute; reflexivity|]. split; [|split; [vm_compute; reflexivity|split; vm_compute; reflexivity]].
  constructor; [|constructor; [|constructor]]; (split; [cbv zeta; express|constructor]).
Qed.
