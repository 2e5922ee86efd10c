(** C25: constants keep their values. *)
Require Import Coq.Strings.String Coq.Lists.List Coq.Bool.Bool Coq.ZArith.ZArith.
From Verif Require Import Base M_Config M_Writer M_Type M_Ir M_Library M_Bindings M_Syn M_Literal S_Decl S_Expr S_Literal S_Demo P_Literal T_Literal S_Value P_Value.
Import ListNotations.
Open Scope string_scope.
Local Open Scope Z_scope.

(** Does the C compiler give each name the value it has in Rust? *)
Definition same_names (names : string -> option (rtype * Z)) (c_names : string -> option (itype * Z)) : Prop :=
  forall x t v, names x = Some (t, v) -> valid t v /\ exists k, leaf_value c_names x = Some (k, v).

(** An expression all of whose parts fit the types C computes them in is
    written as one with the same value, and the value is one of its Rust type. *)
Theorem C25_values : forall fuel b names c_names e t v, same_names names c_names ->
  rust_value names e = Some (t, v) -> fits names c_names e ->
  valid t v /\ exists l, Literal_load (syntax e) = Some l /\ c_value c_names (tree fuel b l) = Some (type_in_c c_names e, v).
Proof.
  intros fuel b names c_names e t v A E F. split; [exact (rust_valid names (fun x t v X => proj1 (A x t v X)) _ _ _ E)|].
  destruct (loads e) as (l & L). exists l. split; [exact L|].
  exact (values_from fuel b names c_names (fun x t v X => proj2 (A x t v X)) (fun x t v X => proj1 (A x t v X)) _ _ _ _ (operand_of _ _ _ E) F L).
Qed.
Print Assumptions C25_values.

(** The text is read by a C or C++ compiler as an operand with that value,
    wherever it stands. *)
Theorem C25_text : forall fuel b types le w names c_names e t v,
  language (b_config b) <> Cython -> tab_width (b_config b) <> 0%nat -> w_spaces w <> [] ->
  Forall (fun a => S_Lex.is_ident a = true /\ named_type a = None) (pointer_words (dialect_of (b_config b))) ->
  standard_types types -> same_names names c_names ->
  rust_value names e = Some (t, v) -> fits names c_names e -> writable (fun x => value_word types x = true) e ->
  exists l p w' text tokens c_expr, Literal_load (syntax e) = Some l /\ clike_write_literal fuel b l = Done p
    /\ run (tab_width (b_config b)) (LineEndingStyle_as_str le) p w = Some w' /\ w_out w' = w_out w ++ text /\ Lexes text tokens
    /\ operand types (pointer_words (dialect_of (b_config b))) (Language_eqb (language (b_config b)) Cxx) tokens c_expr
    /\ c_value c_names c_expr = Some (type_in_c c_names e, v).
Proof.
  intros fuel b types le w names c_names e t v H1 H2 H3 H4 H5 H6 H7 H8 H9. destruct (C25_values fuel b names c_names e t v H6 H7 H8) as (_ & l & L & V).
  destruct (literal_operand _ le fuel b types H1 (Forall_impl _ (fun a X => proj1 X) H4) l w H2 H3 (expression_written fuel b types H5 (Forall_impl _ (fun a X => proj2 X) H4) e l H9 L)) as (p & w' & text & ts & P1 & P2 & P3 & P4 & P5).
  exists l, p, w', text, ts, (tree fuel b l). repeat split; assumption.
Qed.
Print Assumptions C25_text.

(** Constants written the careful way keep their values, whatever they are and
    however many use each other, whether they are written as macros or as variables. *)
Theorem C25_constants : forall fuel b l names, careful_constants l (fun _ => None) -> rust_constants l (fun _ => None) = Some names ->
  exists c_names, c_constants (value_in_c fuel b) l (fun _ => None) = Some c_names
    /\ forall x t v, names x = Some (t, v) -> exists k, c_names x = Some (k, v) /\ kept t k.
Proof.
  intros fuel b l names C E. destruct (constants_agree fuel b l (fun _ => None) (fun _ => None) names ltac:(discriminate) C E) as (c_names & H1 & H2).
  exists c_names. split; [exact H1|]. intros x t v X. exact (proj2 (proj2 (H2 x t v X))).
Qed.
Print Assumptions C25_constants.

(** ** Where values change *)
Definition no_names {A} : string -> option A := fun _ => None.
(** what C makes of an expression without names *)
Definition in_c (fuel : nat) (b : Bindings) (e : rexpr) : option (itype * Z) := value_in_c fuel b e no_names.
Definition in_rust (e : rexpr) : option (rtype * Z) := rust_value no_names e.
Definition u32 := RInt false W32.
Definition i64 := RInt true W64.

(** [!true] is written [~true]. *)
Theorem C25_not_bool_refuted : forall fuel b, in_rust (RNot (RBoolLit true)) = Some (RBool, 0) /\ in_c fuel b (RNot (RBoolLit true)) = Some (int, -2).
Proof. intros. split; reflexivity. Qed.
Print Assumptions C25_not_bool_refuted.

(** [!0u8] and [!0], a [u32], are -1 in C. *)
Theorem C25_complement_refuted : forall fuel b,
  in_rust (RNot (RLit (RInt false W8) true 0)) = Some (RInt false W8, 255) /\ in_c fuel b (RNot (RLit (RInt false W8) true 0)) = Some (int, -1)
  /\ in_rust (RNot (RLit u32 false 0)) = Some (u32, 4294967295) /\ in_c fuel b (RNot (RLit u32 false 0)) = Some (int, -1).
Proof. intros. repeat split; reflexivity. Qed.
Print Assumptions C25_complement_refuted.

(** [1 << 31], a [u32], and [65536 * 65535] overflow in C. *)
Theorem C25_overflow_refuted : forall fuel b,
  in_rust (RShl (RLit u32 false 1) (RLit (RInt true W32) false 31)) = Some (u32, 2147483648)
  /\ in_c fuel b (RShl (RLit u32 false 1) (RLit (RInt true W32) false 31)) = None
  /\ in_rust (RArith AMul (RLit u32 false 65536) (RLit u32 false 65535)) = Some (u32, 4294901760)
  /\ in_c fuel b (RArith AMul (RLit u32 false 65536) (RLit u32 false 65535)) = None.
Proof. intros. repeat split; reflexivity. Qed.
Print Assumptions C25_overflow_refuted.

(** The smallest [i64] becomes a positive number, or with its suffix no number at all. *)
Theorem C25_smallest_refuted : forall fuel b,
  in_rust (RNeg (RLit i64 false 9223372036854775808)) = Some (i64, -9223372036854775808)
  /\ in_c fuel b (RNeg (RLit i64 false 9223372036854775808)) = Some (Int false W64, 9223372036854775808)
  /\ in_rust (RNeg (RLit i64 true 9223372036854775808)) = Some (i64, -9223372036854775808)
  /\ in_c fuel b (RNeg (RLit i64 true 9223372036854775808)) = None.
Proof. intros. repeat split; reflexivity. Qed.
Print Assumptions C25_smallest_refuted.

(** [u8::MIN] is written as a name <stdint.h> does not have. *)
Theorem C25_limit_refuted : forall fuel b w, in_rust (RLimit false w false) = Some (RInt false w, 0) /\ in_c fuel b (RLimit false w false) = None.
Proof. intros fuel b []; split; reflexivity. Qed.
Print Assumptions C25_limit_refuted.

(** Control characters and those from 127 to 255 are written with an escape C does not have. *)
Theorem C25_character_refuted : forall fuel b n, (n <= 255)%N -> basic_character n = false ->
  in_rust (RCharLit n) = Some (RChar, Z.of_N n) /\ in_c fuel b (RCharLit n) = None.
Proof. exact characters_lost. Qed.
Print Assumptions C25_character_refuted.

(** ** Examples *)
(** [const A: u32 = (1u32 << 31) | 5u32; const B: u32 = !A; const C: i8 = -128; const D: usize = (C as u8) as usize; const E: bool = D == 128usize… *)
Definition some_constants : list constant :=
  [{| k_name := "A"; k_macro := true; k_type := u32; k_expr := RBits BOr (RParen (RShl (RLit u32 true 1) (RLit (RInt true W32) false 31))) (RLit u32 true 5) |};
   {| k_name := "B"; k_macro := true; k_type := u32; k_expr := RNot (RName "A") |};
   {| k_name := "C_"; k_macro := false; k_type := RInt true W8; k_expr := RNeg (RLit (RInt true W8) false 128) |};
   {| k_name := "D"; k_macro := true; k_type := RSize false; k_expr := RCast (RCast (RName "C_") (RInt false W8)) (RSize false) |};
   {| k_name := "E"; k_macro := false; k_type := RBool; k_expr := RAnd (RCompare CGt (RName "D") (RCast (RCharLit 39) (RSize false))) (RCompare CLt (RName "B") (RLimit false W32 true)) |};
   {| k_name := "F"; k_macro := true; k_type := i64; k_expr := RArith ADiv (RLimit true W64 false) (RNeg (RLit i64 true 3)) |}].
Ltac free := let names := fresh in intros names; reflexivity.
Example C25_some : careful_constants some_constants no_names
  /\ (exists names, rust_constants some_constants no_names = Some names
      /\ map names ["A"; "B"; "C_"; "D"; "E"; "F"] = [Some (u32, 2147483653); Some (u32, 2147483642); Some (RInt true W8, -128); Some (RSize false, 128); Some (RBool, 1); Some (i64, 3074457345618258602)])
  /\ (let b := with_structs c11 [] in exists c_names, c_constants (value_in_c 5 b) some_constants no_names = Some c_names
      /\ map c_names ["A"; "B"; "C_"; "D"; "E"; "F"] = [Some (Int false W32, 2147483653); Some (Int false W32, 2147483642); Some (Int true W8, -128); Some (Int false W64, 128); Some (Int false W8, 1); Some (Int true W64, 3074457345618258602)]).
Proof.
  split; [|split; eexists; (split; [reflexivity|vm_compute; reflexivity])].
  cbn [careful_constants some_constants k_name k_expr careful].
  repeat (split; [first [free | reflexivity | left; reflexivity | right; reflexivity | discriminate | exact Logic.I | intuition discriminate | idtac]|]);
    try first [free | reflexivity | left; reflexivity | right; reflexivity | discriminate | exact Logic.I | intuition discriminate].
Qed.

(** [(N + 1) * 3] with [N] = 4, both [u32], without suffixes *)
Definition product : rexpr := RArith AMul (RParen (RArith AAdd (RName "N") (RLit u32 false 1))) (RLit u32 false 3).
Definition n_in_rust (x : string) : option (rtype * Z) := if String.eqb x "N" then Some (u32, 4) else None.
Definition n_in_c (x : string) : option (itype * Z) := if String.eqb x "N" then Some (int, 4) else None.
Definition standard (w : string) : bool := match named_type w with Some _ => true | None => false end.
Example C25_product : same_names n_in_rust n_in_c /\ standard_types standard /\ rust_value n_in_rust product = Some (u32, 15) /\ fits n_in_rust n_in_c product
  /\ writable (fun x => value_word standard x = true) product
  /\ exists l, Literal_load (syntax product) = Some l /\ written (with_structs c11 []) l = Some "((N + 1) * 3)".
Proof.
  split; [|split; [|split; [reflexivity|split; [|split]]]].
  - intros x t v E. unfold n_in_rust in E. destruct (String.eqb_spec x "N") as [->|]; [|discriminate]. injection E as <- <-.
    split; [split; [reflexivity|split; discriminate]|exists int; reflexivity].
  - split; [intros w Nw; unfold standard; destruct (named_type w); congruence|]. intros w I. cbn in I. repeat (destruct I as [<-|I]; [reflexivity|]). contradiction.
  - cbn [product fits divides]. unfold both_fit. repeat split; try reflexivity; discriminate.
  - cbn [product writable]. repeat split; reflexivity.
  - eexists. split; [reflexivity|vm_compute; reflexivity].
Qed.
