(** A guarded declaration is the same declaration between [#if] and [#endif]. *)
Require Import Coq.Strings.String Coq.Strings.Ascii Coq.Lists.List Coq.Bool.Bool Coq.Arith.Arith Lia.
From Verif Require Import Base P_Base M_Config M_Writer S_Writer P_Writer M_Cfg S_Cfg P_Cfg M_Type M_Ir M_Item M_Library M_Cdecl M_Bindings
  M_Docs M_Literal M_Syn M_Backend P_Alike P_Bracketed S_File P_File S_Guarded.
Import ListNotations.
Open Scope string_scope.

Section Guarded.
  Context {H : Heck} (fuel : nat) (b : Bindings).
  Let c : Config := b_config b.
  Let tabw : nat := tab_width c.
  Let le : string := LineEndingStyle_as_str (line_endings c).
  Notation run := (run tabw le).
  Hypothesis LANG : language c <> Cython.
  Lemma no_cython : Language_eqb (language c) Cython = false.
  Proof. destruct (language c); try reflexivity. contradiction. Qed.

  Section Condition.
    Variables (K : Condition) (k : string).
    Hypothesis PK : plain_text (Condition_write (language c) K) = Some k.

    Lemma write_out s w w' : inner_write s w = Some w' -> s <> "" -> w_started w = true \/ w_spaces w = 0 :: skipn 1 (w_spaces w) ->
      w_out w' = w_out w ++ s /\ w_spaces w' = w_spaces w /\ w_started w' = true /\ w_lineno w' = w_lineno w.
    Proof.
      intros E N D. unfold inner_write in E. destruct (String.eqb s "") eqn:S; [apply String.eqb_eq in S; contradiction|].
      destruct (w_started w) eqn:ST; [injection E as <-; auto|]. destruct D as [D|D]; [discriminate|]. rewrite D in E. injection E as <-. cbn. rewrite D. auto.
    Qed.
    Lemma before_run w sp r : w_spaces w = sp :: r -> w_started w = false -> exists w',
      run (write_before c (Some K)) w = Some w' /\ w_out w' = w_out w ++ "#if " ++ k ++ le
      /\ w_spaces w' = w_spaces w /\ w_started w' = false /\ w_len w' = 0 /\ w_lineno w' = S (w_lineno w).
    Proof.
      intros W ST. unfold write_before. rewrite no_cython. cbn [seq push_set_spaces write M_Writer.run]. unfold inner_write. cbn [push_set w_started w_spaces w_out w_len w_lineno w_max].
      rewrite ST. cbn [String.eqb Ascii.eqb Bool.eqb].
      rewrite run_seq.
      destruct (run_plain tabw le (Condition_write (language c) K) k
        {| w_out := w_out w ++ srepeat " " 0 ++ "#if "; w_spaces := 0 :: w_spaces w; w_started := true; w_len := w_len w + 0 + String.length "#if ";
           w_lineno := w_lineno w; w_max := Nat.max (w_max w) (w_len w + 0 + String.length "#if ") |} PK eq_refl) as (w1 & R1 & O1 & P1 & S1 & L1).
      rewrite R1. cbn [seq pop newline M_Writer.run]. unfold pop_tab. rewrite P1. cbn [w_spaces].
      eexists. split; [reflexivity|]. cbn [new_line w_out w_spaces w_started w_len w_lineno]. rewrite O1. cbn [w_out srepeat append].
      rewrite L1. rewrite ?sapp_assoc. auto 10.
    Qed.
    Lemma after_run w sp r : w_spaces w = sp :: r -> exists w', run (write_after c (Some K)) w = Some w' /\ w_out w' = w_out w ++ le ++ "#endif".
    Proof.
      intros W. unfold write_after. rewrite no_cython. cbn [seq newline push_set_spaces write pop M_Writer.run]. unfold inner_write.
      cbn [push_set new_line w_started w_spaces w_out w_len w_lineno w_max String.eqb Ascii.eqb Bool.eqb].
      unfold pop_tab. cbn [w_spaces]. eexists. split; [reflexivity|]. cbn [w_out srepeat append]. rewrite sapp_assoc. reflexivity.
    Qed.

    (** [o] is [o0] followed by the end of the guard. *)
    Definition tailed (o o0 : outcome prog) : Prop := forall p, o = Done p -> exists q, o0 = Done q
      /\ forall w, run p w = match run q w with Some w1 => run (write_after c (Some K)) w1 | None => None end.
    Lemma tailed_after : tailed (after b (Some K)) (after b None).
    Proof. intros p E. injection E as <-. exists PRet. split; reflexivity. Qed.
    Lemma tailed_seq x o o0 : tailed o o0 -> tailed (then_ x o) (then_ x o0).
    Proof.
      intros T p E. unfold then_ in E. destruct x as [x| |]; try discriminate. destruct o as [y| |]; try discriminate. injection E as <-.
      destruct (T y eq_refl) as (q & -> & R). exists (seq x q). split; [reflexivity|]. intro w. rewrite !run_seq. destruct (run x w) as [w1|]; [apply R|reflexivity].
    Qed.
    Lemma tailed_more o o0 : tailed o o0 -> forall x y, (forall w, run x w = Some w) -> (forall w, run y w = Some w) -> tailed (then_ o (Done x)) (then_ o0 (Done y)).
    Proof.
      intros T x y X Y p E. unfold then_ in E. destruct o as [z| |]; try discriminate. injection E as <-.
      destruct (T z eq_refl) as (q & -> & R). exists (seq q y). split; [reflexivity|]. intro w. rewrite !run_seq, R.
      destruct (run q w) as [w1|]; [|reflexivity]. rewrite Y. destruct (run (write_after c (Some K)) w1); [apply X|reflexivity].
    Qed.

    Lemma wrapped x y p w w' sp r : tailed x y -> OB 0 y 0 -> then_ (before b (Some K)) x = Done p ->
      w_spaces w = sp :: r -> w_started w = false -> 1 <= w_lineno w -> run p w = Some w' ->
      forall v, w_spaces v = w_spaces w -> w_started v = false -> w_len v = 0 -> 2 <= w_lineno v -> w_out v = "" ->
      exists q v', then_ (before b None) y = Done q /\ run q v = Some v' /\ w_out w' = w_out w ++ enclosed b k (w_out v').
    Proof.
      intros T B E W ST LN R v V1 V2 V3 V4 V5. destruct x as [x| |]; try discriminate. assert (P : p = seq (write_before c (Some K)) x) by (apply (f_equal (fun o => match o with Done z => z | _ => PRet end)) in E; symmetry; exact E). subst p. clear E.
      destruct (T x eq_refl) as (q & -> & RX). rewrite run_seq in R. destruct (before_run w sp r W ST) as (w1 & R1 & O1 & S1 & T1 & L1 & N1). rewrite R1 in R.
      rewrite RX in R. destruct (run q w1) as [w2|] eqn:R2; [|discriminate].
      assert (A : alike w1 v) by (unfold alike; rewrite S1, T1, L1, N1, V1, V2, V3; repeat split; auto; lia).
      pose proof (run_alike tabw le q w1 v A) as RA. rewrite R2 in RA. destruct RA as (v2 & RV & (_ & (t & Oa & Ob) & _)).
      exists (seq PRet q), v2. split; [reflexivity|]. split; [exact RV|].
      pose proof (wb_run_spaces tabw le q w1 w2 (B q eq_refl) R2) as SP.
      destruct (after_run w2 sp r) as (w3 & R3 & O3); [congruence|]. rewrite R3 in R. injection R as <-.
      rewrite O3, Oa, O1. rewrite V5 in Ob. cbn [append] in Ob. rewrite Ob. unfold enclosed. fold c. fold le. rewrite !sapp_assoc. reflexivity.
    Qed.

    Definition guarded (o o0 : outcome prog) : Prop :=
      exists x y, o = then_ (before b (Some K)) x /\ o0 = then_ (before b None) y /\ tailed x y.
    Lemma guarded_text o o0 sps sp r t ln : guarded o o0 -> OB 0 o0 0 -> sps = sp :: r -> 1 <= ln ->
      forall p w', o = Done p -> run p {| w_out := ""; w_spaces := sps; w_started := false; w_len := 0; w_lineno := ln; w_max := 0 |} = Some w' -> w_out w' = t ->
      exists q v t', o0 = Done q /\ run q {| w_out := ""; w_spaces := sps; w_started := false; w_len := 0; w_lineno := 2; w_max := 0 |} = Some v
        /\ w_out v = t' /\ t = enclosed b k t'.
    Proof.
      intros (x & y & -> & -> & T) B -> LN p w' E R O.
      assert (BY : OB 0 y 0). { intros q ->. exact (B q eq_refl). }
      destruct (wrapped x y p {| w_out := ""; w_spaces := sp :: r; w_started := false; w_len := 0; w_lineno := ln; w_max := 0 |} w' sp r T BY E eq_refl eq_refl LN R
        {| w_out := ""; w_spaces := sp :: r; w_started := false; w_len := 0; w_lineno := 2; w_max := 0 |} eq_refl eq_refl eq_refl (le_n 2) eq_refl) as (q & v & E0 & R0 & O0).
      exists q, v, (w_out v). cbn [w_out append] in O0. rewrite <- O. auto.
    Qed.
    Ltac chain_ := eexists; eexists; split; [reflexivity|]; split; [reflexivity|]; repeat apply tailed_seq; apply tailed_after.
    Notation gd := (guard b).
    Lemma guarded_clike_struct s : gd (s_cfg s) = Some K -> guarded (clike_struct fuel b s) (clike_struct fuel b (struct_always s)).
    Proof. intro G. unfold clike_struct. rewrite G. change (gd (s_cfg (struct_always s))) with (@None Condition). chain_. Qed.
    Lemma guarded_struct s : gd (s_cfg s) = Some K -> guarded (write_struct fuel b s) (write_struct fuel b (struct_always s)).
    Proof. intro G. unfold write_struct. fold c. rewrite no_cython. apply guarded_clike_struct, G. Qed.
    Lemma guarded_union u : gd (u_cfg u) = Some K -> guarded (write_union b u) (write_union b (union_always u)).
    Proof. intro G. unfold write_union. fold c. rewrite no_cython. unfold clike_union. rewrite G. change (gd (u_cfg (union_always u))) with (@None Condition). chain_. Qed.
    Lemma guarded_opaque o : gd (o_cfg o) = Some K -> guarded (write_opaque_item b o) (write_opaque_item b (opaque_always o)).
    Proof. intro G. unfold write_opaque_item. rewrite G. change (gd (o_cfg (opaque_always o))) with (@None Condition). chain_. Qed.
    Lemma guarded_typedef t : gd (t_cfg t) = Some K -> guarded (write_type_def b t) (write_type_def b (typedef_always t)).
    Proof. intro G. unfold write_type_def. rewrite G. change (gd (t_cfg (typedef_always t))) with (@None Condition). chain_. Qed.
    Lemma guarded_static t : gd (g_cfg t) = Some K -> guarded (write_static b t) (write_static b (static_always t)).
    Proof. intro G. unfold write_static. rewrite G. change (gd (g_cfg (static_always t))) with (@None Condition). chain_. Qed.
    Lemma guarded_enum t : gd (e_cfg t) = Some K -> guarded (write_enum fuel b t) (write_enum fuel b (enum_always t)).
    Proof. intro G. unfold write_enum. rewrite G. change (gd (e_cfg (enum_always t))) with (@None Condition). chain_. Qed.
    Lemma guarded_layout f l : gd (f_cfg f) = Some K -> guarded (write_function_with_layout b f l) (write_function_with_layout b (function_always f) l).
    Proof. intro G. unfold write_function_with_layout. rewrite G. change (gd (f_cfg (function_always f))) with (@None Condition). chain_. Qed.
    Lemma guarded_variant v : gd (v_cfg v) = Some K -> guarded (backend_variant fuel b v) (backend_variant fuel b (variant_always v)).
    Proof. intro G. unfold backend_variant. fold c. rewrite no_cython. rewrite G. change (gd (v_cfg (variant_always v))) with (@None Condition). chain_. Qed.
    Lemma guarded_constant x s : gd (c_cfg x) = Some K -> Constant_write fuel b x s = Done PRet \/ (exists o, Constant_write fuel b x s = o /\ forall p, o <> Done p)
      \/ guarded (Constant_write fuel b x s) (Constant_write fuel b (constant_always x) s).
    Proof.
      intro G. unfold Constant_write. cbn [constant_always c_value].
      change (constant_name b (constant_always x) s) with (constant_name b x s).
      destruct (match s with Some st => negb (is_nil (s_generic_params st)) | None => false end); [auto|].
      destruct (is_valid fuel b (c_value x)) as [v| |]; [|right; left; eexists; split; [reflexivity|discriminate]..].
      destruct (negb v); [auto|].
      destruct (of_option (constant_name b x s)) as [n| |]; [|right; left; eexists; split; [reflexivity|discriminate]..].
      destruct (of_option (unwrap_transparent b (c_value x))) as [u| |]; [|right; left; eexists; split; [reflexivity|discriminate]..].
      destruct (write_literal fuel b u) as [l| |]; [|right; left; eexists; split; [reflexivity|discriminate]..].
      cbv zeta. cbn [constant_always c_cfg c_ty c_documentation]. change (to_condition_opt (defines (b_config b)) None) with (@None Condition).
      unfold guard in G. rewrite G.
      match goal with |- _ \/ _ \/ guarded match ?o with _ => _ end _ => destruct o as [d| |]; [|right; left; eexists; split; [reflexivity|discriminate]..] end.
      right; right. match goal with |- guarded (Done (seq _ (seq ?d (seq ?m _)))) _ => 
        exists (then_ (Done d) (then_ (Done m) (after b (Some K)))), (then_ (Done d) (then_ (Done m) (after b None))) end.
      split; [reflexivity|]. split; [reflexivity|]. repeat apply tailed_seq; apply tailed_after.
    Qed.

    Lemma cfg_guard cfg : to_condition_opt (defines c) cfg = Some K -> gd cfg = Some K.
    Proof. exact (fun x => x). Qed.
    Lemma place_spaces top : w_spaces (place b top) = [0].
    Proof. cbn [place w_spaces]. fold c. rewrite no_cython. reflexivity. Qed.
    Lemma guarded_alone o o0 top t : guarded o o0 -> OB 0 o0 0 -> text_alone b top o t -> exists t', text_alone b false o0 t' /\ t = enclosed b k t'.
    Proof.
      intros G B (p & w & E & R & O). pose proof (place_spaces top) as PS.
      unfold place in R. change (if Language_eqb (language (b_config b)) Cython then [tab_width (b_config b); 0] else [0]) with (w_spaces (place b top)) in R. rewrite PS in R.
      destruct (guarded_text o o0 [0] 0 [] t (if top then 1 else 2) G B eq_refl ltac:(destruct top; lia) p w E R O) as (q & v & t' & Q & RV & OV & T).
      exists t'. split; [|exact T]. exists q, v. split; [exact Q|]. split; [|exact OV]. unfold place.
      change (if Language_eqb (language (b_config b)) Cython then [tab_width (b_config b); 0] else [0]) with (w_spaces (place b top)). rewrite PS. exact RV.
    Qed.
    Lemma guarded_member o o0 sp t : guarded o o0 -> OB 0 o0 0 -> member_text b sp o t -> exists t', member_text b sp o0 t' /\ t = enclosed b k t'.
    Proof.
      intros G B (p & w & E & R & O). destruct (guarded_text o o0 [sp] sp [] t 2 G B eq_refl ltac:(lia) p w E R O) as (q & v & t' & Q & RV & OV & T).
      exists t'. split; [|exact T]. exists q, v. auto.
    Qed.

    Lemma alone_nothing o top t : text_alone b top (then_ o nothing) t <-> text_alone b top o t.
    Proof.
      split; intros (p & w & E & R & O).
      - destruct o as [x| |]; try discriminate. injection E as <-. rewrite run_seq in R. exists x, w. split; [reflexivity|]. split; [|exact O].
        destruct (M_Writer.run _ _ x _); exact R.
      - subst o. exists (seq p PRet), w. split; [reflexivity|]. split; [|exact O]. rewrite run_seq, R. reflexivity.
    Qed.

    (** The arguments of a function are laid out in one of two ways. *)
    Lemma function_layout f top t : alone fuel b top (AFunction f) t -> exists l, text_alone b top (write_function_with_layout b f l) t.
    Proof.
      intros (p & w & E & R & O). cbn [write_declaration] in E. unfold write_function in E. fold c in E, R.
      destruct (fn_args (function c)); [exists Horizontal; exists p, w; auto|exists Vertical; exists p, w; auto|].
      destruct (write_function_with_layout b f Horizontal) as [h| |] eqn:EH; try discriminate.
      destruct (write_function_with_layout b f Vertical) as [v| |] eqn:EV; try discriminate. injection E as <-.
      assert (V : run v (place b top) = Some w -> exists l, text_alone b top (write_function_with_layout b f l) t).
      { intro RV. exists Vertical. exists v, w. auto. }
      cbn [M_Writer.run] in R. change (w_len (place b top)) with 0 in R. change (Nat.ltb (line_length c) 0) with false in R. cbv iota in R.
      fold tabw in R. fold le in R.
      destruct (run h (measurer (place b top))) as [mw|] eqn:RH; [|discriminate]. destruct (Nat.ltb (line_length c) (w_max mw)); [auto|].
      pose proof (run_alike tabw le h (measurer (place b top)) (place b top)) as RA. rewrite RH in RA.
      destruct RA as (v2 & R2 & (_ & (x & X1 & X2) & _)); [unfold alike; cbn; auto|].
      exists Horizontal. exists h, v2. split; [exact EH|]. split; [exact R2|]. cbn [measurer place w_out append] in X1, X2. rewrite X2.
      unfold inner_write in R. cbn [set_started w_started] in R. rewrite X1 in R. destruct (String.eqb x "") eqn:Z; cbn [M_Writer.run set_started w_started] in R; injection R as <-; cbn [w_out set_started place append] in O.
      - apply String.eqb_eq in Z. congruence.
      - exact O.
    Qed.

    Lemma guard_wraps d top t : to_condition_opt (defines c) (cfg_of d) = Some K -> typedef_with_constants d = false -> alone fuel b top d t ->
      (exists x, d = AConstant x /\ t = "") \/ exists t', some_layout fuel b (always d) t' /\ t = enclosed b k t'.
    Proof.
      intros G TC A. destruct d as [x|[x|x|x|x|x]|x|f]; cbn [cfg_of always some_layout] in *.
      - destruct (guarded_constant x None G) as [E|[(o & E & N)|D]].
        + left. exists x. split; [reflexivity|]. destruct A as (p & w & E' & R & O). cbn [write_declaration] in E'. rewrite E in E'. injection E' as <-.
          cbn in R. injection R as <-. exact (eq_sym O).
        + destruct A as (p & w & E' & R & O). cbn [write_declaration] in E'. rewrite E in E'. destruct (N p E').
        + right. exact (guarded_alone _ _ top t D (OB_constant fuel b 0 _ None) A).
      - right. exact (guarded_alone _ _ top t (guarded_opaque x G) (OB_opaque b 0 _) A).
      - right. unfold alone in A |- *. cbn [write_declaration write_item] in *. unfold write_struct_or_typedef in *. unfold typedef_with_constants in TC.
        unfold as_typedef in *. cbn [struct_always s_fields s_is_transparent] in *.
        destruct (s_fields x) as [|fl fs] eqn:FS; [exact (guarded_alone _ _ top t (guarded_struct x G) (OB_struct fuel b 0 _) A)|].
        destruct (s_is_transparent x) eqn:TR; [|exact (guarded_alone _ _ top t (guarded_struct x G) (OB_struct fuel b 0 _) A)].
        cbn [andb] in TC. destruct (s_associated_constants x) eqn:AC; [|discriminate].
        unfold associated_constants in *. cbn [struct_always s_associated_constants] in *. rewrite AC in *. cbn [each] in *.
        apply (proj1 (alone_nothing _ _ _)) in A. destruct (guarded_alone _ _ top t (guarded_typedef (new_from_struct_field x fl) G) (OB_typedef b 0 _) A) as (t' & T' & E).
        exists t'. split; [|exact E]. apply (proj2 (alone_nothing _ _ _)). exact T'.
      - right. exact (guarded_alone _ _ top t (guarded_union x G) (OB_union b 0 _) A).
      - right. exact (guarded_alone _ _ top t (guarded_enum x G) (OB_enum fuel b 0 _) A).
      - right. exact (guarded_alone _ _ top t (guarded_typedef x G) (OB_typedef b 0 _) A).
      - right. exact (guarded_alone _ _ top t (guarded_static x G) (OB_static b 0 _) A).
      - right. destruct (function_layout f top t A) as (l & T). destruct (guarded_alone _ _ top t (guarded_layout f l G) (OB_with_layout b 0 _ l) T) as (t' & T' & E).
        exists t'. split; [exists l; exact T'|exact E].
    Qed.
    Lemma variant_wraps v sp t : to_condition_opt (defines c) (v_cfg v) = Some K -> member_text b sp (backend_variant fuel b v) t ->
      exists t', member_text b sp (backend_variant fuel b (variant_always v)) t' /\ t = enclosed b k t'.
    Proof. intros G A. exact (guarded_member _ _ sp t (guarded_variant v G) (OB_variant fuel b 0 _) A). Qed.

    (** Fields: a line break follows. *)
    Definition then_line (o o1 : outcome prog) : Prop := forall p, o = Done p -> exists q, o1 = Done q
      /\ forall w, run p w = match run q w with Some w1 => Some (new_line le w1) | None => None end.
    Lemma then_line_seq x o o1 : then_line o o1 -> then_line (then_ x o) (then_ x o1).
    Proof.
      intros T p E. unfold then_ in E. destruct x as [x| |]; try discriminate. destruct o as [y| |]; try discriminate. injection E as <-.
      destruct (T y eq_refl) as (q & -> & R). exists (seq x q). split; [reflexivity|]. intro w. rewrite !run_seq. destruct (run x w) as [w1|]; [apply R|reflexivity].
    Qed.
    Lemma field_wraps f sp t : to_condition_opt (defines c) (fd_cfg f) = Some K -> member_text b sp (backend_field b f) t ->
      exists t', member_text b sp (backend_field b (field_always f)) t' /\ t = enclosed b k t' ++ le.
    Proof.
      intros G (p & w & E & R & O). unfold backend_field in E. fold c in E. rewrite no_cython in E. unfold guard in E. fold c in E. rewrite G in E. cbn [is_some when] in E.
      set (o1 := then_ (before b (Some K)) (then_ (docs b (fd_documentation f)) (then_ (of_option (write_field c (fd_ty f) (fd_name f)))
        (then_ (if_some (an_atom (fd_annotations f) "bitfield") (fun x => text (": " ++ match x with Some n => n | None => "" end))) (after b (Some K)))))).
      set (o0 := then_ (before b None) (then_ (docs b (fd_documentation f)) (then_ (of_option (write_field c (fd_ty f) (fd_name f)))
        (then_ (if_some (an_atom (fd_annotations f) "bitfield") (fun x => text (": " ++ match x with Some n => n | None => "" end))) (after b None))))).
      assert (T : then_line (Done p) o1).
      { rewrite <- E. unfold o1. repeat apply then_line_seq. intros q EQ. apply (f_equal (fun o => match o with Done z => z | _ => PRet end)) in EQ. cbv beta iota in EQ. subst q.
        exists (write_after c (Some K)). split; [reflexivity|]. intro w0. cbn [then_ after line]. rewrite run_seq. destruct (run _ w0); reflexivity. }
      destruct (T p eq_refl) as (q & E1 & RQ). fold tabw in R. fold le in R. rewrite RQ in R. destruct (run q (indented sp)) as [w1|] eqn:R1; [|discriminate]. injection R as <-.
      assert (GD : guarded o1 o0). { unfold o1, o0. eexists. eexists. split; [reflexivity|]. split; [reflexivity|]. repeat apply tailed_seq. apply tailed_after. }
      assert (EF : backend_field b (field_always f) = o0) by (unfold backend_field; fold c; rewrite no_cython; reflexivity).
      rewrite EF. assert (B : OB 0 o0 0) by (rewrite <- EF; apply OB_bfield).
      destruct (guarded_member o1 o0 sp (w_out w1) GD B) as (t' & A & X); [exists q, w1; auto|].
      exists t'. split; [exact A|]. rewrite <- X, <- O. reflexivity.
    Qed.
  End Condition.
End Guarded.

(** A cfg without a condition changes nothing. *)
Lemma unguarded_same {H : Heck} fuel b d : to_condition_opt (defines (b_config b)) (cfg_of d) = None ->
  write_declaration fuel b (always d) = write_declaration fuel b d.
Proof.
  intro G. destruct d as [x|[x|x|x|x|x]|x|x]; cbn [cfg_of always write_declaration write_item] in *.
  - unfold Constant_write. cbn [constant_always c_cfg]. rewrite G. reflexivity.
  - unfold write_opaque_item, guard. rewrite G. reflexivity.
  - unfold write_struct_or_typedef, as_typedef. cbn [struct_always s_fields s_is_transparent].
    assert (ES : write_struct fuel b (struct_always x) = write_struct fuel b x).
    { unfold write_struct, clike_struct, cython_struct, guard. rewrite G. reflexivity. }
    destruct (s_fields x); [exact ES|]. destruct (s_is_transparent x); [|exact ES]. unfold write_type_def, guard. cbn [new_from_struct_field t_cfg]. rewrite G. reflexivity.
  - unfold write_union, clike_union, cython_union, guard. rewrite G. reflexivity.
  - unfold write_enum, guard. rewrite G. reflexivity.
  - unfold write_type_def, guard. rewrite G. reflexivity.
  - unfold write_static, guard. rewrite G. reflexivity.
  - unfold write_function, write_function_with_layout, guard. rewrite G. reflexivity.
Qed.

(** With the meaning of the guard line. *)
Lemma guard_wraps_exact {H : Heck} fuel b d top t cfg rho mu :
  let c := b_config b in
  language c <> Cython -> tab_width c <> 0 ->
  (forall k m, In (k, m) (defines c) -> macro_name false m = true) ->
  (forall k m a, In (k, m) (defines c) -> denotes k a -> mu m = rho a) ->
  (forall a, In a (atoms cfg) -> exists k m, In (k, m) (defines c) /\ denotes k a) ->
  no_empty cfg = true -> cfg_of d = Some cfg -> typedef_with_constants d = false -> alone fuel b top d t ->
  (exists x, d = AConstant x /\ t = "") \/
  exists t' line e, some_layout fuel b (always d) t' /\ t = enclosed b line t' /\ read_condition false line = Some e /\ peval mu e = cfg_eval rho cfg.
Proof.
  intros c L TW MN MU CO NE CF TC A. assert (NC : Language_eqb (language c) Cython = false) by (destruct (language c); try reflexivity; contradiction).
  destruct (guard_text_exact c rho mu cfg) as (K & text & e & TCD & RUN & RD & EV); auto; [rewrite NC; exact MN|].
  rewrite NC in *. pose proof (condition_plain (language c) K) as PK.
  destruct (guard_wraps fuel b L K (cond_text (language c) K) PK d top t) as [X|(t' & A' & E)]; auto.
  - rewrite CF. cbn. exact TCD.
  - right. exists t', text, e. split; [exact A'|]. split; [|auto].
    destruct (RUN (indented 0) 0 [] eq_refl eq_refl TW) as (w1 & R1 & _ & O1).
    destruct (before_run b L K _ PK (indented 0) 0 [] eq_refl eq_refl) as (w2 & R2 & O2 & _). unfold c in *. rewrite R1 in R2. injection R2 as <-.
    rewrite O1 in O2. cbn [indented w_out append] in O2. repeat match type of O2 with String _ _ = String _ _ => injection O2 as O2 end.
    apply sapp_inj_r in O2. subst text. exact E.
Qed.
