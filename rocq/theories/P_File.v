(** How the text of a file is put together. *)
Require Import Coq.Strings.String Coq.Strings.Ascii Coq.Lists.List Coq.Bool.Bool Coq.Arith.Arith Lia.
From Verif Require Import Base P_Base M_Config M_Writer S_Writer P_Writer M_Cfg M_Type M_Ir M_Item M_Library M_Cdecl M_Bindings
  M_Docs M_Literal M_Syn M_Backend P_Alike P_Bracketed S_File.
From Verif Require P_Deps.
Import ListNotations.
Open Scope string_scope.
Local Open Scope prog_scope.

Lemma then_done p q r : then_ p q = Done r -> exists x y, p = Done x /\ q = Done y /\ r = seq x y.
Proof. unfold then_. destruct p as [x| |]; try discriminate. destruct q as [y| |]; try discriminate. intro E. injection E as <-. eauto. Qed.
Tactic Notation "parts" hyp(E) "as" ident(x) ident(y) ident(A) ident(B) := apply then_done in E as (x & y & A & B & ->).

(** At the start of a line. *)
Definition at_start (w : writer) : Prop := w_started w = false /\ w_len w = 0.

Lemma primitive_value_is : forall l, Literal_uses_only_primitive_types l = primitive_value l.
Proof.
  unfold Literal_uses_only_primitive_types. apply P_Deps.Literal_ind'; try reflexivity.
  - intros op v IH. exact IH.
  - intros v op w IH1 IH2. cbn [Literal_visited primitive_value forallb]. rewrite forallb_app, IH1, IH2. reflexivity.
  - intros v f IH. exact IH.
  - intros t v IH. cbn [Literal_visited primitive_value forallb]. rewrite IH. destruct t as [u| | | |]; try reflexivity; destruct u; reflexivity.
  - intros l F. cbn [Literal_visited primitive_value forallb andb]. induction F as [|x r E F IH]; [reflexivity|]. cbn [map concat forallb]. rewrite forallb_app, E. f_equal. exact IH.
Qed.
Lemma primitive_constant_is : forall k, Constant_uses_only_primitive_types k = primitive_constant k.
Proof.
  intro k. unfold Constant_uses_only_primitive_types, primitive_constant. rewrite primitive_value_is, andb_comm. reflexivity.
Qed.
Section Runs.
  Variables (tabw : nat) (le : string).
  Notation run := (run tabw le).
  (** Ends at the start of a line, always or when it started there. *)
  Definition ends (o : outcome prog) : Prop := forall p w w', o = Done p -> run p w = Some w' -> at_start w'.
  Definition keeps (o : outcome prog) : Prop := forall p w w', o = Done p -> at_start w -> run p w = Some w' -> at_start w'.
  Lemma ends_keeps o : ends o -> keeps o.
  Proof. intros A p w w' E _. exact (A p w w' E). Qed.
  Lemma run_parts x y w w' : run (seq x y) w = Some w' -> exists w1, run x w = Some w1 /\ run y w1 = Some w'.
  Proof. rewrite run_seq. destruct (run x w) as [w1|]; [|discriminate]. eauto. Qed.
  Lemma ends_seq p q : ends q -> ends (then_ p q).
  Proof. intros A r w w' E R. parts E as x y E1 E2. apply run_parts in R as (w1 & _ & R). exact (A _ _ _ E2 R). Qed.
  Lemma ends_seq' p q : ends p -> keeps q -> ends (then_ p q).
  Proof. intros A K r w w' E R. parts E as x y E1 E2. apply run_parts in R as (w1 & R1 & R). exact (K _ _ _ E2 (A _ _ _ E1 R1) R). Qed.
  Lemma keeps_seq p q : keeps p -> keeps q -> keeps (then_ p q).
  Proof. intros A K r w w' E S R. parts E as x y E1 E2. apply run_parts in R as (w1 & R1 & R). exact (K _ _ _ E2 (A _ _ _ E1 S R1) R). Qed.
  Lemma ends_line : ends line.
  Proof. intros p w w' E R. injection E as <-. injection R as <-. split; reflexivity. Qed.
  Lemma keeps_nothing : keeps nothing.
  Proof. intros p w w' E S R. injection E as <-. injection R as <-. exact S. Qed.
  Lemma keeps_start : keeps (Done newline_if_not_start).
  Proof. intros p w w' E S R. injection E as <-. cbn in R. injection R as <-. unfold new_line_if_not_start. destruct (Nat.eqb _ _); [exact S|split; reflexivity]. Qed.
  Lemma keeps_when (x : bool) p : keeps p -> keeps (when x p).
  Proof. intro A. destruct x; [exact A|apply keeps_nothing]. Qed.
  Lemma keeps_if_some {A} (o : option A) f : (forall x, keeps (f x)) -> keeps (if_some o f).
  Proof. intro K. destruct o; [apply K|apply keeps_nothing]. Qed.
  Lemma keeps_each {A} (f : A -> outcome prog) xs : (forall x, keeps (f x)) -> keeps (each f xs).
  Proof. intro K. induction xs as [|x xs IH]; [apply keeps_nothing|]. apply keeps_seq; [apply K|exact IH]. Qed.
  Lemma ends_paragraph p : ends (paragraph p).
  Proof. apply ends_seq, ends_seq, ends_line. Qed.
  Lemma keeps_push : keeps (Done push_tab_).
  Proof. intros p w w' E S R. injection E as <-. cbn in R. unfold push_tab in R. destruct (w_spaces w); [discriminate|]. destruct (Nat.eqb tabw 0); [discriminate|]. injection R as <-. exact S. Qed.
  Lemma keeps_pop : keeps (Done pop).
  Proof. intros p w w' E S R. injection E as <-. cbn in R. unfold pop_tab in R. destruct (w_spaces w); [discriminate|]. injection R as <-. exact S. Qed.
End Runs.

Section File.
  Context {H : Heck} (fuel : nat) (b : Bindings).
  Let c : Config := b_config b.
  Let tabw : nat := tab_width c.
  Let le : string := LineEndingStyle_as_str (line_endings c).
  Notation run := (run tabw le).
  Lemma le_some : le <> "". Proof. unfold le. destruct (line_endings c); discriminate. Qed.

  (** At the start of a line of the file's body. *)
  Definition body (w : writer) : Prop := at_start w /\ w_spaces w = w_spaces (place b true) /\ counted w.
  Lemma top_line w : at_start w -> counted w -> Nat.eqb (w_lineno w) 1 = is_top (w_out w).
  Proof.
    intros [S _] (A & B & C). unfold is_top. destruct (Nat.eqb_spec (w_lineno w) 1) as [E|E].
    - rewrite (B E S). reflexivity.
    - symmetry. apply String.eqb_neq. apply C. lia.
  Qed.
  Lemma alike_place w (top : bool) : at_start w -> w_spaces w = w_spaces (place b true) -> (if top then w_lineno w = 1 else 2 <= w_lineno w) ->
    alike w (place b top).
  Proof. intros [A B] C D. unfold alike. cbn. repeat split; auto. destruct top; [left; exact D|right; auto]. Qed.

  Lemma paragraph_laid o p w w' : OB 0 o 0 -> paragraph o = Done p -> run p w = Some w' -> body w ->
    exists t, text_alone b (is_top (w_out w)) o t /\ w_out w' = w_out w ++ gap b (w_out w) ++ t ++ le /\ body w'.
  Proof.
    intros O E R (S & P & C). pose proof (top_line w S C) as T. pose proof S as [S1 S2].
    destruct (run_counted _ _ le_some _ _ _ C R) as [C' _].
    pose proof (ends_paragraph tabw le o p w w' E R) as S'.
    unfold paragraph in E. parts E as e1 r1 E1 E2. injection E1 as <-. parts E2 as x0 r2 A E3. injection E3 as <-.
    pose proof (OB_paragraph 0 o O) as OP.
    cbn [seq newline_if_not_start M_Writer.run] in R. apply run_parts in R as (w2 & R1 & R2). injection R2 as <-.
    set (w1 := new_line_if_not_start le w) in *.
    assert (S3 : at_start w1) by (unfold w1, new_line_if_not_start; destruct (Nat.eqb _ _); [exact S|split; reflexivity]).
    assert (P3 : w_spaces w1 = w_spaces (place b true)) by (unfold w1, new_line_if_not_start; destruct (Nat.eqb _ _); exact P).
    assert (O3 : w_out w1 = w_out w ++ gap b (w_out w)).
    { unfold w1, new_line_if_not_start, gap. rewrite T. destruct (is_top (w_out w)); [rewrite ?sapp_nil_r|]; reflexivity. }
    assert (N3 : if is_top (w_out w) then w_lineno w1 = 1 else 2 <= w_lineno w1).
    { unfold w1, new_line_if_not_start. destruct (Nat.eqb_spec (w_lineno w) 1) as [Z|Z]; rewrite <- T; [exact Z|cbn; destruct C as (C1 & _); lia]. }
    pose proof (run_alike tabw le x0 w1 _ (alike_place w1 _ S3 P3 N3)) as L. unfold steps_with in L. rewrite R1 in L.
    destruct L as (w3 & R3 & _ & (t & T1 & T2) & _). exists t. split.
    - exists x0, w3. split; [exact A|]. split; [exact R3|exact T2].
    - cbn [w_out new_line] in *. split; [rewrite T1, O3, !sapp_assoc; reflexivity|]. split; [exact S'|]. split; [|exact C'].
      cbn [w_spaces new_line]. rewrite (wb_run_spaces tabw le x0 w1 w2 (O x0 A) R1). exact P3.
  Qed.
  Lemma each_laid {A} (mk : A -> declaration) (sel : A -> bool) (xs : list A) : forall p w w',
    (forall x, OB 0 (write_declaration fuel b (mk x)) 0) ->
    each (fun x => when (sel x) (paragraph (write_declaration fuel b (mk x)))) xs = Done p -> run p w = Some w' -> body w ->
    exists ts, laid fuel b (w_out w) (map mk (filter sel xs)) ts (w_out w') /\ body w'.
  Proof.
    induction xs as [|x xs IH]; intros p w w' O E R B; cbn [each filter] in *.
    { injection E as <-. injection R as <-. exists []. split; [constructor|exact B]. }
    parts E as x1 x2 A0 B1. apply run_parts in R as (w1 & R1 & R2). destruct (sel x); cbn [when map] in *.
    - destruct (paragraph_laid _ _ _ _ (O x) A0 R1 B) as (t & T & O1 & B2). destruct (IH _ _ _ O B1 R2 B2) as (ts & L & B3).
      exists (t :: ts). split; [|exact B3]. constructor; [exact T|]. unfold le, c in O1. rewrite <- O1. exact L.
    - injection A0 as <-. injection R1 as <-. exact (IH _ _ _ O B1 R2 B).
  Qed.
  Lemma laid_app before ds ts mid ds' ts' after : laid fuel b before ds ts mid -> laid fuel b mid ds' ts' after ->
    laid fuel b before (ds ++ ds') (ts ++ ts') after.
  Proof. induction 1; intro K; cbn [app]; [exact K|]. constructor; auto. Qed.

  Lemma kept_export a : should_export a = kept a.
  Proof. unfold should_export, kept, an_bool. destruct (lookup "no-export" (an_values a)) as [[| |]|]; reflexivity. Qed.
  Lemma constants_laid prim p w w' : write_constants fuel b prim = Done p -> run p w = Some w' -> body w ->
    exists ts, laid fuel b (w_out w) (map AConstant (filter (fun k => if prim then primitive_constant k else negb (primitive_constant k)) (b_constants b))) ts (w_out w') /\ body w'.
  Proof.
    intros E R B. destruct (each_laid AConstant (fun k => Bool.eqb (Constant_uses_only_primitive_types k) prim) (b_constants b) p w w') as (ts & L & B'); auto.
    { intro x. apply (OB_constant fuel b 0 x None). }
    exists ts. split; [|exact B']. erewrite filter_ext; [exact L|]. intro k. cbv beta. pose proof (primitive_constant_is k) as K. destruct prim, (Constant_uses_only_primitive_types k); rewrite <- K; reflexivity.
  Qed.
  Lemma items_laid p w w' : write_items fuel b = Done p -> run p w = Some w' -> body w ->
    exists ts, laid fuel b (w_out w) (map AnItem (filter (fun i => kept (item_annotations i)) (b_items b))) ts (w_out w') /\ body w'.
  Proof.
    intros E R B. destruct (each_laid AnItem (fun i => should_export (item_annotations i)) (b_items b) p w w') as (ts & L & B'); auto.
    { intro x. apply (OB_item fuel b 0 x). }
    exists ts. split; [|exact B']. erewrite filter_ext; [exact L|]. intro k. symmetry. apply kept_export.
  Qed.
  Lemma globals_laid p w w' : write_globals_default b = Done p -> run p w = Some w' -> body w ->
    exists ts, laid fuel b (w_out w) (map AGlobal (filter (fun i => kept (g_annotations i)) (b_globals b))) ts (w_out w') /\ body w'.
  Proof.
    intros E R B. destruct (each_laid AGlobal (fun i => should_export (g_annotations i)) (b_globals b) p w w') as (ts & L & B'); auto.
    { intro x. apply (OB_static b 0 x). }
    exists ts. split; [|exact B']. erewrite filter_ext; [exact L|]. intro k. symmetry. apply kept_export.
  Qed.
  Lemma functions_laid p w w' : write_functions_default b = Done p -> run p w = Some w' -> body w ->
    exists ts, laid fuel b (w_out w) (map AFunction (filter (fun i => kept (f_annotations i)) (b_functions b))) ts (w_out w') /\ body w'.
  Proof.
    intros E R B. destruct (each_laid AFunction (fun i => should_export (f_annotations i)) (b_functions b) p w w') as (ts & L & B'); auto.
    { intro x. apply (OB_function b 0 x). }
    exists ts. split; [|exact B']. erewrite filter_ext; [exact L|]. intro k. symmetry. apply kept_export.
  Qed.

  (** The head of the file. *)
  Ltac kp := repeat first
    [ apply ends_line | apply keeps_nothing | apply keeps_start | apply ends_paragraph
    | match goal with
      | |- keeps _ _ (when _ _) => apply keeps_when
      | |- keeps _ _ (if_some _ _) => apply keeps_if_some; intro
      | |- keeps _ _ (each _ _) => apply keeps_each; intro
      | |- keeps _ _ (paragraph _) => apply ends_keeps, ends_paragraph
      | |- keeps _ _ (include_line _) => apply ends_keeps, ends_seq, ends_line
      | |- keeps _ _ line => apply ends_keeps, ends_line
      | |- keeps _ _ (then_ (text _) line) => apply ends_keeps, ends_seq, ends_line
      | |- keeps _ _ (then_ (text _) (then_ line _)) => apply ends_keeps, ends_seq, ends_seq'
      | |- keeps _ _ (then_ (text _) _) => fail 1
      | |- keeps _ _ (then_ _ _) => apply keeps_seq
      end ].
  Lemma headers_keep : keeps tabw le (write_headers b).
  Proof.
    unfold write_headers. destruct (Language_eqb (language (b_config b)) Cython) eqn:L.
    - unfold cython_headers. kp. apply ends_keeps.
      apply ends_seq, ends_seq, ends_seq, ends_seq, ends_seq, ends_seq'; [apply ends_line|]. unfold closed, close_brace. destruct (language (b_config b)) eqn:L'; try discriminate.
      apply keeps_pop.
    - unfold clike_headers. kp. destruct (language (b_config b)); kp.
  Qed.
  Lemma open_keep : keeps tabw le (open_namespaces b).
  Proof.
    unfold open_namespaces. destruct (Language_eqb (language (b_config b)) Cython) eqn:L.
    - apply ends_keeps, ends_seq, ends_seq. unfold opened, open_brace. destruct (language (b_config b)); try discriminate.
      intros p w w' E R. injection E as <-. cbn [seq write newline push_tab_ M_Writer.run] in R. destruct (inner_write ":" w) as [w1|]; [|discriminate].
      destruct (push_tab tabw (new_line le w1)) as [w2|] eqn:P; [|discriminate]. injection R as <-. unfold push_tab in P. cbn in P.
      destruct (w_spaces w1); [discriminate|]. destruct (Nat.eqb tabw 0); [discriminate|]. injection P as <-. split; reflexivity.
    - unfold open_close_namespaces. cbv zeta. apply keeps_when, ends_keeps, ends_seq, ends_seq, ends_seq'; [apply ends_line|]. kp.
  Qed.

  Lemma inner_spaces s w w' : inner_write s w = Some w' -> w_spaces w' = w_spaces w.
  Proof.
    unfold inner_write. intro E. destruct (String.eqb s ""); [injection E as <-; reflexivity|].
    destruct (w_started w); [injection E as <-; reflexivity|]. destruct (w_spaces w) eqn:X; [discriminate|]. injection E as <-. reflexivity.
  Qed.
  Lemma new_counted : counted writer_new.
  Proof. unfold counted. cbn. repeat split; [lia|]. intro X. lia. Qed.
  Lemma head_body ph po w1 w2 : write_headers b = Done ph -> open_namespaces b = Done po ->
    run ph writer_new = Some w1 -> run po w1 = Some w2 -> body w2.
  Proof.
    intros E1 E2 R1 R2.
    pose proof (headers_keep _ _ _ E1 (conj eq_refl eq_refl : at_start writer_new) R1) as S1.
    pose proof (open_keep _ _ _ E2 S1 R2) as S2.
    destruct (run_counted _ _ le_some _ _ _ new_counted R1) as [C1 _]. destruct (run_counted _ _ le_some _ _ _ C1 R2) as [C2 _].
    pose proof (wb_run_spaces _ _ _ _ _ (OB_headers b 0 _ E1) R1) as P1. cbn [w_spaces writer_new] in P1.
    split; [exact S2|]. split; [|exact C2]. cbn [w_spaces place].
    destruct (Language_eqb (language (b_config b)) Cython) eqn:L.
    - unfold open_namespaces in E2. rewrite L in E2. parts E2 as x1 r1 A1 B1. parts B1 as x2 x3 A2 A3. injection A1 as <-. injection A2 as <-.
      unfold opened, open_brace in A3. destruct (language (b_config b)); try discriminate. injection A3 as <-.
      cbn [seq write newline push_tab_ M_Writer.run] in R2.
      destruct (inner_write _ (new_line le w1)) as [w3|] eqn:I1; [|discriminate]. destruct (inner_write ":" w3) as [w4|] eqn:I2; [|discriminate].
      unfold push_tab in R2. cbn [w_spaces new_line] in R2. rewrite (inner_spaces _ _ _ I2), (inner_spaces _ _ _ I1) in R2. cbn [w_spaces new_line] in R2. rewrite P1 in R2.
      destruct (Nat.eqb_spec tabw 0) as [Z|Z]; [discriminate|]. injection R2 as <-. cbn [w_spaces push_set new_line].
      rewrite (inner_spaces _ _ _ I2), (inner_spaces _ _ _ I1). cbn [w_spaces new_line]. rewrite P1. change (tab_width (b_config b)) with tabw. replace (0 - 0 mod tabw + tabw) with tabw by (rewrite Nat.mod_0_l by exact Z; reflexivity). reflexivity.
    - pose proof (OB_open_namespaces b 0 po E2) as O. unfold inner in O. rewrite L in O. rewrite (wb_run_spaces _ _ _ _ _ O R2). exact P1.
  Qed.

  (** Without indentation, what is written is what is appended. *)
  Definition appends (o : outcome prog) (s : string) : Prop :=
    forall p w w', o = Done p -> w_spaces w = [0] -> run p w = Some w' -> w_out w' = w_out w ++ s /\ w_spaces w' = [0].
  Lemma appends_seq p s q s' : appends p s -> appends q s' -> appends (then_ p q) (s ++ s').
  Proof.
    intros A B r w w' E Z R. parts E as x y E1 E2. apply run_parts in R as (w1 & R1 & R2). destruct (A _ _ _ E1 Z R1) as [O1 Z1].
    destruct (B _ _ _ E2 Z1 R2) as [O2 Z2]. split; [rewrite O2, O1, sapp_assoc; reflexivity|exact Z2].
  Qed.
  Lemma appends_text s : appends (text s) s.
  Proof.
    intros r w w' E Z R. injection E as <-. cbn [write M_Writer.run] in R. destruct (inner_write s w) as [w1|] eqn:I; [|discriminate]. injection R as <-.
    split; [|rewrite (inner_spaces _ _ _ I); exact Z]. unfold inner_write in I. destruct (String.eqb s "") eqn:S; [apply String.eqb_eq in S; subst s; injection I as <-; rewrite ?sapp_nil_r; reflexivity|].
    destruct (w_started w); [injection I as <-; reflexivity|]. rewrite Z in I. injection I as <-. reflexivity.
  Qed.
  Lemma appends_line : appends line le.
  Proof. intros r w w' E Z R. injection E as <-. injection R as <-. split; [reflexivity|exact Z]. Qed.
  Lemma appends_nothing : appends nothing "".
  Proof. intros r w w' E Z R. injection E as <-. injection R as <-. split; [rewrite ?sapp_nil_r; reflexivity|exact Z]. Qed.
  Lemma appends_each {A} (f : A -> outcome prog) (g : A -> string) xs : (forall x, appends (f x) (g x)) -> appends (each f xs) (sconcat (map g xs)).
  Proof. intro K. induction xs as [|x xs IH]; [apply appends_nothing|]. cbn [each map sconcat]. apply appends_seq; [apply K|exact IH]. Qed.
  Lemma appends_eq o s s' : appends o s -> s = s' -> appends o s'.
  Proof. intros A ->. exact A. Qed.

  Lemma symbols_any : has_symbols b = any_symbol b.
  Proof. unfold has_symbols, any_symbol. destruct (b_functions b), (b_globals b); reflexivity. Qed.
  Lemma no_symbols : any_symbol b = false -> symbols b = [].
  Proof. unfold any_symbol, symbols. destruct (b_functions b), (b_globals b); try discriminate. reflexivity. Qed.
  Lemma clike_spaces w : Language_eqb (language c) Cython = false -> body w -> w_spaces w = [0].
  Proof. intros L (_ & P & _). rewrite P. cbn [place w_spaces]. fold c. rewrite L. reflexivity. Qed.
  Lemma body_again w w' p : Language_eqb (language c) Cython = false -> body w -> run p w = Some w' -> at_start w' -> w_spaces w' = [0] -> body w'.
  Proof.
    intros L (S & P & C) R S' P'. split; [exact S'|]. split; [|exact (proj1 (run_counted _ _ le_some _ _ _ C R))].
    cbn [place w_spaces]. fold c. rewrite L, P'. reflexivity.
  Qed.
  Lemma symbols_laid pg pf w w' : write_globals b = Done pg -> write_functions b = Done pf -> run (seq pg pf) w = Some w' -> body w ->
    exists ts lower, laid fuel b (w_out w ++ extern_opening b (w_out w)) (symbols b) ts lower
      /\ w_out w' = lower ++ extern_closing b ++ cython_pass b
      /\ w_spaces w' = w_spaces (place b true)
      /\ (Language_eqb (language c) Cython = false -> at_start w').
  Proof.
    intros E1 E2 R B. apply run_parts in R as (w1 & R1 & R2).
    unfold write_globals in E1. unfold write_functions in E2. destruct (Language_eqb (language (b_config b)) Cython) eqn:L.
    - (* Cython *)
      destruct (globals_laid _ _ _ E1 R1 B) as (ts1 & L1 & B1). unfold cython_functions in E2. parts E2 as pd pp F1 F2.
      apply run_parts in R2 as (w2 & R2 & R3). destruct (functions_laid _ _ _ F1 R2 B1) as (ts2 & L2 & B2).
      exists (ts1 ++ ts2)%list, (w_out w2).
      assert (X1 : extern_opening b (w_out w) = "") by (unfold extern_opening; destruct (language (b_config b)); try discriminate; destruct (negb (any_symbol b)); reflexivity).
      assert (X2 : extern_closing b = "") by (unfold extern_closing; destruct (language (b_config b)); try discriminate; destruct (negb (any_symbol b)); reflexivity).
      rewrite X1, X2, sapp_nil_r. split; [exact (laid_app _ _ _ _ _ _ _ L1 L2)|]. cbn [append].
      fold c in L. unfold cython_pass, nothing_declared. fold c. rewrite L. cbn [andb].
      assert (N : is_nil (b_globals b) && is_nil (b_constants b) && is_nil (b_items b) && is_nil (b_functions b)
        = match b_constants b, b_items b, b_globals b, b_functions b with [], [], [], [] => true | _, _, _, _ => false end).
      { destruct (b_globals b), (b_constants b), (b_items b), (b_functions b); reflexivity. }
      rewrite N in F2. destruct B2 as ((S1 & S2) & P & C2).
      destruct (match b_constants b with [] => _ | _ => _ end) in *; cbn [when] in F2; injection F2 as <-.
      + cbn [write M_Writer.run] in R3. unfold inner_write in R3. cbn [String.eqb] in R3. rewrite S1, P in R3. cbn [w_spaces place] in R3. fold c in R3. rewrite L in R3.
        injection R3 as <-. cbn [w_out w_spaces place]. fold c. rewrite L. split; [reflexivity|]. split; [reflexivity|discriminate].
      + injection R3 as <-. rewrite ?sapp_nil_r. split; [reflexivity|]. split; [exact P|]. intro X. discriminate X.
    - fold c in L. pose proof (clike_spaces w L B) as Z.
      assert (PS : cython_pass b = "") by (unfold cython_pass; fold c; rewrite L; reflexivity).
      rewrite PS, sapp_nil_r. unfold clike_globals in E1. unfold clike_functions in E2. rewrite symbols_any in E1, E2.
      destruct (any_symbol b) eqn:Y; cbn [when] in E1, E2.
      2: { injection E1 as <-. injection E2 as <-. injection R1 as <-. injection R2 as <-. exists [], (w_out w).
           unfold extern_opening, extern_closing. rewrite Y. cbn [negb]. rewrite ?sapp_nil_r, (no_symbols Y).
           split; [constructor|]. split; [rewrite ?sapp_nil_r; reflexivity|]. destruct B as (S & P & _). auto. }
      parts E1 as o1 r1 A1 E1. parts E1 as o2 r2 A2 E1. parts E1 as o3 r3 A3 E1. parts E1 as o4 r4 A4 E1.
      apply run_parts in R1 as (v1 & R11 & R1). apply run_parts in R1 as (v2 & R12 & R1). apply run_parts in R1 as (v3 & R13 & R1). apply run_parts in R1 as (v4 & R14 & R15).
      parts E2 as q1 s1 F1 E2. parts E2 as q2 s2 F2 E2. parts E2 as q3 q4 F3 F4.
      apply run_parts in R2 as (u1 & R21 & R2). apply run_parts in R2 as (u2 & R22 & R2). apply run_parts in R2 as (u3 & R23 & R24).
      assert (OPEN : body v4 /\ w_out v4 = w_out w ++ extern_opening b (w_out w)).
      { unfold extern_opening. rewrite Y. cbn [negb]. unfold extern_c in A3. unfold cpp_compatible_c in A1, A3, A4. fold c in A1, A2, A3, A4 |- *.
        destruct (language c) eqn:LA; try discriminate; cbn [Language_eqb andb orb when] in *.
        - (* Cxx *)
          injection A1 as <-. injection R11 as <-. injection A4 as <-. injection R14 as <-.
          assert (U : appends (if_some (using_namespaces c) (fun l => then_ (each (fun n => then_ line (text ("using namespace " ++ n ++ ";"))) l) line))
            (match using_namespaces c with Some l => sconcat (map (fun n => le ++ "using namespace " ++ n ++ ";") l) ++ le | None => "" end)).
          { destruct (using_namespaces c); cbn [if_some]; [|apply appends_nothing]. apply appends_seq; [|apply appends_line].
            apply appends_each. intro n. apply appends_seq; [apply appends_line|apply appends_text]. }
          destruct (U _ _ _ A2 Z R12) as [O2 Z2].
          destruct (appends_seq _ _ _ _ appends_line (appends_seq _ _ _ _ (appends_text _) appends_line) _ _ _ A3 Z2 R13) as [O3 Z3].
          pose proof (ends_seq _ _ _ _ (ends_seq _ _ _ _ (ends_line tabw le)) _ _ _ A3 R13) as S3.
          split.
          + assert (RR : run (seq o2 o3) w = Some v3) by (rewrite run_seq, R12; exact R13). apply (body_again w v3 (seq o2 o3)); auto. rewrite LA. reflexivity.
          + rewrite O3, O2. unfold le, quoted. rewrite !sapp_assoc. reflexivity.
        - (* C *)
          injection A2 as <-. injection R12 as <-. destruct (cpp_compat c); cbn [when] in *.
          + parts A1 as n1 n2 N1 N2. injection N1 as <-. apply run_parts in R11 as (v0 & R10 & R11). cbn [newline_if_not_start M_Writer.run] in R10. injection R10 as <-.
            set (v0 := new_line_if_not_start le w) in *.
            assert (Z0 : w_spaces v0 = [0]) by (unfold v0, new_line_if_not_start; destruct (Nat.eqb _ _); exact Z).
            assert (O0 : w_out v0 = w_out w ++ gap b (w_out w)).
            { unfold v0, new_line_if_not_start, gap. destruct B as (S & _ & C). rewrite (top_line w S C). destruct (is_top (w_out w)); [rewrite ?sapp_nil_r|]; reflexivity. }
            destruct (appends_text _ _ _ _ N2 Z0 R11) as [O1 Z1].
            destruct (appends_seq _ _ _ _ appends_line (appends_seq _ _ _ _ (appends_text _) appends_line) _ _ _ A3 Z1 R13) as [O3 Z3].
            destruct (appends_seq _ _ _ _ (appends_text _) appends_line _ _ _ A4 Z3 R14) as [O4 Z4].
            pose proof (ends_seq _ _ _ _ (ends_line tabw le) _ _ _ A4 R14) as S4.
            split.
            * assert (RR : run (seq (seq newline_if_not_start n2) (seq o3 o4)) w = Some v4).
              { rewrite !run_seq. cbn [newline_if_not_start M_Writer.run]. fold v0. rewrite R11, run_seq, R13. exact R14. }
              apply (body_again w v4 _) in RR; auto. rewrite LA. reflexivity.
            * rewrite O4, O3, O1, O0. unfold le, quoted. rewrite !sapp_assoc. reflexivity.
          + injection A1 as <-. injection R11 as <-. injection A3 as <-. injection R13 as <-. injection A4 as <-. injection R14 as <-.
            rewrite ?sapp_nil_r. auto. }
      destruct OPEN as [B4 O4]. destruct (globals_laid _ _ _ E1 R15 B4) as (ts1 & L1 & B5). destruct (functions_laid _ _ _ F1 R21 B5) as (ts2 & L2 & B6).
      exists (ts1 ++ ts2)%list, (w_out u1). rewrite O4 in L1. split; [exact (laid_app _ _ _ _ _ _ _ L1 L2)|].
      pose proof (clike_spaces u1 L B6) as Z6. pose proof B6 as (S6 & P6 & _).
      assert (PL : w_spaces (place b true) = [0]) by (cbn [place w_spaces]; fold c; rewrite L; reflexivity). rewrite PL.
      unfold extern_closing. rewrite Y. cbn [negb]. unfold extern_c in F3. unfold cpp_compatible_c in F2, F3, F4. fold c in F2, F3, F4 |- *.
      destruct (language c) eqn:LA; try discriminate; cbn [Language_eqb andb orb when] in *.
      + injection F2 as <-. injection R22 as <-. injection F4 as <-. injection R24 as <-.
        destruct (appends_seq _ _ _ _ appends_line (appends_seq _ _ _ _ (appends_text _) appends_line) _ _ _ F3 Z6 R23) as [O3 Z3].
        pose proof (ends_seq _ _ _ _ (ends_seq _ _ _ _ (ends_line tabw le)) _ _ _ F3 R23) as S3.
        split; [rewrite O3; unfold le, quoted; rewrite !sapp_assoc; reflexivity|auto].
      + destruct (cpp_compat c); cbn [when] in *.
        * destruct (appends_seq _ _ _ _ appends_line (appends_text _) _ _ _ F2 Z6 R22) as [O2 Z2].
          destruct (appends_seq _ _ _ _ appends_line (appends_seq _ _ _ _ (appends_text _) appends_line) _ _ _ F3 Z2 R23) as [O3 Z3].
          destruct (appends_seq _ _ _ _ (appends_text _) appends_line _ _ _ F4 Z3 R24) as [O5 Z5].
          pose proof (ends_seq _ _ _ _ (ends_line tabw le) _ _ _ F4 R24) as S5.
          split; [rewrite O5, O3, O2; unfold le, quoted; rewrite !sapp_assoc; reflexivity|auto].
        * injection F2 as <-. injection R22 as <-. injection F3 as <-. injection R23 as <-. injection F4 as <-. injection R24 as <-.
          split; [rewrite ?sapp_nil_r; reflexivity|auto].
  Qed.

  (** What follows the declarations depends on nothing above it. *)
  Definition tail_of : outcome prog := then_ (close_namespaces b) (then_ (write_footers b) (write_trailer b)).
  Lemma tail_same p w1 w1' w2 : tail_of = Done p -> run p w1 = Some w1' ->
    w_spaces w1 = w_spaces w2 -> 2 <= w_lineno w1 -> 2 <= w_lineno w2 ->
    (Language_eqb (language c) Cython = false -> at_start w1 /\ at_start w2) ->
    exists w2' t, run p w2 = Some w2' /\ w_out w1' = w_out w1 ++ t /\ w_out w2' = w_out w2 ++ t.
  Proof.
    intros E R S N1 N2 F. destruct (Language_eqb (language c) Cython) eqn:L.
    - unfold tail_of, close_namespaces, write_footers in E. fold c in E. rewrite L in E. parts E as x1 r1 A1 E. parts E as x2 x3 A2 A3.
      unfold closed, close_brace in A1. fold c in A1. destruct (language c); try discriminate. injection A1 as <-. injection A2 as <-.
      cbn [seq pop M_Writer.run] in *. unfold pop_tab in *. rewrite <- S. destruct (w_spaces w1) as [|sp rest]; [discriminate|].
      unfold write_trailer in A3. fold c in A3. destruct (trailer c) as [f|]; cbn [if_some] in A3.
      2: { injection A3 as <-. cbn [M_Writer.run] in *. injection R as <-. eexists _, "". rewrite !sapp_nil_r. split; [reflexivity|]. split; reflexivity. }
      parts A3 as y1 y2 B1 B2. injection B1 as <-. cbn [seq newline_if_not_start M_Writer.run] in *. unfold new_line_if_not_start in *.
      cbn [w_lineno] in *. destruct (Nat.eqb_spec (w_lineno w1) 1); [lia|]. destruct (Nat.eqb_spec (w_lineno w2) 1); [lia|].
      match type of R with M_Writer.run _ _ _ ?a = _ => match goal with |- context[M_Writer.run _ _ _ ?b] =>
        assert (AL : alike a b) by (unfold alike; cbn; repeat split; auto; right; lia); pose proof (run_alike tabw le y2 a b AL) as K end end.
      unfold steps_with in K. rewrite R in K. destruct K as (w2' & K1 & _ & (t & T1 & T2) & _). exists w2', (le ++ t).
      split; [exact K1|]. cbn in T1, T2. rewrite sapp_assoc in T1, T2. auto.
    - destruct (F eq_refl) as [(S1 & S2) (S3 & S4)].
      assert (AL : alike w1 w2) by (unfold alike; repeat split; [exact S|congruence|congruence|right; auto]).
      pose proof (run_alike tabw le p w1 w2 AL) as K. unfold steps_with in K. rewrite R in K. destruct K as (w2' & K1 & _ & (t & T1 & T2) & _).
      exists w2', t. auto.
  Qed.

  Lemma file_written p w' : write_bindings fuel b = Done p -> run p writer_new = Some w' ->
    exists head defs syms tail,
      file fuel b head defs syms tail (w_out w')
      /\ (exists p1 p2 w, write_headers b = Done p1 /\ open_namespaces b = Done p2 /\ run (seq p1 p2) writer_new = Some w /\ w_out w = head)
      /\ (exists p8 w w8, tail_of = Done p8 /\ run p8 w = Some w8 /\ w_out w8 = w_out w ++ tail /\ counted w)
      /\ (b_noop b = false -> head <> "" -> bindings_text fuel (emptied b) = Done (head ++ cython_pass (emptied b) ++ tail)).
  Proof.
    intros E R. unfold write_bindings in E.
    parts E as p1 r1 E1 E. parts E as p2 r2 E2 E. parts E as p3 r3 E3 E. parts E as p4 r4 E4 E. parts E as p5 r5 E5 E.
    parts E as p6 r6 E6 E. parts E as p7 p8 E7 E8.
    apply run_parts in R as (w1 & R1 & R). apply run_parts in R as (w2 & R2 & R). apply run_parts in R as (w3 & R3 & R). apply run_parts in R as (w4 & R4 & R).
    apply run_parts in R as (w5 & R5 & R). apply run_parts in R as (w6 & R6 & R). apply run_parts in R as (w7 & R7 & R8).
    pose proof (head_body _ _ _ _ E1 E2 R1 R2) as B2.
    destruct (constants_laid true _ _ _ E3 R3 B2) as (t1 & L1 & B3). destruct (items_laid _ _ _ E4 R4 B3) as (t2 & L2 & B4).
    destruct (constants_laid false _ _ _ E5 R5 B4) as (t3 & L3 & B5).
    assert (R67 : run (seq p6 p7) w5 = Some w7) by (rewrite run_seq, R6; exact R7).
    destruct (symbols_laid _ _ _ _ E6 E7 R67 B5) as (t4 & lower & L4 & O7 & P7 & S7).
    assert (TL : exists tail, w_out w' = w_out w7 ++ tail) by (destruct (run_appends _ _ _ _ _ R8) as (t & T); eauto).
    destruct TL as (tail & TL). exists (w_out w2), (t1 ++ t2 ++ t3)%list, t4, tail. split.
    - exists (w_out w5), lower. split; [|split; [exact L4|]].
      + unfold definitions. exact (laid_app _ _ _ _ _ _ _ L1 (laid_app _ _ _ _ _ _ _ L2 L3)).
      + rewrite TL, O7, !sapp_assoc. reflexivity.
    - split; [exists p1, p2, w2; repeat split; auto; rewrite run_seq, R1; exact R2|]. split.
      { exists p8, w7, w'. repeat split; auto. all: destruct B5 as (_ & _ & C5); apply (run_counted _ _ le_some _ _ _ C5 R67). }
      intros NO NE. unfold bindings_text. cbn [b_noop emptied]. rewrite NO.
      assert (X1 : write_headers (emptied b) = Done p1) by exact E1.
      assert (X2 : open_namespaces (emptied b) = Done p2) by exact E2.
      assert (X8 : then_ (close_namespaces (emptied b)) (then_ (write_footers (emptied b)) (write_trailer (emptied b))) = Done p8) by exact E8.
      unfold write_bindings. rewrite X1, X2, X8.
      change (write_constants fuel (emptied b) true) with nothing. change (write_items fuel (emptied b)) with nothing. change (write_constants fuel (emptied b) false) with nothing.
      assert (G : write_globals (emptied b) = nothing) by (unfold write_globals; destruct (Language_eqb _ _); reflexivity). rewrite G.
      destruct B2 as ((S1 & S2) & P2 & C2).
      assert (N2 : 2 <= w_lineno w2).
      { destruct C2 as (C1 & C3 & _). destruct (Nat.eq_dec (w_lineno w2) 1) as [Z|Z]; [rewrite (C3 Z S1) in NE; contradiction|lia]. }
      assert (N7 : 2 <= w_lineno w7).
      { assert (RR : run (seq p3 (seq p4 (seq p5 (seq p6 p7)))) w2 = Some w7).
        { rewrite run_seq, R3, run_seq, R4, run_seq, R5, run_seq, R6. exact R7. }
        destruct (run_counted _ _ le_some _ _ _ C2 RR) as [_ Z]. lia. }
      destruct (Language_eqb (language c) Cython) eqn:L.
      + assert (FN : write_functions (emptied b) = Done (seq PRet (write "pass"))).
        { unfold write_functions. cbn [b_config emptied]. fold c. rewrite L. reflexivity. }
        rewrite FN. unfold then_, nothing. cbv beta iota. unfold run_config. cbn [b_config emptied seq]. fold c. fold tabw. fold le.
        rewrite run_seq, R1, run_seq, R2. rewrite run_seq. cbn [write M_Writer.run]. unfold inner_write. cbn [String.eqb]. rewrite S1, P2. cbn [w_spaces place]. fold c. rewrite L.
        set (w8 := {| w_out := w_out w2 ++ _; w_spaces := _; w_started := true; w_len := _; w_lineno := _; w_max := _ |}).
        destruct (tail_same p8 w7 w' w8 E8 R8) as (w9 & t & R9 & O1 & O2); [rewrite P7; cbn; fold c; rewrite L; reflexivity|exact N7|exact N2|rewrite L; discriminate|].
        rewrite R9. cbn [of_option]. f_equal. rewrite O2. unfold cython_pass. cbn [b_config emptied]. fold c. rewrite L. cbn [andb nothing_declared b_constants b_items b_globals b_functions emptied].
        assert (t = tail) by (apply (sapp_inj_l (w_out w7)); congruence). subst t. unfold w8. cbn [w_out]. rewrite !sapp_assoc. reflexivity.
      + assert (FN : write_functions (emptied b) = nothing).
        { unfold write_functions. cbn [b_config emptied]. fold c. rewrite L. reflexivity. }
        rewrite FN. unfold then_, nothing. cbv beta iota. unfold run_config. cbn [b_config emptied seq]. fold c. fold tabw. fold le.
        rewrite run_seq, R1, run_seq, R2.
        destruct (tail_same p8 w7 w' w2 E8 R8) as (w9 & t & R9 & O1 & O2); [rewrite P7, P2; reflexivity|exact N7|exact N2|intro LX; split; [apply S7; first [reflexivity|exact L|exact LX]|split; auto]|].
        rewrite R9. cbn [of_option]. f_equal. rewrite O2. unfold cython_pass. cbn [b_config emptied]. fold c. rewrite L. cbn [andb append].
        assert (t = tail) by (apply (sapp_inj_l (w_out w7)); congruence). subst t. reflexivity.
  Qed.
  Lemma file_text t : b_noop b = false -> bindings_text fuel b = Done t ->
    exists head defs syms tail,
      file fuel b head defs syms tail t
      /\ (head <> "" -> bindings_text fuel (emptied b) = Done (head ++ cython_pass (emptied b) ++ tail)).
  Proof.
    intros N E. unfold bindings_text in E. rewrite N in E. destruct (write_bindings fuel b) as [p| |] eqn:P; try discriminate.
    unfold run_config in E. fold c in E. fold tabw in E. fold le in E. destruct (run p writer_new) as [w'|] eqn:R; [|discriminate]. cbn [of_option] in E. injection E as <-.
    destruct (file_written p w' P R) as (h & d & s & tl & F & _ & _ & X). exists h, d, s, tl. split; [exact F|exact (X N)].
  Qed.
End File.
