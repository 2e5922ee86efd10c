(** What a compiler sees of the layout of a file. *)
Require Import Coq.Strings.String Coq.Strings.Ascii Coq.Lists.List Coq.Bool.Bool Coq.Arith.Arith Lia.
From Verif Require Import Base P_Base M_Config M_Writer S_Writer P_Writer M_Cfg M_Type M_Ir M_Item M_Library M_Cdecl M_Bindings
  M_Docs M_Literal M_Syn M_Backend S_Outline S_Tame P_Outline P_Triples P_Written P_Alike P_Bracketed S_File P_File S_Layers.
Import ListNotations.
Open Scope string_scope.

Section Layers.
  Context {H : Heck} (fuel : nat) (b : Bindings).
  Let c : Config := b_config b.
  Let tabw : nat := tab_width c.
  Let le : string := LineEndingStyle_as_str (line_endings c).
  Hypothesis TAME : tame b.
  Notation run := (run tabw le).

  Lemma not_cython_ : Language_eqb (language c) Cython = false.
  Proof. destruct TAME as (L & _). unfold c. destruct (language (b_config b)); try reflexivity. contradiction. Qed.
  Lemma le_ok_ : unix_or_dos le.
  Proof. destruct TAME as (_ & L & _). unfold le, c, unix_or_dos. destruct (line_endings (b_config b)); auto. contradiction. Qed.

  Definition declared (d : declaration) : Prop :=
    match d with
    | AConstant k => In k (b_constants b)
    | AnItem i => In i (b_items b)
    | AGlobal g => In g (b_globals b)
    | AFunction f => In f (b_functions b)
    end.
  Lemma declared_all d : In d (definitions b) \/ In d (symbols b) -> declared d.
  Proof.
    unfold definitions, symbols. intros [I|I]; repeat (apply in_app_or in I as [I|I]); apply in_map_iff in I as (x & <- & I); apply filter_In in I as [I _]; exact I.
  Qed.
  Lemma declaration_read holds d l g : declared d -> OT holds tabw le l (fresh g) (write_declaration fuel b d) l (P_Triples.eol holds le g).
  Proof.
    destruct TAME as (L & E & X & B & N & I & K & G & F). intro D. destruct d as [k|i|s|f]; cbn [declared write_declaration] in *.
    - apply (S_constant holds fuel b); auto. exact (proj1 (forallb_forall _ _) K k D).
    - apply (W_item holds fuel b); auto. exact (proj1 (forallb_forall _ _) I i D).
    - apply (W_static holds b); auto. exact (proj1 (forallb_forall _ _) G s D).
    - apply (W_function holds b); auto. exact (proj1 (forallb_forall _ _) F f D).
  Qed.
  Lemma alone_read holds top d t g : declared d -> alone fuel b top d t ->
    read holds (here BlankLine Plain g) (t ++ le) = Some (here BlankLine Plain g).
  Proof.
    intros D (p & w & E & R & O). pose proof (declaration_read holds d false g D p E (place b top) w _ eq_refl) as K.
    destruct K as (_ & t' & s' & O' & R' & Q); [unfold late; cbn; destruct top; lia|exact R|]. cbn [w_out place append] in O'. rewrite read_app.
    rewrite O in O'. subst t'. rewrite R'. exact Q.
  Qed.

  (** The layers in terms of what is open. *)
  Lemma guard_conds holds : conds_of (guarded_by holds b) = guard_frames holds b.
  Proof. unfold guarded_by, guard_frames. destruct (include_guard (b_config b)); [|reflexivity]. cbn. destruct (holds _); reflexivity. Qed.
  Lemma guard_open holds : open_of (guarded_by holds b) = [].
  Proof. unfold guarded_by. destruct (include_guard (b_config b)); reflexivity. Qed.
  Lemma blocks_open n g : open_of (blocks n ++ g) = ((if active (conds_of g) then repeat "{"%char n else []) ++ open_of g)%list.
  Proof.
    induction n as [|n IH]; [destruct (active _); reflexivity|]. cbn [blocks repeat app open_of]. fold (blocks n). rewrite conds_blocks, IH.
    destruct (active (conds_of g)); reflexivity.
  Qed.
  Lemma layer_here holds n : (language c = M_Config.C -> cpp_compat c = false -> n = 0) ->
    here BlankLine Plain (cc holds b n (guarded_by holds b)) = layer holds b n.
  Proof.
    intro Z. unfold here, layer, cc, seen_as_cxx, cpp_compatible_c. fold c. destruct TAME as (L & _). unfold c in *.
    destruct (language (b_config b)); [| |contradiction]; cbn [Language_eqb andb].
    - rewrite conds_blocks, blocks_open, guard_conds, guard_open, app_nil_r, andb_true_r. reflexivity.
    - destruct (cpp_compat (b_config b)); cbn [andb].
      + unfold v. destruct (holds _).
        * rewrite conds_blocks, blocks_open, guard_conds, guard_open, app_nil_r, andb_true_r. reflexivity.
        * cbn [app]. rewrite guard_conds, guard_open, andb_false_r. reflexivity.
      + rewrite (Z eq_refl eq_refl). cbn [blocks repeat app]. rewrite guard_conds, guard_open, andb_false_r. reflexivity.
  Qed.
  Lemma count_namespaces : (language c = M_Config.C /\ cpp_compat c = false /\ length (all_namespaces b) = 0)
    \/ length (all_namespaces b) = namespace_count b.
  Proof.
    unfold all_namespaces, namespace_count, cpp_compatible_c. fold c. destruct TAME as (L & _). unfold c in *.
    assert (N : length (match namespace (b_config b) with Some n => [n] | None => [] end ++ match namespaces (b_config b) with Some l => l | None => [] end)%list
      = match namespace (b_config b) with Some _ => 1 | None => 0 end + match namespaces (b_config b) with Some l => length l | None => 0 end).
    { rewrite app_length. destruct (namespace (b_config b)), (namespaces (b_config b)); reflexivity. }
    destruct (language (b_config b)); [| |contradiction]; cbn [Language_eqb negb andb].
    - right. exact N.
    - destruct (cpp_compat (b_config b)); cbn [negb andb]; [right; exact N|left; auto].
  Qed.
  Lemma layer_plain holds n m : language c = M_Config.C -> cpp_compat c = false -> layer holds b n = layer holds b m.
  Proof. intros L C. unfold layer, seen_as_cxx. fold c. rewrite L, C. rewrite andb_false_r. reflexivity. Qed.
  Lemma namespaces_layer holds : here BlankLine Plain (inside_namespaces holds b (guarded_by holds b)) = layer holds b (namespace_count b).
  Proof.
    unfold inside_namespaces. destruct count_namespaces as [(L & C & N)|N].
    - rewrite N, layer_here; [|auto]. apply layer_plain; assumption.
    - rewrite N. destruct (Language_eqb (language c) M_Config.C && negb (cpp_compat c)) eqn:P.
      + apply andb_prop in P as [P1 P2]. apply negb_true_iff in P2. assert (L : language c = M_Config.C) by (destruct (language c); try discriminate; reflexivity).
        pose proof count_namespaces as [(_ & _ & N')|_]; [|].
        * rewrite <- N, N', layer_here; [|auto]. reflexivity.
        * unfold all_namespaces, cpp_compatible_c in N. fold c in N. rewrite L, P2 in N. cbn in N. rewrite <- N, layer_here; auto.
      + apply layer_here. intros L C. rewrite L, C in P. discriminate.
  Qed.

  Lemma head_read holds p1 p2 w : write_headers b = Done p1 -> open_namespaces b = Done p2 -> run (seq p1 p2) writer_new = Some w ->
    read holds outset (w_out w) = Some (layer holds b (namespace_count b)).
  Proof.
    intros E1 E2 R. destruct TAME as (L & E & X & B & N & I & K & G & F).
    pose proof (OT_seq holds tabw le false (fresh []) (write_headers b) false _ (open_namespaces b) false _
      (W_headers holds b L E X B false) (W_open_namespaces holds b L E X false (guarded_by holds b))) as A.
    assert (D : then_ (write_headers b) (open_namespaces b) = Done (seq p1 p2)) by (rewrite E1, E2; reflexivity).
    destruct (A _ D writer_new w outset eq_refl) as (_ & t & s & O & RD & Q); [unfold late; cbn; lia|exact R|].
    cbn [w_out writer_new append] in O. subst t. rewrite RD, Q. f_equal. apply namespaces_layer.
  Qed.
  Lemma tail_read holds p w w' t : tail_of b = Done p -> run p w = Some w' -> w_out w' = w_out w ++ t -> counted w ->
    read holds (layer holds b (namespace_count b)) t = Some outset.
  Proof.
    intros E0 R O C. destruct TAME as (L & E & X & B & N & I & K & G & F).
    pose proof (OT_seq holds tabw le false _ (close_namespaces b) false _ _ false _
      (W_close_namespaces holds b L E X false (guarded_by holds b))
      (OT_seq holds tabw le false _ (write_footers b) false _ (write_trailer b) false _ (W_footers holds b L E X false) (W_trailer holds b E B false))) as A.
    destruct (A _ E0 w w' _ eq_refl) as (_ & t' & s & O' & RD & Q); [unfold late; destruct C; lia|exact R|].
    rewrite O in O'. apply sapp_inj_l in O'. subst t'. rewrite namespaces_layer in RD. rewrite RD, Q. reflexivity.
  Qed.

  (** The same file with a single hidden function, when there is any symbol. *)
  Definition hidden : Function :=
    {| f_path := "f"; f_self_type_path := None; f_ret := TPrim PVoid; f_args := []; f_extern_decl := false; f_cfg := None;
       f_annotations := {| an_values := [("no-export", ABool true)]; an_must_use := false; an_deprecated := None |};
       f_documentation := []; f_never_return := false |}.
  Definition hollow : Bindings :=
    {| b_config := b_config b; b_struct_map := b_struct_map b; b_enum_map := b_enum_map b; b_typedef_map := b_typedef_map b;
       b_constants := []; b_globals := []; b_items := []; b_functions := if any_symbol b then [hidden] else [];
       b_source_files := b_source_files b; b_noop := b_noop b; b_package_version := b_package_version b |}.
  Lemma hollow_symbols : has_symbols hollow = any_symbol b.
  Proof. unfold has_symbols, hollow. cbn. destruct (any_symbol b); reflexivity. Qed.
  Lemma hollow_functions : write_functions_default hollow = (if any_symbol b then Done (seq PRet PRet) else nothing).
  Proof. unfold write_functions_default, hollow. cbn [b_functions]. destruct (any_symbol b); reflexivity. Qed.

  Definition prints (o : outcome prog) (s : string) : Prop :=
    exists p, o = Done p /\ forall w, w_spaces w = [0] -> exists w', run p w = Some w' /\ w_out w' = w_out w ++ s /\ w_spaces w' = [0].
  Lemma prints_seq p s q s' : prints p s -> prints q s' -> prints (then_ p q) (s ++ s').
  Proof.
    intros (x & -> & A) (y & -> & B). exists (seq x y). split; [reflexivity|]. intros w Z. destruct (A w Z) as (w1 & R1 & O1 & Z1).
    destruct (B w1 Z1) as (w2 & R2 & O2 & Z2). exists w2. rewrite run_seq, R1. split; [exact R2|]. split; [rewrite O2, O1, sapp_assoc; reflexivity|exact Z2].
  Qed.
  Lemma prints_text s : prints (text s) s.
  Proof.
    exists (write s). split; [reflexivity|]. intros w Z. cbn [write M_Writer.run]. unfold inner_write.
    destruct (String.eqb s "") eqn:S; [apply String.eqb_eq in S; subst s; exists w; rewrite sapp_nil_r; auto|].
    destruct (w_started w); [eexists; split; [reflexivity|auto]|]. rewrite Z. eexists. split; [reflexivity|]. auto.
  Qed.
  Lemma prints_line : prints line le.
  Proof. exists newline. split; [reflexivity|]. intros w Z. eexists. split; [reflexivity|]. auto. Qed.
  Lemma prints_nothing : prints nothing "".
  Proof. exists PRet. split; [reflexivity|]. intros w Z. exists w. rewrite sapp_nil_r. auto. Qed.
  Lemma prints_each {A} (f : A -> outcome prog) (g : A -> string) xs : (forall x, prints (f x) (g x)) -> prints (each f xs) (sconcat (map g xs)).
  Proof. intro K. induction xs as [|x xs IH]; [apply prints_nothing|]. cbn [each map sconcat]. apply prints_seq; [apply K|exact IH]. Qed.
  Lemma prints_eq o s s' : prints o s -> s = s' -> prints o s'.
  Proof. intros A ->. exact A. Qed.

  Lemma place_zero top : w_spaces (place b top) = [0].
  Proof. cbn [place w_spaces]. fold c. rewrite not_cython_. reflexivity. Qed.
  Lemma start_printed p s top : prints p s -> forall q, then_ (Done newline_if_not_start) p = Done q ->
    exists w', run q (place b top) = Some w' /\ w_out w' = (if top then "" else le) ++ s /\ w_spaces w' = [0].
  Proof.
    intros (x & -> & A) q E. injection E as <-. cbn [seq newline_if_not_start M_Writer.run].
    destruct (A (new_line_if_not_start le (place b top))) as (w & R & O & Z).
    - unfold new_line_if_not_start. destruct top; cbn [w_lineno place Nat.eqb]; [apply place_zero|exact (place_zero false)].
    - exists w. split; [exact R|]. split; [|exact Z]. rewrite O. unfold new_line_if_not_start. destruct top; reflexivity.
  Qed.
  Lemma opening_run upper : exists p w, write_globals hollow = Done p /\ run p (place b (is_top upper)) = Some w /\ w_out w = extern_opening b upper.
  Proof.
    unfold write_globals. cbn [b_config hollow]. fold c. rewrite not_cython_. unfold clike_globals. rewrite hollow_symbols. unfold extern_opening.
    destruct (any_symbol b); cbn [when negb]; [|exists PRet, (place b (is_top upper)); auto].
    unfold extern_c, cpp_compatible_c. cbn [b_config hollow]. fold c. change (write_globals_default hollow) with nothing.
    destruct TAME as (L & _). fold c in L. destruct (language c) eqn:LA; [| |contradiction]; cbn [Language_eqb andb orb when].
    - assert (U : prints (if_some (using_namespaces c) (fun l => then_ (each (fun n => then_ line (text ("using namespace " ++ n ++ ";"))) l) line))
        (match using_namespaces c with Some l => sconcat (map (fun n => le ++ "using namespace " ++ n ++ ";") l) ++ le | None => "" end)).
      { destruct (using_namespaces c); cbn [if_some]; [|apply prints_nothing]. apply prints_seq; [|apply prints_line].
        apply prints_each. intro n. apply prints_seq; [apply prints_line|apply prints_text]. }
      destruct (prints_seq _ _ _ _ prints_nothing (prints_seq _ _ _ _ U (prints_seq _ _ _ _ (prints_seq _ _ _ _ prints_line (prints_seq _ _ _ _ (prints_text ("extern " ++ quoted "C" ++ " {")) prints_line))
        (prints_seq _ _ _ _ prints_nothing prints_nothing)))) as (p & E & A).
      destruct (A (place b (is_top upper)) (place_zero _)) as (w & R & O & _). exists p, w. split; [exact E|]. split; [exact R|].
      rewrite O. cbn [w_out place append]. unfold le, quoted. rewrite ?sapp_nil_r, ?sapp_assoc. reflexivity.
    - destruct (cpp_compat c); cbn [when].
      + pose proof (prints_seq _ _ _ _ prints_nothing (prints_seq _ _ _ _ (prints_seq _ _ _ _ prints_line (prints_seq _ _ _ _ (prints_text ("extern " ++ quoted "C" ++ " {")) prints_line))
          (prints_seq _ _ _ _ (prints_seq _ _ _ _ (prints_text "#endif // __cplusplus") prints_line) prints_nothing))) as (p & E & A).
        pose proof (prints_text "#ifdef __cplusplus") as (p0 & E0 & A0).
        assert (D : then_ (Done newline_if_not_start) (text "#ifdef __cplusplus") = Done (seq newline_if_not_start p0)) by (rewrite E0; reflexivity).
        destruct (start_printed _ _ (is_top upper) (prints_text "#ifdef __cplusplus") _ D) as (w0 & R0 & O0 & Z0).
        destruct (A w0 Z0) as (w & R & O & _). exists (seq (seq newline_if_not_start p0) p), w.
        split; [rewrite D; rewrite E; reflexivity|]. split; [rewrite run_seq, R0; exact R|].
        rewrite O, O0. unfold gap, le, quoted. rewrite ?sapp_nil_r, ?sapp_assoc. reflexivity.
      + exists (seq PRet (seq PRet (seq PRet (seq PRet PRet)))), (place b (is_top upper)). auto.
  Qed.
  Lemma closing_run : exists p w, write_functions hollow = Done p /\ run p (place b false) = Some w /\ w_out w = extern_closing b.
  Proof.
    unfold write_functions. cbn [b_config hollow]. fold c. rewrite not_cython_. unfold clike_functions. rewrite hollow_symbols, hollow_functions. unfold extern_closing.
    destruct (any_symbol b); cbn [when negb]; [|exists PRet, (place b false); auto].
    unfold extern_c, cpp_compatible_c. cbn [b_config hollow]. fold c. change (Done (seq PRet PRet)) with nothing.
    destruct TAME as (L & _). fold c in L. destruct (language c) eqn:LA; [| |contradiction]; cbn [Language_eqb andb orb when].
    - destruct (prints_seq _ _ _ _ prints_nothing (prints_seq _ _ _ _ prints_nothing
        (prints_seq _ _ _ _ (prints_seq _ _ _ _ prints_line (prints_seq _ _ _ _ (prints_text ("}  // extern " ++ quoted "C")) prints_line)) prints_nothing))) as (p & E & A).
      destruct (A (place b false) (place_zero _)) as (w & R & O & _). exists p, w. split; [exact E|]. split; [exact R|].
      rewrite O. cbn [w_out place append]. unfold le, quoted. rewrite ?sapp_nil_r, ?sapp_assoc. reflexivity.
    - destruct (cpp_compat c); cbn [when].
      + destruct (prints_seq _ _ _ _ prints_nothing (prints_seq _ _ _ _ (prints_seq _ _ _ _ prints_line (prints_text "#ifdef __cplusplus"))
          (prints_seq _ _ _ _ (prints_seq _ _ _ _ prints_line (prints_seq _ _ _ _ (prints_text ("}  // extern " ++ quoted "C")) prints_line))
          (prints_seq _ _ _ _ (prints_text "#endif  // __cplusplus") prints_line)))) as (p & E & A).
        destruct (A (place b false) (place_zero _)) as (w & R & O & _). exists p, w. split; [exact E|]. split; [exact R|].
        rewrite O. cbn [w_out place append]. unfold le, quoted. rewrite ?sapp_nil_r, ?sapp_assoc. reflexivity.
      + exists (seq PRet (seq PRet (seq PRet PRet))), (place b false). auto.
  Qed.
  Lemma extern_layer holds : here BlankLine Plain (inside_extern holds hollow (inside_namespaces holds b (guarded_by holds b)))
    = layer holds b (namespace_count b + extern_count b).
  Proof.
    unfold inside_extern. rewrite hollow_symbols. unfold extern_count, extern_c, cpp_compatible_c. cbn [b_config hollow]. fold c.
    destruct (any_symbol b); cbn [andb]; [|rewrite Nat.add_0_r; apply namespaces_layer].
    destruct TAME as (L & _). fold c in L. destruct (language c) eqn:LA; [| |contradiction]; cbn [Language_eqb andb orb].
    - assert (X : cc holds hollow 1 (inside_namespaces holds b (guarded_by holds b)) = cc holds b (S (length (all_namespaces b))) (guarded_by holds b)).
      { unfold inside_namespaces, cc, cpp_compatible_c. cbn [b_config hollow]. fold c. rewrite LA. reflexivity. }
      rewrite X, layer_here by (rewrite LA; discriminate). f_equal. destruct count_namespaces as [(Z & _)|N]; [congruence|]. lia.
    - destruct (cpp_compat c) eqn:P.
      + assert (X : cc holds hollow 1 (inside_namespaces holds b (guarded_by holds b)) = cc holds b (S (length (all_namespaces b))) (guarded_by holds b)).
        { unfold inside_namespaces, cc, cpp_compatible_c. cbn [b_config hollow]. fold c. rewrite LA, P. cbn. destruct (v holds); reflexivity. }
        rewrite X, layer_here by (rewrite P; discriminate). f_equal. destruct count_namespaces as [(_ & Z & _)|N]; [congruence|]. lia.
      + rewrite namespaces_layer. apply layer_plain; assumption.
  Qed.
  Lemma opening_read holds upper : read holds (layer holds b (namespace_count b)) (extern_opening b upper) = Some (layer holds b (namespace_count b + extern_count b)).
  Proof.
    destruct (opening_run upper) as (p & w & E & R & O). destruct TAME as (L & LE & X & B & N & I & K & G & F).
    destruct (W_globals holds hollow L LE X eq_refl false (inside_namespaces holds b (guarded_by holds b)) p E (place b (is_top upper)) w _ eq_refl) as (_ & t & s & O' & RD & Q).
    - unfold late. cbn. destruct (is_top upper); lia.
    - exact R.
    - cbn [w_out place append] in O'. rewrite O in O'. subst t. rewrite namespaces_layer in RD. rewrite RD, Q, extern_layer. reflexivity.
  Qed.
  Lemma closing_read holds : read holds (layer holds b (namespace_count b + extern_count b)) (extern_closing b) = Some (layer holds b (namespace_count b)).
  Proof.
    destruct closing_run as (p & w & E & R & O). destruct TAME as (L & LE & X & B & N & I & K & G & F).
    assert (FF : forallb (tame_function hollow) (b_functions hollow) = true) by (cbn [b_functions hollow]; destruct (any_symbol b); reflexivity).
    destruct (W_functions holds hollow L LE X FF false (inside_namespaces holds b (guarded_by holds b)) p E (place b false) w _ eq_refl) as (_ & t & s & O' & RD & Q).
    - unfold late. cbn. lia.
    - exact R.
    - cbn [w_out place append] in O'. rewrite O in O'. subst t. rewrite extern_layer in RD. rewrite RD, Q, namespaces_layer. reflexivity.
  Qed.

  Lemma laid_texts before ds ts after : laid fuel b before ds ts after -> forall P : string -> Prop,
    (forall d top t, In d ds -> alone fuel b top d t -> P t) -> Forall P ts.
  Proof. induction 1; intros P K; constructor; [eapply K; [left; reflexivity|eassumption]|]. apply IHlaid. intros d' top t' I A. eapply K; [right; exact I|exact A]. Qed.
  Lemma texts_read holds g ts before ds after : (forall d, In d ds -> declared d) -> laid fuel b before ds ts after ->
    Forall (fun t => read holds (here BlankLine Plain g) (t ++ le) = Some (here BlankLine Plain g)) ts.
  Proof. intros D L. apply (laid_texts _ _ _ _ L). intros d top t I A. exact (alone_read holds top d t g (D d I) A). Qed.

  Lemma layers t : b_noop b = false -> bindings_text fuel b = Done t ->
    exists head defs syms tail upper lower,
      laid fuel b head (definitions b) defs upper
      /\ laid fuel b (upper ++ extern_opening b upper) (symbols b) syms lower
      /\ t = lower ++ extern_closing b ++ tail
      /\ forall holds,
        let n := namespace_count b in
        let inner := n + extern_count b in
        read holds outset head = Some (layer holds b n)
        /\ Forall (fun x => read holds (layer holds b n) (x ++ le) = Some (layer holds b n)) defs
        /\ read holds (layer holds b n) (extern_opening b upper) = Some (layer holds b inner)
        /\ Forall (fun x => read holds (layer holds b inner) (x ++ le) = Some (layer holds b inner)) syms
        /\ read holds (layer holds b inner) (extern_closing b) = Some (layer holds b n)
        /\ read holds (layer holds b n) tail = Some outset.
  Proof.
    intros N E. unfold bindings_text in E. rewrite N in E. destruct (write_bindings fuel b) as [p| |] eqn:P; try discriminate.
    unfold run_config in E. fold c in E. fold tabw in E. fold le in E. destruct (run p writer_new) as [w'|] eqn:R; [|discriminate]. cbn [of_option] in E. injection E as <-.
    destruct (file_written fuel b p w' P R) as (h & ds & ss & tl & (upper & lower & L1 & L2 & W) & (p1 & p2 & wh & E1 & E2 & RH & OH) & (p8 & wt & wt' & E8 & RT & OT_ & CT) & _).
    assert (PS : cython_pass b = "") by (unfold cython_pass; fold c; rewrite not_cython_; reflexivity).
    exists h, ds, ss, tl, upper, lower. split; [exact L1|]. split; [exact L2|]. split; [rewrite W, PS; reflexivity|].
    intros holds n inner. subst h. repeat split.
    - exact (head_read holds p1 p2 wh E1 E2 RH).
    - unfold n. rewrite <- namespaces_layer. refine (texts_read holds _ ds _ (definitions b) upper _ L1). intros d I. apply declared_all. auto.
    - apply opening_read.
    - unfold inner, n. rewrite <- extern_layer. refine (texts_read holds _ ss _ (symbols b) lower _ L2). intros d I. apply declared_all. auto.
    - apply closing_read.
    - exact (tail_read holds p8 wt wt' tl E8 RT OT_ CT).
  Qed.
  Lemma whole_self_contained holds t : bindings_text fuel b = Done t -> self_contained holds t.
  Proof.
    intro E. unfold bindings_text in E. destruct (b_noop b); [injection E as <-; reflexivity|]. destruct (write_bindings fuel b) as [p| |] eqn:P; try discriminate.
    unfold run_config in E. fold c in E. fold tabw in E. fold le in E. destruct (run p writer_new) as [w'|] eqn:R; [|discriminate]. cbn [of_option] in E. injection E as <-.
    destruct TAME as (L & LE & X & B & N & I & K & G & F).
    destruct (W_bindings holds fuel b L LE X B N I K G F false p P writer_new w' outset eq_refl) as (_ & t & s & O & RD & Q); [unfold late; cbn; lia|exact R|].
    cbn [w_out writer_new append] in O. subst t. unfold self_contained. rewrite RD, Q. reflexivity.
  Qed.
  Lemma declaration_self_contained holds d top t : In d (definitions b) \/ In d (symbols b) -> alone fuel b top d t -> self_contained holds (t ++ le).
  Proof. intros I A. exact (alone_read holds top d t [] (declared_all d I) A). Qed.
End Layers.
