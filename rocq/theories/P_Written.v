(** Every declaration starts at the start of a line and leaves the outline as
    it found it. *)
Require Import Coq.Strings.String Coq.Strings.Ascii Coq.Lists.List Coq.Bool.Bool Coq.Arith.Arith Lia NArith.
From Verif Require Import Base P_Base M_Config M_Writer S_Writer P_Writer M_Cfg P_Cfg M_Type M_Ir M_Item M_Library M_Cdecl M_Bindings M_Docs M_Literal M_Syn M_Backend
  S_Lex S_Comment S_Outline S_Tame P_Outline P_Triples P_Shape P_Inline P_Notes.
Import ListNotations.
Open Scope string_scope.
Local Opaque gd.

Section Written.
  Context {H : Heck}.
  Variables (holds : string -> bool) (fuel : nat) (b : Bindings).
  Let c := b_config b.
  Let tabw := tab_width c.
  Let le := LineEndingStyle_as_str (line_endings c).
  Hypothesis LANG : language c <> Cython.
  Hypothesis LEC : line_endings c <> CR.
  Hypothesis TEXTS : tame_texts b = true.
  Hypothesis BLOCKS : tame_blocks b.
  Hypothesis ENUMS : tame_enums b.
  Notation OT := (OT holds tabw le).
  Notation T := (T holds tabw le).
  Notation mid := P_Triples.mid.
  Notation eol := (P_Triples.eol holds le).

  (** *** The texts of the configuration *)
  Ltac texts := let TX := fresh "TX" in pose proof TEXTS as TX; unfold tame_texts in TX; fold c in TX; repeat match goal with A : _ && _ = true |- _ => apply andb_prop in A as [? ?] end.
  Lemma macros : macros_ok c = true.
  Proof. texts. assumption. Qed.
  Definition attribute_list : list (option string) :=
    [fn_prefix (function c); fn_postfix (function c); fn_must_use (function c); fn_deprecated (function c);
                           fn_swift_name_macro (function c); fn_no_return (function c);
                           st_must_use (structure c); st_deprecated (structure c);
                           en_must_use (enumeration c); en_deprecated (enumeration c); en_deprecated_variant (enumeration c);
                           en_cast_assert_name (enumeration c);
                           ly_packed (layout c); ly_aligned_n (layout c);
                           pt_non_null_attribute (pointer c); pt_nullable_attribute (pointer c)].
  Lemma attribute_calm o x : In o attribute_list -> o = Some x -> calm x = true.
  Proof.
    intros I ->.
    assert (A : forallb (opt calm) attribute_list = true) by (texts; assumption).
    exact (proj1 (forallb_forall _ _) A (Some x) I).
  Qed.
  Lemma attributes : attributes_ok c = true.
  Proof.
    assert (K : forall o, In o attribute_list -> opt calm o = true).
    { intros [x|] I; [exact (attribute_calm _ x I eq_refl)|reflexivity]. }
    unfold attributes_ok. rewrite !K by (unfold attribute_list; cbn [In]; tauto). reflexivity.
  Qed.
  Lemma arg_words n : In n ["other"; "stream"; "instance"] -> wordy (renamed_arg b n) = true.
  Proof.
    intro I. texts. match goal with A : forallb _ ["other"; "stream"; "instance"] = true |- _ => exact (proj1 (forallb_forall _ _) A n I) end.
  Qed.
  Lemma note_effect k a n g : deprecated_note c k a = Some n -> effect holds Plain g n Plain g.
  Proof.
    assert (F : forall o x, In o [fn_deprecated_with_note (function c); st_deprecated_with_note (structure c);
                                  en_deprecated_with_note (enumeration c); en_deprecated_variant_with_note (enumeration c)] -> o = Some x -> tame_format x = true).
    { intros o x I ->. texts.
      match goal with A : forallb (opt tame_format) _ = true |- _ => exact (proj1 (forallb_forall _ _) A (Some x) I) end. }
    unfold deprecated_note. destruct (an_deprecated a) as [note|]; [|discriminate].
    destruct (Language_eqb (language c) Cython); [discriminate|].
    destruct (String.eqb note "").
    - intro E. apply effect_calm. destruct k; (eapply attribute_calm; [|exact E]; unfold attribute_list; cbn [In]; tauto).
    - intro E. match type of E with match ?m with _ => _ end = _ => destruct m as [f|] eqn:M; [|discriminate] end. injection E as <-.
      apply format_effect. destruct k; (eapply F; [|exact M]; cbn [In]; tauto).
  Qed.
  Lemma atom_calm a n x : tame_notes a = true -> an_atom a n = Some (Some x) -> calm x = true.
  Proof.
    unfold tame_notes, an_atom. intros A E. destruct (lookup n (an_values a)) as [v|] eqn:L; [|discriminate].
    apply lookup_In in L. pose proof (proj1 (forallb_forall _ _) A _ L) as K. cbn [snd] in K. destruct v; try discriminate. injection E as ->. exact K.
  Qed.

  (** *** Steps *)
  Lemma le_ok : unix_or_dos le. Proof. exact (LE c LEC). Qed.
  Lemma S_line_fresh l g : OT l (fresh g) line l (fresh g).
  Proof. eapply OT_pre; [apply OT_line|apply fresh_eol, le_ok]. Qed.
  Lemma S_line_mid l g : OT l (mid g) line l (fresh g).
  Proof. eapply OT_pre; [apply OT_line|apply mid_eol, le_ok]. Qed.
  Lemma S_text_fresh l g s g' : effect holds Plain g s Plain g' -> OT l (fresh g) (text s) l (mid g').
  Proof. intro E. eapply OT_pre; [apply OT_text; exact E|apply fresh_mid]. Qed.
  Lemma S_opened_true l g : OT l (mid g) (opened b) true (fresh (Br "{" :: g)).
  Proof. apply OT_done, (T_open holds c LANG LEC). Qed.
  Lemma S_opened l g : OT l (mid g) (opened b) l (fresh (Br "{" :: g)).
  Proof. apply OT_forget, S_opened_true. Qed.
  Lemma S_closed l g semi : OT l (eol (Br "{" :: g)) (closed b semi) l (mid g).
  Proof. apply OT_forget, OT_done, (T_close holds c LANG). Qed.
  Lemma S_closed_mid l g semi : OT l (mid (Br "{" :: g)) (closed b semi) l (mid g).
  Proof. eapply OT_pre; [apply S_closed|apply mid_eol, le_ok]. Qed.
  Lemma S_closed_fresh l g semi : OT l (fresh (Br "{" :: g)) (closed b semi) l (mid g).
  Proof. eapply OT_pre; [apply S_closed|apply fresh_eol, le_ok]. Qed.
  Definition under_ (cfg : option Cfg) (g : list entry) : list entry := gd holds c (guard b cfg) g.
  Lemma S_before l cfg g : OT l (fresh g) (before b (guard b cfg)) l (fresh (under_ cfg g)).
  Proof. apply OT_done, (T_before holds c LANG LEC). apply (guard_keepable c LANG macros). Qed.
  Lemma S_after l cfg g : OT l (eol (under_ cfg g)) (after b (guard b cfg)) l (eol g).
  Proof. apply OT_done, (T_after holds c LANG LEC). Qed.
  Lemma S_after_mid l cfg g : OT l (mid (under_ cfg g)) (after b (guard b cfg)) l (eol g).
  Proof. eapply OT_pre; [apply S_after|apply mid_eol, le_ok]. Qed.
  Lemma S_docs l d g : tame_doc b d = true -> OT l (fresh g) (docs b d) l (fresh g).
  Proof. intro A. apply OT_done, (T_docs holds c LANG LEC), A. Qed.
  Lemma S_block l g x : own_lines b x -> OT l (fresh g) (raw_block x) l (eol g).
  Proof. intro A. apply OT_done, T_raw, T_block. exact A. Qed.
  Lemma of_option_done {A} (o : option A) x : of_option o = Done x -> o = Some x.
  Proof. destruct o; [intro E; injection E as ->; reflexivity|discriminate]. Qed.
  Lemma S_type l g t : tame_ty t = true -> OT l (mid g) (type_text b t) l (mid g).
  Proof.
    intros A p E. apply of_option_done in E.
    apply (T_type holds c attributes mid (inline_mid holds c) l g t p E A). left. apply (broken_mid holds c LEC).
  Qed.
  Lemma S_field l g t n : tame_ty t = true -> calm n = true -> OT l (mid g) (of_option (write_field c t n)) l (mid g).
  Proof.
    intros A W p E. apply of_option_done in E.
    apply (T_field holds c attributes mid (inline_mid holds c) l g t n p E A W). apply (broken_mid holds c LEC).
  Qed.
  Lemma S_literal l g v : tame_literal v = true -> OT l (mid g) (write_literal fuel b v) l (mid g).
  Proof.
    intros A p E. rewrite (write_literal_clike fuel b LANG) in E.
    exact (T_literal holds fuel b LANG LEC attributes macros ENUMS mid (inline_mid holds c) v A (or_introl eq_refl) p E l g).
  Qed.
  Lemma S_constant l g k s : tame_constant b s k = true -> OT l (fresh g) (Constant_write fuel b k s) l (eol g).
  Proof. intro A. apply (T_constant holds fuel b LANG LEC attributes macros ENUMS k s A). Qed.
  Lemma S_constant_declaration l g k s : tame_constant b s k = true -> OT l (fresh g) (of_option (Constant_write_declaration b k)) l (eol g).
  Proof.
    intro A. unfold tame_constant in A. repeat match goal with A : _ && _ = true |- _ => apply andb_prop in A as [? ?] end.
    apply (T_constant_declaration holds b LANG LEC attributes macros); assumption.
  Qed.
  Lemma S_spaced l g o : (forall x, o = Some x -> effect holds Plain g x Plain g) -> OT l (mid g) (spaced o) l (mid g).
  Proof. intro A. apply OT_if_some; [|apply incl_refl]. intros x E. apply OT_text. eapply effect_app; [eff|exact (A x E)]. Qed.
  Lemma S_must_use l g a o : In o attribute_list -> OT l (mid g) (spaced (must_use_text c a o)) l (mid g).
  Proof.
    intro I. apply S_spaced. intros x E. apply effect_calm. unfold must_use_text in E. destruct (must_use c a); [|discriminate].
    exact (attribute_calm o x I E).
  Qed.
  Lemma S_note l g k a : OT l (mid g) (spaced (deprecated_note c k a)) l (mid g).
  Proof. apply S_spaced. intros x E. exact (note_effect k a x g E). Qed.

  (** One step of a sequence.  [step] starts with it; [keep] is for a part that
      may be missing. *)
  Ltac lazy_attr := unfold attribute_list; cbn [In]; tauto.
  Ltac base :=
    lazymatch goal with
    | |- P_Triples.OT _ _ _ _ (fresh _) line _ _ => apply S_line_fresh
    | |- P_Triples.OT _ _ _ _ (mid _) line _ _ => apply S_line_mid
    | |- P_Triples.OT _ _ _ _ _ line _ _ => apply OT_line
    | |- P_Triples.OT _ _ _ _ (fresh _) (text _) _ _ => apply S_text_fresh; eff
    | |- P_Triples.OT _ _ _ _ (mid _) (text _) _ _ => apply OT_text; eff
    | |- P_Triples.OT _ _ _ _ (fresh _) (opened _) _ _ => eapply OT_pre; [apply S_opened|apply fresh_mid]
    | |- P_Triples.OT _ _ _ _ (mid _) (opened _) _ _ => apply S_opened
    | |- P_Triples.OT _ _ _ _ (fresh _) (closed _ _) _ _ => apply S_closed_fresh
    | |- P_Triples.OT _ _ _ _ (mid _) (closed _ _) _ _ => apply S_closed_mid
    | |- P_Triples.OT _ _ _ _ _ (closed _ _) _ _ => apply S_closed
    | |- P_Triples.OT _ _ _ _ _ (before _ _) _ _ => apply S_before
    | |- P_Triples.OT _ _ _ _ (mid _) (after _ _) _ _ => apply S_after_mid
    | |- P_Triples.OT _ _ _ _ _ (after _ _) _ _ => apply S_after
    | |- P_Triples.OT _ _ _ _ _ (docs _ _) _ _ => apply S_docs; assumption
    | |- P_Triples.OT _ _ _ _ _ (type_text _ _) _ _ => apply S_type; assumption
    | |- P_Triples.OT _ _ _ _ _ (of_option (write_field _ _ _)) _ _ => apply S_field; [assumption|try apply wordy_calm; assumption]
    | |- P_Triples.OT _ _ _ _ _ (spaced (deprecated_note _ _ _)) _ _ => apply S_note
    | |- P_Triples.OT _ _ _ _ _ (spaced (must_use_text _ _ _)) _ _ => apply S_must_use; lazy_attr
    | |- P_Triples.OT _ _ _ _ _ nothing _ _ => apply OT_nothing
    end.
  Ltac seq_ := lazymatch goal with |- P_Triples.OT _ _ _ _ _ (then_ _ _) _ _ => eapply OT_seq end.
  Ltac step := seq_; [base|].
  Ltac steps := repeat (seq_; [solve [base]|]); try solve [base].
  Ltac maybe := apply OT_when; [intros _|try apply incl_refl].
  Ltac mid_ := eapply OT_pre; [|apply fresh_mid].
  Ltac eol_ := eapply OT_post; [|apply mid_eol, le_ok].

  (** *** Fields and variants *)
  Ltac split_hyps := repeat match goal with A : _ && _ = true |- _ => apply andb_prop in A as [? ?] end.
  Lemma S_after_line l cfg g : OT l (mid (under_ cfg g)) (then_ (after b (guard b cfg)) (when (is_some (guard b cfg)) line)) l (mid g).
  Proof.
    destruct (guard b cfg) as [k|] eqn:G; cbn [is_some when].
    - rewrite <- G. seq_; [base|]. eapply OT_post; [base|apply fresh_mid].
    - assert (under_ cfg g = g) as -> by (unfold under_; rewrite G; reflexivity). eapply OT_seq; apply OT_nothing.
  Qed.
  Lemma W_field l g f : tame_field b f = true -> OT l (fresh g) (backend_field b f) l (mid g).
  Proof.
    intro A. unfold tame_field in A. split_hyps. unfold backend_field. fold c. rewrite (not_cython c LANG). cbv zeta.
    steps. seq_; [mid_; base|].
    seq_; [|apply S_after_line].
    apply OT_if_some; [|apply incl_refl]. intros [n|] E; [|base].
    assert (calm n = true) by (eapply atom_calm; eassumption). base.
  Qed.
  Lemma W_fields l g fs : forallb (tame_field b) fs = true -> OT l (fresh g) (vertical fs (Cap ";") (backend_field b)) l (mid g).
  Proof.
    intro A. apply (OT_vertical_lines _ _ _ le_ok l g fs (Cap ";") ";"); [right; reflexivity|intro; eff|].
    intros f I. apply W_field. exact (proj1 (forallb_forall _ _) A f I).
  Qed.
  (** An argument: no condition, no documentation. *)
  Lemma W_argument l g n t : calm n = true -> tame_ty t = true -> OT l (mid g) (backend_field b (from_name_and_type n t)) l (mid g).
  Proof.
    intros W A. unfold backend_field. fold c. rewrite (not_cython c LANG).
    change (guard b (fd_cfg (from_name_and_type n t))) with (@None Condition). cbv zeta. cbn [is_some when].
    change (fd_ty (from_name_and_type n t)) with t. change (fd_name (from_name_and_type n t)) with n.
    change (an_atom (fd_annotations (from_name_and_type n t)) "bitfield") with (@None (option string)). cbn [if_some].
    eapply OT_seq; [apply (OT_nothing holds tabw le)|].
    eapply OT_seq.
    { change (fd_documentation (from_name_and_type n t)) with (@nil string). apply OT_done.
      assert (E : write_documentation c [] = PRet) by (unfold write_documentation, clike_write_documentation; destruct (language c); [reflexivity|reflexivity|contradiction]).
      fold c. rewrite E. apply T_ret. }
    eapply OT_seq; [apply S_field; assumption|]. eapply OT_seq; [apply OT_nothing|]. eapply OT_seq; apply (OT_nothing holds tabw le).
  Qed.
  Lemma W_arguments l g xs : (forall n t, In (n, t) xs -> calm n = true /\ tame_ty t = true) ->
    OT l (mid g) (vertical (map (fun x => from_name_and_type (fst x) (snd x)) xs) (Join ",") (backend_field b)) l (mid g).
  Proof.
    intro A. apply (OT_vertical _ _ _ le_ok l g _ (Join ",") ","); [left; reflexivity|intro; eff|].
    intros f I. apply in_map_iff in I as ([n t] & <- & I). destruct (A n t I). apply W_argument; assumption.
  Qed.
  Lemma W_texts l g (xs : list string) sep : (forall g, effect holds Plain g sep Plain g) -> (forall x, In x xs -> effect holds Plain g x Plain g) ->
    OT l (mid g) (vertical xs (Join sep) text) l (mid g).
  Proof.
    intros S A. apply (OT_vertical _ _ _ le_ok l g xs (Join sep) sep); [left; reflexivity|exact S|]. intros x I. apply OT_text, A, I.
  Qed.

  Lemma W_variant l g v : tame_variant b v = true -> OT l (fresh g) (backend_variant fuel b v) l (eol g).
  Proof.
    intro A. unfold tame_variant in A. split_hyps. unfold backend_variant. fold c. rewrite (not_cython c LANG). cbv zeta.
    steps. seq_.
    { apply OT_if_some; [|apply incl_refl]. intros d E. match goal with A : opt tame_literal _ = true |- _ => rewrite E in A; cbn [opt] in A end.
      seq_; [base|]. apply S_literal; assumption. }
    steps.
  Qed.
  Lemma W_enumerators l g vs : forallb (tame_variant b) vs = true -> OT l (fresh g) (enumerators fuel b vs) l (eol g).
  Proof.
    induction vs as [|v vs IH]; intro A; [eapply OT_post; [apply OT_nothing|apply fresh_eol, le_ok]|].
    cbn [forallb] in A. apply andb_prop in A as [A1 A2]. destruct vs as [|w vs]; [apply W_variant, A1|].
    change (enumerators fuel b (v :: w :: vs)) with (then_ (backend_variant fuel b v) (then_ line (enumerators fuel b (w :: vs)))).
    eapply OT_seq; [apply W_variant, A1|]. step. exact (IH A2).
  Qed.

  (** *** Templates *)
  Lemma W_param l g d p : tame_param p = true -> OT l (mid g) (generic_param b d p) l (mid g).
  Proof.
    intro A. unfold tame_param in A. split_hyps. unfold generic_param. destruct (gp_ty p) as [|t].
    - step. destruct (gp_default p) as [[t|x]|]; cbn [opt tame_argument] in *.
      + step. base.
      + maybe. base.
      + maybe. base.
    - fold c. step. destruct (gp_default p) as [[u|x]|]; cbn [opt tame_argument] in *.
      + maybe. base.
      + base.
      + maybe. base.
  Qed.
  Lemma W_params l g d ps : forallb tame_param ps = true -> OT l (fresh g) (write_generic_params b d ps) l (fresh g).
  Proof.
    intro A. unfold write_generic_params. maybe. mid_. step. seq_; [|seq_; [apply OT_text; eff|base]].
    induction ps as [|p ps IH]; [apply OT_nothing|]. cbn [forallb] in A. apply andb_prop in A as [A1 A2].
    destruct ps as [|q ps]; [apply W_param, A1|].
    change (generic_params_text b d (p :: q :: ps)) with (then_ (generic_param b d p) (then_ (text ", ") (generic_params_text b d (q :: ps)))).
    eapply OT_seq; [apply W_param, A1|]. step. exact (IH A2).
  Qed.

  (** *** Derived operators *)
  Lemma S_renamed f : tame_field b f = true -> wordy (fd_name f) = true /\ wordy (renamed_arg b (fd_name f)) = true /\ tame_ty (fd_ty f) = true.
  Proof. intro A. unfold tame_field in A. split_hyps. repeat split; assumption. Qed.
  Ltac of_field A f I W1 W2 W3 := destruct (S_renamed f (proj1 (forallb_forall _ _) A f I)) as (W1 & W2 & W3).
  Lemma other_words : wordy (renamed_arg b "other") = true /\ wordy (renamed_arg b "stream") = true /\ wordy (renamed_arg b "instance") = true.
  Proof.
    pose proof TEXTS as TX. unfold tame_texts in TX. apply andb_prop in TX as [_ TX]. cbn [forallb] in TX. split_hyps. repeat split; assumption.
  Qed.
  Lemma W_constructor l g s : tame_struct b s = true -> OT l (eol g) (derived_constructor b s) l (eol g).
  Proof.
    intro A. unfold tame_struct in A. split_hyps. match goal with A : forallb (tame_field b) _ = true |- _ => rename A into F end.
    unfold derived_constructor. cbv zeta.
    steps. seq_.
    { apply (OT_vertical _ _ _ le_ok l (Br "(" :: g) _ (Join ",") ","); [left; reflexivity|intro; eff|].
      intros f I. apply in_map_iff in I as (f0 & <- & I). of_field F f0 I W1 W2 W3.
      apply W_argument; [|exact W3]. apply wordy_calm. exact W2. }
    steps. seq_.
    { apply W_texts; [intro; eff|]. intros x I. apply in_map_iff in I as (f & <- & I). of_field F f I W1 W2 W3. eff. }
    steps. eapply OT_post; [base|apply fresh_eol, le_ok].
  Qed.
  Definition quiet (s : string) : Prop := wordy s = true.
  Lemma W_binop l g k op other bits s : wordy k = true -> wordy op = true -> wordy other = true -> wordy bits = true -> wordy (s_export_name s) = true ->
    OT l (eol g) (bitflags_binop b k op other bits s) l (mid g).
  Proof. intros. unfold bitflags_binop. cbv zeta. steps. Qed.
  Lemma W_bitflags l g s : tame_struct b s = true -> OT l (eol g) (derived_bitflags b s) l (eol g).
  Proof.
    intro A. unfold tame_struct in A. split_hyps. match goal with A : forallb (tame_field b) _ = true |- _ => rename A into F end.
    destruct other_words as (O1 & _ & _).
    unfold derived_bitflags. fold c. destruct (s_fields s) as [|f [|? ?]]; [intros ? E; discriminate| |intros ? E; discriminate].
    of_field F f (or_introl eq_refl : In f [f]) W1 W2 W3. cbv zeta.
    set (k := if co_allow_constexpr (constant c) then "constexpr " else ""). assert (K : wordy k = true) by (unfold k; case_if; reflexivity). clearbody k.
    steps. cbn [each]. eapply OT_post; [|apply mid_eol, le_ok].
    seq_. { eapply OT_pre; [apply W_binop; auto|apply mid_eol, le_ok]. }
    seq_. { eapply OT_pre; [apply W_binop; auto|apply mid_eol, le_ok]. }
    seq_. { eapply OT_pre; [apply W_binop; auto|apply mid_eol, le_ok]. }
    base.
  Qed.
  Lemma W_ostream l g s : tame_struct b s = true -> OT l (eol g) (derived_ostream b s) l (eol g).
  Proof.
    intro A. unfold tame_struct in A. split_hyps. match goal with A : forallb (tame_field b) _ = true |- _ => rename A into F end.
    destruct other_words as (O1 & O2 & O3). unfold derived_ostream. cbv zeta. eol_. steps. seq_.
    { apply W_texts; [intro; eff|]. intros x I. apply in_map_iff in I as (f & <- & I). of_field F f I W1 W2 W3. eff. }
    steps.
  Qed.
  Lemma In_skipn {A} (x : A) n xs : In x (skipn n xs) -> In x xs.
  Proof. revert n. induction xs as [|y xs IH]; intros [|n] I; cbn [skipn In] in *; auto. right. exact (IH n I). Qed.
  Lemma W_attrs l g a n : tame_notes a = true -> OT l (mid g) (attrs_text a n) l (mid g).
  Proof.
    intros A. unfold attrs_text. destruct (an_atom a (n ++ "-attributes")) as [[x|]|] eqn:E; [|apply OT_nothing|apply OT_nothing].
    apply (atom_calm _ _ _ A) in E. base.
  Qed.
  Lemma W_op l g n op conj s : wordy op = true -> wordy conj = true -> tame_struct b s = true -> OT l (eol g) (derived_op b n op conj s) l (eol g).
  Proof.
    intros O J A. unfold tame_struct in A. split_hyps. match goal with A : forallb (tame_field b) _ = true |- _ => rename A into F end.
    destruct other_words as (O1 & O2 & O3). unfold derived_op. cbv zeta. eol_. steps. seq_.
    { mid_. apply W_attrs. assumption. }
    steps. seq_.
    { apply W_texts; [intro; eff|]. intros x I. apply in_map_iff in I as (f & <- & I).
      assert (In f (s_fields s)) by (destruct (s_has_tag_field s); [eapply In_skipn; exact I|exact I]).
      of_field F f H4 W1 W2 W3. eff. }
    steps.
  Qed.
  Lemma S_each {A} l P (f : A -> outcome prog) xs : (forall x, In x xs -> OT l P (f x) l P) -> OT l P (each f xs) l P.
  Proof. intro F. apply OT_each, F. Qed.
  Lemma W_derived l g s : tame_struct b s = true -> OT l (mid g) (write_derived_ops b s) l (eol g).
  Proof.
    intro A. unfold write_derived_ops. cbv zeta. eapply OT_seq with (Q := eol g).
    - apply OT_when; [|apply mid_eol, le_ok]. intros _. eapply OT_post; [base|apply fresh_eol, le_ok].
    - apply S_each. unfold derived_sections. cbv zeta. intros p I.
      repeat (apply in_app_or in I as [I|I]); (destruct (_ && _) in I || destruct (flag _ _ _) in I); cbn [In] in I; try contradiction;
        destruct I as [<-|[]];
        first [apply W_constructor | apply W_bitflags | apply W_ostream | apply W_op; [reflexivity|reflexivity|]]; exact A.
  Qed.

  (** *** Structs, unions, opaque items, typedefs, statics *)
  Lemma W_alignment l g al : OT l (mid g) (alignment_text b al) l (mid g).
  Proof.
    unfold alignment_text. fold c. destruct al as [[|n]|]; [| |base].
    - apply S_spaced. intros x E. apply effect_calm. eapply attribute_calm; [|exact E]. lazy_attr.
    - apply OT_if_some; [|apply incl_refl]. intros x E. assert (calm x = true) by (eapply attribute_calm; [|exact E]; lazy_attr).
      pose proof (wordy_decimal n). base.
  Qed.
  Lemma W_before_body l g p : OT l (fresh g) (before_body b p) l (fresh g).
  Proof.
    unfold before_body. fold c. apply OT_if_some; [|apply incl_refl]. intros x E. seq_; [apply S_block, (proj1 (proj2 BLOCKS) p x); left; exact E|base].
  Qed.
  Lemma W_after_body l g p : OT l (eol g) (after_body b p) l (eol g).
  Proof.
    unfold after_body. fold c. apply OT_if_some; [|apply incl_refl]. intros x E. step. apply S_block, (proj1 (proj2 BLOCKS) p x); right; exact E.
  Qed.
  Lemma W_close_item l g n : wordy n = true -> OT l (eol (Br "{" :: g)) (close_item b n) l (mid g).
  Proof. intro W. unfold close_item. case_if; steps. Qed.
  Lemma W_item_tag l g n : wordy n = true -> OT l (mid g) (item_tag b n) l (mid g).
  Proof. intro W. unfold item_tag. maybe. base. Qed.
  Lemma W_associated l g s : forallb (tame_constant b (Some s)) (s_associated_constants s) = true -> OT l (eol g) (associated_constants fuel b s) l (eol g).
  Proof.
    intro A. unfold associated_constants. apply S_each. intros k I. step. apply S_constant. exact (proj1 (forallb_forall _ _) A k I).
  Qed.
  Ltac to_mid := eapply OT_pre; [|apply fresh_mid].
  Lemma W_struct l g s : tame_struct b s = true -> OT l (fresh g) (write_struct fuel b s) l (eol g).
  Proof.
    intro T. pose proof T as A. unfold tame_struct in A. split_hyps. unfold write_struct. fold c. rewrite (not_cython c LANG).
    unfold clike_struct. cbv zeta. fold c. steps.
    seq_; [maybe; apply W_params; assumption|]. to_mid.
    seq_; [maybe; base|]. steps. seq_; [apply W_alignment|]. steps. seq_; [apply W_item_tag; assumption|]. steps.
    seq_; [apply W_before_body|]. seq_; [apply W_fields; assumption|].
    eapply OT_seq with (Q := eol (Br "{" :: under_ (s_cfg s) g)); [apply OT_when; [intros _; apply W_derived; exact T|apply mid_eol, le_ok]|].
    seq_; [apply W_after_body|].
    seq_.
    { maybe. apply S_each. intros k I. step. eapply S_constant_declaration.
      match goal with A : forallb (tame_constant b _) _ = true |- _ => exact (proj1 (forallb_forall _ _) A k I) end. }
    seq_; [apply W_close_item; assumption|].
    seq_; [eapply OT_pre; [apply W_associated; assumption|apply mid_eol, le_ok]|]. base.
  Qed.
  Lemma W_union l g s : tame_union b s = true -> OT l (fresh g) (write_union b s) l (eol g).
  Proof.
    intro T. pose proof T as A. unfold tame_union in A. split_hyps. unfold write_union. fold c. rewrite (not_cython c LANG).
    unfold clike_union. cbv zeta. fold c. steps.
    seq_; [apply W_params; assumption|]. to_mid.
    seq_; [maybe; base|]. steps. seq_; [apply W_alignment|]. seq_; [apply W_item_tag; assumption|]. steps.
    seq_; [apply W_before_body|]. seq_; [apply W_fields; assumption|].
    seq_; [eapply OT_pre; [apply W_after_body|apply mid_eol, le_ok]|].
    seq_; [apply W_close_item; assumption|]. base.
  Qed.
  Lemma W_opaque l g o : tame_opaque b o = true -> OT l (fresh g) (write_opaque_item b o) l (eol g).
  Proof.
    intro A. unfold tame_opaque in A. split_hyps. unfold write_opaque_item. fold c. rewrite (not_cython c LANG). cbv zeta. steps.
    seq_; [apply W_params; assumption|]. to_mid. eapply OT_seq with (Q := mid (under_ (o_cfg o) g)); [case_if; base|]. base.
  Qed.
  Lemma W_typedef l g t : tame_typedef b t = true -> OT l (fresh g) (write_type_def b t) l (eol g).
  Proof.
    intro A. unfold tame_typedef in A. split_hyps. unfold write_type_def. fold c. cbv zeta. steps.
    seq_; [maybe; apply W_params; assumption|]. to_mid. eapply OT_seq with (Q := mid (under_ (t_cfg t) g)); [|steps].
    case_if.
    - steps.
    - assert (W : wordy (Language_typedef (language c)) = true) by (destruct (language c); reflexivity).
      step. apply W_argument; [apply wordy_calm|]; assumption.
  Qed.
  Lemma W_static l g t : tame_static b t = true -> OT l (fresh g) (write_static b t) l (eol g).
  Proof.
    intro A. unfold tame_static in A. split_hyps. unfold write_static. fold c. cbv zeta. steps.
    seq_; [maybe; base|]. steps.
  Qed.

  (** *** Enums *)
  Ltac fin_ := first [left; reflexivity | right; reflexivity].
  Lemma S_directive l g s t x (Q : assertion) :
    (forall cs op, read holds (At BlankLine Plain cs op) s = Some (At (DirectiveLine t) x cs op)) ->
    Q (At (DirectiveLine t) x (conds_of g) (open_of g)) -> OT l (fresh g) (text s) l Q.
  Proof. intros R K. apply OT_done, T_directive. eexists. split; [apply R|exact K]. Qed.
  Ltac directive_ :=
    lazymatch goal with
    | |- P_Triples.OT _ _ _ _ (fresh ?g) (text ?s) _ ?Q =>
        let r := eval vm_compute in (fun cs op => read holds (At BlankLine Plain cs op) s) in
        lazymatch r with
        | fun cs op => Some (At (DirectiveLine ?t) ?x cs op) =>
            apply (S_directive _ g s t x Q (fun cs op => @eq_refl (option outline) (Some (At (DirectiveLine t) x cs op))))
        end
    end.
  Ltac opens := directive_; apply (eol_opens holds le le_ok); [fin_|reflexivity].
  Ltac ends :=
    lazymatch goal with
    | |- P_Triples.OT _ _ _ _ (fresh (?e :: ?g)) _ _ _ => directive_; apply (eol_closes holds le le_ok _ _ g e); [fin_|reflexivity|discriminate]
    end.
  Ltac elses := directive_; apply (eol_else holds le le_ok); [fin_|reflexivity].
  Lemma W_open_tag_enum l g e size : tame_enum b e = true -> opt calm size = true -> wordy (tag_name e) = true ->
    OT l (mid g) (open_tag_enum b e size) l (mid g).
  Proof.
    intros A Z W. unfold open_tag_enum. fold c. cbv zeta. unfold typed_enum_condition. fold c. pose proof LANG as NL. destruct (language c); [| |contradiction].
    - seq_. { apply OT_text. destruct (enum_class _ _); eff. } steps.
      apply OT_if_some; [|apply incl_refl]. intros x ->. cbn [opt] in Z. base.
    - destruct size as [prim|]; cbn [opt] in Z.
      + steps. destruct (cpp_compatible_c c).
        * seq_; [opens|]. steps. seq_; [ends|]. eapply OT_post; [base|apply fresh_mid].
        * seq_; [opens|]. steps. seq_; [ends|]. eapply OT_post; [base|apply fresh_mid].
      + seq_; [maybe; base|]. steps. maybe. base.
  Qed.
  Lemma S_late g : OT true (eol g) (Done newline_if_not_start) true (fresh g).
  Proof. apply OT_done, T_newline_late. Qed.
  Lemma W_tag_size g tag prim : wordy tag = true -> calm prim = true -> OT true (mid g) (tag_size_typedef b tag prim) true (eol g).
  Proof.
    intros W P. eapply OT_pre; [|apply mid_eol, le_ok]. unfold tag_size_typedef. fold c.
    set (g1 := if cpp_compatible_c c then Gd (holds "#ifndef __cplusplus") :: g else g).
    eapply OT_seq with (l1 := true) (Q := eol g1).
    { unfold g1. case_if; [|apply OT_nothing]. cbn [when]. seq_; [apply S_late|]. opens. }
    eapply OT_seq with (l1 := true) (Q := eol g1).
    { maybe. destruct (Language_eqb (language c) M_Config.C) eqn:L; cbn [when].
      - assert (LC : language c = M_Config.C) by (destruct (language c); [discriminate|reflexivity|discriminate]). rewrite LC. change (Language_typedef M_Config.C) with "typedef".
        eapply OT_seq with (l1 := true) (Q := eol (Ge (negb (holds "#if __STDC_VERSION__ >= 202311L")) :: g1)).
        { step. seq_; [opens|]. steps. elses. }
        steps. ends.
      - assert (wordy (Language_typedef (language c)) = true) by (destruct (language c); reflexivity). seq_; [apply OT_nothing|].
        steps. eapply OT_post; [apply OT_nothing|apply mid_eol, le_ok]. }
    unfold g1. case_if; [|apply OT_nothing]. cbn [when]. seq_; [apply S_late|]. ends.
  Qed.
  Lemma W_using l g tag name : wordy tag = true -> wordy name = true ->
    OT l (fresh g) (then_ (text ("using " ++ tag ++ " = " ++ name ++ "::" ++ tag ++ ";")) line) l (fresh g).
  Proof. intros. steps. Qed.
  Lemma tame_tag e : tame_enum b e = true -> wordy (tag_name e) = true.
  Proof. intro A. unfold tame_enum in A. split_hyps. unfold tag_name. destruct (e_tag e); assumption. Qed.
  Lemma tame_in e v : tame_enum b e = true -> In v (e_variants e) -> tame_variant b v = true.
  Proof. intros A I. unfold tame_enum in A. split_hyps. match goal with A : forallb (tame_variant b) _ = true |- _ => exact (proj1 (forallb_forall _ _) A v I) end. Qed.
  Lemma tame_named v : tame_variant b v = true -> wordy (v_export_name v) = true.
  Proof. intro A. unfold tame_variant in A. split_hyps. assumption. Qed.
  Lemma tame_bodied v n s i k : tame_variant b v = true -> v_body v = VBody n s i k -> wordy n = true /\ tame_struct b s = true.
  Proof. intros A E. unfold tame_variant in A. rewrite E in A. cbn [tame_body] in A. split_hyps. auto. Qed.
  Lemma struct_named s : tame_struct b s = true -> wordy (s_export_name s) = true.
  Proof. intro A. unfold tame_struct in A. split_hyps. assumption. Qed.
  Lemma tame_fields s : tame_struct b s = true -> forallb (tame_field b) (s_fields s) = true.
  Proof. intro A. unfold tame_struct in A. split_hyps. assumption. Qed.
  Lemma W_enum_ostream l g e : tame_enum b e = true -> OT l (eol g) (derived_functions_enum b e) l (eol g).
  Proof.
    intro A. pose proof (tame_tag e A) as W. pose proof (fun v I => tame_named v (tame_in e v A I)) as V.
    assert (N : wordy (e_export_name e) = true) by (unfold tame_enum in A; split_hyps; assumption).
    destruct other_words as (O1 & O2 & O3). unfold derived_functions_enum. fold c. cbv zeta.
    maybe. steps. seq_. { apply S_text_fresh. destruct (is_some (e_tag e)); eff. } steps.
    seq_; [maybe; apply W_using; assumption|]. steps. mid_. seq_.
    { apply W_texts; [intro; eff|]. intros x I. apply in_map_iff in I as (v & <- & I). specialize (V v I). unfold quoted. eff. }
    steps. apply OT_when; [intros _|apply mid_eol, le_ok]. steps.
    seq_; [apply W_using; assumption|]. steps. mid_. seq_.
    { apply W_texts; [intro; eff|]. intros x I. apply in_map_iff in I as (v & <- & I). specialize (V v I).
      destruct (v_body v) as [a|n s i k] eqn:B; unfold quoted; [eff|].
      destruct (tame_bodied v n s i k (tame_in e v A I) B) as (Wn & _). destruct (s_has_tag_field s); eff. }
    steps. eol_. steps.
  Qed.
  Lemma W_tag_enum l g e size : tame_enum b e = true -> opt calm size = true -> OT l (mid g) (write_tag_enum fuel b e size) l (eol g).
  Proof.
    intros A Z. apply OT_forget. pose proof (tame_tag e A) as W. unfold write_tag_enum. fold c.
    seq_; [apply W_open_tag_enum; assumption|]. seq_; [apply S_opened_true|].
    seq_; [apply W_enumerators; unfold tame_enum in A; split_hyps; assumption|].
    eapply OT_seq with (l1 := true) (Q := mid g); [case_if; steps|].
    eapply OT_seq with (l1 := true) (Q := eol g); [apply OT_if_some; [|apply mid_eol, le_ok]|apply W_enum_ostream, A].
    intros prim ->. cbn [opt] in Z. apply W_tag_size; assumption.
  Qed.
  Lemma W_open_struct l g e inl : tame_enum b e = true -> OT l (fresh g) (open_struct_or_union b e inl) l (fresh (Br "{" :: g)).
  Proof.
    intros A. unfold tame_enum in A. split_hyps. unfold open_struct_or_union. fold c. rewrite (not_cython c LANG). to_mid.
    seq_; [maybe; base|]. seq_; [apply OT_text; case_if; eff|]. steps. seq_.
    { apply OT_if_some; [|apply incl_refl]. intros x E. apply OT_text. eapply effect_app; [eff|]. eapply effect_app; [exact (note_effect _ _ x g E)|eff]. }
    seq_; [apply W_item_tag; assumption|]. steps. apply W_before_body.
  Qed.
  Lemma W_variant_defs l g e : tame_enum b e = true -> OT l (eol g) (write_variant_defs fuel b e) l (eol g).
  Proof.
    intro A. apply S_each. intros v I. unfold write_variant_def. fold c. rewrite (not_cython c LANG). cbn [negb when].
    destruct (v_body v) as [a|n s i k] eqn:B; [apply OT_nothing|]. destruct i; [apply OT_nothing|]. cbv zeta. steps.
    seq_; [apply W_struct; exact (proj2 (tame_bodied v n s _ k (tame_in e v A I) B))|]. base.
  Qed.
  Lemma W_tag_field l g e size inl : tame_enum b e = true -> OT l (fresh g) (write_tag_field b e size inl) l (mid g).
  Proof.
    intro A. pose proof (tame_tag e A) as W. unfold write_tag_field. cbv zeta. to_mid. destruct (inl && _); cbn [when].
    - seq_; [steps|]. to_mid. seq_; [maybe; base|]. steps.
    - seq_; [apply OT_nothing|]. seq_; [maybe; base|]. steps.
  Qed.
  Lemma W_variant_field l g inl n s i : wordy n = true -> tame_struct b s = true -> OT l (fresh g) (variant_field b inl n s i) l (mid g).
  Proof.
    intros W A. unfold variant_field. fold c. rewrite (not_cython c LANG). rewrite andb_false_r. destruct i.
    - cbv zeta. cbn [negb when skipn]. destruct (Nat.ltb _ 0); [intros p E; discriminate|].
      seq_; [steps|]. seq_; [apply W_fields, tame_fields, A|]. base.
    - apply struct_named in A. case_if; base.
  Qed.
  Lemma W_variant_fields l g inl vs : forallb (tame_variant b) vs = true ->
    forall first : bool, OT l (if first then fresh g else eol g) (variant_fields b inl first vs) l (eol g).
  Proof.
    induction vs as [|v vs IH]; intros A first; cbn [variant_fields].
    { eapply OT_post; [apply OT_nothing|]. destruct first; [apply fresh_eol, le_ok|apply incl_refl]. }
    cbn [forallb] in A. apply andb_prop in A as [A1 A2]. destruct (v_body v) as [a|n s i k] eqn:B; [exact (IH A2 first)|].
    destruct (tame_bodied v n s i k A1 B) as (W & S1). fold c. rewrite (not_cython c LANG). cbn [negb]. cbv zeta.
    eapply OT_seq with (Q := fresh g); [destruct first; [apply OT_nothing|cbn [negb when]; base]|]. cbn [when]. step.
    seq_; [apply W_variant_field; assumption|]. step. exact (IH A2 false).
  Qed.

  (** *** Helper methods and special member functions *)
  Lemma fields_in s f : tame_struct b s = true -> In f (data_fields s) -> tame_field b f = true.
  Proof.
    intros A I. apply (proj1 (forallb_forall _ _) (tame_fields s A)). unfold data_fields in I.
    destruct (s_has_tag_field s); [exact (In_skipn _ _ _ I)|exact I].
  Qed.
  Lemma W_init l g n f : wordy n = true -> tame_field b f = true -> OT l (mid g) (init_field b n f) l (mid g).
  Proof.
    intros W A. destruct (S_renamed f A) as (W1 & W2 & W3). unfold init_field. step.
    assert (P : OT l (fresh g)
      (then_ (text ("::new (&result." ++ n ++ "." ++ fd_name f ++ ") (")) (then_ (type_text b (fd_ty f)) (text (")(" ++ renamed_arg b (fd_name f) ++ ");")))) l (mid g)) by steps.
    destruct (fd_ty f) as [| | |t len|]; try exact P. clear P. cbn [tame_ty] in W3. apply andb_prop in W3 as [W3 W4].
    steps.
  Qed.
  Lemma body_notes v : tame_variant b v = true -> tame_notes (VariantBody_annotations (v_body v)) = true.
  Proof.
    intro A. unfold tame_variant in A. split_hyps. destruct (v_body v) as [a|n s i k]; cbn [tame_body VariantBody_annotations] in *; [assumption|].
    split_hyps. unfold tame_struct in *. split_hyps. assumption.
  Qed.
  Ltac attrs := seq_; [apply W_attrs; assumption|].
  Lemma enum_named e : tame_enum b e = true -> wordy (e_export_name e) = true.
  Proof. intro A. unfold tame_enum in A. split_hyps. assumption. Qed.
  Lemma enum_notes e : tame_enum b e = true -> tame_notes (e_annotations e) = true.
  Proof. intro A. unfold tame_enum in A. split_hyps. assumption. Qed.
  Lemma W_variant_constructor l g e v : tame_enum b e = true -> In v (e_variants e) -> OT l (mid g) (variant_constructor b e v) l (mid g).
  Proof.
    intros A I. pose proof (tame_in e v A I) as V. pose proof (tame_named v V) as Wv. pose proof (body_notes v V) as Nv.
    pose proof (enum_named e A) as We. pose proof (tame_tag e A) as Wt.
    unfold variant_constructor. attrs. steps.
    eapply OT_seq with (Q := mid (Br "(" :: g)).
    { destruct (v_body v) as [a|n s i k] eqn:B; [apply OT_nothing|]. destruct (tame_bodied v n s i k V B) as (Wn & S1).
      apply (OT_vertical _ _ _ le_ok l (Br "(" :: g) _ (Join ",") ","); [left; reflexivity|intro; eff|].
      intros f J. apply in_map_iff in J as (f0 & <- & J). destruct (S_renamed f0 (fields_in s f0 S1 J)) as (W1 & W2 & W3).
      apply W_argument; [apply wordy_calm; exact W2|exact W3]. }
    steps.
    eapply OT_seq with (Q := mid (Br "{" :: g)); [|steps].
    destruct (v_body v) as [a|n s i k] eqn:B; [apply OT_nothing|]. destruct (tame_bodied v n s i k V B) as (Wn & S1).
    apply S_each. intros f J. apply W_init; [exact Wn|exact (fields_in s f S1 J)].
  Qed.
  Lemma W_variant_is l g e v : tame_enum b e = true -> In v (e_variants e) -> OT l (mid g) (variant_is b e v) l (mid g).
  Proof.
    intros A I. pose proof (tame_in e v A I) as V. pose proof (tame_named v V) as Wv. pose proof (body_notes v V) as Nv.
    pose proof (tame_tag e A) as Wt. unfold variant_is. attrs. steps.
  Qed.
  Lemma last_in {A} (xs : list (option A)) x : last xs None = Some x -> In (Some x) xs.
  Proof.
    induction xs as [|y xs IH]; [discriminate|]. cbn [last]. destruct xs as [|z xs]; [intros ->; left; reflexivity|]. intro E. right. exact (IH E).
  Qed.
  Lemma W_casts l g v k : tame_variant b v = true -> OT l (mid g) (derive_casts b v k) l (mid g).
  Proof.
    intros V. pose proof (tame_named v V) as Wv. pose proof (body_notes v V) as Nv. unfold derive_casts. fold c.
    destruct (v_body v) as [a|n s i inl] eqn:B; [apply OT_nothing|]. destruct (tame_bodied v n s i inl V B) as (Wn & S1).
    pose proof (struct_named s S1) as Ws. case_if; [intros p E; discriminate|]. case_if; [apply OT_nothing|]. steps. to_mid. attrs.
    eapply OT_seq with (Q := mid g).
    { destruct inl; [|apply OT_text; case_if; eff].
      destruct (last (map Some (s_fields s)) None) as [f|] eqn:L; [|intros p E; discriminate]. cbn [of_option].
      pose proof (last_in _ _ L) as J. apply in_map_iff in J as (f' & J1 & J2). injection J1 as ->.
      destruct (S_renamed f (proj1 (forallb_forall _ _) (tame_fields s S1) f J2)) as (W1 & W2 & W3).
      apply S_type. exact W3. }
    step. seq_; [maybe; base|]. step.
    seq_. { mid_. apply OT_text. destruct (en_cast_assert_name (enumeration c)) as [m|] eqn:M; [|eff].
            assert (calm m = true) by (eapply attribute_calm; [|exact M]; lazy_attr). eff. }
    steps. seq_; [maybe; base|]. steps.
  Qed.
  Lemma W_helpers l g e v : tame_enum b e = true -> In v (e_variants e) -> OT l (eol g) (variant_helpers b e v) l (eol g).
  Proof.
    intros A I. unfold variant_helpers. cbv zeta. steps. to_mid. seq_; [apply W_variant_constructor; assumption|]. steps. to_mid.
    seq_; [apply W_variant_is; assumption|]. seq_; [maybe; apply W_casts, (tame_in e v A I)|]. seq_; [maybe; apply W_casts, (tame_in e v A I)|]. base.
  Qed.
  Lemma W_switch l g e f : tame_enum b e = true ->
    (forall v n s i k g, In v (e_variants e) -> v_body v = VBody n s i k -> wordy n = true -> wordy (v_export_name v) = true -> wordy (s_export_name s) = true ->
      effect holds Plain g (f v n s) Plain g) ->
    OT l (mid g) (switch_tag b e f) l (mid g).
  Proof.
    intros A F. unfold switch_tag. steps. seq_.
    { apply S_each. intros v I. unfold variant_case. destruct (v_body v) as [a|n s i k] eqn:B; [apply OT_nothing|]. cbv zeta.
      pose proof (tame_in e v A I) as V. destruct (tame_bodied v n s i k V B) as (Wn & S1).
      step. seq_; [apply S_text_fresh, (F v n s i k); auto using tame_named, struct_named|]. steps. }
    eapply OT_seq with (Q := mid (Br "{" :: g)); [apply OT_when; [intros _; base|apply fresh_mid]|]. base.
  Qed.
  Lemma W_enum_eq l g e : tame_enum b e = true -> OT l (eol g) (derived_enum_eq b e) l (eol g).
  Proof.
    intro A. pose proof (enum_named e A) as We. pose proof (tame_tag e A) as Wt. pose proof (enum_notes e A) as Ne.
    destruct other_words as (O1 & _ & _). unfold derived_enum_eq. cbv zeta. steps. to_mid. attrs. steps. to_mid.
    seq_. { apply W_switch; [exact A|]. intros. eff. }
    steps. apply OT_when; [intros _|apply mid_eol, le_ok]. steps. to_mid. attrs. eol_. steps.
  Qed.
  Lemma W_private l g e : tame_enum b e = true -> OT l (eol g) (private_constructor b e) l (eol g).
  Proof.
    intro A. pose proof (enum_named e A) as We. unfold private_constructor. steps. eapply OT_post; [base|apply fresh_eol, le_ok].
  Qed.
  Lemma W_destructor l g e : tame_enum b e = true -> OT l (eol g) (derived_destructor b e) l (eol g).
  Proof.
    intro A. pose proof (enum_named e A) as We. pose proof (tame_tag e A) as Wt. pose proof (enum_notes e A) as Ne.
    unfold derived_destructor. steps. to_mid. attrs. steps. to_mid.
    seq_. { apply W_switch; [exact A|]. intros. eff. }
    eol_. steps.
  Qed.
  Lemma W_copy l g e : tame_enum b e = true -> OT l (eol g) (derived_copy b e) l (eol g).
  Proof.
    intro A. pose proof (enum_named e A) as We. pose proof (tame_tag e A) as Wt. pose proof (enum_notes e A) as Ne.
    destruct other_words as (O1 & _ & _). unfold derived_copy. cbv zeta. steps. to_mid. attrs. steps. to_mid.
    seq_. { apply W_switch; [exact A|]. intros. eff. }
    steps. apply OT_when; [intros _|apply mid_eol, le_ok]. steps. to_mid. attrs. eol_. steps.
  Qed.
  Lemma W_data l g e : tame_enum b e = true -> OT l (eol g) (derived_functions_data b e) l (eol g).
  Proof.
    intro A. unfold derived_functions_data. cbv zeta. maybe.
    seq_. { maybe. apply S_each. intros v I. apply W_helpers; assumption. }
    seq_; [maybe; apply W_enum_eq, A|]. seq_; [maybe; apply W_private, A|]. seq_; [maybe; apply W_destructor, A|]. maybe. apply W_copy, A.
  Qed.
  Lemma W_enum l g e : tame_enum b e = true -> OT l (fresh g) (write_enum fuel b e) l (eol g).
  Proof.
    intro A. pose proof (enum_named e A) as We.
    assert (Z : opt calm (repr_size c (e_repr e)) = true).
    { unfold repr_size. destruct (rp_ty (e_repr e)); [apply calm_repr|reflexivity]. }
    unfold write_enum. fold c. rewrite (not_cython c LANG). cbv zeta. cbn [negb]. revert Z. generalize (repr_size c (e_repr e)). intros size Z.
    assert (D : tame_doc b (e_documentation e) = true /\ forallb tame_param (e_generic_params e) = true /\ forallb (tame_variant b) (e_variants e) = true)
      by (unfold tame_enum in A; split_hyps; auto). destruct D as (D & P & V).
    steps. seq_; [maybe; apply W_params; assumption|].
    assert (REST : forall g, OT l (fresh (Br "{" :: g))
      (then_ (write_tag_field b e size (inline_tag_field (e_repr e)))
        (then_ line
          (then_ (when (negb (inline_tag_field (e_repr e)) && true) (then_ (text "union") (opened b)))
            (then_ (variant_fields b (inline_tag_field (e_repr e)) true (e_variants e))
              (then_ (when (negb (inline_tag_field (e_repr e)) && true) (closed b true))
                (then_ (derived_functions_data b e) (then_ (after_body b (e_path e)) (close_item b (e_export_name e))))))))) l (mid g)).
    { intro g0. seq_; [apply W_tag_field, A|]. step. rewrite andb_true_r. destruct (inline_tag_field (e_repr e)); cbn [negb when].
      - seq_; [apply OT_nothing|]. seq_; [exact (W_variant_fields l _ _ _ V true)|]. seq_; [apply OT_nothing|].
        seq_; [apply W_data, A|]. seq_; [apply W_after_body|]. apply W_close_item, We.
      - seq_; [steps|]. seq_; [exact (W_variant_fields l _ _ _ V true)|]. seq_; [base|].
        seq_; [eapply OT_pre; [apply W_data, A|apply mid_eol, le_ok]|]. seq_; [apply W_after_body|]. apply W_close_item, We. }
    destruct (is_some (e_tag e)); cbn [andb when].
    - destruct (Language_eqb (language c) Cxx); cbn [negb when].
      + seq_; [apply W_open_struct, A|]. to_mid. seq_; [apply W_tag_enum; assumption|].
        eapply OT_seq with (Q := mid (under_ (e_cfg e) g)); [|base]. seq_; [apply W_variant_defs, A|]. steps. apply REST.
      + seq_; [apply OT_nothing|]. to_mid. seq_; [apply W_tag_enum; assumption|].
        eapply OT_seq with (Q := mid (under_ (e_cfg e) g)); [|base]. seq_; [apply W_variant_defs, A|]. steps. seq_; [apply W_open_struct, A|]. apply REST.
    - seq_; [apply OT_nothing|]. to_mid. seq_; [apply W_tag_enum; assumption|]. seq_; [apply OT_nothing|]. base.
  Qed.

  (** *** Functions *)
  Lemma W_space l g lay : OT l (mid g) (write_space lay) l (mid g).
  Proof. destruct lay; cbn [write_space]; [base|eapply OT_post; [base|apply fresh_mid]|base]. Qed.
  Lemma W_function_with l g f lay : tame_function b f = true -> OT l (fresh g) (write_function_with_layout b f lay) l (eol g).
  Proof.
    intro A. unfold tame_function in A. split_hyps. unfold write_function_with_layout. fold c. cbv zeta. steps. to_mid.
    set (g1 := under_ (f_cfg f) g).
    assert (AT : forall o, (forall x, o = Some x -> effect holds Plain g1 x Plain g1) ->
      OT l (mid g1) (if_some o (fun x => then_ (text x) (write_space lay))) l (mid g1)).
    { intros o K. apply OT_if_some; [|apply incl_refl]. intros x E. seq_; [apply OT_text, K, E|apply W_space]. }
    assert (PP : forall n d x, (match an_atom (f_annotations f) n with Some y => y | None => d end) = Some x -> In d attribute_list -> calm x = true).
    { intros n d x E I. destruct (an_atom (f_annotations f) n) as [[y|]|] eqn:N; [|discriminate|].
      - injection E as ->. eapply atom_calm; eassumption.
      - eapply attribute_calm; eassumption. }
    eapply OT_seq with (Q := mid g1).
    { case_if; [base|]. seq_; [apply AT|].
      { intros x E. apply effect_calm. eapply PP; [exact E|]. lazy_attr. }
      seq_; [apply AT|].
      { intros x E. apply effect_calm. unfold must_use_text in E. destruct (must_use c (f_annotations f)); [|discriminate]. eapply attribute_calm; [|exact E]. lazy_attr. }
      apply AT. intros x E. exact (note_effect _ _ x g1 E). }
    eapply OT_seq with (Q := mid g1).
    { intros p E. apply of_option_done in E. eapply (T_func holds c attributes mid (inline_mid holds c)); [exact E|apply (broken_mid holds c LEC)|assumption|assumption|assumption]. }
    seq_. { maybe. apply OT_if_some; [|apply incl_refl]. intros x E. seq_; [apply W_space|]. apply OT_text, effect_calm. eapply PP; [exact E|]. lazy_attr. }
    seq_. { apply OT_if_some; [|apply incl_refl]. intros m M. assert (calm m = true) by (eapply attribute_calm; [|exact M]; lazy_attr).
      apply OT_if_some; [|apply incl_refl]. intros n N. apply OT_text.
      eapply effect_app; [eff|]. eapply effect_app; [eff|]. eapply effect_app; [eff|]. eapply effect_app.
      - eapply swift_effect; [exact N|assumption|assumption|]. apply forallb_forall. intros a I.
        match goal with A : forallb _ (f_args f) = true |- _ => pose proof (proj1 (forallb_forall _ _) A a I) as K end. cbn beta in K. split_hyps. assumption.
      - eff. }
    steps.
  Qed.
  Lemma W_function l g f : tame_function b f = true -> OT l (fresh g) (write_function b f) l (eol g).
  Proof.
    intro A. unfold write_function. fold c. destruct (fn_args (function c)); try (apply W_function_with, A).
    intros p E. destruct (write_function_with_layout b f Horizontal) as [h| |] eqn:E1; try discriminate.
    destruct (write_function_with_layout b f Vertical) as [v| |] eqn:E2; try discriminate. cbv beta iota zeta in E. apply done_inj in E. subst p.
    apply T_try with (Q := eol g); [exact (W_function_with l g f Horizontal A h E1)|apply T_ret|exact (W_function_with l g f Vertical A v E2)].
  Qed.

  (** *** The whole file *)
  Lemma S_if l g : OT l (fresh g) (Done newline_if_not_start) l (fresh g).
  Proof. apply OT_done, T_newline_if. exact le_ok. Qed.
  Lemma W_paragraph l g g' p : OT l (fresh g) p l (eol g') -> OT l (fresh g) (paragraph p) l (fresh g').
  Proof. intro A. unfold paragraph. seq_; [apply S_if|]. seq_; [exact A|]. base. Qed.
  Lemma S_own l g x : own_lines b x -> OT l (fresh g) (text x) l (eol g).
  Proof. intro A. apply OT_done, T_block. exact A. Qed.
  Lemma S_neutral_after l g s r : calm r = true ->
    (forall cs op, exists t, read holds (At BlankLine Plain cs op) s = Some (At (DirectiveLine t) Plain cs op)
      /\ forall t', mem_str (directive_name (t ++ t')) ["if"; "ifdef"; "ifndef"; "elif"; "elifdef"; "elifndef"; "else"; "endif"] = false) ->
    OT l (fresh g) (text (s ++ r)) l (eol g).
  Proof.
    intros C R. destruct (R (conds_of g) (open_of g)) as (t & E & N). apply OT_done, T_directive.
    destruct (effect_calm holds r [] C) as [_ D]. destruct (D t (conds_of g) (open_of g)) as (t' & E').
    eexists. split; [unfold here; rewrite read_app, E; exact E'|]. apply (eol_neutral holds le le_ok); [left; reflexivity|apply N].
  Qed.
  Lemma W_include l g s : calm s = true -> OT l (fresh g) (include_line s) l (fresh g).
  Proof.
    intro A. unfold include_line. seq_; [|apply OT_line]. apply (S_neutral_after l g "#include " s A).
    intros cs op. exists "#include ". split; reflexivity.
  Qed.
  Definition guarded_by : list entry := match include_guard c with Some f => [Gd (holds ("#ifndef " ++ f))] | None => [] end.
  Lemma W_guard l g f : wordy f = true -> OT l (fresh g) (text ("#ifndef " ++ f)) l (eol (Gd (holds ("#ifndef " ++ f)) :: g)).
  Proof.
    intro W. apply OT_done, T_directive. eexists. split.
    - unfold here. rewrite read_app. change (read holds (At BlankLine Plain (conds_of g) (open_of g)) "#ifndef ")
        with (Some (At (DirectiveLine "#ifndef ") Plain (conds_of g) (open_of g))). cbv iota. apply read_keepable, wordy_keepable, W.
    - apply (eol_opens holds le le_ok); [left; reflexivity|reflexivity].
  Qed.
  Lemma W_headers l : OT l (fresh []) (write_headers b) l (fresh guarded_by).
  Proof.
    texts. unfold write_headers. fold c. rewrite (not_cython c LANG). unfold clike_headers. fold c.
    assert (BL : forall x, In (Some x) [header c; autogen_warning c; after_includes c] -> own_lines b x) by exact (proj1 BLOCKS).
    eapply OT_seq with (Q := fresh []). { maybe. seq_; [apply S_text_fresh; eff|]. base. }
    eapply OT_seq with (Q := fresh []).
    { apply OT_if_some; [|apply incl_refl]. intros x E. apply W_paragraph, S_own, BL. rewrite E. cbn [In]. auto. }
    eapply OT_seq with (Q := fresh guarded_by).
    { unfold guarded_by. destruct (include_guard c) as [f|]; cbn [if_some opt] in *; [|apply OT_nothing]. apply W_paragraph.
      seq_; [apply W_guard; assumption|]. step. apply (S_neutral_after l _ "#define " f); [apply wordy_calm; assumption|].
      intros cs op. exists "#define ". split; reflexivity. }
    eapply OT_seq with (Q := fresh guarded_by).
    { maybe. apply W_paragraph. directive_. apply (eol_neutral holds le le_ok); [fin_|reflexivity]. }
    eapply OT_seq with (Q := fresh guarded_by).
    { maybe. apply W_paragraph. eol_. apply S_text_fresh. eff. }
    eapply OT_seq with (Q := fresh guarded_by).
    { apply OT_if_some; [|apply incl_refl]. intros x E. apply W_paragraph, S_own, BL. rewrite E. cbn [In]. auto. }
    maybe. seq_; [apply S_if|].
    eapply OT_seq with (Q := fresh guarded_by).
    { maybe. pose proof LANG as NL. destruct (language c); [| |contradiction].
      - repeat (eapply OT_seq; [first [apply W_include; reflexivity | maybe; apply W_include; reflexivity]|]).
        first [apply W_include; reflexivity | maybe; apply W_include; reflexivity].
      - repeat (eapply OT_seq; [first [apply W_include; reflexivity | maybe; apply W_include; reflexivity]|]).
        first [apply W_include; reflexivity | maybe; apply W_include; reflexivity]. }
    eapply OT_seq with (Q := fresh guarded_by).
    { apply S_each. intros i I. apply W_include.
      match goal with A : forallb _ (sys_includes c) = true |- _ => exact (proj1 (forallb_forall _ _) A i I) end. }
    eapply OT_seq with (Q := fresh guarded_by).
    { apply S_each. intros i I. apply W_include.
      match goal with A : forallb _ (includes c) = true |- _ => exact (proj1 (forallb_forall _ _) A i I) end. }
    apply OT_if_some; [|apply incl_refl]. intros x E. seq_; [apply S_own, BL; rewrite E; cbn [In]; auto|]. base.
  Qed.

  (** Blocks that are only there for C++. *)
  Definition blocks (n : nat) : list entry := repeat (Br "{") n.
  Definition v := holds "#ifdef __cplusplus".
  Definition cc (n : nat) (g : list entry) : list entry := ((if cpp_compatible_c c then if v then blocks n else [] else blocks n) ++ g)%list.
  Lemma conds_blocks n g : conds_of (blocks n ++ g) = conds_of g.
  Proof. induction n; [reflexivity|exact IHn]. Qed.
  Lemma frame_active a on : f_on (frame_of a on) = a && on. Proof. destruct a; reflexivity. Qed.
  Lemma open_blocks n g g' : active (conds_of g) = active (conds_of g') -> open_of g = open_of g' -> open_of (blocks n ++ g) = open_of (blocks n ++ g').
  Proof.
    intros A O. induction n as [|n IH]; [exact O|]. cbn [blocks repeat app open_of]. fold (blocks n). rewrite !conds_blocks, A, IH. reflexivity.
  Qed.
  Lemma open_inactive n g : active (conds_of g) = false -> open_of (blocks n ++ g) = open_of g.
  Proof. intros A. induction n as [|n IH]; [reflexivity|]. cbn [blocks repeat app open_of]. fold (blocks n). rewrite conds_blocks, A. exact IH. Qed.
  (** Opening blocks under a condition is the same as having the condition inside
      them, if it holds, and nothing otherwise. *)
  Lemma swap l x n g : cpp_compatible_c c = true -> here l x (blocks n ++ Gd v :: g) = here l x (Gd v :: cc n g).
  Proof.
    intro C. unfold here, cc. rewrite C, conds_blocks. destruct v.
    - cbn [conds_of open_of]. rewrite conds_blocks. f_equal. apply open_blocks; [|reflexivity].
      cbn [conds_of active forallb]. rewrite frame_active, andb_true_r. fold (active (conds_of g)). destruct (active (conds_of g)); reflexivity.
    - cbn [app]. f_equal. apply open_inactive. cbn [conds_of active forallb]. rewrite frame_active, andb_false_r. reflexivity.
  Qed.
  Lemma swap_eol n g : cpp_compatible_c c = true -> incl (eol (Gd v :: cc n g)) (eol (blocks n ++ Gd v :: g)).
  Proof. intros C s. unfold P_Triples.eol. rewrite (swap BlankLine Plain n g C). auto. Qed.
  Lemma swap_fresh n g : cpp_compatible_c c = true -> incl (fresh (blocks n ++ Gd v :: g)) (fresh (Gd v :: cc n g)).
  Proof. intros C s. unfold fresh. rewrite (swap BlankLine Plain n g C). auto. Qed.

  Lemma namespaces_words : forallb wordy (all_namespaces b) = true.
  Proof.
    texts. unfold all_namespaces. case_if; [reflexivity|]. fold c. rewrite forallb_app. apply andb_true_intro. split.
    - destruct (namespace c); [cbn [opt forallb] in *; rewrite andb_true_r; assumption|reflexivity].
    - destruct (namespaces c); [assumption|reflexivity].
  Qed.
  Lemma W_open_each l ns : forall g, forallb wordy ns = true ->
    OT l (eol g) (each (fun n => then_ line (text (if true then "namespace " ++ n ++ " {" else "}  // namespace " ++ n))) ns) l (eol (blocks (length ns) ++ g)).
  Proof.
    induction ns as [|n ns IH]; intros g A; [apply OT_nothing|]. cbn [forallb] in A. apply andb_prop in A as [A1 A2]. cbn [each].
    eapply OT_seq with (Q := eol (Br "{" :: g)); [step; eol_; apply S_text_fresh; eff|].
    assert (E : (blocks (length (n :: ns)) ++ g = blocks (length ns) ++ Br "{" :: g)%list).
    { cbn [length blocks repeat app]. fold (blocks (length ns)). clear. induction (length ns) as [|k IH]; [reflexivity|].
      cbn [blocks repeat app]. fold (blocks k). rewrite IH. reflexivity. }
    rewrite E. exact (IH _ A2).
  Qed.
  Lemma W_close_each l ns : forall g, forallb wordy ns = true ->
    OT l (eol (blocks (length ns) ++ g)) (each (fun n => then_ line (text (if false then "namespace " ++ n ++ " {" else "}  // namespace " ++ n))) ns) l (eol g).
  Proof.
    induction ns as [|n ns IH]; intros g A; [apply OT_nothing|]. cbn [forallb] in A. apply andb_prop in A as [A1 A2]. cbn [each].
    eapply OT_seq with (Q := eol (blocks (length ns) ++ g)); [|exact (IH g A2)]. step. cbn [length blocks repeat app]. fold (blocks (length ns)).
    to_mid. apply OT_done, T_comment; [exact le_ok|]. eff.
  Qed.
  Definition inside_namespaces (g : list entry) : list entry := cc (length (all_namespaces b)) g.
  Lemma W_open_namespaces l g : OT l (fresh g) (open_namespaces b) l (fresh (inside_namespaces g)).
  Proof.
    pose proof namespaces_words as W. unfold open_namespaces, inside_namespaces. fold c. rewrite (not_cython c LANG).
    unfold open_close_namespaces. fold c. cbv zeta. destruct (all_namespaces b) as [|n0 ns0] eqn:N.
    { cbn [is_nil negb when length]. assert (E : cc 0 g = g) by (unfold cc; destruct (cpp_compatible_c c); [destruct v|]; reflexivity). rewrite E. apply OT_nothing. }
    rewrite <- N in *. clear N. cbn [is_nil negb]. generalize dependent (all_namespaces b). intros ns W.
    assert (K : negb (is_nil ns) = true \/ ns = []) by (destruct ns; auto). destruct K as [K| ->]; [rewrite K|]; cbn [when].
    2: { cbn [is_nil negb when length]. assert (E : cc 0 g = g) by (unfold cc; destruct (cpp_compatible_c c); [destruct v|]; reflexivity). rewrite E. apply OT_nothing. }
    destruct (cpp_compatible_c c) eqn:C; cbn [when].
    - eapply OT_seq with (Q := eol (Gd v :: g)); [seq_; [apply S_if|opens]|]. seq_; [apply W_open_each, W|].
      step. eapply OT_pre; [|apply swap_fresh, C]. seq_; [ends|]. base.
    - seq_; [apply OT_nothing|]. eapply OT_pre; [|apply fresh_eol, le_ok]. seq_; [apply W_open_each, W|].
      unfold cc. rewrite C. seq_; [base|]. apply OT_nothing.
  Qed.
  Lemma W_close_namespaces l g : OT l (fresh (inside_namespaces g)) (close_namespaces b) l (fresh g).
  Proof.
    pose proof namespaces_words as W. unfold close_namespaces, inside_namespaces. fold c. rewrite (not_cython c LANG).
    unfold open_close_namespaces. fold c. cbv zeta.
    assert (L : length (all_namespaces b) = length (rev (all_namespaces b))) by (rewrite rev_length; reflexivity). rewrite L. clear L.
    assert (W' : forallb wordy (rev (all_namespaces b)) = true).
    { apply forallb_forall. intros x I. apply (proj1 (forallb_forall _ _) W). apply in_rev, I. }
    generalize dependent (rev (all_namespaces b)). intros ns W'.
    assert (K : negb (is_nil ns) = true \/ ns = []) by (destruct ns; auto). destruct K as [K| ->]; [rewrite K|]; cbn [when].
    2: { cbn [is_nil negb when length]. assert (E : cc 0 g = g) by (unfold cc; destruct (cpp_compatible_c c); [destruct v|]; reflexivity). rewrite E. apply OT_nothing. }
    destruct (cpp_compatible_c c) eqn:C; cbn [when].
    - eapply OT_seq with (Q := eol (Gd v :: cc (length ns) g)); [seq_; [apply S_if|opens]|].
      eapply OT_pre; [|apply swap_eol, C]. seq_; [apply W_close_each, W'|]. step. seq_; [ends|]. base.
    - seq_; [apply OT_nothing|]. unfold cc. rewrite C. eapply OT_pre; [|apply fresh_eol, le_ok]. seq_; [apply W_close_each, W'|].
      step. apply OT_nothing.
  Qed.

  Definition inside_extern (g : list entry) : list entry :=
    if has_symbols b && extern_c b then cc 1 g else g.
  Hypothesis ITEMS : forallb (tame_item b) (b_items b) = true.
  Hypothesis CONSTANTS : forallb (tame_constant b None) (b_constants b) = true.
  Hypothesis GLOBALS : forallb (tame_static b) (b_globals b) = true.
  Hypothesis FUNCTIONS : forallb (tame_function b) (b_functions b) = true.
  Lemma W_globals_default l g : OT l (fresh g) (write_globals_default b) l (fresh g).
  Proof. apply S_each. intros x I. maybe. apply W_paragraph, W_static. exact (proj1 (forallb_forall _ _) GLOBALS x I). Qed.
  Lemma W_functions_default l g : OT l (fresh g) (write_functions_default b) l (fresh g).
  Proof. apply S_each. intros x I. maybe. apply W_paragraph, W_function. exact (proj1 (forallb_forall _ _) FUNCTIONS x I). Qed.
  Lemma W_constants l g p : OT l (fresh g) (write_constants fuel b p) l (fresh g).
  Proof. apply S_each. intros x I. maybe. apply W_paragraph, S_constant. exact (proj1 (forallb_forall _ _) CONSTANTS x I). Qed.
  Lemma tame_as_typedef s t : tame_struct b s = true -> as_typedef s = Some t -> tame_typedef b t = true.
  Proof.
    intros A E. unfold as_typedef in E. unfold tame_struct in A. split_hyps.
    destruct (s_fields s) as [|f fs]; [discriminate|]. destruct (s_is_transparent s); [|discriminate]. injection E as <-. unfold tame_typedef. cbn [t_export_name t_generic_params t_aliased t_documentation].
    match goal with A : forallb (tame_field b) _ = true |- _ => cbn [forallb] in A; apply andb_prop in A as [A _]; unfold tame_field in A end. split_hyps.
    repeat (apply andb_true_intro; split); assumption.
  Qed.
  Lemma W_item l g i : tame_item b i = true -> OT l (fresh g) (write_item fuel b i) l (eol g).
  Proof.
    intro A. destruct i as [x|x|x|x|x]; cbn [tame_item write_item] in *;
      [apply W_enum, A || idtac|idtac|apply W_union, A || idtac|apply W_opaque, A || idtac|apply W_typedef, A || idtac].
    all: try (apply W_enum, A); try (apply W_union, A); try (apply W_opaque, A); try (apply W_typedef, A).
    unfold write_struct_or_typedef. destruct (as_typedef x) as [t|] eqn:E; [|apply W_struct, A].
    seq_; [apply W_typedef, (tame_as_typedef x t A E)|]. apply W_associated. unfold tame_struct in A. split_hyps. assumption.
  Qed.
  Lemma W_items l g : OT l (fresh g) (write_items fuel b) l (fresh g).
  Proof. apply S_each. intros x I. maybe. apply W_paragraph, W_item. exact (proj1 (forallb_forall _ _) ITEMS x I). Qed.

  Lemma W_globals l g : OT l (fresh g) (write_globals b) l (fresh (inside_extern g)).
  Proof.
    texts. unfold write_globals. fold c. rewrite (not_cython c LANG). unfold clike_globals, inside_extern, extern_c. fold c.
    destruct (has_symbols b); cbn [when andb]; [|apply OT_nothing].
    assert (U : forall ns, forallb wordy ns = true -> OT l (eol g) (each (fun n => then_ line (text ("using namespace " ++ n ++ ";"))) ns) l (eol g)).
    { intros ns A. apply S_each. intros n I. pose proof (proj1 (forallb_forall _ _) A n I). step. eol_. apply S_text_fresh. eff. }
    destruct (cpp_compatible_c c) eqn:C; cbn [when].
    - assert (NX : Language_eqb (language c) Cxx = false).
      { unfold cpp_compatible_c in C. apply andb_prop in C as [C _]. destruct (language c); [discriminate|reflexivity|reflexivity]. }
      rewrite NX. cbn [orb when]. eapply OT_seq with (Q := eol (Gd v :: g)); [seq_; [apply S_if|opens]|]. seq_; [apply OT_nothing|].
      eapply OT_seq with (Q := fresh (blocks 1 ++ Gd v :: g)).
      { step. seq_; [apply S_text_fresh; unfold quoted; eff|]. base. }
      eapply OT_pre; [|apply swap_fresh, C]. eapply OT_seq with (Q := fresh (cc 1 g)); [seq_; [ends|]; base|]. apply W_globals_default.
    - rewrite orb_false_r. destruct (Language_eqb (language c) Cxx); cbn [when].
      + seq_; [apply OT_nothing|]. eapply OT_seq with (Q := fresh g).
        { apply OT_if_some; [|apply incl_refl]. intros ns E. rewrite E in *. cbn [opt] in *. eapply OT_pre; [|apply fresh_eol, le_ok].
          seq_; [apply U; assumption|]. base. }
        eapply OT_seq with (Q := fresh (cc 1 g)).
        { unfold cc. rewrite C. step. seq_; [apply S_text_fresh; unfold quoted; eff|]. base. }
        seq_; [apply OT_nothing|]. apply W_globals_default.
      + seq_; [apply OT_nothing|]. seq_; [apply OT_nothing|]. seq_; [apply OT_nothing|]. seq_; [apply OT_nothing|]. apply W_globals_default.
  Qed.
  Lemma W_functions l g : OT l (fresh (inside_extern g)) (write_functions b) l (fresh g).
  Proof.
    unfold write_functions. fold c. rewrite (not_cython c LANG). unfold clike_functions, inside_extern, extern_c. fold c.
    destruct (has_symbols b); cbn [when andb]; [|apply OT_nothing]. seq_; [apply W_functions_default|].
    assert (CL : forall g, OT l (eol (Br "{" :: g)) (then_ line (then_ (text ("}  // extern " ++ quoted "C")) line)) l (fresh g)).
    { intro g0. step. seq_; [to_mid; apply OT_done, T_comment; [exact le_ok|unfold quoted; eff]|]. base. }
    destruct (cpp_compatible_c c) eqn:C; cbn [when].
    - rewrite orb_true_r. cbn [when]. seq_.
      { step. opens. }
      eapply OT_pre; [|apply swap_eol, C]. seq_; [apply CL|]. seq_; [ends|]. base.
    - rewrite orb_false_r. seq_; [apply OT_nothing|]. destruct (Language_eqb (language c) Cxx); cbn [when].
      + unfold cc. rewrite C. eapply OT_pre; [|apply fresh_eol, le_ok]. seq_; [apply CL|]. apply OT_nothing.
      + seq_; apply OT_nothing.
  Qed.
  Lemma W_footers l : OT l (fresh guarded_by) (write_footers b) l (fresh []).
  Proof.
    texts. unfold write_footers, guarded_by. fold c. rewrite (not_cython c LANG).
    destruct (include_guard c) as [f|]; cbn [if_some opt] in *; [|apply OT_nothing]. apply W_paragraph.
    assert (K : forall r x, (x = Plain \/ x = InLine) -> effect holds Plain [] r x [] ->
      OT l (fresh [Gd (holds ("#ifndef " ++ f))]) (text ("#endif  " ++ r)) l (eol [])).
    { intros r x X [_ D]. apply OT_done, T_directive.
      set (g := [Gd (holds ("#ifndef " ++ f))]). destruct (D "#endif  " (conds_of g) (open_of g)) as (t' & E). eexists. split.
      - unfold here. rewrite read_app. change (read holds (At BlankLine Plain (conds_of g) (open_of g)) "#endif  ")
          with (Some (At (DirectiveLine "#endif  ") Plain (conds_of g) (open_of g))). cbv iota. exact E.
      - apply (eol_closes holds le le_ok _ _ [] (Gd (holds ("#ifndef " ++ f)))); [exact X|reflexivity|discriminate]. }
    case_if.
    - apply (K ("/* " ++ f ++ " */") Plain); [left; reflexivity|eff].
    - apply (K ("// " ++ f) InLine); [right; reflexivity|eff].
  Qed.
  Lemma W_trailer l : OT l (fresh []) (write_trailer b) l (fresh []).
  Proof.
    unfold write_trailer. fold c. apply OT_if_some; [|apply incl_refl]. intros x E. seq_; [apply S_if|].
    pose proof (proj2 (proj2 BLOCKS) x E) as K. destruct (ends_with_newline x); cbn [negb when].
    - seq_; [|apply OT_nothing]. apply OT_done, T_directive. eexists. split; [apply block_read, K|reflexivity].
    - seq_; [apply S_own, K|]. base.
  Qed.
  Lemma W_bindings l : OT l (fresh []) (write_bindings fuel b) l (fresh []).
  Proof.
    unfold write_bindings. seq_; [apply W_headers|]. seq_; [apply W_open_namespaces|]. seq_; [apply W_constants|]. seq_; [apply W_items|].
    seq_; [apply W_constants|]. seq_; [apply W_globals|]. seq_; [apply W_functions|]. seq_; [apply W_close_namespaces|].
    seq_; [apply W_footers|]. apply W_trailer.
  Qed.
End Written.
