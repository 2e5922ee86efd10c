(** Braces, conditions, documentation, types and literals leave the outline as
    they found it. *)
Require Import Coq.Strings.String Coq.Strings.Ascii Coq.Lists.List Coq.Bool.Bool Coq.Arith.Arith Lia.
From Verif Require Import Base P_Base M_Config M_Writer S_Writer P_Writer M_Cfg P_Cfg M_Type M_Ir M_Library M_Cdecl M_Bindings M_Docs M_Literal M_Backend
  S_Lex S_Comment S_Outline S_Tame P_Outline P_Triples.
Import ListNotations.
Open Scope string_scope.

(** Decide the effect of a text made of fixed parts, words and calm pieces. *)
Lemma effect_word h g s : wordy s = true -> effect h Plain g s Plain g.
Proof. intro W. apply effect_piece, piece_word, W. Qed.
Lemma effect_word_quote h g s q : wordy s = true -> (q = "'"%char \/ q = """"%char) -> effect h (InQuote q) g s (InQuote q) g.
Proof. intros W Q. apply effect_piece, piece_word_quote; assumption. Qed.
Lemma effect_word_line h g s : wordy s = true -> effect h InLine g s InLine g.
Proof. intro W. apply effect_piece, piece_word_line, W. Qed.
Lemma effect_word_block h g s : wordy s = true -> effect h (InBlock false) g s (InBlock false) g.
Proof. intro W. apply effect_piece, piece_word_block, W. Qed.
(** What a fixed text does depends on the innermost brackets only. *)
Lemma br_more a g r g' : br a g = Some g' -> br a (g ++ r) = Some (g' ++ r)%list.
Proof.
  unfold br. destruct (opening a); [intro E; injection E as <-; reflexivity|]. destruct (closing a); [|intro E; injection E as <-; reflexivity].
  destruct g as [|[o|on|on] g]; try discriminate. cbn [app]. destruct (Ascii.eqb o (partner a)); [|discriminate]. intro E; injection E as <-. reflexivity.
Qed.
Lemma piece_more s r : forall x g x' g', piece x g s = Some (x', g') -> piece x (g ++ r) s = Some (x', (g' ++ r)%list).
Proof.
  assert (P : forall a g x' g', piece_plain a g = Some (x', g') -> piece_plain a (g ++ r) = Some (x', (g' ++ r)%list)).
  { intros a g x' g'. unfold piece_plain.
    repeat match goal with |- (if ?c then _ else _) = _ -> _ => destruct c; [try discriminate; try (intro E; injection E as <- <-; reflexivity)|] end.
    destruct (br a g) as [g1|] eqn:B; [|discriminate]. intro E; injection E as <- <-. rewrite (br_more _ _ r _ B). reflexivity. }
  assert (S : forall x a g x' g', piece_step x g a = Some (x', g') -> piece_step x (g ++ r) a = Some (x', (g' ++ r)%list)).
  { intros x a g x' g'. unfold piece_step. destruct (Ascii.eqb a lf); [discriminate|].
    destruct x as [| | | | |star| |q|q];
      repeat match goal with |- (if ?c then _ else _) = _ -> _ => destruct c; [try discriminate; try apply P; try (intro E; injection E as <- <-; reflexivity)|] end;
      try apply P; try (intro E; injection E as <- <-; reflexivity). }
  induction s as [|a s IH]; intros x g x' g' E; cbn [piece] in *; [injection E as <- <-; reflexivity|].
  destruct (piece_step x g a) as [[x1 g1]|] eqn:B; [|discriminate]. rewrite (S _ _ _ _ _ B). exact (IH _ _ _ _ E).
Qed.
Lemma effect_fixed h x g s x' g' r : piece x g s = Some (x', g') -> effect h x (g ++ r) s x' (g' ++ r).
Proof. intro E. apply effect_piece, piece_more, E. Qed.

Ltac is_ground s := lazymatch s with
  | EmptyString => idtac
  | String (Ascii.Ascii _ _ _ _ _ _ _ _) ?r => is_ground r
  | dquote => idtac
  end.
Ltac inner_brackets g := lazymatch g with
  | cons (Br ?a) ?r => let p := inner_brackets r in constr:(cons (Br a) p)
  | _ => constr:(@nil entry)
  end.
Ltac outer_context g := lazymatch g with
  | cons (Br _) ?r => outer_context r
  | _ => g
  end.
Ltac eff_fixed :=
  lazymatch goal with
  | |- effect ?h ?x ?g ?s _ _ =>
      let p := inner_brackets g in
      let r := outer_context g in
      let o := eval vm_compute in (piece x p s) in
      lazymatch o with
      | Some (?x', ?p') =>
          let g2 := eval cbn [app] in (p' ++ r)%list in
          exact (effect_fixed h x p s x' p' r (@eq_refl (option (spot * list entry)) (Some (x', p'))) : effect h x g s x' g2)
      end
  end.
Ltac eff :=
  lazymatch goal with
  | |- effect _ _ _ (?a ++ ?b) _ _ => eapply effect_app; [eff|eff]
  | |- effect _ _ _ ?s _ _ =>
      first [ is_ground s; eff_fixed
            | lazymatch goal with
              | |- effect _ _ _ (String ?a EmptyString) _ _ => fail
              | |- effect _ _ _ (String ?a ?r) _ _ => change (String a r) with (String a "" ++ r); eapply effect_app; [eff|eff]
              | |- effect _ Plain _ _ _ _ => first [apply effect_word; solve [eauto] | apply effect_calm; solve [eauto]]
              | |- effect _ (InQuote _) _ _ _ _ => apply effect_word_quote; [solve [eauto]|solve [auto]]
              | |- effect _ InLine _ _ _ _ => apply effect_word_line; solve [eauto]
              | |- effect _ (InBlock false) _ _ _ _ => apply effect_word_block; solve [eauto]
              end ]
  end.
Lemma wordy_calm s : wordy s = true -> calm s = true.
Proof.
  intro W. destruct (effect_word (fun _ => true) [] s W) as [C _]. destruct (C BlankLine (or_introl eq_refl)) as (l & L & E).
  unfold calm. change (here BlankLine Plain []) with outset in E. rewrite E. unfold here.
  assert (N : all_chars (fun a => negb (Ascii.eqb a lf)) s = true).
  { clear E C. unfold wordy in W. induction s as [|a s IH]; [reflexivity|]. cbn [all_chars] in *. apply andb_prop in W as [A W].
    rewrite (IH W), andb_true_r. word_facts A. rewrite E9. reflexivity. }
  rewrite N. destruct L as [-> | ->]; reflexivity.
Qed.

Section Shape.
  Variables (holds : string -> bool) (c : Config).
  Let tabw := tab_width c.
  Let le := LineEndingStyle_as_str (line_endings c).
  Hypothesis LANG : language c <> Cython.
  Hypothesis LEC : line_endings c <> CR.
  Notation T := (T holds tabw le).
  Notation mid := P_Triples.mid.
  Notation eol := (P_Triples.eol holds le).

  Lemma LE : unix_or_dos le.
  Proof. unfold le, unix_or_dos. destruct (line_endings c); [left|contradiction|right|left]; reflexivity. Qed.
  Lemma not_cython : Language_eqb (language c) Cython = false.
  Proof. destruct (language c); [reflexivity|reflexivity|contradiction]. Qed.

  (** ** Braces *)
  Lemma T_open l g : T l (mid g) (open_brace c) true (fresh (Br "{" :: g)).
  Proof.
    assert (K : T l (mid (Br "{" :: g)) (seq push_tab_ newline) true (fresh (Br "{" :: g))).
    { eapply T_seq; [apply T_push_tab|]. eapply T_pre; [apply T_newline|apply mid_eol, LE]. }
    assert (A : T l (mid g) (match braces c with
                             | SameLine => seq (write " {") (seq push_tab_ newline)
                             | NextLine => seq newline (seq (write "{") (seq push_tab_ newline)) end) true (fresh (Br "{" :: g))).
    { destruct (braces c).
      - eapply T_seq; [apply T_text; eff|]. exact K.
      - eapply T_seq; [apply T_forget; eapply T_post; [eapply T_pre; [apply T_newline|apply mid_eol, LE]|apply fresh_mid]|].
        eapply T_seq; [apply T_text; eff|]. exact K. }
    unfold open_brace. destruct (language c); [exact A|exact A|contradiction].
  Qed.
  Lemma T_close l g semi : T l (eol (Br "{" :: g)) (close_brace c semi) true (mid g).
  Proof.
    assert (A : T l (eol (Br "{" :: g)) (seq pop (seq newline (if semi then write "};" else write "}"))) true (mid g)).
    { eapply T_seq; [apply T_pop|]. eapply T_seq; [eapply T_post; [apply T_newline|apply fresh_mid]|].
      destruct semi; apply T_text; eff. }
    unfold close_brace. destruct (language c); [exact A|exact A|contradiction].
  Qed.

  (** ** Conditions *)
  Definition macros_ok : bool := forallb (fun d => wordy (snd d)) (defines c).
  Hypothesis MACROS : macros_ok = true.
  Definition condition_line (k : Condition) : string := "#if " ++ cond_text (language c) k.
  Lemma keepable_list sep l : keepable sep = true -> Forall (fun k => keepable (cond_text (language c) k) = true) l ->
    keepable (list_text (language c) sep l) = true.
  Proof.
    intros S F. unfold list_text. rewrite !keepable_app. cbn [keepable all_chars].
    assert (I : keepable (items_text (language c) sep l) = true).
    { induction F as [|k l K F IH]; [reflexivity|]. cbn [items_text]. rewrite !keepable_app, S, K, IH. reflexivity. }
    destruct F as [|k l K F]; [reflexivity|]. cbn [items_text] in I. rewrite !keepable_app in I. apply andb_prop in I as [_ I].
    rewrite keepable_app, I. reflexivity.
  Qed.
  Lemma find_define_in key defs d : find_define key defs = Some d -> exists k, In (k, d) defs.
  Proof.
    induction defs as [|[k e] defs IH]; cbn; [discriminate|]. destruct (DefineKey_eqb key (DefineKey_load k)).
    - intro E; injection E as ->. exists k. left; reflexivity.
    - intro E. destruct (IH E) as (k' & I). exists k'. right; exact I.
  Qed.
  Lemma keepable_condition cfg : forall k, to_condition (defines c) cfg = Some k -> keepable (cond_text (language c) k) = true.
  Proof.
    assert (D : forall key k, option_map Define (find_define key (defines c)) = Some k -> keepable (cond_text (language c) k) = true).
    { intros key k E. destruct (find_define key (defines c)) as [d|] eqn:F; [|discriminate]. injection E as <-.
      destruct (find_define_in _ _ _ F) as (x & I). pose proof (proj1 (forallb_forall _ _) MACROS _ I) as W. cbn in W.
      cbn [cond_text]. unfold is_py. rewrite not_cython, !keepable_app, (wordy_keepable _ W). reflexivity. }
    assert (L : forall mk sep l, (mk = Any /\ sep = or_text (language c) \/ mk = All /\ sep = and_text (language c)) ->
      Forall (fun x => forall k, to_condition (defines c) x = Some k -> keepable (cond_text (language c) k) = true) l ->
      forall k, collapse mk (filter_map (to_condition (defines c)) l) = Some k -> keepable (cond_text (language c) k) = true).
    { intros mk sep l M F k E.
      assert (F' : Forall (fun k => keepable (cond_text (language c) k) = true) (filter_map (to_condition (defines c)) l)).
      { clear E. induction F as [|x l X F IH]; [constructor|]. cbn [filter_map].
        destruct (to_condition (defines c) x) as [y|]; [constructor; [exact (X y eq_refl)|]|]; exact IH. }
      unfold collapse in E. destruct (filter_map (to_condition (defines c)) l) as [|x [|y r]]; [discriminate|injection E as <-; inversion F'; assumption|].
      injection E as <-.
      assert (SEP : keepable sep = true) by (unfold or_text, and_text, is_py in M; rewrite not_cython in M; destruct M as [[_ ->]|[_ ->]]; reflexivity).
      destruct M as [[-> ->]|[-> ->]]; [rewrite cond_text_any|rewrite cond_text_all]; apply keepable_list; assumption. }
    induction cfg as [n|k v|l IH|l IH|x IH] using Cfg_ind'; cbn [to_condition].
    - apply D.
    - apply D.
    - apply (L Any (or_text (language c))); auto.
    - apply (L All (and_text (language c))); auto.
    - intros k E. destruct (to_condition (defines c) x) as [y|]; [|discriminate]. injection E as <-. cbn [cond_text].
      unfold not_text, is_py. rewrite not_cython, keepable_app, (IH y eq_refl). reflexivity.
  Qed.
  Definition keepable_opt (o : option Condition) : Prop := match o with Some k => keepable (cond_text (language c) k) = true | None => True end.
  Lemma guard_keepable cfg : keepable_opt (to_condition_opt (defines c) cfg).
  Proof.
    destruct cfg as [cfg|]; [|exact Logic.I]. cbn [to_condition_opt]. unfold keepable_opt.
    destruct (to_condition (defines c) cfg) as [k|] eqn:E; [|exact Logic.I]. exact (keepable_condition cfg k E).
  Qed.
  (** The context inside a guard. *)
  Definition gd (o : option Condition) (g : list entry) : list entry :=
    match o with Some k => Gd (holds (condition_line k)) :: g | None => g end.

  Lemma T_before l o g : keepable_opt o -> T l (fresh g) (write_before c o) l (fresh (gd o g)).
  Proof.
    intro K. destruct o as [k|]; [|apply T_ret]. cbn [write_before gd]. rewrite not_cython.
    eapply T_seq; [apply T_push_set|].
    change (seq (write "#if ") (seq (Condition_write (language c) k) (seq pop newline)))
      with (PWrite "#if " (seq (Condition_write (language c) k) (seq pop newline))).
    assert (P : plain_text (PWrite "#if " (Condition_write (language c) k)) = Some (condition_line k)).
    { cbn [plain_text]. rewrite condition_plain. reflexivity. }
    change (PWrite "#if " (seq (Condition_write (language c) k) (seq pop newline)))
      with (seq (PWrite "#if " (Condition_write (language c) k)) (seq pop newline)).
    eapply T_seq.
    - apply (T_directive_plain _ _ _ _ _ _ _ (eol (Gd (holds (condition_line k)) :: g)) P).
      exists (At (DirectiveLine (condition_line k)) Plain (conds_of g) (open_of g)). split.
      + unfold condition_line. rewrite read_app.
        change (read holds (here BlankLine Plain g) "#if ") with (Some (At (DirectiveLine "#if ") Plain (conds_of g) (open_of g))).
        apply read_keepable. exact K.
      + apply eol_opens; [apply LE|left; reflexivity|]. unfold condition_line. reflexivity.
    - eapply T_seq; [apply T_pop|]. apply T_forget, T_newline.
  Qed.
  Lemma T_after l o g : T l (eol (gd o g)) (write_after c o) l (eol g).
  Proof.
    destruct o as [k|]; [|apply T_ret]. cbn [write_after gd]. rewrite not_cython.
    eapply T_seq; [apply T_forget, T_newline|]. eapply T_seq; [apply T_push_set|]. eapply T_seq; [|apply T_pop].
    apply T_directive. eexists. split; [reflexivity|]. apply (eol_closes _ _ LE "#endif" Plain g (Gd (holds (condition_line k)))).
    - left; reflexivity.
    - reflexivity.
    - discriminate.
  Qed.

  (** ** Documentation *)
  (** Reading a line of a comment. *)
  Lemma in_line_comment s : forall (back : bool) l cs op, one_line s = true ->
    read holds (At l (if back then InLineBack else InLine) cs op) s = Some (At l (if continues back s then InLineBack else InLine) cs op).
  Proof.
    induction s as [|a s IH]; intros back l cs op N; [reflexivity|].
    apply all_chars_cons in N as [A N]. apply negb_true_iff in A. cbn [read continues].
    assert (E : step holds (At l (if back then InLineBack else InLine) cs op) a
                = Some (At l (if (if Ascii.eqb a "\" then true else if inline_blank a then back else false) then InLineBack else InLine) cs op)).
    { unfold step, move. destruct back; cbn [o_spot o_line o_conds o_open]; rewrite A.
      - destruct (Ascii.eqb a "\"); [rewrite orb_true_r; reflexivity|]. destruct (inline_blank a); reflexivity.
      - destruct (Ascii.eqb a "\"); [reflexivity|]. destruct (inline_blank a); reflexivity. }
    rewrite E, (IH _ l cs op N).
    destruct (Ascii.eqb a "\"); [reflexivity|]. destruct (inline_blank a); reflexivity.
  Qed.
  Inductive bspot := BS (star : bool) | BB.
  Definition bspot_of (x : bspot) : spot := match x with BS star => InBlock star | BB => InBlockBack end.
  (** A block comment is not left unless it is closed; the end is after a
      backslash only if the line ends in one. *)
  Lemma in_block_comment s : forall x l cs op, one_line s = true -> closes s = false ->
    (x = BS true -> starts_slash s = false) ->
    exists y, read holds (At l (bspot_of x) cs op) s = Some (At l (bspot_of y) cs op)
      /\ (y = BB -> continues (match x with BB => true | _ => false end) s = true).
  Proof.
    induction s as [|a s IH]; intros x l cs op N K S.
    { exists x. split; [reflexivity|]. intros ->. reflexivity. }
    apply all_chars_cons in N as [A N]. apply negb_true_iff in A.
    assert (K1 : closes s = false) by (cbn [closes] in K; apply orb_false_elim in K as [_ K]; exact K).
    assert (ST : Ascii.eqb a "*" = true -> starts_slash s = false).
    { intro E. cbn [closes] in K. apply orb_false_elim in K as [K _]. destruct s as [|b s]; [reflexivity|]. rewrite E in K. exact K. }
    cbn [read continues].
    assert (NEXT : exists z, step holds (At l (bspot_of x) cs op) a = Some (At l (bspot_of z) cs op)
       /\ (z = BS true -> Ascii.eqb a "*" = true)
       /\ (z = BB -> Ascii.eqb a "\" = true \/ (inline_blank a = true /\ x = BB))).
    { unfold step, move. destruct x as [star|]; cbn [bspot_of o_spot o_line o_conds o_open].
      - assert (star && Ascii.eqb a "/" = false) as -> by (destruct star; [exact (S eq_refl)|reflexivity]).
        destruct (star && Ascii.eqb a "\") eqn:B.
        + exists BB. split; [reflexivity|]. split; [discriminate|]. intros _. left. apply andb_prop in B as [_ B]. exact B.
        + exists (BS (Ascii.eqb a "*")). split; [reflexivity|]. split; [intro Z; injection Z as Z; exact Z|discriminate].
      - rewrite A. destruct (inline_blank a) eqn:B.
        + exists BB. split; [reflexivity|]. split; [discriminate|]. intros _. right. auto.
        + exists (BS (Ascii.eqb a "*")). split; [reflexivity|]. split; [intro Z; injection Z as Z; exact Z|discriminate]. }
    destruct NEXT as (z & -> & Z1 & Z2).
    destruct (IH z l cs op N K1 (fun E => ST (Z1 E))) as (y & -> & Y). exists y. split; [reflexivity|].
    intro E. specialize (Y E). destruct z as [st|].
    - assert (M : forall p, continues false s = true -> continues p s = true).
      { clear. intros p. revert p. induction s as [|a s IH]; intros p; cbn [continues]; [discriminate|].
        destruct (Ascii.eqb a "\"); [auto|]. destruct (inline_blank a); [apply IH|auto]. }
      destruct (Ascii.eqb a "\"); [apply M, Y|]. destruct (inline_blank a); [apply M, Y|exact Y].
    - destruct (Z2 eq_refl) as [-> | [B ->]]; [exact Y|]. destruct (Ascii.eqb a "\"); [exact Y|]. rewrite B. exact Y.
  Qed.
  (** In a block comment at the start of a line. *)
  Definition in_comment (g : list entry) : assertion := fun s => exists star, s = here BlankLine (InBlock star) g.
  Definition in_comment_clean (g : list entry) : assertion := fun s => s = here BlankLine (InBlock false) g.
  Lemma blanks_comment n star g : read holds (here BlankLine (InBlock star) g) (srepeat " " n) = Some (here BlankLine (InBlock (match n with 0 => star | _ => false end)) g).
  Proof.
    revert star. induction n as [|n IH]; intro star; [reflexivity|].
    change (srepeat " " (S n)) with (String " " (srepeat " " n)). cbn [read].
    assert (E : step holds (here BlankLine (InBlock star) g) " " = Some (here BlankLine (InBlock false) g)) by (destruct star; reflexivity).
    rewrite E, IH. destruct n; reflexivity.
  Qed.
  Lemma T_break l (P Q : assertion) : (forall x, P x -> exists x', read holds x le = Some x' /\ Q x') -> T l P newline l Q.
  Proof.
    intros A w w' s Hs W E. injection E as <-. split; [unfold late in *; cbn; destruct l; lia|].
    destruct (A s Hs) as (s' & R & Z). exists le, s'. auto.
  Qed.
  Lemma doc_line_plain prefix s : plain_text (seq (write prefix) (write s)) = Some (prefix ++ s).
  Proof. cbn. rewrite !sapp_nil_r. reflexivity. Qed.
  Lemma comment_break y g : exists star, read holds (At BlankLine (bspot_of y) (conds_of g) (open_of g)) le = Some (here BlankLine (InBlock star) g)
    /\ (y <> BB -> star = false).
  Proof.
    destruct LE as [-> | ->]; destruct y as [[|]|]; eexists; (split; [reflexivity|]); try reflexivity; intro N; destruct (N eq_refl).
  Qed.
  (** The four styles. *)
  Lemma T_doc_lines l g d : forallb (safe_line (language c) (doc_style c)) d = true ->
    let style := doc_style c in
    T l (match style with DocC => in_comment_clean g | DocDoxy => in_comment g | _ => fresh g end)
      (seqs (map (write_doc_line (doc_prefix style)) d)) l
      (match style with DocC => in_comment_clean g | DocDoxy => in_comment g | _ => fresh g end).
  Proof.
    cbv zeta. induction d as [|s d IH]; intro F; [apply T_ret|].
    cbn [forallb] in F. apply andb_prop in F as [S F]. cbn [map seqs]. eapply T_seq; [|exact (IH F)]. clear IH F.
    unfold write_doc_line. change (seq (write (doc_prefix (doc_style c))) (seq (write s) newline))
      with (seq (seq (write (doc_prefix (doc_style c))) (write s)) newline).
    assert (NC : match language c with Cython => True | _ => False end -> False) by (destruct (language c); tauto).
    assert (S' : one_line s && match doc_style c with
                 | DocC => negb (closes s) && negb (continues false s)
                 | DocDoxy => negb (closes s) && negb (starts_slash s)
                 | _ => negb (continues false s) end = true).
    { unfold safe_line in S. destruct (language c); [exact S|exact S|contradiction]. }
    apply andb_prop in S' as [O S'].
    assert (LN : (doc_style c = DocC99 \/ doc_style c = DocCxx) ->
      T l (fresh g) (seq (seq (write (doc_prefix (doc_style c))) (write s)) newline) l (fresh g)).
    { intro D. assert (K : continues false s = false) by (destruct D as [D|D]; rewrite D in S'; apply negb_true_iff; exact S').
      eapply T_seq; [|apply T_forget, T_newline].
      apply (T_directive_plain _ _ _ _ _ _ _ (eol g) (doc_line_plain _ _)).
      exists (here BlankLine InLine g). split; [|apply (end_code _ _ LE); [left|right]; reflexivity].
      rewrite read_app.
      assert (read holds (here BlankLine Plain g) (doc_prefix (doc_style c)) = Some (here BlankLine InLine g)) as ->
        by (destruct D as [-> | ->]; reflexivity).
      pose proof (in_line_comment s false BlankLine (conds_of g) (open_of g) O) as R. rewrite K in R. exact R. }
    destruct (doc_style c) eqn:D; cbn [doc_prefix] in *.
    - (* C *) apply andb_prop in S' as [K S']. apply negb_true_iff in K, S'.
      eapply T_seq with (Q := fun x => exists star, x = here BlankLine (InBlock star) g).
      + apply (T_plain _ _ _ _ _ _ _ _ (doc_line_plain _ _)). intros n x ->. rewrite read_app, blanks_comment. cbn [append].
        assert ((match n with 0 => false | _ => false end) = false) as -> by (destruct n; reflexivity).
        destruct (in_block_comment s (BS false) BlankLine (conds_of g) (open_of g) O K ltac:(discriminate)) as (y & R & Y).
        destruct y as [star|]; [|specialize (Y eq_refl); cbn in Y; rewrite S' in Y; discriminate].
        exists (here BlankLine (InBlock star) g). split; [exact R|]. exists star. reflexivity.
      + apply T_break. intros x (star & ->). destruct (comment_break (BS star) g) as (st & R & Z). rewrite (Z ltac:(discriminate)) in R.
        eexists. split; [exact R|reflexivity].
    - (* C99 *) apply LN. auto.
    - (* Doxy *) apply andb_prop in S' as [K S']. apply negb_true_iff in K, S'.
      eapply T_seq with (Q := fun x => exists y, x = At BlankLine (bspot_of y) (conds_of g) (open_of g)).
      + apply (T_plain _ _ _ _ _ _ _ _ (doc_line_plain _ _)). intros n x (star & ->). rewrite read_app, blanks_comment, read_app.
        assert (read holds (here BlankLine (InBlock match n with 0 => star | _ => false end) g) " *" = Some (here BlankLine (InBlock true) g)) as ->
          by (destruct n, star; reflexivity).
        destruct (in_block_comment s (BS true) BlankLine (conds_of g) (open_of g) O K (fun _ => S')) as (y & R & _).
        exists (At BlankLine (bspot_of y) (conds_of g) (open_of g)). split; [exact R|]. exists y. reflexivity.
      + apply T_break. intros x (y & ->). destruct (comment_break y g) as (st & R & _). eexists. split; [exact R|]. exists st. reflexivity.
    - (* Cxx *) apply LN. auto.
    - exfalso. unfold doc_style in D. destruct (documentation_style c); try discriminate D. destruct (language c); discriminate D.
  Qed.
  Lemma T_docs l g d : forallb (safe_line (language c) (doc_style c)) d = true -> T l (fresh g) (write_documentation c d) l (fresh g).
  Proof.
    intro F.
    assert (F' : forallb (safe_line (language c) (doc_style c)) (doc_lines c d) = true).
    { unfold doc_lines. destruct (documentation_length c); [|exact F]. destruct d as [|x d]; [reflexivity|]. cbn in *.
      apply andb_prop in F as [F _]. rewrite F. reflexivity. }
    assert (E : write_documentation c d = clike_write_documentation c d) by (unfold write_documentation; destruct (language c); [reflexivity|reflexivity|contradiction]).
    rewrite E. unfold clike_write_documentation. destruct d as [|x d]; [apply T_ret|]. destruct (negb (documentation c)); [apply T_ret|].
    cbv zeta. pose proof (T_doc_lines l g _ F') as D. cbv zeta in D.
    assert (C1 : T l (in_comment g) (seq (write " */") newline) l (fresh g)).
    { eapply T_seq; [|apply T_forget, T_newline].
      apply T_write. intros n y (star & ->). rewrite read_app, blanks_comment. exists (here BlankLine Plain g).
      split; [destruct n, star; reflexivity|apply (fresh_eol _ _ LE); reflexivity]. }
    destruct (doc_style c).
    - eapply T_seq; [|eapply T_seq; [exact D|eapply T_pre; [exact C1|intros y ->; exists false; reflexivity]]].
      eapply T_seq with (Q := in_comment_clean g).
      + apply T_directive. eexists. split; reflexivity.
      + apply T_break. intros y ->. destruct (comment_break (BS false) g) as (st & R & Z). rewrite (Z ltac:(discriminate)) in R. eexists; split; [exact R|reflexivity].
    - eapply T_seq; [apply T_ret|]. eapply T_seq; [exact D|apply T_ret].
    - eapply T_seq; [|eapply T_seq; [exact D|exact C1]].
      eapply T_seq with (Q := fun s => s = here BlankLine (InBlock true) g).
      + apply T_directive. eexists. split; reflexivity.
      + apply T_break. intros y ->. destruct (comment_break (BS true) g) as (st & R & _). eexists; split; [exact R|exists st; reflexivity].
    - eapply T_seq; [apply T_ret|]. eapply T_seq; [exact D|apply T_ret].
    - eapply T_seq; [apply T_ret|]. eapply T_seq; [exact D|apply T_ret].
  Qed.
End Shape.
