(** The attribute texts, notes and numbers that are put into lines. *)
Require Import Coq.Strings.String Coq.Strings.Ascii Coq.Lists.List Coq.Bool.Bool Coq.Arith.Arith Lia NArith DecimalString.
From Verif Require Import Base P_Base M_Config M_Writer M_Type M_Ir M_Library M_Docs M_Literal M_Syn M_Backend
  S_Lex S_Comment S_Outline S_Tame P_Outline P_Triples P_Shape P_Inline P_Value.
Import ListNotations.
Open Scope string_scope.

(** *** Quoted notes *)
Lemma piece_debug_char a g : piece (InQuote """") g (debug_char a) = Some (InQuote """", g).
Proof. destruct a as [[] [] [] [] [] [] [] []]; vm_compute; reflexivity. Qed.
Lemma piece_debug s g : piece (InQuote """") g (debug_chars s) = Some (InQuote """", g).
Proof. induction s as [|a s IH]; [reflexivity|]. cbn [debug_chars]. rewrite piece_app, piece_debug_char. exact IH. Qed.
Lemma effect_debug h s g : effect h Plain g (debug_str s) Plain g.
Proof.
  apply effect_piece. unfold debug_str. rewrite piece_app. change (piece Plain g dquote) with (Some (InQuote """", g)). cbv iota beta.
  rewrite piece_app, piece_debug. reflexivity.
Qed.

(** *** Formats *)
Definition simple_char (a : ascii) : bool := negb (existsb (Ascii.eqb a) ["'"%char; """"%char; "\"%char; "/"%char; "#"%char]).
Lemma blank_no_bracket a : inline_blank a = true -> opening a = false /\ closing a = false.
Proof. destruct a as [[] [] [] [] [] [] [] []]; vm_compute; intro; try discriminate; auto. Qed.
Lemma simple_facts a : simple_char a = true -> Ascii.eqb a lf = false ->
  forall g, piece_plain a g = match br a g with Some g' => Some (Plain, g') | None => None end.
Proof.
  intros S L g. unfold simple_char in S. cbn [existsb] in S.
  rewrite !negb_orb in S. repeat match goal with A : _ && _ = true |- _ => apply andb_prop in A as [? ?] end.
  repeat match goal with A : negb _ = true |- _ => apply negb_true_iff in A end.
  unfold piece_plain. rewrite L.
  repeat match goal with A : Ascii.eqb a _ = false |- _ => rewrite A; clear A end. cbn [orb].
  destruct (inline_blank a) eqn:B; [|reflexivity].
  unfold br. destruct (blank_no_bracket a B) as [-> ->]. reflexivity.
Qed.
Lemma calm_piece h s : all_chars simple_char s = true -> all_chars (fun a => negb (Ascii.eqb a lf)) s = true ->
  forall l ps s', is_code l -> read h (At l Plain [] ps) s = Some s' -> (o_spot s' = Plain) ->
  exists qs, o_open s' = qs /\ piece Plain (map Br ps) s = Some (Plain, map Br qs).
Proof.
  induction s as [|a s IH]; intros S L l ps s' C R P.
  { injection R as <-. exists ps. split; reflexivity. }
  apply all_chars_cons in S as [S1 S2]. apply all_chars_cons in L as [L1 L2]. apply negb_true_iff in L1.
  cbn [read] in R. destruct (step h (At l Plain [] ps) a) as [s1|] eqn:E; [|discriminate].
  assert (K : exists l1 qs, is_code l1 /\ s1 = At l1 Plain [] qs /\ bracket a ps = Some qs).
  { cbn [step o_spot] in E. unfold plain in E. cbn [o_line o_conds o_open] in E. rewrite L1 in E.
    unfold simple_char in S1. cbn [existsb] in S1.
    rewrite !negb_orb in S1. repeat match goal with A : _ && _ = true |- _ => apply andb_prop in A as [? ?] end.
    repeat match goal with A : negb _ = true |- _ => apply negb_true_iff in A end.
    destruct (inline_blank a) eqn:B.
    - injection E as <-. exists l, ps. split; [exact C|]. split; [destruct C as [-> | ->]; reflexivity|].
      unfold bracket. destruct (blank_no_bracket a B) as [-> ->]. reflexivity.
    - repeat match goal with A : Ascii.eqb a ?x = false, Z : context[Ascii.eqb a ?x] |- _ => lazymatch Z with A => fail | _ => rewrite A in Z end end.
      cbn [orb] in E.
      assert (SG : significant a Plain (At l Plain [] ps) = Some s1) by (destruct C as [-> | ->]; exact E).
      unfold significant in SG. cbn [o_line o_conds o_open active forallb] in SG.
      destruct (bracket a ps) as [qs|] eqn:BR.
      + exists CodeLine, qs. split; [right; reflexivity|]. split; [|reflexivity].
        destruct C as [-> | ->]; injection SG as <-; reflexivity.
      + destruct C as [-> | ->]; discriminate. }
  destruct K as (l1 & qs & C1 & -> & BR).
  destruct (IH S2 L2 l1 qs s' C1 R P) as (rs & O & Q). exists rs. split; [exact O|].
  cbn [piece]. unfold piece_step. rewrite L1, (simple_facts a S1 L1).
  pose proof (bracket_br a ps qs [] BR) as Z. unfold brs in Z. rewrite !app_nil_r in Z. rewrite Z. exact Q.
Qed.
Lemma format_piece s : tame_format s = true -> piece Plain [] s = Some (Plain, []) /\ all_chars simple_char s = true
  /\ all_chars (fun a => negb (Ascii.eqb a lf)) s = true.
Proof.
  unfold tame_format. intro A. apply andb_prop in A as [A S]. change (all_chars simple_char s = true) in S.
  unfold calm in A. apply andb_prop in A as [L A]. split; [|split; assumption].
  destruct (read (fun _ => true) outset s) as [[l x cs op]|] eqn:R; [|discriminate].
  assert (X : x = Plain /\ op = []).
  { destruct l, x, cs, op; try discriminate; split; reflexivity. }
  destruct X as [-> ->].
  destruct (calm_piece _ s S L BlankLine [] _ (or_introl eq_refl) R eq_refl) as (qs & O & P). cbn in O. subst qs. exact P.
Qed.
Lemma fill_effect h d : (forall g, effect h Plain g d Plain g) -> forall n s, String.length s <= n ->
  all_chars simple_char s = true -> all_chars (fun a => negb (Ascii.eqb a lf)) s = true ->
  forall g g', piece Plain g s = Some (Plain, g') -> effect h Plain g (fill_in d s) Plain g'.
Proof.
  intros D. induction n as [|n IH]; intros s N S L g g' P.
  { destruct s; [|cbn in N; lia]. injection P as <-. apply effect_nil. }
  destruct s as [|a s]; [injection P as <-; apply effect_nil|].
  apply all_chars_cons in S as [S1 S2]. apply all_chars_cons in L as [L1 L2]. cbn [String.length] in N.
  assert (ONE : forall r, (forall g1 g', piece Plain g1 s = Some (Plain, g') -> effect h Plain g1 r Plain g') -> effect h Plain g (String a r) Plain g').
  { intros r K. change (String a r) with (String a "" ++ r). apply negb_true_iff in L1.
    cbn [piece] in P. unfold piece_step in P. rewrite L1, (simple_facts a S1 L1) in P. destruct (br a g) as [g1|] eqn:B; [|discriminate].
    eapply effect_app; [|exact (K g1 g' P)]. apply effect_piece. cbn [piece]. unfold piece_step. rewrite L1, (simple_facts a S1 L1), B. reflexivity. }
  cbn [fill_in]. destruct s as [|b s].
  - apply ONE. intros g1 g2 Q. injection Q as <-. apply effect_nil.
  - destruct (Ascii.eqb a "{" && Ascii.eqb b "}") eqn:E.
    + apply andb_prop in E as [E1 E2]. apply Ascii.eqb_eq in E1, E2. subst a b.
      apply all_chars_cons in S2 as [_ S2]. apply all_chars_cons in L2 as [_ L2]. cbn [String.length] in N.
      eapply effect_app; [apply D|]. apply IH; [lia|exact S2|exact L2|]. exact P.
    + apply ONE. intros g1 g2 Q. apply IH; [lia|assumption..].
Qed.
Lemma format_effect h note s g : tame_format s = true -> effect h Plain g (fill_in (debug_str note) s) Plain g.
Proof.
  intro F. destruct (format_piece s F) as (P & S & L). apply (fill_effect h _ (effect_debug h note) (String.length s) s (le_n _) S L).
  exact (piece_more s g Plain [] Plain [] P).
Qed.

(** *** Numbers and names *)
Lemma wordy_uint u : wordy (NilEmpty.string_of_uint u) = true.
Proof. induction u as [|u IH|u IH|u IH|u IH|u IH|u IH|u IH|u IH|u IH|u IH]; [reflexivity|exact IH..]. Qed.
Lemma wordy_decimal n : wordy (decimal n) = true.
Proof. rewrite decimal_digits. apply wordy_uint. Qed.
Lemma wordy_sdrop n : forall s, wordy s = true -> wordy (sdrop n s) = true.
Proof.
  induction n as [|n IH]; intros s W; [exact W|]. destruct s as [|a s]; [reflexivity|]. cbn [sdrop]. apply IH.
  unfold wordy in *. apply all_chars_cons in W as [_ W]. exact W.
Qed.
Lemma wordy_trimmed n : forall pat s, wordy s = true -> wordy (trim_start_matches n pat s) = true.
Proof.
  induction n as [|n IH]; intros pat s W; [exact W|]. cbn [trim_start_matches]. destruct (String.eqb pat ""); [exact W|].
  destruct (starts_with pat s); [|exact W]. apply IH, wordy_sdrop, W.
Qed.
Lemma wordy_sconcat l : forallb wordy l = true -> wordy (sconcat l) = true.
Proof. induction l as [|x l IH]; [reflexivity|]. cbn. intro A. apply andb_prop in A as [A1 A2]. rewrite wordy_app, A1. exact (IH A2). Qed.
Lemma swift_effect h c f n g : swift_name c f = Some n -> wordy (f_path f) = true -> opt wordy (f_self_type_path f) = true ->
  forallb (fun a => opt wordy (a_name a)) (f_args f) = true -> effect h Plain g n Plain g.
Proof.
  unfold swift_name. destruct (Language_eqb (language c) Cython); [discriminate|]. intros E P S A.
  assert (FIN : forall tp tn, wordy tp = true ->
    (let n0 := String.length (f_path f) in
     let item_name := trim_start_matches n0 "_" (trim_start_matches n0 tn (f_path f)) in
     let? items := map_opt (fun a => let? nm := a_name a in Some (nm ++ ":")) (f_args f) in
     Some (tp ++ item_name ++ "(" ++ sconcat items ++ ")")) = Some n -> effect h Plain g n Plain g).
  { intros tp tn W Z. cbv zeta in Z.
    destruct (map_opt (fun a => let? nm := a_name a in Some (nm ++ ":")) (f_args f)) as [items|] eqn:M; [|discriminate].
    assert (WI : wordy (sconcat items) = true).
    { apply wordy_sconcat. apply (forallb_map_opt _ _ _ _ M). intros a y I F. pose proof (proj1 (forallb_forall _ _) A a I) as X. cbv beta in X.
      destruct (a_name a) as [nm|]; [|discriminate]. injection F as <-. cbn [opt] in X. rewrite wordy_app, X. reflexivity. }
    assert (WN : wordy (trim_start_matches (String.length (f_path f)) "_" (trim_start_matches (String.length (f_path f)) tn (f_path f))) = true)
      by (apply wordy_trimmed, wordy_trimmed, P).
    injection Z as <-. eff. }
  destruct (f_self_type_path f) as [tn|]; cbn [opt] in S.
  - destruct (starts_with tn (f_path f)); [|injection E as <-; apply effect_word, P]. apply (FIN (tn ++ ".") tn); [|exact E].
    rewrite wordy_app, S. reflexivity.
  - apply (FIN "" ""); [reflexivity|exact E].
Qed.
