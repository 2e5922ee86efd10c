(** Reading pieces of text in a context of open brackets and conditionals. *)
Require Import Coq.Strings.String Coq.Strings.Ascii Coq.Lists.List Coq.Bool.Bool Coq.Arith.Arith Lia.
From Verif Require Import Base P_Base S_Lex S_Comment S_Outline.
Import ListNotations.
Open Scope string_scope.

(** ** Contexts *)
(** An open bracket, a conditional in its first branch, one after its #else. *)
Inductive entry := Br (a : ascii) | Gd (on : bool) | Ge (on : bool).
Definition frame_of (outer on : bool) : frame :=
  if outer then {| f_on := on; f_taken := on; f_else := false |} else {| f_on := false; f_taken := true; f_else := false |}.
Fixpoint conds_of (g : list entry) : list frame :=
  match g with
  | [] => []
  | Br _ :: r => conds_of r
  | Gd b :: r => frame_of (active (conds_of r)) b :: conds_of r
  | Ge b :: r => {| f_on := active (conds_of r) && b; f_taken := true; f_else := true |} :: conds_of r
  end.
Fixpoint open_of (g : list entry) : list ascii :=
  match g with
  | [] => []
  | Br a :: r => if active (conds_of r) then a :: open_of r else open_of r
  | Gd _ :: r | Ge _ :: r => open_of r
  end.
Definition here (l : line_kind) (x : spot) (g : list entry) : outline := At l x (conds_of g) (open_of g).
Definition is_code (l : line_kind) : Prop := l = BlankLine \/ l = CodeLine.

(** ** Pieces of one line, outside directives, read without a state *)
Definition br (a : ascii) (g : list entry) : option (list entry) :=
  if opening a then Some (Br a :: g)
  else if closing a then match g with Br o :: r => if Ascii.eqb o (partner a) then Some r else None | _ => None end
  else Some g.
Definition piece_plain (a : ascii) (g : list entry) : option (spot * list entry) :=
  if Ascii.eqb a lf then None
  else if inline_blank a then Some (Plain, g)
  else if Ascii.eqb a "\" then Some (Back, g)
  else if Ascii.eqb a "/" then Some (Slash, g)
  else if Ascii.eqb a "'" || Ascii.eqb a """" then Some (InQuote a, g)
  else if Ascii.eqb a "#" then None
  else match br a g with Some g' => Some (Plain, g') | None => None end.
Definition piece_step (x : spot) (g : list entry) (a : ascii) : option (spot * list entry) :=
  if Ascii.eqb a lf then None
  else match x with
  | Plain => piece_plain a g
  | Back => if inline_blank a then Some (Back, g) else piece_plain a g
  | Slash =>
      if Ascii.eqb a "/" then Some (InLine, g)
      else if Ascii.eqb a "*" then Some (InBlock false, g)
      else if Ascii.eqb a "\" then None
      else piece_plain a g
  | InLine => if Ascii.eqb a "\" then Some (InLineBack, g) else Some (InLine, g)
  | InLineBack => if inline_blank a || Ascii.eqb a "\" then Some (InLineBack, g) else Some (InLine, g)
  | InBlock star =>
      if star && Ascii.eqb a "/" then Some (Plain, g)
      else if star && Ascii.eqb a "\" then Some (InBlockBack, g)
      else Some (InBlock (Ascii.eqb a "*"), g)
  | InBlockBack => if inline_blank a then Some (InBlockBack, g) else Some (InBlock (Ascii.eqb a "*"), g)
  | InQuote q => if Ascii.eqb a "\" then Some (InQuoteBack q, g)
                 else Some (if Ascii.eqb a q then Plain else InQuote q, g)
  | InQuoteBack q => Some (InQuote q, g)
  end.
Fixpoint piece (x : spot) (g : list entry) (s : string) : option (spot * list entry) :=
  match s with
  | "" => Some (x, g)
  | String a r => match piece_step x g a with Some (x', g') => piece x' g' r | None => None end
  end.

Lemma piece_app a : forall x g s, piece x g (a ++ s) = match piece x g a with Some (x', g') => piece x' g' s | None => None end.
Proof.
  induction a as [|c a IH]; intros x g s; cbn [append piece]; [reflexivity|].
  destruct (piece_step x g c) as [[x' g']|]; [apply IH|reflexivity].
Qed.

Section Reading.
  Variable holds : string -> bool.
  Notation rd := (read holds).

  Lemma read_app a : forall s t, rd s (a ++ t) = match rd s a with Some s' => rd s' t | None => None end.
  Proof.
    induction a as [|c a IH]; intros s t; cbn [append read]; [reflexivity|].
    destruct (step holds s c); [apply IH|reflexivity].
  Qed.

  Lemma br_conds a g g' : br a g = Some g' -> conds_of g' = conds_of g.
  Proof.
    unfold br. destruct (opening a); [intro E; injection E as <-; reflexivity|].
    destruct (closing a); [|intro E; injection E as <-; reflexivity].
    destruct g as [|[o|on|on] r]; try discriminate.
    destruct (Ascii.eqb o (partner a)); [|discriminate]. intro E; injection E as <-; reflexivity.
  Qed.
  Lemma br_bracket a g g' : br a g = Some g' -> active (conds_of g) = true -> bracket a (open_of g) = Some (open_of g').
  Proof.
    unfold br, bracket. destruct (opening a) eqn:O.
    { intros E A. injection E as <-. cbn [open_of conds_of]. rewrite A. reflexivity. }
    destruct (closing a) eqn:K; [|intros E _; injection E as <-; reflexivity].
    destruct g as [|[o|on|on] r]; try discriminate. cbn [open_of conds_of].
    destruct (Ascii.eqb o (partner a)) eqn:M; [|discriminate]. intros E A. injection E as <-. rewrite A. cbn. rewrite M. reflexivity.
  Qed.
  Lemma br_inactive a g g' : br a g = Some g' -> active (conds_of g) = false -> open_of g' = open_of g.
  Proof.
    unfold br. destruct (opening a) eqn:O.
    { intros E A. injection E as <-. cbn [open_of conds_of]. rewrite A. reflexivity. }
    destruct (closing a) eqn:K; [|intros E _; injection E as <-; reflexivity].
    destruct g as [|[o|on|on] r]; try discriminate. cbn [open_of conds_of].
    destruct (Ascii.eqb o (partner a)); [|discriminate]. intros E A. injection E as <-. rewrite A. reflexivity.
  Qed.

  Lemma significant_code a x0 x l g g' : is_code l -> br a g = Some g' ->
    significant a x (here l x0 g) = Some (here CodeLine x g').
  Proof.
    intros L B. unfold significant, here. cbn [o_line o_conds o_open].
    assert (E : (if active (conds_of g)
                 then match bracket a (open_of g) with Some o => Some (At CodeLine x (conds_of g) o) | None => None end
                 else Some (At CodeLine x (conds_of g) (open_of g))) = Some (At CodeLine x (conds_of g') (open_of g'))).
    { rewrite (br_conds _ _ _ B). destruct (active (conds_of g)) eqn:A.
      - rewrite (br_bracket _ _ _ B A). reflexivity.
      - rewrite (br_inactive _ _ _ B A). reflexivity. }
    destruct L as [-> | ->]; exact E.
  Qed.
  Lemma quote_br a g : Ascii.eqb a "'" || Ascii.eqb a """" = true -> br a g = Some g.
  Proof. intro Q. apply orb_prop in Q as [Q|Q]; apply Ascii.eqb_eq in Q; subst a; reflexivity. Qed.

  Lemma plain_code a l x g x' g' : is_code l -> piece_plain a g = Some (x', g') ->
    exists l', is_code l' /\ plain holds a (here l x g) = Some (here l' x' g').
  Proof.
    intros L P. unfold piece_plain in P. unfold plain.
    destruct (Ascii.eqb a lf); [discriminate|].
    destruct (inline_blank a).
    { injection P as <- <-. exists l. split; [exact L|]. cbn. destruct L as [-> | ->]; reflexivity. }
    destruct (Ascii.eqb a "\"). { injection P as <- <-. exists l. split; [exact L|reflexivity]. }
    destruct (Ascii.eqb a "/"). { injection P as <- <-. exists l. split; [exact L|reflexivity]. }
    destruct (Ascii.eqb a "'" || Ascii.eqb a """") eqn:Q.
    { injection P as <- <-. exists CodeLine. split; [right; reflexivity|].
      apply significant_code; [exact L|exact (quote_br _ _ Q)]. }
    destruct (Ascii.eqb a "#"); [discriminate|].
    destruct (br a g) as [g1|] eqn:B; [|discriminate]. injection P as <- <-.
    exists CodeLine. split; [right; reflexivity|].
    pose proof (significant_code a x Plain l g g1 L B) as E. cbn [o_line here]. destruct L as [-> | ->]; exact E.
  Qed.

  Lemma step_code a l x g x' g' : is_code l -> piece_step x g a = Some (x', g') ->
    exists l', is_code l' /\ step holds (here l x g) a = Some (here l' x' g').
  Proof.
    intros L P. unfold piece_step in P. unfold step. cbn [o_spot here].
    destruct (Ascii.eqb a lf) eqn:N; [discriminate|].
    destruct x as [ | | | | |star| |q|q].
    - exact (plain_code a l _ g x' g' L P).
    - destruct (inline_blank a); [injection P as <- <-; exists l; split; [exact L|reflexivity]|].
      exact (plain_code a l _ g x' g' L P).
    - destruct (Ascii.eqb a "/"); [injection P as <- <-; exists l; split; [exact L|reflexivity]|].
      destruct (Ascii.eqb a "*"); [injection P as <- <-; exists l; split; [exact L|reflexivity]|].
      destruct (Ascii.eqb a "\"); [discriminate|].
      rewrite (significant_code "/" Slash Plain l g g L eq_refl).
      apply plain_code; [right; reflexivity|exact P].
    - destruct (Ascii.eqb a "\"); injection P as <- <-; exists l; split; try exact L; reflexivity.
    - destruct (inline_blank a || Ascii.eqb a "\"); injection P as <- <-; exists l; split; try exact L; reflexivity.
    - destruct (star && Ascii.eqb a "/").
      { injection P as <- <-. exists l. split; [exact L|]. destruct L as [-> | ->]; reflexivity. }
      destruct (star && Ascii.eqb a "\"); injection P as <- <-; exists l; split; try exact L; reflexivity.
    - destruct (inline_blank a); injection P as <- <-; exists l; split; try exact L; reflexivity.
    - destruct (Ascii.eqb a "\"); injection P as <- <-; exists l; (split; [exact L|]); destruct L as [-> | ->]; reflexivity.
    - injection P as <- <-. exists l. (split; [exact L|]). destruct L as [-> | ->]; reflexivity.
  Qed.

  Lemma keep_directive a t : exists t', keep a (DirectiveLine t) = DirectiveLine (t ++ t').
  Proof. unfold keep. destruct (Ascii.eqb a cr); [exists ""; rewrite sapp_nil_r; reflexivity|exists (String a ""); reflexivity]. Qed.
  (** In a directive only the place within the line matters. *)
  Lemma plain_directive a t x g cs op x' g' : piece_plain a g = Some (x', g') ->
    exists t', plain holds a (At (DirectiveLine t) x cs op) = Some (At (DirectiveLine (t ++ t')) x' cs op).
  Proof.
    intro P. unfold piece_plain in P. unfold plain.
    destruct (Ascii.eqb a lf); [discriminate|].
    destruct (inline_blank a). { injection P as <- <-. cbn [o_line]. destruct (keep_directive a t) as (t' & ->). exists t'. reflexivity. }
    destruct (Ascii.eqb a "\"). { injection P as <- <-. exists "". rewrite sapp_nil_r. reflexivity. }
    destruct (Ascii.eqb a "/"). { injection P as <- <-. exists "". rewrite sapp_nil_r. reflexivity. }
    destruct (Ascii.eqb a "'" || Ascii.eqb a """"). { injection P as <- <-. exists (String a ""). reflexivity. }
    destruct (Ascii.eqb a "#"); [discriminate|].
    destruct (br a g); [|discriminate]. injection P as <- <-. exists (String a ""). reflexivity.
  Qed.
  Lemma step_directive a t x g cs op x' g' : piece_step x g a = Some (x', g') ->
    exists t', step holds (At (DirectiveLine t) x cs op) a = Some (At (DirectiveLine (t ++ t')) x' cs op).
  Proof.
    intro P. unfold piece_step in P. unfold step, move. cbn [o_spot o_line o_conds o_open].
    destruct (Ascii.eqb a lf) eqn:N; [discriminate|].
    assert (Z : forall y, exists t', Some (At (DirectiveLine t) y cs op) = Some (At (DirectiveLine (t ++ t')) y cs op)).
    { intro y. exists "". rewrite sapp_nil_r. reflexivity. }
    destruct x as [ | | | | |star| |q|q].
    - exact (plain_directive _ _ _ _ _ _ _ _ P).
    - destruct (inline_blank a); [injection P as <- <-; apply Z|]. exact (plain_directive _ _ _ _ _ _ _ _ P).
    - destruct (Ascii.eqb a "/"); [injection P as <- <-; apply Z|].
      destruct (Ascii.eqb a "*"); [injection P as <- <-; apply Z|].
      destruct (Ascii.eqb a "\"); [discriminate|].
      cbn [significant o_line o_conds o_open].
      destruct (plain_directive a (t ++ "/") Plain g cs op x' g' P) as (t' & E).
      exists ("/" ++ t'). rewrite E, sapp_assoc. reflexivity.
    - destruct (Ascii.eqb a "\"); injection P as <- <-; apply Z.
    - destruct (inline_blank a || Ascii.eqb a "\"); injection P as <- <-; apply Z.
    - destruct (star && Ascii.eqb a "/"). { injection P as <- <-. exists " ". reflexivity. }
      destruct (star && Ascii.eqb a "\"); injection P as <- <-; apply Z.
    - destruct (inline_blank a); injection P as <- <-; apply Z.
    - destruct (keep_directive a t) as (t' & ->). destruct (Ascii.eqb a "\"); injection P as <- <-; exists t'; reflexivity.
    - destruct (keep_directive a t) as (t' & ->). injection P as <- <-. exists t'. reflexivity.
  Qed.

  (** *** What a piece of text does, in code and in a directive *)
  Definition effect (x : spot) (g : list entry) (s : string) (x' : spot) (g' : list entry) : Prop :=
    (forall l, is_code l -> exists l', is_code l' /\ rd (here l x g) s = Some (here l' x' g'))
    /\ (forall t cs op, exists t', rd (At (DirectiveLine t) x cs op) s = Some (At (DirectiveLine (t ++ t')) x' cs op)).

  Lemma effect_piece s : forall x g x' g', piece x g s = Some (x', g') -> effect x g s x' g'.
  Proof.
    induction s as [|a s IH]; intros x g x' g' P; cbn [piece] in P.
    - injection P as <- <-. split.
      + intros l L. exists l. split; [exact L|reflexivity].
      + intros. exists "". rewrite sapp_nil_r. reflexivity.
    - destruct (piece_step x g a) as [[x1 g1]|] eqn:E; [|discriminate].
      destruct (IH _ _ _ _ P) as [C D]. split.
      + intros l L. destruct (step_code a l x g x1 g1 L E) as (l1 & L1 & E1). cbn [read]. rewrite E1. exact (C l1 L1).
      + intros t cs op. destruct (step_directive a t x g cs op x1 g1 E) as (t1 & E1). cbn [read]. rewrite E1.
        destruct (D (t ++ t1) cs op) as (t2 & E2). exists (t1 ++ t2). rewrite E2, sapp_assoc. reflexivity.
  Qed.
  Lemma effect_app x g a x1 g1 b x2 g2 : effect x g a x1 g1 -> effect x1 g1 b x2 g2 -> effect x g (a ++ b) x2 g2.
  Proof.
    intros [C1 D1] [C2 D2]. split.
    - intros l L. destruct (C1 l L) as (l1 & L1 & E1). destruct (C2 l1 L1) as (l2 & L2 & E2).
      exists l2. split; [exact L2|]. rewrite read_app, E1. exact E2.
    - intros t cs op. destruct (D1 t cs op) as (t1 & E1). destruct (D2 (t ++ t1) cs op) as (t2 & E2).
      exists (t1 ++ t2). rewrite read_app, E1, E2, sapp_assoc. reflexivity.
  Qed.
  Lemma effect_nil x g : effect x g "" x g.
  Proof. apply effect_piece. reflexivity. Qed.
End Reading.

(** *** Words *)
Lemma all_chars_cons f a s : all_chars f (String a s) = true -> f a = true /\ all_chars f s = true.
Proof. cbn. apply andb_prop. Qed.
Definition bad_in_word : list ascii :=
  ["'"%char; """"%char; "\"%char; "/"%char; "*"%char; "#"%char; "("%char; ")"%char; "["%char; "]"%char; "{"%char; "}"%char; lf; cr].
Lemma not_bad a x : negb (existsb (Ascii.eqb a) bad_in_word) = true -> In x bad_in_word -> Ascii.eqb a x = false.
Proof.
  intros H I. apply negb_true_iff in H. destruct (Ascii.eqb a x) eqn:E; [|reflexivity].
  rewrite (proj2 (existsb_exists _ _)) in H; [discriminate|]. exists x. split; assumption.
Qed.
Lemma word_char a : negb (existsb (Ascii.eqb a) bad_in_word) = true ->
  Ascii.eqb a "'" = false /\ Ascii.eqb a """" = false /\ Ascii.eqb a "\" = false /\ Ascii.eqb a "/" = false /\ Ascii.eqb a "*" = false
  /\ Ascii.eqb a "#" = false /\ opening a = false /\ closing a = false /\ Ascii.eqb a lf = false.
Proof.
  intro H. assert (N : forall x, In x bad_in_word -> Ascii.eqb a x = false) by (intros; apply (not_bad a x H); assumption).
  unfold opening, closing. rewrite !N by (cbn; tauto). repeat split; reflexivity.
Qed.

Ltac word_facts H := destruct (word_char _ H) as (E1 & E2 & E3 & E4 & E5 & E6 & E7 & E8 & E9).
(** In code a word does nothing. *)
Lemma piece_word s : forall g, wordy s = true -> piece Plain g s = Some (Plain, g).
Proof.
  induction s as [|a s IH]; intros g W; [reflexivity|].
  apply all_chars_cons in W as [A W]. cbn [piece]. word_facts A. unfold piece_step, piece_plain. rewrite E9.
  destruct (inline_blank a); [exact (IH g W)|]. rewrite E3, E4, E1, E2, E6. unfold br. rewrite E7, E8. exact (IH g W).
Qed.
(** In a literal, a line comment or a block comment it stays there. *)
Lemma piece_word_quote s : forall q g, (q = "'"%char \/ q = """"%char) -> wordy s = true -> piece (InQuote q) g s = Some (InQuote q, g).
Proof.
  induction s as [|a s IH]; intros q g Q W; [reflexivity|].
  apply all_chars_cons in W as [A W]. cbn [piece]. word_facts A. unfold piece_step. rewrite E9, E3.
  assert (Ascii.eqb a q = false) as -> by (destruct Q as [-> | ->]; assumption). exact (IH q g Q W).
Qed.
Lemma piece_word_line s : forall g, wordy s = true -> piece InLine g s = Some (InLine, g).
Proof.
  induction s as [|a s IH]; intros g W; [reflexivity|].
  apply all_chars_cons in W as [A W]. cbn [piece]. word_facts A. unfold piece_step. rewrite E9, E3. exact (IH g W).
Qed.
Lemma piece_word_block s : forall g, wordy s = true -> piece (InBlock false) g s = Some (InBlock false, g).
Proof.
  induction s as [|a s IH]; intros g W; [reflexivity|].
  apply all_chars_cons in W as [A W]. cbn [piece]. word_facts A. unfold piece_step. rewrite E9, E5. cbn. exact (IH g W).
Qed.
Lemma wordy_app a b : wordy (a ++ b) = wordy a && wordy b.
Proof.
  unfold wordy. induction a as [|c a IH]; [reflexivity|]. cbn [append all_chars]. rewrite IH. apply andb_assoc.
Qed.

(** *** Calm text *)
Section Calm.
  Variable holds : string -> bool.

  (** Reading without line ends does not depend on the surroundings. *)
  Definition brs (ps : list ascii) (g : list entry) : list entry := map Br ps ++ g.
  Lemma brs_conds ps g : conds_of (brs ps g) = conds_of g.
  Proof. induction ps as [|a ps IH]; [reflexivity|exact IH]. Qed.
  Lemma bracket_br a ps qs g : bracket a ps = Some qs -> br a (brs ps g) = Some (brs qs g).
  Proof.
    unfold bracket, br. destruct (opening a); [intro E; injection E as <-; reflexivity|].
    destruct (closing a); [|intro E; injection E as <-; reflexivity].
    destruct ps as [|o r]; [discriminate|]. cbn. destruct (Ascii.eqb o (partner a)); [|discriminate].
    intro E; injection E as <-; reflexivity.
  Qed.

  Lemma directive_stays s : forall h t x cs op r, all_chars (fun a => negb (Ascii.eqb a lf)) s = true ->
    read h (At (DirectiveLine t) x cs op) s = Some r -> exists t', o_line r = DirectiveLine t'.
  Proof.
    induction s as [|a s IH]; intros h t x cs op r N R; cbn [read] in R.
    - injection R as <-. eexists; reflexivity.
    - apply all_chars_cons in N as [A N]. apply negb_true_iff in A.
      assert (Q : forall r1, step h (At (DirectiveLine t) x cs op) a = Some r1 ->
                exists t1 x1 cs1 op1, r1 = At (DirectiveLine t1) x1 cs1 op1).
      { intros r1. unfold step, plain, significant, move, keep. cbn [o_spot o_line o_conds o_open]. rewrite ?A.
        destruct x; repeat match goal with |- context [if ?b then _ else _] => destruct b end; intro E;
          try discriminate E; injection E as <-; repeat eexists. }
      destruct (step h (At (DirectiveLine t) x cs op) a) as [r1|] eqn:E; [|discriminate].
      destruct (Q r1 eq_refl) as (t1 & x1 & cs1 & op1 & ->). exact (IH _ _ _ _ _ _ N R).
  Qed.

  (** From code to code, the reading is that of a piece, except that a '#' may
      stand after other code. *)
  Lemma plain_framed a l x ps r : is_code l -> Ascii.eqb a lf = false ->
    plain (fun _ => true) a (At l x [] ps) = Some r -> is_code (o_line r) ->
    exists x' qs, o_conds r = [] /\ r = At (o_line r) x' [] qs /\
      forall h l2 y g, is_code l2 -> (l = CodeLine -> l2 = CodeLine) ->
        exists l3, is_code l3 /\ (o_line r = CodeLine -> l3 = CodeLine) /\
          plain h a (here l2 y (brs ps g)) = Some (here l3 x' (brs qs g)).
  Proof.
    intros L N. unfold plain. rewrite N.
    destruct (inline_blank a).
    { intros E C. injection E as <-. cbn [o_line o_conds o_open] in *.
      exists Plain, ps. split; [reflexivity|]. split; [reflexivity|].
      intros h l2 y g L2 K. exists l2. split; [exact L2|]. split.
      - intro X. apply K. destruct L as [-> | ->]; [discriminate X|reflexivity].
      - unfold here. cbn. destruct L2 as [-> | ->]; reflexivity. }
    destruct (Ascii.eqb a "\").
    { intros E C. injection E as <-. exists Back, ps. split; [reflexivity|]. split; [reflexivity|].
      intros h l2 y g L2 K. exists l2. split; [exact L2|]. split; [exact K|reflexivity]. }
    destruct (Ascii.eqb a "/").
    { intros E C. injection E as <-. exists Slash, ps. split; [reflexivity|]. split; [reflexivity|].
      intros h l2 y g L2 K. exists l2. split; [exact L2|]. split; [exact K|reflexivity]. }
    assert (SIG : forall z l0, is_code l0 -> significant a z (At l0 x [] ps) = Some r ->
              exists qs, bracket a ps = Some qs /\ r = At CodeLine z [] qs).
    { intros z l0 L0 E. unfold significant in E. cbn in E.
      destruct (bracket a ps) as [qs|]; [|destruct L0 as [-> | ->]; discriminate].
      exists qs. split; [reflexivity|]. destruct L0 as [-> | ->]; injection E as <-; reflexivity. }
    destruct (Ascii.eqb a "'" || Ascii.eqb a """") eqn:Q.
    { intros E C. destruct (SIG _ _ L E) as (qs & B & ->). exists (InQuote a), qs. split; [reflexivity|]. split; [reflexivity|].
      intros h l2 y g L2 K. exists CodeLine. split; [right; reflexivity|]. split; [reflexivity|].
      apply significant_code; [exact L2|]. exact (bracket_br _ _ _ g B). }
    cbn [o_line]. destruct L as [-> | ->].
    - destruct (Ascii.eqb a "#").
      + intros E [C|C]; injection E as <-; discriminate C.
      + intros E C. destruct (SIG _ _ (or_introl eq_refl) E) as (qs & B & ->). exists Plain, qs. split; [reflexivity|]. split; [reflexivity|].
        intros h l2 y g L2 K. exists CodeLine. split; [right; reflexivity|]. split; [reflexivity|].
        pose proof (significant_code a y Plain l2 _ _ L2 (bracket_br _ _ _ g B)) as G.
        destruct L2 as [-> | ->]; exact G.
    - intros E C. destruct (SIG _ _ (or_intror eq_refl) E) as (qs & B & ->). exists Plain, qs. split; [reflexivity|]. split; [reflexivity|].
      intros h l2 y g L2 K. exists CodeLine. split; [right; reflexivity|]. split; [reflexivity|].
      pose proof (significant_code a y Plain l2 _ _ L2 (bracket_br _ _ _ g B)) as G. rewrite (K eq_refl) in *. exact G.
  Qed.
  Lemma step_framed a l x ps r : is_code l -> Ascii.eqb a lf = false ->
    step (fun _ => true) (At l x [] ps) a = Some r -> is_code (o_line r) ->
    exists x' qs, r = At (o_line r) x' [] qs /\
      forall h l2 g, is_code l2 -> (l = CodeLine -> l2 = CodeLine) ->
        exists l3, is_code l3 /\ (o_line r = CodeLine -> l3 = CodeLine) /\
          step h (here l2 x (brs ps g)) a = Some (here l3 x' (brs qs g)).
  Proof.
    intros L N. unfold step. cbn [o_spot here]. rewrite N. unfold move. cbn [o_line o_conds o_open].
    assert (MV : forall y, Some (At l y [] ps) = Some r -> is_code (o_line r) ->
      exists x' qs, r = At (o_line r) x' [] qs /\
      forall (h : string -> bool) l2 g, is_code l2 -> (l = CodeLine -> l2 = CodeLine) ->
        exists l3, is_code l3 /\ (o_line r = CodeLine -> l3 = CodeLine) /\
          Some (At l2 y (conds_of (brs ps g)) (open_of (brs ps g))) = Some (here l3 x' (brs qs g))).
    { intros y E C. injection E as <-. exists y, ps. split; [reflexivity|].
      intros h l2 g L2 K. exists l2. split; [exact L2|]. split; [exact K|reflexivity]. }
    assert (KP : forall c y, Some (At (keep c l) y [] ps) = Some r -> is_code (o_line r) ->
      exists x' qs, r = At (o_line r) x' [] qs /\
      forall (h : string -> bool) l2 g, is_code l2 -> (l = CodeLine -> l2 = CodeLine) ->
        exists l3, is_code l3 /\ (o_line r = CodeLine -> l3 = CodeLine) /\
          Some (At (keep c l2) y (conds_of (brs ps g)) (open_of (brs ps g))) = Some (here l3 x' (brs qs g))).
    { intros c y E C. injection E as <-. exists y, ps. split; [reflexivity|].
      intros h l2 g L2 K. exists l2. split; [exact L2|]. split.
      - intro X. apply K. destruct L as [-> | ->]; [discriminate X|reflexivity].
      - destruct L2 as [-> | ->]; reflexivity. }
    destruct x as [ | | | | |star| |q|q].
    - intros E C. destruct (plain_framed a l _ ps r L N E C) as (x' & qs & _ & R & G). exists x', qs. split; [exact R|].
      intros h l2 g. exact (G h l2 Plain g).
    - destruct (inline_blank a).
      { intros E C. injection E as <-. exists Back, ps. split; [reflexivity|].
        intros h l2 g L2 K. exists l2. split; [exact L2|]. split; [exact K|reflexivity]. }
      intros E C. destruct (plain_framed a l _ ps r L N E C) as (x' & qs & _ & R & G). exists x', qs. split; [exact R|].
      intros h l2 g. exact (G h l2 Back g).
    - destruct (Ascii.eqb a "/"); [apply MV|]. destruct (Ascii.eqb a "*"); [apply MV|]. destruct (Ascii.eqb a "\"); [discriminate|].
      intros E C.
      assert (F : significant "/" Plain (At l Slash [] ps) = Some (At CodeLine Plain [] ps)) by (destruct L as [-> | ->]; reflexivity).
      rewrite F in E. destruct (plain_framed a CodeLine _ ps r (or_intror eq_refl) N E C) as (x' & qs & _ & R & G).
      exists x', qs. split; [exact R|]. intros h l2 g L2 K.
      rewrite (significant_code "/" Slash Plain l2 (brs ps g) (brs ps g) L2 eq_refl).
      apply G; [right; reflexivity|reflexivity].
    - destruct (Ascii.eqb a "\"); apply MV.
    - destruct (inline_blank a || Ascii.eqb a "\"); apply MV.
    - destruct (star && Ascii.eqb a "/"); [apply KP|]. destruct (star && Ascii.eqb a "\"); apply MV.
    - destruct (inline_blank a); apply MV.
    - destruct (Ascii.eqb a "\"); apply KP.
    - apply KP.
  Qed.
  Lemma step_framed_directive a l x ps r : is_code l -> Ascii.eqb a lf = false ->
    step (fun _ => true) (At l x [] ps) a = Some r -> is_code (o_line r) ->
    forall h t cs op, exists t', step h (At (DirectiveLine t) x cs op) a = Some (At (DirectiveLine (t ++ t')) (o_spot r) cs op).
  Proof.
    intros L N E C h t cs op.
    assert (Z : forall y, exists t', Some (At (DirectiveLine t) y cs op) = Some (At (DirectiveLine (t ++ t')) y cs op)).
    { intro y. exists "". rewrite sapp_nil_r. reflexivity. }
    assert (PL : forall l0 y, is_code l0 -> plain (fun _ => true) a (At l0 y [] ps) = Some r ->
              forall t, exists t', plain h a (At (DirectiveLine t) y cs op) = Some (At (DirectiveLine (t ++ t')) (o_spot r) cs op)).
    { intros l0 y L0 P t0. unfold plain in *. rewrite N in *.
      destruct (inline_blank a); [injection P as <-; cbn [o_line o_conds o_open o_spot]; destruct (keep_directive a t0) as (t' & ->); exists t'; reflexivity|].
      assert (Z' : forall z, exists t', Some (At (DirectiveLine t0) z cs op) = Some (At (DirectiveLine (t0 ++ t')) z cs op)).
      { intro z. exists "". rewrite sapp_nil_r. reflexivity. }
      destruct (Ascii.eqb a "\"); [injection P as <-; apply Z'|].
      destruct (Ascii.eqb a "/"); [injection P as <-; apply Z'|].
      assert (SG : forall z, significant a z (At l0 y [] ps) = Some r -> o_spot r = z).
      { intros z G. unfold significant in G. cbn in G. destruct L0 as [-> | ->]; destruct (bracket a ps); try discriminate; injection G as <-; reflexivity. }
      destruct (Ascii.eqb a "'" || Ascii.eqb a """"). { rewrite (SG _ P). exists (String a ""). reflexivity. }
      exists (String a ""). cbn [o_line significant o_conds o_open]. f_equal. f_equal.
      destruct L0 as [-> | ->]; cbn [o_line] in P.
      - destruct (Ascii.eqb a "#"); [injection P as <-; destruct C; discriminate|]. symmetry. exact (SG _ P).
      - symmetry. exact (SG _ P). }
    unfold step, move in *. cbn [o_spot o_line o_conds o_open] in *. rewrite N in *.
    destruct x as [ | | | | |star| |q|q].
    - exact (PL l Plain L E t).
    - destruct (inline_blank a); [injection E as <-; apply Z|exact (PL l Back L E t)].
    - destruct (Ascii.eqb a "/"); [injection E as <-; apply Z|]. destruct (Ascii.eqb a "*"); [injection E as <-; apply Z|].
      destruct (Ascii.eqb a "\"); [discriminate|].
      assert (F : significant "/" Plain (At l Slash [] ps) = Some (At CodeLine Plain [] ps)) by (destruct L as [-> | ->]; reflexivity).
      rewrite F in E. destruct (PL CodeLine Plain (or_intror eq_refl) E (t ++ "/")) as (t' & G).
      exists ("/" ++ t'). cbn [significant o_line o_conds o_open]. rewrite G, sapp_assoc. reflexivity.
    - destruct (Ascii.eqb a "\"); injection E as <-; apply Z.
    - destruct (inline_blank a || Ascii.eqb a "\"); injection E as <-; apply Z.
    - destruct (star && Ascii.eqb a "/"). { injection E as <-. exists " ". reflexivity. }
      destruct (star && Ascii.eqb a "\"); injection E as <-; apply Z.
    - destruct (inline_blank a); injection E as <-; apply Z.
    - destruct (keep_directive a t) as (t' & ->). destruct (Ascii.eqb a "\"); injection E as <-; exists t'; reflexivity.
    - destruct (keep_directive a t) as (t' & ->). injection E as <-. exists t'. reflexivity.
  Qed.

  Lemma step_line_kind h l x cs op a r : is_code l -> Ascii.eqb a lf = false -> step h (At l x cs op) a = Some r ->
    is_code (o_line r) \/ exists t, o_line r = DirectiveLine t.
  Proof.
    intros L N. unfold step, plain, significant, move, keep. cbn [o_spot o_line o_conds o_open]. rewrite ?N.
    destruct L as [-> | ->];
    (destruct x; repeat match goal with
              | |- context [if ?b then _ else _] => destruct b
              | |- context [match bracket ?a ?b with _ => _ end] => destruct (bracket a b)
              end; intro E; try discriminate E; injection E as <-; cbn; unfold is_code; eauto).
    all: repeat match goal with
              | |- context [if ?b then _ else _] => destruct b
              | |- context [match bracket ?a ?b with _ => _ end] => destruct (bracket a b)
              end; eauto.
  Qed.

  Lemma read_framed s : forall l x ps r, all_chars (fun a => negb (Ascii.eqb a lf)) s = true -> is_code l ->
    read (fun _ => true) (At l x [] ps) s = Some r -> is_code (o_line r) ->
    exists x' qs, r = At (o_line r) x' [] qs /\
      (forall h l2 g, is_code l2 -> (l = CodeLine -> l2 = CodeLine) ->
        exists l3, is_code l3 /\ (o_line r = CodeLine -> l3 = CodeLine) /\
          read h (here l2 x (brs ps g)) s = Some (here l3 x' (brs qs g))) /\
      (forall h t cs op, exists t', read h (At (DirectiveLine t) x cs op) s = Some (At (DirectiveLine (t ++ t')) x' cs op)).
  Proof.
    induction s as [|a s IH]; intros l x ps r N L R C; cbn [read] in R.
    - injection R as <-. exists x, ps. split; [reflexivity|]. split.
      + intros h l2 g L2 K. exists l2. split; [exact L2|]. split; [exact K|reflexivity].
      + intros. exists "". rewrite sapp_nil_r. reflexivity.
    - apply all_chars_cons in N as [A N]. apply negb_true_iff in A.
      destruct (step (fun _ => true) (At l x [] ps) a) as [r1|] eqn:E; [|discriminate].
      destruct (step_line_kind _ _ _ _ _ _ _ L A E) as [C1|[t1 T1]].
      2:{ exfalso. destruct r1 as [l1 x1 cs1 op1]. cbn in T1. subst l1.
          destruct (directive_stays _ _ _ _ _ _ _ N R) as (t' & T'). rewrite T' in C. destruct C; discriminate. }
      destruct (step_framed a l x ps r1 L A E C1) as (x1 & ps1 & R1 & G1).
      pose proof (step_framed_directive a l x ps r1 L A E C1) as D1.
      rewrite R1 in R. destruct (IH _ _ _ _ N C1 R C) as (x' & qs & R' & G & D).
      exists x', qs. split; [exact R'|]. split.
      + intros h l2 g L2 K. destruct (G1 h l2 g L2 K) as (l3 & L3 & K3 & E3).
        destruct (G h l3 g L3 K3) as (l4 & L4 & K4 & E4). exists l4. split; [exact L4|]. split; [exact K4|].
        cbn [read]. rewrite E3. exact E4.
      + intros h t cs op. destruct (D1 h t cs op) as (t1 & E1). rewrite R1 in E1. cbn [o_spot] in E1.
        destruct (D h (t ++ t1) cs op) as (t2 & E2). exists (t1 ++ t2). cbn [read]. rewrite E1, E2, sapp_assoc. reflexivity.
  Qed.

  Lemma effect_calm s g : calm s = true -> effect holds Plain g s Plain g.
  Proof.
    unfold calm. intro H. apply andb_prop in H as [N H].
    destruct (read (fun _ => true) outset s) as [r|] eqn:R; [|discriminate].
    assert (K : is_code (o_line r) /\ exists l, r = At l Plain [] []).
    { destruct r as [[| |t] x [|] [|]]; try discriminate; destruct x; try discriminate; split; (left; reflexivity) || (right; reflexivity) || (eexists; reflexivity). }
    destruct K as [C (l & ->)].
    destruct (read_framed s BlankLine Plain [] _ N (or_introl eq_refl) R C) as (x' & qs & E & G & D).
    injection E as <- <-. split.
    - intros l2 L2. destruct (G holds l2 g L2 ltac:(discriminate)) as (l3 & L3 & _ & E3). exists l3. split; [exact L3|exact E3].
    - exact (D holds).
  Qed.
End Calm.

(** *** Blocks of whole lines *)
Definition dead (f : frame) : frame := {| f_on := false; f_taken := true; f_else := f_else f |}.
Lemma active_app a b : active (a ++ b) = active a && active b.
Proof. unfold active. apply forallb_app. Qed.
Lemma bracket_under a op op' base : bracket a op = Some op' -> bracket a (op ++ base) = Some (op' ++ base)%list.
Proof.
  unfold bracket. destruct (opening a); [intro E; injection E as <-; reflexivity|].
  destruct (closing a); [|intro E; injection E as <-; reflexivity].
  destruct op as [|o r]; [discriminate|]. cbn. destruct (Ascii.eqb o (partner a)); [|discriminate]. intro E; injection E as <-; reflexivity.
Qed.
Section Under.
  Variables (holds : string -> bool) (bc : list frame) (bo : list ascii).
  Definition under (s : outline) : outline :=
    match s with At l x cs op => if active bc then At l x (cs ++ bc) (op ++ bo) else At l x (map dead cs ++ bc) bo end.
  Lemma under_line s : o_line (under s) = o_line s.
  Proof. destruct s. cbn. destruct (active bc); reflexivity. Qed.
  Lemma under_spot s : o_spot (under s) = o_spot s.
  Proof. destruct s. cbn. destruct (active bc); reflexivity. Qed.
  Lemma under_with s l x : At l x (o_conds (under s)) (o_open (under s)) = under (At l x (o_conds s) (o_open s)).
  Proof. destruct s. cbn. destruct (active bc); reflexivity. Qed.
  Lemma inactive_under cs : active bc = false -> active (map dead cs ++ bc) = false.
  Proof. intro A. rewrite active_app, A. apply andb_false_r. Qed.
  Lemma directive_under t cs cs' : directive holds t cs = Some cs' ->
    if active bc then directive holds t (cs ++ bc) = Some (cs' ++ bc)%list
    else directive holds t (map dead cs ++ bc) = Some (map dead cs' ++ bc)%list.
  Proof.
    unfold directive. destruct (active bc) eqn:A.
    - rewrite active_app, A, andb_true_r.
      destruct (mem_str _ ["if"; _; _]); [intro E; injection E as <-; reflexivity|].
      destruct (mem_str _ ["elif"; _; _]).
      { destruct cs as [|f r]; [discriminate|]. cbn. destruct (f_else f); [discriminate|]. intro E; injection E as <-; reflexivity. }
      destruct (String.eqb _ "else").
      { destruct cs as [|f r]; [discriminate|]. cbn. destruct (f_else f); [discriminate|]. intro E; injection E as <-; reflexivity. }
      destruct (String.eqb _ "endif").
      { destruct cs as [|f r]; [discriminate|]. cbn. intro E; injection E as <-; reflexivity. }
      intro E; injection E as <-; reflexivity.
    - rewrite (inactive_under cs A).
      destruct (mem_str _ ["if"; _; _]).
      { intro E; injection E as <-. cbn. unfold dead at 1. destruct (active cs); reflexivity. }
      destruct (mem_str _ ["elif"; _; _]).
      { destruct cs as [|f r]; [discriminate|]. cbn. destruct (f_else f); [discriminate|]. intro E; injection E as <-; reflexivity. }
      destruct (String.eqb _ "else").
      { destruct cs as [|f r]; [discriminate|]. cbn. destruct (f_else f); [discriminate|]. intro E; injection E as <-; reflexivity. }
      destruct (String.eqb _ "endif").
      { destruct cs as [|f r]; [discriminate|]. cbn. intro E; injection E as <-; reflexivity. }
      intro E; injection E as <-; reflexivity.
  Qed.
  Lemma end_line_under s s' : end_line holds s = Some s' -> end_line holds (under s) = Some (under s').
  Proof.
    unfold end_line. rewrite under_line. destruct s as [l x cs op]. cbn [o_line o_conds o_open].
    destruct l as [| |t].
    - intro E; injection E as <-. rewrite under_with. reflexivity.
    - intro E; injection E as <-. rewrite under_with. reflexivity.
    - destruct (directive holds t cs) as [cs'|] eqn:D; [|discriminate]. intro E; injection E as <-.
      pose proof (directive_under _ _ _ D) as U. cbn. destruct (active bc); cbn; rewrite U; reflexivity.
  Qed.
  Lemma significant_under a x s s' : significant a x s = Some s' -> significant a x (under s) = Some (under s').
  Proof.
    unfold significant. rewrite under_line. destruct s as [l y cs op]. cbn [o_line o_conds o_open].
    assert (K : (if active cs then match bracket a op with Some o => Some (At CodeLine x cs o) | None => None end
                 else Some (At CodeLine x cs op)) = Some s' ->
                (if active (o_conds (under (At l y cs op)))
                 then match bracket a (o_open (under (At l y cs op))) with
                      | Some o => Some (At CodeLine x (o_conds (under (At l y cs op))) o) | None => None end
                 else Some (At CodeLine x (o_conds (under (At l y cs op))) (o_open (under (At l y cs op))))) = Some (under s')).
    { cbn [under]. destruct (active bc) eqn:A; cbn [o_conds o_open].
      - rewrite active_app, A, andb_true_r. destruct (active cs).
        + destruct (bracket a op) as [o|] eqn:B; [|discriminate]. intro E; injection E as <-. rewrite (bracket_under _ _ _ bo B). unfold under. rewrite A. reflexivity.
        + intro E; injection E as <-. unfold under. rewrite A. reflexivity.
      - rewrite (inactive_under cs A). destruct (active cs).
        + destruct (bracket a op); [|discriminate]. intro E; injection E as <-. unfold under. rewrite A. reflexivity.
        + intro E; injection E as <-. unfold under. rewrite A. reflexivity. }
    destruct l as [| |t]; [exact K|exact K|]. intro E; injection E as <-. rewrite under_with. reflexivity.
  Qed.
  Lemma plain_under a s s' : plain holds a s = Some s' -> plain holds a (under s) = Some (under s').
  Proof.
    unfold plain. rewrite under_line.
    destruct (Ascii.eqb a lf); [apply end_line_under|].
    destruct (inline_blank a); [intro E; injection E as <-; rewrite under_with; reflexivity|].
    destruct (Ascii.eqb a "\"); [intro E; injection E as <-; rewrite under_with; reflexivity|].
    destruct (Ascii.eqb a "/"); [intro E; injection E as <-; rewrite under_with; reflexivity|].
    destruct (Ascii.eqb a "'" || Ascii.eqb a """"); [apply significant_under|].
    destruct (o_line s); try apply significant_under.
    destruct (Ascii.eqb a "#"); [intro E; injection E as <-; rewrite under_with; reflexivity|apply significant_under].
  Qed.
  Lemma move_under x s s' : move x s = Some s' -> move x (under s) = Some (under s').
  Proof. unfold move. rewrite under_line, under_with. intro E; injection E as <-; reflexivity. Qed.
  Lemma self_under s s' : Some s = Some s' -> Some (under s) = Some (under s').
  Proof. intro E; injection E as <-; reflexivity. Qed.
  Lemma with_under l x s s' : Some (At l x (o_conds s) (o_open s)) = Some s' ->
    Some (At l x (o_conds (under s)) (o_open (under s))) = Some (under s').
  Proof. rewrite under_with. intro E; injection E as <-; reflexivity. Qed.
  Lemma step_under s a s' : step holds s a = Some s' -> step holds (under s) a = Some (under s').
  Proof.
    unfold step. rewrite under_spot, under_line.
    destruct (o_spot s) as [ | | | | |star| |q|q].
    - apply plain_under.
    - destruct (Ascii.eqb a lf); [apply move_under|]. destruct (inline_blank a); [apply self_under|apply plain_under].
    - destruct (Ascii.eqb a "/"); [apply move_under|]. destruct (Ascii.eqb a "*"); [apply move_under|].
      destruct (Ascii.eqb a "\"); [discriminate|].
      destruct (significant "/" Plain s) as [s1|] eqn:E; [|discriminate].
      rewrite (significant_under _ _ _ _ E). apply plain_under.
    - destruct (Ascii.eqb a lf); [apply end_line_under|]. destruct (Ascii.eqb a "\"); [apply move_under|apply self_under].
    - destruct (Ascii.eqb a lf); [apply move_under|]. destruct (inline_blank a || Ascii.eqb a "\"); [apply self_under|apply move_under].
    - destruct (star && Ascii.eqb a "/"); [apply with_under|]. destruct (star && Ascii.eqb a "\"); apply move_under.
    - destruct (Ascii.eqb a lf); [apply move_under|]. destruct (inline_blank a); [apply self_under|apply move_under].
    - destruct (Ascii.eqb a lf); [discriminate|]. destruct (Ascii.eqb a "\"); apply with_under.
    - apply with_under.
  Qed.
  Lemma read_under t : forall s s', read holds s t = Some s' -> read holds (under s) t = Some (under s').
  Proof.
    induction t as [|a t IH]; intros s s' R; cbn [read] in *; [injection R as <-; reflexivity|].
    destruct (step holds s a) as [s1|] eqn:E; [|discriminate]. rewrite (step_under _ _ _ E). exact (IH _ _ R).
  Qed.
End Under.
Lemma block_read holds x g : read holds outset x = Some outset -> read holds (here BlankLine Plain g) x = Some (here BlankLine Plain g).
Proof.
  intro R. apply (read_under holds (conds_of g) (open_of g)) in R. unfold under, outset in R. cbn in R.
  destruct (active (conds_of g)); exact R.
Qed.
