(** Rules for following the reader along what a program writes. *)
Require Import Coq.Strings.String Coq.Strings.Ascii Coq.Lists.List Coq.Bool.Bool Coq.Arith.Arith Lia.
From Verif Require Import Base P_Base M_Config M_Writer S_Writer P_Writer M_Cfg P_Cfg M_Ir M_Library M_Literal M_Docs M_Backend S_Lex S_Comment S_Outline P_Outline.
Import ListNotations.
Open Scope string_scope.

Definition assertion := outline -> Prop.
Definition late (l : bool) (w : writer) : Prop := (if l then 2 else 1) <= w_lineno w.
Definition unix_or_dos (le : string) : Prop := le = nl \/ le = String cr nl.

  (** Text that a directive keeps as it is. *)
  Definition keepable (s : string) : bool :=
    all_chars (fun a => negb (existsb (Ascii.eqb a) ["'"%char; """"%char; "\"%char; "/"%char; lf; cr])) s.
  Lemma keepable_app a b : keepable (a ++ b) = keepable a && keepable b.
  Proof. unfold keepable. induction a as [|x a IH]; [reflexivity|]. cbn [append all_chars]. rewrite IH. apply andb_assoc. Qed.
  Lemma wordy_keepable s : wordy s = true -> keepable s = true.
  Proof.
    unfold wordy, keepable. induction s as [|a s IH]; [reflexivity|]. cbn [all_chars]. intro W. apply andb_prop in W as [A W].
    rewrite (IH W), andb_true_r. word_facts A. cbn [existsb].
    rewrite E1, E2, E3, E4, E9. rewrite (not_bad _ cr A) by (cbn; tauto). reflexivity.
  Qed.

Section Triples.
  Variables (holds : string -> bool) (tabw : nat) (le : string).
  Hypothesis LE : unix_or_dos le.
  Notation rd := (read holds).

  Definition fresh (g : list entry) : assertion := fun s => s = here BlankLine Plain g.
  Definition mid (g : list entry) : assertion := fun s => exists l, is_code l /\ s = here l Plain g.
  Definition eol (g : list entry) : assertion := fun s => rd s le = Some (here BlankLine Plain g).
  (** In a directive that starts with [t]. *)
  Definition dir (t : string) (g : list entry) : assertion :=
    fun s => exists t', s = At (DirectiveLine (t ++ t')) Plain (conds_of g) (open_of g).

  Definition T (l : bool) (P : assertion) (p : prog) (l' : bool) (Q : assertion) : Prop :=
    forall w w' s, P s -> late l w -> run tabw le p w = Some w' ->
      late l' w' /\ exists t s', w_out w' = w_out w ++ t /\ rd s t = Some s' /\ Q s'.

  Definition incl (P Q : assertion) : Prop := forall s, P s -> Q s.
  Lemma incl_refl P : incl P P. Proof. intros s Hs; exact Hs. Qed.
  Lemma end_code l x g : is_code l -> x = Plain \/ x = InLine -> rd (here l x g) le = Some (here BlankLine Plain g).
  Proof. intros L X. destruct LE as [-> | ->]; destruct L as [-> | ->]; destruct X as [-> | ->]; reflexivity. Qed.
  Lemma fresh_mid g : incl (fresh g) (mid g).
  Proof. intros s ->. exists BlankLine. split; [left|]; reflexivity. Qed.
  Lemma mid_eol g : incl (mid g) (eol g).
  Proof. intros s (l & L & ->). apply end_code; [exact L|left; reflexivity]. Qed.
  Lemma fresh_eol g : incl (fresh g) (eol g).
  Proof. intros s Hs. apply mid_eol, fresh_mid, Hs. Qed.
  Lemma end_directive t x cs op cs' : x = Plain \/ x = InLine -> directive holds t cs = Some cs' ->
    rd (At (DirectiveLine t) x cs op) le = Some (At BlankLine Plain cs' op).
  Proof.
    intros X D.
    assert (E : end_line holds (At (DirectiveLine t) x cs op) = Some (At BlankLine Plain cs' op)).
    { unfold end_line. cbn [o_line o_conds o_open]. rewrite D. reflexivity. }
    assert (E1 : step holds (At (DirectiveLine t) x cs op) lf = Some (At BlankLine Plain cs' op)).
    { destruct X as [-> | ->]; exact E. }
    assert (E2 : step holds (At (DirectiveLine t) x cs op) cr = Some (At (DirectiveLine t) x cs op)).
    { destruct X as [-> | ->]; reflexivity. }
    destruct LE as [-> | ->]; unfold nl; change (ascii_of_nat 10) with lf; cbn [read]; rewrite ?E2, ?E1; reflexivity.
  Qed.

  Lemma late_weaken l w : late true w -> late l w.
  Proof. unfold late. destruct l; lia. Qed.
  Lemma T_conseq l P p l' Q l1 P' l1' Q' : T l P p l' Q -> (l1 = l \/ l1 = true) -> incl P' P -> (l1' = l' \/ l' = true) -> incl Q Q' ->
    T l1 P' p l1' Q'.
  Proof.
    intros A L IP L' IQ w w' s Hs W R.
    assert (W1 : late l w) by (destruct L as [<- | ->]; [exact W|apply late_weaken, W]).
    destruct (A w w' s (IP _ Hs) W1 R) as (W2 & t & s' & O & E & X).
    split; [destruct L' as [-> | ->]; [exact W2|apply late_weaken, W2]|].
    exists t, s'. split; [exact O|]. split; [exact E|exact (IQ _ X)].
  Qed.
  Lemma T_pre l P p l' Q P' : T l P p l' Q -> incl P' P -> T l P' p l' Q.
  Proof. intros A I. apply (T_conseq _ _ _ _ _ _ _ _ _ A); auto. apply incl_refl. Qed.
  Lemma T_post l P p l' Q Q' : T l P p l' Q -> incl Q Q' -> T l P p l' Q'.
  Proof. intros A I. apply (T_conseq _ _ _ _ _ _ _ _ _ A); auto. apply incl_refl. Qed.
  Lemma T_forget l P p Q : T l P p true Q -> forall l', T l P p l' Q.
  Proof. intros A l'. apply (T_conseq _ _ _ _ _ _ _ _ _ A); auto; apply incl_refl. Qed.
  Lemma T_ret l P : T l P PRet l P.
  Proof. intros w w' s Hs W R. injection R as <-. split; [exact W|]. exists "", s. rewrite sapp_nil_r. auto. Qed.
  Lemma T_seq l P p l1 Q q l2 R : T l P p l1 Q -> T l1 Q q l2 R -> T l P (seq p q) l2 R.
  Proof.
    intros A B w w' s Hs W E. rewrite run_seq in E. destruct (run tabw le p w) as [w1|] eqn:E1; [|discriminate].
    destruct (A w w1 s Hs W E1) as (W1 & t1 & s1 & O1 & R1 & Q1).
    destruct (B w1 w' s1 Q1 W1 E) as (W2 & t2 & s2 & O2 & R2 & Q2).
    split; [exact W2|]. exists (t1 ++ t2), s2. split; [rewrite O2, O1, sapp_assoc; reflexivity|].
    split; [rewrite read_app, R1; exact R2|exact Q2].
  Qed.
  Lemma T_write l (P : assertion) s (Q : assertion) :
    (forall n x, P x -> exists x', rd x (srepeat " " n ++ s) = Some x' /\ Q x') -> T l P (write s) l Q.
  Proof.
    intros A w w' x Hx W E. cbn [run write] in E. unfold inner_write in E.
    destruct (String.eqb s "") eqn:S0.
    { injection E as <-. apply String.eqb_eq in S0. subst s. split; [exact W|]. destruct (A 0 x Hx) as (x' & R & Q').
      exists "", x'. rewrite sapp_nil_r. auto. }
    destruct (w_started w).
    { injection E as <-. split; [exact W|]. destruct (A 0 x Hx) as (x' & R & Q'). exists s, x'. auto. }
    destruct (w_spaces w) as [|sp r]; [discriminate|]. injection E as <-. split; [exact W|].
    destruct (A sp x Hx) as (x' & R & Q'). exists (srepeat " " sp ++ s), x'. auto.
  Qed.
  Lemma T_newline l g : T l (eol g) newline true (fresh g).
  Proof.
    intros w w' s Hs W E. injection E as <-. split; [unfold late in *; cbn; destruct l; lia|].
    exists le, (here BlankLine Plain g). split; [reflexivity|]. split; [exact Hs|reflexivity].
  Qed.
  Lemma T_newline_if l g : T l (fresh g) newline_if_not_start l (fresh g).
  Proof.
    intros w w' s Hs W E. cbn in E. unfold new_line_if_not_start in E.
    destruct (Nat.eqb (w_lineno w) 1); injection E as <-.
    - split; [exact W|]. exists "", s. rewrite sapp_nil_r. auto.
    - split; [unfold late in *; cbn; destruct l; lia|]. exists le, (here BlankLine Plain g). split; [reflexivity|].
      split; [exact (fresh_eol _ _ Hs)|reflexivity].
  Qed.
  Lemma T_newline_late g : T true (eol g) newline_if_not_start true (fresh g).
  Proof.
    intros w w' s Hs W E. cbn in E. unfold new_line_if_not_start in E.
    destruct (Nat.eqb (w_lineno w) 1) eqn:N; injection E as <-.
    - apply Nat.eqb_eq in N. unfold late in W. lia.
    - split; [unfold late in *; cbn; lia|]. exists le, (here BlankLine Plain g). split; [reflexivity|]. split; [exact Hs|reflexivity].
  Qed.
  Lemma T_push_set l P n : T l P (push_set_spaces n) l P.
  Proof. intros w w' s Hs W E. injection E as <-. split; [exact W|]. exists "", s. rewrite sapp_nil_r. auto. Qed.
  Lemma T_push_tab l P : T l P push_tab_ l P.
  Proof.
    intros w w' s Hs W E. cbn in E. unfold push_tab in E. destruct (w_spaces w); [discriminate|].
    destruct (Nat.eqb tabw 0); [discriminate|]. injection E as <-. split; [exact W|]. exists "", s. rewrite sapp_nil_r. auto.
  Qed.
  Lemma T_pop l P : T l P pop l P.
  Proof.
    intros w w' s Hs W E. cbn in E. unfold pop_tab in E. destruct (w_spaces w); [discriminate|].
    injection E as <-. split; [exact W|]. exists "", s. rewrite sapp_nil_r. auto.
  Qed.
  Lemma T_raw l P p l' Q : T l P p l' Q -> T l P (PRaw p) l' Q.
  Proof. intros A w w' s Hs W E. exact (A (set_started w) w' s Hs W E). Qed.
  Lemma T_align l P k l' Q : (forall n, T l P (k n) l' Q) -> T l P (PAlign k) l' Q.
  Proof. intros A w w' s Hs W E. cbn in E. destruct (align w) as [n|]; [|discriminate]. exact (A n w w' s Hs W E). Qed.
  Lemma T_try l P f Q m k l' R : T l P f l Q -> T l Q (k true) l' R -> T l P (k false) l' R -> T l P (PTry f m k) l' R.
  Proof.
    intros A B C w w' s Hs W E. cbn [run] in E.
    destruct (Nat.ltb m (w_len w)); [exact (C w w' s Hs W E)|].
    destruct (run tabw le f (measurer w)) as [mw|] eqn:F; [|discriminate].
    destruct (Nat.ltb m (w_max mw)); [exact (C w w' s Hs W E)|].
    destruct (A (measurer w) mw s Hs W F) as (_ & t1 & s1 & O1 & R1 & Q1). cbn in O1.
    assert (exists w1, inner_write (w_out mw) (set_started w) = Some w1 /\ w_out w1 = w_out w ++ w_out mw /\ w_lineno w1 = w_lineno w) as (w1 & I1 & X1 & L1).
    { unfold inner_write. destruct (String.eqb (w_out mw) "") eqn:Z.
      - apply String.eqb_eq in Z. exists (set_started w). rewrite Z, sapp_nil_r. auto.
      - cbn. eexists. split; [reflexivity|]. split; reflexivity. }
    rewrite I1 in E. assert (W1 : late l w1) by (unfold late; rewrite L1; exact W).
    destruct (B w1 w' s1 Q1 W1 E) as (W2 & t2 & s2 & O2 & R2 & Q2).
    split; [exact W2|]. exists (t1 ++ t2), s2. split; [rewrite O2, X1, O1, sapp_assoc; reflexivity|].
    split; [rewrite read_app, R1; exact R2|exact Q2].
  Qed.
  Lemma T_false l p l' Q : T l (fun _ => False) p l' Q.
  Proof. intros w w' s []. Qed.
  Lemma T_or l P1 P2 p l' Q : T l P1 p l' Q -> T l P2 p l' Q -> T l (fun s => P1 s \/ P2 s) p l' Q.
  Proof. intros A B w w' s [Hs|Hs]; [exact (A w w' s Hs)|exact (B w w' s Hs)]. Qed.

  (** A program that only writes text. *)
  Lemma run_plain_text p t : plain_text p = Some t -> forall w w', run tabw le p w = Some w' ->
    w_lineno w' = w_lineno w /\ exists n, (t = "" -> n = 0) /\ w_out w' = w_out w ++ srepeat " " n ++ t.
  Proof.
    revert t. induction p as [|s k IH|k IH|n k IH|k IH|k IH|k IH|k IH|k IH|f IHf m k IH]; intros t Hp w w' E; cbn in Hp; try discriminate.
    - injection Hp as <-. injection E as <-. split; [reflexivity|]. exists 0. cbn. rewrite sapp_nil_r. auto.
    - destruct (plain_text k) as [tk|] eqn:K; [|discriminate]. injection Hp as <-.
      cbn [run] in E. unfold inner_write in E. destruct (String.eqb s "") eqn:S0.
      + apply String.eqb_eq in S0. subst s. cbn [append]. exact (IH tk eq_refl w w' E).
      + assert (NE : s <> "") by (apply String.eqb_neq; exact S0).
        assert (TK : forall w1, w_started w1 = true -> run tabw le k w1 = Some w' -> w_lineno w' = w_lineno w1 /\ w_out w' = w_out w1 ++ tk).
        { intros w1 S1 R1. destruct (run_plain tabw le k tk w1 K S1) as (w2 & E2 & O2 & _). rewrite R1 in E2. injection E2 as <-.
          destruct (IH tk eq_refl w1 w' R1) as (L & _). auto. }
        destruct (w_started w).
        * destruct (fun z => TK _ z E) as (L & O); [reflexivity|]. split; [exact L|]. exists 0. split; [reflexivity|]. rewrite O. cbn. rewrite sapp_assoc. reflexivity.
        * destruct (w_spaces w) as [|sp r]; [discriminate|]. destruct (fun z => TK _ z E) as (L & O); [reflexivity|]. split; [exact L|].
          exists sp. split; [intro X; apply sapp_eq_nil in X; tauto|]. rewrite O. cbn. rewrite !sapp_assoc. reflexivity.
  Qed.
  Lemma T_plain l (P : assertion) p t (Q : assertion) : plain_text p = Some t ->
    (forall n x, P x -> exists x', rd x (srepeat " " n ++ t) = Some x' /\ Q x') -> T l P p l Q.
  Proof.
    intros Hp A w w' x Hx W E. destruct (run_plain_text p t Hp w w' E) as (L & n & _ & O).
    split; [unfold late; rewrite L; exact W|]. destruct (A n x Hx) as (x' & R & Q').
    exists (srepeat " " n ++ t), x'. auto.
  Qed.

  (** *** Text *)
  Lemma blanks_code n : forall l g, rd (here l Plain g) (srepeat " " n) = Some (here l Plain g) \/ (exists t, l = DirectiveLine t).
  Proof.
    intros l g. destruct l as [| |t]; [left|left|right; eexists; reflexivity]; induction n as [|n IH]; cbn; [reflexivity|exact IH|reflexivity|exact IH].
  Qed.
  Lemma blanks n l g : is_code l -> rd (here l Plain g) (srepeat " " n) = Some (here l Plain g).
  Proof. intros L. destruct (blanks_code n l g) as [E|[t ->]]; [exact E|]. destruct L; discriminate. Qed.
  Lemma blanks_directive n t cs op : exists t', rd (At (DirectiveLine t) Plain cs op) (srepeat " " n) = Some (At (DirectiveLine (t ++ t')) Plain cs op).
  Proof.
    revert t. induction n as [|n IH]; intros t; [exists ""; rewrite sapp_nil_r; reflexivity|].
    destruct (IH (t ++ " ")) as (t' & E). exists (" " ++ t'). rewrite sapp_assoc in E. exact E.
  Qed.
  Lemma T_text l g s g' : effect holds Plain g s Plain g' -> T l (mid g) (write s) l (mid g').
  Proof.
    intros [C _]. apply T_write. intros n x (k & K & ->). rewrite read_app, (blanks n k g K).
    destruct (C k K) as (k' & K' & E). exists (here k' Plain g'). split; [exact E|]. exists k'. auto.
  Qed.
  Lemma T_comment l g s g' : effect holds Plain g s InLine g' -> T l (mid g) (write s) l (eol g').
  Proof.
    intros [C _]. apply T_write. intros n x (k & K & ->). rewrite read_app, (blanks n k g K).
    destruct (C k K) as (k' & K' & E). exists (here k' InLine g'). split; [exact E|]. apply end_code; auto.
  Qed.
  Lemma T_dir l t0 g0 g s g' : effect holds Plain g s Plain g' -> T l (dir t0 g0) (write s) l (dir t0 g0).
  Proof.
    intros [_ D]. apply T_write. intros n x (t & ->). rewrite read_app.
    destruct (blanks_directive n (t0 ++ t) (conds_of g0) (open_of g0)) as (t1 & ->).
    destruct (D ((t0 ++ t) ++ t1) (conds_of g0) (open_of g0)) as (t2 & ->).
    eexists. split; [reflexivity|]. exists ((t ++ t1) ++ t2). rewrite !sapp_assoc. reflexivity.
  Qed.
  Lemma T_block l g x : (forall h, self_contained h (x ++ le)) -> T l (fresh g) (write x) l (eol g).
  Proof.
    intro B. apply T_write. intros n s ->. rewrite read_app, (blanks n BlankLine g (or_introl eq_refl)).
    pose proof (block_read holds _ g (B holds)) as R. rewrite read_app in R.
    destruct (rd (here BlankLine Plain g) x) as [s'|]; [|discriminate]. exists s'. split; [reflexivity|exact R].
  Qed.

  (** *** Directives *)
  Lemma read_keepable s : forall t cs op, keepable s = true ->
    rd (At (DirectiveLine t) Plain cs op) s = Some (At (DirectiveLine (t ++ s)) Plain cs op).
  Proof.
    induction s as [|a s IH]; intros t cs op K; [rewrite sapp_nil_r; reflexivity|].
    apply all_chars_cons in K as [A K].
    assert (N : forall x, In x ["'"%char; """"%char; "\"%char; "/"%char; lf; cr] -> Ascii.eqb a x = false).
    { intros x I. apply negb_true_iff in A. destruct (Ascii.eqb a x) eqn:E; [|reflexivity].
      rewrite (proj2 (existsb_exists _ _)) in A; [discriminate|]. exists x. split; assumption. }
    assert (E : step holds (At (DirectiveLine t) Plain cs op) a = Some (At (DirectiveLine (t ++ String a "")) Plain cs op)).
    { cbn [step o_spot]. unfold plain, keep. cbn [o_line o_conds o_open]. rewrite !N by (cbn; tauto). cbn [orb significant o_line o_conds o_open].
      destruct (inline_blank a); reflexivity. }
    cbn [read]. rewrite E, (IH _ _ _ K), sapp_assoc. reflexivity.
  Qed.
  Definition opens_conditional (t : string) : bool := mem_str (directive_name t) ["if"; "ifdef"; "ifndef"].
  (** A line that opens a conditional. *)
  Lemma eol_opens t x g : (x = Plain \/ x = InLine) -> opens_conditional t = true ->
    eol (Gd (holds t) :: g) (At (DirectiveLine t) x (conds_of g) (open_of g)).
  Proof.
    intros X O. unfold eol. unfold here. cbn [conds_of open_of].
    apply end_directive; [exact X|]. unfold directive. unfold opens_conditional in O. rewrite O. reflexivity.
  Qed.
  Lemma eol_closes t x g e : (x = Plain \/ x = InLine) -> directive_name t = "endif" -> (forall a, e <> Br a) ->
    eol g (At (DirectiveLine t) x (conds_of (e :: g)) (open_of (e :: g))).
  Proof.
    intros X N B. unfold eol. unfold here.
    destruct e as [a|on|on]; [destruct (B a eq_refl)| |]; cbn [conds_of open_of];
      (apply end_directive; [exact X|]; unfold directive; cbv zeta; rewrite N; reflexivity).
  Qed.
  Lemma eol_else t x g on : (x = Plain \/ x = InLine) -> directive_name t = "else" ->
    eol (Ge (negb on) :: g) (At (DirectiveLine t) x (conds_of (Gd on :: g)) (open_of (Gd on :: g))).
  Proof.
    intros X N. unfold eol. unfold here. cbn [conds_of open_of].
    apply end_directive; [exact X|]. unfold directive. cbv zeta. rewrite N. cbn. unfold frame_of.
    destruct (active (conds_of g)); reflexivity.
  Qed.
  Lemma eol_neutral t x g : (x = Plain \/ x = InLine) ->
    mem_str (directive_name t) ["if"; "ifdef"; "ifndef"; "elif"; "elifdef"; "elifndef"; "else"; "endif"] = false ->
    eol g (At (DirectiveLine t) x (conds_of g) (open_of g)).
  Proof.
    intros X N. unfold eol. unfold here. apply end_directive; [exact X|].
    assert (M : forall y, In y ["if"; "ifdef"; "ifndef"; "elif"; "elifdef"; "elifndef"; "else"; "endif"] -> String.eqb (directive_name t) y = false).
    { intros y I. apply String.eqb_neq. intro Z. rewrite Z in N. exact (proj1 (mem_str_false _ _) N I). }
    unfold directive. cbv zeta. unfold mem_str; cbn [existsb]. rewrite !M by (cbn; tauto). reflexivity.
  Qed.
  (** Writing a line that is a directive. *)
  Lemma T_directive l g s (Q : assertion) :
    (exists s', rd (here BlankLine Plain g) s = Some s' /\ Q s') -> T l (fresh g) (write s) l Q.
  Proof.
    intros (s' & R & Hq). apply T_write. intros n x ->. rewrite read_app, (blanks n BlankLine g (or_introl eq_refl)).
    exists s'. auto.
  Qed.
  Lemma T_directive_plain l g p t (Q : assertion) : plain_text p = Some t ->
    (exists s', rd (here BlankLine Plain g) t = Some s' /\ Q s') -> T l (fresh g) p l Q.
  Proof.
    intros Hp (s' & R & Hq). apply (T_plain _ _ _ _ _ Hp). intros n x ->. rewrite read_app, (blanks n BlankLine g (or_introl eq_refl)).
    exists s'. auto.
  Qed.

  (** *** Outcomes *)
  Definition OT (l : bool) (P : assertion) (o : outcome prog) (l' : bool) (Q : assertion) : Prop := forall p, o = Done p -> T l P p l' Q.
  Lemma OT_done l P p l' Q : T l P p l' Q -> OT l P (Done p) l' Q.
  Proof. intros A q E. injection E as <-. exact A. Qed.
  Lemma OT_seq l P p l1 Q q l2 R : OT l P p l1 Q -> OT l1 Q q l2 R -> OT l P (then_ p q) l2 R.
  Proof.
    intros A B x E. unfold then_ in E. destruct p as [p| |]; try discriminate. cbn in E.
    destruct q as [q| |]; try discriminate. cbn in E. injection E as <-. exact (T_seq _ _ _ _ _ _ _ _ (A p eq_refl) (B q eq_refl)).
  Qed.
  Lemma OT_pre l P p l' Q P' : OT l P p l' Q -> incl P' P -> OT l P' p l' Q.
  Proof. intros A I q E. exact (T_pre _ _ _ _ _ _ (A q E) I). Qed.
  Lemma OT_post l P p l' Q Q' : OT l P p l' Q -> incl Q Q' -> OT l P p l' Q'.
  Proof. intros A I q E. exact (T_post _ _ _ _ _ _ (A q E) I). Qed.
  Lemma OT_forget l P p Q : OT l P p true Q -> forall l', OT l P p l' Q.
  Proof. intros A l' q E. exact (T_forget _ _ _ _ (A q E) l'). Qed.
  Lemma OT_nothing l P : OT l P nothing l P.
  Proof. apply OT_done, T_ret. Qed.
  Lemma OT_when l P (x : bool) p Q : (x = true -> OT l P p l Q) -> incl P Q -> OT l P (when x p) l Q.
  Proof. intros A I. destruct x; [exact (A eq_refl)|]. exact (OT_post _ _ _ _ _ _ (OT_nothing l P) I). Qed.
  Lemma OT_if_some {A} l P (o : option A) f Q : (forall x, o = Some x -> OT l P (f x) l Q) -> incl P Q -> OT l P (if_some o f) l Q.
  Proof. intros K I. destruct o as [x|]; [exact (K x eq_refl)|]. exact (OT_post _ _ _ _ _ _ (OT_nothing l P) I). Qed.
  Lemma OT_each {A} l P (f : A -> outcome prog) xs : (forall x, In x xs -> OT l P (f x) l P) -> OT l P (each f xs) l P.
  Proof.
    induction xs as [|x xs IH]; intro K; [apply OT_nothing|]. cbn [each].
    eapply OT_seq; [apply K; left; reflexivity|apply IH; intros y I; apply K; right; exact I].
  Qed.
  Lemma OT_line l g : OT l (eol g) line l (fresh g).
  Proof. apply OT_forget, OT_done, T_newline. Qed.
  Lemma OT_text l g s g' : effect holds Plain g s Plain g' -> OT l (mid g) (text s) l (mid g').
  Proof. intro E. apply OT_done, T_text, E. Qed.

  (** *** Lists of elements *)
  Lemma T_vertical_items l g (ps : list prog) lt sep :
    lt = Join sep \/ lt = Cap sep -> (forall g, effect holds Plain g sep Plain g) ->
    (forall p, In p ps -> T l (fresh g) p l (mid g)) -> T l (fresh g) (vertical_items ps lt (fun p => p)) l (mid g).
  Proof.
    intros LT Sep. induction ps as [|p ps IH]; intro K.
    - eapply T_post; [apply T_ret|apply fresh_mid].
    - assert (KP : T l (fresh g) p l (mid g)) by (apply K; left; reflexivity).
      assert (KR : forall q, In q ps -> T l (fresh g) q l (mid g)) by (intros q I; apply K; right; exact I).
      assert (SW : T l (mid g) (write sep) l (mid g)) by (apply T_text, Sep).
      destruct ps as [|q ps].
      + cbn [vertical_items]. eapply T_seq; [exact KP|]. destruct LT as [-> | ->]; [apply T_ret|exact SW].
      + change (vertical_items (p :: q :: ps) lt (fun x => x))
          with (seq p (seq (match lt with Join t | Cap t => write t end) (seq newline (vertical_items (q :: ps) lt (fun x => x))))).
        eapply T_seq; [exact KP|]. eapply T_seq; [destruct LT as [-> | ->]; exact SW|].
        eapply T_seq; [|exact (IH KR)]. apply T_forget. eapply T_pre; [apply T_newline|apply mid_eol].
  Qed.
  (** The first element may start anywhere in a line if the elements can. *)
  Lemma T_vertical_mid l g (ps : list prog) lt sep :
    lt = Join sep \/ lt = Cap sep -> (forall g, effect holds Plain g sep Plain g) ->
    (forall p, In p ps -> T l (mid g) p l (mid g)) -> T l (mid g) (vertical_items ps lt (fun p => p)) l (mid g).
  Proof.
    intros LT Sep. induction ps as [|p ps IH]; intro K; [apply T_ret|].
    assert (KP : T l (mid g) p l (mid g)) by (apply K; left; reflexivity).
    assert (KR : forall q, In q ps -> T l (mid g) q l (mid g)) by (intros q I; apply K; right; exact I).
    assert (SW : T l (mid g) (write sep) l (mid g)) by (apply T_text, Sep).
    destruct ps as [|q ps].
    - cbn [vertical_items]. eapply T_seq; [exact KP|]. destruct LT as [-> | ->]; [apply T_ret|exact SW].
    - change (vertical_items (p :: q :: ps) lt (fun x => x))
        with (seq p (seq (match lt with Join t | Cap t => write t end) (seq newline (vertical_items (q :: ps) lt (fun x => x))))).
      eapply T_seq; [exact KP|]. eapply T_seq; [destruct LT as [-> | ->]; exact SW|].
      eapply T_seq; [|exact (IH KR)]. apply T_forget. eapply T_post; [eapply T_pre; [apply T_newline|apply mid_eol]|apply fresh_mid].
  Qed.
  Lemma T_indented l P p Q : T l P p l Q -> T l P (PAlign (fun n => seq (push_set_spaces n) (seq p pop))) l Q.
  Proof.
    intro A. apply T_align. intro n. eapply T_seq; [apply T_push_set|]. eapply T_seq; [exact A|apply T_pop].
  Qed.
  Lemma collect_in {A} (f : A -> outcome prog) xs : forall ps, collect f xs = Done ps -> forall p, In p ps -> exists x, In x xs /\ f x = Done p.
  Proof.
    induction xs as [|x xs IH]; intros ps E p I; cbn in E; [injection E as <-; destruct I|].
    destruct (f x) as [q| |] eqn:F; try discriminate. cbn in E. destruct (collect f xs) as [qs| |]; try discriminate. cbn in E.
    injection E as <-. destruct I as [<-|I]; [exists x; split; [left; reflexivity|exact F]|].
    destruct (IH qs eq_refl p I) as (y & J & G). exists y. split; [right; exact J|exact G].
  Qed.
  Lemma OT_vertical_lines {A} l g (xs : list A) lt sep (f : A -> outcome prog) :
    lt = Join sep \/ lt = Cap sep -> (forall g, effect holds Plain g sep Plain g) ->
    (forall x, In x xs -> OT l (fresh g) (f x) l (mid g)) -> OT l (fresh g) (vertical xs lt f) l (mid g).
  Proof.
    intros LT Sep K p E. unfold vertical in E. destruct (collect f xs) as [ps| |] eqn:C; try discriminate. cbn in E. injection E as <-.
    apply T_indented. apply (T_vertical_items l g ps lt sep LT Sep). intros q I.
    destruct (collect_in f xs ps C q I) as (x & J & F). exact (K x J q F).
  Qed.
  Lemma OT_vertical {A} l g (xs : list A) lt sep (f : A -> outcome prog) :
    lt = Join sep \/ lt = Cap sep -> (forall g, effect holds Plain g sep Plain g) ->
    (forall x, In x xs -> OT l (mid g) (f x) l (mid g)) -> OT l (mid g) (vertical xs lt f) l (mid g).
  Proof.
    intros LT Sep K p E. unfold vertical in E. destruct (collect f xs) as [ps| |] eqn:C; try discriminate. cbn in E. injection E as <-.
    apply T_indented. apply (T_vertical_mid l g ps lt sep LT Sep). intros q I.
    destruct (collect_in f xs ps C q I) as (x & J & F). exact (K x J q F).
  Qed.
End Triples.
