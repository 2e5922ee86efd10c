Require Import Coq.Strings.String Coq.Strings.Ascii Coq.Lists.List Coq.Bool.Bool Coq.Arith.Arith Lia.
From Verif Require Import Base P_Base M_Config M_Writer S_Writer.
Import ListNotations.
Open Scope string_scope.
Local Arguments Nat.ltb : simpl never.
Local Arguments Nat.leb : simpl never.
Local Arguments Nat.eqb : simpl never.

(** Two writers that differ only in what they have output and measured. *)
Definition same_ctl (a b : writer) : Prop :=
  w_spaces a = w_spaces b /\ w_started a = w_started b /\ w_len a = w_len b /\ w_lineno a = w_lineno b.

Lemma same_ctl_refl : forall w, same_ctl w w.
Proof. intro. repeat split. Qed.

Lemma same_ctl_measurer : forall a b, same_ctl a b -> measurer a = measurer b.
Proof. intros a b (A & B & D & E). unfold measurer. now rewrite A, B, D, E. Qed.

Section R.
Variables (tabw : nat) (le : string).
Notation run := (run tabw le).

Ltac ctl := repeat match goal with
  | H : same_ctl ?a ?b |- _ => destruct H as (? & ? & ? & ?)
  end; unfold same_ctl in *; cbn in *.

Lemma inner_write_indep : forall s a b, same_ctl a b ->
  match inner_write s a with
  | None => inner_write s b = None
  | Some a' => exists b' t, inner_write s b = Some b' /\ same_ctl a' b' /\
       w_out a' = w_out a ++ t /\ w_out b' = w_out b ++ t
  end.
Proof.
  intros s a b (A & B & D & E). unfold inner_write. rewrite A, B, D.
  destruct (String.eqb s "").
  { exists b, "". rewrite !sapp_nil_r. repeat split; auto. }
  destruct (w_started b).
  { eexists _, s. repeat split; cbn; auto. }
  destruct (w_spaces b) as [|sp r] eqn:Es; [reflexivity|].
  eexists _, _. repeat split; cbn; auto.
Qed.

Lemma run_indep : forall p a b, same_ctl a b ->
  match run p a with
  | None => run p b = None
  | Some a' => exists b' t, run p b = Some b' /\ same_ctl a' b' /\
       w_out a' = w_out a ++ t /\ w_out b' = w_out b ++ t
  end.
Proof.
  induction p as [|s k IH|k IH|n k IH|k IH|k IH|k IH|k IH|k IH|f IHf m k IHk]; intros a b Hab; cbn.
  - exists b, "". rewrite !sapp_nil_r. auto.
  - pose proof (inner_write_indep s a b Hab) as W.
    destruct (inner_write s a) as [a1|]; [|now rewrite W].
    destruct W as (b1 & t & -> & C1 & O1 & O2). specialize (IH a1 b1 C1).
    destruct (run k a1) as [a2|]; [|exact IH].
    destruct IH as (b2 & t2 & R2 & C2 & P1 & P2). exists b2, (t ++ t2).
    rewrite P1, P2, O1, O2, !sapp_assoc. auto.
  - specialize (IH (set_started a) (set_started b)).
    assert (C : same_ctl (set_started a) (set_started b)) by (ctl; intuition).
    specialize (IH C). exact IH.
  - apply (IH (push_set n a) (push_set n b)). ctl. intuition congruence.
  - unfold push_tab. assert (Hab' := Hab). destruct Hab' as (A & _). rewrite A.
    destruct (w_spaces b) as [|sp r] eqn:Es; [reflexivity|].
    destruct (Nat.eqb tabw 0); [reflexivity|].
    apply (IH (push_set _ a) (push_set _ b)). ctl. intuition congruence.
  - unfold pop_tab. assert (Hab' := Hab). destruct Hab' as (A & _). rewrite A.
    destruct (w_spaces b) as [|sp r] eqn:Es; [reflexivity|].
    match goal with |- match run k ?x with _ => _ end => set (a1 := x) end.
    match goal with |- match run k a1 with Some _ => (exists _ _, run k ?y = _ /\ _) | _ => _ end => set (b1 := y) end.
    assert (C : same_ctl a1 b1) by (ctl; intuition congruence).
    apply (IH a1 b1 C).
  - assert (C : same_ctl (new_line le a) (new_line le b)) by (ctl; intuition congruence).
    specialize (IH _ _ C). destruct (run k (new_line le a)) as [a2|]; [|exact IH].
    destruct IH as (b2 & t2 & R2 & C2 & P1 & P2). exists b2, (le ++ t2). cbn in P1, P2.
    rewrite P1, P2, !sapp_assoc. auto.
  - unfold new_line_if_not_start. assert (Hab' := Hab). destruct Hab' as (_ & _ & _ & A). rewrite A.
    destruct (Nat.eqb (w_lineno b) 1); [apply IH; exact Hab|].
    assert (C : same_ctl (new_line le a) (new_line le b)) by (ctl; intuition congruence).
    specialize (IH _ _ C). destruct (run k (new_line le a)) as [a2|]; [|exact IH].
    destruct IH as (b2 & t2 & R2 & C2 & P1 & P2). exists b2, (le ++ t2). cbn in P1, P2.
    rewrite P1, P2, !sapp_assoc. auto.
  - unfold align. assert (Hab' := Hab). destruct Hab' as (A & B & D & _). rewrite A, B, D.
    destruct (w_started b); [apply IH; exact Hab|].
    destruct (w_spaces b); [reflexivity|]. apply IH; exact Hab.
  - assert (D : w_len a = w_len b) by apply Hab. rewrite D.
    destruct (Nat.ltb m (w_len b)); [apply IHk; exact Hab|].
    rewrite (same_ctl_measurer a b Hab).
    destruct (run f (measurer b)) as [mw|]; [|reflexivity].
    destruct (Nat.ltb m (w_max mw)); [apply IHk; exact Hab|].
    assert (C : same_ctl (set_started a) (set_started b)) by (ctl; intuition).
    pose proof (inner_write_indep (w_out mw) _ _ C) as W.
    destruct (inner_write (w_out mw) (set_started a)) as [a1|]; [|now rewrite W].
    destruct W as (b1 & t & -> & C1 & O1 & O2). specialize (IHk true a1 b1 C1).
    destruct (run (k true) a1) as [a2|]; [|exact IHk].
    destruct IHk as (b2 & t2 & R2 & C2 & P1 & P2). exists b2, (t ++ t2).
    cbn in O1, O2. rewrite P1, P2, O1, O2, !sapp_assoc. auto.
Qed.

(** Output only grows. *)
Lemma run_appends : forall p w w', run p w = Some w' -> exists t, w_out w' = w_out w ++ t.
Proof.
  intros p w w' H. pose proof (run_indep p w w (same_ctl_refl w)) as R. rewrite H in R.
  destruct R as (b' & t & _ & _ & O & _). eauto.
Qed.

Lemma same_ctl_sym : forall a b, same_ctl a b -> same_ctl b a.
Proof. intros a b (A & B & D & E). repeat split; auto. Qed.

Lemma same_ctl_with_measurer : forall w, same_ctl w (measurer w).
Proof. intro. repeat split. Qed.

(** What the measuring writer collects is what writing directly appends. *)
Lemma measured_is_direct : forall f w mw, run f (measurer w) = Some mw ->
  exists w', run f w = Some w' /\ w_out w' = w_out w ++ w_out mw /\ same_ctl w' mw.
Proof.
  intros f w mw H.
  pose proof (run_indep f (measurer w) w (same_ctl_sym _ _ (same_ctl_with_measurer w))) as R.
  rewrite H in R. destruct R as (b' & t & R & C & O1 & O2). cbn in O1. subst t.
  exists b'. split; [exact R|]. split; [exact O2|now apply same_ctl_sym].
Qed.

Lemma run_seq : forall p q w,
  run (seq p q) w = match run p w with None => None | Some w' => run q w' end.
Proof.
  induction p as [|s k IH|k IH|n k IH|k IH|k IH|k IH|k IH|k IH|f IHf m k IHk]; intros q w; cbn; auto.
  - destruct (inner_write s w); auto.
  - destruct (push_tab tabw w); auto.
  - destruct (pop_tab w); auto.
  - destruct (align w); auto.
  - destruct (Nat.ltb m (w_len w)); auto. destruct (run f (measurer w)); auto.
    destruct (Nat.ltb m (w_max w0)); auto. destruct (inner_write (w_out w0) (set_started w)); auto.
Qed.

(** ** Widths *)

Lemma widest_ge : forall s c, c <= widest c s.
Proof.
  induction s as [|a s IH]; intro c; cbn; [lia|].
  destruct (is_eol a); [lia|]. specialize (IH (S c)). lia.
Qed.

Lemma last_col_le_widest : forall s c, last_col c s <= widest c s.
Proof.
  induction s as [|a s IH]; intro c; cbn; [lia|].
  destruct (is_eol a); [specialize (IH 0); lia|apply IH].
Qed.

Lemma widest_app : forall s t c, widest c (s ++ t) = Nat.max (widest c s) (widest (last_col c s) t).
Proof.
  induction s as [|a s IH]; intros t c; cbn.
  - pose proof (widest_ge t c). lia.
  - destruct (is_eol a); rewrite IH; lia.
Qed.

Lemma last_col_app : forall s t c, last_col c (s ++ t) = last_col (last_col c s) t.
Proof.
  induction s as [|a s IH]; intros t c; cbn; [reflexivity|].
  destruct (is_eol a); apply IH.
Qed.

Lemma widest_clean : forall s c, no_eol s = true -> widest c s = c + String.length s.
Proof.
  induction s as [|a s IH]; intros c H; cbn in *; [lia|].
  apply andb_prop in H as [H1 H2]. destruct (is_eol a); [discriminate|]. rewrite IH; [lia|auto].
Qed.

Lemma last_col_clean : forall s c, no_eol s = true -> last_col c s = c + String.length s.
Proof.
  induction s as [|a s IH]; intros c H; cbn in *; [lia|].
  apply andb_prop in H as [H1 H2]. destruct (is_eol a); [discriminate|]. rewrite IH; [lia|auto].
Qed.

Lemma widest_le_length : forall s c, widest c s <= c + String.length s.
Proof.
  induction s as [|a s IH]; intro c; cbn; [lia|].
  destruct (is_eol a); [specialize (IH 0); lia|specialize (IH (S c)); lia].
Qed.

Lemma widest_mono : forall s c d, c <= d -> widest c s <= widest d s.
Proof.
  induction s as [|a s IH]; intros c d H; cbn; [lia|].
  destruct (is_eol a); [lia|apply IH; lia].
Qed.

Lemma last_col_mono : forall s c d, c <= d -> last_col c s <= last_col d s.
Proof.
  induction s as [|a s IH]; intros c d H; cbn; [lia|].
  destruct (is_eol a); [lia|apply IH; lia].
Qed.

Lemma srepeat_length : forall n, String.length (srepeat " " n) = n.
Proof. induction n; cbn; auto. Qed.

Lemma srepeat_no_eol : forall n, no_eol (srepeat " " n) = true.
Proof. induction n; cbn; auto. Qed.

Lemma no_eol_app : forall a b, no_eol (a ++ b) = no_eol a && no_eol b.
Proof. induction a as [|x a IH]; intro b; cbn; [reflexivity|]. now rewrite IH, andb_assoc. Qed.

(** The line ending is one that really ends a line. *)
Definition eol_string (s : string) : Prop := s <> "" /\ forall a, last_col a s = 0 /\ widest a s = a.

Lemma line_ending_eol : forall e, eol_string (LineEndingStyle_as_str e).
Proof.
  intro e. split; [destruct e; discriminate|]. intro a.
  destruct e; split; try reflexivity; change (widest a _) with (Nat.max a 0); lia.
Qed.

Hypothesis Hle : eol_string le.

(** [over c w]: the writer's position counters are at least the real ones for
    output that started at column [c]. *)
Definition over (c : nat) (w : writer) : Prop :=
  last_col c (w_out w) <= w_len w /\ widest c (w_out w) <= w_max w.

Lemma over_inner_any : forall c s w w', w_started w = true -> inner_write s w = Some w' ->
  over c w -> over c w'.
Proof.
  unfold inner_write. intros c s w w' St H [O1 O2]. destruct (String.eqb s "") eqn:E.
  { injection H as <-. now split. }
  rewrite St in H. injection H as <-. split; cbn.
  - rewrite last_col_app.
    pose proof (last_col_le_widest s (last_col c (w_out w))).
    pose proof (widest_le_length s (last_col c (w_out w))). lia.
  - rewrite widest_app. pose proof (widest_le_length s (last_col c (w_out w))). lia.
Qed.

Lemma over_inner : forall c s w w', no_eol s = true -> inner_write s w = Some w' -> over c w -> over c w'.
Proof.
  intros c s w w' Hs H O. destruct (w_started w) eqn:St; [eapply over_inner_any; eauto|].
  unfold inner_write in H. destruct (String.eqb s "") eqn:E.
  { injection H as <-. exact O. }
  rewrite St in H. destruct (w_spaces w) as [|sp r]; [discriminate|]. injection H as <-.
  destruct O as [O1 O2].
  assert (N : no_eol (srepeat " " sp ++ s) = true) by (rewrite no_eol_app, srepeat_no_eol, Hs; reflexivity).
  split; cbn.
  - rewrite last_col_app, (last_col_clean _ _ N), slength_app, srepeat_length. lia.
  - rewrite widest_app, (widest_clean _ _ N), slength_app, srepeat_length. lia.
Qed.

Lemma over_newline : forall c w, over c w -> over c (new_line le w).
Proof.
  intros c w [O1 O2]. destruct Hle as [_ He]. split; cbn.
  - rewrite last_col_app. destruct (He (last_col c (w_out w))) as [-> _]. lia.
  - rewrite widest_app. destruct (He (last_col c (w_out w))) as [_ ->].
    pose proof (last_col_le_widest (w_out w) c). lia.
Qed.

Lemma over_run : forall p c w w', clean p -> run p w = Some w' -> over c w -> over c w'.
Proof.
  induction p as [|s k IH|k IH|n k IH|k IH|k IH|k IH|k IH|k IH|f IHf m k IHk];
    intros c w w' Cl H O; cbn in *.
  - now injection H as <-.
  - destruct Cl as [Cs Ck]. destruct (inner_write s w) as [w1|] eqn:E; [|discriminate].
    eapply IH; eauto. eapply over_inner; eauto.
  - eapply IH; eauto.
  - eapply IH; eauto.
  - unfold push_tab in H. destruct (w_spaces w); [discriminate|]. destruct (Nat.eqb tabw 0); [discriminate|].
    eapply IH; eauto.
  - unfold pop_tab in H. destruct (w_spaces w); [discriminate|]. eapply IH; eauto.
  - eapply IH; eauto. now apply over_newline.
  - unfold new_line_if_not_start in H. destruct (Nat.eqb (w_lineno w) 1); eapply IH; eauto.
    now apply over_newline.
  - destruct (align w); [|discriminate]. eapply IH; eauto.
  - destruct Cl as [Cf Ck]. destruct (Nat.ltb m (w_len w)); [eapply IHk; eauto|].
    destruct (run f (measurer w)) as [mw|]; [|discriminate].
    destruct (Nat.ltb m (w_max mw)); [eapply IHk; eauto|].
    destruct (inner_write (w_out mw) (set_started w)) as [w1|] eqn:E; [|discriminate].
    eapply IHk; eauto. eapply over_inner_any; [|exact E|exact O]. reflexivity.
Qed.

Lemma over_measurer : forall w, over (w_len w) (measurer w).
Proof. intro w. split; cbn; lia. Qed.

(** Exact measurement, without nested trials and when lines are indented. *)
Definition exact_ (c : nat) (w : writer) : Prop :=
  last_col c (w_out w) = w_len w /\ widest c (w_out w) = w_max w.

Lemma exact_inner : forall c s w w', no_eol s = true -> inner_write s w = Some w' -> exact_ c w -> exact_ c w'.
Proof.
  unfold inner_write. intros c s w w' Hs H [O1 O2]. destruct (String.eqb s "") eqn:E.
  { injection H as <-. now split. }
  destruct (w_started w) eqn:St.
  - injection H as <-. split; cbn.
    + rewrite last_col_app, (last_col_clean _ _ Hs). lia.
    + rewrite widest_app, (widest_clean _ _ Hs). pose proof (last_col_le_widest (w_out w) c). lia.
  - destruct (w_spaces w) as [|sp r]; [discriminate|]. injection H as <-.
    assert (N : no_eol (srepeat " " sp ++ s) = true) by (rewrite no_eol_app, srepeat_no_eol, Hs; reflexivity).
    split; cbn.
    + rewrite last_col_app, (last_col_clean _ _ N), slength_app, srepeat_length. lia.
    + rewrite widest_app, (widest_clean _ _ N), slength_app, srepeat_length. lia.
Qed.

Lemma exact_newline : forall c w, exact_ c w -> exact_ c (new_line le w).
Proof.
  intros c w [O1 O2]. destruct Hle as [_ He]. split; cbn.
  - rewrite last_col_app. destruct (He (last_col c (w_out w))) as [-> _]. lia.
  - rewrite widest_app. destruct (He (last_col c (w_out w))) as [_ ->].
    pose proof (last_col_le_widest (w_out w) c). lia.
Qed.

Lemma exact_run : forall p c w w', clean p -> tryfree p -> run p w = Some w' -> exact_ c w -> exact_ c w'.
Proof.
  induction p as [|s k IH|k IH|n k IH|k IH|k IH|k IH|k IH|k IH|f IHf m k IHk];
    intros c w w' Cl Tf H O; cbn in *.
  - now injection H as <-.
  - destruct Cl as [Cs Ck]. destruct (inner_write s w) as [w1|] eqn:E; [|discriminate].
    eapply IH; eauto. eapply exact_inner; eauto.
  - eapply IH; eauto.
  - eapply IH; eauto.
  - unfold push_tab in H. destruct (w_spaces w); [discriminate|]. destruct (Nat.eqb tabw 0); [discriminate|].
    eapply IH; eauto.
  - unfold pop_tab in H. destruct (w_spaces w); [discriminate|]. eapply IH; eauto.
  - eapply IH; eauto. now apply exact_newline.
  - unfold new_line_if_not_start in H. destruct (Nat.eqb (w_lineno w) 1); eapply IH; eauto.
    now apply exact_newline.
  - destruct (align w); [|discriminate]. eapply IH; eauto.
  - contradiction.
Qed.

(** The trial: what happens, in both outcomes. *)
Lemma try_write_spec : forall f m k w r, clean f -> run (PTry f m k) w = Some r ->
  (run (k false) w = Some r /\
     (tryfree f -> m < w_len w \/
        exists w' t, run f w = Some w' /\ w_out w' = w_out w ++ t /\ m < widest (w_len w) t))
  \/ (exists t wt w', run f w = Some w' /\ w_out w' = w_out w ++ t /\
        w_out wt = w_out w ++ t /\ w_spaces wt = w_spaces w /\
        widest (w_len w) t <= m /\ run (k true) wt = Some r).
Proof.
  intros f m k w r Cl H. cbn in H. destruct (Nat.ltb_spec m (w_len w)) as [L|L].
  { left. auto. }
  destruct (run f (measurer w)) as [mw|] eqn:Ef; [|discriminate].
  destruct (measured_is_direct f w mw Ef) as (w' & R & O & _).
  destruct (Nat.ltb_spec m (w_max mw)) as [L2|L2].
  - left. split; [exact H|]. intro Tf. right. exists w', (w_out mw). split; [exact R|]. split; [exact O|].
    pose proof (exact_run f (w_len w) (measurer w) mw Cl Tf Ef) as X.
    destruct X as [_ X]; [split; reflexivity|]. lia.
  - right. pose proof (over_run f (w_len w) (measurer w) mw Cl Ef (over_measurer w)) as [_ X].
    unfold inner_write in H. destruct (String.eqb_spec (w_out mw) "") as [E|E].
    + exists "", (set_started w), w'. rewrite E in O.
      refine (conj R (conj O (conj _ (conj _ (conj _ H))))); cbn; auto; try lia.
      now rewrite sapp_nil_r.
    + cbn in H. eexists (w_out mw), _, w'.
      refine (conj R (conj O (conj _ (conj _ (conj _ H))))); cbn; auto; lia.
Qed.

(** ** Bracketing *)

Lemma run_brackets : forall p d e own rest w,
  tabw <> 0 -> rest <> [] -> length own = d -> w_spaces w = (own ++ rest)%list ->
  brackets d p e ->
  exists w' own', run p w = Some w' /\ length own' = e /\ w_spaces w' = (own' ++ rest)%list.
Proof.
  induction p as [|s k IH|k IH|n k IH|k IH|k IH|k IH|k IH|k IH|f IHf m k IHk];
    intros d e own rest w Ht Hr Hd Hs Hb; cbn in *.
  - exists w, own. subst. auto.
  - assert (N : w_spaces w <> []).
    { rewrite Hs. destruct own; cbn; [exact Hr|discriminate]. }
    unfold inner_write. destruct (String.eqb s ""); [eapply IH; eauto|].
    destruct (w_started w); [eapply IH; [..|exact Hb]; eauto|].
    destruct (w_spaces w) as [|sp sr] eqn:Es; [congruence|].
    eapply IH; [..|exact Hb]; eauto.
  - eapply IH; [..|exact Hb]; eauto.
  - eapply (IH (S d) e (n :: own) rest); [..|exact Hb]; eauto; cbn; congruence.
  - assert (N : w_spaces w <> []).
    { rewrite Hs. destruct own; cbn; [exact Hr|discriminate]. }
    unfold push_tab. destruct (w_spaces w) as [|sp sr] eqn:Es; [congruence|].
    destruct (Nat.eqb_spec tabw 0) as [Z|Z]; [congruence|].
    eapply (IH (S d) e (_ :: own) rest); [..|exact Hb]; eauto; cbn; [congruence|].
    rewrite Es. now rewrite Hs.
  - destruct d as [|d]; [contradiction|]. destruct own as [|o own]; [discriminate|].
    unfold pop_tab. rewrite Hs. cbn. cbn in Hd. injection Hd as Hd.
    eapply (IH d e own rest); [..|exact Hb]; eauto.
  - eapply IH; [..|exact Hb]; eauto.
  - unfold new_line_if_not_start. destruct (Nat.eqb (w_lineno w) 1); (eapply IH; [..|exact Hb]); eauto.
  - assert (N : w_spaces w <> []).
    { rewrite Hs. destruct own; cbn; [exact Hr|discriminate]. }
    unfold align. destruct (w_started w); [eapply IH; eauto|].
    destruct (w_spaces w) as [|sp sr] eqn:Es; [congruence|]. eapply IH; eauto. now rewrite Es.
  - destruct Hb as [Hf Hk].
    destruct (Nat.ltb m (w_len w)); [eapply IHk; eauto|].
    assert (N : w_spaces w <> []).
    { rewrite Hs. destruct own; cbn; [exact Hr|discriminate]. }
    destruct (IHf 0 0 [] (w_spaces w) (measurer w) Ht N eq_refl eq_refl Hf) as (mw & o' & R & _ & _).
    rewrite R. destruct (Nat.ltb m (w_max mw)); [eapply IHk; eauto|].
    unfold inner_write. destruct (String.eqb (w_out mw) ""); [eapply IHk; eauto|].
    cbn. eapply IHk; eauto.
Qed.

Lemma well_bracketed_restores : forall p w, tabw <> 0 -> w_spaces w <> [] -> well_bracketed p ->
  exists w', run p w = Some w' /\ w_spaces w' = w_spaces w.
Proof.
  intros p w Ht Hw Hp.
  destruct (run_brackets p 0 0 [] (w_spaces w) w Ht Hw eq_refl eq_refl Hp) as (w' & o & R & L & S1).
  destruct o; [|discriminate]. eauto.
Qed.

End R.

Lemma brackets_seq : forall p q d e f, brackets d p e -> brackets e q f -> brackets d (seq p q) f.
Proof.
  induction p as [|s k IH|k IH|n k IH|k IH|k IH|k IH|k IH|k IH|g IHg m k IHk];
    intros q d e f Hp Hq; cbn in *; try (eapply IH; eauto; fail).
  - now subst.
  - destruct d; [contradiction|]. eapply IH; eauto.
  - intro n. eapply IH; eauto.
  - destruct Hp as [H1 H2]. split; [exact H1|]. intro b. eapply IHk; eauto.
Qed.

Lemma wb_seq : forall p q, well_bracketed p -> well_bracketed q -> well_bracketed (seq p q).
Proof. intros p q A B. eapply brackets_seq; eauto. Qed.

Lemma brackets_shift : forall p d e n, brackets d p e -> brackets (n + d) p (n + e).
Proof.
  induction p as [|s k IH|k IH|x k IH|k IH|k IH|k IH|k IH|k IH|g IHg m k IHk];
    intros d e n Hp; cbn in *.
  - now subst.
  - auto.
  - auto.
  - rewrite plus_n_Sm. auto.
  - rewrite plus_n_Sm. auto.
  - destruct d as [|d]; [contradiction|]. rewrite <- plus_n_Sm. auto.
  - auto.
  - auto.
  - intro x. auto.
  - destruct Hp as [H1 H2]. split; auto.
Qed.

Lemma wb_at : forall p n, well_bracketed p -> brackets n p n.
Proof. intros p n H. pose proof (brackets_shift p 0 0 n H) as B. now rewrite Nat.add_0_r in B. Qed.

Lemma clean_seq : forall p q, clean p -> clean q -> clean (seq p q).
Proof.
  induction p as [|s k IH|k IH|x k IH|k IH|k IH|k IH|k IH|k IH|g IHg m k IHk];
    intros q Hp Hq; cbn in *; auto; intuition.
Qed.

Lemma clean_brace : forall c b, clean (open_brace c) /\ clean (close_brace c b).
Proof.
  intros c b. unfold open_brace, close_brace.
  destruct (language c); destruct (braces c); destruct b; cbn; auto.
Qed.

Lemma brackets_open : forall c, brackets 0 (open_brace c) 1.
Proof. intro c. unfold open_brace. destruct (language c), (braces c); reflexivity. Qed.

Lemma brackets_close : forall c b, brackets 1 (close_brace c b) 0.
Proof. intros c b. unfold close_brace. destruct (language c), b; reflexivity. Qed.

Lemma wb_braced : forall c p b, well_bracketed p ->
  well_bracketed (seq (open_brace c) (seq p (close_brace c b))).
Proof.
  intros c p b H. eapply brackets_seq; [apply brackets_open|].
  eapply brackets_seq; [apply (wb_at p 1 H)|]. apply brackets_close.
Qed.

Lemma wb_horizontal : forall A (l : list A) lt wr, (forall x, In x l -> well_bracketed (wr x)) ->
  well_bracketed (write_horizontal_source_list l lt wr).
Proof.
  induction l as [|x l IH]; intros lt wr H; [reflexivity|].
  assert (Hx : well_bracketed (wr x)) by (apply H; now left).
  destruct l as [|y l].
  - apply wb_seq; [exact Hx|]. destruct lt; reflexivity.
  - change (well_bracketed (seq (wr x) (seq (match lt with Join t | Cap t => write t end)
              (write_horizontal_source_list (y :: l) lt wr)))).
    apply wb_seq; [exact Hx|]. apply wb_seq; [destruct lt; reflexivity|].
    apply IH. intros z Hz. apply H. now right.
Qed.

Lemma wb_vertical : forall A (l : list A) lt wr, (forall x, In x l -> well_bracketed (wr x)) ->
  well_bracketed (write_vertical_source_list l lt wr).
Proof.
  intros A l lt wr H. unfold write_vertical_source_list, well_bracketed. cbn. intro n.
  eapply brackets_seq with (e := 1); [|reflexivity].
  apply wb_at. revert H. induction l as [|x l IH]; intro H; [reflexivity|].
  assert (Hx : well_bracketed (wr x)) by (apply H; now left).
  destruct l as [|y l].
  - apply wb_seq; [exact Hx|]. destruct lt; reflexivity.
  - change (well_bracketed (seq (wr x) (seq (match lt with Join t | Cap t => write t end)
              (seq newline (vertical_items (y :: l) lt wr))))).
    apply wb_seq; [exact Hx|]. apply wb_seq; [destruct lt; reflexivity|].
    apply wb_seq; [reflexivity|].
    apply IH. intros z Hz. apply H. now right.
Qed.

Lemma wb_seqs : forall l, (forall p, In p l -> well_bracketed p) -> well_bracketed (seqs l).
Proof.
  induction l as [|p l IH]; intro H; [reflexivity|]. cbn. apply wb_seq; [apply H; now left|].
  apply IH. intros q Hq. apply H. now right.
Qed.

Lemma reachable_over : forall c p w, clean p ->
  run (tab_width c) (LineEndingStyle_as_str (line_endings c)) p writer_new = Some w ->
  last_col 0 (w_out w) <= w_len w.
Proof.
  intros c p w Cl H.
  assert (O : over 0 writer_new) by (split; cbn; lia).
  pose proof (over_run _ _ (line_ending_eol _) p 0 _ _ Cl H O) as [X _]. exact X.
Qed.

Lemma try_write_full : forall c p0 w f m k r, clean p0 ->
  run (tab_width c) (LineEndingStyle_as_str (line_endings c)) p0 writer_new = Some w ->
  clean f ->
  run (tab_width c) (LineEndingStyle_as_str (line_endings c)) (PTry f m k) w = Some r ->
  run (tab_width c) (LineEndingStyle_as_str (line_endings c)) (k false) w = Some r
  \/ exists t wt w',
       run (tab_width c) (LineEndingStyle_as_str (line_endings c)) f w = Some w' /\
       w_out w' = w_out w ++ t /\
       w_out wt = w_out w ++ t /\ w_spaces wt = w_spaces w /\
       widest (last_col 0 (w_out w)) t <= m /\
       run (tab_width c) (LineEndingStyle_as_str (line_endings c)) (k true) wt = Some r.
Proof.
  intros c p0 w f m k r C0 R0 Cf H.
  destruct (try_write_spec _ _ (line_ending_eol _) f m k w r Cf H) as [[A _]|(t & wt & w' & A & B & D & E & F & G)].
  - now left.
  - right. exists t, wt, w'. repeat (split; [assumption|]). split; [|assumption].
    pose proof (reachable_over c p0 w C0 R0) as L. pose proof (widest_mono t _ _ L). lia.
Qed.

Lemma try_write_too_wide : forall c f m k w w' t r, clean f -> tryfree f ->
  run (tab_width c) (LineEndingStyle_as_str (line_endings c)) f w = Some w' ->
  w_out w' = w_out w ++ t -> widest (w_len w) t <= m ->
  run (tab_width c) (LineEndingStyle_as_str (line_endings c)) (PTry f m k) w = Some r ->
  exists wt, w_out wt = w_out w ++ t /\
       run (tab_width c) (LineEndingStyle_as_str (line_endings c)) (k true) wt = Some r.
Proof.
  intros c f m k w w' t r Cf Tf R O L H.
  destruct (try_write_spec _ _ (line_ending_eol _) f m k w r Cf H)
    as [[A B]|(t2 & wt & w2 & A & B & D & E & F & G)].
  - exfalso. destruct (B Tf) as [L1|(w2 & t2 & R2 & O2 & L1)].
    + pose proof (widest_ge t (w_len w)). lia.
    + rewrite R in R2. injection R2 as <-. rewrite O in O2. apply sapp_inj_l in O2. subst. lia.
  - rewrite R in A. injection A as <-. rewrite O in B. apply sapp_inj_l in B. subst. eauto.
Qed.

(** After a successful multi-line trial the column counter is too large. *)
Lemma column_counter_wrong : exists p w,
  clean p /\ run 2 (LineEndingStyle_as_str LF) p writer_new = Some w /\
  w_len w <> last_col 0 (w_out w).
Proof.
  exists (PTry (seq (write "ab") (seq newline (write "c"))) 100 (fun _ => PRet)).
  eexists. split; [cbn; auto|]. split; [vm_compute; reflexivity|]. vm_compute. discriminate.
Qed.

Lemma zero_tab_panics : exists p, well_bracketed p /\ forall le, run 0 le p writer_new = None.
Proof. exists (PPushTab (PPop PRet)). split; reflexivity. Qed.

Lemma wb_lists : forall (A : Type) (l : list A) lt wr, (forall x, In x l -> well_bracketed (wr x)) ->
  well_bracketed (write_vertical_source_list l lt wr) /\ well_bracketed (write_horizontal_source_list l lt wr).
Proof. intros. split; [apply wb_vertical|apply wb_horizontal]; assumption. Qed.

Lemma tab_stop : forall sp t, t <> 0 ->
  exists k, sp - sp mod t + t = k * t /\ sp < k * t /\ k * t <= sp + t.
Proof.
  intros sp t Ht. exists (S (sp / t)).
  pose proof (Nat.div_mod sp t Ht). pose proof (Nat.mod_upper_bound sp t Ht).
  assert (E : sp - sp mod t = sp / t * t) by (rewrite (Nat.mul_comm (sp / t)); lia).
  rewrite E. cbn [Nat.mul]. rewrite (Nat.mul_comm (sp / t)) in *. lia.
Qed.

Lemma open_brace_tab_stop : forall tabw le c sp rest out len n mx started w',
  language c <> Cython -> tabw <> 0 ->
  run tabw le (open_brace c) {| w_out := out; w_spaces := sp :: rest; w_started := started;
                                w_len := len; w_lineno := n; w_max := mx |} = Some w' ->
  exists k, w_spaces w' = (k * tabw) :: sp :: rest /\ sp < k * tabw /\ k * tabw <= sp + tabw
            /\ w_started w' = false.
Proof.
  intros tabw le c sp rest out len n mx started w' HC Ht HR.
  destruct (tab_stop sp tabw Ht) as [k [Ek [H1 H2]]]. exists k. rewrite <- Ek.
  assert (E0 : Nat.eqb tabw 0 = false) by (apply Nat.eqb_neq; exact Ht).
  unfold open_brace in HR.
  destruct (language c); [| |contradiction]; destruct (braces c); destruct started;
    cbn -[Nat.modulo Nat.mul Nat.eqb] in HR; unfold push_tab in HR; cbn -[Nat.modulo Nat.mul Nat.eqb] in HR;
    rewrite E0 in HR; cbn -[Nat.modulo Nat.mul] in HR; injection HR as <-; cbn -[Nat.modulo Nat.mul]; rewrite ?Ek; auto.
Qed.
