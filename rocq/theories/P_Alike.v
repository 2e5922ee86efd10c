(** What a program writes depends only on the indentation and on where in the
    line and the file it starts. *)
Require Import Coq.Strings.String Coq.Strings.Ascii Coq.Lists.List Coq.Bool.Bool Coq.Arith.Arith Lia.
From Verif Require Import Base P_Base M_Config M_Writer S_Writer P_Writer.
Import ListNotations.
Open Scope string_scope.

(** Writers that differ only in what is already written, and how much. *)
Definition alike (a b : writer) : Prop :=
  w_spaces a = w_spaces b /\ w_started a = w_started b /\ w_len a = w_len b
  /\ (w_lineno a = w_lineno b \/ 2 <= w_lineno a /\ 2 <= w_lineno b).

Section R.
Variables (tabw : nat) (le : string).
Notation run := (run tabw le).

(** The text appended, and how the widest line develops. *)
Definition follows (a b a' b' : writer) : Prop :=
  alike a' b' /\ (exists t, w_out a' = w_out a ++ t /\ w_out b' = w_out b ++ t) /\ (w_max a = w_max b -> w_max a' = w_max b').
Lemma follows_trans a b a1 b1 a2 b2 : follows a b a1 b1 -> follows a1 b1 a2 b2 -> follows a b a2 b2.
Proof.
  intros (A & (t & T1 & T2) & M) (A' & (t' & T1' & T2') & M'). split; [exact A'|]. split; [|auto].
  exists (t ++ t'). rewrite T1', T2', T1, T2, !sapp_assoc. auto.
Qed.
Definition steps_with (o o' : option writer) (a b : writer) : Prop :=
  match o with None => o' = None | Some a' => exists b', o' = Some b' /\ follows a b a' b' end.
Lemma alike_measurer a b : alike a b -> alike (measurer a) (measurer b) /\ w_max (measurer a) = w_max (measurer b).
Proof. intros (A & B & C & D). unfold measurer, alike. cbn. auto. Qed.

Lemma inner_write_alike s a b : alike a b -> steps_with (inner_write s a) (inner_write s b) a b.
Proof.
  intros A0. pose proof A0 as (A & B & C & D). unfold inner_write. rewrite A, B, C.
  destruct (String.eqb s "").
  { exists b. split; [reflexivity|]. split; [exact A0|]. split; [exists ""; rewrite !sapp_nil_r; auto|auto]. }
  destruct (w_started b).
  { eexists. split; [reflexivity|]. split; [unfold alike; cbn; auto|]. split; [exists s; auto|]. cbn. intros ->. reflexivity. }
  destruct (w_spaces b); [reflexivity|].
  eexists. split; [reflexivity|]. split; [unfold alike; cbn; auto|]. split; [eexists; cbn; auto|]. cbn. intros ->. reflexivity.
Qed.
Lemma chain (o o' : option writer) a b (f f' : writer -> option writer) :
  steps_with o o' a b -> (forall a' b', alike a' b' -> steps_with (f a') (f' b') a' b') ->
  steps_with (match o with None => None | Some w => f w end) (match o' with None => None | Some w => f' w end) a b.
Proof.
  intros A B. unfold steps_with in A. destruct o as [a'|]; [|rewrite A; reflexivity]. destruct A as (b' & -> & F).
  specialize (B a' b' (proj1 F)). unfold steps_with in *. destruct (f a'); [|exact B]. destruct B as (b2 & -> & F2). exists b2. split; [reflexivity|].
  exact (follows_trans _ _ _ _ _ _ F F2).
Qed.
Lemma newline_alike a b : alike a b -> follows a b (new_line le a) (new_line le b).
Proof.
  intros (A & B & C & D). split; [unfold alike; cbn; repeat split; auto; lia|]. split; [exists le; auto|auto].
Qed.
Lemma follows_steps a b a' b' k : follows a b a' b' -> (forall x y, alike x y -> steps_with (run k x) (run k y) x y) -> steps_with (run k a') (run k b') a b.
Proof. intros F K. exact (chain (Some a') (Some b') a b (run k) (run k) (ex_intro _ b' (conj eq_refl F)) K). Qed.
Lemma same_text a b a' b' : alike a' b' -> w_out a' = w_out a -> w_out b' = w_out b -> w_max a' = w_max a -> w_max b' = w_max b -> follows a b a' b'.
Proof. intros A O1 O2 M1 M2. split; [exact A|]. split; [exists ""; rewrite !sapp_nil_r; auto|congruence]. Qed.

Lemma run_alike : forall p a b, alike a b -> steps_with (run p a) (run p b) a b.
Proof.
  induction p as [|s k IH|k IH|n k IH|k IH|k IH|k IH|k IH|k IH|f IHf m k IHk]; intros a b A; cbn [M_Writer.run].
  - exists b. split; [reflexivity|]. apply same_text; auto.
  - apply (chain _ _ a b _ _ (inner_write_alike s a b A) IH).
  - apply follows_steps; [|exact IH]. apply same_text; try reflexivity. destruct A as (A & B & C & D). unfold alike. cbn. auto.
  - apply follows_steps; [|exact IH]. apply same_text; try reflexivity. destruct A as (A & B & C & D). unfold alike. cbn. rewrite A. auto.
  - apply (chain _ _ a b (run k) (run k)); [|exact IH]. pose proof A as (A1 & B & C & D). unfold push_tab. rewrite A1.
    destruct (w_spaces b) as [|sp r] eqn:E; [reflexivity|]. destruct (Nat.eqb tabw 0); [reflexivity|]. eexists. split; [reflexivity|].
    apply same_text; try reflexivity. unfold alike. cbn. rewrite A1, E. auto.
  - apply (chain _ _ a b (run k) (run k)); [|exact IH]. pose proof A as (A1 & B & C & D). unfold pop_tab. rewrite A1.
    destruct (w_spaces b) as [|sp r] eqn:E; [reflexivity|]. eexists. split; [reflexivity|].
    apply same_text; try reflexivity. unfold alike. cbn. auto.
  - apply follows_steps; [apply newline_alike, A|exact IH].
  - apply follows_steps; [|exact IH]. unfold new_line_if_not_start. pose proof A as (_ & _ & _ & D).
    destruct (Nat.eqb_spec (w_lineno a) 1), (Nat.eqb_spec (w_lineno b) 1); try lia.
    + apply same_text; auto.
    + apply newline_alike, A.
  - pose proof A as (A1 & B & C & D). unfold align. rewrite A1, B, C. destruct (w_started b); [apply IH, A|]. destruct (w_spaces b); [reflexivity|apply IH, A].
  - pose proof A as (A1 & B & C & D). rewrite C. destruct (Nat.ltb m (w_len b)); [apply IHk, A|].
    destruct (alike_measurer a b A) as [AM MM]. pose proof (IHf _ _ AM) as R. unfold steps_with in R.
    destruct (run f (measurer a)) as [ma|]; [|rewrite R; reflexivity]. destruct R as (mb & -> & FA & (t & T1 & T2) & M).
    rewrite (M MM). destruct (Nat.ltb m (w_max mb)); [apply IHk, A|].
    assert (S : alike (set_started a) (set_started b)) by (unfold alike; cbn; auto).
    cbn in T1, T2. rewrite T1, T2. pose proof (inner_write_alike t _ _ S) as W.
    assert (W' : steps_with (inner_write t (set_started a)) (inner_write t (set_started b)) a b).
    { unfold steps_with in *. destruct (inner_write t (set_started a)); [|exact W]. exact W. }
    apply (chain _ _ a b (run (k true)) (run (k true)) W' (IHk true)).
Qed.

(** Indentation is restored by what is well bracketed. *)
Lemma run_restores : forall p d e own rest w w',
  w_spaces w = (own ++ rest)%list -> length own = d -> brackets d p e -> run p w = Some w' ->
  exists own', w_spaces w' = (own' ++ rest)%list /\ length own' = e.
Proof.
  assert (IW : forall s w w', inner_write s w = Some w' -> w_spaces w' = w_spaces w).
  { intros s w w' E. unfold inner_write in E. destruct (String.eqb s ""); [injection E as <-; reflexivity|].
    destruct (w_started w); [injection E as <-; reflexivity|]. destruct (w_spaces w) eqn:X; [discriminate|]. injection E as <-. cbn. reflexivity. }
  induction p as [|s k IH|k IH|n k IH|k IH|k IH|k IH|k IH|k IH|f IHf m k IHk]; intros d e own rest w w' W L B R; cbn [M_Writer.run brackets] in *.
  - injection R as <-. exists own. split; [exact W|congruence].
  - destruct (inner_write s w) as [w1|] eqn:E; [|discriminate]. apply (IH d e own rest w1 w'); auto. rewrite (IW _ _ _ E). exact W.
  - exact (IH d e own rest (set_started w) w' W L B R).
  - apply (IH (S d) e (n :: own) rest (push_set n w) w'); auto; cbn; [rewrite W|rewrite L]; reflexivity.
  - unfold push_tab in R. destruct (w_spaces w) as [|sp r] eqn:E; [discriminate|]. destruct (Nat.eqb tabw 0); [discriminate|].
    apply (IH (S d) e ((sp - sp mod tabw + tabw) :: own) rest (push_set (sp - sp mod tabw + tabw) w) w'); auto; cbn; [rewrite E, W|rewrite L]; reflexivity.
  - destruct d as [|d]; [contradiction|]. destruct own as [|o own]; [discriminate|]. unfold pop_tab in R. rewrite W in R. cbn [app] in R.
    apply (IH d e own rest _ w') in R; auto.
  - exact (IH d e own rest (new_line le w) w' W L B R).
  - unfold new_line_if_not_start in R. destruct (Nat.eqb (w_lineno w) 1); [exact (IH d e own rest w w' W L B R)|exact (IH d e own rest (new_line le w) w' W L B R)].
  - destruct (align w) as [n|]; [|discriminate]. exact (IH n d e own rest _ w' W L (B n) R).
  - destruct B as [B1 B2]. destruct (Nat.ltb m (w_len w)); [exact (IHk false d e own rest _ w' W L (B2 false) R)|].
    destruct (run f (measurer w)) as [mw|]; [|discriminate]. destruct (Nat.ltb m (w_max mw)); [exact (IHk false d e own rest _ w' W L (B2 false) R)|].
    destruct (inner_write (w_out mw) (set_started w)) as [w1|] eqn:E; [|discriminate].
    apply (IHk true d e own rest w1 w'); auto. rewrite (IW _ _ _ E). exact W.
Qed.
Lemma wb_run_spaces p w w' : well_bracketed p -> run p w = Some w' -> w_spaces w' = w_spaces w.
Proof. intros B R. destruct (run_restores p 0 0 [] (w_spaces w) w w' eq_refl eq_refl B R) as ([|] & E & L); [exact E|discriminate]. Qed.

(** Nothing has been written exactly while the first line is not started. *)
Definition counted (w : writer) : Prop :=
  1 <= w_lineno w /\ (w_lineno w = 1 -> w_started w = false -> w_out w = "") /\ (2 <= w_lineno w -> w_out w <> "").
Hypothesis LE : le <> "".
Lemma app_nonempty a b : a <> "" \/ b <> "" -> a ++ b <> "".
Proof. destruct a; [|discriminate]. intros [X|X]; [contradiction|exact X]. Qed.
Lemma counted_newline w : counted w -> counted (new_line le w).
Proof. intros (A & B & C). unfold counted. cbn. split; [lia|]. split; [lia|]. intros _. apply app_nonempty. auto. Qed.
Lemma run_counted : forall p w w', counted w -> run p w = Some w' -> counted w' /\ w_lineno w <= w_lineno w'.
Proof.
  assert (IW : forall s w w', counted w -> inner_write s w = Some w' -> counted w' /\ w_lineno w' = w_lineno w).
  { intros s w w' (A & B & C) E. unfold inner_write in E. destruct (String.eqb s ""); [injection E as <-; repeat split; auto|].
    destruct (w_started w); [|destruct (w_spaces w) eqn:X; [discriminate|]]; injection E as <-; unfold counted; cbn;
      (split; [split; [exact A|]; split; [discriminate|]; intro Z; apply app_nonempty; auto|reflexivity]). }
  assert (ST : forall w, counted w -> counted (set_started w)).
  { intros w (A & B & C). unfold counted. cbn. split; [exact A|]. split; [discriminate|exact C]. }
  induction p as [|s k IH|k IH|n k IH|k IH|k IH|k IH|k IH|k IH|f IHf m k IHk]; intros w w' C R; cbn [M_Writer.run] in *.
  - injection R as <-. auto.
  - destruct (inner_write s w) as [w1|] eqn:E; [|discriminate]. destruct (IW _ _ _ C E) as [C1 L]. rewrite <- L. exact (IH _ _ C1 R).
  - exact (IH _ _ (ST _ C) R).
  - refine (IH (push_set n w) w' _ R). exact C.
  - unfold push_tab in R. destruct (w_spaces w) as [|sp r] eqn:E; [discriminate|]. destruct (Nat.eqb tabw 0); [discriminate|].
    refine (IH (push_set _ w) w' _ R). exact C.
  - unfold pop_tab in R. destruct (w_spaces w) as [|sp r] eqn:E; [discriminate|]. apply IH in R; [exact R|exact C].
  - destruct (IH _ _ (counted_newline w C) R) as [C' L]. cbn in L. split; [exact C'|lia].
  - unfold new_line_if_not_start in R. destruct (Nat.eqb (w_lineno w) 1); [exact (IH _ _ C R)|].
    destruct (IH _ _ (counted_newline w C) R) as [C' L]. cbn in L. split; [exact C'|lia].
  - destruct (align w) as [n|]; [|discriminate]. exact (IH n _ _ C R).
  - destruct (Nat.ltb m (w_len w)); [exact (IHk false _ _ C R)|].
    destruct (run f (measurer w)) as [mw|]; [|discriminate]. destruct (Nat.ltb m (w_max mw)); [exact (IHk false _ _ C R)|].
    destruct (inner_write (w_out mw) (set_started w)) as [w1|] eqn:E; [|discriminate].
    destruct (IW _ _ _ (ST _ C) E) as [C1 L]. cbn in L. rewrite <- L. exact (IHk true _ _ C1 R).
Qed.
End R.
