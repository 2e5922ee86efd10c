Require Import Coq.Strings.String Coq.Lists.List Coq.Arith.Arith Lia Coq.Sorting.Sorted.
From Verif Require Import Base P_Base M_Reserved.
Import ListNotations.
Open Scope string_scope.

Definition slt (a b : string) : Prop := String.compare a b = Lt.

Fixpoint sortedb (l : list string) : bool :=
  match l with
  | [] => true
  | x :: r => match r with
              | [] => true
              | y :: _ => andb (str_ltb x y) (sortedb r)
              end
  end.

Lemma sortedb_strong : forall l, sortedb l = true -> StronglySorted slt l.
Proof.
  intros l H. apply Sorted_StronglySorted.
  { intros a b c. apply str_compare_trans_lt. }
  induction l as [|x l IH]; [constructor|].
  destruct l as [|y l]; [repeat constructor|].
  cbn in H. apply andb_prop in H as [H1 H2]. constructor; [now apply IH|].
  constructor. unfold str_ltb in H1. unfold slt. destruct (String.compare x y); congruence.
Qed.

Lemma strong_nth : forall l, StronglySorted slt l -> forall i j x y,
  i < j -> nth_error l i = Some x -> nth_error l j = Some y -> slt x y.
Proof.
  induction 1 as [|a l S IH F]; intros i j x y L Hi Hj; [destruct i; discriminate|].
  destruct j as [|j]; [lia|]. destruct i as [|i]; cbn in *.
  - injection Hi as <-. rewrite Forall_forall in F. apply F. eapply nth_error_In; eauto.
  - eapply IH; [|eauto|eauto]. lia.
Qed.

Lemma nth_error_lt_Some : forall A (l : list A) i, i < length l -> exists x, nth_error l i = Some x.
Proof.
  intros A l i H. destruct (nth_error l i) eqn:E; [eauto|]. apply nth_error_None in E. lia.
Qed.

Lemma bs_loop_correct : forall l key, StronglySorted slt l -> forall fuel size base,
  size <= fuel -> 1 <= size -> base + size <= length l ->
  (forall i, nth_error l i = Some key -> base <= i < base + size) ->
  (exists i, bs_loop l key fuel size base = BsOk i /\ nth_error l i = Some key) \/
  (bs_loop l key fuel size base = BsErr /\ ~ In key l).
Proof.
  intros l key SS. induction fuel as [|fuel IH]; intros size base Hf Hs Hb Hin; [lia|].
  cbn. destruct (Nat.leb_spec size 1) as [L1|L1].
  - destruct (nth_error_lt_Some _ l base) as [x Hx]; [lia|]. rewrite Hx.
    destruct (String.compare x key) eqn:E.
    + apply str_compare_eq in E. subst. left. exists base. auto.
    + right. split; [reflexivity|]. intro I. apply In_nth_error in I as [i Hi].
      assert (i = base) by (specialize (Hin i Hi); lia). subst. rewrite Hi in Hx. injection Hx as ->.
      rewrite str_compare_refl in E. discriminate.
    + right. split; [reflexivity|]. intro I. apply In_nth_error in I as [i Hi].
      assert (i = base) by (specialize (Hin i Hi); lia). subst. rewrite Hi in Hx. injection Hx as ->.
      rewrite str_compare_refl in E. discriminate.
  - assert (Hh : 1 <= Nat.div2 size < size).
    { split; [|apply Nat.lt_div2; lia]. destruct size as [|[|k]]; [lia|lia|]. change (1 <= S (Nat.div2 k)). lia. }
    assert (Hd : 2 * Nat.div2 size <= size) by (pose proof (Nat.div2_odd size); lia).
    destruct (nth_error_lt_Some _ l (base + Nat.div2 size)) as [x Hx]; [lia|]. rewrite Hx.
    destruct (String.compare x key) eqn:E.
    + apply IH; try lia. intros i Hi. apply str_compare_eq in E. subst x.
      specialize (Hin i Hi). split; [|lia].
      destruct (Nat.lt_ge_cases i (base + Nat.div2 size)) as [C|C]; [|lia].
      pose proof (strong_nth l SS i _ _ _ C Hi Hx) as Q. unfold slt in Q.
      rewrite str_compare_refl in Q. discriminate.
    + apply IH; try lia. intros i Hi. specialize (Hin i Hi). split; [|lia].
      destruct (Nat.lt_ge_cases i (base + Nat.div2 size)) as [C|C]; [|lia].
      pose proof (strong_nth l SS i _ _ _ C Hi Hx) as Q. unfold slt in Q.
      rewrite str_compare_antisym, E in Q. discriminate.
    + apply IH; try lia. intros i Hi. specialize (Hin i Hi). split; [lia|].
      destruct (Nat.lt_ge_cases i (base + Nat.div2 size)) as [C|C]; [lia|].
      exfalso.
      destruct (Nat.eq_dec i (base + Nat.div2 size)) as [->|N].
      * rewrite Hi in Hx. injection Hx as ->. rewrite str_compare_refl in E. discriminate.
      * assert (C' : base + Nat.div2 size < i) by lia.
        pose proof (strong_nth l SS _ i _ _ C' Hx Hi) as Q. unfold slt in Q. congruence.
Qed.

Lemma binary_search_correct : forall l key, StronglySorted slt l ->
  (exists i, binary_search l key = BsOk i /\ nth_error l i = Some key) \/
  (binary_search l key = BsErr /\ ~ In key l).
Proof.
  intros l key S. destruct l as [|x l]; [right; cbn; auto|].
  unfold binary_search. apply bs_loop_correct; cbn; try lia; [exact S|].
  intros i Hi. assert (nth_error (x :: l) i <> None) as N by congruence.
  apply nth_error_Some in N. cbn in N. lia.
Qed.

Lemma keywords_sorted : StronglySorted slt RESERVED_KEYWORDS.
Proof. apply sortedb_strong. vm_compute. reflexivity. Qed.

Lemma escape_spec : forall s,
  (In s RESERVED_KEYWORDS -> escape s = Some (s ++ "_")) /\
  (~ In s RESERVED_KEYWORDS -> escape s = Some s).
Proof.
  intro s. unfold escape.
  destruct (binary_search_correct RESERVED_KEYWORDS s keywords_sorted) as [[i [E N]]|[E N]]; rewrite E.
  - split; [reflexivity|]. intro C. destruct C. eapply nth_error_In; eauto.
  - split; [intro; contradiction|reflexivity].
Qed.

Lemma escaped_keyword_not_keyword :
  forallb (fun k => negb (mem_str (k ++ "_") RESERVED_KEYWORDS)) RESERVED_KEYWORDS = true.
Proof. vm_compute. reflexivity. Qed.

Lemma escape_total : forall s, exists r, escape s = Some r.
Proof.
  intro s. destruct (escape_spec s) as [A B].
  destruct (mem_str s RESERVED_KEYWORDS) eqn:E.
  - apply mem_str_In in E. eauto.
  - apply mem_str_false in E. eauto.
Qed.

Lemma escape_str_spec : forall s,
  (In s RESERVED_KEYWORDS -> escape_str s = s ++ "_") /\
  (~ In s RESERVED_KEYWORDS -> escape_str s = s).
Proof.
  intro s. unfold escape_str. destruct (escape_spec s) as [A B].
  split; intro H; [rewrite (A H)|rewrite (B H)]; reflexivity.
Qed.

Lemma escape_str_not_reserved : forall s, ~ In (escape_str s) RESERVED_KEYWORDS.
Proof.
  intro s. destruct (escape_str_spec s) as [A B].
  destruct (mem_str s RESERVED_KEYWORDS) eqn:E.
  - apply mem_str_In in E. rewrite (A E).
    pose proof escaped_keyword_not_keyword as F. rewrite forallb_forall in F.
    specialize (F s E). apply mem_str_false. now destruct (mem_str (s ++ "_") RESERVED_KEYWORDS).
  - apply mem_str_false in E. now rewrite (B E).
Qed.

Lemma escape_str_idempotent : forall s, escape_str (escape_str s) = escape_str s.
Proof. intro s. apply escape_str_spec. apply escape_str_not_reserved. Qed.

(** Collisions happen exactly between a keyword and the same word with an underscore. *)
Lemma escape_str_collision : forall a b, escape_str a = escape_str b ->
  a = b \/ (In a RESERVED_KEYWORDS /\ b = a ++ "_") \/ (In b RESERVED_KEYWORDS /\ a = b ++ "_").
Proof.
  intros a b H.
  destruct (escape_str_spec a) as [A1 A2], (escape_str_spec b) as [B1 B2].
  destruct (in_dec string_dec a RESERVED_KEYWORDS) as [Ea|Ea], (in_dec string_dec b RESERVED_KEYWORDS) as [Eb|Eb].
  - rewrite (A1 Ea), (B1 Eb) in H. left. eapply sapp_inj_r; eauto.
  - rewrite (A1 Ea), (B2 Eb) in H. auto.
  - rewrite (A2 Ea), (B1 Eb) in H. auto.
  - rewrite (A2 Ea), (B2 Eb) in H. auto.
Qed.

Lemma escape_exact : forall s,
  exists r, escape s = Some r /\
    (In s RESERVED_KEYWORDS -> r = s ++ "_") /\
    (~ In s RESERVED_KEYWORDS -> r = s) /\
    ~ In r RESERVED_KEYWORDS.
Proof.
  intro s. exists (escape_str s). split.
  - destruct (escape_total s) as [r R]. unfold escape_str. now rewrite R.
  - destruct (escape_str_spec s) as [A B]. split; [exact A|split; [exact B|]].
    apply escape_str_not_reserved.
Qed.

Lemma escape_collision : forall a b r,
  escape a = Some r -> escape b = Some r ->
  a = b \/ (In a RESERVED_KEYWORDS /\ b = a ++ "_") \/ (In b RESERVED_KEYWORDS /\ a = b ++ "_").
Proof. intros a b r A B. apply escape_str_collision. unfold escape_str. now rewrite A, B. Qed.

Lemma escape_not_injective : exists a b, a <> b /\ escape a = escape b.
Proof. exists "int", "int_". split; [discriminate|vm_compute; reflexivity]. Qed.
