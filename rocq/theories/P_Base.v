(** Facts about the string functions of Base.v *)
Require Import Coq.Strings.String Coq.Strings.Ascii Coq.Lists.List
  Coq.Arith.Arith Coq.Bool.Bool Lia.
From Coq Require Import NArith.
From Verif Require Import Base.
Import ListNotations.
Open Scope string_scope.

Lemma sapp_nil_r : forall s, s ++ "" = s.
Proof. induction s as [|a s IH]; cbn; [reflexivity|now rewrite IH]. Qed.

Lemma sapp_assoc : forall a b c : string, (a ++ b) ++ c = a ++ (b ++ c).
Proof. induction a as [|x a IH]; intros; cbn; [reflexivity|now rewrite IH]. Qed.

Lemma slength_app : forall a b, String.length (a ++ b) = String.length a + String.length b.
Proof. induction a as [|x a IH]; intros; cbn; [reflexivity|now rewrite IH]. Qed.

Lemma sapp_inj_l : forall a b c : string, a ++ b = a ++ c -> b = c.
Proof. induction a as [|x a IH]; cbn; intros b c H; [exact H|]. injection H as H. auto. Qed.

Lemma sapp_inj_r : forall a b c : string, a ++ c = b ++ c -> a = b.
Proof.
  induction a as [|x a IH]; intros b c H; destruct b as [|y b]; cbn in *.
  - reflexivity.
  - apply (f_equal String.length) in H. cbn in H. rewrite slength_app in H. lia.
  - apply (f_equal String.length) in H. cbn in H. rewrite slength_app in H. lia.
  - injection H as -> H. f_equal. eauto.
Qed.

Lemma sapp_eq_nil : forall a b : string, a ++ b = "" -> a = "" /\ b = "".
Proof. destruct a; cbn; intros b H; [auto|discriminate]. Qed.

Lemma sconcat_app : forall a b, sconcat (a ++ b)%list = sconcat a ++ sconcat b.
Proof. induction a as [|x a IH]; intros; cbn; [reflexivity|now rewrite IH, sapp_assoc]. Qed.

Lemma mem_str_In : forall s l, mem_str s l = true <-> In s l.
Proof.
  induction l as [|x l IH]; cbn; [intuition discriminate|].
  destruct (String.eqb_spec s x) as [->|N]; [intuition|].
  rewrite IH. intuition congruence.
Qed.

Lemma mem_str_false : forall s l, mem_str s l = false <-> ~ In s l.
Proof.
  intros. rewrite <- mem_str_In. destruct (mem_str s l); intuition congruence.
Qed.

Lemma ascii_compare_refl : forall a, Ascii.compare a a = Eq.
Proof. intro. unfold Ascii.compare. apply N.compare_refl. Qed.

Lemma ascii_compare_eq : forall a b, Ascii.compare a b = Eq -> a = b.
Proof.
  intros a b H. unfold Ascii.compare in H. apply N.compare_eq in H.
  rewrite <- (ascii_N_embedding a), <- (ascii_N_embedding b). now rewrite H.
Qed.

Lemma ascii_compare_antisym : forall a b, Ascii.compare a b = CompOpp (Ascii.compare b a).
Proof. intros. unfold Ascii.compare. apply N.compare_antisym. Qed.

Lemma str_compare_refl : forall s, String.compare s s = Eq.
Proof. induction s as [|a s IH]; cbn; [reflexivity|now rewrite ascii_compare_refl]. Qed.

Lemma str_compare_eq : forall a b, String.compare a b = Eq -> a = b.
Proof.
  induction a as [|x a IH]; destruct b as [|y b]; cbn; intro H; try discriminate; [reflexivity|].
  destruct (Ascii.compare x y) eqn:E; try discriminate.
  apply ascii_compare_eq in E. subst. f_equal. auto.
Qed.

Lemma str_compare_antisym : forall a b, String.compare a b = CompOpp (String.compare b a).
Proof.
  induction a as [|x a IH]; destruct b as [|y b]; cbn; try reflexivity.
  rewrite (ascii_compare_antisym x y). destruct (Ascii.compare y x); cbn; auto.
Qed.

Lemma ascii_compare_trans : forall c x y z,
  Ascii.compare x y = c -> Ascii.compare y z = c -> Ascii.compare x z = c.
Proof.
  unfold Ascii.compare. intros c x y z H1 H2. destruct c.
  - apply N.compare_eq_iff in H1, H2. apply N.compare_eq_iff. congruence.
  - rewrite N.compare_lt_iff in *. lia.
  - rewrite N.compare_gt_iff in *. lia.
Qed.

Lemma str_compare_trans_lt : forall a b c,
  String.compare a b = Lt -> String.compare b c = Lt -> String.compare a c = Lt.
Proof.
  induction a as [|x a IH]; destruct b as [|y b]; destruct c as [|z c]; cbn; intros H1 H2;
    try discriminate; try reflexivity.
  destruct (Ascii.compare x y) eqn:E1; try discriminate.
  - apply ascii_compare_eq in E1. subst y.
    destruct (Ascii.compare x z) eqn:E2; try discriminate; eauto.
  - destruct (Ascii.compare y z) eqn:E2; try discriminate.
    + apply ascii_compare_eq in E2. subst z. now rewrite E1.
    + now rewrite (ascii_compare_trans _ _ _ _ E1 E2).
Qed.

Lemma str_compare_gt_lt : forall a b, String.compare a b = Gt <-> String.compare b a = Lt.
Proof. intros. rewrite (str_compare_antisym a b). destruct (String.compare b a); cbn; intuition congruence. Qed.

Lemma str_leb_refl : forall a, str_leb a a = true.
Proof. intro. unfold str_leb. now rewrite str_compare_refl. Qed.

Lemma str_leb_total : forall a b, str_leb a b = true \/ str_leb b a = true.
Proof.
  intros. unfold str_leb. rewrite (str_compare_antisym b a).
  destruct (String.compare a b); cbn; auto.
Qed.

Lemma str_leb_trans : forall a b c, str_leb a b = true -> str_leb b c = true -> str_leb a c = true.
Proof.
  unfold str_leb. intros a b c H1 H2.
  destruct (String.compare a b) eqn:E1; try discriminate;
  destruct (String.compare b c) eqn:E2; try discriminate.
  - apply str_compare_eq in E1, E2. subst. now rewrite str_compare_refl.
  - apply str_compare_eq in E1. subst. now rewrite E2.
  - apply str_compare_eq in E2. subst. now rewrite E1.
  - now rewrite (str_compare_trans_lt _ _ _ E1 E2).
Qed.

Lemma str_leb_antisym : forall a b, str_leb a b = true -> str_leb b a = true -> a = b.
Proof.
  unfold str_leb. intros a b H1 H2. rewrite (str_compare_antisym b a) in H2.
  destruct (String.compare a b) eqn:E; cbn in *; try discriminate. now apply str_compare_eq.
Qed.

Lemma lookup_In : forall A k (m : list (string * A)) v, lookup k m = Some v -> In (k, v) m.
Proof.
  induction m as [|[k' v'] m IH]; cbn; intros v H; [discriminate|].
  destruct (String.eqb_spec k k') as [->|N]; [injection H as ->; auto|auto].
Qed.

Lemma lookup_None : forall A k (m : list (string * A)), lookup k m = None <-> ~ In k (map fst m).
Proof.
  induction m as [|[k' v'] m IH]; cbn; [intuition|].
  destruct (String.eqb_spec k k') as [->|N]; [intuition congruence|]. rewrite IH. intuition.
Qed.

Lemma starts_with_app : forall p s, starts_with p (p ++ s) = true.
Proof. induction p as [|a p IH]; intros; cbn; [reflexivity|]. rewrite Ascii.eqb_refl. apply IH. Qed.

Lemma starts_with_drop : forall p s, starts_with p s = true -> s = p ++ sdrop (String.length p) s.
Proof.
  induction p as [|a p IH]; intros s H; cbn in *; [reflexivity|].
  destruct s as [|b s]; [discriminate|].
  destruct (Ascii.eqb_spec a b) as [->|N]; [|discriminate]. cbn. f_equal. now apply IH.
Qed.

Lemma sdrop_app : forall p s, sdrop (String.length p) (p ++ s) = s.
Proof. induction p as [|a p IH]; intros; cbn; auto. Qed.
