(** Stable sorts: the model's sort is one, and there is only one. *)
Require Import Coq.Strings.String Coq.Lists.List Coq.Bool.Bool Coq.Sorting.Permutation Coq.Sorting.Sorted.
From Verif Require Import Base P_Base M_Config M_Type M_Ir M_Item M_Library S_Sort S_Library.
Import ListNotations.

Section Sort.
  Context {A : Type} (le : A -> A -> bool) (P : total_preorder le).

  Lemma le_refl : forall x, le x x = true.
  Proof. intros x. destruct (le_total le P x x); assumption. Qed.

  Lemma insert_perm : forall x l, Permutation (x :: l) (sort_insert le x l).
  Proof.
    induction l as [|y l IH]; cbn; [apply Permutation_refl|].
    destruct (le x y); [apply Permutation_refl|].
    eapply perm_trans; [apply perm_swap|]. apply perm_skip. assumption.
  Qed.
  Lemma sort_perm : forall l, Permutation l (sort_by_le le l).
  Proof.
    induction l as [|x l IH]; cbn; [constructor|].
    eapply perm_trans; [apply perm_skip; exact IH|apply insert_perm].
  Qed.

  Lemma insert_sorted : forall x l, StronglySorted (fun a b => le a b = true) l ->
    StronglySorted (fun a b => le a b = true) (sort_insert le x l).
  Proof.
    induction l as [|y l IH]; intros Hs; cbn; [repeat constructor|].
    inversion Hs; subst. destruct (le x y) eqn:E.
    - constructor; [assumption|]. constructor; [assumption|].
      rewrite Forall_forall in *. intros z Hz. eapply (le_trans le P); [exact E|]. auto.
    - constructor; [auto|]. rewrite Forall_forall in *. intros z Hz.
      apply (Permutation_in _ (Permutation_sym (insert_perm x l))) in Hz. destruct Hz as [<-|Hz]; [|auto].
      destruct (le_total le P x y); [congruence|assumption].
  Qed.
  Lemma sort_sorted : forall l, StronglySorted (fun a b => le a b = true) (sort_by_le le l).
  Proof. induction l; cbn; [constructor|]. apply insert_sorted. assumption. Qed.

  Lemma equivalent_spec : forall x y, equivalent le x y = true <-> le x y = true /\ le y x = true.
  Proof. intros. unfold equivalent. rewrite andb_true_iff. reflexivity. Qed.

  Lemma insert_ties : forall z x l, StronglySorted (fun a b => le a b = true) l ->
    filter (equivalent le z) (sort_insert le x l) = filter (equivalent le z) (x :: l).
  Proof.
    induction l as [|y l IH]; intros Hs; [reflexivity|].
    inversion Hs; subst. cbn [sort_insert]. destruct (le x y) eqn:E; [reflexivity|].
    cbn [filter] in *. rewrite (IH H1). destruct (equivalent le z y) eqn:Ey; [|reflexivity].
    destruct (equivalent le z x) eqn:Ex; [|reflexivity]. exfalso.
    apply equivalent_spec in Ey, Ex. rewrite (le_trans le P x z y) in E; [discriminate|tauto|tauto].
  Qed.
  Lemma sort_ties : forall z l, filter (equivalent le z) (sort_by_le le l) = filter (equivalent le z) l.
  Proof.
    induction l as [|x l IH]; [reflexivity|]. cbn [sort_by_le]. rewrite insert_ties by apply sort_sorted.
    cbn [filter]. rewrite IH. reflexivity.
  Qed.

  Lemma sort_stable : forall l, stable_sort_of le l (sort_by_le le l).
  Proof. intros l. constructor; [apply sort_perm|apply sort_sorted|intros; apply sort_ties]. Qed.

  Lemma same_ties_in : forall l1 l2 x, (forall z, filter (equivalent le z) l1 = filter (equivalent le z) l2) -> In x l1 -> In x l2.
  Proof.
    intros l1 l2 x Hf Hx. assert (Hi : In x (filter (equivalent le x) l1)).
    { apply filter_In. split; [assumption|]. apply equivalent_spec. split; apply le_refl. }
    rewrite Hf in Hi. apply filter_In in Hi. tauto.
  Qed.

  Lemma sorted_unique : forall l1 l2,
    StronglySorted (fun a b => le a b = true) l1 -> StronglySorted (fun a b => le a b = true) l2 ->
    (forall z, filter (equivalent le z) l1 = filter (equivalent le z) l2) -> l1 = l2.
  Proof.
    induction l1 as [|x1 r1 IH]; intros [|x2 r2] S1 S2 Hf; [reflexivity| | |].
    - exfalso. eapply (same_ties_in (x2 :: r2) []); [intros; symmetry; apply Hf|left; reflexivity].
    - exfalso. eapply (same_ties_in (x1 :: r1) []); [exact Hf|left; reflexivity].
    - inversion S1; inversion S2; subst.
      assert (H12 : le x1 x2 = true).
      { assert (Hi : In x2 (x1 :: r1)) by (eapply same_ties_in; [intros; symmetry; apply Hf|left; reflexivity]).
        destruct Hi as [->|Hi]; [apply le_refl|]. rewrite Forall_forall in H2. auto. }
      assert (H21 : le x2 x1 = true).
      { assert (Hi : In x1 (x2 :: r2)) by (eapply same_ties_in; [exact Hf|left; reflexivity]).
        destruct Hi as [->|Hi]; [apply le_refl|]. rewrite Forall_forall in H6. auto. }
      assert (He : x1 = x2).
      { specialize (Hf x1). cbn [filter] in Hf.
        rewrite (proj2 (equivalent_spec x1 x1)), (proj2 (equivalent_spec x1 x2)) in Hf by (split; auto using le_refl).
        inversion Hf. reflexivity. }
      subst x2. f_equal. apply IH; [assumption|assumption|].
      intros z. specialize (Hf z). cbn [filter] in Hf. destruct (equivalent le z x1); [inversion Hf; reflexivity|assumption].
  Qed.

  Lemma stable_sort_unique : forall l l', stable_sort_of le l l' -> l' = sort_by_le le l.
  Proof.
    intros l l' [_ Hs Ht]. apply sorted_unique; [assumption|apply sort_sorted|].
    intros z. rewrite Ht, sort_ties. reflexivity.
  Qed.
End Sort.

(** ** The comparisons used *)
Lemma path_preorder : forall A (path : A -> string), total_preorder (fun a b => str_leb (path a) (path b)).
Proof.
  intros A path. constructor; intros; [apply str_leb_total|eapply str_leb_trans; eauto].
Qed.

(** The class of an item and its name within the class. *)
Definition layer (i : ItemContainer) : nat :=
  match i with ICEnum x => if is_some (e_tag x) then 2 else 0 | ICOpaque _ => 1 | _ => 2 end.
Definition layer_name (i : ItemContainer) : string := match i with ICOpaque x => o_path x | _ => "" end.

Lemma ordering_layers : forall a b,
  ordering a b = match Nat.compare (layer a) (layer b) with Eq => String.compare (layer_name a) (layer_name b) | c => c end.
Proof.
  assert (Hs : forall x y, (if str_ltb x y then Lt else if String.eqb x y then Eq else Gt) = String.compare x y).
  { intros x y. unfold str_ltb. destruct (String.eqb_spec x y) as [->|Hn].
    - rewrite str_compare_refl. reflexivity.
    - destruct (String.compare x y) eqn:E; try reflexivity. exfalso. apply Hn. apply String.compare_eq_iff. assumption. }
  intros [x|x|x|x|x] [y|y|y|y|y]; unfold ordering, untagged; cbn [layer layer_name];
    try (destruct (is_some (e_tag x)); cbn); try (destruct (is_some (e_tag y)); cbn); try reflexivity.
  all: try (rewrite <- Hs; reflexivity).
Qed.

Lemma str_compare_trans_le : forall a b c, String.compare a b <> Gt -> String.compare b c <> Gt -> String.compare a c <> Gt.
Proof.
  intros a b c H1 H2. assert (Ha : str_leb a b = true) by (unfold str_leb; destruct (String.compare a b); congruence).
  assert (Hb : str_leb b c = true) by (unfold str_leb; destruct (String.compare b c); congruence).
  pose proof (str_leb_trans _ _ _ Ha Hb) as Hc. unfold str_leb in Hc. destruct (String.compare a c); congruence.
Qed.

Definition item_le (a b : ItemContainer) : bool := not_gt (ordering a b).

Lemma item_le_spec : forall a b, item_le a b = true <->
  layer a < layer b \/ (layer a = layer b /\ str_leb (layer_name a) (layer_name b) = true).
Proof.
  intros a b. unfold item_le. rewrite ordering_layers. unfold str_leb.
  destruct (PeanoNat.Nat.compare_spec (layer a) (layer b)).
  - destruct (String.compare (layer_name a) (layer_name b)); cbn; split; intros Hx; auto; try discriminate.
    destruct Hx as [Hx|[_ Hx]]; [rewrite H in Hx; exfalso; revert Hx; apply PeanoNat.Nat.lt_irrefl|discriminate].
  - cbn; split; auto.
  - cbn; split; [discriminate|]. intros [Hx|[Hx _]].
    + exfalso. eapply PeanoNat.Nat.lt_irrefl. eapply PeanoNat.Nat.lt_trans; eauto.
    + exfalso. rewrite Hx in H. revert H. apply PeanoNat.Nat.lt_irrefl.
Qed.

Lemma item_preorder : total_preorder item_le.
Proof.
  constructor.
  - intros x y. rewrite !item_le_spec. destruct (PeanoNat.Nat.lt_trichotomy (layer x) (layer y)) as [Hl|[Hl|Hl]]; auto.
    destruct (str_leb_total (layer_name x) (layer_name y)); auto.
  - intros x y z. rewrite !item_le_spec. intros [Ha|[Ha Ha']] [Hb|[Hb Hb']].
    + left. eapply PeanoNat.Nat.lt_trans; eauto.
    + left. congruence.
    + left. congruence.
    + right. split; [congruence|]. eapply str_leb_trans; eauto.
Qed.

Lemma ordering_antisym : forall a b, ordering b a = CompOpp (ordering a b).
Proof.
  intros a b. rewrite !ordering_layers, (PeanoNat.Nat.compare_antisym (layer a) (layer b)).
  destruct (Nat.compare (layer a) (layer b)); cbn; try reflexivity.
  apply String.compare_antisym.
Qed.

Lemma layer_fieldless : forall i, fieldless_enum i = Nat.eqb (layer i) 0.
Proof. intros [x|x|x|x|x]; try reflexivity. cbn. destruct (e_tag x); reflexivity. Qed.
Lemma layer_opaque : forall i, opaque_type i = Nat.eqb (layer i) 1.
Proof. intros [x|x|x|x|x]; try reflexivity. cbn. destruct (e_tag x); reflexivity. Qed.
Lemma layer_other : forall i, other_item i = Nat.eqb (layer i) 2.
Proof. intros [x|x|x|x|x]; try reflexivity. unfold other_item; cbn. destruct (e_tag x); reflexivity. Qed.
Lemma layer_bound : forall i, layer i = 0 \/ layer i = 1 \/ layer i = 2.
Proof. intros [x|x|x|x|x]; cbn; auto. destruct (is_some (e_tag x)); auto. Qed.
Lemma layer_name_nil : forall i, layer i <> 1 -> layer_name i = ""%string.
Proof. intros [x|x|x|x|x] Hn; try reflexivity. cbn in Hn. congruence. Qed.

Lemma SSorted_app : forall A (R : A -> A -> Prop) l1 l2, StronglySorted R l1 -> StronglySorted R l2 ->
  (forall x y, In x l1 -> In y l2 -> R x y) -> StronglySorted R (l1 ++ l2).
Proof.
  induction l1 as [|x l1 IH]; intros l2 S1 S2 Hx; cbn; [assumption|]. inversion S1; subst.
  constructor.
  - apply IH; auto. intros; apply Hx; [right|]; assumption.
  - apply Forall_app. split; [assumption|]. apply Forall_forall. intros y Hy. apply Hx; [left; reflexivity|assumption].
Qed.
Lemma SSorted_all : forall A (R : A -> A -> Prop) l, (forall x y, In x l -> In y l -> R x y) -> StronglySorted R l.
Proof.
  induction l as [|x l IH]; intros Hx; constructor.
  - apply IH. intros; apply Hx; right; assumption.
  - apply Forall_forall. intros y Hy. apply Hx; [left; reflexivity|right; assumption].
Qed.
Lemma filter_filter : forall A (f g : A -> bool) l, filter f (filter g l) = filter (fun x => f x && g x) l.
Proof.
  induction l as [|x l IH]; [reflexivity|]. cbn. destruct (g x) eqn:Eg; cbn; destruct (f x); cbn; rewrite ?IH; reflexivity.
Qed.
Lemma filter_nil_iff : forall A (f : A -> bool) l, (forall x, In x l -> f x = false) -> filter f l = [].
Proof.
  induction l as [|x l IH]; intros Hx; [reflexivity|]. cbn. rewrite (Hx x (or_introl eq_refl)). apply IH.
  intros; apply Hx; right; assumption.
Qed.

Definition three_layers (l : list ItemContainer) : list ItemContainer :=
  (filter fieldless_enum l ++ sort_by_le (fun a b => str_leb (ic_path a) (ic_path b)) (filter opaque_type l) ++ filter other_item l)%list.

Lemma in_layer0 : forall l x, In x (filter fieldless_enum l) -> layer x = 0.
Proof. intros l x Hx. apply filter_In in Hx. destruct Hx as [_ Hx]. rewrite layer_fieldless in Hx. apply PeanoNat.Nat.eqb_eq. assumption. Qed.
Lemma in_layer1 : forall l x, In x (filter opaque_type l) -> layer x = 1.
Proof. intros l x Hx. apply filter_In in Hx. destruct Hx as [_ Hx]. rewrite layer_opaque in Hx. apply PeanoNat.Nat.eqb_eq. assumption. Qed.
Lemma in_layer2 : forall l x, In x (filter other_item l) -> layer x = 2.
Proof. intros l x Hx. apply filter_In in Hx. destruct Hx as [_ Hx]. rewrite layer_other in Hx. apply PeanoNat.Nat.eqb_eq. assumption. Qed.

Lemma layer1_name : forall x, layer x = 1 -> layer_name x = ic_path x.
Proof. intros [x|x|x|x|x]; cbn; try reflexivity; try discriminate. destruct (is_some (e_tag x)); discriminate. Qed.

Lemma equiv_layers : forall x y, equivalent item_le x y = true <-> layer x = layer y /\ layer_name x = layer_name y.
Proof.
  intros x y. unfold equivalent. rewrite andb_true_iff, !item_le_spec. split.
  - intros [[Ha|[Ha Ha']] [Hb|[Hb Hb']]].
    + exfalso. eapply PeanoNat.Nat.lt_irrefl. eapply PeanoNat.Nat.lt_trans; eauto.
    + exfalso. rewrite Hb in Ha. eapply PeanoNat.Nat.lt_irrefl; eauto.
    + exfalso. rewrite Ha in Hb. eapply PeanoNat.Nat.lt_irrefl; eauto.
    + split; [assumption|]. apply str_leb_antisym; assumption.
  - intros [Ha Hb]. rewrite Ha, Hb. split; right; (split; [reflexivity|apply str_leb_refl]).
Qed.

Lemma d_sort_layers : forall l, d_sort l = three_layers l.
Proof.
  intros l. symmetry. change (d_sort l) with (sort_by_le item_le l). unfold three_layers.
  set (byname := fun a b => str_leb (ic_path a) (ic_path b)).
  pose proof (path_preorder _ ic_path) as Hp. fold byname in Hp.
  assert (Hmid : forall x, In x (sort_by_le byname (filter opaque_type l)) -> layer x = 1).
  { intros x Hx. eapply in_layer1. eapply Permutation_in; [apply Permutation_sym, sort_perm|exact Hx]. }
  apply (sorted_unique item_le item_preorder).
  - apply SSorted_app; [|apply SSorted_app|].
    + apply SSorted_all. intros x y Hx Hy. apply item_le_spec. right.
      apply in_layer0 in Hx. apply in_layer0 in Hy. split; [congruence|].
      rewrite !layer_name_nil by congruence. reflexivity.
    + pose proof (sort_sorted byname Hp (filter opaque_type l)) as Hs. revert Hs Hmid.
      generalize (sort_by_le byname (filter opaque_type l)). induction 1; intros Hm; constructor.
      * apply IHHs. intros; apply Hm; right; assumption.
      * rewrite Forall_forall in *. intros y Hy. apply item_le_spec. right.
        rewrite (Hm a), (Hm y) by (cbn; auto). split; [reflexivity|].
        rewrite !layer1_name by (apply Hm; cbn; auto). apply H. assumption.
    + apply SSorted_all. intros x y Hx Hy. apply item_le_spec. right.
      apply in_layer2 in Hx. apply in_layer2 in Hy. split; [congruence|].
      rewrite !layer_name_nil by congruence. reflexivity.
    + intros x y Hx Hy. apply item_le_spec. left. rewrite (Hmid x Hx), (in_layer2 _ _ Hy). auto.
    + intros x y Hx Hy. apply item_le_spec. left. rewrite (in_layer0 _ _ Hx). apply in_app_or in Hy.
      destruct Hy as [Hy|Hy]; [rewrite (Hmid y Hy)|rewrite (in_layer2 _ _ Hy)]; auto.
  - apply sort_sorted, item_preorder.
  - intros z. rewrite (sort_ties item_le item_preorder), !filter_app.
    destruct (layer_bound z) as [Hz|[Hz|Hz]].
    + rewrite filter_filter. rewrite (filter_nil_iff _ _ (sort_by_le _ _)), (filter_nil_iff _ _ (filter other_item l)).
      * rewrite !app_nil_r. apply filter_ext. intros y. destruct (equivalent item_le z y) eqn:E; [|reflexivity].
        apply equiv_layers in E. rewrite layer_fieldless. destruct E as [<- _]. rewrite Hz. reflexivity.
      * intros y Hy. apply not_true_is_false. intros Hc. apply equiv_layers in Hc. apply in_layer2 in Hy. destruct Hc; congruence.
      * intros y Hy. apply not_true_is_false. intros Hc. apply equiv_layers in Hc. apply Hmid in Hy. destruct Hc; congruence.
    + rewrite (filter_nil_iff _ _ (filter fieldless_enum l)), (filter_nil_iff _ _ (filter other_item l)).
      * rewrite app_nil_r. cbn [app].
        rewrite (filter_ext_in (equivalent item_le z) (equivalent byname z) (sort_by_le byname (filter opaque_type l))).
        -- rewrite (sort_ties byname Hp), filter_filter. apply filter_ext. intros y.
           destruct (opaque_type y) eqn:Eo.
           ++ rewrite andb_true_r. rewrite layer_opaque in Eo. apply PeanoNat.Nat.eqb_eq in Eo.
              apply eq_true_iff_eq. rewrite equiv_layers, Hz, Eo, !layer1_name by assumption.
              unfold equivalent, byname. rewrite andb_true_iff. split.
              ** intros [Ha Hb]. split; [reflexivity|]. apply str_leb_antisym; assumption.
              ** intros [_ Ha]. rewrite Ha. split; apply str_leb_refl.
           ++ rewrite andb_false_r. symmetry. apply not_true_is_false. intros Hc. apply equiv_layers in Hc.
              rewrite layer_opaque in Eo. apply PeanoNat.Nat.eqb_neq in Eo. destruct Hc; congruence.
        -- intros y Hy. apply Hmid in Hy. apply eq_true_iff_eq. rewrite equiv_layers, Hz, Hy, !layer1_name by assumption.
           unfold equivalent, byname. rewrite andb_true_iff. split.
           ++ intros [_ Ha]. rewrite Ha. split; apply str_leb_refl.
           ++ intros [Ha Hb]. split; [reflexivity|]. apply str_leb_antisym; assumption.
      * intros y Hy. apply not_true_is_false. intros Hc. apply equiv_layers in Hc. apply in_layer2 in Hy. destruct Hc; congruence.
      * intros y Hy. apply not_true_is_false. intros Hc. apply equiv_layers in Hc. apply in_layer0 in Hy. destruct Hc; congruence.
    + rewrite (filter_filter _ _ other_item). rewrite (filter_nil_iff _ _ (sort_by_le _ _)), (filter_nil_iff _ _ (filter fieldless_enum l)).
      * cbn [app]. apply filter_ext. intros y. destruct (equivalent item_le z y) eqn:E; [|reflexivity].
        apply equiv_layers in E. rewrite layer_other. destruct E as [<- _]. rewrite Hz. reflexivity.
      * intros y Hy. apply not_true_is_false. intros Hc. apply equiv_layers in Hc. apply in_layer0 in Hy. destruct Hc; congruence.
      * intros y Hy. apply not_true_is_false. intros Hc. apply equiv_layers in Hc. apply Hmid in Hy. destruct Hc; congruence.
Qed.
