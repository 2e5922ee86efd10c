(** Field lists, dependency and symbol files. *)
Require Import Coq.Strings.String Coq.Strings.Ascii Coq.Lists.List Coq.Bool.Bool Coq.Arith.Arith Coq.Sorting.Permutation Coq.Sorting.Sorted Lia.
From Verif Require Import Base P_Base M_Config M_Type M_Ir M_Item M_Library S_Sort P_Sort M_Cfg P_Cfg M_Bindings S_Fields S_Make.
Import ListNotations.
Open Scope string_scope.

(** ** Fields *)

Lemma position_None : forall x l, position x l = None <-> ~ In x l.
Proof.
  induction l as [|y l IH]; cbn; [tauto|]. destruct (String.eqb_spec y x) as [->|Hne].
  - split; [discriminate|tauto].
  - destruct (position x l); cbn.
    + split; [discriminate|]. intros H0. exfalso. apply H0. right. destruct IH as [_ IH].
      destruct (in_dec string_dec x l); [assumption|]. discriminate (IH n0).
    + split; [|reflexivity]. intros _ [E|Hin]; [congruence|]. apply IH in Hin; [exact Hin|reflexivity].
Qed.
Lemma position_Some : forall x l k, position x l = Some k ->
  exists a b, l = (a ++ x :: b)%list /\ length a = k /\ ~ In x a.
Proof.
  induction l as [|y l IH]; intros k E; cbn in E; [discriminate|].
  destruct (String.eqb_spec y x) as [->|Hne].
  - inversion E; subst. exists [], l. cbn. tauto.
  - destruct (position x l) as [j|]; [|discriminate]. cbn in E. inversion E; subst.
    destruct (IH j eq_refl) as (a & b & -> & <- & Ha). exists (y :: a), b. cbn. repeat split; try reflexivity.
    intros [E2|E2]; [congruence|contradiction].
Qed.
Lemma insert_at_app : forall {A} (a b : list A) x, insert_at (length a) x (a ++ b) = (a ++ x :: b)%list.
Proof. induction a as [|y a IH]; intros b x; cbn; [destruct b; reflexivity|rewrite IH; reflexivity]. Qed.
Lemma insert_at_perm : forall {A} n (x : A) l, Permutation (insert_at n x l) (x :: l).
Proof.
  induction n as [|n IH]; intros x [|y l]; cbn; try apply Permutation_refl.
  eapply perm_trans; [apply perm_skip, IH|apply perm_swap].
Qed.
Lemma sub_refl : forall {A} (l : list A), Sublist l l.
Proof. induction l; [apply sub_nil|apply sub_take; assumption]. Qed.
Lemma insert_at_sub : forall {A} n (x : A) l, Sublist l (insert_at n x l).
Proof.
  induction n as [|n IH]; intros x [|y l]; cbn; [apply sub_nil|apply sub_skip, sub_refl|apply sub_nil|apply sub_take, IH].
Qed.
Lemma sub_trans : forall {A} (a b c : list A), Sublist a b -> Sublist b c -> Sublist a c.
Proof.
  intros A a b c Hab Hbc. revert a Hab. induction Hbc as [l|d y l _ IH|d x l _ IH]; intros a Hab.
  - inversion Hab. constructor.
  - apply sub_skip. apply IH. exact Hab.
  - inversion Hab; subst; [apply sub_nil|apply sub_skip, IH; assumption|apply sub_take, IH; assumption].
Qed.

Lemma merge_fields_set : forall names fields pos,
  (forall x, In x (merge_fields names fields pos) <-> In x names \/ In x fields) /\
  (NoDup fields -> NoDup (merge_fields names fields pos)) /\
  Sublist fields (merge_fields names fields pos).
Proof.
  induction names as [|n names IH]; intros fields pos; cbn.
  - split; [tauto|]. split; [trivial|apply sub_refl].
  - destruct (position n fields) as [k|] eqn:E.
    + destruct (IH fields (k + 1)) as (H1 & H2 & H3). split; [|split; assumption].
      intros x. rewrite H1. apply position_Some in E. destruct E as (a & b & -> & _).
      split; [tauto|]. intros [[<-|Hx]|Hx]; [|tauto|tauto]. right. rewrite in_app_iff. cbn. tauto.
    + destruct (IH (insert_at pos n fields) (pos + 1)) as (H1 & H2 & H3). apply position_None in E. split; [|split].
      * intros x. rewrite H1. assert (Hi : In x (insert_at pos n fields) <-> In x (n :: fields)).
        { split; apply Permutation_in; [|apply Permutation_sym]; apply insert_at_perm. }
        rewrite Hi. cbn. tauto.
      * intros Hnd. apply H2. apply (Permutation_NoDup (Permutation_sym (insert_at_perm pos n fields))).
        constructor; assumption.
      * eapply sub_trans; [apply (insert_at_sub pos n)|exact H3].
Qed.
Lemma merge_definitions_app : forall defs d, merge_definitions (defs ++ [d]) = merge_fields d (merge_definitions defs) 0.
Proof. intros. unfold merge_definitions. rewrite fold_left_app. reflexivity. Qed.
Lemma merge_set : forall defs,
  NoDup (merge_definitions defs) /\ (forall x, In x (merge_definitions defs) <-> exists d, In d defs /\ In x d).
Proof.
  induction defs as [|d defs [IH1 IH2]] using rev_ind.
  - split; [constructor|]. intros x. split; [intros []|]. intros (d & [] & _).
  - rewrite merge_definitions_app. destruct (merge_fields_set d (merge_definitions defs) 0) as (H1 & H2 & _).
    split; [auto|]. intros x. rewrite H1, IH2. split.
    + intros [Hx|(d' & Hd & Hx)]; [exists d|exists d']; rewrite in_app_iff; cbn; tauto.
    + intros (d' & Hd & Hx). apply in_app_iff in Hd. destruct Hd as [Hd|[<-|[]]]; [right; eauto|tauto].
Qed.
Lemma merge_keeps : forall defs d, Sublist (merge_definitions defs) (merge_definitions (defs ++ [d])).
Proof. intros. rewrite merge_definitions_app. apply merge_fields_set. Qed.

Lemma filter_none : forall {A} (f : A -> bool) l, filter f l = [] -> forall x, In x l -> f x = false.
Proof.
  induction l as [|y l IH]; intros E x Hx; [destruct Hx|]. cbn in E. destruct (f y) eqn:Ey; [discriminate|].
  destruct Hx as [<-|Hx]; auto.
Qed.
Lemma mem_str_iff : forall x l, mem_str x l = true <-> In x l.
Proof. intros. apply mem_str_In. Qed.
Lemma mem_str_no : forall x l, ~ In x l -> mem_str x l = false.
Proof. intros x l Hx. destruct (mem_str x l) eqn:E; [|reflexivity]. apply mem_str_In in E. contradiction. Qed.
Lemma sub_app : forall {A} (a d l : list A), Sublist d l -> Sublist d (a ++ l).
Proof. induction a; intros; cbn; [assumption|apply sub_skip; auto]. Qed.

Lemma nodup_tail : forall {A} (a b : list A), NoDup (a ++ b) -> NoDup b.
Proof. induction a as [|x a IH]; intros b Hn; [exact Hn|]. inversion Hn; subst. auto. Qed.
Lemma merge_consistent : forall d A B, NoDup d -> NoDup (A ++ B) -> (forall x, In x d -> ~ In x A) ->
  consistent d B ->
  exists B', merge_fields d (A ++ B) (length A) = (A ++ B')%list /\ Sublist d B' /\ Sublist B B'.
Proof.
  induction d as [|n d IH]; intros A B Hd Hab HA Hc.
  - exists B. split; [reflexivity|]. split; [constructor|apply sub_refl].
  - inversion Hd as [|? ? Hn Hd']; subst. cbn [merge_fields].
    destruct (position n (A ++ B)) as [k|] eqn:E.
    + apply position_Some in E. destruct E as (a & b & Eab & <- & Ha).
      assert (HnA : ~ In n A) by (apply HA; left; reflexivity).
      (* n is in B *)
      assert (HB : exists B1, a = (A ++ B1)%list /\ B = (B1 ++ n :: b)%list).
      { clear - Eab HnA. revert a Eab. induction A as [|y A IHA]; intros a Eab; [exists a; tauto|].
        cbn in Eab. destruct a as [|z a]; cbn in Eab; inversion Eab; subst.
        - destruct HnA. left. reflexivity.
        - destruct (IHA (fun Hx => HnA (or_intror Hx)) a H1) as (B1 & -> & ->). exists B1. tauto. }
      destruct HB as (B1 & -> & ->).
      assert (HndB : NoDup (B1 ++ n :: b)) by (exact (nodup_tail _ _ Hab)).
      unfold consistent in Hc. cbn [filter] in Hc.
      assert (Em : mem_str n (B1 ++ n :: b) = true) by (apply mem_str_In; rewrite in_app_iff; cbn; tauto).
      rewrite Em in Hc. rewrite filter_app in Hc.
      assert (HB1 : filter (fun x => mem_str x (n :: d)) B1 = []).
      { destruct (filter (fun x => mem_str x (n :: d)) B1) as [|y l] eqn:Ef; [reflexivity|].
        cbn [app] in Hc. injection Hc as Hy _. subst y.
        assert (Hin : In n (filter (fun x => mem_str x (n :: d)) B1)) by (rewrite Ef; left; reflexivity).
        apply filter_In in Hin. exfalso. apply NoDup_remove_2 in HndB. apply HndB. rewrite in_app_iff. tauto. }
      rewrite HB1 in Hc. cbn [app filter] in Hc.
      replace (mem_str n (n :: d)) with true in Hc by (symmetry; apply mem_str_In; left; reflexivity).
      injection Hc as Hc. change (fun x => if String.eqb x n then true else mem_str x d) with (fun x => mem_str x (n :: d)) in Hc.
      assert (HdB1 : forall x, In x d -> ~ In x B1).
      { intros x Hx Hx1. pose proof (filter_none _ _ HB1 x Hx1) as E. cbn beta in E.
        assert (mem_str x (n :: d) = true) by (apply mem_str_In; right; exact Hx). congruence. }
      assert (Hnb : ~ In n b) by (apply NoDup_remove_2 in HndB; rewrite in_app_iff in HndB; tauto).
      destruct (IH (A ++ B1 ++ [n])%list b) as (B' & E' & S1 & S2).
      * exact Hd'.
      * rewrite <- !app_assoc. exact Hab.
      * intros x Hx. rewrite !in_app_iff. cbn. intros [Hx1|[Hx1|[<-|[]]]].
        -- exact (HA x (or_intror Hx) Hx1).
        -- exact (HdB1 x Hx Hx1).
        -- contradiction.
      * unfold consistent. rewrite (filter_ext_in (fun x => mem_str x b) (fun x => mem_str x (B1 ++ n :: b)) d).
        -- rewrite Hc. apply filter_ext_in. intros x Hx. cbn beta. destruct (mem_str x d) eqn:Ex.
           ++ apply mem_str_In. right. apply mem_str_In. exact Ex.
           ++ apply mem_str_no. intros [->|Hx2]; [contradiction|]. apply mem_str_In in Hx2. congruence.
        -- intros x Hx. destruct (mem_str x b) eqn:Ex.
           ++ symmetry. apply mem_str_In. apply mem_str_In in Ex. rewrite in_app_iff. cbn. tauto.
           ++ symmetry. apply mem_str_no. rewrite in_app_iff. cbn. intros [Hx1|[->|Hx1]].
              ** exact (HdB1 x Hx Hx1).
              ** contradiction.
              ** apply mem_str_In in Hx1. congruence.
      * exists (B1 ++ n :: B')%list. split; [|split].
        -- replace (length (A ++ B1) + 1) with (length (A ++ B1 ++ [n])) by (rewrite !app_length; cbn; lia).
           replace (A ++ B1 ++ n :: b)%list with ((A ++ B1 ++ [n]) ++ b)%list by (rewrite <- !app_assoc; reflexivity).
           rewrite E'. rewrite <- !app_assoc. reflexivity.
        -- apply sub_app. apply sub_take. exact S1.
        -- clear - S2. induction B1; cbn; apply sub_take; assumption.
    + apply position_None in E. rewrite in_app_iff in E. rewrite insert_at_app.
      destruct (IH (A ++ [n])%list B) as (B' & E' & S1 & S2).
      * exact Hd'.
      * rewrite <- app_assoc. cbn. apply (Permutation_NoDup (Permutation_middle A B n)). constructor; [|exact Hab].
        rewrite in_app_iff. exact E.
      * intros x Hx. rewrite in_app_iff. cbn. intros [Hx1|[<-|[]]]; [exact (HA x (or_intror Hx) Hx1)|contradiction].
      * unfold consistent in *. cbn [filter] in Hc. rewrite (mem_str_no n B) in Hc by tauto.
        rewrite Hc. apply filter_ext_in. intros x Hx. cbn beta. destruct (mem_str x d) eqn:Ex.
        -- apply mem_str_In. right. apply mem_str_In. exact Ex.
        -- apply mem_str_no. intros [->|Hx2]; [tauto|]. apply mem_str_In in Hx2. congruence.
      * exists (n :: B'). split; [|split].
        -- replace (A ++ n :: B)%list with ((A ++ [n]) ++ B)%list by (rewrite <- app_assoc; reflexivity).
           replace (length A + 1) with (length (A ++ [n])) by (rewrite app_length; reflexivity).
           rewrite E', <- app_assoc. reflexivity.
        -- apply sub_take. exact S1.
        -- apply sub_skip. exact S2.
Qed.
Lemma merge_respects : forall defs d, NoDup d -> consistent d (merge_definitions defs) ->
  Sublist d (merge_definitions (defs ++ [d])).
Proof.
  intros defs d Hd Hc. rewrite merge_definitions_app.
  destruct (merge_consistent d [] (merge_definitions defs)) as (B' & E & S1 & _); try assumption.
  - apply merge_set.
  - intros x _ [].
  - cbn in E. rewrite E. exact S1.
Qed.
Lemma merge_single : forall d, NoDup d -> merge_definitions [d] = d.
Proof.
  intros d Hd. change (merge_definitions [d]) with (merge_fields d [] 0).
  assert (gen : forall d A, NoDup d -> (forall x, In x d -> ~ In x A) -> merge_fields d A (length A) = (A ++ d)%list).
  { clear. induction d as [|n d IH]; intros A Hd HA; cbn; [rewrite app_nil_r; reflexivity|].
    inversion Hd; subst. destruct (position n A) eqn:E.
    - apply position_Some in E. destruct E as (a & b & -> & _). destruct (HA n (or_introl eq_refl)).
      rewrite in_app_iff. cbn. tauto.
    - replace (insert_at (length A) n A) with (A ++ [n])%list
        by (rewrite <- (insert_at_app A [] n), app_nil_r; reflexivity).
      replace (length A + 1) with (length (A ++ [n])) by (rewrite app_length; reflexivity).
      rewrite IH; [rewrite <- app_assoc; reflexivity|assumption|].
      intros x Hx. rewrite in_app_iff. cbn. intros [Hx1|[<-|[]]]; [exact (HA x (or_intror Hx) Hx1)|contradiction]. }
  exact (gen d [] Hd (fun x _ Hx => Hx)).
Qed.

(** ** Following typedefs *)

Lemma target_aliased : forall b p,
  match typedef_target b p with Some q => aliased b p q | None => forall t g, In t (for_items (b_typedef_map b) p) -> t_aliased t <> TPath g end.
Proof.
  intros b p. unfold typedef_target, aliased. induction (for_items (b_typedef_map b) p) as [|t l IH] using rev_ind; [intros t g []|].
  rewrite fold_left_app. cbn [fold_left]. destruct (t_aliased t) eqn:T;
    try (destruct (fold_left _ l None) as [q|];
         [destruct IH as (bf & u & g & af & -> & A & B & N); exists bf, u, g, (af ++ [t])%list; rewrite <- app_assoc; repeat split; auto;
          intros t' g' I; apply in_app_or in I as [I|[<-|[]]]; [exact (N _ _ I)|congruence]
         |intros t' g' I; apply in_app_or in I as [I|[<-|[]]]; [exact (IH _ _ I)|congruence]]).
  eexists l, t, _, []. repeat split; [exact T|]. intros t' g' [].
Qed.
Lemma aliased_unique : forall b p q q', aliased b p q -> aliased b p q' -> q = q'.
Proof.
  intros b p q q' (l & t & g & r & E & A & B & N) (l' & t' & g' & r' & E' & A' & B' & N'). rewrite E in E'. clear E.
  revert l' E'. induction l as [|x l IH]; intros [|x' l'] E'; cbn in E'; injection E' as E1 E2.
  - congruence.
  - exfalso. subst. apply (N t' g'); [apply in_or_app; right; left; reflexivity|exact A'].
  - exfalso. subst. apply (N' t g); [apply in_or_app; right; left; reflexivity|exact A].
  - exact (IH _ E2).
Qed.
Lemma target_some : forall b p q, typedef_target b p = Some q <-> aliased b p q.
Proof.
  intros b p q. pose proof (target_aliased b p) as T. split.
  - intro E. rewrite E in T. exact T.
  - intro A. destruct (typedef_target b p) as [q'|]; [now rewrite (aliased_unique _ _ _ _ T A)|].
    destruct A as (l & t & g & r & E & A & _). exfalso. apply (T t g); [rewrite E; apply in_or_app; right; left; reflexivity|exact A].
Qed.
Lemma target_none : forall b p, typedef_target b p = None <-> forall q, ~ aliased b p q.
Proof.
  intros b p. split.
  - intros E q A. apply target_some in A. congruence.
  - intro N. destruct (typedef_target b p) as [q|] eqn:E; [|reflexivity]. apply target_some in E. destruct (N _ E).
Qed.
Lemma resolved_sound : forall fuel b p q, resolved_struct_path fuel b p = Done q -> ends_at b p q.
Proof.
  induction fuel as [|n IH]; intros b p q E; cbn in E; [discriminate|].
  destruct (typedef_target b p) eqn:Et.
  - eapply ends_later; [apply target_some; exact Et|apply IH; exact E].
  - inversion E; subst. constructor. now apply target_none.
Qed.
Lemma resolved_complete : forall b p q, ends_at b p q -> exists n, forall fuel, n <= fuel -> resolved_struct_path fuel b p = Done q.
Proof.
  intros b p q He. induction He as [p Et|p q r Et _ [n IH]].
  - apply target_none in Et. exists 1. intros [|f] Hf; [lia|]. cbn. rewrite Et. reflexivity.
  - apply target_some in Et. exists (S n). intros [|f] Hf; [lia|]. cbn. rewrite Et. apply IH. lia.
Qed.
Lemma ends_unique : forall b p q, ends_at b p q -> forall r, ends_at b p r -> q = r.
Proof.
  intros b p q He. induction He as [p Et|p q r Et _ IH]; intros r' Hr; inversion Hr as [? N|? q' ? A R]; subst.
  - reflexivity.
  - destruct (Et _ A).
  - destruct (N _ Et).
  - apply IH. rewrite (aliased_unique _ _ _ _ Et A). exact R.
Qed.
Lemma ends_target : forall b p q, ends_at b p q -> forall r, ~ aliased b q r.
Proof. intros b p q He. induction He; assumption. Qed.
Lemma resolved_no_panic : forall fuel b p, resolved_struct_path fuel b p <> Panic.
Proof. induction fuel; intros b p; cbn; [discriminate|]. destruct (typedef_target b p); [apply IHfuel|discriminate]. Qed.
(** When aliases go down some order, following them ends within its depth. *)
Lemma resolved_ranked : forall b (rank : string -> nat), (forall p q, aliased b p q -> rank q < rank p) ->
  forall p fuel, rank p < fuel -> exists q, resolved_struct_path fuel b p = Done q.
Proof.
  intros b rank Hr p fuel. revert p. induction fuel as [|n IH]; intros p Hp; [lia|]. cbn.
  destruct (typedef_target b p) as [q|] eqn:Et; [|eauto]. apply IH. apply target_some, Hr in Et. lia.
Qed.
(** A cycle of aliases is followed for ever. *)
Lemma resolved_cycle : forall b (C : string -> Prop), (forall p, C p -> exists q, typedef_target b p = Some q /\ C q) ->
  forall fuel p, C p -> resolved_struct_path fuel b p = Diverge.
Proof.
  intros b C HC. induction fuel as [|n IH]; intros p Hp; [reflexivity|]. cbn.
  destruct (HC p Hp) as (q & -> & Hq). apply IH. exact Hq.
Qed.

(** ** The memo *)

Definition fields_at (b : Bindings) (q : string) : list string :=
  merge_definitions (map field_names (for_items (b_struct_map b) q)).
Definition memo_right (b : Bindings) (m : memo) : Prop :=
  forall p l, lookup p m = Some l -> exists q, ends_at b p q /\ l = fields_at b q.
Lemma memo_call : forall fuel b m p m' l, memo_right b m -> struct_field_names fuel b m p = Done (m', l) ->
  memo_right b m' /\ exists q, ends_at b p q /\ l = fields_at b q.
Proof.
  intros fuel b m p m' l Hm E. unfold struct_field_names in E.
  destruct (lookup p m) as [l0|] eqn:El; [inversion E; subst; split; [exact Hm|apply Hm; exact El]|].
  destruct (resolved_struct_path fuel b p) as [q| |] eqn:Eq; try discriminate. cbn in E.
  apply resolved_sound in Eq. injection E as Em Ef.
  fold (fields_at b q) in Em, Ef. subst l.
  assert (H1 : memo_right b ((p, fields_at b q) :: m)).
  { intros p' l' Hl. cbn in Hl. destruct (String.eqb_spec p' p) as [->|]; [|apply Hm; exact Hl]. inversion Hl; subst. eauto. }
  split; [|eauto]. destruct (typedef_target b p); [|subst m'; exact H1]. subst m'. intros p' l' Hl. cbn in Hl.
  destruct (String.eqb_spec p' q) as [->|]; [|apply H1; exact Hl]. inversion Hl; subst. exists q.
  split; [constructor; eapply ends_target; exact Eq|reflexivity].
Qed.
Lemma ask_all_right : forall fuel b ps m ls, memo_right b m -> ask_all fuel b m ps = Done ls ->
  Forall2 (fun p l => exists q, ends_at b p q /\ l = fields_at b q) ps ls.
Proof.
  intros fuel b. induction ps as [|p ps IH]; intros m ls Hm E; cbn in E; [inversion E; constructor|].
  destruct (struct_field_names fuel b m p) as [[m' l]| |] eqn:E1; try discriminate. cbn in E.
  destruct (ask_all fuel b m' ps) as [ls'| |] eqn:E2; try discriminate. cbn in E. inversion E; subst.
  destruct (memo_call _ _ _ _ _ _ Hm E1) as [Hm' Hq]. constructor; [exact Hq|eapply IH; eassumption].
Qed.
Lemma ask_all_done : forall fuel b ps m, (forall p, In p ps -> exists q, resolved_struct_path fuel b p = Done q) ->
  exists ls, ask_all fuel b m ps = Done ls.
Proof.
  intros fuel b. induction ps as [|p ps IH]; intros m Hp; [exists []; reflexivity|]. cbn.
  destruct (Hp p (or_introl eq_refl)) as [q Eq].
  assert (exists a, struct_field_names fuel b m p = Done a) as [a ->].
  { unfold struct_field_names. destruct (lookup p m); [eauto|]. rewrite Eq. cbn. eauto. }
  cbn. destruct (IH (fst a)) as [ls ->]; [intros; apply Hp; right; assumption|]. cbn. eauto.
Qed.

(** ** Dependency files *)

Lemma cpath_preorder : total_preorder cpath_leb.
Proof.
  split.
  - induction x as [|a x IH]; intros [|b y]; cbn; try tauto.
    rewrite (String.compare_antisym a b). destruct (String.compare b a) eqn:E; cbn; auto.
  - induction x as [|a x IH]; intros [|b y] [|c z]; cbn; try congruence.
    destruct (String.compare a b) eqn:E1; destruct (String.compare b c) eqn:E2; try discriminate.
    + apply String.compare_eq_iff in E1, E2. subst. rewrite str_compare_refl. apply IH.
    + apply String.compare_eq_iff in E1. subst. rewrite E2. reflexivity.
    + apply String.compare_eq_iff in E2. subst. rewrite E1. reflexivity.
    + intros _ _. destruct (String.compare a c) eqn:E3; [|reflexivity|].
      * apply String.compare_eq_iff in E3. subst. rewrite String.compare_antisym, E1 in E2. discriminate.
      * exfalso. eapply (str_compare_trans_le a b c); congruence.
Qed.

Lemma words_space : forall w s, words w (" " ++ s) = option_map (app (close w)) (words "" s).
Proof. reflexivity. Qed.
Lemma words_line : forall w s, words w ("\" ++ nl ++ s) = option_map (app (close w)) (words "" s).
Proof. reflexivity. Qed.
Lemma words_escaped : forall t w s, plain_text t = true -> words w (escape_spaces t ++ s) = words (w ++ t) s.
Proof.
  induction t as [|c t IH]; intros w s Hp; cbn [escape_spaces replace_char].
  - rewrite sapp_nil_r. reflexivity.
  - cbn in Hp. apply andb_prop in Hp. destruct Hp as [Hc Ht].
    change (replace_char " " "\ " t) with (escape_spaces t).
    destruct (Ascii.eqb_spec c " ") as [->|Hne].
    + change ("\ " ++ escape_spaces t) with (String "\" (String " " (escape_spaces t))).
      cbn [append words]. change (Ascii.eqb "\" newline_char) with false. cbn [Ascii.eqb]. cbn.
      rewrite IH by exact Ht. rewrite sapp_assoc. reflexivity.
    + cbn [append words]. unfold plain_char in Hc.
      destruct (Ascii.eqb c newline_char); [discriminate|].
      destruct (Ascii.eqb_spec c " ") as [|_]; [congruence|].
      destruct (Ascii.eqb c ":"); [discriminate|].
      destruct (Ascii.eqb c "#"); [discriminate|]. destruct (Ascii.eqb c "\"); [discriminate|].
      destruct (Ascii.eqb c "$"); [discriminate|]. destruct (uncovered c); [discriminate|].
      rewrite IH by exact Ht. rewrite sapp_assoc. reflexivity.
Qed.
Lemma cpath_text_nonempty : forall p, cpath_text p <> "".
Proof. intros [|x p]; discriminate. Qed.
Lemma close_path : forall p, close (cpath_text p) = [RWord (cpath_text p)].
Proof.
  intros p. unfold close. destruct (String.eqb_spec (cpath_text p) ""); [|reflexivity].
  destruct (cpath_text_nonempty p); assumption.
Qed.
Definition dep_line (p : cpath) : string := " \" ++ nl ++ "    " ++ escape_spaces (cpath_text p).
Lemma words_lines : forall l w, Forall (fun p => plain_text (cpath_text p) = true) l ->
  words w (sconcat (map dep_line l) ++ nl) = Some (close w ++ map (fun p => RWord (cpath_text p)) l)%list.
Proof.
  induction l as [|p l IH]; intros w Hl; cbn [map sconcat append].
  - cbn. rewrite app_nil_r. reflexivity.
  - inversion Hl; subst.
    assert (E : (dep_line p ++ sconcat (map dep_line l)) ++ nl =
                " " ++ "\" ++ nl ++ " " ++ " " ++ " " ++ " " ++ (escape_spaces (cpath_text p) ++ (sconcat (map dep_line l) ++ nl))).
    { unfold dep_line at 1. rewrite sapp_assoc. change (" \" ++ nl ++ "    " ++ escape_spaces (cpath_text p)) with (" \" ++ nl ++ ("    " ++ escape_spaces (cpath_text p))).
      rewrite !sapp_assoc. reflexivity. }
    rewrite E. rewrite words_space, words_line, !words_space, words_escaped by assumption.
    cbn [append]. rewrite IH by assumption. cbn [option_map close String.eqb app]. rewrite close_path. reflexivity.
Qed.
Lemma only_words_map : forall {A} (f : A -> string) l, only_words (map (fun p => RWord (f p)) l) = Some (map f l).
Proof. induction l as [|x l IH]; cbn; [reflexivity|rewrite IH; reflexivity]. Qed.

Lemma sconcat_app' : forall a b, sconcat (a ++ b) = sconcat a ++ sconcat b.
Proof. intros. apply sconcat_app. Qed.
Lemma depfile_reads : forall canon b header h srcs,
  canon header = Some h ->
  map_opt canon (b_source_files b ++ match config_path (b_config b) with Some p => [p] | None => [] end) = Some srcs ->
  plain_text (cpath_text h) = true -> Forall (fun p => plain_text (cpath_text p) = true) srcs ->
  exists text sorted, depfile_text canon b header = Some text /\ Permutation srcs sorted /\
    StronglySorted (fun x y => cpath_leb x y = true) sorted /\
    make_rule text = Some (cpath_text h, map cpath_text sorted).
Proof.
  intros canon b header h srcs Hh Hs Hp Hps.
  exists ((escape_spaces (cpath_text h) ++ ":") ++ sconcat (map dep_line (sort_by_le cpath_leb srcs)) ++ nl), (sort_by_le cpath_leb srcs).
  split; [|split; [apply sort_perm|split; [apply sort_sorted, cpath_preorder|]]].
  - unfold depfile_text, depfile_pieces. rewrite Hh, Hs. cbn [option_map sconcat].
    rewrite sconcat_app'. cbn [sconcat]. rewrite sapp_nil_r. reflexivity.
  - unfold make_rule. rewrite !sapp_assoc, words_escaped by exact Hp. change ("" ++ cpath_text h) with (cpath_text h).
    change (words (cpath_text h) (":" ++ (sconcat (map dep_line (sort_by_le cpath_leb srcs)) ++ nl)))
      with (option_map (fun l => (close (cpath_text h) ++ RColon :: l)%list) (words "" (sconcat (map dep_line (sort_by_le cpath_leb srcs)) ++ nl))).
    rewrite words_lines.
    + rewrite close_path. change (close "") with (@nil rtok). cbn [option_map app]. rewrite (only_words_map cpath_text). reflexivity.
    + rewrite Forall_forall in *. intros p Hin. apply Hps.
      apply (Permutation_in _ (Permutation_sym (sort_perm cpath_leb srcs))). exact Hin.
Qed.

(** ** Symbol files *)

Lemma all_but_last_app : forall n, all_but_last ";" (n ++ ";") = Some n.
Proof.
  induction n as [|c n IH]; [reflexivity|]. cbn [append all_but_last].
  destruct (n ++ ";") as [|c0 r] eqn:E; [destruct n; discriminate|]. rewrite IH. reflexivity.
Qed.
Lemma symbol_lines_cons : forall x y r, symbol_lines (x :: y :: r) =
  match all_but_last ";" x, symbol_lines (y :: r) with Some n, Some ns => Some (n :: ns) | _, _ => None end.
Proof. reflexivity. Qed.
Lemma symbols_read : forall b, (forall x, In x (dynamic_symbols_names b) -> contains_char newline_char x = false) ->
  symbol_list (symfile_text b) = Some (dynamic_symbols_names b).
Proof.
  intros b. unfold symfile_text. generalize (dynamic_symbols_names b). intros l Hl.
  unfold symbol_list. change ("{" ++ nl ++ ?r) with ("{" ++ String newline_char r).
  rewrite split_app by reflexivity. change (String.eqb "{" "{") with true. cbv iota.
  induction l as [|x l IH]; [reflexivity|]. cbn [map sconcat].
  rewrite !sapp_assoc.
  change (x ++ ";" ++ nl ++ sconcat (map (fun s => s ++ ";" ++ nl) l) ++ "};")
    with (x ++ ";" ++ (nl ++ (sconcat (map (fun s => s ++ ";" ++ nl) l) ++ "};"))).
  rewrite <- sapp_assoc.
  change (nl ++ ?r) with (String newline_char r). rewrite split_app.
  - specialize (IH (fun y Hy => Hl y (or_intror Hy))).
    destruct (split_on newline_char (sconcat (map (fun s => s ++ ";" ++ nl) l) ++ "};")) as [|y r] eqn:Es; [discriminate|].
    rewrite symbol_lines_cons, all_but_last_app, IH. reflexivity.
  - rewrite contains_app, Hl by (left; reflexivity). reflexivity.
Qed.
