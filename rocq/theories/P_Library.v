(** Proofs about the passes of a library: what ends up in the bindings. *)
Require Import Coq.Strings.String Coq.Lists.List Coq.Bool.Bool Coq.Arith.Arith Coq.Sorting.Permutation Coq.Sorting.Sorted Lia.
From Verif Require Import Base P_Base M_Config M_Cfg M_Type M_Ir M_Item M_Library S_Item S_Sort S_Library P_Item P_Table P_Sort P_Deps.
Import ListNotations.

(** ** Tables *)
Lemma to_vec_app : forall T (a b : ItemMap T), to_vec (a ++ b)%list = (to_vec a ++ to_vec b)%list.
Proof. intros. unfold to_vec. rewrite map_app, concat_app. reflexivity. Qed.

Lemma to_vec_map : forall T (f : T -> T) (m : ItemMap T), to_vec (for_all_items_mut f m) = map f (to_vec m).
Proof.
  intros T f m. unfold to_vec, for_all_items_mut. rewrite concat_map, !map_map. f_equal. apply map_ext.
  intros [p [l|x]]; reflexivity.
Qed.

Lemma map_opt_app : forall A B (f : A -> option B) a b a' b',
  map_opt f a = Some a' -> map_opt f b = Some b' -> map_opt f (a ++ b)%list = Some (a' ++ b')%list.
Proof.
  induction a as [|x r IH]; cbn [map_opt]; intros b a' b' Ha Hb.
  - inversion Ha; subst. exact Hb.
  - cbn. destruct (f x) as [y|]; [|discriminate]. fold (map_opt f) in *.
    destruct (map_opt f r) as [r'|] eqn:E; [|discriminate]. inversion Ha; subst.
    rewrite (IH b r' b' eq_refl Hb). reflexivity.
Qed.

Lemma to_vec_map_opt : forall T (f : T -> option T) (m m' : ItemMap T),
  for_all_items_mut_opt f m = Some m' -> map_opt f (to_vec m) = Some (to_vec m').
Proof.
  induction m as [|[p v] r IH]; intros m' Hm; cbn in Hm.
  - inversion Hm; subst. reflexivity.
  - fold (map_opt (fun e : string * ItemValue T => let? v := map_value_opt f (snd e) in Some (fst e, v))) in Hm.
    destruct (map_value_opt f v) as [v'|] eqn:Ev; [|discriminate].
    fold (for_all_items_mut_opt f r) in Hm.
    destruct (for_all_items_mut_opt f r) as [r'|] eqn:Er; [|discriminate]. inversion Hm; subst.
    change (to_vec ((p, v) :: r)) with (value_items v ++ to_vec r)%list.
    change (to_vec ((p, v') :: r')) with (value_items v' ++ to_vec r')%list.
    apply map_opt_app; [|apply IH; reflexivity].
    destruct v as [l|x]; cbn [map_value_opt] in Ev.
    + destruct (map_opt f l) as [l'|] eqn:El; [|discriminate]. inversion Ev; subst. exact El.
    + destruct (f x) as [x'|] eqn:Ex; [|discriminate]. inversion Ev; subst. cbn. rewrite Ex. reflexivity.
Qed.

Lemma map_opt_Forall2 : forall A B (f : A -> option B) l l', map_opt f l = Some l' -> Forall2 (fun x y => f x = Some y) l l'.
Proof.
  induction l as [|x r IH]; cbn; intros l' Hl.
  - inversion Hl; subst. constructor.
  - fold (map_opt f) in Hl. destruct (f x) as [y|] eqn:Ex; [|discriminate].
    destruct (map_opt f r) as [r'|]; [|discriminate]. inversion Hl; subst. constructor; auto.
Qed.

Lemma Forall2_length : forall A B (R : A -> B -> Prop) l l', Forall2 R l l' -> length l' = length l.
Proof. intros A B R l l'. induction 1; cbn; auto. Qed.

Lemma Forall2_map_same : forall A B (R : A -> B -> Prop) f l, (forall x, R x (f x)) -> Forall2 R l (map f l).
Proof. intros A B R f l Hf. induction l; constructor; auto. Qed.

Lemma map_opt_In : forall A B (f : A -> option B) l l' y, map_opt f l = Some l' -> In y l' -> exists x, In x l /\ f x = Some y.
Proof.
  intros A B f l l' y Hl Hy. apply map_opt_Forall2 in Hl. induction Hl; [destruct Hy|].
  destruct Hy as [<-|Hy]; [exists x; split; [now left|assumption]|].
  destruct (IHHl Hy) as (z & Hz & E). exists z. split; [now right|assumption].
Qed.

Lemma map_opt_keeps : forall A B C (f : A -> option B) (k : A -> C) (k' : B -> C) l l',
  (forall x y, f x = Some y -> k' y = k x) -> map_opt f l = Some l' -> map k' l' = map k l.
Proof.
  intros A B C f k k' l l' Hk Hl. apply map_opt_Forall2 in Hl. induction Hl; cbn; [reflexivity|].
  rewrite IHHl, (Hk _ _ H). reflexivity.
Qed.

Lemma set_entry_In : forall T p (v : ItemValue T) m x, In x (to_vec (set_entry p v m)) -> In x (value_items v) \/ In x (to_vec m).
Proof.
  induction m as [|[q w] r IH]; cbn [set_entry]; intros x Hx; [destruct Hx|].
  change (to_vec ((q, w) :: r)) with (value_items w ++ to_vec r)%list. rewrite in_app_iff.
  destruct (String.eqb q p).
  - change (In x (value_items v ++ to_vec r)%list) in Hx. rewrite in_app_iff in Hx. tauto.
  - change (In x (value_items w ++ to_vec (set_entry p v r))%list) in Hx. rewrite in_app_iff in Hx.
    destruct Hx as [Hx|Hx]; [tauto|]. destruct (IH x Hx); tauto.
Qed.

Lemma lookup_value_In : forall T p (v : ItemValue T) (m : ItemMap T) x, lookup p m = Some v -> In x (value_items v) -> In x (to_vec m).
Proof.
  intros T p v m x Hl Hx. apply lookup_In in Hl. unfold to_vec. apply In_concat_map. exists (p, v). split; assumption.
Qed.

Lemma try_insert_In : forall T (I : Item T) x m y, In y (to_vec (fst (try_insert x m))) -> y = x \/ In y (to_vec m).
Proof.
  intros T I x m y. unfold try_insert. destruct (lookup (i_path x) m) as [[items|z]|] eqn:E; cbn [fst]; try tauto.
  - destruct (is_some (i_cfg x)); cbn [fst]; [|tauto]. intros Hy. apply set_entry_In in Hy as [Hy|Hy]; [|tauto].
    cbn [value_items] in Hy. apply in_app_iff in Hy as [Hy|[<-|[]]]; [|now left].
    right. eapply lookup_value_In; [exact E|exact Hy].
  - rewrite to_vec_app, in_app_iff. intros [Hy|Hy]; [tauto|]. destruct (is_some (i_cfg x)); cbn in Hy; destruct Hy as [<-|[]]; tauto.
Qed.

Lemma insert_all_In : forall T (I : Item T) xs m y, In y (to_vec (insert_all xs m)) -> In y xs \/ In y (to_vec m).
Proof.
  intros T I xs. unfold insert_all. induction xs as [|x r IH]; cbn [fold_left]; intros m y Hy; [tauto|].
  destruct (IH _ _ Hy) as [Hr|Hm]; [left; now right|].
  apply try_insert_In in Hm as [->|Hm]; [left; now left|now right].
Qed.

Lemma for_items_mut_In : forall T p (f : T -> T) (m : ItemMap T) x, In x (to_vec (for_items_mut p f m)) ->
  In x (to_vec m) \/ exists y, In y (to_vec m) /\ x = f y.
Proof.
  intros T p f m x. unfold for_items_mut. destruct (lookup p m) as [v|] eqn:E; [|tauto]. intros Hx.
  apply set_entry_In in Hx as [Hx|Hx]; [|tauto]. right. destruct v as [l|z]; cbn in Hx.
  - apply in_map_iff in Hx as (y & <- & Hy). exists y. split; [|reflexivity]. eapply lookup_value_In; [exact E|exact Hy].
  - destruct Hx as [<-|[]]. exists z. split; [|reflexivity]. eapply lookup_value_In; [exact E|now left].
Qed.

Lemma filter_In_vec : forall T (f : T -> bool) (m : ItemMap T) x, In x (to_vec (map_filter f m)) <-> In x (to_vec m) /\ f x = false.
Proof. intros. rewrite filter_to_vec, filter_In. destruct (f x); cbn; intuition discriminate. Qed.

(** ** The items found under a name *)
Lemma get_items_In : forall T p (m : ItemMap T) xs x, get_items p m = Some xs -> In x xs -> In x (to_vec m).
Proof.
  intros T p m xs x Hg Hx. unfold get_items in Hg. destruct (lookup p m) as [v|] eqn:E; [|discriminate].
  cbn in Hg. inversion Hg; subst. eapply lookup_value_In; [exact E|exact Hx].
Qed.

Lemma ItemType_eqb_eq : forall a b, ItemType_eqb a b = true <-> a = b.
Proof. destruct a, b; cbn; split; congruence. Qed.

Lemma should_generate_wanted : forall c k, should_generate (export c) k = true <-> wanted c k.
Proof.
  intros c k. unfold should_generate, wanted. destruct (ex_item_types (export c)) as [|t r] eqn:E; [intuition|].
  rewrite existsb_exists. split.
  - intros (x & Hx & Hk). apply ItemType_eqb_eq in Hk. subst. now right.
  - intros [?|Hi]; [discriminate|]. exists k. split; [exact Hi|]. apply ItemType_eqb_eq. reflexivity.
Qed.

Lemma find_kind_some : forall T (l : Library) k (wrap : T -> ItemContainer) m p o items,
  find_kind l k wrap m p o = Some items ->
  (should_generate (export (l_config l)) k = true /\ exists xs, get_items p m = Some xs /\ items = map wrap xs) \/ o = Some items.
Proof.
  intros T l k wrap m p o items. unfold find_kind. destruct (should_generate (export (l_config l)) k); [|tauto].
  destruct (get_items p m) as [xs|]; [|tauto]. intros Hs. inversion Hs; subst. left. split; [reflexivity|]. exists xs. auto.
Qed.

Lemma in_items : forall l p items i, lib_get_items l p = Some items -> In i items ->
  In i (defined l) /\ wanted (l_config l) (kind_of i).
Proof.
  intros l p items i. unfold lib_get_items, defined. rewrite !in_app_iff. intros Hf Hi.
  Ltac fk Hf Hi :=
    apply find_kind_some in Hf as [(Hk & xs & Hg & ->)|Hf];
    [ apply should_generate_wanted in Hk; apply in_map_iff in Hi as (x & <- & Hx);
      pose proof (get_items_In _ _ _ _ _ Hg Hx); split; [|exact Hk] |].
  fk Hf Hi; [left; now apply in_map|].
  fk Hf Hi; [right; left; now apply in_map|].
  fk Hf Hi; [right; right; left; now apply in_map|].
  fk Hf Hi; [right; right; right; left; now apply in_map|].
  fk Hf Hi; [right; right; right; right; now apply in_map|]. discriminate.
Qed.

Lemma d_sort_perm : forall l, Permutation l (d_sort l).
Proof. intros. apply (sort_perm item_le). Qed.

(** ** finish *)
Lemma finish_spec : forall l b, finish l = Done b ->
  exists d ps, b_items b = d_sort d /\ d = concat (map (items_of l) ps) /\ NoDup ps
    /\ (forall q, In q ps <-> exported l q)
    /\ (forall p q, In p ps -> refers l p q -> ~ reaches l q p -> before q p ps).
Proof.
  intros l b Hf. unfold finish in Hf. destruct (dependencies_spec l) as (d & ps & Hd & Ho & Hn & He & Hb).
  rewrite Hd in Hf. inversion Hf; subst; cbn. exists (d_order d), ps. auto.
Qed.

Lemma finish_total : forall l, exists b, finish l = Done b.
Proof.
  intros l. unfold finish. destruct (dependencies_spec l) as (d & ps & Hd & _). rewrite Hd. eexists. reflexivity.
Qed.

Lemma finish_items : forall l b i, finish l = Done b ->
  (In i (b_items b) <-> exists q, exported l q /\ In i (items_of l q)).
Proof.
  intros l b i Hf. destruct (finish_spec l b Hf) as (d & ps & -> & -> & _ & He & _).
  split.
  - intros Hi. apply (Permutation_in _ (Permutation_sym (d_sort_perm _))) in Hi. apply In_concat_map in Hi as (q & Hq & Hi).
    exists q. rewrite <- He. auto.
  - intros (q & Hq & Hi). apply (Permutation_in _ (d_sort_perm _)). apply In_concat_map. exists q. rewrite He. auto.
Qed.

Lemma finish_defined : forall l b i, finish l = Done b -> In i (b_items b) -> In i (defined l) /\ wanted (l_config l) (kind_of i).
Proof.
  intros l b i Hf Hi. apply (finish_items l b i Hf) in Hi as (q & _ & Hi). unfold items_of in Hi.
  destruct (lib_get_items l q) as [items|] eqn:E; [|destruct Hi]. eapply in_items; [exact E|exact Hi].
Qed.

(** ** C09: the order after the final sort *)
Lemma before_app_l : forall A (x y : A) a b, before x y a -> before x y (a ++ b)%list.
Proof.
  intros A x y a b (u & v & w & ->). exists u, v, (w ++ b)%list.
  repeat (rewrite <- app_assoc; cbn [app]). reflexivity.
Qed.
Lemma before_app_r : forall A (x y : A) a b, before x y b -> before x y (a ++ b)%list.
Proof. intros A x y a b (u & v & w & ->). exists (a ++ u)%list, v, w. rewrite app_assoc. reflexivity. Qed.
Lemma before_cross : forall A (x y : A) a b, In x a -> In y b -> before x y (a ++ b)%list.
Proof.
  intros A x y a b Hx Hy. apply in_split in Hx as (a1 & a2 & ->). apply in_split in Hy as (b1 & b2 & ->).
  exists a1, (a2 ++ b1)%list, b2. repeat (rewrite <- app_assoc; cbn [app]). reflexivity.
Qed.

Lemma before_concat : forall A B (f : A -> list B) p q ps i j,
  before q p ps -> In i (f q) -> In j (f p) -> before i j (concat (map f ps)).
Proof.
  intros A B f p q ps i j (u & v & w & ->) Hi Hj. rewrite map_app, concat_app. apply before_app_r. cbn [map concat].
  rewrite map_app, concat_app. apply before_cross; [exact Hi|]. rewrite in_app_iff. right. cbn [map concat]. rewrite in_app_iff. now left.
Qed.

Lemma before_filter : forall A (f : A -> bool) x y l, before x y l -> f x = true -> f y = true -> before x y (filter f l).
Proof.
  intros A f x y l (u & v & w & ->) Hx Hy. exists (filter f u), (filter f v), (filter f w).
  rewrite filter_app. cbn [filter]. rewrite Hx, filter_app. cbn [filter]. rewrite Hy. reflexivity.
Qed.

Lemma before_In : forall A (x y : A) l, before x y l -> In x l /\ In y l.
Proof.
  intros A x y l (u & v & w & ->). split; rewrite in_app_iff; right; [now left|right]. rewrite in_app_iff. right. now left.
Qed.

Lemma d_sort_before : forall l i j, before i j l -> other_item j = true -> before i j (d_sort l).
Proof.
  intros l i j Hb Hj. rewrite d_sort_layers. unfold three_layers. destruct (before_In _ _ _ _ Hb) as [Hi Hj'].
  destruct (fieldless_enum i) eqn:Fi.
  - apply before_cross; [apply filter_In; auto|]. rewrite in_app_iff. right. apply filter_In. auto.
  - apply before_app_r. destruct (opaque_type i) eqn:Oi.
    + apply before_cross; [|apply filter_In; auto].
      eapply Permutation_in; [apply sort_perm|]. apply filter_In. auto.
    + apply before_app_r. apply before_filter; auto. unfold other_item. rewrite Fi, Oi. reflexivity.
Qed.

Lemma final_order : forall l b p q i j, finish l = Done b ->
  exported l p -> In j (items_of l p) -> fieldless_enum j = false -> item_mentions j q -> known l q -> ~ reaches l q p ->
  In i (items_of l q) -> before i j (b_items b).
Proof.
  intros l b p q i j Hf Hp Hj Hfl Hm Hk Hc Hi.
  destruct (finish_spec l b Hf) as (d & ps & -> & -> & _ & He & Hb).
  assert (Hpq : before q p ps).
  { apply Hb; [apply He; exact Hp| |exact Hc]. split; [exact Hk|]. exists j. auto. }
  apply d_sort_before; [eapply before_concat; eassumption|].
  unfold other_item. rewrite Hfl. destruct j; try reflexivity; cbn [item_mentions] in Hm; contradiction.
Qed.

(** ** C10 *)
Lemma d_sort_stable : forall l, stable_sort_of (fun a b => not_gt (ordering a b)) l (d_sort l).
Proof. intros. apply (sort_stable item_le item_preorder). Qed.
Lemma d_sort_any : forall l l', stable_sort_of (fun a b => not_gt (ordering a b)) l l' -> l' = d_sort l.
Proof. intros l l' Hs. apply (stable_sort_unique item_le item_preorder). exact Hs. Qed.

(** ** The passes before the dependencies *)
Lemma transfer_one_rest : forall l e, let l' := transfer_one l e in
  l_config l' = l_config l /\ l_constants l' = l_constants l /\ l_globals l' = l_globals l /\ l_functions l' = l_functions l
  /\ l_source_files l' = l_source_files l /\ l_package_version l' = l_package_version l.
Proof.
  intros l [p a]. unfold transfer_one, give_annotations. repeat destruct (match get_items p _ with Some _ => _ | None => _ end); cbn; auto 10.
Qed.
Lemma transfer_rest : forall visit l, let l' := transfer_annotations visit l in
  l_config l' = l_config l /\ l_constants l' = l_constants l /\ l_globals l' = l_globals l /\ l_functions l' = l_functions l
  /\ l_source_files l' = l_source_files l /\ l_package_version l' = l_package_version l.
Proof.
  intros visit l. unfold transfer_annotations. destruct (take_annotations (l_typedefs l) []) as [td an].
  set (l0 := {| l_config := l_config l |}). assert (H0 : forall xs k,
    (let l' := fold_left transfer_one xs k in
     l_config l' = l_config k /\ l_constants l' = l_constants k /\ l_globals l' = l_globals k /\ l_functions l' = l_functions k
     /\ l_source_files l' = l_source_files k /\ l_package_version l' = l_package_version k)).
  { induction xs as [|x r IH]; intros k; cbn [fold_left]; [auto 10|].
    destruct (IH (transfer_one k x)) as (A1 & A2 & A3 & A4 & A5 & A6).
    destruct (transfer_one_rest k x) as (B1 & B2 & B3 & B4 & B5 & B6). cbn zeta in *. repeat split; congruence. }
  exact (H0 (visit an) l0).
Qed.

(** The library after each pass. *)
Record stages {H : Heck} (fuel : nat) visit (l l1 l2 l3 l4 l' : Library) : Prop := {
  st1 : l1 = sort_functions (simplify_library (transfer_annotations visit l));
  st2 : if Language_eqb (language (l_config l)) Cxx then l2 = l1 else instantiate_monomorphs fuel l1 = Done l2;
  st3 : l3 = remove_excluded l2;
  st4 : l4 = if Language_eqb (language (l_config l)) M_Config.C then resolve_library l3 else l3;
  st5 : rename_items l4 = Some l' }.
Lemma prepare_stages : forall (H : Heck) fuel visit l l', prepare fuel visit l = Done l' ->
  exists l1 l2 l3 l4, stages fuel visit l l1 l2 l3 l4 l'.
Proof.
  intros H fuel visit l l'. unfold prepare.
  set (l1 := sort_functions _). destruct (Language_eqb (language (l_config l)) Cxx) eqn:El.
  - set (l3 := remove_excluded l1). set (l4 := if Language_eqb _ _ then _ else _).
    destruct (rename_items l4) as [r|] eqn:Er; cbn; intros E; [|discriminate]. inversion E; subst.
    exists l1, l1, l3, l4. constructor; auto. rewrite El. reflexivity.
  - destruct (instantiate_monomorphs fuel l1) as [l2| |] eqn:Em; try discriminate.
    set (l3 := remove_excluded l2). set (l4 := if Language_eqb _ _ then _ else _).
    destruct (rename_items l4) as [r|] eqn:Er; cbn; intros E; [|discriminate]. inversion E; subst.
    exists l1, l2, l3, l4. constructor; auto. rewrite El. exact Em.
Qed.

Lemma simplify_config : forall l, l_config (simplify_library l) = l_config l. Proof. reflexivity. Qed.
Lemma mono_rest : forall (H : Heck) fuel l l', instantiate_monomorphs fuel l = Done l' ->
  l_config l' = l_config l /\ l_constants l' = l_constants l /\ l_globals l' = l_globals l
  /\ exists m, l_functions l' = map (map_f_types (Type_mangle_paths m)) (l_functions l).
Proof.
  intros H fuel l l'. unfold instantiate_monomorphs. destruct (foldM _ _ _) as [m| |]; try discriminate.
  intros E. inversion E; subst; cbn. eauto.
Qed.
Lemma resolve_rest : forall l, l_config (resolve_library l) = l_config l /\ l_constants (resolve_library l) = l_constants l.
Proof. intros l. unfold resolve_library. destruct (negb _); auto. Qed.
Lemma rename_rest : forall (H : Heck) l l', rename_items l = Some l' ->
  l_config l' = l_config l
  /\ l_constants l' = rebuild (for_all_items_mut (Constant_rename_for_config (export (l_config l))) (l_constants l))
  /\ l_globals l' = rebuild (for_all_items_mut (Static_rename_for_config (l_config l)) (l_globals l))
  /\ map_opt (Function_rename_for_config (l_config l)) (l_functions l) = Some (l_functions l')
  /\ (exists st, for_all_items_mut_opt (Struct_rename_for_config (l_config l)) (l_structs l) = Some st /\ l_structs l' = rebuild st)
  /\ (exists un, for_all_items_mut_opt (Union_rename_for_config (l_config l)) (l_unions l) = Some un /\ l_unions l' = rebuild un)
  /\ (exists en, for_all_items_mut_opt (Enum_rename_for_config (l_config l)) (l_enums l) = Some en /\ l_enums l' = rebuild en)
  /\ l_opaque_items l' = rebuild (for_all_items_mut (OpaqueItem_rename_for_config (l_config l)) (l_opaque_items l))
  /\ l_typedefs l' = rebuild (for_all_items_mut (Typedef_rename_for_config (l_config l)) (l_typedefs l)).
Proof.
  intros H l l'. unfold rename_items.
  destruct (for_all_items_mut_opt (Struct_rename_for_config _) _) as [st|]; [|discriminate].
  destruct (for_all_items_mut_opt (Union_rename_for_config _) _) as [un|]; [|discriminate].
  destruct (for_all_items_mut_opt (Enum_rename_for_config _) _) as [en|]; [|discriminate].
  destruct (map_opt _ _) as [fs|] eqn:Ef; [|discriminate].
  intros E. inversion E; subst; cbn. repeat split; eauto.
Qed.

Lemma stages_config : forall (H : Heck) fuel visit l l1 l2 l3 l4 l', stages fuel visit l l1 l2 l3 l4 l' ->
  l_config l1 = l_config l /\ l_config l2 = l_config l /\ l_config l3 = l_config l /\ l_config l4 = l_config l /\ l_config l' = l_config l.
Proof.
  intros H fuel visit l l1 l2 l3 l4 l' [S1 S2 S3 S4 S5].
  assert (C1 : l_config l1 = l_config l) by (subst l1; apply (transfer_rest visit l)).
  assert (C2 : l_config l2 = l_config l).
  { destruct (Language_eqb _ Cxx); [congruence|]. apply mono_rest in S2 as [-> _]. assumption. }
  assert (C3 : l_config l3 = l_config l) by (subst l3; exact C2).
  assert (C4 : l_config l4 = l_config l).
  { subst l4. destruct (Language_eqb _ M_Config.C); [|assumption]. rewrite (proj1 (resolve_rest l3)). assumption. }
  apply rename_rest in S5 as [C5 _]. repeat split; congruence.
Qed.

(** *** Renaming keeps what a table is organised by *)
Lemma same_key_refl : forall T (I : Item T) x, same_key x x.
Proof. intros. split; reflexivity. Qed.
Lemma same_key_trans : forall T (I : Item T) x y z, same_key x y -> same_key y z -> same_key x z.
Proof. intros T I x y z [A B] [C D]. split; congruence. Qed.

Lemma struct_rename_shape : forall (H : Heck) c s s', Struct_rename_for_config c s = Some s' ->
  s_path s' = s_path s /\ s_generic_params s' = s_generic_params s /\ s_has_tag_field s' = s_has_tag_field s
  /\ s_is_enum_variant_body s' = s_is_enum_variant_body s /\ s_alignment s' = s_alignment s
  /\ s_is_transparent s' = s_is_transparent s /\ s_cfg s' = s_cfg s /\ s_annotations s' = s_annotations s
  /\ s_documentation s' = s_documentation s.
Proof.
  intros H c s s'. unfold Struct_rename_for_config. destruct (Struct_rename_fields _ _ _) as [fs|]; [|discriminate].
  intros E. inversion E; subst. auto 12.
Qed.
Lemma struct_rename_key : forall (H : Heck) c s s', Struct_rename_for_config c s = Some s' -> same_key s s'.
Proof. intros H c s s' E. apply struct_rename_shape in E. split; cbn; tauto. Qed.
Lemma union_rename_shape : forall (H : Heck) c u u', Union_rename_for_config c u = Some u' ->
  exists fs, u' = set_u_export_name (export_rename (export c) (u_export_name u)) (set_u_fields fs u).
Proof.
  intros H c u u'. unfold Union_rename_for_config. destruct (rule_or _ _ _) as [r|]; [|discriminate].
  intros E. inversion E; subst. eauto.
Qed.
Lemma union_rename_key : forall (H : Heck) c u u', Union_rename_for_config c u = Some u' -> same_key u u'.
Proof. intros H c u u' E. apply union_rename_shape in E as (fs & ->). split; reflexivity. Qed.
Lemma enum_rename_shape : forall (H : Heck) c e e', Enum_rename_for_config c e = Some e' ->
  e_path e' = e_path e /\ e_export_name e' = export_rename (export c) (e_export_name e)
  /\ e_generic_params e' = e_generic_params e /\ e_repr e' = e_repr e
  /\ e_cfg e' = e_cfg e /\ e_annotations e' = e_annotations e /\ e_documentation e' = e_documentation e
  /\ is_some (e_tag e') = is_some (e_tag e) /\ length (e_variants e') = length (e_variants e).
Proof.
  intros H c e e'. unfold Enum_rename_for_config. destruct (Enum_rename_tag c e) as [e1|] eqn:E1; [|discriminate].
  destruct (map_opt (EnumVariant_rename c) (e_variants e1)) as [vs|] eqn:Ev; [|discriminate].
  destruct (rule_or _ _ _) as [r|]; [|discriminate]. intros E. inversion E; subst; clear E.
  apply map_opt_Forall2, Forall2_length in Ev.
  assert (Hl : length (match not_none r with
      | Some r0 => map (EnumVariant_rule r0 (e_export_name e1)) (if match an_bool (e_annotations e) "prefix-with-name" with Some b => b | None => en_prefix_with_name (enumeration c) end then map (EnumVariant_prefix c (e_export_name e1)) vs else vs)
      | None => if match an_bool (e_annotations e) "prefix-with-name" with Some b => b | None => en_prefix_with_name (enumeration c) end then map (EnumVariant_prefix c (e_export_name e1)) vs else vs end) = length (e_variants e1)).
  { destruct (not_none r), (match an_bool _ _ with Some b => b | None => _ end); rewrite ?map_length; auto. }
  unfold Enum_rename_tag in E1. destruct (e_tag e) as [t|] eqn:Et.
  - destruct (Language_eqb (language c) Cxx).
    + inversion E1; subst. cbn in *. auto 12.
    + destruct (ReprStyle_eqb _ _).
      * destruct (map_opt _ (e_variants e)) as [vs1|] eqn:E2; [|discriminate]. apply map_opt_Forall2, Forall2_length in E2.
        inversion E1; subst. cbn in *. rewrite Hl. auto 12.
      * inversion E1; subst. cbn in *. auto 12.
  - inversion E1; subst. cbn in *. auto 12.
Qed.
Lemma enum_rename_key : forall (H : Heck) c e e', Enum_rename_for_config c e = Some e' -> same_key e e'.
Proof. intros H c e e' E. apply enum_rename_shape in E. split; cbn; tauto. Qed.

Lemma function_rename_same : forall (H : Heck) c f g, Function_rename_for_config c f = Some g -> same_function f g.
Proof.
  intros H c f g. unfold Function_rename_for_config. destruct (rule_or _ _ _) as [r|]; [|discriminate].
  set (a2 := map _ (match not_none r with Some _ => _ | None => _ end)).
  assert (L2 : length a2 = length (f_args f)) by (unfold a2; destruct (not_none r); rewrite !map_length; reflexivity).
  destruct (an_list _ _) as [tuples|].
  - destruct (ptrs_as_arrays tuples); [|discriminate]. intros E. inversion E; subst. constructor; cbn; auto.
    rewrite map_length. assumption.
  - intros E. inversion E; subst. constructor; cbn; auto.
Qed.
Lemma same_function_refl : forall f, same_function f f. Proof. intros f. constructor; reflexivity. Qed.
Lemma same_function_trans : forall f g h, same_function f g -> same_function g h -> same_function f h.
Proof. intros f g h [] []. constructor; congruence. Qed.
Lemma same_function_map : forall t f, same_function f (map_f_types t f).
Proof. intros t f. constructor; cbn; auto. apply map_length. Qed.

(** *** Sorting, filtering and mapping *)
Lemma Sorted_filter : forall A (R : A -> A -> Prop) f l, StronglySorted R l -> StronglySorted R (filter f l).
Proof.
  intros A R f l. induction 1 as [|x r Hr IH Hx]; cbn; [constructor|]. destruct (f x); [|assumption].
  constructor; [assumption|]. rewrite Forall_forall in *. intros y Hy. apply filter_In in Hy. apply Hx. tauto.
Qed.
Lemma Permutation_filter : forall A (f : A -> bool) l l', Permutation l l' -> Permutation (filter f l) (filter f l').
Proof.
  intros A f l l'. induction 1; cbn; [constructor| | |eapply perm_trans; eassumption].
  - destruct (f x); [constructor|]; assumption.
  - destruct (f x), (f y); try constructor; apply Permutation_refl.
Qed.
Lemma stable_filter : forall A (le : A -> A -> bool) f l l', stable_sort_of le l l' -> stable_sort_of le (filter f l) (filter f l').
Proof.
  intros A le f l l' [Hp Hs Ht]. constructor; [apply Permutation_filter|apply Sorted_filter|]; try assumption.
  intros x. rewrite !filter_filter.
  transitivity (filter f (filter (equivalent le x) l')).
  { rewrite filter_filter. apply filter_ext. intros y. apply andb_comm. }
  rewrite Ht, filter_filter. apply filter_ext. intros y. apply andb_comm.
Qed.
Lemma sort_by_path_spec : forall A (path : A -> string) key l, sorted_by key path l (sort_by_path path key l).
Proof. intros A path [] l; cbn; [apply sort_stable; apply path_preorder|reflexivity]. Qed.

Lemma sort_insert_Forall2 : forall A B (R : A -> B -> Prop) (p : A -> string) (q : B -> string) x y l l',
  (forall a b, R a b -> q b = p a) -> R x y -> Forall2 R l l' ->
  Forall2 R (sort_insert (fun a b => str_leb (p a) (p b)) x l) (sort_insert (fun a b => str_leb (q a) (q b)) y l').
Proof.
  intros A B R p q x y l l' Hk Hx. induction 1 as [|a b r s Hab Hr IH]; cbn; [constructor; auto|].
  rewrite (Hk _ _ Hx), (Hk _ _ Hab). destruct (str_leb (p x) (p a)); constructor; auto.
Qed.
Lemma sort_by_path_Forall2 : forall A B (R : A -> B -> Prop) (p : A -> string) (q : B -> string) key l l',
  (forall a b, R a b -> q b = p a) -> Forall2 R l l' -> Forall2 R (sort_by_path p key l) (sort_by_path q key l').
Proof.
  intros A B R p q [] l l' Hk; [|auto]. cbn. induction 1; cbn; [constructor|]. apply sort_insert_Forall2; auto.
Qed.
Lemma filter_Forall2 : forall A B (R : A -> B -> Prop) f g l l',
  (forall a b, R a b -> g b = f a) -> Forall2 R l l' -> Forall2 R (filter f l) (filter g l').
Proof.
  intros A B R f g l l' Hk. induction 1; cbn; [constructor|]. rewrite (Hk _ _ H). destruct (f x); auto.
Qed.
Lemma sorted_by_filter : forall A (p : A -> string) key f l l', sorted_by key p l l' -> sorted_by key p (filter f l) (filter f l').
Proof. intros A p [] f l l'; cbn; [apply stable_filter|congruence]. Qed.

(** ** C37 and C12 for functions *)
Lemma functions_spec : forall (H : Heck) fuel visit l l', prepare fuel visit l = Done l' ->
  exists fs, sorted_by (sort_key (fn_sort_by (function (l_config l))) (l_config l)) f_path
               (filter (fun f => not_excluded (l_config l) (f_path f)) (l_functions l)) fs
    /\ Forall2 same_function fs (l_functions l').
Proof.
  intros H fuel visit l l' Hp. apply prepare_stages in Hp as (l1 & l2 & l3 & l4 & S).
  pose proof (stages_config _ _ _ _ _ _ _ _ _ S) as (C1 & C2 & C3 & C4 & _). destruct S as [S1 S2 S3 S4 S5].
  set (key := sort_key _ _). exists (filter (fun f => not_excluded (l_config l) (f_path f)) (sort_by_path f_path key (l_functions l))).
  split; [apply sorted_by_filter, sort_by_path_spec|].
  destruct (transfer_rest visit l) as (T1 & _ & _ & T4 & _). cbn zeta in *.
  assert (F1 : Forall2 same_function (sort_by_path f_path key (l_functions l)) (l_functions l1)).
  { subst l1. cbn [sort_functions l_functions l_config simplify_library]. rewrite T1, T4. apply sort_by_path_Forall2.
    - intros f g [E _]. exact E.
    - apply Forall2_map_same. intros f. apply same_function_map. }
  assert (F2 : Forall2 same_function (sort_by_path f_path key (l_functions l)) (l_functions l2)).
  { destruct (Language_eqb _ Cxx); [subst l2; assumption|]. apply mono_rest in S2 as (_ & _ & _ & m & ->).
    eapply Forall2_comp; [exact same_function_trans|exact F1|]. apply Forall2_map_same. intros f. apply same_function_map. }
  assert (F3 : Forall2 same_function (filter (fun f => not_excluded (l_config l) (f_path f)) (sort_by_path f_path key (l_functions l))) (l_functions l3)).
  { subst l3. cbn [remove_excluded l_functions]. rewrite C2. apply filter_Forall2; [|exact F2].
    intros f g [E _]. unfold not_excluded. rewrite E. reflexivity. }
  assert (F4 : Forall2 same_function (filter (fun f => not_excluded (l_config l) (f_path f)) (sort_by_path f_path key (l_functions l))) (l_functions l4)).
  { subst l4. destruct (Language_eqb _ M_Config.C); [|assumption]. unfold resolve_library. destruct (negb _); [assumption|].
    cbn [l_functions]. eapply Forall2_comp; [exact same_function_trans|exact F3|].
    apply Forall2_map_same. intros f. apply same_function_map. }
  apply rename_rest in S5 as (_ & _ & _ & S5 & _). apply map_opt_Forall2 in S5.
  eapply Forall2_comp; [exact same_function_trans|exact F4|]. eapply Forall2_impl; [|exact S5].
  intros f g. apply function_rename_same.
Qed.

(** ** C37 and C12 for constants and globals *)
Lemma wf_map : forall T (I : Item T) f (m : ItemMap T), (forall x, same_key x (f x)) -> wf m -> wf (for_all_items_mut f m).
Proof. intros T I f m Hf. apply wf_trel. eapply trel_impl; [|apply trel_map]. intros x y ->. apply Hf. Qed.

Lemma constants_spec : forall (H : Heck) fuel visit l l', prepare fuel visit l = Done l' -> reachable (l_constants l) ->
  exists cs, sorted_by (sort_key (co_sort_by (constant (l_config l))) (l_config l)) c_path
               (filter (fun c => not_excluded (l_config l) (c_path c)) (to_vec (l_constants l))) cs
    /\ Forall2 same_constant cs (sort_by_path c_path (sort_key (co_sort_by (constant (l_config l))) (l_config l)) (to_vec (l_constants l'))).
Proof.
  intros H fuel visit l l' Hp Hr. apply reachable_wf in Hr. apply prepare_stages in Hp as (l1 & l2 & l3 & l4 & S).
  pose proof (stages_config _ _ _ _ _ _ _ _ _ S) as (C1 & C2 & C3 & C4 & _). destruct S as [S1 S2 S3 S4 S5].
  set (key := sort_key _ _). destruct (transfer_rest visit l) as (T1 & T2 & _).
  assert (E2 : l_constants l2 = l_constants l).
  { transitivity (l_constants l1); [|subst l1; exact T2].
    destruct (Language_eqb _ Cxx); [congruence|]. apply mono_rest in S2 as (_ & -> & _). reflexivity. }
  assert (E4 : l_constants l4 = map_filter (excluded (l_config l)) (l_constants l)).
  { transitivity (l_constants l3).
    - subst l4. destruct (Language_eqb _ M_Config.C); [|reflexivity]. apply resolve_rest.
    - subst l3. cbn. rewrite C2, E2. reflexivity. }
  apply rename_rest in S5 as (_ & E5 & _). rewrite E4 in E5. rewrite wf_rebuild in E5 by (apply wf_map; [split; reflexivity|apply wf_filter; assumption]).
  eexists. split; [apply sort_by_path_spec|]. rewrite E5, to_vec_map, filter_to_vec.
  apply sort_by_path_Forall2; [intros a b [E _]; exact E|]. unfold excluded, not_excluded. cbn [i_path Item_Constant].
  apply Forall2_map_same. intros x. constructor; reflexivity.
Qed.

Lemma same_static_trans : forall f g h, same_static f g -> same_static g h -> same_static f h.
Proof. intros f g h [] []. constructor; congruence. Qed.

Lemma globals_spec : forall (H : Heck) fuel visit l l', prepare fuel visit l = Done l' -> reachable (l_globals l) ->
  exists gs, sorted_by (sort_key (co_sort_by (constant (l_config l))) (l_config l)) g_path
               (filter (fun g => not_excluded (l_config l) (g_path g)) (to_vec (l_globals l))) gs
    /\ Forall2 same_static gs (sort_by_path g_path (sort_key (co_sort_by (constant (l_config l))) (l_config l)) (to_vec (l_globals l'))).
Proof.
  intros H fuel visit l l' Hp Hr. apply reachable_wf in Hr. apply prepare_stages in Hp as (l1 & l2 & l3 & l4 & S).
  pose proof (stages_config _ _ _ _ _ _ _ _ _ S) as (C1 & C2 & C3 & C4 & _). destruct S as [S1 S2 S3 S4 S5].
  set (key := sort_key _ _). destruct (transfer_rest visit l) as (T1 & _ & T3 & _). cbn zeta in *.
  assert (E2 : l_globals l2 = for_all_items_mut (Static_simplify (language (l_config l))) (l_globals l)).
  { transitivity (l_globals l1); [|subst l1; cbn; rewrite T1, T3; reflexivity].
    destruct (Language_eqb _ Cxx); [congruence|]. apply mono_rest in S2 as (_ & _ & -> & _). reflexivity. }
  assert (W2 : wf (l_globals l2)) by (rewrite E2; apply wf_map; [split; reflexivity|assumption]).
  assert (W3 : wf (l_globals l3)) by (subst l3; apply wf_filter; assumption).
  assert (V3 : Forall2 same_static (filter (fun g => not_excluded (l_config l) (g_path g)) (to_vec (l_globals l))) (to_vec (l_globals l3))).
  { subst l3. cbn [remove_excluded l_globals]. rewrite C2, filter_to_vec, E2, to_vec_map.
    apply filter_Forall2; [intros a b [E _]; unfold excluded, not_excluded; cbn; rewrite E; reflexivity|].
    apply Forall2_map_same. intros x. constructor; reflexivity. }
  assert (V4 : wf (l_globals l4) /\ Forall2 same_static (filter (fun g => not_excluded (l_config l) (g_path g)) (to_vec (l_globals l))) (to_vec (l_globals l4))).
  { subst l4. destruct (Language_eqb _ M_Config.C); [|auto]. unfold resolve_library. destruct (negb _); [auto|]. cbn [l_globals].
    split; [apply wf_map; [split; reflexivity|assumption]|]. rewrite to_vec_map.
    eapply Forall2_comp; [exact same_static_trans|exact V3|].
    apply Forall2_map_same. intros x. constructor; reflexivity. }
  destruct V4 as [W4 V4]. apply rename_rest in S5 as (_ & _ & E5 & _).
  rewrite wf_rebuild in E5 by (apply wf_map; [split; reflexivity|assumption]).
  eexists. split; [apply sort_by_path_spec|]. rewrite E5, to_vec_map.
  apply sort_by_path_Forall2; [intros a b [E _]; exact E|].
  eapply Forall2_comp; [exact same_static_trans|exact V4|].
  apply Forall2_map_same. intros x. constructor; reflexivity.
Qed.

(** ** Where the items of the bindings come from *)
Lemma Forall2_In_r : forall A B (R : A -> B -> Prop) l l' y, Forall2 R l l' -> In y l' -> exists x, In x l /\ R x y.
Proof.
  intros A B R l l' y. induction 1 as [|a b r s Hab Hr IH]; [intros []|].
  intros [<-|Hy]; [exists a; split; [now left|assumption]|]. destruct (IH Hy) as (x & Hx & Hxy). exists x. split; [now right|assumption].
Qed.
Lemma trel_In : forall T (R : T -> T -> Prop) m m' y, trel R m m' -> In y (to_vec m') -> exists x, In x (to_vec m) /\ R x y.
Proof. intros T R m m' y Hm. apply Forall2_In_r. apply trel_to_vec. assumption. Qed.

Lemma resolve_trel : forall l,
  trel same_key (l_enums l) (l_enums (resolve_library l)) /\ trel same_key (l_structs l) (l_structs (resolve_library l))
  /\ trel same_key (l_unions l) (l_unions (resolve_library l)) /\ trel same_key (l_opaque_items l) (l_opaque_items (resolve_library l))
  /\ trel same_key (l_typedefs l) (l_typedefs (resolve_library l)).
Proof.
  intros l. unfold resolve_library. destruct (negb _).
  - repeat split; apply trel_refl; apply same_key_refl.
  - cbn [l_enums l_structs l_unions l_opaque_items l_typedefs].
    repeat split; try (apply trel_refl; apply same_key_refl); (eapply trel_impl; [|apply trel_map]); intros x y ->; split; reflexivity.
Qed.

Lemma rename_defined : forall (H : Heck) l l' i, rename_items l = Some l' -> In i (defined l') ->
  exists j, In j (defined l) /\ ic_path j = ic_path i /\ kind_of j = kind_of i.
Proof.
  intros H l l' i Hr Hi. apply rename_rest in Hr as (_ & _ & _ & _ & (st & Es & Rs) & (un & Eu & Ru) & (en & Ee & Re) & Ro & Rt).
  unfold defined in *. rewrite !in_app_iff, !in_map_iff in Hi.
  destruct Hi as [(x & <- & Hx)|[(x & <- & Hx)|[(x & <- & Hx)|[(x & <- & Hx)|(x & <- & Hx)]]]].
  - rewrite Re in Hx. apply rebuild_invents_nothing in Hx. destruct (trel_In _ _ _ _ _ (trel_map_opt _ _ _ Ee) Hx) as (y & Hy & E).
    apply enum_rename_key in E as [E _]. exists (ICEnum y). rewrite !in_app_iff, !in_map_iff. (split; [|split; [symmetry; exact E|reflexivity]]); eauto 9.
  - rewrite Rs in Hx. apply rebuild_invents_nothing in Hx. destruct (trel_In _ _ _ _ _ (trel_map_opt _ _ _ Es) Hx) as (y & Hy & E).
    apply struct_rename_key in E as [E _]. exists (ICStruct y). rewrite !in_app_iff, !in_map_iff. (split; [|split; [symmetry; exact E|reflexivity]]); eauto 9.
  - rewrite Ru in Hx. apply rebuild_invents_nothing in Hx. destruct (trel_In _ _ _ _ _ (trel_map_opt _ _ _ Eu) Hx) as (y & Hy & E).
    apply union_rename_key in E as [E _]. exists (ICUnion y). rewrite !in_app_iff, !in_map_iff. (split; [|split; [symmetry; exact E|reflexivity]]); eauto 9.
  - rewrite Ro in Hx. apply rebuild_invents_nothing in Hx. rewrite to_vec_map in Hx. apply in_map_iff in Hx as (y & <- & Hy).
    exists (ICOpaque y). rewrite !in_app_iff, !in_map_iff. repeat split; eauto 8.
  - rewrite Rt in Hx. apply rebuild_invents_nothing in Hx. rewrite to_vec_map in Hx. apply in_map_iff in Hx as (y & <- & Hy).
    exists (ICTypedef y). rewrite !in_app_iff, !in_map_iff. repeat split; eauto 9.
Qed.

Lemma resolve_defined : forall l i, In i (defined (resolve_library l)) ->
  exists j, In j (defined l) /\ ic_path j = ic_path i /\ kind_of j = kind_of i.
Proof.
  intros l i Hi. destruct (resolve_trel l) as (R1 & R2 & R3 & R4 & R5).
  unfold defined in *. rewrite !in_app_iff, !in_map_iff in Hi.
  destruct Hi as [(x & <- & Hx)|[(x & <- & Hx)|[(x & <- & Hx)|[(x & <- & Hx)|(x & <- & Hx)]]]].
  - destruct (trel_In _ _ _ _ _ R1 Hx) as (y & Hy & E & _). exists (ICEnum y). rewrite !in_app_iff, !in_map_iff. repeat split; eauto.
  - destruct (trel_In _ _ _ _ _ R2 Hx) as (y & Hy & E & _). exists (ICStruct y). rewrite !in_app_iff, !in_map_iff. repeat split; eauto.
  - destruct (trel_In _ _ _ _ _ R3 Hx) as (y & Hy & E & _). exists (ICUnion y). rewrite !in_app_iff, !in_map_iff. repeat split; eauto 7.
  - destruct (trel_In _ _ _ _ _ R4 Hx) as (y & Hy & E & _). exists (ICOpaque y). rewrite !in_app_iff, !in_map_iff. repeat split; eauto 8.
  - destruct (trel_In _ _ _ _ _ R5 Hx) as (y & Hy & E & _). exists (ICTypedef y). rewrite !in_app_iff, !in_map_iff. repeat split; eauto 9.
Qed.

Lemma excluded_defined : forall l i, In i (defined (remove_excluded l)) <-> In i (defined l) /\ not_excluded (l_config l) (ic_path i) = true.
Proof.
  intros l i. unfold defined. rewrite !in_app_iff, !in_map_iff. cbn [remove_excluded l_enums l_structs l_unions l_opaque_items l_typedefs].
  unfold not_excluded. split.
  - intros [(x & <- & Hx)|[(x & <- & Hx)|[(x & <- & Hx)|[(x & <- & Hx)|(x & <- & Hx)]]]];
      apply filter_In_vec in Hx as [Hx E]; unfold excluded in E; cbn in *; rewrite E; split; eauto 8.
  - intros [[(x & <- & Hx)|[(x & <- & Hx)|[(x & <- & Hx)|[(x & <- & Hx)|(x & <- & Hx)]]]] E];
      apply negb_true_iff in E; cbn in E;
      [left|right;left|right;right;left|right;right;right;left|right;right;right;right]; exists x; (split; [reflexivity|]);
      apply filter_In_vec; auto.
Qed.

Lemma generate_inv : forall (H : Heck) fuel visit l b, generate fuel visit l = Done b ->
  exists l', prepare fuel visit l = Done l' /\ finish l' = Done b /\ l_config l' = l_config l.
Proof.
  intros H fuel visit l b. unfold generate. destruct (prepare fuel visit l) as [l'| |] eqn:E; try discriminate.
  intros Hf. exists l'. repeat split; auto. apply prepare_stages in E as (l1 & l2 & l3 & l4 & S). apply stages_config in S. tauto.
Qed.

Lemma finish_config : forall l b, finish l = Done b -> b_config b = l_config l
  /\ b_functions b = (if should_generate (export (l_config l)) Functions then l_functions l else [])
  /\ b_constants b = (if should_generate (export (l_config l)) Constants
                      then sort_by_path c_path (sort_key (co_sort_by (constant (l_config l))) (l_config l)) (to_vec (l_constants l)) else [])
  /\ b_globals b = (if should_generate (export (l_config l)) Globals
                    then sort_by_path g_path (sort_key (co_sort_by (constant (l_config l))) (l_config l)) (to_vec (l_globals l)) else [])
  /\ b_struct_map b = l_structs l /\ b_enum_map b = l_enums l /\ b_typedef_map b = l_typedefs l
  /\ b_source_files b = l_source_files l.
Proof.
  intros l b. unfold finish. destruct (library_dependencies l); try discriminate. intros E. inversion E; subst; cbn. auto 12.
Qed.

(** ** C12 *)
Lemma items_not_excluded : forall (H : Heck) fuel visit l b i, generate fuel visit l = Done b -> In i (b_items b) ->
  not_excluded (l_config l) (ic_path i) = true.
Proof.
  intros H fuel visit l b i Hg Hi. apply generate_inv in Hg as (l' & Hp & Hf & _).
  apply (finish_defined _ _ _ Hf) in Hi as [Hi _]. apply prepare_stages in Hp as (l1 & l2 & l3 & l4 & S).
  pose proof (stages_config _ _ _ _ _ _ _ _ _ S) as (C1 & C2 & C3 & C4 & _). destruct S as [S1 S2 S3 S4 S5].
  apply (rename_defined _ _ _ _ S5) in Hi as (j & Hj & E & _). rewrite <- E.
  assert (Hk : exists k, In k (defined l3) /\ ic_path k = ic_path j).
  { subst l4. destruct (Language_eqb _ M_Config.C); [|eauto]. apply resolve_defined in Hj as (k & Hk & Ek & _). eauto. }
  destruct Hk as (k & Hk & <-). subst l3. apply excluded_defined in Hk as [_ Hk]. rewrite C2 in Hk. exact Hk.
Qed.

Lemma sorted_by_perm : forall A key (p : A -> string) l l', sorted_by key p l l' -> Permutation l l'.
Proof. intros A [] p l l'; cbn; [intros [Hp _ _]; exact Hp|intros ->; apply Permutation_refl]. Qed.

Lemma excluded_iff : forall c n, not_excluded c n = false <-> is_excluded c n.
Proof. intros c n. unfold not_excluded, is_excluded. rewrite negb_false_iff. apply mem_str_In. Qed.

Lemma functions_of : forall (H : Heck) fuel visit l b, generate fuel visit l = Done b -> wanted (l_config l) Functions ->
  exists fs, sorted_by (sort_key (fn_sort_by (function (l_config l))) (l_config l)) f_path
               (filter (fun f => not_excluded (l_config l) (f_path f)) (l_functions l)) fs
    /\ Forall2 same_function fs (b_functions b).
Proof.
  intros H fuel visit l b Hg Hw. apply generate_inv in Hg as (l' & Hp & Hf & C). apply finish_config in Hf as (_ & -> & _).
  rewrite C. apply should_generate_wanted in Hw. rewrite Hw. eapply functions_spec; eassumption.
Qed.
Lemma constants_of : forall (H : Heck) fuel visit l b, generate fuel visit l = Done b -> wanted (l_config l) Constants -> reachable (l_constants l) ->
  exists cs, sorted_by (sort_key (co_sort_by (constant (l_config l))) (l_config l)) c_path
               (filter (fun c => not_excluded (l_config l) (c_path c)) (to_vec (l_constants l))) cs
    /\ Forall2 same_constant cs (b_constants b).
Proof.
  intros H fuel visit l b Hg Hw Hr. apply generate_inv in Hg as (l' & Hp & Hf & C). apply finish_config in Hf as (_ & _ & -> & _).
  rewrite C. apply should_generate_wanted in Hw. rewrite Hw. eapply constants_spec; eassumption.
Qed.
Lemma globals_of : forall (H : Heck) fuel visit l b, generate fuel visit l = Done b -> wanted (l_config l) Globals -> reachable (l_globals l) ->
  exists gs, sorted_by (sort_key (co_sort_by (constant (l_config l))) (l_config l)) g_path
               (filter (fun g => not_excluded (l_config l) (g_path g)) (to_vec (l_globals l))) gs
    /\ Forall2 same_static gs (b_globals b).
Proof.
  intros H fuel visit l b Hg Hw Hr. apply generate_inv in Hg as (l' & Hp & Hf & C). apply finish_config in Hf as (_ & _ & _ & -> & _).
  rewrite C. apply should_generate_wanted in Hw. rewrite Hw. eapply globals_spec; eassumption.
Qed.

(** ** C11 *)
Lemma only_wanted : forall (H : Heck) fuel visit l b, generate fuel visit l = Done b ->
  (forall i, In i (b_items b) -> wanted (l_config l) (kind_of i))
  /\ (b_functions b <> [] -> wanted (l_config l) Functions)
  /\ (b_constants b <> [] -> wanted (l_config l) Constants)
  /\ (b_globals b <> [] -> wanted (l_config l) Globals).
Proof.
  intros H fuel visit l b Hg. apply generate_inv in Hg as (l' & Hp & Hf & C). rewrite <- C. split.
  - intros i Hi. apply (finish_defined _ _ _ Hf Hi).
  - apply finish_config in Hf as (_ & -> & -> & -> & _). repeat split; intros Hne; apply should_generate_wanted;
      destruct (should_generate _ _); congruence.
Qed.

(** A wanted kind: its definitions are found, provided no other table has the name. *)
Lemma find_kind_found : forall T (l : Library) k (wrap : T -> ItemContainer) m p o x, wanted (l_config l) k ->
  get_items p m = Some x -> find_kind l k wrap m p o = Some (map wrap x).
Proof. intros T l k wrap m p o x Hw E. unfold find_kind. apply should_generate_wanted in Hw. rewrite Hw, E. reflexivity. Qed.
Lemma find_kind_skip : forall T (l : Library) k (wrap : T -> ItemContainer) m p o,
  get_items p m = None -> find_kind l k wrap m p o = o.
Proof. intros T l k wrap m p o E. unfold find_kind. rewrite E. destruct (should_generate _ _); reflexivity. Qed.

Lemma get_items_self : forall T (I : Item T) (m : ItemMap T) x, wf m -> In x (to_vec m) ->
  exists xs, get_items (i_path x) m = Some xs /\ In x xs.
Proof.
  intros T I m x W Hx. rewrite (wf_get_items _ _ W).
  assert (Hi : In x (at_path (i_path x) (to_vec m))) by (apply In_at_path; auto).
  destruct (at_path (i_path x) (to_vec m)) as [|a r]; [destruct Hi|]. eauto.
Qed.
Lemma get_items_other : forall T (I : Item T) (m : ItemMap T) p, wf m -> (forall x, In x (to_vec m) -> i_path x <> p) -> get_items p m = None.
Proof.
  intros T I m p W Hx. rewrite (wf_get_items _ _ W). replace (at_path p (to_vec m)) with (@nil T); [reflexivity|].
  symmetry. apply at_path_nil. assumption.
Qed.

Lemma wanted_found : forall (l : Library) i,
  reachable (l_enums l) -> reachable (l_structs l) -> reachable (l_unions l) -> reachable (l_opaque_items l) -> reachable (l_typedefs l) ->
  In i (defined l) -> wanted (l_config l) (kind_of i) ->
  (forall j, In j (defined l) -> ic_path j = ic_path i -> kind_of j = kind_of i) ->
  In i (items_of l (ic_path i)).
Proof.
  intros l i W1 W2 W3 W4 W5 Hi Hw Hu. apply reachable_wf in W1, W2, W3, W4, W5. unfold items_of, lib_get_items.
  assert (N1 : kind_of i <> Enums -> get_items (ic_path i) (l_enums l) = None).
  { intros Hk. eapply get_items_other; [eassumption|]. intros x Hx E. apply Hk. symmetry. apply (Hu (ICEnum x)); [|exact E].
    unfold defined. rewrite !in_app_iff, !in_map_iff. eauto 9. }
  assert (N2 : kind_of i <> Structs -> get_items (ic_path i) (l_structs l) = None).
  { intros Hk. eapply get_items_other; [eassumption|]. intros x Hx E. apply Hk. symmetry. apply (Hu (ICStruct x)); [|exact E].
    unfold defined. rewrite !in_app_iff, !in_map_iff. eauto 9. }
  assert (N3 : kind_of i <> Unions -> get_items (ic_path i) (l_unions l) = None).
  { intros Hk. eapply get_items_other; [eassumption|]. intros x Hx E. apply Hk. symmetry. apply (Hu (ICUnion x)); [|exact E].
    unfold defined. rewrite !in_app_iff, !in_map_iff. eauto 9. }
  assert (N4 : kind_of i <> OpaqueItems -> get_items (ic_path i) (l_opaque_items l) = None).
  { intros Hk. eapply get_items_other; [eassumption|]. intros x Hx E. apply Hk. symmetry. apply (Hu (ICOpaque x)); [|exact E].
    unfold defined. rewrite !in_app_iff, !in_map_iff. eauto 9. }
  unfold defined in Hi. rewrite !in_app_iff, !in_map_iff in Hi.
  destruct Hi as [(x & <- & Hx)|[(x & <- & Hx)|[(x & <- & Hx)|[(x & <- & Hx)|(x & <- & Hx)]]]]; cbn [kind_of] in *.
  - destruct (get_items_self _ _ _ _ W1 Hx) as (xs & E & Hi). erewrite find_kind_found by (exact Hw || exact E). now apply in_map.
  - rewrite find_kind_skip by (apply N1; discriminate).
    destruct (get_items_self _ _ _ _ W2 Hx) as (xs & E & Hi). erewrite find_kind_found by (exact Hw || exact E). now apply in_map.
  - rewrite find_kind_skip by (apply N1; discriminate). rewrite find_kind_skip by (apply N2; discriminate).
    destruct (get_items_self _ _ _ _ W3 Hx) as (xs & E & Hi). erewrite find_kind_found by (exact Hw || exact E). now apply in_map.
  - rewrite find_kind_skip by (apply N1; discriminate). rewrite find_kind_skip by (apply N2; discriminate).
    rewrite find_kind_skip by (apply N3; discriminate).
    destruct (get_items_self _ _ _ _ W4 Hx) as (xs & E & Hi). erewrite find_kind_found by (exact Hw || exact E). now apply in_map.
  - rewrite find_kind_skip by (apply N1; discriminate). rewrite find_kind_skip by (apply N2; discriminate).
    rewrite find_kind_skip by (apply N3; discriminate). rewrite find_kind_skip by (apply N4; discriminate).
    destruct (get_items_self _ _ _ _ W5 Hx) as (xs & E & Hi). erewrite find_kind_found by (exact Hw || exact E). now apply in_map.
Qed.

Lemma finish_kept : forall l b, finish l = Done b ->
  (wanted (l_config l) Functions -> b_functions b = l_functions l)
  /\ (wanted (l_config l) Constants -> Permutation (to_vec (l_constants l)) (b_constants b))
  /\ (wanted (l_config l) Globals -> Permutation (to_vec (l_globals l)) (b_globals b)).
Proof.
  intros l b Hf. apply finish_config in Hf as (_ & -> & -> & -> & _).
  repeat split; intros Hw; apply should_generate_wanted in Hw; rewrite Hw; [reflexivity| |];
    eapply sorted_by_perm, sort_by_path_spec.
Qed.

Lemma final_layers : forall l b d, finish l = Done b -> library_dependencies l = Done d ->
  exists os, stable_sort_of (fun x y => str_leb (ic_path x) (ic_path y)) (filter opaque_type (d_order d)) os
    /\ b_items b = (filter fieldless_enum (d_order d) ++ os ++ filter other_item (d_order d))%list.
Proof.
  intros l b d Hf Hd. unfold finish in Hf. rewrite Hd in Hf. inversion Hf; subst; cbn [b_items]. rewrite d_sort_layers.
  eexists. split; [|reflexivity]. apply sort_stable. apply path_preorder.
Qed.

Lemma Forall2_excl : forall A B (R : A -> B -> Prop) (p : A -> string) (q : B -> string) c l fs bs key n,
  (forall a b, R a b -> q b = p a) -> sorted_by key p (filter (fun x => not_excluded c (p x)) l) fs -> Forall2 R fs bs ->
  is_excluded c n -> forall b, In b bs -> q b <> n.
Proof.
  intros A B R p q c l fs bs key n Hk Hs Hf Hn b Hb E. destruct (Forall2_In_r _ _ _ _ _ _ Hf Hb) as (a & Ha & Hab).
  apply (Permutation_in _ (Permutation_sym (sorted_by_perm _ _ _ _ _ Hs))) in Ha. apply filter_In in Ha as [_ Ha].
  rewrite <- (Hk _ _ Hab), E in Ha. apply excluded_iff in Hn. congruence.
Qed.

Lemma excluded_absent : forall (H : Heck) fuel visit l b n, generate fuel visit l = Done b -> is_excluded (l_config l) n ->
  (forall i, In i (b_items b) -> ic_path i <> n) /\ (forall f, In f (b_functions b) -> f_path f <> n)
  /\ (forall c, In c (b_constants b) -> c_path c <> n) /\ (forall g, In g (b_globals b) -> g_path g <> n).
Proof.
  intros H fuel visit l b n Hg Hn. split.
  { intros i Hi E. pose proof (items_not_excluded _ _ _ _ _ _ Hg Hi) as Hx. rewrite E in Hx. apply excluded_iff in Hn. congruence. }
  split.
  { intros f Hf. destruct (only_wanted _ _ _ _ _ Hg) as (_ & Hw & _).
    assert (Hne : b_functions b <> []) by (intros E; rewrite E in Hf; destruct Hf).
    destruct (functions_of _ _ _ _ _ Hg (Hw Hne)) as (fs & Hs & H2).
    eapply (Forall2_excl _ _ same_function f_path f_path); [intros x y []; assumption|exact Hs|exact H2|exact Hn|exact Hf]. }
  apply generate_inv in Hg as (l' & Hp & Hf & C). pose proof Hf as Hf0. apply finish_config in Hf as (_ & _ & Ec & Eg & _).
  apply prepare_stages in Hp as (l1 & l2 & l3 & l4 & S).
  pose proof (stages_config _ _ _ _ _ _ _ _ _ S) as (C1 & C2 & C3 & C4 & _). destruct S as [S1 S2 S3 S4 S5].
  apply rename_rest in S5 as (_ & R1 & R2 & _). split.
  - intros c Hc E. assert (Hc' : In c (to_vec (l_constants l'))).
    { rewrite Ec in Hc. destruct (should_generate _ _); [|destruct Hc].
      eapply Permutation_in; [apply Permutation_sym, (sorted_by_perm _ (sort_key (co_sort_by (constant (l_config l'))) (l_config l')) c_path), sort_by_path_spec|exact Hc]. }
    rewrite R1 in Hc'. apply rebuild_invents_nothing in Hc'. rewrite to_vec_map in Hc'. apply in_map_iff in Hc' as (d & <- & Hd).
    assert (Hd3 : In d (to_vec (l_constants l3))).
    { subst l4. destruct (Language_eqb _ M_Config.C); [|assumption]. rewrite (proj2 (resolve_rest l3)) in Hd. assumption. }
    subst l3. apply filter_In_vec in Hd3 as [_ Hx]. unfold excluded in Hx. cbn in E, Hx. rewrite E, C2 in Hx.
    apply mem_str_false in Hx. contradiction.
  - intros g Hc E. assert (Hc' : In g (to_vec (l_globals l'))).
    { rewrite Eg in Hc. destruct (should_generate (export (l_config l')) Globals); [|destruct Hc].
      eapply Permutation_in; [apply Permutation_sym, (sorted_by_perm _ (sort_key (co_sort_by (constant (l_config l'))) (l_config l')) g_path), sort_by_path_spec|exact Hc]. }
    rewrite R2 in Hc'. apply rebuild_invents_nothing in Hc'. rewrite to_vec_map in Hc'. apply in_map_iff in Hc' as (d & <- & Hd).
    assert (Hd3 : exists d3, In d3 (to_vec (l_globals l3)) /\ g_path d3 = g_path d).
    { subst l4. destruct (Language_eqb _ M_Config.C); [|eauto]. unfold resolve_library in Hd. destruct (negb _); [eauto|].
      cbn [l_globals] in Hd. rewrite to_vec_map in Hd. apply in_map_iff in Hd as (d3 & <- & Hd3). exists d3. auto. }
    destruct Hd3 as (d3 & Hd3 & E3).
    subst l3. apply filter_In_vec in Hd3 as [_ Hx]. unfold excluded in Hx. cbn in E, Hx. rewrite E3, E, C2 in Hx.
    apply mem_str_false in Hx. contradiction.
Qed.
