(** Where the definitions of each stage of library generation come from. *)
Require Import Coq.Strings.String Coq.Lists.List Coq.Bool.Bool Coq.Sorting.Permutation.
From Verif Require Import Base P_Base M_Config M_Cfg M_Type M_Ir M_Item M_Library S_Item S_Library S_Mono P_Item P_Table P_Library P_Transfer P_Mono.
From Verif Require Export S_Mono.
Import ListNotations.
Open Scope list_scope.

Definition ic_set_annotations (a : AnnotationSet) (i : ItemContainer) : ItemContainer :=
  match i with
  | ICOpaque o => ICOpaque (set_o_annotations a o)
  | ICStruct s => ICStruct (set_s_annotations a s)
  | ICUnion u => ICUnion (set_u_annotations a u)
  | ICEnum e => ICEnum (set_e_annotations a e)
  | ICTypedef t => ICTypedef (set_t_annotations a t)
  end.
Lemma In_defined : forall l i, In i (defined l) <->
  match i with
  | ICEnum e => In e (to_vec (l_enums l)) | ICStruct s => In s (to_vec (l_structs l)) | ICUnion u => In u (to_vec (l_unions l))
  | ICOpaque o => In o (to_vec (l_opaque_items l)) | ICTypedef t => In t (to_vec (l_typedefs l))
  end.
Proof.
  intros l i. unfold defined. rewrite !in_app_iff, !in_map_iff.
  destruct i as [o|s|u|e|t]; (split; [intros Hi; repeat destruct Hi as [Hi|Hi]; destruct Hi as (y & E & Hy); inversion E; subst; assumption|intros Hi; eauto 9]).
Qed.

Lemma simplify_defined : forall l i, In i (defined (simplify_library l)) ->
  exists j, In j (defined l) /\ i = ic_map_types (simplify_standard_types (language (l_config l))) j.
Proof.
  intros l i Hi. apply In_defined in Hi. destruct i as [o|s|u|e|t]; cbn [simplify_library l_enums l_structs l_unions l_opaque_items l_typedefs] in Hi;
    rewrite ?to_vec_map in Hi; [|apply in_map_iff in Hi as (y & <- & Hi)..].
  - exists (ICOpaque o). split; [apply In_defined; assumption|reflexivity].
  - exists (ICStruct y). split; [apply In_defined; assumption|reflexivity].
  - exists (ICUnion y). split; [apply In_defined; assumption|reflexivity].
  - exists (ICEnum y). split; [apply In_defined; assumption|reflexivity].
  - exists (ICTypedef y). split; [apply In_defined; assumption|reflexivity].
Qed.
Lemma resolve_items : forall l i, In i (defined (resolve_library l)) ->
  exists j, In j (defined l) /\ (i = j /\ generate_tag (style (l_config l)) = false
    \/ i = ic_map_types (Type_resolve_declaration_types (library_resolver l)) j /\ generate_tag (style (l_config l)) = true).
Proof.
  intros l i Hi. unfold resolve_library in Hi. destruct (generate_tag (style (l_config l))); cbn [negb] in Hi; [|exists i; auto].
  apply In_defined in Hi. destruct i as [o|s|u|e|t]; cbn [l_enums l_structs l_unions l_opaque_items l_typedefs] in Hi;
    rewrite ?to_vec_map in Hi; [|apply in_map_iff in Hi as (y & <- & Hi)..].
  - exists (ICOpaque o). split; [apply In_defined; assumption|right; split; reflexivity].
  - exists (ICStruct y). split; [apply In_defined; assumption|right; split; reflexivity].
  - exists (ICUnion y). split; [apply In_defined; assumption|right; split; reflexivity].
  - exists (ICEnum y). split; [apply In_defined; assumption|right; split; reflexivity].
  - exists (ICTypedef y). split; [apply In_defined; assumption|right; split; reflexivity].
Qed.

Lemma give_In : forall T (I : Item T) p a (m : ItemMap T) x, In x (to_vec (giving p a m)) ->
  In x (to_vec m) \/ exists y, In y (to_vec m) /\ x = i_set_annotations a y.
Proof.
  intros T I p a m x Hx. unfold giving, give_annotations in Hx. cbn [fst] in Hx. apply for_items_mut_In in Hx as [Hx|(y & Hy & ->)]; [auto|].
  destruct (an_is_empty (i_annotations y)); eauto.
Qed.
Lemma give_if_In : forall T (I : Item T) (b : bool) p a (m : ItemMap T) x, In x (to_vec (if b then m else giving p a m)) ->
  In x (to_vec m) \/ exists y, In y (to_vec m) /\ x = i_set_annotations a y.
Proof. intros T I b p a m x. destruct b; [auto|apply give_In]. Qed.
Lemma transfer_defined : forall visit l i, In i (defined (transfer_annotations visit l)) ->
  exists j, In j (defined l) /\ (i = j \/ exists a, i = ic_set_annotations a j).
Proof.
  intros visit l i. unfold transfer_annotations. pose proof (take_typedefs (l_typedefs l) []) as Ht.
  destruct (take_annotations (l_typedefs l) []) as [td an]. cbn [fst] in Ht.
  set (l0 := {| l_config := l_config l |}). generalize (visit an). intros xs.
  assert (H0 : forall j, In j (defined l0) -> exists k, In k (defined l) /\ (j = k \/ exists a, j = ic_set_annotations a k)).
  { intros j Hj. apply In_defined in Hj. destruct j as [o|s|u|e|t]; cbn in Hj;
      [exists (ICOpaque o)|exists (ICStruct s)|exists (ICUnion u)|exists (ICEnum e)|]; try (split; [apply In_defined; assumption|left; reflexivity]).
    destruct (trel_In _ _ _ _ _ Ht Hj) as (y & Hy & [->|[-> _]]); exists (ICTypedef y); (split; [apply In_defined; assumption|]); [left; reflexivity|right].
    exists AnnotationSet_new. reflexivity. }
  revert H0. generalize l0. clear l0 Ht. induction xs as [|[p a] r IH]; intros k Hk; cbn [fold_left]; [apply Hk|].
  apply IH. intros j Hj. rewrite transfer_one_eq in Hj. apply In_defined in Hj.
  assert (Hx : exists j0, In j0 (defined k) /\ (j = j0 \/ j = ic_set_annotations a j0)).
  { destruct j as [o|s|u|e|t]; cbn [with_types l_enums l_structs l_unions l_opaque_items l_typedefs] in Hj;
      [apply give_if_In in Hj|apply give_if_In in Hj|apply give_if_In in Hj|apply give_In in Hj|apply give_if_In in Hj]; destruct Hj as [Hj|(y & Hy & ->)].
    - exists (ICOpaque o). split; [apply In_defined; assumption|left; reflexivity].
    - exists (ICOpaque y). split; [apply In_defined; assumption|right; reflexivity].
    - exists (ICStruct s). split; [apply In_defined; assumption|left; reflexivity].
    - exists (ICStruct y). split; [apply In_defined; assumption|right; reflexivity].
    - exists (ICUnion u). split; [apply In_defined; assumption|left; reflexivity].
    - exists (ICUnion y). split; [apply In_defined; assumption|right; reflexivity].
    - exists (ICEnum e). split; [apply In_defined; assumption|left; reflexivity].
    - exists (ICEnum y). split; [apply In_defined; assumption|right; reflexivity].
    - exists (ICTypedef t). split; [apply In_defined; assumption|left; reflexivity].
    - exists (ICTypedef y). split; [apply In_defined; assumption|right; reflexivity]. }
  destruct Hx as (j0 & Hj0 & Hs). destruct (Hk j0 Hj0) as (k0 & Hk0 & Hs0). exists k0. split; [assumption|].
  destruct Hs as [->| ->]; [assumption|]. right. exists a. destruct Hs0 as [->|(b & ->)]; [reflexivity|]. destruct k0; reflexivity.
Qed.

Lemma In_m_items : forall m i, In i (m_items m) <->
  match i with
  | ICEnum e => In e (m_enums m) | ICStruct s => In s (m_structs m) | ICUnion u => In u (m_unions m)
  | ICOpaque o => In o (m_opaques m) | ICTypedef t => In t (m_typedefs m)
  end.
Proof.
  intros m i. unfold m_items. rewrite !in_app_iff, !in_map_iff.
  destruct i as [o|s|u|e|t]; (split; [intros Hi; repeat destruct Hi as [Hi|Hi]; destruct Hi as (y & E & Hy); inversion E; subst; assumption|intros Hi; eauto 9]).
Qed.
Lemma not_generic : forall T (I : Item T) (x : T), is_generic x = false <-> i_generic_params x = [].
Proof. intros T I x. unfold is_generic. destruct (i_generic_params x); cbn; split; congruence. Qed.
Lemma mono_defined : forall (H : Heck) fuel l l', instantiate_monomorphs fuel l = Done l' ->
  exists m, foldM (add_mono l fuel) (library_monos l) Monomorphs_default = Done m
  /\ l_functions l' = map (map_f_types (Type_mangle_paths m)) (l_functions l)
  /\ (forall i, In i (defined l') -> exists j, (In j (m_items m) \/ In j (defined l)) /\ ic_generic_params j = [] /\ i = ic_map_types (Type_mangle_paths m) j).
Proof.
  intros H fuel l l'. unfold instantiate_monomorphs. destruct (foldM _ _ _) as [m| |] eqn:E; try discriminate.
  intros E1. inversion E1; subst; clear E1. exists m. split; [reflexivity|]. split; [reflexivity|].
  intros i Hi. apply In_defined in Hi. destruct i as [o|s|u|e|t]; cbn [l_enums l_structs l_unions l_opaque_items l_typedefs] in Hi;
    rewrite ?to_vec_map in Hi; [|apply in_map_iff in Hi as (y & <- & Hi)..]; apply filter_In_vec in Hi as [Hi Hg]; apply not_generic in Hg; cbn in Hg;
    apply insert_all_In in Hi; rewrite <- ?In_defined in Hi.
  - exists (ICOpaque o). rewrite In_defined, In_m_items. auto.
  - exists (ICStruct y). rewrite In_defined, In_m_items. auto.
  - exists (ICUnion y). rewrite In_defined, In_m_items. auto.
  - exists (ICEnum y). rewrite In_defined, In_m_items. auto.
  - exists (ICTypedef y). rewrite In_defined, In_m_items. auto.
Qed.

(** Where a renamed definition comes from. *)
Definition renamed {H : Heck} (c : Config) (j i : ItemContainer) : Prop :=
  match j, i with
  | ICOpaque x, ICOpaque y => y = OpaqueItem_rename_for_config c x
  | ICStruct x, ICStruct y => Struct_rename_for_config c x = Some y
  | ICUnion x, ICUnion y => Union_rename_for_config c x = Some y
  | ICEnum x, ICEnum y => Enum_rename_for_config c x = Some y
  | ICTypedef x, ICTypedef y => y = Typedef_rename_for_config c x
  | _, _ => False
  end.
Lemma rename_items_from : forall (H : Heck) l l' i, rename_items l = Some l' -> In i (defined l') ->
  exists j, In j (defined l) /\ renamed (l_config l) j i.
Proof.
  intros H l l' i Hr Hi. apply rename_rest in Hr as (_ & _ & _ & _ & (st & Es & Rs) & (un & Eu & Ru) & (en & Ee & Re) & Ro & Rt).
  apply In_defined in Hi. destruct i as [x|x|x|x|x].
  - rewrite Ro in Hi. apply rebuild_invents_nothing in Hi. rewrite to_vec_map in Hi. apply in_map_iff in Hi as (y & <- & Hy).
    exists (ICOpaque y). split; [apply In_defined; assumption|reflexivity].
  - rewrite Rs in Hi. apply rebuild_invents_nothing in Hi. destruct (trel_In _ _ _ _ _ (trel_map_opt _ _ _ Es) Hi) as (y & Hy & E).
    exists (ICStruct y). split; [apply In_defined; assumption|exact E].
  - rewrite Ru in Hi. apply rebuild_invents_nothing in Hi. destruct (trel_In _ _ _ _ _ (trel_map_opt _ _ _ Eu) Hi) as (y & Hy & E).
    exists (ICUnion y). split; [apply In_defined; assumption|exact E].
  - rewrite Re in Hi. apply rebuild_invents_nothing in Hi. destruct (trel_In _ _ _ _ _ (trel_map_opt _ _ _ Ee) Hi) as (y & Hy & E).
    exists (ICEnum y). split; [apply In_defined; assumption|exact E].
  - rewrite Rt in Hi. apply rebuild_invents_nothing in Hi. rewrite to_vec_map in Hi. apply in_map_iff in Hi as (y & <- & Hy).
    exists (ICTypedef y). split; [apply In_defined; assumption|reflexivity].
Qed.
