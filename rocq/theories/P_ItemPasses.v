(** What the passes over a library do to the definitions and statics in it. *)
Require Import Coq.Strings.String Coq.Strings.Ascii Coq.Lists.List Coq.Bool.Bool Coq.Arith.Arith Coq.Sorting.Permutation.
From Verif Require Import Base P_Base M_Config M_Cfg M_Type M_Ir M_Item M_Attr M_Docs M_Library M_Syn M_Loader S_Item S_Sort S_Library S_Names S_Mono P_Type P_Sort P_Item P_Table
  P_Library P_Transfer P_Mono P_Stages P_NamesLib P_Keywords P_MonoLib P_MonoPipe S_Signature P_Signature P_SigLib.
Import ListNotations.
Open Scope string_scope.

Lemma map_s_twice : forall f g s, map_s_types f (map_s_types g s) = map_s_types (fun t => f (g t)) s.
Proof. intros f g []. unfold map_s_types. cbn. rewrite map_map. reflexivity. Qed.
Lemma map_fd_id : forall l, map (map_fd_ty (fun t => t)) l = l.
Proof. intro l. rewrite (map_ext _ (fun a => a)); [apply map_id|]. intros []. reflexivity. Qed.
Lemma map_s_id : forall s, map_s_types (fun t => t) s = s.
Proof. intros []. unfold map_s_types. cbn. rewrite map_fd_id. reflexivity. Qed.
Lemma ic_map_twice : forall f g i, ic_map_types f (ic_map_types g i) = ic_map_types (fun t => f (g t)) i.
Proof.
  intros f g [o|s|u|e|t]; cbn [ic_map_types].
  - reflexivity.
  - rewrite map_s_twice. reflexivity.
  - destruct u. unfold map_u_types. cbn. rewrite map_map. reflexivity.
  - f_equal. unfold map_e_bodies, set_e_variants. cbn [e_path e_export_name e_generic_params e_repr e_variants e_tag e_cfg e_annotations e_documentation].
    rewrite map_map. f_equal. apply map_ext. intro v. unfold map_v_body, set_v_body. cbn. f_equal.
    destruct (v_body v); cbn; [reflexivity|]. rewrite map_s_twice. reflexivity.
  - destruct t. reflexivity.
Qed.
Lemma ic_map_id : forall i, ic_map_types (fun t => t) i = i.
Proof.
  intros [o|s|u|e|t]; cbn [ic_map_types].
  - reflexivity.
  - rewrite map_s_id. reflexivity.
  - destruct u. unfold map_u_types. cbn. rewrite map_fd_id. reflexivity.
  - f_equal. unfold map_e_bodies. rewrite (map_ext _ (fun a => a)); [rewrite map_id; destruct e; reflexivity|]. intro v. unfold map_v_body.
    assert (E : map_body (map_s_types (fun t => t)) (v_body v) = v_body v) by (destruct (v_body v); cbn; [reflexivity|rewrite map_s_id; reflexivity]).
    rewrite E. destruct v. reflexivity.
  - destruct t. reflexivity.
Qed.
Lemma ic_map_params : forall f i, ic_generic_params (ic_map_types f i) = ic_generic_params i. Proof. intros f []; reflexivity. Qed.
Lemma ic_set_params : forall a i, ic_generic_params (ic_set_annotations a i) = ic_generic_params i. Proof. intros a []; reflexivity. Qed.
Lemma ic_set_path : forall a i, ic_path (ic_set_annotations a i) = ic_path i. Proof. intros a []; reflexivity. Qed.
Lemma ic_map_path : forall f i, ic_path (ic_map_types f i) = ic_path i. Proof. intros f []; reflexivity. Qed.
Lemma wanted_generic : forall (H : Heck) l g, wanted_type l g -> gp_generics g <> [].
Proof.
  intros H l g W.
  assert (U : forall h t, uses h t -> gp_generics h <> []) by (intros h t E; induction E; auto).
  destruct W as [g [(i & _ & _ & t & _ & E)|(f & _ & [E|(a & _ & E)])]|g h _ (items & i & p & x & _ & _ & _ & t & _ & E)]; exact (U _ _ E).
Qed.

(** [x1] is [x0], with the annotations of a typedef perhaps *)
Definition same_but_annotations (x0 x1 : ItemContainer) : Prop := x1 = x0 \/ exists a, x1 = ic_set_annotations a x0.
(** [j] is an instance of a definition of [l]. *)
Definition made_instance {H : Heck} (l : Library) (j : ItemContainer) : Prop :=
  exists args x0 x1 i p l1, args <> [] /\ In x0 (defined l) /\ same_but_annotations x0 x1 /\ i = ic_map_types (simplify_standard_types (language (l_config l))) x1
    /\ l_config l1 = l_config l /\ instance l1 args i p j.

Lemma step_ext : forall lang kw kw' g, (forall p, kw p = kw' p) -> step_ok lang kw g -> step_ok lang kw' g.
Proof.
  intros lang kw kw' g E (A1 & A2 & A3 & A4 & A5 & A6). split; [exact A1|]. split; [exact A2|]. split; [exact A3|]. split; [exact A4|].
  split; [|exact A6]. intros p ts TS. rewrite <- E. exact (A5 p ts TS).
Qed.
Lemma item_passes : forall (H : Heck) fuel visit l l', as_loaded l -> bodies_as_enums l -> prepare fuel visit l = Done l' ->
  let c := l_config l in
  exists g, step_ok (language c) (keyword_in l') g /\
    forall x', In x' (defined l') ->
      (exists x0 x1, In x0 (defined l) /\ same_but_annotations x0 x1 /\ (language c <> Cxx -> ic_generic_params x0 = [])
         /\ renamed c (ic_map_types (fun t => g (simplify_standard_types (language c) t)) x1) x')
      \/ language c <> Cxx /\ exists j, made_instance l j /\ renamed c (ic_map_types g j) x'.
Proof.
  intros H fuel visit l l' Hl Hb Hp c. apply prepare_stages in Hp as (l1 & l2 & l3 & l4 & St).
  pose proof (fun p => stages_keyword_in _ _ _ _ _ _ _ _ _ p Hl St) as KW.
  pose proof (stages_config _ _ _ _ _ _ _ _ _ St) as (C1 & C2 & C3 & C4 & _). destruct St as [S1 S2 S3 S4 S5]. fold c in S2, S4, C1, C2, C3, C4.
  assert (D1 : forall i, In i (defined l1) -> exists x0 x1, In x0 (defined l) /\ same_but_annotations x0 x1 /\ i = ic_map_types (simplify_standard_types (language c)) x1).
  { intros i I. subst l1. change (defined (sort_functions ?x)) with (defined x) in I. apply simplify_defined in I as (j & J & ->).
    destruct (transfer_rest visit l) as (T1 & _). apply transfer_defined in J as (x0 & I0 & S0). exists x0, j. split; [exact I0|]. split; [exact S0|].
    cbn [simplify_library sort_functions l_config] in C1. rewrite C1. reflexivity. }
  assert (M : exists m, forall i, In i (defined l2) -> exists j, i = ic_map_types (mangling (language c) m) j
    /\ ((In j (defined l1) /\ (language c <> Cxx -> ic_generic_params j = [])) \/ language c <> Cxx /\ wanted_instance l1 j)).
  { unfold mangling. destruct (Language_eqb (language c) Cxx) eqn:LC.
    - exists Monomorphs_default. subst l2. intros i I. exists i. split; [symmetry; apply ic_map_id|]. left. split; [exact I|]. apply cxx_eqb in LC. congruence.
    - assert (NC : language c <> Cxx) by (intro Z; rewrite Z in LC; discriminate).
      assert (R : ready l1) by (subst l1; apply loaded_ready; assumption).
      apply mono_defined in S2 as (m & Em & _ & Ed). exists m. intros i I. destruct (Ed i I) as (j & [Hj|Hj] & Hn & ->); exists j; (split; [reflexivity|]).
      + right. split; [exact NC|]. apply (md_items _ _ (pass_made l1 R _ _ Em)). exact Hj.
      + left. auto. }
  destruct M as [m M]. exists (fun t => resolving c l3 (mangling (language c) m t)). split.
  { eapply step_ext; [|exact (passes_ok c m l3)]. intro p. cbv beta. symmetry. exact (KW p). }
  intros x' I. destruct (rename_items_from H l4 l' x' S5 I) as (x4 & I4 & R4). rewrite C4 in R4.
  assert (I3 : exists x3, In x3 (defined l3) /\ x4 = ic_map_types (resolving c l3) x3).
  { unfold resolving. rewrite S4 in I4. destruct (Language_eqb (language c) M_Config.C); cbn [andb].
    - apply resolve_items in I4 as (j & J & [(-> & T)|(-> & T)]); rewrite C3 in T; rewrite T; exists j; (split; [exact J|]); [symmetry; apply ic_map_id|reflexivity].
    - exists x4. split; [exact I4|]. symmetry. apply ic_map_id. }
  destruct I3 as (x3 & I3 & ->). subst l3. apply excluded_defined in I3 as [I2 _]. destruct (M x3 I2) as (j & -> & [[J P]|[NC W]]).
  - left. destruct (D1 j J) as (x0 & x1 & I0 & SB & ->). exists x0, x1. split; [exact I0|]. split; [exact SB|]. split.
    + intro NC. specialize (P NC). rewrite ic_map_params in P. destruct SB as [->|(a & ->)]; [exact P|rewrite ic_set_params in P; exact P].
    + rewrite !ic_map_twice in R4. exact R4.
  - right. split; [exact NC|]. exists j. split; [|rewrite ic_map_twice in R4; exact R4].
    destruct W as (g & items & i & p & Wt & El & Ii & Hx & _). assert (Ld : In i (defined l1)) by (eapply lib_items_In; [exact El|exact Ii]).
    destruct (D1 i Ld) as (x0 & x1 & I0 & SB & Ei). exists (gp_generics g), x0, x1, i, p, l1.
    split; [eapply wanted_generic; exact Wt|]. auto 8.
Qed.
