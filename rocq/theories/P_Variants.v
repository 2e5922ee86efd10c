(** C41: values refer to variants by the names the enum declares. *)
Require Import Coq.Strings.String Coq.Lists.List Coq.Bool.Bool.
From Verif Require Import Base P_Base M_Config M_Cfg M_Type M_Ir M_Item M_Library M_Bindings M_Literal S_Item S_Library S_Names S_Mono S_Keywords
  P_Item P_Table P_Library P_Mono P_Stages P_NamesLib P_MonoLib P_MonoPipe P_Members.
Import ListNotations.
Open Scope string_scope.

Definition variant_names (e : Enum) : list string := map v_name (e_variants e).

Lemma map_bodies_names : forall f e, variant_names (map_e_bodies f e) = variant_names e.
Proof.
  intros f e. unfold variant_names, map_e_bodies. cbn [e_variants set_e_variants]. rewrite map_map. apply map_ext.
  intros v. unfold map_v_body. destruct (v_body v); reflexivity.
Qed.
Lemma map_opt_map : forall A B C (f : A -> option B) (g : B -> C) (h : A -> C) l l', map_opt f l = Some l' ->
  (forall x y, f x = Some y -> g y = h x) -> map g l' = map h l.
Proof.
  intros A B C f g h l l' E Q. apply map_opt_Forall2 in E. induction E; cbn; [reflexivity|]. rewrite (Q _ _ H), IHE. reflexivity.
Qed.
Lemma tag_names : forall c e e', Enum_rename_tag c e = Some e' -> variant_names e' = variant_names e.
Proof.
  intros c e e'. unfold Enum_rename_tag. destruct (e_tag e) as [tag|].
  - destruct (Language_eqb (language c) Cxx).
    + intros E. injection E as <-. reflexivity.
    + destruct (ReprStyle_eqb (rp_style (e_repr e)) ReprRust).
      * match goal with |- (match ?m with _ => _ end) = _ -> _ => destruct m as [vs|] eqn:Ev; [|discriminate] end.
        intros E. injection E as <-. unfold variant_names. cbn [e_variants]. apply (map_opt_map _ _ _ _ _ v_name _ _ Ev).
        intros x y. destruct (map_opt_body _ _); [|discriminate]. intros Q. injection Q as <-. reflexivity.
      * intros E. injection E as <-. reflexivity.
  - intros E. injection E as <-. reflexivity.
Qed.
Lemma rename_keeps : forall (H : Heck) c e e', Enum_rename_for_config c e = Some e' -> variants_keep_names c e -> variant_names e' = variant_names e.
Proof.
  intros H c e e'. unfold Enum_rename_for_config, variants_keep_names. destruct (Enum_rename_tag c e) as [e1|] eqn:E1; [|discriminate].
  destruct (map_opt (EnumVariant_rename c) (e_variants e1)) as [vs|] eqn:Ev; [|discriminate].
  intros E Hr. rewrite Hr in E. cbn [not_none] in E. injection E as <-. rewrite <- (tag_names _ _ _ E1). unfold variant_names. cbn [e_variants set_e_variants].
  transitivity (map v_name vs).
  - destruct (match an_bool _ _ with Some b => b | None => _ end); [|reflexivity]. rewrite map_map. apply map_ext. intros v. 
    unfold EnumVariant_prefix. destruct v as [a b d [x|n s i ic] k o]; reflexivity.
  - apply (map_opt_map _ _ _ _ _ v_name _ _ Ev). intros x y. unfold EnumVariant_rename. destruct (v_body x) as [a|n s i ic].
    + intros Q. injection Q as <-. reflexivity.
    + destruct (Struct_rename_for_config c s); [|discriminate]. intros Q. injection Q as <-. reflexivity.
Qed.

(** Where the enums of the bindings come from. *)
Definition from_enum (e0 e : Enum) : Prop := e_path e = e_path e0 /\ variant_names e = variant_names e0.
Lemma from_trans : forall a b c, from_enum a b -> from_enum b c -> from_enum a c.
Proof. intros a b c [A1 A2] [B1 B2]. split; congruence. Qed.

Lemma call_nil : forall args ms, GenericParams_call [] args = Some ms -> args = [].
Proof. intros args ms. unfold GenericParams_call. destruct args; [reflexivity|]. cbn. discriminate. Qed.
Lemma wanted_generics : forall (H : Heck) l g, wanted_type l g -> gp_generics g <> [].
Proof.
  assert (U : forall g t, uses g t -> gp_generics g <> []) by (intros g t Hu; induction Hu; assumption).
  intros H l g Hw. assert (I : forall i g, item_uses i g -> gp_generics g <> []) by (intros i g' (t & _ & Ht); exact (U _ _ Ht)).
  destruct Hw as [g Hu|g h _ (items & i & p & x & _ & _ & _ & Hx)]; [|exact (I _ _ Hx)].
  destruct Hu as [(i & _ & _ & Hi)|(f & _ & Hf)]; [exact (I _ _ Hi)|]. destruct Hf as [Hf|(a & _ & Ha)]; eapply U; eassumption.
Qed.
Lemma ready_after : forall (H : Heck) visit l, as_loaded l -> bodies_as_enums l -> ready (sort_functions (simplify_library (transfer_annotations visit l))).
Proof. intros H visit l A B. exact (loaded_ready visit l A B). Qed.

Lemma enums_from : forall (H : Heck) fuel visit l b e, as_loaded l -> bodies_as_enums l ->
  (language (l_config l) = Cxx \/ forall e0, In e0 (to_vec (l_enums l)) -> e_generic_params e0 = []) ->
  generate fuel visit l = Done b -> In e (to_vec (b_enum_map b)) ->
  exists e1 e0, In e0 (to_vec (l_enums l)) /\ from_enum e0 e1 /\ Enum_rename_for_config (l_config l) e1 = Some e.
Proof.
  intros H fuel visit l b e Hl Hb Hg Hgen He. apply generate_inv in Hgen as (l' & Hp & Hf & _).
  apply finish_config in Hf as (_ & _ & _ & _ & _ & Hm & _). rewrite Hm in He. clear Hm.
  apply prepare_stages in Hp as (l1 & l2 & l3 & l4 & S). pose proof (stages_config _ _ _ _ _ _ _ _ _ S) as (C1 & C2 & C3 & C4 & _).
  destruct S as [S1 S2 S3 S4 S5].
  assert (D1 : forall i, In (ICEnum i) (defined l1) -> exists e0, In e0 (to_vec (l_enums l)) /\ from_enum e0 i /\ e_generic_params i = e_generic_params e0).
  { intros i Hi. rewrite S1 in Hi. apply In_defined in Hi. cbn [sort_functions l_enums] in Hi.
    apply (proj2 (In_defined (simplify_library (transfer_annotations visit l)) (ICEnum i))) in Hi.
    apply simplify_defined in Hi as (j & Hj & E). destruct j as [o|s|u|e1|t]; try discriminate. injection E as ->.
    apply transfer_defined in Hj as (k & Hk & Ek). destruct k as [o|s|u|e0|t]; cbn in Ek.
    all: try (destruct Ek as [Ek|(a & Ek)]; discriminate).
    apply In_defined in Hk. exists e0. split; [assumption|].
    assert (Q : e_path e1 = e_path e0 /\ variant_names e1 = variant_names e0 /\ e_generic_params e1 = e_generic_params e0).
    { destruct Ek as [Ek|(a & Ek)]; injection Ek as ->; auto. }
    destruct Q as (Q1 & Q2 & Q3). split; [split; [exact Q1|rewrite map_bodies_names; exact Q2]|exact Q3]. }
  assert (D2 : forall i, In (ICEnum i) (defined l2) -> exists e0, In e0 (to_vec (l_enums l)) /\ from_enum e0 i).
  { destruct (Language_eqb (language (l_config l)) Cxx) eqn:El.
    - subst l2. intros i Hi. destruct (D1 i Hi) as (e0 & A & B & _). eauto.
    - destruct Hg as [Hg|Hg]; [rewrite Hg in El; discriminate|]. intros i Hi.
      assert (R : ready l1) by (rewrite S1; apply ready_after; assumption).
      destruct (mono_items_spec _ _ _ _ R S2 _ Hi) as (j & Hj & (f & E & _)).
      destruct j as [o|s|u|e1|t]; try discriminate. injection E as ->. destruct Hj as [[Hj _]|Hj].
      + destruct (D1 _ Hj) as (e0 & A & [B1 B2] & _). exists e0. split; [assumption|]. split; [exact B1|rewrite map_bodies_names; exact B2].
      + destruct Hj as (g & items & k & p & W & Hk & Hin & Hi2 & _). apply wanted_generics in W.
        pose proof (lib_items_In _ _ _ _ Hk Hin) as Hd. inversion Hi2; subst.
        * destruct (D1 _ Hd) as (e2 & A & _ & B). match goal with Q : GenericParams_call _ _ = _ |- _ => rewrite B, (Hg _ A) in Q; apply call_nil in Q end. contradiction.
        * match goal with Q : body_instance _ _ _ _ _ |- _ => inversion Q end. }
  assert (D3 : forall i, In (ICEnum i) (defined l3) -> exists e0, In e0 (to_vec (l_enums l)) /\ from_enum e0 i).
  { intros i Hi. rewrite S3 in Hi. apply excluded_defined in Hi as [Hi _]. apply D2. assumption. }
  assert (D4 : forall i, In (ICEnum i) (defined l4) -> exists e0, In e0 (to_vec (l_enums l)) /\ from_enum e0 i).
  { intros i Hi. rewrite S4 in Hi. destruct (Language_eqb (language (l_config l)) M_Config.C); [|apply D3; assumption].
    apply resolve_items in Hi as (j & Hj & [[<- _]|[E _]]); [apply D3; assumption|].
    destruct j as [o|s|u|e1|t]; try discriminate. injection E as ->. destruct (D3 _ Hj) as (e0 & A & [B1 B2]). exists e0. split; [assumption|].
    split; [exact B1|rewrite map_bodies_names; exact B2]. }
  apply (proj2 (In_defined l' (ICEnum e))) in He. apply (rename_items_from _ _ _ _ S5) in He as (j & Hj & E).
  destruct j as [o|s|u|e1|t]; cbn in E; try contradiction. destruct (D4 _ Hj) as (e0 & A & B). rewrite C4 in E. eauto.
Qed.

Lemma first_reference : forall (b : Bindings) n es r, fold_left (fun result e =>
      match result with
      | Some _ => result
      | None => match find (fun v => String.eqb (v_name v) n) (e_variants e) with
                | Some v => Some (variant_reference (b_config b) e v)
                | None => None
                end
      end) es (Some r) = Some r.
Proof. intros b n es r. induction es; cbn; auto. Qed.
Lemma reference_same : forall c e v, variant_reference c e v = seen_from_outside c e v.
Proof. intros c e v. reflexivity. Qed.

Lemma for_items_In : forall (m : ItemMap Enum) p e, wf m -> In e (for_items m p) -> In e (to_vec m) /\ e_path e = p.
Proof.
  intros m p e Hw He. unfold for_items in He. destruct (get_items p m) as [xs|] eqn:E; [|destruct He].
  destruct (wf_get _ _ _ _ _ Hw E) as [_ F]. rewrite Forall_forall in F. split; [|exact (F e He)]. eapply get_items_In; eassumption.
Qed.

Lemma variant_spec : forall (H : Heck) fuel visit l b p n, as_loaded l -> bodies_as_enums l ->
  (language (l_config l) = Cxx \/ forall e0, In e0 (to_vec (l_enums l)) -> e_generic_params e0 = []) ->
  generate fuel visit l = Done b ->
  (forall e0, In e0 (to_vec (l_enums l)) -> e_path e0 = p -> In n (map v_name (e_variants e0))) ->
  (forall e, In e (to_vec (b_enum_map b)) -> e_path e = p -> variants_keep_names (l_config l) e) ->
  enum_exists b p = true ->
  exists e v, In e (to_vec (b_enum_map b)) /\ e_path e = p /\ In v (e_variants e) /\ v_name v = n
    /\ enum_variant_reference b p n = Some (seen_from_outside (l_config l) e v).
Proof.
  intros H fuel visit l b p n Hl Hb Hg Hgen Hn Hr Hx.
  assert (W : wf (b_enum_map b) /\ b_config b = l_config l).
  { pose proof Hgen as Q. apply generate_inv in Q as (l' & Hp & Hf & Hc). apply finish_config in Hf as (Hbc & _ & _ & _ & _ & Hm & _).
    apply prepare_stages in Hp as (l1 & l2 & l3 & l4 & S). destruct S as [_ _ _ _ S5]. apply rename_tables in S5. rewrite Hm. split; [|congruence].
    apply reachable_wf. apply (tb_enums _ S5). }
  destruct W as [W C]. unfold enum_exists in Hx. unfold enum_variant_reference.
  assert (F : forall e, In e (for_items (b_enum_map b) p) -> In e (to_vec (b_enum_map b)) /\ e_path e = p) by (intros e He; apply for_items_In; assumption).
  destruct (for_items (b_enum_map b) p) as [|e r] eqn:E; [discriminate|]. destruct (F e (or_introl eq_refl)) as [He Hep].
  destruct (enums_from _ _ _ _ _ _ Hl Hb Hg Hgen He) as (e1 & e0 & H0 & [F1 F2] & R).
  pose proof (enum_rename_shape _ _ _ _ R) as (P1 & _ & _ & _ & _ & Ha & _).
  assert (K : variant_names e = variant_names e0).
  { rewrite (rename_keeps _ _ _ _ R); [exact F2|]. specialize (Hr e He Hep). unfold variants_keep_names in *. rewrite <- Ha. exact Hr. }
  specialize (Hn e0 H0 ltac:(congruence)). change (map v_name (e_variants e0)) with (variant_names e0) in Hn. rewrite <- K in Hn.
  cbn [fold_left]. destruct (find (fun v => String.eqb (v_name v) n) (e_variants e)) as [v|] eqn:Ef.
  - apply find_some in Ef as [Hv En]. apply String.eqb_eq in En. exists e, v. rewrite first_reference, C.
    split; [assumption|]. split; [assumption|]. split; [assumption|]. split; [assumption|reflexivity].
  - exfalso. apply in_map_iff in Hn as (v & En & Hv). apply (find_none _ _ Ef) in Hv. rewrite En, String.eqb_refl in Hv. discriminate.
Qed.
Lemma variant_written : forall fuel b p x n text, to_known_assoc_constant p n = None -> enum_variant_reference b p n = Some text ->
  write_literal fuel b (LPath (Some (p, x)) n) = Done (M_Writer.write text).
Proof. intros fuel b p x n text H1 H2. unfold write_literal. destruct (language (b_config b)); cbn; unfold write_path; rewrite H1, H2; reflexivity. Qed.
