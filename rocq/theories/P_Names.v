(** Proofs about names: references through every pass (C13, C36). *)
Require Import Coq.Strings.String Coq.Lists.List Coq.Bool.Bool.
From Verif Require Import Base P_Base M_Config M_Cfg M_Type M_Ir M_Item M_Library S_Item S_Library S_Names P_Type P_Item P_Table P_Deps P_Library.
Import ListNotations.
Open Scope list_scope.

(** ** Types *)
Lemma Forall_concat_map : forall A B (P : B -> Prop) (f : A -> list B) l, Forall P (concat (map f l)) <-> Forall (fun x => Forall P (f x)) l.
Proof.
  intros A B P f l. induction l as [|x r IH]; cbn; [split; constructor|]. rewrite Forall_app, IH.
  split; [intros []; constructor; assumption|inversion 1; auto].
Qed.

Section Keep.
  Variable P : reference -> Prop.
  Hypothesis PK : forall p e c, P {| r_path := p; r_name := e; r_kind := c |} -> P {| r_path := p; r_name := p; r_kind := None |}.
  Let ok t := Forall P (type_refs t).
  Let okg g := Forall P (path_refs g).
  Let oka a := Forall P (arg_refs a).
  Let oke e := Forall P (const_refs e).

  Lemma ok_nullable : forall t u, make_nullable t = Some u -> ok t -> ok u.
  Proof. intros t u. unfold ok. destruct t; try discriminate; [destruct is_nullable|destruct is_nullable]; cbn; try discriminate; inversion 1; auto. Qed.
  Lemma ok_zeroable : forall t b u, make_zeroable t b = Some u -> ok u.
  Proof. intros t b u. destruct t; try discriminate. destruct p; try discriminate. cbn. destruct (Bool.eqb _ _); [discriminate|]. inversion 1. constructor. Qed.
  Lemma ok_wrapper : forall lang n t u, simplify_wrapper lang n t = Some u -> ok t -> ok u.
  Proof.
    intros lang n t u. unfold simplify_wrapper.
    destruct (String.eqb n "Option").
    { destruct (make_nullable t) eqn:E; [inversion 1; subst; eapply ok_nullable; eassumption|]. intros Hz _. eapply ok_zeroable; eassumption. }
    destruct (String.eqb n "NonNull"); [inversion 1; auto|].
    destruct (String.eqb n "NonZero"); [intros Hz _; eapply ok_zeroable; eassumption|].
    destruct (_ && _); [inversion 1; auto|]. destruct (mem_str _ _); [inversion 1; auto|].
    destruct (_ && _); [inversion 1; auto|discriminate].
  Qed.
  Lemma ok_simplified : forall lang t u, simplified_type lang t = Some u -> ok t -> ok u.
  Proof.
    intros lang. refine (Ty_ind' (fun t => forall u, simplified_type lang t = Some u -> ok t -> ok u)
      (fun g => forall u, simplified_type lang (TPath g) = Some u -> ok (TPath g) -> ok u)
      (fun a => forall t, a = GType t -> forall u, simplified_type lang t = Some u -> ok t -> ok u) (fun _ => True) _ _ _ _ _ _ _ _ _ _); try discriminate; auto.
    - intros p e gs ct IH u. destruct gs as [|[t|x] [|]]; try discriminate. cbn [simplified_type].
      intros Hs Ho. inversion IH as [|? ? Ht _]; subst. eapply ok_wrapper; [exact Hs|].
      unfold ok in Ho. cbn in Ho. rewrite app_nil_r in Ho. inversion Ho; subst.
      destruct (simplified_type lang t) as [v|] eqn:E; [|assumption]. eapply (Ht t eq_refl); eassumption.
    - intros t IH t' E. inversion E; subst. assumption.
  Qed.
  Lemma ok_simplify : forall lang t, ok t -> ok (simplify_standard_types lang t).
  Proof.
    intros lang. apply (Ty_only_ind (fun t => ok t -> ok (simplify_standard_types lang t))).
    - intros t c n r IH Ho. cbn. apply IH. exact Ho.
    - intros p e gs ct IH Ho.
      set (gs' := map (fun g => match g with GType u => GType (simplify_standard_types lang u) | GConst x => GConst x end) gs).
      assert (Hg : ok (TPath (GPath p e gs' ct))).
      { unfold ok in *. cbn in *. inversion Ho as [|? ? Hp Hr]; subst. constructor; [assumption|].
        rewrite Forall_concat_map in Hr |- *. unfold gs'. clear -IH Hr. induction IH as [|a r Ha Hrr IHr]; cbn; [constructor|].
        inversion Hr; subst. constructor; [|auto]. destruct a; cbn in *; auto. }
      change (simplify_standard_types lang (TPath (GPath p e gs ct))) with
        (match simplified_type lang (TPath (GPath p e gs' ct)) with Some u => u | None => TPath (GPath p e gs' ct) end).
      destruct (simplified_type lang _) as [u|] eqn:E; [|assumption]. eapply ok_simplified; eassumption.
    - intros p Ho. exact Ho.
    - intros t e IH Ho. cbn. unfold ok in *. cbn in *. rewrite Forall_app in *. split; [apply IH|]; tauto.
    - intros r args n nr IH1 IH2 Ho. unfold ok in *. cbn in *. rewrite Forall_app, Forall_concat_map in *. destruct Ho as [H1 H2].
      split; [auto|]. clear -IH2 H2. induction IH2; cbn; [constructor|]. inversion H2; subst. constructor; auto.
  Qed.

  (** Substitution. *)
  Variable ms : mappings.
  Hypothesis Hms : forall n a, In (n, a) ms -> oka a.
  Lemma ok_type_mapping : forall p t, type_mapping ms p = Some t -> ok t.
  Proof.
    intros p t. revert Hms. induction ms as [|[n v] r IH]; cbn; [discriminate|]. intros Hr.
    destruct (String.eqb p n); [destruct v as [u|x]; [inversion 1; subst; exact (Hr n _ (or_introl eq_refl))|]|]; apply IH; intros; eapply Hr; right; eassumption.
  Qed.
  Lemma ok_arg_mapping : forall p a, arg_mapping ms p = Some a -> oka a.
  Proof.
    intros p a. revert Hms. induction ms as [|[n v] r IH]; cbn; [discriminate|]. intros Hr.
    destruct (String.eqb n p); [inversion 1; subst; exact (Hr n _ (or_introl eq_refl))|]. apply IH. intros. eapply Hr. right. eassumption.
  Qed.
  Lemma ok_const_mapping : forall p e, const_mapping ms p = Some e -> oke e.
  Proof.
    intros p e. revert Hms. induction ms as [|[n v] r IH]; cbn; [discriminate|]. intros Hr.
    assert (Hr' : forall n a, In (n, a) r -> oka a) by (intros; eapply Hr; right; eassumption).
    pose proof (Hr n _ (or_introl eq_refl)) as Hv.
    destruct (String.eqb n p); [|auto]. destruct v as [[| q| | |]|x]; auto; [|inversion 1; subst; exact Hv].
    destruct (is_single_identifier q); [|auto]. inversion 1; subst. exact Hv.
  Qed.
  Lemma ok_specialize : forall t, ok t -> ok (Type_specialize ms t).
  Proof.
    apply (Ty_only_ind (fun t => ok t -> ok (Type_specialize ms t))).
    - intros t c n r IH Ho. cbn. apply IH. exact Ho.
    - intros p e gs ct IH Ho. cbn [Type_specialize]. destruct (type_mapping ms p) as [u|] eqn:E; [eapply ok_type_mapping; eassumption|].
      unfold ok in *. cbn in *. inversion Ho as [|? ? Hp Hr]; subst. constructor; [eapply PK; eassumption|].
      rewrite Forall_concat_map in Hr |- *. clear -IH Hr Hms PK. induction IH as [|a r Ha Hrr IHr]; cbn; [constructor|].
      inversion Hr as [|? ? Hr1 Hr2]; subst. constructor; [|auto]. destruct a as [u|x]; [|exact Hr1]. cbn in Ha, Hr1.
      destruct u as [ |q| | | ]; cbn [arg_refs]; auto.
      destruct (is_single_identifier q); [|apply Ha; exact Hr1].
      destruct (arg_mapping ms (gp_path q)) as [v|] eqn:E2; [exact (ok_arg_mapping _ _ E2)|apply Ha; exact Hr1].
    - intros p Ho. exact Ho.
    - intros t e IH Ho. unfold ok in *. cbn in *. rewrite Forall_app in *. split; [apply IH; tauto|].
      unfold ConstExpr_specialize. destruct e as [g|s]; [|tauto].
      destruct (is_single_identifier g); [|tauto]. destruct (const_mapping ms (gp_path g)) as [x|] eqn:E; [exact (ok_const_mapping _ _ E)|tauto].
    - intros r args n nr IH1 IH2 Ho. unfold ok in *. cbn in *. rewrite Forall_app, Forall_concat_map in *. destruct Ho as [H1 H2].
      split; [auto|]. clear -IH2 H2. induction IH2; cbn; [constructor|]. inversion H2; subst. constructor; auto.
  Qed.
  (** Replacing instantiations. *)
  Hypothesis PN : forall p, P {| r_path := p; r_name := p; r_kind := None |}.
  Lemma ok_mangle : forall m t, ok t -> ok (Type_mangle_paths m t).
  Proof.
    intros m. apply (Ty_only_ind (fun t => ok t -> ok (Type_mangle_paths m t))).
    - intros t c n r IH Ho. cbn. apply IH. exact Ho.
    - intros p e gs ct _ Ho. cbn [Type_mangle_paths]. destruct (is_nil _); [assumption|].
      destruct (replacement _ _) as [q|]; [|assumption]. unfold ok. cbn. constructor; [apply PN|constructor].
    - intros p Ho. exact Ho.
    - intros t e IH Ho. unfold ok in *. cbn in *. rewrite Forall_app in *. split; [apply IH|]; tauto.
    - intros r args n nr IH1 IH2 Ho. unfold ok in *. cbn in *. rewrite Forall_app, Forall_concat_map in *. destruct Ho as [H1 H2].
      split; [auto|]. clear -IH2 H2. induction IH2; cbn; [constructor|]. inversion H2; subst. constructor; auto.
  Qed.
End Keep.

(** Renaming changes the written names, one by one, and nothing else. *)
Definition rename_ref (ex : ExportConfig) (ps : GenericParams) (r : reference) : reference :=
  {| r_path := r_path r; r_name := if is_generic_param ps (r_path r) then r_name r else export_rename ex (r_name r); r_kind := r_kind r |}.
Lemma concat_map_map : forall A B C (f : A -> A) (g : A -> list B) (h : A -> list C) (k : B -> C) l,
  Forall (fun x => h (f x) = map k (g x)) l -> concat (map h (map f l)) = map k (concat (map g l)).
Proof. intros A B C f g h k l. induction 1 as [|x r Hx Hr IH]; [reflexivity|]. cbn. rewrite Hx, IH, map_app. reflexivity. Qed.
Lemma rename_refs : forall ex ps,
  (forall t, type_refs (Type_rename_for_config ex ps t) = map (rename_ref ex ps) (type_refs t))
  /\ (forall g, path_refs (GenericPath_rename_for_config ex ps g) = map (rename_ref ex ps) (path_refs g))
  /\ (forall a, arg_refs (GenericArgument_rename_for_config ex ps a) = map (rename_ref ex ps) (arg_refs a))
  /\ (forall e, const_refs (ConstExpr_rename_for_config ex ps e) = map (rename_ref ex ps) (const_refs e)).
Proof.
  intros ex ps. apply Ty_mut_ind; cbn; intros; auto.
  - rewrite map_app. congruence.
  - rewrite map_app, H. f_equal. apply concat_map_map. assumption.
  - f_equal. apply concat_map_map. assumption.
Qed.
Lemma rename_type_refs : forall ex ps t, type_refs (Type_rename_for_config ex ps t) = map (rename_ref ex ps) (type_refs t).
Proof. intros ex ps. apply (rename_refs ex ps). Qed.
Lemma is_generic_nil : forall p, is_generic_param [] p = false. Proof. reflexivity. Qed.
Lemma rename_lit_refs : forall ex v, lit_refs (Literal_rename_for_config ex v) = map (rename_ref ex []) (lit_refs v).
Proof.
  intros ex. apply Literal_ind'; cbn; intros; auto.
  - destruct a as [[p e]|]; reflexivity.
  - rewrite map_app. congruence.
  - f_equal.     apply concat_map_map. assumption.
  - rewrite rename_type_refs, map_app. congruence.
  - apply concat_map_map. assumption.
Qed.
Lemma rename_lit_constants : forall ex v, lit_constants (Literal_rename_for_config ex v) = map (export_rename ex) (lit_constants v).
Proof.
  intros ex. apply Literal_ind'; cbn; intros; auto.
  - destruct a as [[p e]|]; reflexivity.
  - rewrite map_app. congruence.
  -     apply concat_map_map. assumption.
  - apply concat_map_map. assumption.
Qed.

(** ** Items under renaming *)
Definition rename_scoped (ex : ExportConfig) (r : scoped) : scoped := (fst r, rename_ref ex (fst r) (snd r)).
Lemma under_rename : forall ex ps rs, under ps (map (rename_ref ex ps) rs) = map (rename_scoped ex) (under ps rs).
Proof. intros ex ps rs. unfold under. rewrite !map_map. reflexivity. Qed.
Lemma under_app : forall ps a b, under ps (a ++ b) = under ps a ++ under ps b.
Proof. intros. unfold under. apply map_app. Qed.
Lemma rename_constant_refs : forall ex c, constant_refs (Constant_rename_for_config ex c) = map (rename_scoped ex) (constant_refs c).
Proof.
  intros ex c. unfold constant_refs. cbn [Constant_rename_for_config c_ty c_value]. rewrite rename_type_refs, rename_lit_refs.
  rewrite <- map_app. apply under_rename.
Qed.
Lemma fields_refs_ty : forall ps fs gs, map fd_ty fs = map fd_ty gs -> fields_refs ps fs = fields_refs ps gs.
Proof.
  intros ps fs gs E. unfold fields_refs. rewrite <- (map_map fd_ty type_refs fs), <- (map_map fd_ty type_refs gs), E. reflexivity.
Qed.
Lemma rename_fields_refs : forall ex ps fs gs, map fd_ty gs = map (Type_rename_for_config ex ps) (map fd_ty fs) ->
  fields_refs ps gs = map (rename_scoped ex) (fields_refs ps fs).
Proof.
  intros ex ps fs gs E. unfold fields_refs. rewrite <- (map_map fd_ty type_refs fs), <- (map_map fd_ty type_refs gs), E.
  rewrite <- under_rename. f_equal. apply concat_map_map. apply Forall_forall. intros t _. apply rename_type_refs.
Qed.
Lemma zip_names_ty : forall fs ns, map fd_ty (zip_names fs ns) = map fd_ty fs.
Proof. induction fs as [|f r IH]; intros [|n ns]; cbn; auto. rewrite IH. reflexivity. Qed.
Lemma map_ty_same : forall (g : Field -> Field) fs, (forall f, fd_ty (g f) = fd_ty f) -> map fd_ty (map g fs) = map fd_ty fs.
Proof. intros g fs E. rewrite map_map. apply map_ext. assumption. Qed.
Lemma rename_fields_ty : forall (H : Heck) c a fs gs, Struct_rename_fields c a fs = Some gs -> map fd_ty gs = map fd_ty fs.
Proof.
  intros H c a fs gs. unfold Struct_rename_fields. destruct (rule_or _ _ _) as [r|]; [|discriminate].
  destruct (an_list a "field-names"); [inversion 1; apply zip_names_ty|].
  destruct (not_none r); inversion 1; apply map_ty_same; [reflexivity|]. intros f. destruct (starts_with_digit _); reflexivity.
Qed.
Lemma struct_rename_fields_ty : forall (H : Heck) c s s', Struct_rename_for_config c s = Some s' ->
  map fd_ty (s_fields s') = map fd_ty (rename_field_types (export c) (s_generic_params s) (s_has_tag_field s) (s_fields s))
  /\ s_associated_constants s' = map (Constant_rename_for_config (export c)) (s_associated_constants s)
  /\ s_export_name s' = (if s_has_tag_field s && Language_eqb (language c) Cxx then s_export_name s else export_rename (export c) (s_export_name s)).
Proof.
  intros H c s s'. unfold Struct_rename_for_config. destruct (Struct_rename_fields _ _ _) as [fs|] eqn:E; [|discriminate].
  intros Es. inversion Es; subst. cbn [s_fields set_s_constants set_s_export_name set_s_fields s_associated_constants s_export_name].
  repeat split. rewrite map_ty_same by reflexivity. eapply rename_fields_ty. eassumption.
Qed.
Lemma rename_field_types_own : forall ex ps fs (b : bool),
  map fd_ty (if b then tl (rename_field_types ex ps b fs) else rename_field_types ex ps b fs)
  = map (Type_rename_for_config ex ps) (map fd_ty (if b then tl fs else fs)).
Proof. intros ex ps fs b. destruct b; destruct fs as [|f r]; cbn; rewrite ?map_map; reflexivity. Qed.
Lemma map_tl : forall A B (f : A -> B) l, map f (tl l) = tl (map f l). Proof. intros A B f []; reflexivity. Qed.
Lemma rename_struct_refs : forall (H : Heck) c s s', Struct_rename_for_config c s = Some s' ->
  struct_refs s' = map (rename_scoped (export c)) (struct_refs s).
Proof.
  intros H c s s' E. pose proof (struct_rename_shape _ _ _ _ E) as (_ & Hg & Ht & _).
  destruct (struct_rename_fields_ty _ _ _ _ E) as (Hf & Hc & _). unfold struct_refs. rewrite Hg, Hc, map_app. f_equal.
  - apply rename_fields_refs. unfold own_fields. rewrite Ht. rewrite <- rename_field_types_own.
    destruct (s_has_tag_field s); [rewrite !map_tl, Hf|rewrite Hf]; reflexivity.
  - apply concat_map_map. apply Forall_forall. intros x _. apply rename_constant_refs.
Qed.
Lemma rename_union_refs : forall (H : Heck) c u u', Union_rename_for_config c u = Some u' ->
  item_refs (ICUnion u') = map (rename_scoped (export c)) (item_refs (ICUnion u)).
Proof.
  intros H c u u'. unfold Union_rename_for_config. destruct (rule_or _ _ _) as [r|]; [|discriminate].
  intros E. inversion E; subst; clear E. cbn [item_refs u_fields u_generic_params set_u_export_name set_u_fields].
  apply rename_fields_refs.
  transitivity (map fd_ty (map (map_fd_ty (Type_rename_for_config (export c) (u_generic_params u))) (u_fields u))); [|rewrite !map_map; reflexivity].
  destruct (an_list _ _); [apply zip_names_ty|]. destruct (not_none r); [apply map_ty_same; reflexivity|].
  destruct (u_tuple_union u); [apply map_ty_same|]; reflexivity.
Qed.
Lemma rename_variant_refs : forall (H : Heck) c v v', EnumVariant_rename c v = Some v' ->
  variant_refs v' = map (rename_scoped (export c)) (variant_refs v).
Proof.
  intros H c v v'. unfold EnumVariant_rename, variant_refs. destruct (v_body v) as [a|n s i ic].
  - intros E. inversion E; subst. cbn. destruct (v_discriminant v); cbn; [|reflexivity]. rewrite rename_lit_refs. apply under_rename.
  - destruct (Struct_rename_for_config c s) as [s'|] eqn:Es; [|discriminate]. intros E. inversion E; subst. cbn [v_body v_discriminant].
    rewrite (rename_struct_refs _ _ _ _ Es), map_app. f_equal. destruct (v_discriminant v); cbn; [|reflexivity]. rewrite rename_lit_refs. apply under_rename.
Qed.
(** The later steps of renaming an enum change names of variants only. *)
Lemma variant_refs_prefix : forall c n v, variant_refs (EnumVariant_prefix c n v) = variant_refs v.
Proof. intros c n v. unfold EnumVariant_prefix, variant_refs. cbn. destruct (v_body v); reflexivity. Qed.
Lemma variant_refs_rule : forall (H : Heck) r n v, variant_refs (EnumVariant_rule r n v) = variant_refs v.
Proof. intros H r n v. unfold EnumVariant_rule, variant_refs. cbn. destruct (v_body v); reflexivity. Qed.
(** Replacing the tag's type does not touch the other fields. *)
Definition tagged_bodies (e : Enum) : Prop := forall v n s i ic, In v (e_variants e) -> v_body v = VBody n s i ic ->
  s_has_tag_field s = inline_tag_field (e_repr e).
Lemma rename_tag_refs : forall c e e1, Enum_rename_tag c e = Some e1 -> tagged_bodies e ->
  map variant_refs (e_variants e1) = map variant_refs (e_variants e).
Proof.
  intros c e e1. unfold Enum_rename_tag, tagged_bodies. destruct (e_tag e) as [t|]; [|inversion 1; reflexivity].
  destruct (Language_eqb (language c) Cxx); [inversion 1; reflexivity|].
  destruct (ReprStyle_eqb (rp_style (e_repr e)) ReprRust) eqn:Es; [|inversion 1; reflexivity].
  destruct (map_opt _ (e_variants e)) as [vs|] eqn:E; [|discriminate]. intros E1 Ht. inversion E1; subst; clear E1. cbn [e_variants].
  apply map_opt_Forall2 in E. revert Ht. induction E as [|v v' r r' Hv Hr IH]; intros Ht; [reflexivity|]. cbn [map]. rewrite IH; [|intros; eapply Ht; [right; eassumption|eassumption]]. f_equal.
  unfold map_opt_body in Hv. specialize (Ht v). unfold variant_refs. destruct (v_body v) as [a|n s i ic] eqn:Eb.
  - inversion Hv; subst. cbn. reflexivity.
  - destruct (replace_first_type _ s) as [s'|] eqn:Ef; [|discriminate]. inversion Hv; subst; clear Hv. cbn [v_body set_v_body v_discriminant]. f_equal.
    specialize (Ht n s i ic (or_introl eq_refl) eq_refl). unfold replace_first_type in Ef. destruct (s_fields s) as [|f fs] eqn:Efs; [discriminate|].
    inversion Ef; subst; clear Ef. unfold struct_refs, own_fields. cbn [set_s_fields s_fields s_has_tag_field s_generic_params s_associated_constants].
    replace (s_has_tag_field s) with true; [rewrite Efs; reflexivity|]. symmetry. rewrite Ht. unfold inline_tag_field. destruct (rp_style (e_repr e)); try discriminate; reflexivity.
Qed.
Lemma rename_enum_refs : forall (H : Heck) c e e', Enum_rename_for_config c e = Some e' -> tagged_bodies e ->
  item_refs (ICEnum e') = map (rename_scoped (export c)) (item_refs (ICEnum e)).
Proof.
  intros H c e e'. unfold Enum_rename_for_config. destruct (Enum_rename_tag c e) as [e1|] eqn:E1; [|discriminate].
  destruct (map_opt (EnumVariant_rename c) (e_variants e1)) as [vs|] eqn:Ev; [|discriminate].
  destruct (rule_or _ _ _) as [r|]; [|discriminate]. intros E Ht. inversion E; subst; clear E.
  cbn [item_refs e_variants set_e_variants]. pose proof (rename_tag_refs _ _ _ E1 Ht) as Hr.
  set (vs2 := if match an_bool (e_annotations e) "prefix-with-name" with Some b => b | None => en_prefix_with_name (enumeration c) end then map (EnumVariant_prefix c (e_export_name e1)) vs else vs).
  assert (H3 : forall ws, map variant_refs (match not_none r with Some r0 => map (EnumVariant_rule r0 (e_export_name e1)) ws | None => ws end) = map variant_refs ws).
  { intros ws. destruct (not_none r); [|reflexivity]. rewrite map_map. apply map_ext. intros v. apply variant_refs_rule. }
  assert (H2 : map variant_refs vs2 = map variant_refs vs).
  { unfold vs2. destruct (match an_bool _ _ with Some b => b | None => _ end); [|reflexivity]. rewrite map_map. apply map_ext. intros v. apply variant_refs_prefix. }
  rewrite H3, H2, <- Hr. apply map_opt_Forall2 in Ev. clear -Ev.
  induction Ev as [|v v' a b Hv Ha IH]; [reflexivity|]. cbn. rewrite (rename_variant_refs _ _ _ _ Hv), IH, map_app. reflexivity.
Qed.
Lemma rename_function_refs : forall (H : Heck) c f g, Function_rename_for_config c f = Some g ->
  function_refs g = map (rename_scoped (export c)) (function_refs f).
Proof.
  intros H c f g. unfold Function_rename_for_config. destruct (rule_or _ _ _) as [r|]; [|discriminate].
  set (a1 := match not_none r with Some _ => _ | None => _ end).
  assert (E1 : map a_ty a1 = map a_ty (f_args f)) by (unfold a1; destruct (not_none r); [rewrite map_map; apply map_ext|]; reflexivity).
  set (a2 := map _ a1).
  assert (E2 : map a_ty a2 = map (Type_rename_for_config (export c) []) (map a_ty (f_args f))) by (rewrite <- E1; unfold a2; rewrite !map_map; reflexivity).
  assert (Hx : forall a3, map a_ty a3 = map a_ty a2 ->
    function_refs (set_f_types (Type_rename_for_config (export c) [] (f_ret f)) a3 f) = map (rename_scoped (export c)) (function_refs f)).
  { intros a3 E3. unfold function_refs. cbn [set_f_types f_ret f_args].
    rewrite <- (map_map a_ty type_refs a3), E3, E2, rename_type_refs.
    rewrite <- (map_map a_ty type_refs (f_args f)), <- under_rename, map_app. f_equal. f_equal. apply concat_map_map.
    apply Forall_forall. intros t _. apply rename_type_refs. }
  destruct (an_list _ _) as [tuples|].
  - destruct (ptrs_as_arrays tuples) as [m|]; [|discriminate]. intros E. inversion E; subst. apply Hx.
    rewrite map_map. apply map_ext. intros a. unfold set_array_length. destruct (a_ty a) eqn:Ea, (a_name a); try (exact Ea); cbn; try congruence.
  - intros E. inversion E; subst. apply Hx. reflexivity.
Qed.
Lemma rename_global_refs : forall c g, global_refs (Static_rename_for_config c g) = map (rename_scoped (export c)) (global_refs g).
Proof. intros c g. unfold global_refs. cbn. rewrite rename_type_refs. apply under_rename. Qed.
