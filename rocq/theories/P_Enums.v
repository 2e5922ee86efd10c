(** Proofs about [S_Enums]: from the sources to the bindings. *)
Require Import Coq.Strings.String Coq.Strings.Ascii Coq.Lists.List Coq.Bool.Bool Coq.Arith.Arith Coq.NArith.NArith Coq.ZArith.ZArith Coq.micromega.Lia.
From Verif Require Import Base P_Base M_Reserved M_Config M_Cfg S_Cfg P_Cfg M_Type M_Ir M_Item S_Decl M_Attr M_Docs M_Library M_Syn M_Loader M_Parser S_Item S_Sort S_Library S_Names S_Mono
  S_Parse P_Type P_Sort P_Item P_Table P_Library P_Stages P_Names P_Spelling P_NamesLib S_Signature P_Signature P_SigLib P_ItemPasses P_Exports P_Modules P_Entries P_Crates S_Sources P_Sources P_Fresh P_Made
  S_Expr S_Literal S_Value P_Value S_Datatypes P_Datatypes S_Enums.
Import ListNotations.
Open Scope string_scope.

(** ** Discriminants *)
Section Discriminants.
  Variables (c : Config) (self : string).
  Definition settled (l : Literal) : Literal := Literal_rename_for_config (export c) (Literal_replace_self_with self l).
  Lemma settled_value : forall fuel b c_names e l, Literal_load (syntax e) = Some l -> narrow e -> Forall free_name (names_in e) ->
    c_value c_names (tree fuel b (settled l)) = c_value (c_name_of c c_names) (tree fuel b l).
  Proof.
    intros fuel b c_names. unfold settled.
    induction e as [t s n|n|n|q|s w m|x|x IH|x IH|x IH|o x IHx y IHy|o x IHx y IHy|x IHx y IHy|x IHx y IHy|o x IHx y IHy|x IHx y IHy|x IHx y IHy|x IH t];
      intros l L W F; cbn [syntax Literal_load lit_text names_in narrow] in L, F, W.
    - injection L as <-. cbn [Literal_replace_self_with Literal_rename_for_config tree c_value].
      destruct (int_suffix n (if s then rust_name t else "")) eqn:E.
      + rewrite !decimal_leaf by exact Logic.I. reflexivity.
      + rewrite !decimal_leaf; [reflexivity| |]; unfold int_suffix in E; repeat match type of E with (if ?x then _ else _) = _ => destruct x end; inversion E; reflexivity.
    - injection L as <-. cbn [Literal_replace_self_with Literal_rename_for_config tree c_value]. rewrite <- (sapp_nil_r (decimal n)). rewrite !decimal_leaf by exact Logic.I. reflexivity.
    - injection L as <-. rewrite (proj2 (N.leb_le n 255) W). reflexivity.
    - injection L as <-. destruct q; reflexivity.
    - injection L as <-. destruct W as [-> | ->]; [destruct s, w|destruct w, m]; reflexivity.
    - injection L as <-. inversion F as [|a r Fx]; subst. cbn [Literal_replace_self_with Literal_rename_for_config tree c_value written_name]. rewrite Fx. reflexivity.
    - exact (IH _ L W F).
    - destruct (Literal_load (syntax x)) as [lx|]; [|discriminate]. injection L as <-. cbn [Literal_replace_self_with Literal_rename_for_config tree c_value]. rewrite (IH _ eq_refl W F). reflexivity.
    - destruct (Literal_load (syntax x)) as [lx|]; [|discriminate]. injection L as <-. cbn [Literal_replace_self_with Literal_rename_for_config tree c_value]. rewrite (IH _ eq_refl W F). reflexivity.
    - apply Forall_app in F as [F1 F2]. destruct W as [W1 W2]. destruct (Literal_load (syntax x)) as [lx|]; [|discriminate]. destruct (Literal_load (syntax y)) as [ly|]; [|discriminate]. injection L as <-.
      cbn [Literal_replace_self_with Literal_rename_for_config tree c_value]. rewrite (IHx _ eq_refl W1 F1), (IHy _ eq_refl W2 F2). reflexivity.
    - apply Forall_app in F as [F1 F2]. destruct W as [W1 W2]. destruct (Literal_load (syntax x)) as [lx|]; [|discriminate]. destruct (Literal_load (syntax y)) as [ly|]; [|discriminate]. injection L as <-.
      cbn [Literal_replace_self_with Literal_rename_for_config tree c_value]. rewrite (IHx _ eq_refl W1 F1), (IHy _ eq_refl W2 F2). reflexivity.
    - apply Forall_app in F as [F1 F2]. destruct W as [W1 W2]. destruct (Literal_load (syntax x)) as [lx|]; [|discriminate]. destruct (Literal_load (syntax y)) as [ly|]; [|discriminate]. injection L as <-.
      cbn [Literal_replace_self_with Literal_rename_for_config tree c_value]. rewrite (IHx _ eq_refl W1 F1), (IHy _ eq_refl W2 F2). reflexivity.
    - apply Forall_app in F as [F1 F2]. destruct W as [W1 W2]. destruct (Literal_load (syntax x)) as [lx|]; [|discriminate]. destruct (Literal_load (syntax y)) as [ly|]; [|discriminate]. injection L as <-.
      cbn [Literal_replace_self_with Literal_rename_for_config tree c_value]. rewrite (IHx _ eq_refl W1 F1), (IHy _ eq_refl W2 F2). reflexivity.
    - apply Forall_app in F as [F1 F2]. destruct W as [W1 W2]. destruct (Literal_load (syntax x)) as [lx|]; [|discriminate]. destruct (Literal_load (syntax y)) as [ly|]; [|discriminate]. injection L as <-.
      cbn [Literal_replace_self_with Literal_rename_for_config tree c_value]. rewrite (IHx _ eq_refl W1 F1), (IHy _ eq_refl W2 F2). reflexivity.
    - apply Forall_app in F as [F1 F2]. destruct W as [W1 W2]. destruct (Literal_load (syntax x)) as [lx|]; [|discriminate]. destruct (Literal_load (syntax y)) as [ly|]; [|discriminate]. injection L as <-.
      cbn [Literal_replace_self_with Literal_rename_for_config tree c_value]. rewrite (IHx _ eq_refl W1 F1), (IHy _ eq_refl W2 F2). reflexivity.
    - apply Forall_app in F as [F1 F2]. destruct W as [W1 W2]. destruct (Literal_load (syntax x)) as [lx|]; [|discriminate]. destruct (Literal_load (syntax y)) as [ly|]; [|discriminate]. injection L as <-.
      cbn [Literal_replace_self_with Literal_rename_for_config tree c_value]. rewrite (IHx _ eq_refl W1 F1), (IHy _ eq_refl W2 F2). reflexivity.
    - destruct (Literal_load (syntax x)) as [lx|]; [|discriminate]. destruct (cast_load t) as (p & Hp & _). rewrite Hp in L. injection L as <-.
      cbn [Literal_replace_self_with Literal_rename_for_config replace_self_with Type_rename_for_config tree c_value]. rewrite (IH _ eq_refl W F). reflexivity.
  Qed.
  Lemma number_kept : forall e l, Literal_load e = Some l -> same_number c (Some e) (Some (settled l)).
  Proof.
    intros e l L x names c_names t z -> K E (F1 & FN & F2) fuel b. rewrite (settled_value fuel b c_names _ _ L FN F2).
    assert (V : forall y t v, names y = Some (t, v) -> valid t v) by (intros y u v Y; exact (proj1 (K y u v Y))).
    assert (A : forall y t v, In y (names_in x) -> names y = Some (t, v) -> exists k, leaf_value (c_name_of c c_names) y = Some (k, v)).
    { intros y u v I Y. destruct (K y u v Y) as (_ & k & Hk). rewrite Forall_forall in F2. exists k. rewrite (F2 y I). exact Hk. }
    (* names outside of the expression do not matter *)
    exists (type_in_c (c_name_of c c_names) x).
    set (names' := fun y => if existsb (String.eqb y) (names_in x) then names y else None).
    assert (S1 : forall y, (forall n, In n (names_in y) -> In n (names_in x)) -> rust_value names' y = rust_value names y).
    { induction y as [? ? ?|?|?|?|? ? ?|n|y IH|y IH|y IH|o y1 IH1 y2 IH2|o y1 IH1 y2 IH2|y1 IH1 y2 IH2|y1 IH1 y2 IH2|o y1 IH1 y2 IH2|y1 IH1 y2 IH2|y1 IH1 y2 IH2|y IH ?]; intros I; cbn [rust_value];
        try reflexivity; try (rewrite IH by exact I; reflexivity);
        try (rewrite IH1, IH2 by (intros m M; apply I; cbn [names_in]; apply in_or_app; auto); reflexivity).
      - unfold names'. assert (existsb (String.eqb n) (names_in x) = true) as ->; [|reflexivity]. apply existsb_exists. exists n. split; [apply I; left; reflexivity|apply String.eqb_refl].
    }
    assert (S2 : forall y, (forall n, In n (names_in y) -> In n (names_in x)) -> value_of names' y = value_of names y) by (intros y I; unfold value_of; destruct y; try reflexivity; rewrite S1 by exact I; reflexivity).
    assert (S3 : forall y, (forall n, In n (names_in y) -> In n (names_in x)) -> fits names (c_name_of c c_names) y -> fits names' (c_name_of c c_names) y).
    { induction y as [? ? ?|?|?|?|? ? ?|n|y IH|y IH|y IH|o y1 IH1 y2 IH2|o y1 IH1 y2 IH2|y1 IH1 y2 IH2|y1 IH1 y2 IH2|o y1 IH1 y2 IH2|y1 IH1 y2 IH2|y1 IH1 y2 IH2|y IH ?]; intros I F; cbn [fits] in F |- *; auto;
        repeat rewrite S2 by exact I; unfold both_fit in *;
        try (assert (I1 : forall n, In n (names_in y1) -> In n (names_in x)) by (intros m M; apply I; cbn [names_in]; apply in_or_app; auto);
             assert (I2 : forall n, In n (names_in y2) -> In n (names_in x)) by (intros m M; apply I; cbn [names_in]; apply in_or_app; auto);
             repeat rewrite (S2 y1 I1); repeat rewrite (S2 y2 I2)); intuition.
      - rewrite S2 by exact I. assumption. }
    assert (E' : rust_value names' x = Some (t, z)) by (rewrite S1 by auto; exact E).
    refine (values_from fuel b names' (c_name_of c c_names) _ _ x t z l (operand_of _ _ _ E') (S3 x (fun n N => N) F1) L).
    - intros y u v Y. unfold names' in Y. destruct (existsb _ _) eqn:X; [|discriminate]. apply existsb_exists in X as (m & M & Q). apply String.eqb_eq in Q. subst m. exact (A y u v M Y).
    - intros y u v Y. unfold names' in Y. destruct (existsb _ _); [|discriminate]. exact (V y u v Y).
  Qed.
End Discriminants.

(** ** The data of a variant *)
Lemma variant_fields_loaded : forall self inside l i fs, load_variant_fields i self inside l = Some fs -> Forall2 (raw_field self) (variant_members inside i l) fs.
Proof.
  intros self inside. induction l as [|f r IH]; intros i fs E; cbn [load_variant_fields] in E; [injection E as <-; constructor|]. cbn [variant_members].
  destruct (Type_load (sf_ty f)) as [[ty|]|] eqn:T; [| |discriminate].
  - rewrite (sizeless_some _ _ T). destruct (AnnotationSet_load (sf_attrs f)) as [a|] eqn:A; [|discriminate]. destruct (load_variant_fields (S i) self inside r) as [ys|] eqn:R; [|discriminate].
    injection E as <-. constructor; [|apply IH; exact R]. split; [exists ty; auto|]. cbn. auto.
  - rewrite (sizeless_none _ T). apply IH. exact E.
Qed.
Lemma default_values : forall a v n, n <> "derive-ostream" -> lookup n (an_values (add_default a "derive-ostream" v)) = lookup n (an_values a).
Proof.
  intros a v n N. unfold add_default. destruct (lookup "derive-ostream" (an_values a)); [reflexivity|]. cbn [an_values lookup].
  apply String.eqb_neq in N. rewrite N. reflexivity.
Qed.
Lemma default_names : forall (H : Heck) c a v own, field_names c (add_default a "derive-ostream" v) own = field_names c a own.
Proof. intros. unfold field_names, rule_or, parse_atom_rule, an_list. rewrite !default_values by discriminate. reflexivity. Qed.
Lemma default_deprecated : forall a v, an_deprecated (add_default a "derive-ostream" v) = an_deprecated a.
Proof. intros. unfold add_default. destruct (lookup _ _); reflexivity. Qed.

Section Enums.
  Context {H : Heck}.
  Variables (c : Config) (kw : string -> option DeclarationType) (g : Ty -> Ty).
  Hypothesis Step : step_ok (language c) kw g.
  Let passes (t : Ty) : Ty := g (simplify_standard_types (language c) t).

  Definition tagged (inl : bool) (tag : option string) (s0 s1 : Struct) : Prop :=
    if inl then exists t, tag = Some t /\ (language c = Cxx /\ t = "Tag" /\ s1 = s0 \/ replace_first_type (TPath (GenericPath_new t [])) s0 = Some s1)
    else tag = None /\ s1 = s0.

  Lemma body_made : forall self gps v a ann member inl fs tag s1 s2,
    let inside := if in_place c (sv_fields v) then Some member else None in
    parse_fields inl self inside (source_fields (sv_fields v)) = Some fs -> fresh_fields fs ->
    AnnotationSet_load (sv_attrs v) = Some a -> (forall own, field_names c ann own = field_names c a own) ->
    tagged inl tag (map_s_types passes (Struct_new (sv_ident v ++ "_Body") gps fs inl true None false None ann [])) s1 ->
    Struct_rename_for_config c s1 = Some s2 -> (language c <> Cxx -> gps = []) ->
    forall p, body_for c kw self p tag member gps v (match p with Some p => set_s_export_name (joined c p (s_export_name s2)) s2 | None => s2 end).
  Proof.
    intros self gps v a ann member inl fs tag s1 s2 inside PF Fr A SN T R NG p.
    unfold parse_fields in PF. destruct (load_variant_fields 0 self inside (source_fields (sv_fields v))) as [raw|] eqn:LF; [|discriminate].
    pose proof (variant_fields_loaded _ _ _ _ _ LF) as RF.
    assert (Fr' : fresh_fields raw). { injection PF as <-. destruct inl; [inversion Fr; assumption|exact Fr]. }
    (* the fields before renaming *)
    assert (Q : exists tags, length tags = (if inl then 1 else 0) /\ is_some tag = inl
      /\ map fd_name tags = match tag with Some _ => [match inside with Some n => n ++ "_tag" | None => "tag" end] | None => [] end
      /\ Forall (fun f => Some (fd_ty f) = option_map (fun t => TPath (GenericPath_new t [])) tag /\ fd_cfg f = None) tags
      /\ s1 = Struct_new (sv_ident v ++ "_Body") gps (tags ++ map (map_fd_ty passes) raw) inl true None false None ann []).
    { unfold tagged in T. injection PF as <-. destruct inl.
      - destruct T as (t & -> & [(LC & -> & ->)|T]).
        + exists [map_fd_ty passes (tag_field inside)]. repeat split; try reflexivity. constructor; [|constructor]. split; [|reflexivity]. cbn. f_equal.
          unfold passes. destruct Step as (_ & _ & _ & _ & _ & Id). rewrite (Id LC). reflexivity.
        + cbn in T. injection T as <-. exists [set_fd_ty (TPath (GenericPath_new t [])) (map_fd_ty passes (tag_field inside))]. repeat split; try reflexivity. constructor; [|constructor]. split; reflexivity.
      - destruct T as [-> ->]. exists []. do 2 (split; [reflexivity|]). split; [reflexivity|]. split; [apply Forall_nil|destruct raw; reflexivity]. }
    destruct Q as (tags & TL & TS & TN & TF & ->). clear T.
    unfold Struct_rename_for_config in R. cbn [Struct_new s_has_tag_field s_export_name s_annotations s_generic_params s_fields] in R.
    assert (RT : rename_field_types (export c) gps inl (tags ++ map (map_fd_ty passes) raw)%list = (tags ++ map (map_fd_ty (finished c g gps)) raw)%list).
    { destruct inl; destruct tags as [|f tags]; try discriminate TL.
      - destruct tags; [|discriminate TL]. cbn [app rename_field_types]. rewrite field_twice. reflexivity.
      - destruct raw as [|f raw]; [reflexivity|]. cbn [app map rename_field_types]. rewrite field_twice. reflexivity. }
    rewrite RT in R. destruct (Struct_rename_fields _ _ _) as [fs'|] eqn:SR; [|discriminate]. destruct (fields_renamed H c _ _ _ SR) as (names & FN & ->).
    rewrite SN, map_app, TN, (raw_names _ _ _ _ RF) in FN. pose proof (names_length H c _ _ _ FN) as NL.
    assert (TL' : length tags = length (match tag with Some _ => [match inside with Some n => n ++ "_tag" | None => "tag" end] | None => [] end)) by (rewrite <- TN, map_length; reflexivity).
    rewrite app_length, <- TL', map_length in NL.
    injection R as <-.
    assert (WA : forall l1 l2 ns, length ns = length l1 + length l2 -> with_names ns (l1 ++ l2)%list = (with_names (firstn (length l1) ns) l1 ++ with_names (skipn (length l1) ns) l2)%list).
    { induction l1 as [|x l1 IH]; intros l2 ns E; [reflexivity|]. destruct ns as [|n ns]; [discriminate|]. injection E as E. cbn [length firstn skipn app with_names]. rewrite (IH l2 ns E). reflexivity. }
    assert (ML : length (variant_members inside 0 (source_fields (sv_fields v))) = length raw) by exact (raw_length _ _ _ RF).
    constructor.
    - destruct p; reflexivity.
    - rewrite TS. destruct p; reflexivity.
    - intro K. exists a, names, (with_names (map escape_str (firstn (length tags) names)) tags),
        (with_names (map escape_str (skipn (length tags) names)) (map (map_fd_ty (finished c g gps)) raw)).
      cbv zeta. fold inside.
      assert (WL : length (with_names (map escape_str (firstn (length tags) names)) tags) = length tags).
      { clear - NL. revert names NL. induction tags as [|x tags IH]; intros [|n names] NL; try reflexivity; cbn in NL |- *; [discriminate|]. injection NL as NL. rewrite (IH names NL). reflexivity. }
      split; [exact A|]. split; [exact FN|]. split.
      { rewrite <- with_escaped, <- with_escaped, <- map_app, <- WA by (rewrite map_length; lia). destruct p; reflexivity. }
      rewrite WL. split; [exact TL'|]. split.
      { clear - NL. revert names NL. induction tags as [|x tags IH]; intros [|n names] NL; try reflexivity; cbn in NL |- *. injection NL as NL. rewrite (IH names NL). reflexivity. }
      split.
      { clear - TF. generalize (map escape_str (firstn (length tags) names)). induction TF as [|f r T F IH]; intros [|n ns]; cbn [with_names]; try apply Forall_nil. apply Forall_cons; [exact T|apply IH]. }
      apply fields_finished; try assumption. rewrite map_length, skipn_length. lia.
  Qed.

  (** *** Renaming, variant by variant *)
  Definition retagged (e : Enum) (v v1 : EnumVariant) : Prop :=
    v1 = v /\ (e_tag e = None \/ language c = Cxx \/ rp_style (e_repr e) <> ReprRust)
    \/ exists b, language c <> Cxx /\ rp_style (e_repr e) = ReprRust
        /\ map_opt_body (replace_first_type (TPath (GenericPath_new (export_rename (export c) (e_export_name e) ++ "_Tag") []))) (v_body v) = Some b /\ v1 = set_v_body b v.
  Definition last_names (ann : AnnotationSet) (name : string) (rules : RenameRule) (v : EnumVariant) : EnumVariant :=
    let v := if prefixed c ann then EnumVariant_prefix c name v else v in
    match not_none rules with Some r => EnumVariant_rule r name v | None => v end.
  Lemma enum_renamed : forall e e', Enum_rename_for_config c e = Some e' -> exists rules,
    let name := export_rename (export c) (e_export_name e) in
    rule_or (e_annotations e) "rename-all" (en_rename_variants (enumeration c)) = Some rules
    /\ e_path e' = e_path e /\ e_export_name e' = name /\ e_generic_params e' = e_generic_params e /\ e_repr e' = e_repr e /\ e_cfg e' = e_cfg e
    /\ e_annotations e' = e_annotations e /\ e_documentation e' = e_documentation e
    /\ e_tag e' = match e_tag e with Some t => Some (if Language_eqb (language c) Cxx then t else name ++ "_Tag") | None => None end
    /\ Forall2 (fun v v' => exists v1 v2, retagged e v v1 /\ EnumVariant_rename c v1 = Some v2 /\ v' = last_names (e_annotations e) name rules v2) (e_variants e) (e_variants e').
  Proof.
    intros e e' R. unfold Enum_rename_for_config in R. destruct (Enum_rename_tag c e) as [e1|] eqn:T; [|discriminate].
    destruct (map_opt (EnumVariant_rename c) (e_variants e1)) as [vs|] eqn:M; [|discriminate].
    destruct (rule_or (e_annotations e) "rename-all" _) as [rules|] eqn:RU; [|discriminate]. apply (f_equal (fun o => match o with Some x => x | None => e' end)) in R. subst e'.
    assert (Q : e_path e1 = e_path e /\ e_export_name e1 = export_rename (export c) (e_export_name e) /\ e_generic_params e1 = e_generic_params e /\ e_repr e1 = e_repr e /\ e_cfg e1 = e_cfg e
      /\ e_annotations e1 = e_annotations e /\ e_documentation e1 = e_documentation e
      /\ e_tag e1 = match e_tag e with Some t => Some (if Language_eqb (language c) Cxx then t else export_rename (export c) (e_export_name e) ++ "_Tag") | None => None end
      /\ Forall2 (retagged e) (e_variants e) (e_variants e1)).
    { assert (SAME : forall l, (e_tag e = None \/ language c = Cxx \/ rp_style (e_repr e) <> ReprRust) -> Forall2 (retagged e) l l).
      { intros l W. induction l; constructor; [left; auto|assumption]. }
      unfold Enum_rename_tag in T. destruct (e_tag e) as [t|] eqn:ET.
      - destruct (Language_eqb (language c) Cxx) eqn:LC.
        + apply (f_equal (fun o => match o with Some x => x | None => e1 end)) in T. subst e1. cbn. do 8 (split; [reflexivity|]). apply SAME. right. left. destruct (language c); (reflexivity || discriminate).
        + destruct (if ReprStyle_eqb (rp_style (e_repr e)) ReprRust then _ else _) as [vs1|] eqn:V; [|discriminate].
          apply (f_equal (fun o => match o with Some x => x | None => e1 end)) in T. subst e1. cbn. do 8 (split; [reflexivity|]).
          destruct (rp_style (e_repr e)) eqn:RS; cbn [ReprStyle_eqb] in V; try (injection V as <-; apply SAME; right; right; discriminate).
          apply map_opt_Forall2 in V. assert (LN : language c <> Cxx) by (intro Z; rewrite Z in LC; discriminate).
          eapply Forall2_impl; [|exact V]. intros v v1 E. cbn beta in E. destruct (map_opt_body _ (v_body v)) as [b|] eqn:B; [|discriminate]. injection E as <-. right. exists b. auto.
      - apply (f_equal (fun o => match o with Some x => x | None => e1 end)) in T. subst e1. cbn. do 8 (split; [reflexivity|]). apply SAME. left. reflexivity. }
    destruct Q as (Q1 & Q2 & Q3 & Q4 & Q5 & Q6 & Q7 & Q8 & Q9). exists rules. cbv zeta. split; [reflexivity|]. cbn [set_e_variants e_path e_export_name e_generic_params e_repr e_cfg e_annotations e_documentation e_tag e_variants].
    rewrite <- Q2 in Q8 |- *. do 8 (split; [first [assumption|congruence]|]). apply map_opt_Forall2 in M.
    assert (X : match not_none rules with
                | Some r => map (EnumVariant_rule r (e_export_name e1)) (if prefixed c (e_annotations e) then map (EnumVariant_prefix c (e_export_name e1)) vs else vs)
                | None => if prefixed c (e_annotations e) then map (EnumVariant_prefix c (e_export_name e1)) vs else vs
                end = map (last_names (e_annotations e) (e_export_name e1) rules) vs).
    { unfold last_names. destruct (prefixed c (e_annotations e)), (not_none rules); rewrite ?map_map; try reflexivity. rewrite map_id. reflexivity. }
    unfold prefixed in X at 1 2. rewrite X. clear X. revert vs M. clear - Q9.
    induction Q9 as [|v v1 l l1 R Rs IH]; intros vs M; inversion M as [|a v2 r vs' E M']; subst; cbn [map]; constructor; [|apply IH; exact M'].
    exists v1, v2. auto.
  Qed.

  (** *** One variant *)
  Variables (here : (atom -> bool) -> bool) (k : option Cfg).
  Hypothesis Here : forall rho, cfg_eval_opt rho k = here rho.
  Definition variant_origin (self : string) (v : svariant) (x : EnumVariant) : Prop :=
    v_cfg x = Cfg_append k (Cfg_of_attrs (sv_attrs v))
    /\ match sv_discriminant v with
       | None => v_discriminant x = None
       | Some e => exists l, Literal_load e = Some l /\ v_discriminant x = Some (settled c self l)
       end.
  Lemma variant_loaded : forall inl v gps self given x, EnumVariant_load c inl v gps k self given = Ok x -> exists a ann member d,
    AnnotationSet_load (sv_attrs v) = Some a /\ (forall own, field_names c ann own = field_names c a own) /\ an_deprecated ann = an_deprecated a
    /\ member_name c given (unraw (sv_ident v)) = Some member
    /\ match sv_discriminant v with None => d = None | Some e => exists l, Literal_load e = Some l /\ d = Some (Literal_replace_self_with self l) end
    /\ exists b, x = EnumVariant_new (unraw (sv_ident v)) d b (Cfg_append k (Cfg_of_attrs (sv_attrs v))) (Documentation_load (sv_attrs v))
    /\ (has_data v = false /\ b = VEmpty ann
        \/ has_data v = true /\ exists fs ic, parse_fields inl self (if in_place c (sv_fields v) then Some member else None) (source_fields (sv_fields v)) = Some fs
           /\ b = VBody member (Struct_new (sv_ident v ++ "_Body") gps fs inl true None false None ann []) (in_place c (sv_fields v)) ic).
  Proof.
    intros inl v gps self given x L. unfold EnumVariant_load in L.
    destruct (match sv_discriminant v with Some e => _ | None => _ end) as [d| |] eqn:D; try discriminate.
    destruct (AnnotationSet_load (sv_attrs v)) as [a|] eqn:A; [|discriminate]. cbn [or_bad] in L.
    set (ann := match an_bool given "derive-ostream" with Some b => _ | None => a end) in L.
    destruct (rule_or given "rename-variant-name-fields" _) as [rule|] eqn:RU; [|discriminate]. cbn [or_crash] in L. cbv zeta in L.
    set (member := RenameRule_apply rule (unraw (sv_ident v)) StructMember) in L.
    assert (N1 : forall own, field_names c ann own = field_names c a own) by (intro own; unfold ann; destruct (an_bool given _); [apply default_names|reflexivity]).
    assert (N2 : an_deprecated ann = an_deprecated a) by (unfold ann; destruct (an_bool given _); [apply default_deprecated|reflexivity]).
    assert (N3 : match sv_discriminant v with None => d = None | Some e => exists l, Literal_load e = Some l /\ d = Some (Literal_replace_self_with self l) end).
    { destruct (sv_discriminant v) as [e|]; [|injection D as <-; reflexivity]. destruct (Literal_load e) as [l|]; [|discriminate]. cbn [or_bad] in D. injection D as <-. exists l. auto. }
    exists a, ann, member, d. split; [reflexivity|]. split; [exact N1|]. split; [exact N2|]. split; [unfold member_name; rewrite RU; reflexivity|]. split; [exact N3|].
    clearbody ann member. unfold has_data, in_place, source_fields. destruct (sv_fields v) as [|l|l]; cbn [is_tuple andb].
    - injection L as <-. eexists. split; [reflexivity|]. left. auto.
    - destruct (parse_fields inl self None l) as [fs|]; [|discriminate]. cbn [or_bad] in L. injection L as <-. eexists. split; [reflexivity|]. right. split; [reflexivity|]. exists fs, false. auto.
    - destruct (parse_fields inl self _ l) as [fs|] eqn:PF; [|discriminate]. cbn [or_bad] in L. injection L as <-. eexists. split; [reflexivity|]. right. split; [reflexivity|]. exists fs, (Nat.eqb (length l) 1). split; reflexivity.
  Qed.

  Lemma variant_made : forall e1 v gps self given x0 v1 v2 rules tag,
    EnumVariant_load c (inline_tag_field (e_repr e1)) v gps k self given = Ok x0 -> e_export_name e1 = self ->
    (forall n s i ic, v_body x0 = VBody n s i ic -> fresh_struct s) -> (language c <> Cxx -> gps = []) ->
    (has_data v = true -> e_tag e1 = Some "Tag" /\ tag = Some (if Language_eqb (language c) Cxx then "Tag" else export_rename (export c) self ++ "_Tag")) ->
    retagged e1 (map_v_body (map_s_types passes) x0) v1 -> EnumVariant_rename c v1 = Some v2 ->
    rule_or (e_annotations e1) "rename-all" (en_rename_variants (enumeration c)) = Some rules ->
    let x := last_names (e_annotations e1) (export_rename (export c) self) rules v2 in
    variant_for c kw here given (e_annotations e1) self (export_rename (export c) self) (rp_style (e_repr e1)) tag gps v x /\ variant_origin self v x.
  Proof.
    intros e1 v gps self given x0 v1 v2 rules tag L EN Fr NG HT RT RN RU x.
    destruct (variant_loaded _ _ _ _ _ _ L) as (a & ann & member & d & A & N1 & N2 & N3 & N4 & b & -> & B).
    set (name := export_rename (export c) self) in *.
    (* what does not depend on the data *)
    assert (Q : v_name v1 = unraw (sv_ident v) /\ v_export_name v1 = unraw (sv_ident v) /\ v_discriminant v1 = d /\ v_cfg v1 = Cfg_append k (Cfg_of_attrs (sv_attrs v)) /\ v_documentation v1 = Documentation_load (sv_attrs v)).
    { destruct RT as [(-> & _)|(b' & _ & _ & _ & ->)]; repeat split. }
    destruct Q as (Q1 & Q2 & Q3 & Q4 & Q5). unfold EnumVariant_rename in RN. rewrite Q1, Q2, Q3, Q4, Q5 in RN.
    destruct (match v_body v1 with VEmpty a => _ | VBody n s i ic => _ end) as [b2|] eqn:RB; [|discriminate]. injection RN as <-.
    assert (X1 : v_cfg x = Cfg_append k (Cfg_of_attrs (sv_attrs v))) by (unfold x, last_names; destruct (not_none rules), (prefixed c (e_annotations e1)); reflexivity).
    assert (X2 : v_discriminant x = option_map (Literal_rename_for_config (export c)) d) by (unfold x, last_names; destruct (not_none rules), (prefixed c (e_annotations e1)); reflexivity).
    assert (X3 : v_documentation x = Documentation_load (sv_attrs v)) by (unfold x, last_names; destruct (not_none rules), (prefixed c (e_annotations e1)); reflexivity).
    assert (X4 : variant_name c (e_annotations e1) name (unraw (sv_ident v)) = Some (v_export_name x)).
    { unfold variant_name. rewrite RU. unfold x, last_names. generalize (escape_str (unraw (sv_ident v))). intro es. destruct rules; cbn [not_none]; destruct (prefixed c (e_annotations e1)); reflexivity. }
    assert (X5 : v_body x = match b2 with
                            | VEmpty a => VEmpty a
                            | VBody n s i ic => VBody (match not_none rules with Some r => RenameRule_apply r n StructMember | None => n end)
                                (match (if prefixed c (e_annotations e1) then Some name else None) with Some p => set_s_export_name (joined c p (s_export_name s)) s | None => s end) i ic
                            end).
    { unfold x, last_names. destruct (not_none rules), (prefixed c (e_annotations e1)), b2; reflexivity. }
    clearbody x.
    assert (O : variant_origin self v x).
    { split; [exact X1|]. rewrite X2. destruct (sv_discriminant v) as [e|]; [|subst d; reflexivity]. destruct N4 as (l & Ll & ->). exists l. auto. }
    split; [|exact O]. destruct O as [_ O].
    (* the data *)
    assert (Y : an_deprecated (VariantBody_annotations (v_body x)) = an_deprecated a /\
      match v_body x with
      | VEmpty _ => has_data v = false
      | VBody n s inside _ => has_data v = true /\ inside = in_place c (sv_fields v)
          /\ final_member c (e_annotations e1) member = Some n
          /\ (rp_style (e_repr e1) <> ReprTransparent -> body_for c kw self (if prefixed c (e_annotations e1) then Some name else None) (match rp_style (e_repr e1) with ReprC => None | _ => tag end) member gps v s)
      end).
    { destruct B as [(HD & ->)|(HD & fs & ic & PF & ->)].
      - assert (V1 : v_body v1 = VEmpty ann) by (destruct RT as [(-> & _)|(b' & _ & _ & M & ->)]; [reflexivity|cbn in M; injection M as <-; reflexivity]).
        rewrite V1 in RB. injection RB as <-. rewrite X5. cbn [VariantBody_annotations]. split; [exact N2|exact HD].
      - destruct (HT HD) as [T1 T2].
        assert (V1 : exists s1, v_body v1 = VBody member s1 (in_place c (sv_fields v)) ic
          /\ (rp_style (e_repr e1) <> ReprTransparent -> tagged (inline_tag_field (e_repr e1)) (match rp_style (e_repr e1) with ReprC => None | _ => tag end)
                (map_s_types passes (Struct_new (sv_ident v ++ "_Body") gps fs (inline_tag_field (e_repr e1)) true None false None ann [])) s1)
          /\ s_annotations s1 = ann).
        { destruct RT as [(-> & W)|(b' & LN & RR & M & ->)].
          - eexists. split; [reflexivity|]. split; [|reflexivity]. intro NT. unfold inline_tag_field. destruct (rp_style (e_repr e1)) eqn:RS; cbn [ReprStyle_eqb negb tagged]; try (exfalso; exact (NT eq_refl)).
            + exists "Tag". destruct W as [W|[W|W]]; [rewrite W in T1; discriminate| |exfalso; exact (W eq_refl)]. rewrite T2, W. cbn [Language_eqb]. auto.
            + auto.
          - cbn [map_v_body set_v_body EnumVariant_new v_body map_body map_opt_body] in M. destruct (replace_first_type _ _) as [s1|] eqn:RF; [|discriminate]. injection M as <-.
            exists s1. split; [reflexivity|]. split; [|unfold replace_first_type in RF; destruct (s_fields _); [discriminate|injection RF as <-; reflexivity]].
            intros _. unfold inline_tag_field. rewrite RR. cbn [ReprStyle_eqb negb tagged]. exists (name ++ "_Tag"). rewrite T2. split; [|right; rewrite EN in RF; unfold inline_tag_field in RF; rewrite RR in RF; exact RF].
            destruct (Language_eqb (language c) Cxx) eqn:LC; [apply cxx_eqb in LC; contradiction|reflexivity]. }
        destruct V1 as (s1 & V1 & TG & SA). rewrite V1 in RB. destruct (Struct_rename_for_config c s1) as [s2|] eqn:SR; [|discriminate]. injection RB as <-.
        assert (S2 : s_annotations s2 = ann). { rewrite <- SA. unfold Struct_rename_for_config in SR. destruct (Struct_rename_fields _ _ _); [|discriminate]. injection SR as <-. reflexivity. }
        rewrite X5. cbn [VariantBody_annotations]. split; [destruct (prefixed c (e_annotations e1)); cbn [set_s_export_name s_annotations]; rewrite S2; exact N2|].
        split; [exact HD|]. split; [reflexivity|]. split.
        + unfold final_member. rewrite RU. generalize (escape_str member). intro es. destruct rules; reflexivity.
        + intro NT. refine (body_made self gps v a ann member _ fs _ s1 s2 PF _ A N1 (TG NT) SR NG _).
          destruct (Fr _ _ _ _ eq_refl) as (_ & _ & Ff & _). exact Ff. }
    destruct Y as [Y1 Y2].
    constructor.
    - exact X4.
    - intro rho. rewrite X1, append_meaning, Here. reflexivity.
    - exact X3.
    - exists a. auto.
    - destruct (sv_discriminant v) as [e|]; [|rewrite O; exact Logic.I]. destruct O as (l & Ll & ->). exact (number_kept c self e l Ll).
    - destruct (v_body x) as [|n s inside ic]; [exact Y2|]. destruct Y2 as (Y2 & Y3 & Y4 & Y5). split; [exact Y2|]. split; [exact Y3|]. exists member. auto.
  Qed.

  (** *** The whole enum *)
  Lemma variants_loaded : forall inl vs gps self given xs, load_variants c inl vs gps k self given = Ok xs ->
    Forall2 (fun v x => EnumVariant_load c inl v gps k self given = Ok x) vs xs.
  Proof.
    intros inl. induction vs as [|v r IH]; intros gps self given xs L; cbn [load_variants] in L; [injection L as <-; constructor|].
    destruct (EnumVariant_load c inl v gps k self given) as [x| |] eqn:E; try discriminate. destruct (load_variants c inl r gps k self given) as [ys| |] eqn:R; try discriminate.
    injection L as <-. constructor; [exact E|apply IH; exact R].
  Qed.
  Lemma loaded_data : forall inl v gps self given x, EnumVariant_load c inl v gps k self given = Ok x -> negb (VariantBody_is_empty (v_body x)) = has_data v.
  Proof.
    intros inl v gps self given x L. destruct (variant_loaded _ _ _ _ _ _ L) as (a & ann & member & d & _ & _ & _ & _ & _ & b & -> & [(-> & ->)|(-> & fs & ic & _ & ->)]); reflexivity.
  Qed.
  Definition enum_parts (attrs : attributes) (ident : string) (vs : list svariant) (e : Enum) : Prop :=
    exists given own extra, AnnotationSet_load attrs = Some given /\ e_variants e = (own ++ extra)%list
    /\ Forall2 (fun v x => variant_for c kw here given (e_annotations e) (unraw ident) (e_export_name e) (rp_style (e_repr e)) (e_tag e) (e_generic_params e) v x
                /\ variant_origin (unraw ident) v x) vs own
    /\ Forall2 (extra_for c (e_annotations e) (e_export_name e)) (extra_names c given) extra.
  Lemma enum_made : forall attrs ident generics vs e0 e1 e, Enum_load c attrs ident generics vs k = Ok e0 ->
    (e1 = e0 \/ exists a, e1 = set_e_annotations a e0) -> fresh_enum e0 -> (language c <> Cxx -> e_generic_params e0 = []) ->
    Enum_rename_for_config c (map_e_bodies (map_s_types passes) e1) = Some e -> enum_for c kw here attrs ident generics vs e /\ enum_parts attrs ident vs e.
  Proof.
    intros attrs ident generics vs e0 e1 e L SB Fr NG R. unfold Enum_load in L.
    destruct (Repr_load attrs) as [repr|] eqn:RE; [|discriminate]. cbn [or_bad] in L.
    destruct (ReprStyle_eqb (rp_style repr) ReprRust && negb (is_some (rp_ty repr))) eqn:R1; [discriminate|].
    destruct (is_some (rp_align repr)) eqn:R2; [discriminate|].
    destruct (GenericParams_load generics) as [gps|] eqn:G; [|discriminate]. cbn [or_bad] in L.
    destruct (AnnotationSet_load attrs) as [given|] eqn:A; [|discriminate]. cbn [or_bad] in L.
    destruct (load_variants c (inline_tag_field repr) vs gps k (unraw ident) given) as [xs| |] eqn:V; try discriminate.
    pose proof (variants_loaded _ _ _ _ _ _ V) as LV.
    set (extra0 := (match an_list given "enum-trailing-values" with Some l => _ | None => [] end ++ if add_sentinel (enumeration c) given then _ else [])%list) in L.
    apply (f_equal (fun o => match o with Ok x => x | _ => e0 end)) in L. subst e0. destruct Fr as (_ & _ & Fr).
    assert (HD : existsb (fun v => negb (VariantBody_is_empty (v_body v))) xs = existsb has_data vs).
    { clear - LV. induction LV as [|v x vs xs E LV IH]; [reflexivity|]. cbn [existsb]. rewrite IH, (loaded_data _ _ _ _ _ _ E). reflexivity. }
    rewrite HD in *. cbn [Enum_new e_variants e_generic_params e_repr] in Fr, NG.
    assert (E1 : exists ann, map_e_bodies (map_s_types passes) e1
      = Enum_new (unraw ident) gps repr (map (map_v_body (map_s_types passes)) (xs ++ extra0)%list) (if existsb has_data vs then Some "Tag" else None)
          (Cfg_append k (Cfg_of_attrs attrs)) ann (Documentation_load attrs)).
    { destruct SB as [->|(ann & ->)]; eexists; reflexivity. }
    destruct E1 as (ann & E1). rewrite E1 in R. clear E1 SB. destruct (enum_renamed _ _ R) as (rules & RU & Q1 & Q2 & Q3 & Q4 & Q5 & Q6 & Q7 & Q8 & Q9).
    cbn [Enum_new e_path e_export_name e_generic_params e_repr e_cfg e_annotations e_documentation e_tag e_variants] in RU, Q1, Q2, Q3, Q4, Q5, Q6, Q7, Q8, Q9.
    set (e2 := Enum_new _ _ _ _ _ _ _ _) in *.
    assert (TAG : e_tag e = if existsb has_data vs then Some (if Language_eqb (language c) Cxx then "Tag" else e_export_name e ++ "_Tag") else None).
    { rewrite Q8, Q2. destruct (existsb has_data vs); reflexivity. }
    rewrite map_app in Q9. apply Forall2_app_inv_l in Q9 as (own & extra & F1 & F2 & EV).
    assert (PARTS : enum_parts attrs ident vs e).
    { exists given, own, extra. split; [exact A|]. split; [exact EV|]. rewrite Q6, Q4, Q3. split.
      - assert (FV : forall x, In x xs -> forall n s i ic, v_body x = VBody n s i ic -> fresh_struct s).
        { intros x I n s i ic E. destruct (Fr x (in_or_app _ _ _ (or_introl I))) as [F _]. exact (proj1 (F _ _ _ _ E)). }
        assert (HT : forall v, In v vs -> has_data v = true -> e_tag e2 = Some "Tag" /\ e_tag e = Some (if Language_eqb (language c) Cxx then "Tag" else export_rename (export c) (unraw ident) ++ "_Tag")).
        { intros v I D. assert (X : existsb has_data vs = true) by (apply existsb_exists; exists v; auto). rewrite TAG, Q2. cbn [e2 Enum_new e_tag]. rewrite X. auto. }
        assert (AN : e_annotations e2 = ann) by reflexivity. assert (ER : e_repr e2 = repr) by reflexivity. assert (EN : e_export_name e2 = unraw ident) by reflexivity.
        rewrite Q2. clearbody e2. clear - LV F1 FV HT AN ER EN NG RU Here Step. revert own F1. induction LV as [|v x vs xs E LV IH]; intros own F1; inversion F1 as [|a x' l own' W F1']; subst; constructor.
        + destruct W as (v1 & v2 & W1 & W2 & ->). refine (variant_made e2 v gps (unraw ident) given x v1 v2 rules (e_tag e) E EN (FV x (or_introl eq_refl)) NG (HT v (or_introl eq_refl)) W1 W2 RU).
        + apply IH; [intros y I; apply FV; right; exact I|intros u I; apply HT; right; exact I|exact F1'].
      - assert (EX : exists names, extra_names c given = map fst names /\ extra0 = map (fun p => extra_variant (fst p) (snd p)) names).
        { unfold extra_names, extra0, add_sentinel. exists ((match an_list given "enum-trailing-values" with Some l => map (fun n => (n, [])) l | None => [] end)
            ++ (if match an_bool given "add-sentinel" with Some b => b | None => en_add_sentinel (enumeration c) end then [("Sentinel", [" Must be last for serialization purposes"])] else []))%list.
          rewrite !map_app. split; f_equal.
          - destruct (an_list given _) as [l|]; [|reflexivity]. rewrite map_map, map_id. reflexivity.
          - destruct (match an_bool given "add-sentinel" with Some b => b | None => _ end); reflexivity.
          - destruct (an_list given _) as [l|]; [|reflexivity]. rewrite map_map. reflexivity.
          - destruct (match an_bool given "add-sentinel" with Some b => b | None => _ end); reflexivity. }
        destruct EX as (names & -> & EX). clearbody e2 extra0. subst extra0. rewrite map_map in F2. rewrite Q2. clear - F2 RU. revert extra F2.
        induction names as [|[n doc] r IH]; intros extra F2; inversion F2 as [|a x l ex W F2']; subst; cbn [map fst snd]; constructor; [|apply IH; exact F2'].
        destruct W as (v1 & v2 & W1 & W2 & ->).
        assert (V1 : v1 = extra_variant n doc). { destruct W1 as [(-> & _)|(b & _ & _ & M & ->)]; [reflexivity|]. cbn in M. injection M as <-. reflexivity. }
        subst v1. unfold EnumVariant_rename in W2. cbn [extra_variant EnumVariant_new v_body v_name v_export_name v_discriminant v_cfg v_documentation option_map fst snd] in W2. injection W2 as <-.
        constructor; unfold variant_name, last_names; rewrite ?RU; generalize (escape_str n); intro es.
        + destruct rules; cbn [not_none]; destruct (prefixed c ann); reflexivity.
        + destruct rules; cbn [not_none]; destruct (prefixed c ann); auto. }
    split; [|exact PARTS].
    constructor.
    - exact Q1.
    - exact Q2.
    - rewrite Q3. exact G.
    - intro rho. rewrite Q5, append_meaning, Here. reflexivity.
    - exact Q7.
    - rewrite Q4. split; [exact RE|]. split; [destruct (rp_align repr); [discriminate|reflexivity]|]. intros RS RY. rewrite RS, RY in R1. discriminate.
    - exact TAG.
    - destruct PARTS as (given' & own' & extra' & P1 & P2 & P3 & P4). exists given', own', extra'. split; [exact P1|]. split; [exact P2|]. split; [|exact P4].
      eapply Forall2_impl; [|exact P3]. intros v x [W _]. exact W.
  Qed.
End Enums.

Lemma enums_from : forall (H : Heck) d c bitflags mfuel fuel std srcs lib l vss rs, parse_all d c bitflags mfuel fuel std srcs lib = Parsed l -> all_from c vss rs l ->
  forall pfuel visit l' b, prepare pfuel visit l = Done l' -> finish l' = Done b ->
       forall e, In (ICEnum e) (b_items b) -> instance_path c (e_path e) \/
         exists v attrs ident generics vs, item_read vss rs v (ItemEnum attrs ident generics vs)
           /\ enum_for c (keyword_in l') (module_holds v) attrs ident generics vs e
           /\ enum_parts c (keyword_in l') (module_holds v) (Cfg_join (vi_guards v)) attrs ident vs e.
Proof.
  intros H d c bitflags mfuel fuel std srcs lib l vss rs Q G pfuel visit l' b Hp Hf.
  destruct (parsed_fresh d c bitflags mfuel fuel std srcs lib l Q) as [AL BE].
  assert (LC : l_config l = c). { destruct (all_sound _ _ _ _ _ _ _ _ _ Q) as (? & ? & ? & ? & _ & _ & _ & _ & Z & _). exact Z. }
  destruct (item_passes H pfuel visit l l' AL BE Hp) as (g & Step & IP). cbn zeta in IP. rewrite LC in Step, IP.
  pose proof (al_items _ AL) as FI. rewrite Forall_forall in FI.
  assert (HT : forall x, In x (defined l) -> has_thing (items_of l) (AType x)).
  { intros x I. apply In_defined in I. destruct x; exact I. }
  assert (HERE : forall v rho, cfg_eval_opt rho (Cfg_join (vi_guards v)) = module_holds v rho).
  { intros v rho. apply join_meaning. }
  assert (INST : forall x' j, language c <> Cxx -> made_instance l j -> renamed c (ic_map_types g j) x' -> instance_path c (ic_path x')).
  { intros x' j NC M Rn. split; [exact NC|]. rewrite <- LC in Rn. destruct (made_path H l g j x' M Rn) as (p & args & N & E). exists p, args. rewrite LC in E. auto. }
  intros e I. apply finish_defined with (1 := Hf) in I as [I _]. destruct (IP _ I) as [(x0 & x1 & I0 & SB & P & Rn)|(NC & j & M & Rn)]; [right|left; exact (INST _ _ NC M Rn)].
  assert (X0 : exists e0 e1, x0 = ICEnum e0 /\ x1 = ICEnum e1 /\ (e1 = e0 \/ exists a, e1 = set_e_annotations a e0)).
  { destruct SB as [->|(a & ->)]; destruct x0 as [| | |e0|]; cbn in Rn; try contradiction; exists e0; eexists; (split; [reflexivity|split; [reflexivity|]]); eauto. }
  destruct X0 as (e0 & e1 & -> & -> & SU). cbn [ic_map_types renamed ic_generic_params] in Rn, P.
  destruct (G _ (HT _ I0)) as [(o & Z)|(v & i & Iv & Ii & NS & MF)]; [discriminate|]. cbn in MF.
  pose proof (FI _ I0) as Fr. exists v. destruct i as [| | | | | |attrs ident generics vs| | | | |]; try contradiction.
  exists attrs, ident, generics, vs. split; [repeat split; assumption|].
  exact (enum_made c _ g Step _ _ (HERE v) _ _ _ _ _ _ _ MF SU Fr P Rn).
Qed.
Theorem enums_made : forall (H : Heck) d c bitflags mfuel fuel std srcs lib l, parse_all d c bitflags mfuel fuel std srcs lib = Parsed l ->
  exists vss rs, sources_read d (parse c) srcs lib vss rs
    /\ forall pfuel visit l' b, prepare pfuel visit l = Done l' -> finish l' = Done b ->
       forall e, In (ICEnum e) (b_items b) -> instance_path c (e_path e) \/
         exists v attrs ident generics vs, item_read vss rs v (ItemEnum attrs ident generics vs)
           /\ enum_for c (keyword_in l') (module_holds v) attrs ident generics vs e
           /\ enum_parts c (keyword_in l') (module_holds v) (Cfg_join (vi_guards v)) attrs ident vs e.
Proof.
  intros H d c bitflags mfuel fuel std srcs lib l Q. destruct (all_made H d c bitflags mfuel fuel std srcs lib l Q) as (vss & rs & R & G).
  exists vss, rs. split; [exact R|]. exact (enums_from H d c bitflags mfuel fuel std srcs lib l vss rs Q G).
Qed.

Theorem enums_sources : forall (H : Heck) d c bitflags mfuel fuel std srcs lib l, parse_all d c bitflags mfuel fuel std srcs lib = Parsed l ->
  exists vss rs, sources_read d (parse c) srcs lib vss rs
    /\ forall pfuel visit l' b, prepare pfuel visit l = Done l' -> finish l' = Done b -> enums_from_sources c (keyword_in l') vss rs b.
Proof.
  intros H d c bitflags mfuel fuel std srcs lib l Q. destruct (enums_made H d c bitflags mfuel fuel std srcs lib l Q) as (vss & rs & R & G).
  exists vss, rs. split; [exact R|]. intros pfuel visit l' b Hp Hf e I. destruct (G pfuel visit l' b Hp Hf e I) as [W|(v & attrs & ident & generics & vs & W1 & W2 & _)]; [left; exact W|right].
  exists v, attrs, ident, generics, vs. auto.
Qed.
