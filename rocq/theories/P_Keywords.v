(** C36: the keywords of references in C. *)
Require Import Coq.Strings.String Coq.Lists.List Coq.Bool.Bool Coq.Sorting.Permutation.
From Verif Require Import Base P_Base M_Config M_Cfg M_Type M_Ir M_Item M_Library S_Item S_Sort S_Library S_Names P_Type P_Sort P_Item P_Table P_Library P_Transfer P_Mono P_Stages P_Names P_Spelling P_NamesLib.
Import ListNotations.
Open Scope list_scope.

(** ** The register *)
Definition entry_of (i : ItemContainer) : string * option DeclarationType := (ic_path i, declared_as i).
Lemma lookup_snoc : forall A (r : list (string * A)) p d q, lookup q (r ++ [(p, d)]) = match lookup q r with Some x => Some x | None => if String.eqb p q then Some d else None end.
Proof. intros A r p d q. induction r as [|[k v] r IH]; cbn; [rewrite String.eqb_sym; reflexivity|]. destruct (String.eqb q k); [reflexivity|exact IH]. Qed.
Lemma lookup_insert_vacant : forall p d r q, lookup q (resolver_insert p d r) = match lookup q r with Some x => Some x | None => if String.eqb p q then Some d else None end.
Proof.
  intros p d r q. unfold resolver_insert. destruct (lookup p r) as [e|] eqn:E.
  - destruct (lookup q r) eqn:Eq; [reflexivity|]. destruct (String.eqb_spec p q); [congruence|reflexivity].
  - apply lookup_snoc.
Qed.
Lemma collect_lookup : forall T (f : T -> DeclarationTypeResolver -> DeclarationTypeResolver) (wrap : T -> ItemContainer) xs r q,
  (forall x, f x = resolver_insert (ic_path (wrap x)) (declared_as (wrap x))) ->
  lookup q (fold_left (fun a x => f x a) xs r) =
  match lookup q r with Some x => Some x | None => option_map declared_as (find (fun i => String.eqb (ic_path i) q) (map wrap xs)) end.
Proof.
  intros T f wrap xs. induction xs as [|x s IH]; intros r q Hf; cbn [fold_left map find]; [destruct (lookup q r); reflexivity|].
  rewrite IH by assumption. rewrite Hf, lookup_insert_vacant. destruct (lookup q r); [reflexivity|]. destruct (String.eqb _ q); reflexivity.
Qed.
Lemma find_app : forall A (f : A -> bool) a b, find f (a ++ b) = match find f a with Some x => Some x | None => find f b end.
Proof. intros A f a b. induction a as [|x r IH]; [reflexivity|]. cbn. destruct (f x); [reflexivity|exact IH]. Qed.
Lemma resolver_keyword : forall l p, type_for (library_resolver l) p = keyword_of l p.
Proof.
  intros l p. unfold type_for, library_resolver, collect_all, keyword_of, registered.
  rewrite (collect_lookup _ _ ICOpaque) by reflexivity. rewrite (collect_lookup _ _ ICTypedef) by reflexivity.
  rewrite (collect_lookup _ _ ICUnion) by reflexivity.
  rewrite (collect_lookup _ _ ICEnum) by (intros e; cbn; unfold Enum_collect; destruct (e_tag e), (rp_style (e_repr e)); reflexivity).
  rewrite (collect_lookup _ _ ICStruct) by reflexivity.
  cbn [lookup]. rewrite !find_app. repeat (destruct (find _ _); [reflexivity|]). reflexivity.
Qed.

(** ** References *)
Definition kinded (r : DeclarationTypeResolver) (x : reference) : Prop := r_kind x = type_for r (r_path x).
Lemma resolve_outer : forall r t, Forall (kinded r) (outer_refs (Type_resolve_declaration_types r t)).
Proof.
  intros r. apply (Ty_only_ind (fun t => Forall (kinded r) (outer_refs (Type_resolve_declaration_types r t)))).
  - intros t c n rf IH. exact IH.
  - intros p e gs ct _. constructor; [reflexivity|constructor].
  - constructor.
  - intros t e IH. exact IH.
  - intros rt args n nr IH1 IH2. cbn. apply Forall_app. split; [exact IH1|]. apply Forall_concat_map. rewrite Forall_map. cbn. exact IH2.
Qed.
Lemma rename_outer : forall ex ps t, outer_refs (Type_rename_for_config ex ps t) = map (rename_ref ex ps) (outer_refs t).
Proof.
  intros ex ps. apply (Ty_only_ind (fun t => outer_refs (Type_rename_for_config ex ps t) = map (rename_ref ex ps) (outer_refs t))).
  - intros t c n rf IH. exact IH.
  - intros p e gs ct _. reflexivity.
  - reflexivity.
  - intros t e IH. exact IH.
  - intros rt args n nr IH1 IH2. cbn. rewrite map_app, IH1. f_equal. apply concat_map_map. exact IH2.
Qed.

(** ** The types of an item, with its generic parameters *)
Definition typing := (GenericParams * Ty)%type.
Definition with_params (ps : GenericParams) (ts : list Ty) : list typing := map (pair ps) ts.
Definition struct_types (s : Struct) : list typing := with_params (s_generic_params s) (map fd_ty (own_fields s)).
Definition variant_types (v : EnumVariant) : list typing := match v_body v with VBody _ s _ _ => struct_types s | VEmpty _ => [] end.
Definition item_types (i : ItemContainer) : list typing :=
  match i with
  | ICStruct s => struct_types s
  | ICUnion u => with_params (u_generic_params u) (map fd_ty (u_fields u))
  | ICEnum e => concat (map variant_types (e_variants e))
  | ICTypedef t => [(t_generic_params t, t_aliased t)]
  | ICOpaque _ => []
  end.
Definition rename_typing (ex : ExportConfig) (t : typing) : typing := (fst t, Type_rename_for_config ex (fst t) (snd t)).
Lemma struct_outer_types : forall s, struct_outer s = concat (map (fun t => outer_refs (snd t)) (struct_types s)).
Proof. intros s. unfold struct_outer, struct_types, with_params. rewrite !map_map. reflexivity. Qed.
Lemma item_outer_types : forall i, item_outer i = concat (map (fun t => outer_refs (snd t)) (item_types i)).
Proof.
  intros [o|s|u|e|t]; cbn [item_outer item_types]; [reflexivity|apply struct_outer_types| | |cbn; symmetry; apply app_nil_r].
  - unfold with_params. rewrite !map_map. reflexivity.
  - induction (e_variants e) as [|v r IH]; [reflexivity|]. cbn. rewrite map_app, concat_app. f_equal; [|exact IH].
    unfold variant_types. destruct (v_body v); [reflexivity|apply struct_outer_types].
Qed.
Lemma with_params_rename : forall ex ps ts, with_params ps (map (Type_rename_for_config ex ps) ts) = map (rename_typing ex) (with_params ps ts).
Proof. intros ex ps ts. unfold with_params. rewrite !map_map. reflexivity. Qed.
Lemma rename_struct_types : forall (H : Heck) c s s', Struct_rename_for_config c s = Some s' -> struct_types s' = map (rename_typing (export c)) (struct_types s).
Proof.
  intros H c s s' E. pose proof (struct_rename_shape _ _ _ _ E) as (_ & Hg & Ht & _).
  destruct (struct_rename_fields_ty _ _ _ _ E) as (Hf & _). unfold struct_types. rewrite Hg, <- with_params_rename. f_equal.
  unfold own_fields. rewrite Ht. rewrite <- rename_field_types_own. destruct (s_has_tag_field s); [rewrite !map_tl, Hf|rewrite Hf]; reflexivity.
Qed.
Lemma rename_variant_types : forall (H : Heck) c v v', EnumVariant_rename c v = Some v' -> variant_types v' = map (rename_typing (export c)) (variant_types v).
Proof.
  intros H c v v'. unfold EnumVariant_rename, variant_types. destruct (v_body v) as [a|n s i ic].
  - intros E. inversion E; subst. reflexivity.
  - destruct (Struct_rename_for_config c s) as [s'|] eqn:Es; [|discriminate]. intros E. inversion E; subst. cbn [v_body].
    apply (rename_struct_types _ _ _ _ Es).
Qed.
Lemma rename_tag_types : forall c e e1, Enum_rename_tag c e = Some e1 -> tagged_bodies e -> map variant_types (e_variants e1) = map variant_types (e_variants e).
Proof.
  intros c e e1. unfold Enum_rename_tag, tagged_bodies. destruct (e_tag e) as [t|]; [|inversion 1; reflexivity].
  destruct (Language_eqb (language c) Cxx); [inversion 1; reflexivity|].
  destruct (ReprStyle_eqb (rp_style (e_repr e)) ReprRust) eqn:Es; [|inversion 1; reflexivity].
  destruct (map_opt _ (e_variants e)) as [vs|] eqn:E; [|discriminate]. intros E1 Ht. inversion E1; subst; clear E1. cbn [e_variants].
  apply map_opt_Forall2 in E. revert Ht. induction E as [|v v' r r' Hv Hr IH]; intros Ht; [reflexivity|]. cbn [map]. rewrite IH; [|intros; eapply Ht; [right; eassumption|eassumption]]. f_equal.
  unfold map_opt_body in Hv. specialize (Ht v). unfold variant_types. destruct (v_body v) as [a|n s i ic] eqn:Eb.
  - inversion Hv; subst. cbn. reflexivity.
  - destruct (replace_first_type _ s) as [s'|] eqn:Ef; [|discriminate]. inversion Hv; subst; clear Hv. cbn [v_body set_v_body].
    specialize (Ht n s i ic (or_introl eq_refl) eq_refl). unfold replace_first_type in Ef. destruct (s_fields s) as [|f fs] eqn:Efs; [discriminate|].
    inversion Ef; subst; clear Ef. unfold struct_types, own_fields. cbn [set_s_fields s_fields s_has_tag_field s_generic_params].
    replace (s_has_tag_field s) with true; [rewrite Efs; reflexivity|]. symmetry. rewrite Ht. unfold inline_tag_field. destruct (rp_style (e_repr e)); try discriminate; reflexivity.
Qed.
Lemma rename_enum_types : forall (H : Heck) c e e', Enum_rename_for_config c e = Some e' -> tagged_bodies e ->
  item_types (ICEnum e') = map (rename_typing (export c)) (item_types (ICEnum e)).
Proof.
  intros H c e e'. unfold Enum_rename_for_config. destruct (Enum_rename_tag c e) as [e1|] eqn:E1; [|discriminate].
  destruct (map_opt (EnumVariant_rename c) (e_variants e1)) as [vs|] eqn:Ev; [|discriminate].
  destruct (rule_or _ _ _) as [r|]; [|discriminate]. intros E Ht. inversion E; subst; clear E.
  cbn [item_types e_variants set_e_variants]. pose proof (rename_tag_types _ _ _ E1 Ht) as Hr.
  set (vs2 := if match an_bool (e_annotations e) "prefix-with-name" with Some b => b | None => en_prefix_with_name (enumeration c) end then map (EnumVariant_prefix c (e_export_name e1)) vs else vs).
  assert (H3 : forall ws, map variant_types (match not_none r with Some r0 => map (EnumVariant_rule r0 (e_export_name e1)) ws | None => ws end) = map variant_types ws).
  { intros ws. destruct (not_none r); [|reflexivity]. rewrite map_map. apply map_ext. intros v. unfold EnumVariant_rule, variant_types. cbn. destruct (v_body v); reflexivity. }
  assert (H2 : map variant_types vs2 = map variant_types vs).
  { unfold vs2. destruct (match an_bool _ _ with Some b => b | None => _ end); [|reflexivity]. rewrite map_map. apply map_ext. intros v.
    unfold EnumVariant_prefix, variant_types. cbn. destruct (v_body v); reflexivity. }
  rewrite H3, H2, <- Hr. apply map_opt_Forall2 in Ev. clear -Ev.
  induction Ev as [|v v' a b Hv Ha IH]; [reflexivity|]. cbn. rewrite (rename_variant_types _ _ _ _ Hv), IH, map_app. reflexivity.
Qed.
Lemma rename_union_types : forall (H : Heck) c u u', Union_rename_for_config c u = Some u' ->
  item_types (ICUnion u') = map (rename_typing (export c)) (item_types (ICUnion u)).
Proof.
  intros H c u u'. unfold Union_rename_for_config. destruct (rule_or _ _ _) as [r|]; [|discriminate].
  intros E. inversion E; subst; clear E. cbn [item_types u_fields u_generic_params set_u_export_name set_u_fields]. rewrite <- with_params_rename. f_equal.
  transitivity (map fd_ty (map (map_fd_ty (Type_rename_for_config (export c) (u_generic_params u))) (u_fields u))); [|rewrite !map_map; reflexivity].
  destruct (an_list _ _); [apply zip_names_ty|]. destruct (not_none r); [apply map_ty_same; reflexivity|].
  destruct (u_tuple_union u); [apply map_ty_same|]; reflexivity.
Qed.
Lemma renamed_types : forall (H : Heck) c j i, renamed c j i -> tagged j -> item_types i = map (rename_typing (export c)) (item_types j).
Proof.
  intros H c j i Hr C. destruct j as [o|s|u|e|t], i as [o'|s'|u'|e'|t']; cbn [renamed] in Hr; try contradiction.
  - reflexivity.
  - apply (rename_struct_types _ _ _ _ Hr).
  - apply (rename_union_types _ _ _ _ Hr).
  - apply (rename_enum_types _ _ _ _ Hr C).
  - subst. reflexivity.
Qed.
Definition outer_ok (K : string -> option DeclarationType) (ts : list typing) : Prop :=
  Forall (fun r => r_kind r = K (r_path r)) (concat (map (fun t => outer_refs (snd t)) ts)).
Lemma rename_outer_ok : forall K ex ts, outer_ok K ts -> outer_ok K (map (rename_typing ex) ts).
Proof.
  intros K ex ts. unfold outer_ok. rewrite !Forall_concat_map, Forall_map. apply Forall_impl. intros [ps t]. cbn. rewrite rename_outer, Forall_map.
  apply Forall_impl. intros r E. exact E.
Qed.

(** ** The keyword of a name does not change by renaming *)
Definition same_decl (j i : ItemContainer) : Prop := ic_path i = ic_path j /\ declared_as i = declared_as j.
Lemma renamed_decl : forall (H : Heck) c j i, renamed c j i -> same_decl j i.
Proof.
  intros H c j i Hr. destruct j as [o|s|u|e|t], i as [o'|s'|u'|e'|t']; cbn [renamed] in Hr; try contradiction.
  - subst. split; reflexivity.
  - apply struct_rename_shape in Hr as (P & _ & _ & _ & _ & T & _). split; cbn; rewrite ?P, ?T; reflexivity.
  - apply union_rename_shape in Hr as (fs & ->). split; reflexivity.
  - apply enum_rename_shape in Hr as (P & _ & _ & R & _ & _ & _ & T & _). split; [exact P|]. cbn. rewrite R.
    destruct (e_tag e'), (e_tag e); try discriminate; reflexivity.
  - subst. split; reflexivity.
Qed.
Lemma find_decl : forall p a b, Forall2 same_decl a b -> option_map declared_as (find (fun i => String.eqb (ic_path i) p) b) = option_map declared_as (find (fun i => String.eqb (ic_path i) p) a).
Proof. intros p a b. induction 1 as [|x y r s [E1 E2] Hr IH]; [reflexivity|]. cbn. rewrite E1. destruct (String.eqb _ p); [cbn; rewrite E2; reflexivity|exact IH]. Qed.
Lemma wf_map_opt : forall T (I : Item T) (f : T -> option T) (m m' : ItemMap T), (forall x y, f x = Some y -> same_key x y) ->
  for_all_items_mut_opt f m = Some m' -> wf m -> rebuild m' = m'.
Proof. intros T I f m m' Hk E W. apply wf_rebuild. eapply wf_trel; [|exact W]. eapply trel_impl; [|apply trel_map_opt; exact E]. exact Hk. Qed.
Lemma Forall2_wrap : forall T (wrap : T -> ItemContainer) (R : T -> T -> Prop) a b, (forall x y, R x y -> same_decl (wrap x) (wrap y)) -> Forall2 R a b -> Forall2 same_decl (map wrap a) (map wrap b).
Proof. intros T wrap R a b Hw. induction 1; cbn; constructor; auto. Qed.
Lemma Forall2_map_2 : forall A (f g : A -> ItemContainer) l, (forall x, same_decl (f x) (g x)) -> Forall2 same_decl (map f l) (map g l).
Proof. intros A f g l Hf. induction l; constructor; auto. Qed.
Lemma rename_registered : forall (H : Heck) l l', rename_items l = Some l' -> tables_built l -> Forall2 same_decl (registered l) (registered l').
Proof.
  intros H l l' Hr [W1 W2 W3 W4 W5]. apply reachable_wf in W1, W2, W3, W4, W5.
  apply rename_rest in Hr as (_ & _ & _ & _ & (st & Es' & Es) & (un & Eu' & Eu) & (en & Ee' & Ee) & Eo & Et). unfold registered.
  rewrite Es, Eu, Ee, Eo, Et. rewrite (wf_map_opt _ _ _ _ _ (struct_rename_key _ _) Es' W2), (wf_map_opt _ _ _ _ _ (union_rename_key _ _) Eu' W3), (wf_map_opt _ _ _ _ _ (enum_rename_key _ _) Ee' W1).
  rewrite !wf_rebuild by (apply wf_map; [split; reflexivity|assumption]). rewrite !to_vec_map.
  repeat apply Forall2_app.
  - eapply Forall2_wrap; [|apply trel_to_vec; apply trel_map_opt; exact Es']. intros x y E. apply (renamed_decl _ _ (ICStruct x) (ICStruct y) E).
  - eapply Forall2_wrap; [|apply trel_to_vec; apply trel_map_opt; exact Ee']. intros x y E. apply (renamed_decl _ _ (ICEnum x) (ICEnum y) E).
  - eapply Forall2_wrap; [|apply trel_to_vec; apply trel_map_opt; exact Eu']. intros x y E. apply (renamed_decl _ _ (ICUnion x) (ICUnion y) E).
  - rewrite map_map. apply Forall2_map_2. intros x. apply (renamed_decl _ _ (ICTypedef x) (ICTypedef _) eq_refl).
  - rewrite map_map. apply Forall2_map_2. intros x. apply (renamed_decl _ _ (ICOpaque x) (ICOpaque _) eq_refl).
Qed.
Lemma rename_keyword : forall (H : Heck) l l' p, rename_items l = Some l' -> tables_built l -> keyword_of l' p = keyword_of l p.
Proof.
  intros H l l' p Hr Ht. pose proof (find_decl p _ _ (rename_registered _ _ _ Hr Ht)) as E. unfold keyword_of.
  destruct (find _ (registered l')), (find _ (registered l)); cbn in E; congruence.
Qed.
Lemma find_map_path : forall f p xs, (forall i, ic_path (f i) = ic_path i /\ declared_as (f i) = declared_as i) ->
  option_map declared_as (find (fun i => String.eqb (ic_path i) p) (map f xs)) = option_map declared_as (find (fun i => String.eqb (ic_path i) p) xs).
Proof. intros f p xs Hf. induction xs as [|x r IH]; [reflexivity|]. cbn. rewrite (proj1 (Hf x)). destruct (String.eqb _ p); [cbn; rewrite (proj2 (Hf x)); reflexivity|exact IH]. Qed.
Lemma resolve_keyword : forall l p, keyword_of (resolve_library l) p = keyword_of l p.
Proof.
  intros l p. unfold resolve_library. destruct (negb _); [reflexivity|].
  pose proof (find_map_path (ic_map_types (Type_resolve_declaration_types (library_resolver l))) p (registered l)) as E.
  assert (Hf : forall i, ic_path (ic_map_types (Type_resolve_declaration_types (library_resolver l)) i) = ic_path i
    /\ declared_as (ic_map_types (Type_resolve_declaration_types (library_resolver l)) i) = declared_as i) by (intros []; split; reflexivity).
  specialize (E Hf). unfold keyword_of.
  match goal with |- context [registered ?l'] => replace (registered l') with (map (ic_map_types (Type_resolve_declaration_types (library_resolver l))) (registered l)) end.
  - destruct (find _ (map _ _)), (find _ (registered l)); cbn in E; congruence.
  - unfold registered. cbn [l_structs l_enums l_unions l_typedefs l_opaque_items]. rewrite !map_app, !to_vec_map, !map_map. reflexivity.
Qed.

(** ** Functions and globals *)
Definition function_types (f : Function) : list typing := with_params [] (f_ret f :: map a_ty (f_args f)).
Lemma function_outer_types : forall f, function_outer f = concat (map (fun t => outer_refs (snd t)) (function_types f)).
Proof. intros f. unfold function_outer, function_types, with_params. cbn. rewrite !map_map. reflexivity. Qed.
Lemma rename_function_types : forall (H : Heck) c f g, Function_rename_for_config c f = Some g ->
  function_types g = map (rename_typing (export c)) (function_types f).
Proof.
  intros H c f g. unfold Function_rename_for_config. destruct (rule_or _ _ _) as [r|]; [|discriminate].
  set (a1 := match not_none r with Some _ => _ | None => _ end).
  assert (E1 : map a_ty a1 = map a_ty (f_args f)) by (unfold a1; destruct (not_none r); [rewrite map_map; apply map_ext|]; reflexivity).
  set (a2 := map _ a1).
  assert (E2 : map a_ty a2 = map (Type_rename_for_config (export c) []) (map a_ty (f_args f))) by (rewrite <- E1; unfold a2; rewrite !map_map; reflexivity).
  assert (Hx : forall a3, map a_ty a3 = map a_ty a2 ->
    function_types (set_f_types (Type_rename_for_config (export c) [] (f_ret f)) a3 f) = map (rename_typing (export c)) (function_types f)).
  { intros a3 E3. unfold function_types. cbn [set_f_types f_ret f_args]. rewrite <- with_params_rename, E3, E2. reflexivity. }
  destruct (an_list _ _) as [tuples|].
  - destruct (ptrs_as_arrays tuples) as [m|]; [|discriminate]. intros E. inversion E; subst. apply Hx.
    rewrite map_map. apply map_ext. intros a. unfold set_array_length. destruct (a_ty a) eqn:Ea, (a_name a); try (exact Ea); cbn; try congruence.
  - intros E. inversion E; subst. apply Hx. reflexivity.
Qed.

(** ** Every reference of a library agrees with [K] *)
Record kinds_ok (K : string -> option DeclarationType) (l : Library) : Prop := {
  ko_items : forall i, In i (defined l) -> outer_ok K (item_types i);
  ko_functions : forall f, In f (l_functions l) -> outer_ok K (function_types f);
  ko_globals : forall g, In g (to_vec (l_globals l)) -> outer_ok K (with_params [] [g_ty g]) }.
Lemma kinds_outer : forall K l, kinds_ok K l -> Forall (fun r => r_kind r = K (r_path r)) (lib_outer l).
Proof.
  intros K l [A B C]. unfold lib_outer. rewrite !Forall_app, !Forall_concat_map. repeat split; apply Forall_forall.
  - intros i Hi. rewrite item_outer_types. apply A. assumption.
  - intros f Hf. rewrite function_outer_types. apply B. assumption.
  - intros g Hg. specialize (C g Hg). unfold outer_ok in C. cbn in C. rewrite app_nil_r in C. exact C.
Qed.
Lemma with_params_map : forall f ps ts, with_params ps (map f ts) = map (fun t => (fst t, f (snd t))) (with_params ps ts).
Proof. intros f ps ts. unfold with_params. rewrite !map_map. reflexivity. Qed.
Lemma map_types_of : forall f i, item_types (ic_map_types f i) = map (fun t => (fst t, f (snd t))) (item_types i).
Proof.
  intros f i. assert (Hs : forall s, struct_types (map_s_types f s) = map (fun t => (fst t, f (snd t))) (struct_types s)).
  { intros s. unfold struct_types. rewrite <- with_params_map. f_equal. unfold own_fields. cbn. destruct (s_has_tag_field s); rewrite ?map_tl, !map_map; reflexivity. }
  destruct i as [o|s|u|e|t]; cbn [ic_map_types item_types]; [reflexivity|apply Hs| | |reflexivity].
  - rewrite <- with_params_map. f_equal. cbn. rewrite !map_map. reflexivity.
  - cbn. rewrite map_map. induction (e_variants e) as [|v r IH]; [reflexivity|]. cbn. rewrite map_app, IH. f_equal.
    unfold variant_types. cbn. destruct (v_body v); [reflexivity|apply Hs].
Qed.
Lemma resolved_ok : forall r ts, outer_ok (type_for r) (map (fun t : typing => (fst t, Type_resolve_declaration_types r (snd t))) ts).
Proof. intros r ts. unfold outer_ok. rewrite Forall_concat_map, Forall_map. apply Forall_forall. intros t _. apply resolve_outer. Qed.
Lemma resolve_kinds : forall l, generate_tag (style (l_config l)) = true -> kinds_ok (type_for (library_resolver l)) (resolve_library l).
Proof.
  intros l Ht. constructor.
  - intros i Hi. apply resolve_items in Hi as (j & Hj & [[_ E]|[-> _]]); [congruence|]. rewrite map_types_of. apply resolved_ok.
  - unfold resolve_library. rewrite Ht. cbn [negb l_functions]. intros f Hf. apply in_map_iff in Hf as (h & <- & _).
    unfold function_types. change (f_ret (Function_resolve (library_resolver l) h) :: map a_ty (f_args (Function_resolve (library_resolver l) h)))
      with (Type_resolve_declaration_types (library_resolver l) (f_ret h) :: map a_ty (map (map_a_ty (Type_resolve_declaration_types (library_resolver l))) (f_args h))).
    rewrite map_map. change (outer_ok (type_for (library_resolver l)) (with_params [] (Type_resolve_declaration_types (library_resolver l) (f_ret h) :: map (fun x => Type_resolve_declaration_types (library_resolver l) (a_ty x)) (f_args h)))).
    rewrite <- (map_map a_ty (Type_resolve_declaration_types (library_resolver l))). rewrite <- (map_cons (Type_resolve_declaration_types (library_resolver l))). rewrite with_params_map. apply resolved_ok.
  - unfold resolve_library. rewrite Ht. cbn [negb l_globals]. intros g Hg. rewrite to_vec_map in Hg. apply in_map_iff in Hg as (h & <- & _).
    apply (resolved_ok (library_resolver l) [([], g_ty h)]).
Qed.
Lemma rename_kinds : forall (H : Heck) K l l', rename_items l = Some l' -> (forall i, In i (defined l) -> tagged i) -> kinds_ok K l -> kinds_ok K l'.
Proof.
  intros H K l l' Hr Ht [A B C]. pose proof (rename_rest _ _ _ Hr) as (_ & _ & R3 & R4 & _). constructor.
  - intros i Hi. destruct (rename_items_from _ _ _ _ Hr Hi) as (j & Hj & Hji). rewrite (renamed_types _ _ _ _ Hji (Ht _ Hj)). apply rename_outer_ok. auto.
  - intros f Hf. apply map_opt_Forall2 in R4. apply (Forall2_In_r _ _ _ _ _ _ R4) in Hf as (h & Hh & E).
    rewrite (rename_function_types _ _ _ _ E). apply rename_outer_ok. auto.
  - intros g Hg. rewrite R3 in Hg. apply rebuild_invents_nothing in Hg. rewrite to_vec_map in Hg. apply in_map_iff in Hg as (h & <- & Hh).
    apply (rename_outer_ok K (export (l_config l)) (with_params [] [g_ty h])). auto.
Qed.
Lemma keywords_spec : forall (H : Heck) fuel visit l l', as_loaded l -> prepare fuel visit l = Done l' ->
  language (l_config l) = M_Config.C -> generate_tag (style (l_config l)) = true ->
  Forall (fun r => r_kind r = keyword_of l' (r_path r)) (lib_outer l').
Proof.
  intros H fuel visit l l' Hl Hp El Et. apply prepare_stages in Hp as (l1 & l2 & l3 & l4 & St).
  pose proof (stages_fresh _ _ _ _ _ _ _ _ _ St Hl) as [F3 _ _ _ _ _]. pose proof (stages_plain _ _ _ _ _ _ _ _ _ St Hl) as [P4 _ _ _ _].
  pose proof (stages_config _ _ _ _ _ _ _ _ _ St) as (_ & _ & C3 & _ & _). destruct St as [_ _ _ S4 S5].
  rewrite El in S4. cbn in S4. apply kinds_outer.
  assert (E : forall p, keyword_of l' p = type_for (library_resolver l3) p).
  { intros p. rewrite resolver_keyword. rewrite (rename_keyword _ _ _ p S5); [|subst l4; apply resolve_tables; assumption]. subst l4. apply resolve_keyword. }
  assert (Hk : kinds_ok (type_for (library_resolver l3)) l').
  { eapply rename_kinds; [exact S5|intros i Hi; apply P4; assumption|]. subst l4. apply resolve_kinds. congruence. }
  destruct Hk as [A B C]. constructor; intros x Hx; unfold outer_ok; (eapply Forall_impl; [intros r Er; rewrite E; exact Er|]); [apply A|apply B|apply C]; assumption.
Qed.

(** ** Without tags there is no keyword *)
Lemma fresh_outer : forall t, fresh_type t -> Forall (fun r => r_kind r = None) (outer_refs t).
Proof.
  apply (Ty_only_ind (fun t => fresh_type t -> Forall (fun r => r_kind r = None) (outer_refs t))); unfold fresh_type.
  - intros t c n r IH Ho. apply IH. exact Ho.
  - intros p e gs ct _ Ho. cbn in *. inversion Ho as [|? ? [_ E] _]; subst. constructor; [exact E|constructor].
  - constructor.
  - intros t e IH Ho. cbn in *. rewrite Forall_app in Ho. apply IH. tauto.
  - intros r args n nr IH1 IH2 Ho. cbn in *. rewrite Forall_app, Forall_concat_map in *. destruct Ho as [H1 H2].
    split; [auto|]. clear -IH2 H2. induction IH2; cbn; [constructor|]. inversion H2; subst. constructor; auto.
Qed.
Lemma fresh_types_ok : forall ts, Forall (fun t : typing => fresh_type (snd t)) ts -> outer_ok (fun _ => None) ts.
Proof. intros ts Ht. unfold outer_ok. rewrite Forall_concat_map. eapply Forall_impl; [|exact Ht]. intros t. apply fresh_outer. Qed.
Lemma with_params_fresh : forall ps ts, Forall fresh_type ts -> Forall (fun t : typing => fresh_type (snd t)) (with_params ps ts).
Proof. intros ps ts Ht. unfold with_params. rewrite Forall_map. exact Ht. Qed.
Lemma fresh_struct_types : forall s, fresh_struct s -> Forall (fun t : typing => fresh_type (snd t)) (struct_types s).
Proof. intros s (_ & _ & C & _). apply with_params_fresh. rewrite Forall_map. apply own_fresh. assumption. Qed.
Lemma fresh_item_types : forall i, fresh_item i -> Forall (fun t : typing => fresh_type (snd t)) (item_types i).
Proof.
  intros [o|s|u|e|t]; cbn [fresh_item item_types]; [constructor|apply fresh_struct_types| | |].
  - intros (_ & _ & C). apply with_params_fresh. rewrite Forall_map. exact C.
  - intros (_ & _ & C). apply Forall_concat_map. apply Forall_forall. intros v Hv. destruct (C v Hv) as [D _]. unfold variant_types.
    destruct (v_body v) as [a|n s i ic] eqn:Eb; [constructor|]. apply fresh_struct_types. eapply D. reflexivity.
  - intros (_ & _ & C). constructor; [exact C|constructor].
Qed.
Lemma fresh_kinds : forall l, fresh_lib l -> kinds_ok (fun _ => None) l.
Proof.
  intros l [_ B _ D E _]. constructor.
  - intros i Hi. apply fresh_types_ok, fresh_item_types. auto.
  - intros f Hf. specialize (D f Hf). unfold fresh_function, function_refs, under in D. rewrite Forall_map in D. cbn in D.
    rewrite Forall_app, Forall_concat_map in D. destruct D as [D1 D2]. apply fresh_types_ok, with_params_fresh. constructor; [exact D1|]. rewrite Forall_map. exact D2.
  - intros g Hg. specialize (E g Hg). unfold fresh_global, global_refs, under in E. rewrite Forall_map in E. apply fresh_types_ok. constructor; [exact E|constructor].
Qed.
Lemma no_keywords : forall (H : Heck) fuel visit l l', as_loaded l -> prepare fuel visit l = Done l' ->
  language (l_config l) <> M_Config.C \/ generate_tag (style (l_config l)) = false ->
  Forall (fun r => r_kind r = None) (lib_outer l').
Proof.
  intros H fuel visit l l' Hl Hp Hc. apply prepare_stages in Hp as (l1 & l2 & l3 & l4 & St).
  pose proof (stages_fresh _ _ _ _ _ _ _ _ _ St Hl) as F3. pose proof (stages_plain _ _ _ _ _ _ _ _ _ St Hl) as [P4 _ _ _ _].
  pose proof (stages_config _ _ _ _ _ _ _ _ _ St) as (_ & _ & C3 & _ & _). destruct St as [_ _ _ S4 S5].
  assert (E : l4 = l3).
  { rewrite S4. destruct (Language_eqb (language (l_config l)) M_Config.C) eqn:El; [|reflexivity].
    assert (Et : generate_tag (style (l_config l)) = false) by (destruct Hc as [Hc|Hc]; [destruct (language (l_config l)); discriminate || congruence|exact Hc]).
    unfold resolve_library. rewrite C3, Et. reflexivity. }
  apply (kinds_outer (fun _ => None)). eapply rename_kinds; [exact S5|intros i Hi; apply P4; assumption|]. rewrite E. apply fresh_kinds. assumption.
Qed.
Lemma In_registered : forall l i, In i (registered l) <-> In i (defined l).
Proof. intros l i. unfold registered, defined. rewrite !in_app_iff. tauto. Qed.
Lemma keyword_defined : forall l i, In i (defined l) -> (forall j, In j (defined l) -> ic_path j = ic_path i -> declared_as j = declared_as i) ->
  keyword_of l (ic_path i) = declared_as i.
Proof.
  intros l i Hi Hu. unfold keyword_of. destruct (find _ (registered l)) as [j|] eqn:E.
  - apply find_some in E as [Hj Ej]. apply Hu; [apply In_registered; assumption|apply String.eqb_eq; assumption].
  - apply In_registered in Hi. eapply find_none in E; [|exact Hi]. cbn in E. rewrite String.eqb_refl in E. discriminate.
Qed.

(** ** C13 for plain constants *)
Lemma constants_spelled : forall (H : Heck) fuel visit l b, as_loaded l -> generate fuel visit l = Done b ->
  Forall (fun c => exists c0, In c0 (to_vec (l_constants l)) /\ c_path c = c_path c0
    /\ lit_constants (c_value c) = map (export_rename (export (l_config l))) (lit_constants (c_value c0))
    /\ (c_associated_to c0 = None -> c_export_name c = export_rename (export (l_config l)) (c_path c0))) (b_constants b).
Proof.
  intros H fuel visit l b Hl Hg. apply generate_inv in Hg as (l' & Hp & Hf & Hc). apply prepare_stages in Hp as (l1 & l2 & l3 & l4 & St).
  pose proof (stages_config _ _ _ _ _ _ _ _ _ St) as (_ & C2 & _ & C4 & _).
  destruct St as [S1 S2 S3 S4 S5]. pose proof (rename_rest _ _ _ S5) as (_ & R2 & _). rewrite C4 in *.
  assert (E2 : l_constants l2 = l_constants l).
  { destruct (transfer_rest visit l) as (_ & T2 & _). destruct (Language_eqb _ Cxx); [subst; exact T2|]. apply mono_rest in S2 as (_ & -> & _). subst. exact T2. }
  assert (E4 : l_constants l4 = l_constants l3) by (subst l4; destruct (Language_eqb _ M_Config.C); [apply resolve_rest|reflexivity]).
  unfold finish in Hf. destruct (library_dependencies l'); inversion Hf; subst b; clear Hf. cbn [b_constants].
  destruct (should_generate _ Constants); [|constructor]. apply Forall_forall. intros c Hi. apply sort_by_path_In in Hi. rewrite R2 in Hi.
  apply rebuild_invents_nothing in Hi. rewrite to_vec_map in Hi. apply in_map_iff in Hi as (h & <- & Hh). exists h.
  rewrite E4, S3 in Hh. cbn [remove_excluded l_constants] in Hh. rewrite filter_to_vec in Hh. apply filter_In in Hh as [Hh _]. rewrite E2 in Hh.
  split; [assumption|]. split; [reflexivity|]. cbn [Constant_rename_for_config c_value]. split; [apply rename_lit_constants|].
  intros Ea. destruct Hl as [_ _ _ _ _ Fc]. rewrite Forall_forall in Fc. destruct (Fc h Hh) as (_ & _ & Ee). cbn. rewrite Ea. rewrite Ee by assumption. reflexivity.
Qed.
