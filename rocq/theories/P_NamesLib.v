(** C13: names after the whole pipeline, from the lemmas on each pass. *)
Require Import Coq.Strings.String Coq.Lists.List Coq.Bool.Bool Coq.Sorting.Permutation.
From Verif Require Import Base P_Base M_Config M_Cfg M_Type M_Ir M_Item M_Library S_Item S_Sort S_Library S_Names P_Type P_Sort P_Item P_Table P_Library P_Transfer P_Mono P_Stages P_Names P_Spelling.
Import ListNotations.
Open Scope list_scope.

(** ** Tables stay well formed *)
Lemma wf_giving : forall T (I : Item T) p a (m : ItemMap T), (forall x, same_key x (i_set_annotations a x)) -> wf m -> wf (giving p a m).
Proof.
  intros T I p a m Hk. unfold giving. cbn [give_annotations fst]. apply wf_trel. eapply trel_impl; [|apply trel_at].
  intros x y [-> | ->]; [split; reflexivity|]. destruct (an_is_empty _); [apply Hk|split; reflexivity].
Qed.
Lemma wf_if_giving : forall T (I : Item T) (b : bool) p a (m : ItemMap T), (forall x, same_key x (i_set_annotations a x)) -> wf m -> wf (if b then m else giving p a m).
Proof. intros T I [] p a m Hk W; [assumption|apply wf_giving; assumption]. Qed.
Lemma transfer_one_tables : forall l e, tables_built l -> tables_built (transfer_one l e).
Proof.
  intros l [p a] [A B C D E]. rewrite transfer_one_eq. apply reachable_wf in A, B, C, D, E.
  constructor; apply reachable_wf; cbn; try apply wf_giving; try apply wf_if_giving; auto; intros x; split; reflexivity.
Qed.
Lemma transfer_tables : forall visit l, tables_built l -> tables_built (transfer_annotations visit l).
Proof.
  intros visit l [A B C D E]. unfold transfer_annotations.
  assert (Ht : reachable (fst (take_annotations (l_typedefs l) []))).
  { apply reachable_wf. apply reachable_wf in E. eapply wf_trel; [|exact E]. eapply trel_impl; [|apply take_typedefs].
    intros x y [->|[-> _]]; split; reflexivity. }
  destruct (take_annotations (l_typedefs l) []) as [td an]. cbn in Ht.
  assert (H0 : tables_built {| l_config := l_config l; l_constants := l_constants l; l_globals := l_globals l; l_enums := l_enums l;
       l_structs := l_structs l; l_unions := l_unions l; l_opaque_items := l_opaque_items l; l_typedefs := td;
       l_functions := l_functions l; l_source_files := l_source_files l; l_package_version := l_package_version l |}) by (constructor; assumption).
  revert H0. generalize (visit an). intros xs. match goal with |- _ -> tables_built (fold_left _ _ ?x) => generalize x end.
  induction xs as [|e r IH]; intros l0 H0; cbn [fold_left]; [assumption|]. apply IH. apply transfer_one_tables. assumption.
Qed.
Ltac tables_map := intros [A B C D E]; apply reachable_wf in A, B, C, D, E; constructor; apply reachable_wf; cbn;
  try apply wf_map; auto; intros x; split; reflexivity.
Lemma simplify_tables : forall l, tables_built l -> tables_built (simplify_library l).
Proof. intros l. tables_map. Qed.
Lemma resolve_tables : forall l, tables_built l -> tables_built (resolve_library l).
Proof. intros l. unfold resolve_library. destruct (negb _); [auto|]. tables_map. Qed.
Lemma excluded_tables : forall l, tables_built l -> tables_built (remove_excluded l).
Proof. intros l [A B C D E]. apply reachable_wf in A, B, C, D, E. constructor; apply reachable_wf; cbn; apply wf_filter; assumption. Qed.
Lemma mono_tables : forall (H : Heck) fuel l l', instantiate_monomorphs fuel l = Done l' -> tables_built l -> tables_built l'.
Proof.
  intros H fuel l l'. unfold instantiate_monomorphs. destruct (foldM _ _ _) as [m| |]; try discriminate. intros Eq. inversion Eq; subst; clear Eq.
  intros [A B C D E]; apply reachable_wf in A, B, C, D, E; constructor; apply reachable_wf; cbn;
  try apply wf_map; try apply wf_filter; try apply wf_insert_all; auto; intros x; split; reflexivity.
Qed.
Lemma rename_tables : forall (H : Heck) l l', rename_items l = Some l' -> tables_built l'.
Proof.
  intros H l l' Hr. apply rename_rest in Hr as (_ & _ & _ & _ & (st & _ & Es) & (un & _ & Eu) & (en & _ & Ee) & Eo & Et).
  constructor; apply reachable_wf; rewrite ?Es, ?Eu, ?Ee, ?Eo, ?Et; apply wf_rebuilt.
Qed.
Lemma wf_get : forall T (I : Item T) (m : ItemMap T) p xs, wf m -> get_items p m = Some xs -> xs <> [] /\ Forall (fun x => i_path x = p) xs.
Proof.
  intros T I m p xs W E. rewrite (wf_get_items _ _ W) in E. destruct (at_path p (to_vec m)) as [|x r] eqn:Ea; [discriminate|].
  inversion E; subst; clear E. split; [discriminate|]. rewrite <- Ea. unfold at_path. apply Forall_forall. intros y Hy. apply filter_In in Hy as [_ Hy].
  apply String.eqb_eq. assumption.
Qed.
Lemma find_kind_inv : forall T l k (mk : T -> ItemContainer) (m : ItemMap T) p rest items, find_kind l k mk m p rest = Some items ->
  (exists xs, get_items p m = Some xs /\ items = map mk xs) \/ rest = Some items.
Proof.
  intros T l k mk m p rest items. unfold find_kind. destruct (should_generate _ _); [|auto].
  destruct (get_items p m) as [xs|]; [|auto]. intros E. inversion E. eauto.
Qed.
Lemma lib_get_cases : forall l p items, lib_get_items l p = Some items ->
  (exists xs, get_items p (l_enums l) = Some xs /\ items = map ICEnum xs) \/ (exists xs, get_items p (l_structs l) = Some xs /\ items = map ICStruct xs)
  \/ (exists xs, get_items p (l_unions l) = Some xs /\ items = map ICUnion xs) \/ (exists xs, get_items p (l_opaque_items l) = Some xs /\ items = map ICOpaque xs)
  \/ (exists xs, get_items p (l_typedefs l) = Some xs /\ items = map ICTypedef xs).
Proof.
  intros l p items E. unfold lib_get_items in E. repeat (apply find_kind_inv in E as [E|E]; [auto 8|]). discriminate.
Qed.
Lemma tables_items : forall l, tables_built l -> forall p items, lib_get_items l p = Some items -> items <> [] /\ Forall (fun i => ic_path i = p) items.
Proof.
  intros l [A B C D E] p items Hi. apply reachable_wf in A, B, C, D, E. apply lib_get_cases in Hi.
  repeat destruct Hi as [Hi|Hi]; destruct Hi as (xs & G & ->); (eapply wf_get in G; [|eassumption]); destruct G as [Hn Hp];
    (split; [destruct xs; [congruence|discriminate]|rewrite Forall_map; exact Hp]).
Qed.
Lemma lib_items_In : forall l p items i, lib_get_items l p = Some items -> In i items -> In i (defined l).
Proof.
  intros l p items i Hi. apply lib_get_cases in Hi.
  repeat destruct Hi as [Hi|Hi]; destruct Hi as (xs & G & ->); intros Hx; apply in_map_iff in Hx as (y & <- & Hy); apply In_defined; eapply get_items_In; eassumption.
Qed.

(** ** Monomorphs *)
Definition fresh_path (g : GenericPath) : Prop := Forall fresh (path_refs g).
Lemma fresh_proper : forall g, fresh_path g -> proper g.
Proof. intros [p e gs c] Hg. inversion Hg as [|? ? [A B] _]; subst. cbn in *. subst. split; reflexivity. Qed.
Lemma fresh_args : forall g, fresh_path g -> Forall (fun a => Forall fresh (arg_refs a)) (gp_generics g).
Proof. intros [p e gs c] Hg. inversion Hg; subst. apply Forall_concat_map. assumption. Qed.
Lemma type_monos_fresh : forall t, fresh_type t -> Forall fresh_path (Type_monos t).
Proof.
  apply (Ty_only_ind (fun t => fresh_type t -> Forall fresh_path (Type_monos t))); unfold fresh_type.
  - intros t c n r IH Ho. cbn. apply IH. exact Ho.
  - intros p e gs ct _ Ho. cbn [Type_monos]. destruct (is_nil _); constructor; [exact Ho|constructor].
  - constructor.
  - intros t e IH Ho. cbn in *. rewrite Forall_app in Ho. apply IH. tauto.
  - intros r args n nr IH1 IH2 Ho. cbn in *. rewrite Forall_app, Forall_concat_map in *. destruct Ho as [H1 H2].
    split; [auto|]. clear -IH2 H2. induction IH2; cbn; [constructor|]. inversion H2; subst. constructor; auto.
Qed.
Lemma fields_monos_fresh : forall fs, fresh_fields fs -> Forall fresh_path (concat (map (fun f => Type_monos (fd_ty f)) fs)).
Proof. intros fs Hf. apply Forall_concat_map. eapply Forall_impl; [|exact Hf]. intros f. apply type_monos_fresh. Qed.
Lemma struct_monos_fresh : forall s, fresh_struct s -> Forall fresh_path (Struct_monos s).
Proof. intros s (A & B & C & D). unfold Struct_monos. destruct (is_generic s); [constructor|]. apply fields_monos_fresh. assumption. Qed.
Lemma item_monos_fresh : forall i, fresh_item i -> Forall fresh_path (ic_monos i).
Proof.
  intros [o|s|u|e|t]; cbn [fresh_item ic_monos].
  - constructor.
  - apply struct_monos_fresh.
  - intros (A & B & C). unfold Union_monos. destruct (is_generic u); [constructor|]. apply fields_monos_fresh. assumption.
  - intros (A & B & C). unfold Enum_monos. destruct (is_generic e); [constructor|]. apply Forall_concat_map. apply Forall_forall. intros v Hv.
    destruct (C v Hv) as [D _]. destruct (v_body v) as [a|n s i ic] eqn:Eb; [constructor|]. apply struct_monos_fresh. eapply D. reflexivity.
  - intros (A & B & C). unfold Typedef_monos. destruct (is_generic t); [constructor|]. apply type_monos_fresh. assumption.
Qed.
Definition fresh_function (f : Function) : Prop := Forall (fun r => fresh (snd r)) (function_refs f).
Lemma function_monos_fresh : forall f, fresh_function f -> Forall fresh_path (Function_monos f).
Proof.
  intros f. unfold fresh_function, function_refs, under, Function_monos. rewrite Forall_map. cbn. rewrite !Forall_app, !Forall_concat_map.
  intros [A B]. split; [apply type_monos_fresh; assumption|]. eapply Forall_impl; [|exact B]. intros a. apply type_monos_fresh.
Qed.
Lemma library_monos_fresh : forall l, Forall fresh_item (defined l) -> Forall fresh_function (l_functions l) -> Forall fresh_path (library_monos l).
Proof.
  intros l Hd Hf. rewrite Forall_forall in Hd. unfold library_monos. rewrite !Forall_app, !Forall_concat_map.
  repeat split; [..|eapply Forall_impl; [|exact Hf]; apply function_monos_fresh]; apply Forall_forall; intros x Hx.
  - apply (item_monos_fresh (ICStruct x)). apply Hd. apply In_defined. assumption.
  - apply (item_monos_fresh (ICUnion x)). apply Hd. apply In_defined. assumption.
  - apply (item_monos_fresh (ICEnum x)). apply Hd. apply In_defined. assumption.
  - apply (item_monos_fresh (ICTypedef x)). apply Hd. apply In_defined. assumption.
Qed.
(** Everything instantiated is as freshly loaded. *)
Lemma monos_fresh : forall (H : Heck) fuel l m, tables_built l -> Forall fresh_item (defined l) -> Forall fresh_function (l_functions l) ->
  foldM (add_mono l fuel) (library_monos l) Monomorphs_default = Done m -> Forall fresh_item (m_items m).
Proof.
  intros H fuel l m Ht Hd Hf E. rewrite Forall_forall in Hd.
  refine (proj2 (adds_inv l fresh_path (fun m => Forall fresh_item (m_items m)) (tables_items l Ht) fresh_proper _ _ _ fuel _ _ _ (library_monos_fresh l _ Hf) E) _).
  - intros g items i p x Hg Hl Hi Hx h Hh. assert (Hfx : fresh_item x).
    { eapply fresh_piece; [apply fresh_args; exact Hg| |exact Hx]. apply Hd. eapply lib_items_In; eassumption. }
    apply item_monos_fresh in Hfx. rewrite Forall_forall in Hfx. auto.
  - intros g items i p x m0 _ _ _ _ Hq. exact Hq.
  - intros g items i p x m0 Hg Hl Hi Hx Hq _ _. apply Forall_forall. intros y Hy. apply push_items in Hy as [->|Hy].
    + eapply fresh_piece; [apply fresh_args; exact Hg| |exact Hx]. apply Hd. eapply lib_items_In; eassumption.
    + rewrite Forall_forall in Hq. auto.
  - apply Forall_forall. assumption.
  - constructor.
Qed.

Lemma sort_by_path_In : forall A (p : A -> string) key l x, In x (sort_by_path p key l) -> In x l.
Proof. intros A p key l x Hx. eapply Permutation_in; [|exact Hx]. apply Permutation_sym. unfold sort_by_path. destruct key; [apply sort_perm|apply Permutation_refl]. Qed.

(** ** From the loaded library to the one whose keywords are resolved *)
Definition no_tag (i : ItemContainer) : Prop := match i with ICStruct s => s_has_tag_field s = false | _ => True end.
Definition fresh_global (g : Static) : Prop := Forall (fun r => fresh (snd r)) (global_refs g).
Record fresh_lib (l : Library) : Prop := {
  fl_tables : tables_built l;
  fl_items : forall i, In i (defined l) -> fresh_item i;
  fl_structs : language (l_config l) = Cxx -> forall i, In i (defined l) -> no_tag i;
  fl_functions : forall f, In f (l_functions l) -> fresh_function f;
  fl_globals : forall g, In g (to_vec (l_globals l)) -> fresh_global g;
  fl_constants : forall c, In c (to_vec (l_constants l)) -> fresh_constant c }.
Lemma loaded_fresh : forall l, as_loaded l -> fresh_lib l.
Proof.
  intros l [A B C D E F]. rewrite Forall_forall in *. constructor; auto.
  intros _ i Hi. apply In_defined in Hi. destruct i; cbn; auto.
Qed.
Lemma fresh_transfer : forall visit l, fresh_lib l -> fresh_lib (transfer_annotations visit l).
Proof.
  intros visit l [A B C D E F]. destruct (transfer_rest visit l) as (T1 & T2 & T3 & T4 & _). constructor; rewrite ?T1, ?T2, ?T3, ?T4; auto.
  - apply transfer_tables. assumption.
  - intros i Hi. apply transfer_defined in Hi as (j & Hj & [->|(a & ->)]); auto. apply fresh_item_annotations. auto.
  - intros El i Hi. apply transfer_defined in Hi as (j & Hj & [->|(a & ->)]); auto. specialize (C El j Hj). destruct j; exact C.
Qed.
Lemma function_fresh_map : forall f h, (forall t, fresh_type t -> fresh_type (f t)) -> fresh_function h -> fresh_function (map_f_types f h).
Proof. intros f h Hf Hh. unfold fresh_function in *. rewrite Forall_forall in *. apply function_refs_map; assumption. Qed.
Lemma no_tag_map : forall f i, no_tag i -> no_tag (ic_map_types f i).
Proof. intros f []; auto. Qed.
Lemma fresh_simplified : forall l, fresh_lib l -> fresh_lib (simplify_library l).
Proof.
  intros l [A B C D E F]. constructor; cbn [simplify_library l_config l_functions l_globals l_constants]; auto.
  - apply simplify_tables. assumption.
  - intros i Hi. apply simplify_defined in Hi as (j & Hj & ->). apply fresh_item_map; [apply fresh_simplify|auto].
  - intros El i Hi. apply simplify_defined in Hi as (j & Hj & ->). apply no_tag_map. auto.
  - intros f Hf. apply in_map_iff in Hf as (h & <- & Hh). apply function_fresh_map; [apply fresh_simplify|auto].
  - intros g Hg. rewrite to_vec_map in Hg. apply in_map_iff in Hg as (h & <- & Hh). apply global_refs_map; [apply fresh_simplify|auto]. apply E. assumption.
Qed.
Lemma fresh_sorted : forall l, fresh_lib l -> fresh_lib (sort_functions l).
Proof.
  intros l [[A1 A2 A3 A4 A5] B C D E F]. constructor; auto; [constructor; assumption|]. cbn [sort_functions l_functions].
  intros f Hf. apply D. eapply Permutation_in; [|exact Hf]. apply Permutation_sym. unfold sort_by_path. destruct (sort_key _ _); [apply sort_perm|apply Permutation_refl].
Qed.
Lemma fresh_mono : forall (H : Heck) fuel l l', instantiate_monomorphs fuel l = Done l' -> language (l_config l) <> Cxx -> fresh_lib l -> fresh_lib l'.
Proof.
  intros H fuel l l' E Hl [A B C D G F]. pose proof (mono_rest _ _ _ _ E) as (R1 & R2 & R3 & _). pose proof (mono_tables _ _ _ _ E A) as A'.
  apply mono_defined in E as (m & Em & Ef & Ed).
  assert (Hm : Forall fresh_item (m_items m)).
  { eapply monos_fresh; [exact A| | |exact Em]; apply Forall_forall; assumption. }
  rewrite Forall_forall in Hm. constructor; rewrite ?R1, ?R2, ?R3; auto; [|congruence|].
  - intros i Hi. destruct (Ed i Hi) as (j & [Hj|Hj] & _ & ->); (apply fresh_item_map; [apply fresh_mangle|auto]).
  - intros f Hf. rewrite Ef in Hf. apply in_map_iff in Hf as (h & <- & Hh). apply function_fresh_map; [apply fresh_mangle|auto].
Qed.
Lemma fresh_kept : forall l, fresh_lib l -> fresh_lib (remove_excluded l).
Proof.
  intros l [A B C D E F]. constructor; cbn [remove_excluded l_config l_functions l_globals l_constants]; auto.
  - apply excluded_tables. assumption.
  - intros i Hi. apply excluded_defined in Hi as [Hi _]. auto.
  - intros El i Hi. apply excluded_defined in Hi as [Hi _]. auto.
  - intros f Hf. apply filter_In in Hf as [Hf _]. auto.
  - intros g Hg. rewrite filter_to_vec in Hg. apply filter_In in Hg as [Hg _]. auto.
  - intros g Hg. rewrite filter_to_vec in Hg. apply filter_In in Hg as [Hg _]. auto.
Qed.
Lemma stages_fresh : forall (H : Heck) fuel visit l l1 l2 l3 l4 l', stages fuel visit l l1 l2 l3 l4 l' -> as_loaded l -> fresh_lib l3.
Proof.
  intros H fuel visit l l1 l2 l3 l4 l' St Hl. pose proof (stages_config _ _ _ _ _ _ _ _ _ St) as (C1 & _). destruct St as [S1 S2 S3 S4 S5].
  assert (F1 : fresh_lib l1) by (subst l1; apply fresh_sorted, fresh_simplified, fresh_transfer, loaded_fresh; assumption).
  subst l3. apply fresh_kept. destruct (Language_eqb _ Cxx) eqn:El; [congruence|]. eapply fresh_mono; [exact S2| |exact F1].
  rewrite C1. intros Hx. rewrite Hx in El. discriminate.
Qed.

(** ** Names once keywords are resolved *)
Definition spell (r : reference) : string * string := (r_path r, r_name r).
Definition spell_scoped (r : scoped) : GenericParams * (string * string) := (fst r, spell (snd r)).
Definition plain (r : scoped) : Prop := r_name (snd r) = r_path (snd r).
Lemma plain_spell : forall a b, map spell_scoped a = map spell_scoped b -> Forall plain b -> Forall plain a.
Proof.
  intros a b E Hb. revert a E. induction Hb as [|y r Hy Hr IH]; intros [|x q] E; try discriminate; [constructor|].
  cbn in E. inversion E. constructor; [|apply IH; assumption]. unfold plain in *. unfold spell in *. congruence.
Qed.
Lemma resolve_spell : forall r t, map spell (type_refs (Type_resolve_declaration_types r t)) = map spell (type_refs t).
Proof.
  intros r. apply (Ty_only_ind (fun t => map spell (type_refs (Type_resolve_declaration_types r t)) = map spell (type_refs t))).
  - intros t c n rf IH. exact IH.
  - reflexivity.
  - reflexivity.
  - intros t e IH. cbn. rewrite !map_app, IH. reflexivity.
  - intros rt args n nr IH1 IH2. cbn. rewrite !map_app, IH1. f_equal. clear -IH2.
    induction IH2 as [|a q Ha Hq IH]; [reflexivity|]. cbn. rewrite !map_app. cbn in Ha. rewrite Ha, IH. reflexivity.
Qed.
Section Spell.
  Variable f : Ty -> Ty.
  Hypothesis Hf : forall t, map spell (type_refs (f t)) = map spell (type_refs t).
  Lemma under_spell : forall ps a b, map spell a = map spell b -> map spell_scoped (under ps a) = map spell_scoped (under ps b).
  Proof.
    intros ps a b E. unfold under. rewrite !map_map. change (map (fun x => (ps, spell x)) a = map (fun x => (ps, spell x)) b).
    rewrite <- !(map_map spell (pair ps)), E. reflexivity.
  Qed.
  Lemma concat_spell : forall A B C (k : B -> C) (g h : A -> list B) l, (forall x, In x l -> map k (g x) = map k (h x)) -> map k (concat (map g l)) = map k (concat (map h l)).
  Proof. intros A B C k g h l. induction l as [|x r IH]; intros E; [reflexivity|]. cbn. rewrite !map_app, (E x), IH; auto; [intros; apply E; right; assumption|left; reflexivity]. Qed.
  Lemma fields_spell : forall ps fs, map spell_scoped (fields_refs ps (map (map_fd_ty f) fs)) = map spell_scoped (fields_refs ps fs).
  Proof. intros ps fs. unfold fields_refs. apply under_spell. rewrite map_map. apply concat_spell. intros x _. apply Hf. Qed.
  Lemma struct_spell : forall s, map spell_scoped (struct_refs (map_s_types f s)) = map spell_scoped (struct_refs s).
  Proof.
    intros s. unfold struct_refs. rewrite !map_app. f_equal.
    replace (own_fields (map_s_types f s)) with (map (map_fd_ty f) (own_fields s)); [apply fields_spell|].
    unfold own_fields. cbn. destruct (s_has_tag_field s); [apply map_tl|reflexivity].
  Qed.
  Lemma item_spell : forall i, map spell_scoped (item_refs (ic_map_types f i)) = map spell_scoped (item_refs i).
  Proof.
    intros [o|s|u|e|t]; cbn [ic_map_types item_refs]; [reflexivity|apply struct_spell|apply fields_spell| |apply under_spell; apply Hf].
    cbn [map_e_bodies set_e_variants e_variants]. rewrite map_map. apply concat_spell. intros v _. unfold variant_refs.
    cbn [map_v_body set_v_body v_body v_discriminant]. rewrite !map_app. f_equal. destruct (v_body v); [reflexivity|]. apply struct_spell.
  Qed.
End Spell.
Lemma fresh_refs_plain : forall ps rs, Forall fresh rs -> Forall plain (under ps rs).
Proof. intros ps rs Hr. unfold under. rewrite Forall_map. eapply Forall_impl; [|exact Hr]. intros r [A _]. exact A. Qed.
Lemma fields_plain : forall ps fs, fresh_fields fs -> Forall plain (fields_refs ps fs).
Proof. intros ps fs Hf. apply fresh_refs_plain. apply Forall_concat_map. exact Hf. Qed.
Lemma own_fresh : forall s, fresh_fields (s_fields s) -> fresh_fields (own_fields s).
Proof. intros s Hs. unfold own_fields. destruct (s_has_tag_field s); [|assumption]. destruct (s_fields s); [constructor|]. inversion Hs; assumption. Qed.
Lemma constant_plain : forall c, fresh_constant c -> Forall plain (constant_refs c).
Proof. intros c (A & B & _). apply fresh_refs_plain. apply Forall_app. auto. Qed.
Lemma struct_plain : forall s, fresh_struct s -> Forall plain (struct_refs s).
Proof.
  intros s (A & B & C & D). apply Forall_app. split; [apply fields_plain, own_fresh; assumption|]. apply Forall_concat_map.
  eapply Forall_impl; [|exact D]. apply constant_plain.
Qed.
Lemma item_plain : forall i, fresh_item i -> Forall plain (item_refs i).
Proof.
  intros [o|s|u|e|t]; cbn [fresh_item item_refs]; [constructor|apply struct_plain| | |].
  - intros (_ & _ & C). apply fields_plain. assumption.
  - intros (_ & _ & C). apply Forall_concat_map. apply Forall_forall. intros v Hv. destruct (C v Hv) as [D E]. apply Forall_app. split.
    + destruct (v_body v) as [a|n s i ic] eqn:Eb; [constructor|]. apply struct_plain. eapply D. reflexivity.
    + destruct (v_discriminant v) as [d|]; [|constructor]. apply fresh_refs_plain. auto.
  - intros (_ & _ & C). apply fresh_refs_plain. assumption.
Qed.
Definition tagged (i : ItemContainer) : Prop := match i with ICEnum e => tagged_bodies e | _ => True end.
Lemma fresh_tagged : forall i, fresh_item i -> tagged i.
Proof. intros [o|s|u|e|t]; cbn; auto. intros (_ & _ & C) v n s i ic Hv Eb. apply (C v Hv) in Eb. tauto. Qed.
Lemma fresh_export : forall i, fresh_item i -> ic_export_name i = ic_path i.
Proof. intros [o|s|u|e|t]; cbn; [auto|intros []; auto..]. Qed.
Lemma tagged_map : forall f i, tagged i -> tagged (ic_map_types f i).
Proof.
  intros f [o|s|u|e|t]; cbn; auto. intros C v n s i ic Hv Eb. cbn in Hv. apply in_map_iff in Hv as (w & <- & Hw).
  cbn in Eb. destruct (v_body w) as [|n' s' i' ic'] eqn:Ew; inversion Eb; subst. cbn. eapply C; eassumption.
Qed.
Record plain_item (i : ItemContainer) : Prop := { pi_export : ic_export_name i = ic_path i; pi_refs : Forall plain (item_refs i); pi_tagged : tagged i }.
Lemma fresh_plain_item : forall i, fresh_item i -> plain_item i.
Proof. intros i Hi. constructor; [apply fresh_export|apply item_plain|apply fresh_tagged]; assumption. Qed.
Lemma plain_map : forall f i, (forall t, map spell (type_refs (f t)) = map spell (type_refs t)) -> plain_item i -> plain_item (ic_map_types f i).
Proof.
  intros f i Hf [A B C]. constructor; [destruct i; exact A| |apply tagged_map; assumption]. eapply plain_spell; [apply item_spell; exact Hf|exact B].
Qed.
Record plain_lib (l : Library) : Prop := {
  pl_items : forall i, In i (defined l) -> plain_item i;
  pl_structs : language (l_config l) = Cxx -> forall i, In i (defined l) -> no_tag i;
  pl_functions : forall f, In f (l_functions l) -> Forall plain (function_refs f);
  pl_globals : forall g, In g (to_vec (l_globals l)) -> Forall plain (global_refs g);
  pl_constants : forall c, In c (to_vec (l_constants l)) -> fresh_constant c }.
Lemma fresh_plain : forall l, fresh_lib l -> plain_lib l.
Proof.
  intros l [A B C D E F]. constructor; auto.
  - intros i Hi. apply fresh_plain_item. auto.
  - intros f Hf. eapply Forall_impl; [|apply D; exact Hf]. intros r [G _]. exact G.
  - intros f Hf. eapply Forall_impl; [|apply E; exact Hf]. intros r [G _]. exact G.
Qed.
Lemma resolve_plain : forall l, plain_lib l -> plain_lib (resolve_library l).
Proof.
  intros l [B C D E F]. destruct (resolve_rest l) as [R1 R2]. constructor; rewrite ?R1, ?R2; auto.
  - intros i Hi. apply resolve_items in Hi as (j & Hj & [[-> _]|[-> _]]); auto. apply plain_map; [apply resolve_spell|auto].
  - intros El i Hi. apply resolve_items in Hi as (j & Hj & [[-> _]|[-> _]]); auto. apply no_tag_map. auto.
  - unfold resolve_library. destruct (negb _); [assumption|]. cbn [l_functions]. intros f Hf. apply in_map_iff in Hf as (h & <- & Hh).
    eapply plain_spell; [|apply D; exact Hh]. unfold function_refs. apply under_spell.
    rewrite !map_app. f_equal; [apply resolve_spell|]. change (f_args (Function_resolve (library_resolver l) h)) with (map (map_a_ty (Type_resolve_declaration_types (library_resolver l))) (f_args h)). rewrite map_map. apply concat_spell. intros a _. apply resolve_spell.
  - unfold resolve_library. destruct (negb _); [assumption|]. cbn [l_globals]. intros f Hf. rewrite to_vec_map in Hf. apply in_map_iff in Hf as (h & <- & Hh).
    eapply plain_spell; [|apply E; exact Hh]. unfold global_refs. apply under_spell. apply resolve_spell.
Qed.
Lemma stages_plain : forall (H : Heck) fuel visit l l1 l2 l3 l4 l', stages fuel visit l l1 l2 l3 l4 l' -> as_loaded l -> plain_lib l4.
Proof.
  intros H fuel visit l l1 l2 l3 l4 l' St Hl. pose proof (stages_fresh _ _ _ _ _ _ _ _ _ St Hl) as F. apply fresh_plain in F.
  destruct St as [S1 S2 S3 S4 S5]. rewrite S4. destruct (Language_eqb _ M_Config.C); [apply resolve_plain|]; assumption.
Qed.

(** ** Renaming *)
Definition spelled (ex : ExportConfig) (r : scoped) : Prop :=
  r_name (snd r) = if is_generic_param (fst r) (r_path (snd r)) then r_path (snd r) else export_rename ex (r_path (snd r)).
Lemma rename_spelled : forall ex rs, Forall plain rs -> Forall (spelled ex) (map (rename_scoped ex) rs).
Proof.
  intros ex rs Hr. rewrite Forall_map. eapply Forall_impl; [|exact Hr]. intros [ps r] E. unfold plain, spelled, rename_scoped in *. cbn in *.
  rewrite E. reflexivity.
Qed.
Lemma renamed_refs : forall (H : Heck) c j i, renamed c j i -> plain_item j -> Forall (spelled (export c)) (item_refs i).
Proof.
  intros H c j i Hr [A B C].
  assert (E : item_refs i = map (rename_scoped (export c)) (item_refs j)).
  { destruct j as [o|s|u|e|t], i as [o'|s'|u'|e'|t']; cbn [renamed] in Hr; try contradiction.
    - reflexivity.
    - apply (rename_struct_refs _ _ _ _ Hr).
    - apply (rename_union_refs _ _ _ _ Hr).
    - apply (rename_enum_refs _ _ _ _ Hr C).
    - subst. cbn. rewrite rename_type_refs. apply under_rename. }
  rewrite E. apply rename_spelled. assumption.
Qed.
Lemma renamed_export : forall (H : Heck) c j i, renamed c j i -> plain_item j -> (language c = Cxx -> no_tag j) ->
  ic_path i = ic_path j /\ ic_export_name i = export_rename (export c) (ic_path i).
Proof.
  intros H c j i Hr [A B C] Hn.
  destruct j as [o|s|u|e|t], i as [o'|s'|u'|e'|t']; cbn [renamed] in Hr; try contradiction; cbn in A.
  - subst. cbn. split; [reflexivity|]. rewrite A. reflexivity.
  - pose proof (struct_rename_shape _ _ _ _ Hr) as (P & _). apply struct_rename_fields_ty in Hr as (_ & _ & E). cbn [ic_path ic_export_name].
    split; [exact P|]. rewrite E, P, A. cbn in Hn. destruct (s_has_tag_field s); [|reflexivity].
    destruct (language c); [specialize (Hn eq_refl); discriminate|reflexivity..].
  - apply union_rename_shape in Hr as (fs & ->). cbn. rewrite A. auto.
  - apply enum_rename_shape in Hr as (P & E & _). cbn. rewrite P, E, A. auto.
  - subst. cbn. rewrite A. auto.
Qed.

Lemma names_spec : forall (H : Heck) fuel visit l b, as_loaded l -> generate fuel visit l = Done b ->
  Forall (spelled (export (l_config l))) (written_refs b)
  /\ Forall (fun i => ic_export_name i = export_rename (export (l_config l)) (ic_path i)) (b_items b).
Proof.
  intros H fuel visit l b Hl Hg. apply generate_inv in Hg as (l' & Hp & Hf & Hc). apply prepare_stages in Hp as (l1 & l2 & l3 & l4 & St).
  pose proof (stages_plain _ _ _ _ _ _ _ _ _ St Hl) as [PI PS PF PG PC]. pose proof (stages_config _ _ _ _ _ _ _ _ _ St) as (_ & _ & _ & C4 & _).
  pose proof (st5 _ _ _ _ _ _ _ _ St) as S5. rewrite C4 in PS. pose proof (rename_rest _ _ _ S5) as (R1 & R2 & R3 & R4 & _). rewrite C4 in *.
  assert (HI : forall i, In i (defined l') -> Forall (spelled (export (l_config l))) (item_refs i) /\ ic_export_name i = export_rename (export (l_config l)) (ic_path i)).
  { intros i Hi. destruct (rename_items_from _ _ _ _ S5 Hi) as (j & Hj & Hr). rewrite C4 in Hr. split; [eapply renamed_refs; eauto|].
    eapply (renamed_export _ _ _ _ Hr (PI _ Hj)). intros El. apply PS; assumption. }
  split.
  - unfold written_refs. rewrite !Forall_app, !Forall_concat_map. repeat split; apply Forall_forall.
    + intros i Hi. eapply finish_defined in Hi; [|exact Hf]. apply HI. tauto.
    + intros f Hi. unfold finish in Hf. destruct (library_dependencies l'); inversion Hf; subst; clear Hf. cbn in Hi.
      destruct (should_generate _ Functions); [|destruct Hi]. apply map_opt_Forall2 in R4. apply (Forall2_In_r _ _ _ _ _ _ R4) in Hi as (h & Hh & E).
      rewrite (rename_function_refs _ _ _ _ E). apply rename_spelled. auto.
    + intros g Hi. unfold finish in Hf. destruct (library_dependencies l'); inversion Hf; subst; clear Hf. cbn in Hi.
      destruct (should_generate _ Globals); [|destruct Hi]. apply sort_by_path_In in Hi. rewrite R3 in Hi. apply rebuild_invents_nothing in Hi.
      rewrite to_vec_map in Hi. apply in_map_iff in Hi as (h & <- & Hh). rewrite rename_global_refs. apply rename_spelled. auto.
    + intros g Hi. unfold finish in Hf. destruct (library_dependencies l'); inversion Hf; subst; clear Hf. cbn in Hi.
      destruct (should_generate _ Constants); [|destruct Hi]. apply sort_by_path_In in Hi. rewrite R2 in Hi. apply rebuild_invents_nothing in Hi.
      rewrite to_vec_map in Hi. apply in_map_iff in Hi as (h & <- & Hh). rewrite rename_constant_refs. apply rename_spelled. apply constant_plain. auto.
  - apply Forall_forall. intros i Hi. eapply finish_defined in Hi; [|exact Hf]. apply HI. tauto.
Qed.
