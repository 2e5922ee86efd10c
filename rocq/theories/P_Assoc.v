(** C52: constants of impl blocks for types that are no structs. *)
Require Import Coq.Strings.String Coq.Lists.List Coq.Bool.Bool Coq.Arith.Arith.
From Verif Require Import Base P_Base M_Config M_Cfg S_Cfg P_Cfg M_Type M_Ir M_Item S_Decl M_Attr M_Library M_Bindings M_Syn M_Loader M_Parser S_Item S_Sort S_Library S_Names S_Mono
  S_Parse P_Sort P_Item P_Table P_Library P_Stages P_Names P_NamesLib S_Signature P_SigLib P_ItemPasses P_Exports P_Modules P_Entries P_Crates S_Sources P_Sources P_Fresh P_Made S_Datatypes P_Datatypes
  S_Constants P_ConstMade P_Constants S_Complete P_Complete.
Import ListNotations.
Open Scope string_scope.

Definition structless (T : string) (p : Parse) : Prop := forall s, In s (to_vec (pr_structs p)) -> s_path s <> T.
Definition not_called (T : string) (i : sitem) : Prop :=
  match i with ItemStruct _ ident _ _ => unraw ident <> T | ItemMacro _ _ (Some b) => unraw (M_Loader.bf_name b) <> T | _ => True end.
(** The same for items that are read *)
Definition mild (T : string) (i : sitem) : Prop := should_skip_parsing (item_attrs i) = false -> not_called T i.
Record ready (T : string) (p : Parse) : Prop := { rd_keyed : keyed (pr_structs p); rd_none : structless T p; rd_built : built p }.
Lemma none_there : forall T p, ready T p -> get_items T (pr_structs p) = None.
Proof.
  intros T p [K N _]. unfold get_items. destruct (lookup T (pr_structs p)) as [v|] eqn:E; [|reflexivity]. exfalso.
  destruct (set_entry_split _ _ v E) as (l1 & l2 & Z & _). assert (I : In (T, v) (pr_structs p)) by (rewrite Z; apply in_or_app; right; left; reflexivity).
  destruct (K _ _ I) as [NE P]. destruct (value_items v) as [|x r] eqn:V; [congruence|]. apply (N x); [|apply (P x); left; reflexivity].
  rewrite Z, to_vec_app, to_vec_cons, V. apply in_or_app. right. left. reflexivity.
Qed.
Lemma brings_structless : forall T E p q, brings E p q -> (forall s, E (AType (ICStruct s)) -> s_path s <> T) -> structless T p -> structless T q.
Proof.
  intros T E p q B X N s I. destruct (B (AType (ICStruct s)) I) as (y & [->|(s0 & s1 & -> & Z & (cs & a & ->))] & [Y|Y]).
  - exact (N s Y). - exact (X s Y). - injection Z as ->. exact (N s0 Y). - injection Z as ->. exact (X s0 Y).
Qed.
Lemma made_not_called : forall (H : Heck) T c k i s, not_called T i -> made_from c k i (AType (ICStruct s)) -> s_path s <> T.
Proof.
  intros H T c k i s N (s0 & (cs & a & ->) & M). change (s_path (set_s_constants cs (set_s_annotations a s0))) with (s_path s0).
  destruct i as [| | | |attrs ident generics fields| | | | |own name flags| |]; try contradiction.
  - apply struct_fields in M as (-> & _). exact N.
  - destruct flags as [b|]; [|contradiction]. destruct M as (attrs & _ & M). apply struct_fields in M as (-> & _). exact N.
Qed.
Section Ready.
  Context {H : Heck}.
  Variables (T : string) (ld : loading) (k : option Cfg).
  Lemma item_ready : forall i p q, mild T i -> load_item ld k p i = Some q -> ready T p -> ready T q.
  Proof.
    intros i p q N Q [K S B]. destruct (should_skip_parsing (item_attrs i)) eqn:SK.
    - unfold load_item in Q. rewrite SK in Q. injection Q as <-. split; assumption.
    - split; [exact (proj1 (item_gives ld k i p q SK Q K))| |exact (fed_built _ _ (item_fed ld k _ _ _ Q) B)].
      eapply brings_structless; [exact (item_brings ld k i p q SK Q)| |exact S]. intros s M. exact (made_not_called H T _ _ _ _ (N SK) M).
  Qed.
  Lemma items_ready : forall l p q, Forall (mild T) l -> load_all (load_item ld k) l p = Some q -> ready T p -> ready T q.
  Proof.
    induction l as [|i r IH]; intros p q F Q R; cbn in Q; [injection Q as <-; exact R|]. inversion F; subst.
    destruct (load_item ld k p i) as [p1|] eqn:E; [|discriminate]. eapply IH; [eassumption|exact Q|]. eapply item_ready; eassumption.
  Qed.
  Lemma impl_ready : forall t l p q, load_syn_assoc_consts_from_impl k t l p = Some q -> ready T p -> ready T q.
  Proof.
    intros t l p q Q [K S B]. split; [exact (proj1 (impl_gives k t l p q Q K))| |exact (fed_built _ _ (impl_fed k _ _ _ _ Q) B)].
    eapply brings_structless; [exact (impl_brings k (fun _ => False) _ _ _ _ Q)| |exact S]. intros s [].
  Qed.
  Lemma impls_ready : forall l p q, load_all (fun p x => load_syn_assoc_consts_from_impl k (fst x) (snd x) p) l p = Some q -> ready T p -> ready T q.
  Proof.
    induction l as [|x r IH]; intros p q Q R; cbn in Q; [injection Q as <-; exact R|].
    destruct (load_syn_assoc_consts_from_impl _ _ _ _) as [p1|] eqn:E; [|discriminate]. eapply IH; [exact Q|]. eapply impl_ready; eassumption.
  Qed.
  Lemma module_ready : forall items p q, Forall (mild T) items -> load_syn_crate_mod ld k items p = Some q -> ready T p -> ready T q.
  Proof.
    intros items p q F Q R. unfold load_syn_crate_mod in Q. destruct (load_all (load_item ld k) items p) as [p1|] eqn:E; [|discriminate].
    eapply impls_ready; [exact Q|]. eapply items_ready; eassumption.
  Qed.

  (** The constant of a block *)
  Variables (attrs : attributes) (ident : string) (ty : sty) (value : sexpr) (y : Constant).
  Hypotheses (SK : should_skip_parsing attrs = false) (Y : Constant_load (unraw ident ++ T) k ty value attrs (Some T) = Some (Some y)).
  Lemma assoc_covers : forall before after p q, ready T p -> none_private before ->
    load_assoc_consts k T (before ++ ImplConst attrs true ident ty value :: after) p = Some q -> covered y (pr_constants q).
  Proof.
    induction before as [|x r IH]; intros after p q R N Q.
    - cbn in Q. rewrite SK, Y, (none_there T p R) in Q. apply assoc_fed, fed_more in Q as [Q _]. eapply covered_grows; [exact Q|].
      cbn [with_constants pr_constants]. apply insert_covers. exact (proj1 (rd_built _ _ R)).
    - inversion N as [|? ? Nx Nr]; subst. destruct x as [a pub i t v| |]; cbn in Q; try exact (IH _ _ _ R Nr Q).
      destruct (should_skip_parsing a); [exact (IH _ _ _ R Nr Q)|]. destruct Nx as [->|Nx]; [|discriminate]. cbn in Q.
      destruct (Constant_load (unraw i ++ T) k t v a (Some T)) as [[c|]|]; [|discriminate|exact (IH _ _ _ R Nr Q)]. rewrite (none_there T p R) in Q.
      refine (IH _ _ _ _ Nr Q). destruct R as [K S [B1 B2]]. split; [exact K|exact S|]. split; [apply reachable_insert; exact B1|exact B2].
  Qed.
  Variables (own : attributes) (path : list string) (TI : string) (before after : list simpl_item).
  Hypotheses (OK : should_skip_parsing own = false) (PT : plain_type (SPath (SegPath [] TI NoArgs)) = true) (NP : PrimitiveType_maybe (unraw TI) = None) (EQ : unraw TI = T) (PRIV : none_private before).
  Let this := impl_block own path TI before (ImplConst attrs true ident ty value) after.
  Lemma impl_covers : forall p q, ready T p -> load_syn_assoc_consts_from_impl k (SPath (SegPath path TI NoArgs)) (before ++ ImplConst attrs true ident ty value :: after) p = Some q ->
    covered y (pr_constants q).
  Proof.
    intros p q R Q. unfold load_syn_assoc_consts_from_impl in Q. cbn [plain_type] in PT. apply andb_true_iff in PT as [A B]. apply negb_true_iff in A, B.
    cbn [Type_load GenericPath_load] in Q. rewrite A in Q. cbn [gp_path GenericPath_new gp_generics is_nil] in Q. rewrite A, B, NP in Q. cbn [orb get_root_path gp_path GenericPath_new] in Q.
    rewrite EQ in Q. eapply assoc_covers; eassumption.
  Qed.
  Lemma this_listed : forall items, In this items -> In (SPath (SegPath path TI NoArgs), before ++ ImplConst attrs true ident ty value :: after)%list (impls_with_assoc_consts items).
  Proof.
    induction items as [|i items IH]; intro I; [destruct I|]. unfold impls_with_assoc_consts. cbn [filter_map]. fold (impls_with_assoc_consts items).
    destruct I as [->|I].
    - unfold this, impl_block. rewrite OK, existsb_app. cbn [existsb is_impl_const negb andb]. rewrite orb_true_r. left. reflexivity.
    - destruct i; try exact (IH I). destruct (_ && _); [right|]; exact (IH I).
  Qed.
  Lemma module_has : forall items p q, Forall (mild T) items -> In this items -> load_syn_crate_mod ld k items p = Some q -> ready T p -> covered y (pr_constants q).
  Proof.
    intros items p q F I Q R. apply this_listed in I. unfold load_syn_crate_mod in Q. destruct (load_all (load_item ld k) items p) as [p1|] eqn:E; [|discriminate].
    pose proof (items_ready _ _ _ F E R) as R1. clear E R F. revert p1 q R1 Q I. generalize (impls_with_assoc_consts items). intro l.
    induction l as [|x r IH]; intros p1 q R1 Q I; [destruct I|]. cbn [load_all] in Q.
    destruct (load_syn_assoc_consts_from_impl k (fst x) (snd x) p1) as [p2|] eqn:E; [|discriminate].
    destruct I as [->|I]; [|exact (IH _ _ (impl_ready _ _ _ _ E R1) Q I)].
    cbn [fst snd] in E. apply impl_covers in E; [|exact R1]. eapply covered_grows; [|exact E].
    assert (G : fed p2 q) by (eapply all_fed; [|exact Q]; intros z a b; apply impl_fed). apply fed_more in G as [G _]. exact G.
  Qed.
End Ready.

(** ** Modules and crates *)
Definition quiet (T : string) (v : visit) : Prop := Forall (mild T) (vi_items v).
Lemma visits_ready : forall (H : Heck) T ld vs p q, Forall (quiet T) vs -> load_visits ld vs p = Some q -> ready T p -> ready T q.
Proof.
  intros H T ld. induction vs as [|w r IH]; intros p q F Q R; cbn in Q; [injection Q as <-; exact R|]. inversion F; subst.
  destruct (load_syn_crate_mod ld (Cfg_join (vi_guards w)) (vi_items w) p) as [p1|] eqn:E; [|discriminate].
  eapply IH; [eassumption|exact Q|]. eapply module_ready; eassumption.
Qed.
Lemma visits_have : forall (H : Heck) T ld vs p q v y, Forall (quiet T) vs -> load_visits ld vs p = Some q -> ready T p -> In v vs ->
  (forall p q, load_syn_crate_mod ld (Cfg_join (vi_guards v)) (vi_items v) p = Some q -> ready T p -> covered y (pr_constants q)) -> covered y (pr_constants q).
Proof.
  intros H T ld. induction vs as [|w r IH]; intros p q v y F Q R I G; [destruct I|]. cbn in Q. inversion F; subst.
  destruct (load_syn_crate_mod ld (Cfg_join (vi_guards w)) (vi_items w) p) as [p1|] eqn:E; [|discriminate].
  destruct I as [->|I]; [|eapply IH; [eassumption|exact Q|eapply module_ready; eassumption|exact I|exact G]].
  eapply covered_grows; [|exact (G _ _ E R)]. apply visits_fed, fed_more in Q as [Q _]. exact Q.
Qed.
Lemma crates_have : forall (H : Heck) T cargo c bf rs p q r v y, (forall r v, In r rs -> In v (rd_visits r) -> quiet T v) -> load_crates cargo c bf rs p = Some q -> ready T p -> In r rs -> In v (rd_visits r) ->
  (forall ld p q, load_syn_crate_mod ld (Cfg_join (vi_guards v)) (vi_items v) p = Some q -> ready T p -> covered y (pr_constants q)) -> covered y (pr_constants q).
Proof.
  intros H T cargo c bf. induction rs as [|s rs IH]; intros p q r v y F Q R I J G; [destruct I|]. unfold load_crates in Q. cbn [load_all] in Q.
  destruct (load_visits (loading_of cargo c bf (rd_name s)) (rd_visits s) p) as [p1|] eqn:E; [|discriminate].
  assert (Fs : Forall (quiet T) (rd_visits s)) by (apply Forall_forall; intros w Iw; exact (F s w (or_introl eq_refl) Iw)).
  destruct I as [->|I].
  - eapply covered_grows; [|eapply visits_have; [exact Fs|exact E|exact R|exact J|apply G]]. assert (K : fed p1 q) by exact (crates_fed H _ _ _ _ _ _ Q). apply fed_more in K as [K _]. exact K.
  - eapply (IH p1 q r v y); [intros; eapply F; [right; eassumption|assumption]|exact Q|eapply visits_ready; eassumption|exact I|exact J|exact G].
Qed.
Lemma ready_new : forall T, ready T Parse_new.
Proof. intro T. split; [apply keyed_nil|intros s []|exact built_new]. Qed.
Lemma associated_loads : forall k attrs ident T ty value, plain_type ty = true -> plain_value value = true -> AnnotationSet_load attrs <> None ->
  exists x, Constant_load (unraw ident ++ T) k ty value attrs (Some T) = Some (Some x).
Proof.
  intros k attrs ident T ty value P V A. destruct (type_loads ty P) as (t & E). destruct (value_loads value V) as (l & F).
  unfold Constant_load. rewrite E, F. destruct (AnnotationSet_load attrs); [|exfalso; apply A; reflexivity].
  unfold Constant_new. rewrite P_Constants.suffix_stripped. eexists. reflexivity.
Qed.

Theorem associated_complete : forall (H : Heck) d c bitflags mfuel fuel std srcs lib l, parse_all d c bitflags mfuel fuel std srcs lib = Parsed l ->
  exists vss rs, sources_read d (parse c) srcs lib vss rs
    /\ forall pfuel visit l' b, prepare pfuel visit l = Done l' -> finish l' = Done b ->
       forall v own path T before attrs ident ty value after, let i := impl_block own path T before (ImplConst attrs true ident ty value) after in
         item_read vss rs v i -> no_struct_called vss rs (unraw T) -> none_private before -> bindable_associated c T attrs ident ty value ->
         (exists k, In k (b_constants b) /\ c_path k = unraw ident ++ unraw T)
         /\ (associated_alone vss rs v i attrs ident ty value (unraw ident ++ unraw T) ->
             exists k, In k (b_constants b) /\ constant_for c (module_holds v) (Some (unraw T)) attrs ident ty value k
               /\ raw_constant c (Cfg_join (vi_guards v)) (Some (unraw T)) attrs ty value k).
Proof.
  intros H d c bitflags mfuel fuel std srcs lib l Q. destruct (all_sound d c bitflags mfuel fuel std srcs lib l Q) as (vss & rs & ps & qs & R & B & L & M & LC & _).
  exists vss, rs. split; [exact R|]. intros pfuel visit l' b Hp Hf v own path T before attrs ident ty value after i IR NS PRIV [[PT NP] SK TY V A NE Wa].
  assert (HERE : forall v rho, cfg_eval_opt rho (Cfg_join (vi_guards v)) = module_holds v rho) by (intros w rho; apply join_meaning).
  set (start := if std then add_std_types Parse_new else Parse_new) in M.
  assert (S1 : start = Parse_new \/ start = add_std_types Parse_new) by (unfold start; destruct std; auto).
  destruct (associated_loads (Cfg_join (vi_guards v)) attrs ident (unraw T) ty value TY V A) as (y & Y).
  assert (QUIET : forall w, In w (modules_read vss rs) -> quiet (unraw T) w).
  { intros w Iw. apply Forall_forall. intros j Ij Sj. exact (NS w j (conj Iw (conj Ij Sj))). }
  destruct IR as (Iv & Ii & OWN). assert (HAS : forall ld p q, load_syn_crate_mod ld (Cfg_join (vi_guards v)) (vi_items v) p = Some q -> ready (unraw T) p -> covered y (pr_constants q)).
  { intros ld p q E Rp. eapply (module_has (unraw T) ld (Cfg_join (vi_guards v)) attrs ident ty value y SK Y own path T before after OWN PT NP eq_refl PRIV);
      [exact (QUIET v Iv)|exact Ii|exact E|exact Rp]. }
  assert (PART : exists q, In q (ps ++ qs) /\ covered y (pr_constants q)).
  { unfold modules_read in Iv. apply in_app_or in Iv as [Iv|Iv].
    - apply in_concat in Iv as (vs & Ivs & Iv). destruct (file_part d c bitflags srcs lib vss rs ps R B vs Ivs) as (f & q & Iq & Lq). exists q.
      split; [apply in_or_app; left; exact Iq|]. eapply visits_have; [|exact Lq|apply ready_new|exact Iv|apply HAS].
      apply Forall_forall. intros w Iw. apply QUIET. apply in_or_app. left. apply in_concat. exists vs. auto.
    - apply in_concat in Iv as (vs & Ivs & Iv). apply in_map_iff in Ivs as (r & <- & Ir). pose proof L as L0. unfold lib_parts in L0. destruct lib as [cargo|].
      + destruct L0 as (q & -> & L'). exists q. split; [apply in_or_app; right; left; reflexivity|].
        eapply crates_have; [|exact L'|apply ready_new|exact Ir|exact Iv|exact HAS]. intros r' w Ir' Iw. apply QUIET. apply in_or_app. right. apply in_concat. exists (rd_visits r'). split; [apply in_map; exact Ir'|exact Iw].
      + destruct R as [_ R]. rewrite R in Ir. destruct Ir. }
  assert (MADE : forall v' i' x, const_from (Cfg_join (vi_guards v')) i' None x -> exists self attrs' ident' ty' value', source_constant i' self attrs' ident' ty' value'
    /\ c_path x = unraw ident' ++ match self with Some s => s | None => "" end
    /\ c_cfg x = Cfg_append (Cfg_join (vi_guards v')) (Cfg_of_attrs attrs')
    /\ constant_for c (module_holds v') self attrs' ident' ty' value' (Constant_rename_for_config (export c) x)
    /\ raw_constant c (Cfg_join (vi_guards v')) self attrs' ty' value' (Constant_rename_for_config (export c) x)).
  { intros v' i' x F. destruct (source_made c _ _ (HERE v') _ _ _ F) as (self & attrs' & ident' & ty' & value' & _ & SC & KF & RC).
    exists self, attrs', ident', ty', value'. split; [exact SC|]. split; [exact (kf_path _ _ _ _ _ _ _ _ KF)|]. split; [exact (proj1 RC)|]. auto. }
  destruct (constant_made c _ _ (HERE v) (Some (unraw T)) attrs ident ty value y Y) as [KF RC].
  assert (PY : c_path y = unraw ident ++ unraw T) by exact (kf_path _ _ _ _ _ _ _ _ KF).
  destruct PART as (q & Iq & C1).
  assert (SB : built start) by (unfold start; destruct std; split; apply reachable_nil).
  destruct (merged_covers (ps ++ qs) start q SB Iq) as [MC _]. rewrite <- M in MC.
  assert (THERE : exists x, In x (to_vec (l_constants l)) /\ c_path x = c_path y).
  { destruct (covered_path _ _ C1) as (x & Ix & Px). destruct (covered_path _ _ (MC x Ix)) as (z & Iz & Pz). exists z. split; [exact Iz|]. exact (eq_trans Pz Px). }
  assert (Re : reachable (l_constants l)). { change (reachable (pr_constants (items_of l))). rewrite M. apply merged_built. exact SB. }
  assert (KEEP : forall x, In x (to_vec (l_constants l)) -> c_path x = unraw ident ++ unraw T -> In (Constant_rename_for_config (export c) x) (b_constants b)).
  { intros z Iz Pz. rewrite <- LC. apply (constant_kept H _ _ _ _ _ Hp Hf Re); [rewrite LC; exact Wa|exact Iz|]. rewrite Pz, LC. exact NE. }
  destruct THERE as (x & Ix & Px). split.
  - exists (Constant_rename_for_config (export c) x). split; [apply KEEP; [exact Ix|congruence]|]. cbn [Constant_rename_for_config c_path]. congruence.
  - intros [AL|AL].
    + exists (Constant_rename_for_config (export c) y). split; [|auto]. apply KEEP; [|exact PY].
      assert (GA : forall v' i' z, item_read vss rs v' i' -> const_from (Cfg_join (vi_guards v')) i' None z -> c_path z = c_path y -> guarded z = true).
      { intros v' i' z IR F Pz. destruct (MADE v' i' z F) as (self & attrs' & ident' & ty' & value' & SC & P' & C' & _).
        pose proof (AL v' i' self attrs' ident' ty' value' IR SC ltac:(congruence)) as Co. unfold conditional_item in Co.
        unfold guarded. cbn [i_cfg Item_Constant]. rewrite C'. destruct (Cfg_append _ _); [reflexivity|exfalso; apply Co; reflexivity]. }
      assert (GY : guarded y = true).
      { assert (SC : source_constant i (Some (unraw T)) attrs ident ty value) by (apply sc_impl; [reflexivity|apply in_or_app; right; left; reflexivity|exact SK]).
        pose proof (AL v i _ attrs ident ty value (conj Iv (conj Ii OWN)) SC eq_refl) as Co. unfold conditional_item in Co.
        unfold guarded. cbn [i_cfg Item_Constant]. pose proof (proj1 RC) as CC. cbn [Constant_rename_for_config c_cfg] in CC. rewrite CC.
        destruct (Cfg_append _ _); [reflexivity|exfalso; apply Co; reflexivity]. }
      change (In y (to_vec (pr_constants (items_of l)))). apply (covered_guarded y); [|exact GY|].
      * apply MC. apply (covered_guarded y); [exact C1|exact GY|]. intros z Iz Pz.
        destruct (part_constants d c bitflags srcs lib vss rs ps qs R B L q z Iq Iz) as (v' & i' & IR & F). exact (GA v' i' z IR F Pz).
      * intros z Iz Pz. destruct (whole_constants d c bitflags srcs lib vss rs ps qs R B L start (items_of l) S1 M z Iz) as (v' & i' & IR & F). exact (GA v' i' z IR F Pz).
    + destruct (whole_constants d c bitflags srcs lib vss rs ps qs R B L start (items_of l) S1 M x Ix) as (v' & i' & IR & F).
      destruct (MADE v' i' x F) as (self & attrs' & ident' & ty' & value' & SC & P' & _ & KF' & RC').
      destruct (AL v' i' self attrs' ident' ty' value' IR SC ltac:(congruence)) as (-> & -> & -> & -> & -> & ->). clear LC.
      assert (SELF : self = Some (unraw T)) by (unfold i, impl_block in SC; inversion SC; subst; cbn [block_name] in *; congruence). subst self.
      exists (Constant_rename_for_config (export c) x). split; [|auto]. apply KEEP; [exact Ix|congruence].
Qed.
