(** C18: monomorphisation ends when finitely many instances are needed. *)
Require Import Coq.Strings.String Coq.Lists.List Coq.Bool.Bool Coq.Arith.Arith Coq.micromega.Lia.
From Verif Require Import Base P_Base M_Config M_Cfg M_Type M_Ir M_Item M_Library S_Item S_Library S_Names S_Mono P_Type P_Item P_Table P_Deps P_Library P_Transfer P_Mono P_Stages P_Names P_Spelling P_NamesLib P_MonoLib.
Import ListNotations.
Open Scope list_scope.

Section Ends.
  Context {H : Heck}.
  Variable l : Library.
  Hypothesis R : ready l.
  Variable all : list GenericPath.
  Variable rank : GenericPath -> nat.
  Hypothesis finite : forall g, wanted_type l g -> known l (gp_path g) -> In g all.
  Hypothesis ranked : forall g h, wanted_type l g -> body_needs l g h -> known l (gp_path h) -> rank h < rank g.
  Definition all_fit : Prop := forall g items i, wanted_type l g -> lib_get_items l (gp_path g) = Some items -> In i items -> fits (gp_generics g) i.
  (** The call ends, and does not panic if all arguments fit. *)
  Definition ok {A} (o : outcome A) : Prop := o <> Diverge /\ (all_fit -> o <> Panic).
  Definition top : nat := list_max (map rank all).
  Definition open (m : Monomorphs) : nat := length (filter (fun g => negb (m_contains g m)) all).
  Definition budget (m : Monomorphs) (g : GenericPath) : nat := open m * (top + 1) + rank g.

  Lemma rank_top : forall g, In g all -> rank g <= top.
  Proof.
    intros g Hg. unfold top. pose proof (list_max_le (map rank all) (list_max (map rank all))) as [A _]. specialize (A (le_n _)).
    rewrite Forall_map, Forall_forall in A. auto.
  Qed.
  Lemma filter_le : forall A (f h : A -> bool) xs, (forall x, h x = true -> f x = true) -> length (filter h xs) <= length (filter f xs).
  Proof.
    intros A f h xs Hi. induction xs as [|x r IH]; [reflexivity|]. cbn. destruct (h x) eqn:E; [rewrite (Hi x E); cbn; lia|].
    destruct (f x); cbn; lia.
  Qed.
  Lemma filter_lt : forall A (f h : A -> bool) xs x, (forall x, h x = true -> f x = true) -> In x xs -> f x = true -> h x = false -> length (filter h xs) < length (filter f xs).
  Proof.
    intros A f h xs x Hi Hx Hf Hh. induction xs as [|y r IH]; [destruct Hx|]. cbn. destruct Hx as [->|Hx].
    - rewrite Hf, Hh. cbn. pose proof (filter_le A f h r Hi). lia.
    - specialize (IH Hx). destruct (h y) eqn:E; [rewrite (Hi y E); cbn; lia|]. destruct (f y); cbn; lia.
  Qed.
  Lemma open_grows : forall a b, grows a b -> open b <= open a.
  Proof.
    intros a b G. apply filter_le. intros g Hg. destruct (m_contains g a) eqn:E; [|reflexivity]. rewrite (contains_mono _ _ _ G E) in Hg. discriminate.
  Qed.
  Lemma record_contains : forall g p m h, m_contains h m = true -> m_contains h (record_replacement g p m) = true.
  Proof. intros g p m h Hh. apply contains_In. apply contains_In in Hh. cbn. auto. Qed.
  Lemma open_record : forall g p m, open (record_replacement g p m) <= open m.
  Proof. intros g p m. apply filter_le. intros h Hh. destruct (m_contains h m) eqn:E; [|reflexivity]. rewrite (record_contains g p m h E) in Hh. discriminate. Qed.
  Lemma open_down : forall g p m0 m, In g all -> m_contains g m0 = false -> grows m0 m -> open (record_replacement g p m) < open m0.
  Proof.
    intros g p m0 m Hg Hn G. eapply filter_lt; [|exact Hg|rewrite Hn; reflexivity|].
    - intros h Hh. destruct (m_contains h m0) eqn:E; [|reflexivity]. rewrite (record_contains g p m h (contains_mono _ _ _ G E)) in Hh. discriminate.
    - replace (m_contains g (record_replacement g p m)) with true; [reflexivity|]. symmetry. apply contains_In. left. reflexivity.
  Qed.

  Lemma foldM_ok : forall A B (f : A -> B -> outcome A) (J : A -> Prop) xs a, J a ->
    (forall a x, J a -> In x xs -> ok (f a x) /\ forall a', f a x = Done a' -> J a') -> ok (foldM f xs a).
  Proof.
    intros A B f J xs. induction xs as [|x r IH]; intros a Ha Hf; [split; [discriminate|intros _; discriminate]|]. cbn.
    destruct (Hf a x Ha (or_introl eq_refl)) as [[O1 O2] Hj]. destruct (f a x) as [b| |] eqn:E; cbn.
    - apply IH; [auto|]. intros; apply Hf; [assumption|right; assumption].
    - split; [discriminate|exact O2].
    - congruence.
  Qed.
  Lemma ok_done : forall A (x : A), ok (Done x).
  Proof. intros A x. split; [discriminate|intros _; discriminate]. Qed.

  Lemma goal_needs : forall g items i p x, goal_path l g -> lib_get_items l (gp_path g) = Some items -> In i items -> instance l (gp_generics g) i p x ->
    Forall (goal_path l) (ic_monos x).
  Proof.
    pose proof R as [Rt Ri Rf Rb]. intros g items i p x [F W] El Hi Hx. apply Forall_forall. intros h Hh. split.
    - assert (Fx : fresh_item x). { eapply fresh_piece; [apply fresh_args; exact F| |apply piece_instance; exact Hx]. rewrite Forall_forall in Ri. apply Ri. eapply lib_items_In; eassumption. }
      apply item_monos_fresh in Fx. rewrite Forall_forall in Fx. auto.
    - eapply wt_needs; [exact W|]. exists items, i, p, x. repeat split; try assumption. apply (instance_uses l _ _ _ _ h Hx). assumption.
  Qed.
  Lemma fits_pieces : forall g items i, goal_path l g -> lib_get_items l (gp_path g) = Some items -> In i items -> all_fit -> ~ In None (pieces l (gp_generics g) i).
  Proof.
    pose proof R as [Rt Ri Rf Rb]. intros g items i [F W] El Hi Hf Hx. specialize (Hf g items i W El Hi). pose proof (lib_items_In _ _ _ _ El Hi) as Hd.
    destruct i as [o|s|u|e|t]; cbn in Hf, Hx; unfold struct_piece in Hx.
    - unfold OpaqueItem_specialize in Hx. destruct Hf as [Hn Hle]. destruct (o_generic_params o) as [|q r]; [congruence|].
      cbn [is_nil orb] in Hx. replace (Nat.ltb (length (q :: r)) (length (gp_generics g))) with false in Hx; [destruct Hx as [Hx|[]]; discriminate|].
      symmetry. apply Nat.ltb_ge. exact Hle.
    - destruct (GenericParams_call _ _); [destruct Hx as [Hx|[]]; discriminate|congruence].
    - destruct (GenericParams_call _ _); [destruct Hx as [Hx|[]]; discriminate|congruence].
    - destruct (GenericParams_call (e_generic_params e) (gp_generics g)) as [ms|] eqn:E; [|congruence]. apply in_app_iff in Hx as [Hx|[Hx|[]]]; [|discriminate].
      apply In_filter_map in Hx as (v & Hv & Ev). destruct (v_body v) as [a|n s j ic] eqn:Eb; [discriminate|]. rewrite (Rb e v n s j ic Hd Hv Eb), E in Ev. discriminate.
    - destruct (GenericParams_call _ _); [destruct Hx as [Hx|[]]; discriminate|congruence].
  Qed.
  Lemma add_unknown : forall n m g, lib_get_items l (gp_path g) = None -> add_mono l n m g = Done m.
  Proof. intros [|n] m g E; cbn [add_mono]; rewrite E; destruct (m_contains g m); reflexivity. Qed.
  Lemma unknown_none : forall p, ~ known l p -> lib_get_items l p = None.
  Proof. intros p Hk. destruct (lib_get_items l p) as [items|] eqn:E; [|reflexivity]. exfalso. apply Hk. exists items. assumption. Qed.

  Lemma add_ends : forall n m g, goal_path l g -> budget m g < n -> ok (add_mono l n m g).
  Proof.
    pose proof R as [Rt Ri Rf Rb].
    induction n as [|n IH]; intros m g Hg Hb; [lia|]. cbn [add_mono]. destruct (m_contains g m) eqn:Ec; [apply ok_done|].
    destruct (lib_get_items l (gp_path g)) as [items|] eqn:El; [|apply ok_done].
    assert (Hgr : forall m g m', add_mono l n m g = Done m' -> grows m m') by (intros; eapply add_grows; eassumption).
    assert (Hin : In g all) by (apply finite; [apply Hg|exists items; exact El]).
    (** the recursive calls *)
    assert (Hrec : forall hs m1 c, Forall (goal_path l) hs -> open m1 <= c ->
              (forall h, In h hs -> known l (gp_path h) -> c * (top + 1) + rank h < n) -> ok (foldM (add_mono l n) hs m1)).
    { intros hs m1 c Hs Hc Hh. apply (foldM_ok _ _ _ (fun a => open a <= c)); [assumption|]. intros a h Ha Hi. rewrite Forall_forall in Hs. split.
      - destruct (lib_get_items l (gp_path h)) as [its|] eqn:Eh; [|rewrite add_unknown by assumption; apply ok_done].
        apply IH; [auto|]. unfold budget. assert (Hk : known l (gp_path h)) by (exists its; assumption). specialize (Hh h Hi Hk). nia.
      - intros a' Ea. apply Hgr in Ea. apply open_grows in Ea. lia. }
    apply (foldM_ok _ _ _ (grows m)); [apply grows_refl|]. intros a i Ga Hi. split.
    2: { intros a' Ei. rewrite item_steps in Ei. eapply grows_trans; [exact Ga|]. eapply (foldM_rel _ _ _ grows); [apply grows_refl|apply grows_trans| |exact Ei].
         intros. eapply piece_grows; [|eassumption]. exact Hgr. }
    rewrite item_steps. apply (foldM_ok _ _ _ (grows m)); [assumption|]. intros b o Gb Ho. split; [|intros b' Eb; eapply grows_trans; [exact Gb|eapply piece_grows; [exact Hgr|exact Eb]]].
    destruct o as [[p x]|].
    2: { split; [discriminate|]. intros Hf. exfalso. exact (fits_pieces g items i Hg El Hi Hf Ho). }
    apply piece_instance in Ho. pose proof (goal_needs _ _ _ _ _ Hg El Hi Ho) as Hgoals.
    assert (Hk : ok (foldM (add_mono l n) (ic_monos x) (record_replacement (GenericPath_new p (gp_generics g)) (ic_path x) b))).
    { assert (Hcase : p = gp_path g \/ exists e, i = ICEnum e /\ body_instance l (gp_generics g) e p x).
      { destruct (tables_items l Rt _ _ El) as [_ Hp]. rewrite Forall_forall in Hp. specialize (Hp i Hi).
        destruct Ho as [| | | | |e ms p x E Hbi]; [left; exact Hp..|right; eauto]. }
      destruct Hcase as [->|(e & -> & Hbi)].
      - rewrite proper_new by (apply fresh_proper; apply Hg). apply (Hrec _ _ (open m - 1)); [assumption| |].
        + pose proof (open_down g (ic_path x) m b Hin Ec Gb). lia.
        + intros h Hh Hkn. assert (Hr : rank h <= top). { apply rank_top. apply finite; [|assumption]. rewrite Forall_forall in Hgoals. apply Hgoals. assumption. }
          pose proof (open_down g (ic_path x) m b Hin Ec Gb) as Hd. unfold budget in Hb. destruct (open m) as [|k]; [lia|]. replace (S k - 1) with k by lia. nia.
      - apply (Hrec _ _ (open m)); [assumption|pose proof (open_record (GenericPath_new p (gp_generics g)) (ic_path x) b); pose proof (open_grows _ _ Gb); lia|].
        intros h Hh Hkn. assert (Hr : rank h < rank g); [|unfold budget in Hb; lia]. apply ranked; [apply Hg| |assumption]. exists items, e, p, x. repeat split; try assumption.
        apply (instance_uses l _ _ _ _ h Ho). assumption. }
    destruct Hk as [K1 K2]. cbn [insert_piece]. unfold insert_monomorph. destruct (foldM (add_mono l n) (ic_monos x) _) as [m2| |]; cbn; [apply ok_done|split; [discriminate|exact K2]|congruence].
  Qed.
  Lemma pass_ends : forall fuel, length all * (top + 1) + top < fuel -> ok (instantiate_monomorphs fuel l).
  Proof.
    intros fuel Hf. assert (Hk : ok (foldM (add_mono l fuel) (library_monos l) Monomorphs_default)).
    { apply (foldM_ok _ _ _ (fun _ => True)); [exact Logic.I|]. intros a g _ Hg. split; [|auto]. pose proof (library_goals l R) as Hl. rewrite Forall_forall in Hl.
      specialize (Hl g Hg). destruct (lib_get_items l (gp_path g)) as [its|] eqn:Eh; [|rewrite add_unknown by assumption; apply ok_done].
      apply add_ends; [assumption|]. unfold budget. assert (Hr : rank g <= top) by (apply rank_top; apply finite; [apply Hl|exists its; assumption]).
      assert (Ho : open a <= length all). { unfold open. clear. induction all as [|x r IH]; cbn; [lia|]. destruct (negb _); cbn; lia. }
      nia. }
    destruct Hk as [K1 K2]. unfold instantiate_monomorphs. destruct (foldM _ _ _) as [m| |]; cbn; [apply ok_done|split; [discriminate|intros F; exfalso; exact (K2 F eq_refl)]|congruence].
  Qed.
End Ends.
Lemma mono_ends : forall (H : Heck) l all (rank : GenericPath -> nat), ready l ->
  (forall g, wanted_type l g -> known l (gp_path g) -> In g all) ->
  (forall g h, wanted_type l g -> body_needs l g h -> known l (gp_path h) -> rank h < rank g) ->
  exists n, forall fuel, n <= fuel -> instantiate_monomorphs fuel l <> Diverge
    /\ ((forall g items i, wanted_type l g -> lib_get_items l (gp_path g) = Some items -> In i items -> fits (gp_generics g) i) ->
        exists l', instantiate_monomorphs fuel l = Done l').
Proof.
  intros H l all rank R F K. exists (S (length all * (top all rank + 1) + top all rank)). intros fuel Hf.
  destruct (pass_ends l R all rank F K fuel Hf) as [A B]. split; [assumption|]. intros Hfit. specialize (B Hfit).
  destruct (instantiate_monomorphs fuel l); [eauto|congruence|congruence].
Qed.

(** ** Deciding the conditions for example libraries *)
Section Decide.
  Context {H : Heck}.
  Variable l : Library.
  Definition needs_list (g : GenericPath) : list GenericPath :=
    match lib_get_items l (gp_path g) with
    | Some items => concat (map (fun i => concat (map (fun o => match o with Some (_, x) => ic_monos x | None => [] end) (pieces l (gp_generics g) i))) items)
    | None => []
    end.
  Definition mem_path (g : GenericPath) (gs : list GenericPath) : bool := existsb (GenericPath_eqb g) gs.
  Definition closedb (all : list GenericPath) : bool :=
    forallb (fun g => mem_path g all) (library_monos l) && forallb (fun g => forallb (fun h => mem_path h all) (needs_list g)) all.
  Lemma mem_path_In : forall g gs, mem_path g gs = true -> In g gs.
  Proof. intros g gs Hg. apply existsb_exists in Hg as (h & Hh & E). apply GenericPath_eqb_eq in E. subst. assumption. Qed.
  Lemma needs_listed : forall g h, needs l g h -> In h (needs_list g).
  Proof.
    intros g h (items & i & p & x & El & Hi & Hx & Hh). unfold needs_list. rewrite El. apply in_concat. eexists. split; [apply in_map_iff; exists i; split; [reflexivity|exact Hi]|].
    apply in_concat. exists (ic_monos x). split; [|apply (instance_uses l _ _ _ _ h Hx); assumption]. apply in_map_iff. exists (Some (p, x)). split; [reflexivity|apply piece_instance; assumption].
  Qed.
  Lemma closed_finite : forall all, ready l -> closedb all = true -> forall g, wanted_type l g -> In g all.
  Proof.
    intros all R Hc g Hg. apply andb_true_iff in Hc as [A B]. rewrite forallb_forall in A, B. induction Hg as [g Hu|g h Hw IH Hn].
    - apply mem_path_In, A. apply library_monos_used; assumption.
    - apply mem_path_In. specialize (B g IH). rewrite forallb_forall in B. apply B. apply needs_listed. assumption.
  Qed.
  Definition bodies_of (i : ItemContainer) : list (Struct * GenericParams) :=
    match i with
    | ICEnum e => concat (map (fun v => match v_body v with VBody _ s _ _ => [(s, e_generic_params e)] | VEmpty _ => [] end) (e_variants e))
    | _ => []
    end.
  Definition body_list (g : GenericPath) : list GenericPath :=
    match lib_get_items l (gp_path g) with
    | Some items => concat (map (fun i => concat (map (fun b => match struct_piece l (gp_generics g) (fst b) with Some (_, x) => ic_monos x | None => [] end) (bodies_of i))) items)
    | None => []
    end.
  Lemma body_needs_listed : forall g h, body_needs l g h -> In h (body_list g).
  Proof.
    intros g h (items & e & p & x & El & Hi & Hx & Hh). unfold body_list. rewrite El. apply in_concat. eexists. split; [apply in_map_iff; exists (ICEnum e); split; [reflexivity|exact Hi]|].
    destruct Hx as [v n s j ic ms Hv Eb Es]. apply in_concat. exists (Struct_monos (Struct_specialize (gp_generics g) ms (export (l_config l)) s)). split.
    - apply in_map_iff. exists (s, e_generic_params e). unfold struct_piece. cbn [fst]. rewrite Es. split; [reflexivity|]. cbn. apply in_concat. exists [(s, e_generic_params e)].
      split; [|left; reflexivity]. apply in_map_iff. exists v. rewrite Eb. auto.
    - apply (monos_uses h (ICStruct (Struct_specialize (gp_generics g) ms (export (l_config l)) s))); [reflexivity|exact Logic.I|assumption].
  Qed.
  Lemma ranked_list : forall all rank, ready l -> closedb all = true -> forallb (fun g => forallb (fun h => Nat.ltb (rank h) (rank g)) (body_list g)) all = true ->
    forall g h, wanted_type l g -> body_needs l g h -> known l (gp_path h) -> rank h < rank g.
  Proof.
    intros all rank R Hc Hr g h Hg Hb _. rewrite forallb_forall in Hr. specialize (Hr g (closed_finite all R Hc g Hg)). rewrite forallb_forall in Hr.
    apply Nat.ltb_lt. apply Hr. apply body_needs_listed. assumption.
  Qed.
  Lemma bodies_listed : Forall (fun b => s_generic_params (fst b) = snd b) (concat (map bodies_of (defined l))) -> bodies_as_enums l.
  Proof.
    intros Hb e v n s i ic Hi Hv Eb. rewrite Forall_forall in Hb. apply (Hb (s, e_generic_params e)). apply in_concat. exists (bodies_of (ICEnum e)).
    split; [apply in_map; assumption|]. cbn. apply in_concat. exists [(s, e_generic_params e)]. split; [|left; reflexivity]. apply in_map_iff. exists v. rewrite Eb. auto.
  Qed.
  Lemma body_names_listed : forall p, body_name l p -> In p (map (fun b => s_path (fst b)) (concat (map bodies_of (defined l)))).
  Proof.
    intros p (e & v & n & s & i & ic & Hi & Hv & Eb & <-). apply in_map_iff. exists (s, e_generic_params e). split; [reflexivity|]. apply in_concat. exists (bodies_of (ICEnum e)).
    split; [apply in_map; assumption|]. cbn. apply in_concat. exists [(s, e_generic_params e)]. split; [|left; reflexivity]. apply in_map_iff. exists v. rewrite Eb. auto.
  Qed.
  Lemma loaded_is_ready : as_loaded l -> bodies_as_enums l -> ready l.
  Proof. intros [A B C D E F] G. constructor; assumption. Qed.
End Decide.
