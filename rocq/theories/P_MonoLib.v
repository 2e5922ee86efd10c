(** C18: what monomorphisation leaves behind. *)
Require Import Coq.Strings.String Coq.Lists.List Coq.Bool.Bool Coq.Arith.Arith Coq.micromega.Lia.
From Verif Require Import Base P_Base M_Config M_Cfg M_Type M_Ir M_Item M_Library S_Item S_Library S_Names S_Mono P_Type P_Item P_Table P_Deps P_Library P_Transfer P_Mono P_Stages P_Names P_Spelling P_NamesLib.
Import ListNotations.
Open Scope list_scope.

(** ** The specification and the model agree on uses and instances *)
Lemma uses_monos : forall g t, uses g t <-> In g (Type_monos t).
Proof.
  intros g t. split.
  - induction 1 as [Hg| | | |r args n nv a Ha Hu IH]; cbn; auto.
    + destruct (gp_generics g); [congruence|]. left. reflexivity.
    + apply in_app_iff. auto.
    + apply in_app_iff. right. apply in_concat. eexists. split; [apply in_map_iff; exists a; split; [reflexivity|exact Ha]|exact IH].
  - revert t. apply (Ty_only_ind (fun t => In g (Type_monos t) -> uses g t)).
    + intros t c n r IH Hg. constructor. auto.
    + intros p e gs ct _. cbn. destruct gs; cbn; [tauto|]. intros [<-|[]]. constructor. discriminate.
    + intros p [].
    + intros t e IH Hg. apply us_array. auto.
    + intros r args n nr IH1 IH2 Hg. cbn in Hg. apply in_app_iff in Hg as [Hg|Hg]; [apply us_return; auto|].
      apply in_concat in Hg as (x & Hx & Hg). apply in_map_iff in Hx as (a & <- & Ha). rewrite Forall_forall in IH2.
      eapply us_argument; [exact Ha|]. apply IH2; assumption.
Qed.
Lemma fields_uses : forall g fs, In g (concat (map (fun f => Type_monos (fd_ty f)) fs)) <-> exists t, In t (map fd_ty fs) /\ uses g t.
Proof.
  intros g fs. rewrite in_concat. split.
  - intros (x & Hx & Hg). apply in_map_iff in Hx as (f & <- & Hf). exists (fd_ty f). split; [apply in_map; assumption|apply uses_monos; assumption].
  - intros (t & Ht & Hg). apply in_map_iff in Ht as (f & <- & Hf). exists (Type_monos (fd_ty f)). split; [apply in_map_iff; eauto|apply uses_monos; assumption].
Qed.
(** A body has parameters only if its enum has. *)
Definition closed_item (i : ItemContainer) : Prop :=
  match i with
  | ICEnum e => forall v n s j ic, In v (e_variants e) -> v_body v = VBody n s j ic -> s_generic_params s = []
  | _ => True
  end.
Lemma is_nil_false : forall A (l : list A), is_nil l = false <-> l <> [].
Proof. intros A [|x r]; cbn; split; congruence. Qed.
Lemma monos_uses : forall g i, ic_generic_params i = [] -> closed_item i -> (In g (ic_monos i) <-> item_uses i g).
Proof.
  intros g [o|s|u|e|t]; cbn [ic_generic_params ic_monos]; intros Hn Hc; unfold item_uses; cbn [member_types].
  - cbn. split; [tauto|]. intros (t & [] & _).
  - unfold Struct_monos. replace (is_generic s) with false by (unfold is_generic; cbn; rewrite Hn; reflexivity). apply fields_uses.
  - unfold Union_monos. replace (is_generic u) with false by (unfold is_generic; cbn; rewrite Hn; reflexivity). apply fields_uses.
  - unfold Enum_monos. replace (is_generic e) with false by (unfold is_generic; cbn; rewrite Hn; reflexivity). cbn in Hc. rewrite in_concat. split.
    + intros (x & Hx & Hg). apply in_map_iff in Hx as (v & <- & Hv). destruct (v_body v) as [a|n s j ic] eqn:Eb; [destruct Hg|].
      unfold Struct_monos in Hg. replace (is_generic s) with false in Hg by (unfold is_generic; cbn; rewrite (Hc _ _ _ _ _ Hv Eb); reflexivity). apply fields_uses in Hg as (t & Ht & Hg).
      exists t. split; [|assumption]. apply in_concat. exists (map fd_ty (s_fields s)). split; [|assumption]. apply in_map_iff. exists v. rewrite Eb. auto.
    + intros (t & Ht & Hg). apply in_concat in Ht as (x & Hx & Ht). apply in_map_iff in Hx as (v & <- & Hv). destruct (v_body v) as [a|n s j ic] eqn:Eb; [destruct Ht|].
      exists (Struct_monos s). split; [apply in_map_iff; exists v; rewrite Eb; auto|]. unfold Struct_monos. replace (is_generic s) with false by (unfold is_generic; cbn; rewrite (Hc _ _ _ _ _ Hv Eb); reflexivity).
      apply fields_uses. eauto.
  - unfold Typedef_monos. replace (is_generic t) with false by (unfold is_generic; cbn; rewrite Hn; reflexivity). rewrite <- uses_monos. split.
    + intros Hg. exists (t_aliased t). split; [left; reflexivity|assumption].
    + intros (x & [<-|[]] & Hg). assumption.
Qed.
Lemma function_monos_uses : forall g f, In g (Function_monos f) <-> function_uses f g.
Proof.
  intros g f. unfold Function_monos, function_uses. rewrite in_app_iff, <- uses_monos, in_concat. split; (intros [Hg|Hg]; [auto|right]).
  - destruct Hg as (x & Hx & Hg). apply in_map_iff in Hx as (a & <- & Ha). exists a. split; [assumption|]. apply uses_monos. assumption.
  - destruct Hg as (a & Ha & Hg). exists (Type_monos (a_ty a)). split; [apply in_map_iff; eauto|apply uses_monos; assumption].
Qed.
Lemma In_filter_map : forall A B (f : A -> option B) l y, In y (filter_map f l) <-> exists x, In x l /\ f x = Some y.
Proof.
  intros A B f l y. induction l as [|x r IH]; cbn; [split; [intros []|intros (x & [] & _)]|].
  destruct (f x) as [z|] eqn:E; cbn; rewrite ?IH; split.
  - intros [<-|(w & Hw & Ew)]; [exists x; auto|exists w; auto].
  - intros (w & [<-|Hw] & Ew); [left; congruence|right; eauto].
  - intros (w & Hw & Ew). eauto.
  - intros (w & [<-|Hw] & Ew); [congruence|eauto].
Qed.
Section Pieces.
  Context {H : Heck}.
  Variable l : Library.
  Lemma piece_instance : forall args i p x, In (Some (p, x)) (pieces l args i) <-> instance l args i p x.
  Proof.
    intros args i p x. split.
    - destruct i as [o|s|u|e|t]; cbn [pieces]; unfold struct_piece.
      + destruct (OpaqueItem_specialize _ _ _) eqn:E; intros [Hx|[]]; inversion Hx; subst. constructor. assumption.
      + destruct (GenericParams_call _ _) eqn:E; intros [Hx|[]]; inversion Hx; subst. constructor. assumption.
      + destruct (GenericParams_call _ _) eqn:E; intros [Hx|[]]; inversion Hx; subst. constructor. assumption.
      + destruct (GenericParams_call (e_generic_params e) args) as [ms|] eqn:E; [|intros [Hx|[]]; discriminate].
        intros Hx. apply in_app_iff in Hx as [Hx|[Hx|[]]]; [|inversion Hx; subst; constructor; assumption].
        apply In_filter_map in Hx as (v & Hv & Ev). destruct (v_body v) as [a|n s j ic] eqn:Eb; [discriminate|].
        destruct (GenericParams_call (s_generic_params s) args) as [ms'|] eqn:Es; [|discriminate]. inversion Ev; subst.
        eapply in_body; [exact E|]. eapply bi_body; eassumption.
      + destruct (GenericParams_call _ _) eqn:E; intros [Hx|[]]; inversion Hx; subst. constructor. assumption.
    - destruct 1 as [s ms E|u ms E|t ms E|o x E|e ms E|e ms p x E Hb]; cbn [pieces]; unfold struct_piece; rewrite ?E; try (left; reflexivity).
      + apply in_app_iff. right. left. reflexivity.
      + destruct Hb as [v n s j ic ms' Hv Eb Es]. apply in_app_iff. left. apply In_filter_map. exists v. rewrite Eb, Es. auto.
  Qed.
  Lemma instance_closed : forall args i p x, instance l args i p x -> ic_generic_params x = [] /\ closed_item x.
  Proof.
    intros args i p x. destruct 1 as [| | |o x E|e ms E|e ms p x E Hb]; cbn; auto.
    - unfold OpaqueItem_specialize in E. destruct (_ || _); inversion E; subst. auto.
    - split; [reflexivity|]. intros v n s j ic Hv Eb. apply in_map_iff in Hv as (w & <- & Hw). cbn in Eb.
      destruct (v_body w); inversion Eb; subst. reflexivity.
    - destruct Hb. cbn. auto.
  Qed.
  Lemma instance_path : forall args i p x, instance l args i p x -> ic_path x = instance_name l p args.
  Proof.
    intros args i p x. destruct 1 as [| | |o x E|e ms E|e ms p x E Hb]; try reflexivity.
    - unfold OpaqueItem_specialize in E. destruct (_ || _); inversion E; subst. reflexivity.
    - destruct Hb. reflexivity.
  Qed.
  Lemma instance_uses : forall args i p x g, instance l args i p x -> (In g (ic_monos x) <-> item_uses x g).
  Proof. intros args i p x g Hx. apply instance_closed in Hx as [A B]. apply monos_uses; assumption. Qed.
  Lemma instance_name_of : forall args items q i p x, tables_built l -> lib_get_items l q = Some items -> In i items -> instance l args i p x -> p = q \/ body_name l p.
  Proof.
    intros args items q i p x Ht El Hi Hx. pose proof (lib_items_In _ _ _ _ El Hi) as Hd.
    destruct (tables_items l Ht _ _ El) as [_ Hp]. rewrite Forall_forall in Hp. specialize (Hp i Hi).
    destruct Hx as [| | | | |e ms p x E Hb]; [left; exact Hp..|]. right. destruct Hb as [v n s j ic ms' Hv Eb Es]. exists e, v, n, s, j, ic. auto.
  Qed.
End Pieces.

(** ** The invariant *)
Lemma ready_closed : forall l i, ready l -> In i (defined l) -> ic_generic_params i = [] -> closed_item i.
Proof.
  intros l i [_ _ _ B] Hi Hn. destruct i as [o|s|u|e|t]; cbn; auto. intros v n s j ic Hv Eb. cbn in Hn. rewrite <- Hn. eapply B; eassumption.
Qed.
Lemma monos_nongeneric : forall i g, In g (ic_monos i) -> ic_generic_params i = [].
Proof.
  intros [o|s|u|e|t] g; cbn [ic_monos ic_generic_params]; [intros []|unfold Struct_monos|unfold Union_monos|unfold Enum_monos|unfold Typedef_monos];
    match goal with |- In _ (if ?b then _ else _) -> _ => destruct b eqn:E; [intros []|] end; apply not_generic in E; intros _; exact E.
Qed.
Lemma library_monos_used : forall l g, ready l -> In g (library_monos l) <-> used l g.
Proof.
  intros l g R. unfold library_monos, used. rewrite !in_app_iff, !in_concat. split.
  - assert (Hx : forall i, In i (defined l) -> In g (ic_monos i) -> exists i, In i (defined l) /\ ic_generic_params i = [] /\ item_uses i g).
    { intros i Hi Hg. pose proof (monos_nongeneric _ _ Hg) as Hn. exists i. split; [assumption|]. split; [assumption|].
      apply monos_uses; [assumption|apply (ready_closed l); assumption|assumption]. }
    intros [Hg|[Hg|[Hg|[Hg|Hg]]]]; destruct Hg as (xs & Hxs & Hg); apply in_map_iff in Hxs as (y & <- & Hy); [left..|right].
    + apply (Hx (ICStruct y)); [apply In_defined|]; assumption.
    + apply (Hx (ICUnion y)); [apply In_defined|]; assumption.
    + apply (Hx (ICEnum y)); [apply In_defined|]; assumption.
    + apply (Hx (ICTypedef y)); [apply In_defined|]; assumption.
    + exists y. split; [assumption|]. apply function_monos_uses. assumption.
  - intros [(i & Hi & Hn & Hg)|(f & Hf & Hg)].
    + apply monos_uses in Hg; [|assumption|apply (ready_closed l); assumption]. apply In_defined in Hi. destruct i as [o|s|u|e|t]; cbn in Hg; [destruct Hg|..].
      * left. exists (Struct_monos s). split; [apply in_map|]; assumption.
      * right. left. exists (Union_monos u). split; [apply in_map|]; assumption.
      * right. right. left. exists (Enum_monos e). split; [apply in_map|]; assumption.
      * right. right. right. left. exists (Typedef_monos t). split; [apply in_map|]; assumption.
    + right. right. right. right. exists (Function_monos f). split; [apply in_map|apply function_monos_uses]; assumption.
Qed.

Section Pass.
  Context {H : Heck}.
  Variable l : Library.
  Hypothesis R : ready l.
  Definition goal_path (g : GenericPath) : Prop := fresh_path g /\ wanted_type l g.
  Record made (m : Monomorphs) : Prop := {
    md_names : forall g p, In (g, p) (m_replacements m) -> p = instance_name l (gp_path g) (gp_generics g) /\ (known l (gp_path g) \/ body_name l (gp_path g));
    md_items : forall x, In x (m_items m) -> wanted_instance l x;
    md_settled : forall x h, In x (m_items m) -> In h (ic_monos x) -> settled l m h }.
  Lemma settled_record : forall m g p h, settled l m h -> settled l (record_replacement g p m) h.
  Proof.
    intros m g p h [Hs|Hs]; [left|right; assumption]. apply contains_In. apply contains_In in Hs. cbn. auto.
  Qed.
  Lemma made_invariant : forall fuel gs m m', Forall goal_path gs -> foldM (add_mono l fuel) gs m = Done m' -> Forall (settled l m') gs /\ (made m -> made m').
  Proof.
    intros fuel gs m m' Hg E. pose proof R as [Rt Ri Rf Rb].
    refine (adds_inv l goal_path made (tables_items l Rt) _ _ _ _ fuel gs m m' Hg E).
    - intros g [F _]. apply fresh_proper. assumption.
    - intros g items i p x [F W] El Hi Hx h Hh. split.
      + assert (Fx : fresh_item x). { eapply fresh_piece; [apply fresh_args; exact F| |exact Hx]. rewrite Forall_forall in Ri. apply Ri. eapply lib_items_In; eassumption. }
        apply item_monos_fresh in Fx. rewrite Forall_forall in Fx. auto.
      + apply piece_instance in Hx. eapply wt_needs; [exact W|]. exists items, i, p, x. repeat split; try assumption. apply (instance_uses l _ _ _ _ h Hx). assumption.
    - intros g items i p x m0 [F W] El Hi Hx [A B C]. apply piece_instance in Hx. constructor.
      + intros g0 p0 [E0|Hin]; [|exact (A _ _ Hin)]. inversion E0; subst. cbn [gp_path gp_generics GenericPath_new]. split; [eapply instance_path; exact Hx|].
        destruct (instance_name_of l _ _ _ _ _ _ Rt El Hi Hx) as [->|Hb]; [left|auto]. exists items. assumption.
      + rewrite record_items. assumption.
      + rewrite record_items. intros y h Hy Hh. apply settled_record. eapply C; eassumption.
    - intros g items i p x m0 [F W] El Hi Hx [A B C] Hs _. apply piece_instance in Hx. constructor.
      + rewrite push_repl. assumption.
      + intros y Hy. apply push_items in Hy as [->|Hy]; [|auto]. exists g, items, i, p. repeat split; try assumption. eapply instance_path. exact Hx.
      + intros y h Hy Hh. assert (Hs' : settled l m0 h).
        { apply push_items in Hy as [->|Hy]; [rewrite Forall_forall in Hs; auto|eapply C; eassumption]. }
        destruct Hs' as [Hs'|Hs']; [left|right; assumption]. unfold m_contains in *. rewrite push_repl. assumption.
  Qed.
  Lemma library_goals : Forall goal_path (library_monos l).
  Proof.
    pose proof R as [Rt Ri Rf Rb]. apply Forall_forall. intros g Hg. split.
    - assert (F : Forall fresh_path (library_monos l)) by (apply library_monos_fresh; assumption). rewrite Forall_forall in F. auto.
    - apply wt_used. apply library_monos_used; assumption.
  Qed.
  Lemma made_start : made Monomorphs_default.
  Proof. constructor; cbn; tauto. Qed.

  Variable fuel : nat.
  Variable m : Monomorphs.
  Hypothesis Hm : foldM (add_mono l fuel) (library_monos l) Monomorphs_default = Done m.
  Lemma pass_made : made m.
  Proof. apply (made_invariant _ _ _ _ library_goals Hm). apply made_start. Qed.
  Lemma pass_settled : forall g, used l g -> settled l m g.
  Proof.
    intros g Hg. pose proof (proj1 (made_invariant _ _ _ _ library_goals Hm)) as Hs. rewrite Forall_forall in Hs. apply Hs. apply library_monos_used; assumption.
  Qed.
  Lemma pass_complete : forall g p, In (g, p) (m_replacements m) -> exists x, In x (m_items m) /\ ic_path x = p.
  Proof.
    assert (G : grows Monomorphs_default m).
    { eapply (foldM_rel _ _ _ grows); [apply grows_refl|apply grows_trans| |exact Hm]. intros. eapply add_grows. eassumption. }
    destruct G as [(pre & E & F) _]. cbn in E. rewrite app_nil_r in E. intros g p Hin. rewrite E in Hin. rewrite Forall_forall in F. apply (F (g, p) Hin).
  Qed.

  (** ** Types *)
  Definition settled_type (t : Ty) : Prop := forall g, uses g t -> settled l m g.
  Lemma contains_replacement : forall g, m_contains g m = true <-> exists p, replacement g (m_replacements m) = Some p.
  Proof.
    intros g. unfold m_contains. destruct (replacement g (m_replacements m)); cbn; split; [eauto|auto|discriminate|intros (p & E); discriminate].
  Qed.
  Lemma mangle_replaced : forall t, settled_type t -> replaced l t (Type_mangle_paths m t).
  Proof.
    apply (Ty_only_ind (fun t => settled_type t -> replaced l t (Type_mangle_paths m t))).
    - intros t c n r IH Hs. cbn. constructor. apply IH. intros g Hg. apply Hs. constructor. assumption.
    - intros p e gs ct _ Hs. cbn [Type_mangle_paths]. set (g := GPath p e gs ct) in *. destruct (is_nil (gp_generics g)) eqn:En.
      + apply rp_plain. destruct (gp_generics g); [reflexivity|discriminate].
      + apply is_nil_false in En. destruct (replacement g (m_replacements m)) as [q|] eqn:Er.
        * apply replacement_In in Er. apply (md_names _ pass_made) in Er as [-> Hk]. apply rp_instance; assumption.
        * apply rp_unknown; [assumption|]. destruct (Hs g (us_path g En)) as [Hc|Hc].
          { apply contains_replacement in Hc as (q & Hq). congruence. }
          intros (items & Hi). congruence.
    - intros p _. constructor.
    - intros t e IH Hs. cbn. constructor. apply IH. intros g Hg. apply Hs. apply us_array. assumption.
    - intros r args n nr IH1 IH2 Hs. cbn. constructor; [apply IH1; intros g Hg; apply Hs; apply us_return; assumption|].
      assert (Ha : forall a, In a args -> settled_type (snd a)) by (intros a Ha g Hg; apply Hs; eapply us_argument; eassumption).
      clear -IH2 Ha. induction IH2 as [|a q Hq Hr IH]; cbn; constructor.
      + cbn. split; [reflexivity|]. apply Hq. apply Ha. left. reflexivity.
      + apply IH. intros b Hb. apply Ha. right. assumption.
  Qed.
  Lemma replaced_uses : forall t t' g, replaced l t t' -> uses g t' -> ~ known l (gp_path g).
  Proof.
    intros t t' g Hr Hg. revert t Hr. induction Hg as [Hn|t c n r Hg IH|t e Hg IH|rt args n nv Hg IH|rt args n nv a Ha Hg IH]; intros t0 Hr; inversion Hr; subst; eauto; try (exfalso; apply Hn; reflexivity).
    match goal with F : Forall2 _ _ args |- _ => destruct (Forall2_In_r _ _ _ _ _ a F Ha) as (b & Hb & _ & Hr') end. eauto.
  Qed.
  Lemma map_types_members : forall f i, member_types (ic_map_types f i) = map f (member_types i).
  Proof.
    intros f [o|s|u|e|t]; cbn; rewrite ?map_map; try reflexivity. induction (e_variants e) as [|v r IH]; [reflexivity|]. cbn. rewrite map_app, <- IH.
    f_equal. destruct (v_body v); cbn; rewrite ?map_map; reflexivity.
  Qed.
  Lemma item_mangled : forall j, (forall h, item_uses j h -> settled l m h) -> item_replaced l j (ic_map_types (Type_mangle_paths m) j).
  Proof.
    intros j Hs. exists (Type_mangle_paths m). split; [reflexivity|]. apply Forall_forall. intros t Ht. apply mangle_replaced. intros g Hg. apply Hs. exists t. auto.
  Qed.
  Lemma item_replaced_uses : forall j i g, item_replaced l j i -> item_uses i g -> ~ known l (gp_path g).
  Proof.
    intros j i g (f & -> & Hf) (t & Ht & Hg). rewrite map_types_members in Ht. apply in_map_iff in Ht as (t0 & <- & Ht0). rewrite Forall_forall in Hf.
    eapply replaced_uses; [apply Hf; exact Ht0|exact Hg].
  Qed.
  Lemma function_mangled : forall h, In h (l_functions l) -> function_replaced l h (map_f_types (Type_mangle_paths m) h).
  Proof.
    intros h Hh. exists (Type_mangle_paths m). split; [reflexivity|]. assert (Hs : forall g, function_uses h g -> settled l m g) by (intros g Hg; apply pass_settled; right; eauto).
    constructor; [|rewrite Forall_map; apply Forall_forall; intros a Ha]; apply mangle_replaced; intros g Hg; apply Hs; [left; assumption|right; eauto].
  Qed.
  Lemma function_replaced_uses : forall h h' g, function_replaced l h h' -> function_uses h' g -> ~ known l (gp_path g).
  Proof.
    intros h h' g (f & -> & Hf) Hg. inversion Hf as [|? ? Hr Ha]; subst. destruct Hg as [Hg|(a & Ha' & Hg)]; [eapply replaced_uses; [exact Hr|exact Hg]|].
    cbn in Ha'. apply in_map_iff in Ha' as (b & <- & Hb). rewrite Forall_map, Forall_forall in Ha. eapply replaced_uses; [apply Ha; exact Hb|exact Hg].
  Qed.
  Lemma instance_or_kept_settled : forall j, In j (m_items m) \/ In j (defined l) -> ic_generic_params j = [] -> forall h, item_uses j h -> settled l m h.
  Proof.
    intros j [Hj|Hj] Hn h Hh.
    - pose proof (md_items _ pass_made j Hj) as (g & items & i & p & _ & _ & _ & Hx & _). eapply (md_settled _ pass_made); [exact Hj|].
      apply (instance_uses l _ _ _ _ h Hx). assumption.
    - apply pass_settled. left. eauto.
  Qed.
End Pass.

(** ** The library the pass gives *)
Lemma mono_items_spec : forall (H : Heck) fuel l l', ready l -> instantiate_monomorphs fuel l = Done l' ->
  forall i, In i (defined l') -> exists j, (In j (defined l) /\ ic_generic_params j = [] \/ wanted_instance l j) /\ item_replaced l j i.
Proof.
  intros H fuel l l' R E i Hi. apply mono_defined in E as (m & Em & Ef & Ed). destruct (Ed i Hi) as (j & Hj & Hn & ->). exists j. split.
  - destruct Hj as [Hj|Hj]; [right; apply (md_items _ _ (pass_made l R _ _ Em)); assumption|left; auto].
  - apply (item_mangled l R fuel m Em). apply (instance_or_kept_settled l R fuel m Em); assumption.
Qed.
Lemma mono_functions_spec : forall (H : Heck) fuel l l', ready l -> instantiate_monomorphs fuel l = Done l' ->
  Forall2 (function_replaced l) (l_functions l) (l_functions l').
Proof.
  intros H fuel l l' R E. apply mono_defined in E as (m & Em & Ef & _). rewrite Ef. 
  assert (Hin : forall h, In h (l_functions l) -> function_replaced l h (map_f_types (Type_mangle_paths m) h)) by (intros; apply (function_mangled l R fuel m Em); assumption).
  clear -Hin. induction (l_functions l) as [|h r IH]; cbn; constructor; [apply Hin; left; reflexivity|]. apply IH. intros; apply Hin; right; assumption.
Qed.
Lemma mono_no_generic : forall (H : Heck) fuel l l', instantiate_monomorphs fuel l = Done l' -> forall i, In i (defined l') -> ic_generic_params i = [].
Proof. intros H fuel l l' E i Hi. apply mono_defined in E as (m & _ & _ & Ed). destruct (Ed i Hi) as (j & _ & Hn & ->). destruct j; exact Hn. Qed.
Lemma mono_item_uses : forall (H : Heck) fuel l l', ready l -> instantiate_monomorphs fuel l = Done l' ->
  forall i g, In i (defined l') -> item_uses i g -> ~ known l (gp_path g).
Proof. intros H fuel l l' R E i g Hi Hg. destruct (mono_items_spec H fuel l l' R E i Hi) as (j & _ & Hr). eapply item_replaced_uses; eassumption. Qed.
Lemma mono_function_uses : forall (H : Heck) fuel l l', ready l -> instantiate_monomorphs fuel l = Done l' ->
  forall f g, In f (l_functions l') -> function_uses f g -> ~ known l (gp_path g).
Proof.
  intros H fuel l l' R E f g Hf Hg. pose proof (mono_functions_spec H fuel l l' R E) as F2.
  destruct (Forall2_In_r _ _ _ _ _ _ F2 Hf) as (h & _ & Hr). eapply function_replaced_uses; eassumption.
Qed.

(** ** Inserting the monomorphs *)
Section Insert.
  Context {T : Type} {I : Item T}.
  Lemma set_entry_keeps : forall p (v w : ItemValue T) m x, lookup p m = Some v -> incl (value_items v) (value_items w) ->
    In x (to_vec m) -> In x (to_vec (set_entry p w m)).
  Proof.
    intros p v w m x. induction m as [|[q u] r IH]; cbn [lookup set_entry]; [discriminate|]. rewrite (String.eqb_sym q p).
    destruct (String.eqb p q) eqn:E.
    - intros Ev Hi. inversion Ev; subst. rewrite !to_vec_cons, !in_app_iff. cbn [snd]. intros [Hx|Hx]; auto.
    - intros Ev Hi. rewrite !to_vec_cons, !in_app_iff. intros [Hx|Hx]; auto.
  Qed.
  Lemma set_entry_has : forall p (v w : ItemValue T) m, lookup p m = Some v -> incl (value_items w) (to_vec (set_entry p w m)).
  Proof.
    intros p v w m. induction m as [|[q u] r IH]; cbn [lookup set_entry]; [discriminate|]. rewrite (String.eqb_sym q p).
    destruct (String.eqb p q) eqn:E; intros Ev x Hx; rewrite to_vec_cons, in_app_iff; [left; exact Hx|right]. apply IH; assumption.
  Qed.
  Lemma insert_keeps : forall x (m : ItemMap T) y, In y (to_vec m) -> In y (to_vec (fst (try_insert x m))).
  Proof.
    intros x m y Hy. unfold try_insert. destruct (lookup (i_path x) m) as [[items|z]|] eqn:E; cbn [fst]; auto.
    - destruct (is_some _); cbn [fst]; [|assumption]. eapply set_entry_keeps; [exact E| |exact Hy]. intros u Hu. cbn in *. apply in_app_iff. auto.
    - rewrite to_vec_app. apply in_app_iff. auto.
  Qed.
  Lemma insert_all_keeps : forall xs (m : ItemMap T) y, In y (to_vec m) -> In y (to_vec (insert_all xs m)).
  Proof. unfold insert_all. induction xs as [|x r IH]; cbn; intros m y Hy; [assumption|]. apply IH. apply insert_keeps. assumption. Qed.
  Lemma insert_covers : forall x (m : ItemMap T), wf m -> exists y, In y (to_vec (fst (try_insert x m))) /\ i_path y = i_path x.
  Proof.
    intros x m [_ W]. unfold try_insert. destruct (lookup (i_path x) m) as [v|] eqn:E.
    - assert (Hv : exists y, In y (value_items v) /\ i_path y = i_path x).
      { apply lookup_In in E. rewrite Forall_forall in W. destruct (W _ E) as (Hn & Hp & _). cbn in *. destruct (value_items v) as [|y r] eqn:Ev; [congruence|].
        exists y. split; [left; reflexivity|]. inversion Hp; assumption. }
      destruct Hv as (y & Hy & Ey). pose proof (lookup_value_In _ _ _ _ _ E Hy) as Hm. exists y. split; [|assumption]. destruct v as [items|z]; [|exact Hm].
      destruct (is_some _); cbn [fst]; [|exact Hm]. eapply set_entry_keeps; [exact E| |exact Hm]. intros u Hu. cbn in *. apply in_app_iff. auto.
    - exists x. split; [|reflexivity]. cbn [fst]. rewrite to_vec_app. apply in_app_iff. right. destruct (is_some _); cbn; auto.
  Qed.
  Lemma insert_all_covers : forall xs (m : ItemMap T) x, wf m -> In x xs -> exists y, In y (to_vec (insert_all xs m)) /\ i_path y = i_path x.
  Proof.
    induction xs as [|z r IH]; intros m x W Hx; [destruct Hx|]. destruct Hx as [->|Hx].
    - destruct (insert_covers x m W) as (y & Hy & Ey). exists y. split; [|assumption]. apply (insert_all_keeps r). assumption.
    - apply (IH (fst (try_insert z m))); [apply wf_insert; assumption|assumption].
  Qed.
  Lemma insert_guarded : forall x (m : ItemMap T), wf m -> i_cfg x <> None -> (forall y, In y (to_vec m) -> i_path y = i_path x -> i_cfg y <> None) ->
    In x (to_vec (fst (try_insert x m))).
  Proof.
    intros x m [_ W] Hc Hg. unfold try_insert. destruct (lookup (i_path x) m) as [v|] eqn:E.
    - pose proof E as E'. apply lookup_In in E'. rewrite Forall_forall in W. destruct (W _ E') as (Hn & Hp & Hk). cbn in Hp, Hk. destruct v as [items|z].
      + destruct (i_cfg x) eqn:Ex; [|congruence]. cbn [is_some fst]. eapply set_entry_has; [exact E|]. cbn. apply in_app_iff. right. left. reflexivity.
      + exfalso. cbn in Hp. inversion Hp; subst. apply (Hg z); [eapply lookup_value_In; [exact E|left; reflexivity]|assumption|].
        cbn in Hk. unfold guarded in Hk. destruct (i_cfg z); [discriminate|reflexivity].
    - cbn [fst]. rewrite to_vec_app. apply in_app_iff. right. destruct (is_some _); cbn; auto.
  Qed.
  Lemma insert_all_guarded : forall xs (m : ItemMap T) x, wf m -> In x xs ->
    (forall y, In y xs \/ In y (to_vec m) -> i_path y = i_path x -> i_cfg y <> None) -> In x (to_vec (insert_all xs m)).
  Proof.
    induction xs as [|z r IH]; intros m x W Hx Hg; [destruct Hx|]. destruct Hx as [->|Hx].
    - apply (insert_all_keeps r). apply insert_guarded; [assumption|apply Hg; [left; left|]; reflexivity|]. intros y Hy. apply Hg. auto.
    - apply (IH (fst (try_insert z m))); [apply wf_insert; assumption|assumption|]. intros y [Hy|Hy]; [apply Hg; left; right; assumption|].
      apply try_insert_In in Hy as [->|Hy]; apply Hg; cbn; auto.
  Qed.
End Insert.
Lemma filter_vec_In : forall T f (m : ItemMap T) x, In x (to_vec m) -> f x = false -> In x (to_vec (map_filter f m)).
Proof. intros T f m x Hx Hf. rewrite filter_to_vec. apply filter_In. rewrite Hf. auto. Qed.

Lemma mono_back : forall (H : Heck) fuel l l' m, tables_built l -> instantiate_monomorphs fuel l = Done l' ->
  foldM (add_mono l fuel) (library_monos l) Monomorphs_default = Done m -> forall x, In x (m_items m) ->
  (exists j, (In j (m_items m) \/ In j (defined l)) /\ ic_path j = ic_path x /\ (ic_generic_params j = [] -> In (ic_map_types (Type_mangle_paths m) j) (defined l')))
  /\ ((forall y, In y (m_items m) \/ In y (defined l) -> ic_path y = ic_path x -> ic_guard y <> None) -> ic_generic_params x = [] ->
      In (ic_map_types (Type_mangle_paths m) x) (defined l')).
Proof.
  intros H fuel l l' m [A B C D F] E Em x Hx. unfold instantiate_monomorphs in E. rewrite Em in E. inversion E; subst; clear E.
  apply reachable_wf in A, B, C, D, F. pose proof Hx as Hx'. apply In_m_items in Hx. destruct x as [o|s|u|e|t].
  - split.
    + destruct (insert_all_covers _ _ _ D Hx) as (y & Hy & Ey). exists (ICOpaque y). pose proof (insert_all_In _ _ _ _ _ Hy) as Hy'.
      split; [rewrite In_m_items, In_defined; exact Hy'|]. split; [exact Ey|]. intros Hn. apply In_defined. cbn [l_enums l_structs l_unions l_opaque_items l_typedefs ic_map_types]. apply filter_vec_In; [exact Hy|]. apply not_generic. exact Hn.
    + intros Hg Hn. apply In_defined. cbn [l_enums l_structs l_unions l_opaque_items l_typedefs ic_map_types]. apply filter_vec_In; [|apply not_generic; exact Hn]. apply insert_all_guarded; [assumption|assumption|].
      intros y Hy Ey. apply (Hg (ICOpaque y)); [rewrite In_m_items, In_defined; exact Hy|exact Ey].
  - split.
    + destruct (insert_all_covers _ _ _ B Hx) as (y & Hy & Ey). exists (ICStruct y). pose proof (insert_all_In _ _ _ _ _ Hy) as Hy'.
      split; [rewrite In_m_items, In_defined; exact Hy'|]. split; [exact Ey|]. intros Hn. apply In_defined. cbn [l_enums l_structs l_unions l_opaque_items l_typedefs ic_map_types]. rewrite to_vec_map. apply in_map. apply filter_vec_In; [exact Hy|]. apply not_generic. exact Hn.
    + intros Hg Hn. apply In_defined. cbn [l_enums l_structs l_unions l_opaque_items l_typedefs ic_map_types]. rewrite to_vec_map. apply in_map. apply filter_vec_In; [|apply not_generic; exact Hn]. apply insert_all_guarded; [assumption|assumption|].
      intros y Hy Ey. apply (Hg (ICStruct y)); [rewrite In_m_items, In_defined; exact Hy|exact Ey].
  - split.
    + destruct (insert_all_covers _ _ _ C Hx) as (y & Hy & Ey). exists (ICUnion y). pose proof (insert_all_In _ _ _ _ _ Hy) as Hy'.
      split; [rewrite In_m_items, In_defined; exact Hy'|]. split; [exact Ey|]. intros Hn. apply In_defined. cbn [l_enums l_structs l_unions l_opaque_items l_typedefs ic_map_types]. rewrite to_vec_map. apply in_map. apply filter_vec_In; [exact Hy|]. apply not_generic. exact Hn.
    + intros Hg Hn. apply In_defined. cbn [l_enums l_structs l_unions l_opaque_items l_typedefs ic_map_types]. rewrite to_vec_map. apply in_map. apply filter_vec_In; [|apply not_generic; exact Hn]. apply insert_all_guarded; [assumption|assumption|].
      intros y Hy Ey. apply (Hg (ICUnion y)); [rewrite In_m_items, In_defined; exact Hy|exact Ey].
  - split.
    + destruct (insert_all_covers _ _ _ A Hx) as (y & Hy & Ey). exists (ICEnum y). pose proof (insert_all_In _ _ _ _ _ Hy) as Hy'.
      split; [rewrite In_m_items, In_defined; exact Hy'|]. split; [exact Ey|]. intros Hn. apply In_defined. cbn [l_enums l_structs l_unions l_opaque_items l_typedefs ic_map_types]. rewrite to_vec_map. apply in_map. apply filter_vec_In; [exact Hy|]. apply not_generic. exact Hn.
    + intros Hg Hn. apply In_defined. cbn [l_enums l_structs l_unions l_opaque_items l_typedefs ic_map_types]. rewrite to_vec_map. apply in_map. apply filter_vec_In; [|apply not_generic; exact Hn]. apply insert_all_guarded; [assumption|assumption|].
      intros y Hy Ey. apply (Hg (ICEnum y)); [rewrite In_m_items, In_defined; exact Hy|exact Ey].
  - split.
    + destruct (insert_all_covers _ _ _ F Hx) as (y & Hy & Ey). exists (ICTypedef y). pose proof (insert_all_In _ _ _ _ _ Hy) as Hy'.
      split; [rewrite In_m_items, In_defined; exact Hy'|]. split; [exact Ey|]. intros Hn. apply In_defined. cbn [l_enums l_structs l_unions l_opaque_items l_typedefs ic_map_types]. rewrite to_vec_map. 
      apply (in_map (fun t => set_t_aliased (Type_mangle_paths m (t_aliased t)) t)). apply filter_vec_In; [exact Hy|]. apply not_generic. exact Hn.
    + intros Hg Hn. apply In_defined. cbn [l_enums l_structs l_unions l_opaque_items l_typedefs ic_map_types]. rewrite to_vec_map. apply (in_map (fun t => set_t_aliased (Type_mangle_paths m (t_aliased t)) t)).
      apply filter_vec_In; [|apply not_generic; exact Hn]. apply insert_all_guarded; [assumption|assumption|].
      intros y Hy Ey. apply (Hg (ICTypedef y)); [rewrite In_m_items, In_defined; exact Hy|exact Ey].
Qed.

(** ** Every instance that is wanted is made *)
Section All.
  Context {H : Heck}.
  Variable l : Library.
  Hypothesis R : ready l.
  Hypothesis no_clash : forall p, body_name l p -> ~ known l p.
  Definition done_with (m : Monomorphs) (g : GenericPath) : Prop := forall items i p x, lib_get_items l (gp_path g) = Some items -> In i items ->
    instance l (gp_generics g) i p x -> In x (m_items m).
  Lemma done_mono : forall m m' g, incl (m_items m) (m_items m') -> done_with m g -> done_with m' g.
  Proof. intros m m' g Hi Hd items i p x A B C. apply Hi. eapply Hd; eassumption. Qed.
  (** New replacements have all their instances, except perhaps those of the type in progress. *)
  Definition progress (g : GenericPath) (m m' : Monomorphs) : Prop :=
    grows m m' /\ exists pre, m_replacements m' = pre ++ m_replacements m /\ forall e, In e pre -> done_with m' (fst e) \/ fst e = g.
  Definition finished (m m' : Monomorphs) : Prop :=
    grows m m' /\ exists pre, m_replacements m' = pre ++ m_replacements m /\ forall e, In e pre -> done_with m' (fst e).
  Lemma progress_refl : forall g m, progress g m m.
  Proof. intros g m. split; [apply grows_refl|]. exists []. split; [reflexivity|intros e []]. Qed.
  Lemma progress_trans : forall g a b c, progress g a b -> progress g b c -> progress g a c.
  Proof.
    intros g a b c [Ga (p & Ep & Fp)] [Gb (q & Eq & Fq)]. split; [eapply grows_trans; eassumption|]. exists (q ++ p). rewrite Eq, Ep, app_assoc. split; [reflexivity|].
    intros e He. apply in_app_iff in He as [He|He]; [auto|]. destruct (Fp e He) as [Hd|Hd]; [left|auto]. eapply done_mono; [apply (gr_items _ _ Gb)|exact Hd].
  Qed.
  Lemma finished_refl : forall m, finished m m.
  Proof. intros m. split; [apply grows_refl|]. exists []. split; [reflexivity|intros e []]. Qed.
  Lemma finished_trans : forall a b c, finished a b -> finished b c -> finished a c.
  Proof.
    intros a b c [Ga (p & Ep & Fp)] [Gb (q & Eq & Fq)]. split; [eapply grows_trans; eassumption|]. exists (q ++ p). rewrite Eq, Ep, app_assoc. split; [reflexivity|].
    intros e He. apply in_app_iff in He as [He|He]; [auto|]. eapply done_mono; [apply (gr_items _ _ Gb)|auto].
  Qed.
  Lemma finished_progress : forall g a b, finished a b -> progress g a b.
  Proof. intros g a b [G (p & E & F)]. split; [assumption|]. exists p. split; [assumption|]. auto. Qed.
  (** All pieces of a finished fold are stored. *)
  Lemma pieces_stored : forall add args ps m m', (forall m g m', add m g = Done m' -> grows m m') ->
    foldM (insert_piece add args) ps m = Done m' -> forall p x, In (Some (p, x)) ps -> In x (m_items m').
  Proof.
    intros add args ps m m' Hgr. revert m. induction ps as [|o r IH]; intros m E p x Hx; [destruct Hx|]. cbn in E.
    destruct (insert_piece add args m o) as [b| |] eqn:Eb; try discriminate. destruct Hx as [->|Hx]; [|eapply IH; eassumption].
    apply piece_inv in Eb as (m2 & E2 & ->).
    assert (G3 : grows (push_item x m2) m').
    { eapply (foldM_rel _ _ _ grows); [apply grows_refl|apply grows_trans| |exact E]. intros. eapply piece_grows; [|eassumption]. exact Hgr. }
    apply (gr_items _ _ G3). apply push_items. auto.
  Qed.
  Lemma add_finished : forall fuel m g m', goal_path l g -> add_mono l fuel m g = Done m' -> finished m m'.
  Proof.
    pose proof R as [Rt Ri Rf Rb].
    induction fuel as [|n IH]; intros m g m' Hg; cbn [add_mono]; destruct (m_contains g m) eqn:Ec; try (inversion 1; subst; apply finished_refl);
      destruct (lib_get_items l (gp_path g)) as [items|] eqn:El; try discriminate; try (inversion 1; subst; apply finished_refl).
    intros E. assert (Hgr : forall m g m', add_mono l n m g = Done m' -> grows m m') by (intros; eapply add_grows; eassumption).
    assert (Hstep : forall i p x, In i items -> instance l (gp_generics g) i p x -> Forall (goal_path l) (ic_monos x)).
    { intros i p x Hi Hx. apply Forall_forall. intros h Hh. destruct Hg as [F W]. split.
      - assert (Fx : fresh_item x). { eapply fresh_piece; [apply fresh_args; exact F| |apply piece_instance; exact Hx]. rewrite Forall_forall in Ri. apply Ri. eapply lib_items_In; eassumption. }
        apply item_monos_fresh in Fx. rewrite Forall_forall in Fx. auto.
      - eapply wt_needs; [exact W|]. exists items, i, p, x. repeat split; try assumption. apply (instance_uses l _ _ _ _ h Hx). assumption. }
    assert (Hp : progress g m m').
    { eapply (foldM_rel _ _ _ (progress g)) in E; [exact E|apply progress_refl|apply progress_trans|]. intros a i a' Hi Ei. rewrite item_steps in Ei.
      eapply (foldM_rel _ _ _ (progress g)) in Ei; [exact Ei|apply progress_refl|apply progress_trans|]. intros b o b' Ho Eo. destruct o as [[p x]|]; [|discriminate].
      pose proof (piece_grows _ _ _ _ _ Hgr Eo) as Gb. apply piece_inv in Eo as (m2 & E2 & ->). apply piece_instance in Ho.
      assert (F2 : finished (record_replacement (GenericPath_new p (gp_generics g)) (ic_path x) b) m2).
      { eapply (foldM_rel _ _ _ finished); [apply finished_refl|apply finished_trans| |exact E2]. intros c h c' Hh Ec'. eapply IH; [|exact Ec'].
        specialize (Hstep i p x Hi Ho). rewrite Forall_forall in Hstep. auto. }
      split; [exact Gb|]. destruct F2 as [_ (pre & Ep & Fp)]. exists (pre ++ [(GenericPath_new p (gp_generics g), ic_path x)]). rewrite push_repl, Ep, <- app_assoc.
      split; [reflexivity|]. intros e He. apply in_app_iff in He as [He|[<-|[]]].
      - left. eapply done_mono; [|apply Fp; exact He]. intros y Hy. apply push_items. auto.
      - destruct (instance_name_of l _ _ _ _ _ _ Rt El Hi Ho) as [Eq|Hb]; cbn [fst].
        + right. rewrite Eq. apply proper_new. destruct Hg as [F _]. apply fresh_proper. assumption.
        + left. intros items' i' p' x' El' _ _. exfalso. apply (no_clash p Hb). exists items'. exact El'. }
    destruct Hp as [G (pre & Ep & Fp)]. split; [assumption|]. exists pre. split; [assumption|]. intros e He. destruct (Fp e He) as [Hd|Hd]; [assumption|]. rewrite Hd.
    intros items' i p x El' Hi Hx. rewrite El in El'. inversion El'; subst items'. clear -E Hi Hx Hgr. revert m E. induction items as [|j r IHr]; [destruct Hi|]. intros m E. cbn in E.
    destruct (instantiate_item l (add_mono l n) (gp_generics g) m j) as [b| |] eqn:Eb; try discriminate. cbn in E. destruct Hi as [->|Hi]; [|eapply IHr; eassumption].
    rewrite item_steps in Eb. assert (Hb : In x (m_items b)) by (eapply (pieces_stored _ _ _ _ _ Hgr Eb); apply piece_instance; exact Hx).
    assert (Gb : grows b m').
    { eapply (foldM_rel _ _ _ grows); [apply grows_refl|apply grows_trans| |exact E]. intros a i0 a' _ Ei. rewrite item_steps in Ei.
      eapply (foldM_rel _ _ _ grows); [apply grows_refl|apply grows_trans| |exact Ei]. intros. eapply piece_grows; [|eassumption]. exact Hgr. }
    apply (gr_items _ _ Gb). assumption.
  Qed.
  Variable fuel : nat.
  Variable m : Monomorphs.
  Hypothesis Hm : foldM (add_mono l fuel) (library_monos l) Monomorphs_default = Done m.
  Lemma all_done : forall g, m_contains g m = true -> done_with m g.
  Proof.
    assert (F : finished Monomorphs_default m).
    { eapply (foldM_rel _ _ _ finished); [apply finished_refl|apply finished_trans| |exact Hm]. intros a g a' Hg Ea. eapply add_finished; [|exact Ea].
      pose proof (library_goals l R) as Hl. rewrite Forall_forall in Hl. auto. }
    destruct F as [_ (pre & E & F)]. cbn in E. rewrite app_nil_r in E. intros g Hg. apply contains_In in Hg. rewrite E in Hg. apply in_map_iff in Hg as ([h p] & <- & Hh). exact (F _ Hh).
  Qed.
  Lemma wanted_settled : forall g, wanted_type l g -> settled l m g.
  Proof.
    induction 1 as [g Hu|g h Hw IH (items & i & p & x & El & Hi & Hx & Hh)]; [apply (pass_settled l R fuel m Hm); assumption|].
    destruct IH as [Hc|Hc]; [|congruence]. pose proof (all_done g Hc _ _ _ _ El Hi Hx) as Hin.
    eapply (md_settled _ _ (pass_made l R fuel m Hm)); [exact Hin|]. apply (instance_uses l _ _ _ _ h Hx). assumption.
  Qed.
  Lemma wanted_made : forall x, wanted_instance l x <-> In x (m_items m).
  Proof.
    intros x. split; [|apply (md_items _ _ (pass_made l R fuel m Hm))]. intros (g & items & i & p & Hw & El & Hi & Hx & _).
    destruct (wanted_settled g Hw) as [Hc|Hc]; [|congruence]. eapply all_done; eassumption.
  Qed.
End All.

Lemma mono_makes_all : forall (H : Heck) fuel l l', ready l -> (forall p, body_name l p -> ~ known l p) -> instantiate_monomorphs fuel l = Done l' ->
  forall x, wanted_instance l x -> (forall i, In i (defined l) -> ic_path i <> ic_path x) ->
  (exists y i, wanted_instance l y /\ ic_path y = ic_path x /\ item_replaced l y i /\ In i (defined l'))
  /\ ((forall y, wanted_instance l y -> ic_path y = ic_path x -> ic_guard y <> None) -> exists i, item_replaced l x i /\ In i (defined l')).
Proof.
  intros H fuel l l' R Hc E x Hx Hn. destruct (mono_defined _ _ _ _ E) as (m & Em & _). pose proof R as [Rt _ _ _].
  pose proof (proj1 (wanted_made l R Hc fuel m Em x) Hx) as Hin. destruct (mono_back H fuel l l' m Rt E Em x Hin) as [A B].
  assert (Hgen : forall y, wanted_instance l y -> ic_generic_params y = []).
  { intros y (g & items & i & p & _ & _ & _ & Hy & _). apply instance_closed in Hy. tauto. }
  assert (Hrep : forall y, In y (m_items m) -> item_replaced l y (ic_map_types (Type_mangle_paths m) y)).
  { intros y Hy. apply (item_mangled l R fuel m Em). apply (instance_or_kept_settled l R fuel m Em); [auto|]. apply Hgen. apply (wanted_made l R Hc fuel m Em). assumption. }
  split.
  - destruct A as (j & [Hj|Hj] & Ej & Hd); [|exfalso; apply (Hn j Hj); assumption]. exists j. eexists.
    pose proof (proj2 (wanted_made l R Hc fuel m Em j) Hj) as Hw. split; [exact Hw|]. split; [exact Ej|]. split; [apply Hrep; exact Hj|]. apply Hd. auto.
  - intros Hg. eexists. split; [apply Hrep; exact Hin|]. apply B; [|auto]. intros y [Hy|Hy] Ey; [|exfalso; apply (Hn y Hy); assumption].
    apply Hg; [|assumption]. apply (wanted_made l R Hc fuel m Em). assumption.
Qed.
