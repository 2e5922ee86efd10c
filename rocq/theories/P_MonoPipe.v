(** C18 for the whole pipeline. *)
Require Import Coq.Strings.String Coq.Lists.List Coq.Bool.Bool.
From Verif Require Import Base P_Base M_Config M_Cfg M_Type M_Ir M_Item M_Library S_Item S_Sort S_Library S_Names S_Mono P_Type P_Item P_Table P_Library P_Transfer P_Mono P_Stages P_Names P_Spelling P_NamesLib P_Keywords P_MonoLib.
Import ListNotations.
Open Scope list_scope.

(** ** The pass gets what it relies on *)
Lemma bodies_transfer : forall visit l, bodies_as_enums l -> bodies_as_enums (transfer_annotations visit l).
Proof.
  intros visit l B e v n s i ic Hi Hv Eb. apply transfer_defined in Hi as (j & Hj & [E|(a & E)]); destruct j as [| | |e0|]; inversion E; subst; exact (B e0 v n s i ic Hj Hv Eb).
Qed.
Lemma bodies_simplify : forall l, bodies_as_enums l -> bodies_as_enums (simplify_library l).
Proof.
  intros l B e v n s i ic Hi Hv Eb. apply simplify_defined in Hi as (j & Hj & E). destruct j as [| | |e0|]; inversion E; subst. cbn in Hv.
  apply in_map_iff in Hv as (w & <- & Hw). cbn in Eb. destruct (v_body w) eqn:Ew; inversion Eb; subst. cbn. eapply B; eassumption.
Qed.
Lemma loaded_ready : forall visit l, as_loaded l -> bodies_as_enums l -> ready (sort_functions (simplify_library (transfer_annotations visit l))).
Proof.
  intros visit l Hl B. pose proof (fresh_sorted _ (fresh_simplified _ (fresh_transfer visit _ (loaded_fresh _ Hl)))) as [A1 A2 A3 A4 A5 A6].
  constructor; [assumption|apply Forall_forall; assumption|apply Forall_forall; exact A4|].
  intros e v n s i ic Hi. apply (bodies_simplify _ (bodies_transfer visit l B) e v n s i ic). exact Hi.
Qed.

(** ** The names known do not change before the pass *)
Record same_keys (l l' : Library) : Prop := {
  sk_config : l_config l' = l_config l; sk_e : map fst (l_enums l') = map fst (l_enums l); sk_s : map fst (l_structs l') = map fst (l_structs l);
  sk_u : map fst (l_unions l') = map fst (l_unions l); sk_o : map fst (l_opaque_items l') = map fst (l_opaque_items l); sk_t : map fst (l_typedefs l') = map fst (l_typedefs l) }.
Lemma lookup_key : forall A p (m : list (string * A)), (exists v, lookup p m = Some v) <-> In p (map fst m).
Proof.
  intros A p m. induction m as [|[q v] r IH]; cbn; [split; [intros (v & E); discriminate|intros []]|]. destruct (String.eqb p q) eqn:E.
  - apply String.eqb_eq in E. subst. split; [auto|eauto].
  - rewrite IH. split; [auto|]. intros [->|]; [rewrite String.eqb_refl in E; discriminate|assumption].
Qed.
Lemma find_kind_keys : forall T l l' k (mk : T -> ItemContainer) (m m' : ItemMap T) p (rest rest' : option (list ItemContainer)), l_config l' = l_config l -> map fst m' = map fst m ->
  ((exists x, rest' = Some x) <-> (exists x, rest = Some x)) ->
  ((exists x, find_kind l' k mk m' p rest' = Some x) <-> (exists x, find_kind l k mk m p rest = Some x)).
Proof.
  intros T l l' k mk m m' p rest rest' Ec Em Hr. unfold find_kind. rewrite Ec. destruct (should_generate _ _); [|assumption].
  pose proof (lookup_key _ p m) as A. pose proof (lookup_key _ p m') as B. rewrite Em in B. unfold get_items.
  destruct (lookup p m) as [v|], (lookup p m') as [w|]; cbn.
  - split; intros _; eexists; reflexivity.
  - exfalso. destruct (proj2 B (proj1 A (ex_intro _ v eq_refl))) as (x & E). discriminate.
  - exfalso. destruct (proj2 A (proj1 B (ex_intro _ w eq_refl))) as (x & E). discriminate.
  - assumption.
Qed.
Lemma known_keys : forall l l' p, same_keys l l' -> (known l' p <-> known l p).
Proof. intros l l' p [A B C D E F]. unfold known, lib_get_items. repeat (apply find_kind_keys; [assumption|assumption|]). tauto. Qed.
Lemma same_keys_trans : forall a b c, same_keys a b -> same_keys b c -> same_keys a c.
Proof. intros a b c [A1 A2 A3 A4 A5 A6] [B1 B2 B3 B4 B5 B6]. constructor; congruence. Qed.
Lemma giving_keys : forall T (I : Item T) p a (m : ItemMap T), map fst (giving p a m) = map fst m.
Proof. intros. unfold giving. cbn [give_annotations fst]. eapply trel_keys. apply trel_at. Qed.
Lemma giving_if_keys : forall T (I : Item T) (b : bool) p a (m : ItemMap T), map fst (if b then m else giving p a m) = map fst m.
Proof. intros T I [] p a m; [reflexivity|apply giving_keys]. Qed.
Lemma transfer_keys : forall visit l, same_keys l (transfer_annotations visit l).
Proof.
  intros visit l. unfold transfer_annotations. pose proof (trel_keys _ _ _ (take_typedefs (l_typedefs l) [])) as Ht.
  destruct (take_annotations (l_typedefs l) []) as [td an]. cbn [fst] in Ht. set (l0 := {| l_config := l_config l |}).
  assert (H0 : same_keys l l0) by (constructor; auto). clearbody l0. revert l0 H0. induction (visit an) as [|[p a] r IH]; intros l0 H0; cbn [fold_left]; [assumption|].
  apply IH. eapply same_keys_trans; [exact H0|]. rewrite transfer_one_eq. constructor; cbn [with_types l_config l_enums l_structs l_unions l_opaque_items l_typedefs];
    first [reflexivity|apply giving_keys|apply giving_if_keys].
Qed.
Lemma map_keys : forall T (f : T -> T) (m : ItemMap T), map fst (for_all_items_mut f m) = map fst m.
Proof. intros T f m. unfold for_all_items_mut. rewrite map_map. apply map_ext. reflexivity. Qed.
Lemma simplify_keys : forall l, same_keys l (sort_functions (simplify_library l)).
Proof. intros l. constructor; cbn [sort_functions simplify_library l_config l_enums l_structs l_unions l_opaque_items l_typedefs]; first [reflexivity|apply map_keys]. Qed.

(** ** Uses after the other passes *)
Section Uses.
  Variable K : string -> Prop.
  Definition unused (t : Ty) : Prop := forall g, uses g t -> ~ K (gp_path g).
  Lemma unused_map : forall f, (forall t g, uses g (f t) -> exists h, uses h t /\ gp_path h = gp_path g) -> forall t, unused t -> unused (f t).
  Proof. intros f Hf t Ht g Hg. destruct (Hf t g Hg) as (h & Hh & E). rewrite <- E. auto. Qed.
  Definition unused_types (ts : list typing) : Prop := Forall (fun t => unused (snd t)) ts.
  Lemma unused_typing : forall f ts, (forall ps t g, uses g (f ps t) -> exists h, uses h t /\ gp_path h = gp_path g) ->
    unused_types ts -> unused_types (map (fun t : typing => (fst t, f (fst t) (snd t))) ts).
  Proof. intros f ts Hf Ht. unfold unused_types. rewrite Forall_map. eapply Forall_impl; [|exact Ht]. intros t. apply unused_map. apply Hf. Qed.
  Record unused_lib (l : Library) : Prop := {
    ul_items : forall i, In i (defined l) -> unused_types (item_types i) /\ ic_generic_params i = [];
    ul_functions : forall f, In f (l_functions l) -> unused_types (function_types f) }.
End Uses.
Lemma rename_uses : forall ex ps t g, uses g (Type_rename_for_config ex ps t) -> exists h, uses h t /\ gp_path h = gp_path g.
Proof.
  intros ex ps. apply (Ty_only_ind (fun t => forall g, uses g (Type_rename_for_config ex ps t) -> exists h, uses h t /\ gp_path h = gp_path g)).
  - intros t c n r IH g Hg. inversion Hg; subst. destruct (IH g) as (h & Hh & E); [assumption|]. exists h. split; [constructor; assumption|assumption].
  - intros p e gs ct _ g Hg. cbn in Hg. inversion Hg as [Hn| | | |]; subst. exists (GPath p e gs ct). split; [|reflexivity]. constructor. intros E. apply Hn. cbn in *. rewrite E. reflexivity.
  - intros p g Hg. inversion Hg.
  - intros t e IH g Hg. inversion Hg; subst. destruct (IH g) as (h & Hh & E); [assumption|]. exists h. split; [apply us_array; assumption|assumption].
  - intros r args n nr IH1 IH2 g Hg. inversion Hg as [| | |? ? ? ? Hr|? ? ? ? a Ha Hu]; subst.
    + destruct (IH1 g Hr) as (h & Hh & E). exists h. split; [apply us_return; assumption|assumption].
    + apply in_map_iff in Ha as (b & <- & Hb). rewrite Forall_forall in IH2. destruct (IH2 b Hb g Hu) as (h & Hh & E). exists h. split; [eapply us_argument; eassumption|assumption].
Qed.
Lemma resolve_uses : forall r t g, uses g (Type_resolve_declaration_types r t) -> exists h, uses h t /\ gp_path h = gp_path g.
Proof.
  intros rs. apply (Ty_only_ind (fun t => forall g, uses g (Type_resolve_declaration_types rs t) -> exists h, uses h t /\ gp_path h = gp_path g)).
  - intros t c n r IH g Hg. inversion Hg; subst. destruct (IH g) as (h & Hh & E); [assumption|]. exists h. split; [constructor; assumption|assumption].
  - intros p e gs ct _ g Hg. cbn in Hg. inversion Hg as [Hn| | | |]; subst. exists (GPath p e gs ct). split; [|reflexivity]. constructor. exact Hn.
  - intros p g Hg. inversion Hg.
  - intros t e IH g Hg. inversion Hg; subst. destruct (IH g) as (h & Hh & E); [assumption|]. exists h. split; [apply us_array; assumption|assumption].
  - intros r args n nr IH1 IH2 g Hg. inversion Hg as [| | |? ? ? ? Hr|? ? ? ? a Ha Hu]; subst.
    + destruct (IH1 g Hr) as (h & Hh & E). exists h. split; [apply us_return; assumption|assumption].
    + apply in_map_iff in Ha as (b & <- & Hb). rewrite Forall_forall in IH2. destruct (IH2 b Hb g Hu) as (h & Hh & E). exists h. split; [eapply us_argument; eassumption|assumption].
Qed.
Lemma own_incl : forall s t, In t (map fd_ty (own_fields s)) -> In t (map fd_ty (s_fields s)).
Proof. intros s t. unfold own_fields. destruct (s_has_tag_field s); [|auto]. destruct (s_fields s); cbn; auto. Qed.
Lemma item_types_members : forall i t, In t (item_types i) -> In (snd t) (member_types i).
Proof.
  intros i t. assert (Hs : forall s, In t (struct_types s) -> In (snd t) (map fd_ty (s_fields s))).
  { intros s Ht. unfold struct_types, with_params in Ht. apply in_map_iff in Ht as (u & <- & Hu). apply own_incl. assumption. }
  destruct i as [o|s|u|e|td]; cbn [item_types member_types]; [tauto|apply Hs| | |].
  - unfold with_params. intros Ht. apply in_map_iff in Ht as (x & <- & Hx). assumption.
  - intros Ht. apply in_concat in Ht as (x & Hx & Ht). apply in_map_iff in Hx as (v & <- & Hv). unfold variant_types in Ht. apply in_concat.
    destruct (v_body v) as [a|n s j ic] eqn:Eb; [destruct Ht|]. exists (map fd_ty (s_fields s)). split; [|apply Hs; assumption]. apply in_map_iff. exists v. rewrite Eb. auto.
  - intros [<-|[]]. left. reflexivity.
Qed.
Lemma written_item_types : forall i, written_types i = map snd (item_types i).
Proof.
  assert (Hw : forall ps ts, map snd (with_params ps ts) = ts) by (intros; unfold with_params; rewrite map_map; apply map_id).
  intros [o|s|u|e|t]; cbn [written_types item_types member_types]; rewrite ?Hw; try reflexivity.
  - unfold struct_types. rewrite Hw. reflexivity.
  - rewrite concat_map, map_map. f_equal. apply map_ext. intros v. unfold variant_types. destruct (v_body v); [reflexivity|]. unfold struct_types. rewrite Hw. reflexivity.
Qed.

Lemma unused_mono : forall (H : Heck) fuel l l', ready l -> instantiate_monomorphs fuel l = Done l' -> unused_lib (known l) l'.
Proof.
  intros H fuel l l' R E. constructor.
  - intros i Hi. split; [|eapply mono_no_generic; eassumption]. apply Forall_forall. intros t Ht g Hg. eapply (mono_item_uses H fuel l l' R E i g Hi).
    exists (snd t). split; [apply item_types_members; assumption|assumption].
  - intros f Hf. apply Forall_forall. intros t Ht g Hg. apply (mono_function_uses H fuel l l' R E f g Hf). unfold function_types, with_params in Ht.
    apply in_map_iff in Ht as (u & <- & [<-|Hu]); [left; assumption|]. apply in_map_iff in Hu as (a & <- & Ha). right. eauto.
Qed.
Lemma unused_excluded : forall K l, unused_lib K l -> unused_lib K (remove_excluded l).
Proof.
  intros K l [A B]. constructor.
  - intros i Hi. apply excluded_defined in Hi as [Hi _]. auto.
  - intros f Hf. cbn in Hf. apply filter_In in Hf as [Hf _]. auto.
Qed.
Lemma ic_map_params : forall f i, ic_generic_params (ic_map_types f i) = ic_generic_params i.
Proof. intros f []; reflexivity. Qed.
Lemma unused_resolved : forall K l, unused_lib K l -> unused_lib K (resolve_library l).
Proof.
  intros K l [A B]. constructor.
  - intros i Hi. apply resolve_items in Hi as (j & Hj & [[-> _]|[-> _]]); [auto|]. destruct (A j Hj) as [A1 A2]. rewrite ic_map_params. split; [|assumption].
    rewrite map_types_of. apply (unused_typing K (fun _ => Type_resolve_declaration_types (library_resolver l))); [|assumption]. intros _. apply resolve_uses.
  - unfold resolve_library. destruct (negb _); [assumption|]. cbn [l_functions]. intros f Hf. apply in_map_iff in Hf as (h & <- & Hh).
    specialize (B h Hh). unfold unused_types, function_types, with_params in *. rewrite Forall_map in *. inversion B as [|? ? B1 B2]; subst.
    constructor; [exact (unused_map K _ (resolve_uses (library_resolver l)) _ B1)|].
    change (f_args (Function_resolve (library_resolver l) h)) with (map (map_a_ty (Type_resolve_declaration_types (library_resolver l))) (f_args h)).
    rewrite Forall_map in *. rewrite Forall_map. eapply Forall_impl; [|exact B2]. intros a Ha. exact (unused_map K _ (resolve_uses (library_resolver l)) _ Ha).
Qed.
Lemma renamed_params : forall (H : Heck) c j i, renamed c j i -> ic_generic_params i = ic_generic_params j.
Proof.
  intros H c [o|s|u|e|t] [o'|s'|u'|e'|t']; cbn [renamed]; try tauto; try (intros ->; reflexivity).
  - intros E. apply struct_rename_shape in E. cbn. tauto.
  - intros E. apply union_rename_shape in E as (fs & ->). reflexivity.
  - intros E. apply enum_rename_shape in E. cbn. tauto.
Qed.
Lemma unused_renamed : forall (H : Heck) K l l', rename_items l = Some l' -> (forall i, In i (defined l) -> tagged i) -> unused_lib K l -> unused_lib K l'.
Proof.
  intros H K l l' Hr Ht [A B]. pose proof (rename_rest _ _ _ Hr) as (_ & _ & R3 & R4 & _). constructor.
  - intros i Hi. destruct (rename_items_from _ _ _ _ Hr Hi) as (j & Hj & Hji). rewrite (renamed_types _ _ _ _ Hji (Ht _ Hj)), (renamed_params _ _ _ _ Hji).
    destruct (A j Hj) as [A1 A2]. split; [|assumption]. apply (unused_typing K (Type_rename_for_config (export (l_config l)))); [|assumption]. apply rename_uses.
  - intros f Hf. apply map_opt_Forall2 in R4. apply (Forall2_In_r _ _ _ _ _ _ R4) in Hf as (h & Hh & E).
    rewrite (rename_function_types _ _ _ _ E). apply (unused_typing K (Type_rename_for_config (export (l_config l)))); [apply rename_uses|auto].
Qed.
Lemma stages_unused : forall (H : Heck) fuel visit l l', as_loaded l -> bodies_as_enums l -> language (l_config l) <> Cxx -> prepare fuel visit l = Done l' -> unused_lib (known l) l'.
Proof.
  intros H fuel visit l l' Hl Hb Hc Hp. apply prepare_stages in Hp as (l1 & l2 & l3 & l4 & St).
  pose proof (stages_plain _ _ _ _ _ _ _ _ _ St Hl) as Pl. destruct St as [S1 S2 S3 S4 S5].
  assert (El : Language_eqb (language (l_config l)) Cxx = false) by (destruct (language (l_config l)); [congruence|reflexivity|reflexivity]).
  rewrite El in S2. pose proof (loaded_ready visit l Hl Hb) as R1. rewrite <- S1 in R1. pose proof (unused_mono _ _ _ _ R1 S2) as U2.
  assert (Hk : forall p, known l1 p <-> known l p).
  { intros p. apply known_keys. rewrite S1. eapply same_keys_trans; [apply transfer_keys|apply simplify_keys]. }
  assert (U2' : unused_lib (known l) l2).
  { destruct U2 as [A B]. constructor.
    - intros i Hi. destruct (A i Hi) as [A1 A2]. split; [|assumption]. eapply Forall_impl; [|exact A1]. intros t Ht g Hg Hn. apply (Ht g Hg). apply Hk. assumption.
    - intros f Hf. eapply Forall_impl; [|exact (B f Hf)]. intros t Ht g Hg Hn. apply (Ht g Hg). apply Hk. assumption. }
  apply (unused_renamed _ _ _ _ S5); [intros i Hi; apply (pi_tagged _ (pl_items _ Pl i Hi))|]. rewrite S4. rewrite S3.
  destruct (Language_eqb _ M_Config.C); [apply unused_resolved|]; apply unused_excluded; assumption.
Qed.
Lemma generate_unused : forall (H : Heck) fuel visit l b, as_loaded l -> bodies_as_enums l -> language (l_config l) <> Cxx -> generate fuel visit l = Done b ->
  (forall i, In i (b_items b) -> ic_generic_params i = [])
  /\ (forall i t g, In i (b_items b) -> In t (written_types i) -> uses g t -> ~ known l (gp_path g))
  /\ (forall f g, In f (b_functions b) -> function_uses f g -> ~ known l (gp_path g)).
Proof.
  intros H fuel visit l b Hl Hb Hc Hg. apply generate_inv in Hg as (l' & Hp & Hf & _). pose proof (stages_unused _ _ _ _ _ Hl Hb Hc Hp) as [A B].
  assert (Hi : forall i, In i (b_items b) -> In i (defined l')) by (intros i Hi; eapply finish_defined; eassumption).
  repeat split.
  - intros i Hin. apply A. auto.
  - intros i t g Hin Ht Hu. rewrite written_item_types in Ht. apply in_map_iff in Ht as (ty & <- & Hty). destruct (A i (Hi i Hin)) as [A1 _]. unfold unused_types in A1. rewrite Forall_forall in A1.
    apply (A1 ty Hty). assumption.
  - intros f g Hin Hu. apply finish_config in Hf as (_ & Ef & _). rewrite Ef in Hin. destruct (should_generate _ _); [|destruct Hin].
    pose proof (B f Hin) as Bf. unfold unused_types, function_types, with_params in Bf. rewrite Forall_map in Bf. inversion Bf as [|? ? B1 B2]; subst.
    destruct Hu as [Hu|(a & Ha & Hu)]; [apply (B1 g Hu)|]. rewrite Forall_map, Forall_forall in B2. apply (B2 a Ha g Hu).
Qed.
