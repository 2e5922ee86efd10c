(** Proofs about the conditions of the items found (C33). *)
Require Import Coq.Strings.String Coq.Strings.Ascii Coq.Lists.List Coq.Bool.Bool Coq.Arith.Arith Coq.micromega.Lia.
From Verif Require Import Base P_Base M_Config M_Cfg S_Cfg P_Cfg M_Type M_Ir M_Item M_Attr M_Syn M_Library M_Bindings M_Loader M_Parser
  S_Parse P_Exports P_Modules.
Import ListNotations.
Open Scope string_scope.

(** ** Tables *)
Section Tables.
  Context {T : Type} {I : Item T}.
  Lemma set_entry_split : forall (m : ItemMap T) p w, lookup p m = Some w ->
    exists l1 l2, m = (l1 ++ (p, w) :: l2)%list /\ forall v, set_entry p v m = (l1 ++ (p, v) :: l2)%list.
  Proof.
    induction m as [|[q u] r IH]; intros p w Q; cbn in Q; [discriminate|]. destruct (String.eqb p q) eqn:E.
    - apply String.eqb_eq in E as ->. inv Q. exists [], r. split; [reflexivity|]. intro v. cbn. rewrite String.eqb_refl. reflexivity.
    - destruct (IH _ _ Q) as [l1 [l2 [-> S]]]. exists ((q, u) :: l1), l2. split; [reflexivity|]. intro v. cbn. rewrite String.eqb_sym in E. rewrite E, S. reflexivity.
  Qed.
  Lemma to_vec_app : forall a b : ItemMap T, to_vec (a ++ b)%list = (to_vec a ++ to_vec b)%list.
  Proof. intros. unfold to_vec. rewrite map_app, concat_app. reflexivity. Qed.
  Lemma to_vec_cons : forall k v (m : ItemMap T), to_vec ((k, v) :: m) = (value_items v ++ to_vec m)%list.
  Proof. reflexivity. Qed.
  Lemma insert_in : forall (y : T) m x, In x (to_vec (fst (try_insert y m))) -> In x (to_vec m) \/ x = y.
  Proof.
    intros y m x. unfold try_insert. destruct (lookup (i_path y) m) as [[l|z]|] eqn:L.
    - destruct (is_some (i_cfg y)); cbn [fst]; [|auto]. destruct (set_entry_split _ _ _ L) as [l1 [l2 [-> S]]]. rewrite S.
      rewrite !to_vec_app, !to_vec_cons. cbn [value_items]. rewrite !in_app_iff. cbn [In]. intuition.
    - cbn [fst]. auto.
    - cbn [fst]. rewrite to_vec_app, to_vec_cons, in_app_iff. destruct (is_some (i_cfg y)); cbn; intuition.
  Qed.
  Lemma insert_keeps : forall (y : T) m x, In x (to_vec m) -> In x (to_vec (fst (try_insert y m))).
  Proof.
    intros y m x. unfold try_insert. destruct (lookup (i_path y) m) as [[l|z]|] eqn:L.
    - destruct (is_some (i_cfg y)); cbn [fst]; [|auto]. destruct (set_entry_split _ _ _ L) as [l1 [l2 [-> S]]]. rewrite S.
      rewrite !to_vec_app, !to_vec_cons. cbn [value_items]. rewrite !in_app_iff. cbn [In]. intuition.
    - cbn [fst]. auto.
    - cbn [fst]. rewrite to_vec_app, in_app_iff. auto.
  Qed.
  (** Items are stored under their own path. *)
  Definition keyed (m : ItemMap T) : Prop :=
    forall k v, In (k, v) m -> value_items v <> [] /\ forall x, In x (value_items v) -> i_path x = k.
  Lemma keyed_nil : keyed [].
  Proof. intros k v []. Qed.
  Lemma keyed_insert : forall (y : T) m, keyed m -> keyed (fst (try_insert y m)).
  Proof.
    intros y m K. unfold try_insert. destruct (lookup (i_path y) m) as [[l|z]|] eqn:L.
    - destruct (is_some (i_cfg y)); cbn; [|exact K]. destruct (set_entry_split _ _ _ L) as [l1 [l2 [-> S]]]. rewrite S.
      intros k v Q. apply in_app_or in Q as [Q|[Q|Q]].
      + apply K. apply in_or_app. auto.
      + inv Q. cbn. split; [destruct l; discriminate|]. intros x Hx. apply in_app_or in Hx as [Hx|[<- |[]]]; [|reflexivity].
        apply (proj2 (K (i_path y) (VCfg l) ltac:(apply in_or_app; right; left; reflexivity))). exact Hx.
      + apply K. apply in_or_app. right. right. exact Q.
    - exact K.
    - cbn. intros k v Q. apply in_app_or in Q as [Q|[Q|[]]]; [apply K; exact Q|]. inv Q.
      destruct (is_some (i_cfg y)); cbn; (split; [discriminate|]); intros x [<- |[]]; reflexivity.
  Qed.
  Lemma keyed_update : forall p (f : T -> T) m, (forall x, i_path (f x) = i_path x) -> keyed m -> keyed (for_items_mut p f m).
  Proof.
    intros p f m Kf K. unfold for_items_mut. destruct (lookup p m) as [v|] eqn:L; [|exact K].
    destruct (set_entry_split _ _ _ L) as [l1 [l2 [-> S]]]. rewrite S. intros k w Q. apply in_app_or in Q as [Q|[Q|Q]].
    - apply K. apply in_or_app. auto.
    - inv Q. destruct (K k v ltac:(apply in_or_app; right; left; reflexivity)) as [N P].
      destruct v as [l|z]; cbn in *.
      + split; [destruct l; [contradiction|discriminate]|]. intros x Hx. apply in_map_iff in Hx as [y [<- Hy]]. rewrite Kf. auto.
      + split; [discriminate|]. intros x [<- |[]]. rewrite Kf. auto.
    - apply K. apply in_or_app. right. right. exact Q.
  Qed.
  Lemma insert_present : forall (y : T) m, keyed m -> exists x, In x (to_vec (fst (try_insert y m))) /\ i_path x = i_path y.
  Proof.
    intros y m K. unfold try_insert. destruct (lookup (i_path y) m) as [v|] eqn:L.
    - destruct (set_entry_split _ _ _ L) as [l1 [l2 [E S]]].
      destruct (K (i_path y) v ltac:(rewrite E; apply in_or_app; right; left; reflexivity)) as [N P].
      assert (X : exists x, In x (to_vec m) /\ i_path x = i_path y).
      { destruct (value_items v) as [|x l] eqn:V; [contradiction|]. exists x. split; [|apply P; left; reflexivity].
        rewrite E, to_vec_app, to_vec_cons, V. apply in_or_app. right. left. reflexivity. }
      destruct v as [l|z]; [|exact X]. destruct (is_some (i_cfg y)); [|exact X]. cbn [fst]. exists y. split; [|reflexivity].
      rewrite S, to_vec_app, to_vec_cons. apply in_or_app. right. apply in_or_app. left. apply in_or_app. right. left. reflexivity.
    - cbn [fst]. exists y. split; [|reflexivity]. rewrite to_vec_app, to_vec_cons. apply in_or_app. right.
      destruct (is_some (i_cfg y)); left; reflexivity.
  Qed.
  Lemma update_entries : forall k p (f : T -> T) m, (forall x, i_path (f x) = i_path x /\ i_cfg (f x) = i_cfg x) ->
    map (entry_of k) (to_vec (for_items_mut p f m)) = map (entry_of k) (to_vec m).
  Proof.
    intros k p f m Kf. unfold for_items_mut. destruct (lookup p m) as [v|] eqn:L; [|reflexivity].
    destruct (set_entry_split _ _ _ L) as [l1 [l2 [-> S]]]. rewrite S, !to_vec_app, !to_vec_cons, !map_app. f_equal. f_equal.
    assert (E : forall x, entry_of k (f x) = entry_of k x) by (intro x; unfold entry_of; rewrite (proj1 (Kf x)), (proj2 (Kf x)); reflexivity).
    destruct v as [l|z]; cbn; [rewrite map_map; apply map_ext; exact E|rewrite E; reflexivity].
  Qed.
  Lemma insert_entry : forall k (y : T) m e, In e (map (entry_of k) (to_vec (fst (try_insert y m)))) ->
    In e (map (entry_of k) (to_vec m)) \/ e = entry_of k y.
  Proof.
    intros k y m e Q. apply in_map_iff in Q as [x [<- Hx]]. apply insert_in in Hx as [Hx | ->]; [left; apply in_map; exact Hx|auto].
  Qed.
  Lemma insert_entry_keeps : forall k (y : T) m e, In e (map (entry_of k) (to_vec m)) ->
    In e (map (entry_of k) (to_vec (fst (try_insert y m)))).
  Proof. intros k y m e Q. apply in_map_iff in Q as [x [<- Hx]]. apply in_map. apply insert_keeps. exact Hx. Qed.
End Tables.

(** ** The constants of structs *)
Definition struct_constants (m : ItemMap Struct) : list Constant := concat (map s_associated_constants (to_vec m)).
Lemma struct_constants_in : forall c m, In c (struct_constants m) <-> exists s, In s (to_vec m) /\ In c (s_associated_constants s).
Proof.
  intros c m. unfold struct_constants. rewrite in_concat. split.
  - intros [l [Hl Hc]]. apply in_map_iff in Hl as [s [<- Hs]]. eauto.
  - intros [s [Hs Hc]]. exists (s_associated_constants s). split; [apply in_map; exact Hs|exact Hc].
Qed.
Lemma update_in : forall p (f : Struct -> Struct) m x, In x (to_vec (for_items_mut p f m)) -> exists y, In y (to_vec m) /\ (x = y \/ x = f y).
Proof.
  intros p f m x. unfold for_items_mut. destruct (lookup p m) as [v|] eqn:L; [|eauto].
  destruct (set_entry_split _ _ _ L) as [l1 [l2 [-> S]]]. rewrite S, !to_vec_app, !to_vec_cons, !in_app_iff. intros [Q|[Q|Q]].
  - exists x. split; [|auto]. rewrite in_app_iff. auto.
  - destruct v as [l|z]; cbn in Q.
    + apply in_map_iff in Q as [y [<- Hy]]. exists y. split; [|auto]. rewrite !in_app_iff. auto.
    + destruct Q as [<- |[]]. exists z. split; [|auto]. rewrite !in_app_iff. cbn. auto.
  - exists x. split; [|auto]. rewrite !in_app_iff. auto.
Qed.
Lemma update_out : forall p (f : Struct -> Struct) m y, In y (to_vec m) -> In y (to_vec (for_items_mut p f m)) \/ In (f y) (to_vec (for_items_mut p f m)).
Proof.
  intros p f m y. unfold for_items_mut. destruct (lookup p m) as [v|] eqn:L; [|auto].
  destruct (set_entry_split _ _ _ L) as [l1 [l2 [-> S]]]. rewrite S, !to_vec_app, !to_vec_cons, !in_app_iff. intros [Q|[Q|Q]]; [auto| |auto].
  right. right. left. destruct v as [l|z]; cbn in *; [apply in_map; exact Q|destruct Q as [<- |[]]; auto].
Qed.
Lemma added_constant : forall p c m x, In x (struct_constants (for_items_mut p (add_associated_constant c) m)) -> In x (struct_constants m) \/ x = c.
Proof.
  intros p c m x Q. apply struct_constants_in in Q as [s [Hs Hx]]. apply update_in in Hs as [y [Hy [-> | ->]]].
  - left. apply struct_constants_in. eauto.
  - cbn in Hx. apply in_app_or in Hx as [Hx|[<- |[]]]; [left; apply struct_constants_in; eauto|auto].
Qed.
Lemma added_keeps : forall p c m x, In x (struct_constants m) -> In x (struct_constants (for_items_mut p (add_associated_constant c) m)).
Proof.
  intros p c m x Q. apply struct_constants_in in Q as [s [Hs Hx]]. apply struct_constants_in.
  destruct (update_out p (add_associated_constant c) m s Hs) as [E|E]; eexists; (split; [exact E|]); [exact Hx|].
  cbn. apply in_or_app. auto.
Qed.
Lemma annotated_constants : forall p g m x,
  In x (struct_constants (for_items_mut p (fun s => set_s_annotations (g s) s) m)) <-> In x (struct_constants m).
Proof.
  intros p g m x. rewrite !struct_constants_in. split.
  - intros [s [Hs Hx]]. apply update_in in Hs as [y [Hy [-> | ->]]]; exists y; auto.
  - intros [s [Hs Hx]]. destruct (update_out p (fun s => set_s_annotations (g s) s) m s Hs) as [E|E]; eexists; (split; [exact E|]); exact Hx.
Qed.
Lemma inserted_constants : forall s m x, s_associated_constants s = [] ->
  In x (struct_constants (fst (try_insert s m))) -> In x (struct_constants m).
Proof.
  intros s m x N Q. apply struct_constants_in in Q as [y [Hy Hx]]. apply insert_in in Hy as [Hy | ->].
  - apply struct_constants_in. eauto.
  - rewrite N in Hx. contradiction.
Qed.
Lemma inserted_keeps : forall s m x, In x (struct_constants m) -> In x (struct_constants (fst (try_insert s m))).
Proof.
  intros s m x Q. apply struct_constants_in in Q as [y [Hy Hx]]. apply struct_constants_in. exists y. split; [|exact Hx].
  apply insert_keeps. exact Hy.
Qed.

(** ** Growing *)
Definition function_entry (f : Function) : entry := {| en_kind := KFunction; en_name := f_path f; en_cfg := f_cfg f |}.
Definition grows (E : entry -> Prop) (p q : Parse) : Prop :=
  (forall e, In e (entries q) -> In e (entries p) \/ E e) /\ (forall e, In e (entries p) -> In e (entries q)).
Lemma grows_refl : forall E p, grows E p p.
Proof. intros. split; auto. Qed.
Lemma grows_trans : forall E p q r, grows E p q -> grows E q r -> grows E p r.
Proof. intros E p q r [A1 B1] [A2 B2]. split; [|auto]. intros e Q. destruct (A2 e Q) as [Q1|Q1]; auto. Qed.
Lemma grows_weaken : forall (E F : entry -> Prop) p q, (forall e, E e -> F e) -> grows E p q -> grows F p q.
Proof. intros E F p q W [A B]. split; [|exact B]. intros e Q. destruct (A e Q); auto. Qed.

Ltac entries_split :=
  unfold entries, with_constants, with_globals, with_enums, with_structs, with_unions, with_opaque_items, with_typedefs, push_function;
  cbn [pr_constants pr_globals pr_enums pr_structs pr_unions pr_opaque_items pr_typedefs pr_functions]; rewrite ?in_app_iff.
Lemma grows_constant : forall c p, grows (eq (entry_of KConstant c)) p (with_constants (fst (try_insert c (pr_constants p))) p).
Proof.
  intros c p. split; intro e; entries_split.
  - intros [Q|Q]; [|left; tauto]. apply insert_entry in Q as [Q|Q]; [left; tauto|right; auto].
  - intros [Q|Q]; [left; apply insert_entry_keeps; exact Q|right; exact Q].
Qed.
Lemma grows_static : forall c p, grows (eq (entry_of KStatic c)) p (with_globals (fst (try_insert c (pr_globals p))) p).
Proof.
  intros c p. split; intro e; entries_split.
  - intros [Q|[Q|[Q|Q]]]; try (left; tauto). apply insert_entry in Q as [Q|Q]; [left; tauto|right; auto].
  - intros [Q|[Q|[Q|Q]]]; [tauto|tauto| |tauto]. right. right. left. apply insert_entry_keeps. exact Q.
Qed.
Lemma grows_enum : forall c p, grows (eq (entry_of KEnum c)) p (with_enums (fst (try_insert c (pr_enums p))) p).
Proof.
  intros c p. split; intro e; entries_split.
  - intros [Q|[Q|[Q|[Q|Q]]]]; try (left; tauto). apply insert_entry in Q as [Q|Q]; [left; tauto|right; auto].
  - intros [Q|[Q|[Q|[Q|Q]]]]; try tauto. right. right. right. left. apply insert_entry_keeps. exact Q.
Qed.
Lemma grows_union : forall c p, grows (eq (entry_of KUnion c)) p (with_unions (fst (try_insert c (pr_unions p))) p).
Proof.
  intros c p. split; intro e; entries_split.
  - intros [Q|[Q|[Q|[Q|[Q|[Q|Q]]]]]]; try (left; tauto). apply insert_entry in Q as [Q|Q]; [left; tauto|right; auto].
  - intros [Q|[Q|[Q|[Q|[Q|[Q|Q]]]]]]; try tauto. do 5 right. left. apply insert_entry_keeps. exact Q.
Qed.
Lemma grows_opaque : forall c p, grows (eq (entry_of KOpaque c)) p (with_opaque_items (fst (try_insert c (pr_opaque_items p))) p).
Proof.
  intros c p. split; intro e; entries_split.
  - intros [Q|[Q|[Q|[Q|[Q|[Q|[Q|Q]]]]]]]; try (left; tauto). apply insert_entry in Q as [Q|Q]; [left; tauto|right; auto].
  - intros [Q|[Q|[Q|[Q|[Q|[Q|[Q|Q]]]]]]]; try tauto. do 6 right. left. apply insert_entry_keeps. exact Q.
Qed.
Lemma grows_typedef : forall c p, grows (eq (entry_of KTypedef c)) p (with_typedefs (fst (try_insert c (pr_typedefs p))) p).
Proof.
  intros c p. split; intro e; entries_split.
  - intros [Q|[Q|[Q|[Q|[Q|[Q|[Q|[Q|Q]]]]]]]]; try (left; tauto). apply insert_entry in Q as [Q|Q]; [left; tauto|right; auto].
  - intros [Q|[Q|[Q|[Q|[Q|[Q|[Q|[Q|Q]]]]]]]]; try tauto. do 7 right. left. apply insert_entry_keeps. exact Q.
Qed.
Lemma grows_function : forall f p, grows (eq (function_entry f)) p (push_function f p).
Proof.
  intros f p. split; intro e; entries_split; rewrite map_app, in_app_iff; cbn [map In].
  - intros [Q|[Q|[Q|[Q|[Q|[Q|[Q|[Q|[Q|[Q|[]]]]]]]]]]]; try (left; tauto). right. exact Q.
  - tauto.
Qed.
Lemma grows_struct : forall s p, s_associated_constants s = [] ->
  grows (eq (entry_of KStruct s)) p (with_structs (fst (try_insert s (pr_structs p))) p).
Proof.
  intros s p N. split; intro e; entries_split.
  - intros [Q|[Q|[Q|[Q|[Q|Q]]]]]; try (left; tauto).
    + left. right. left. apply in_map_iff in Q as [c [<- Hc]]. apply in_map. exact (inserted_constants _ _ _ N Hc).
    + apply insert_entry in Q as [Q|Q]; [left; tauto|right; auto].
  - intros [Q|[Q|[Q|[Q|[Q|Q]]]]]; try tauto.
    + right. left. apply in_map_iff in Q as [c [<- Hc]]. apply in_map. exact (inserted_keeps _ _ _ Hc).
    + do 4 right. left. apply insert_entry_keeps. exact Q.
Qed.
Lemma grows_added : forall c path p,
  grows (eq (entry_of KConstant c)) p (with_structs (for_items_mut path (add_associated_constant c) (pr_structs p)) p).
Proof.
  intros c path p. split; intro e; entries_split;
    rewrite (update_entries KStruct path (add_associated_constant c)) by (intro x; split; reflexivity).
  - intros [Q|[Q|Q]]; try (left; tauto). apply in_map_iff in Q as [x [<- Hx]].
    apply added_constant in Hx as [Hx | ->]; [|right; reflexivity]. left. right. left. apply in_map. exact Hx.
  - intros [Q|[Q|Q]]; try tauto. right. left. apply in_map_iff in Q as [x [<- Hx]]. apply in_map. apply added_keeps. exact Hx.
Qed.
Lemma grows_annotated : forall E g path p,
  grows E p (with_structs (for_items_mut path (fun s => set_s_annotations (g s) s) (pr_structs p)) p).
Proof.
  intros E g path p.
  assert (A : forall e, In e (map (entry_of KConstant)
                (struct_constants (for_items_mut path (fun s => set_s_annotations (g s) s) (pr_structs p))))
                <-> In e (map (entry_of KConstant) (struct_constants (pr_structs p)))).
  { intro e. rewrite !in_map_iff. split; intros [x [<- Hx]]; exists x; (split; [reflexivity|]); apply (annotated_constants path g); exact Hx. }
  unfold struct_constants in A.
  split; intro e; entries_split; rewrite (update_entries KStruct path (fun s => set_s_annotations (g s) s)) by (intro x; split; reflexivity);
    rewrite A; tauto.
Qed.

(** ** What an item adds *)
Definition from_item (here : (atom -> bool) -> bool) (i : sitem) (e : entry) : Prop :=
  exists guards, introduces i (en_kind e) (en_name e) guards
    /\ forall rho, cfg_eval_opt rho (en_cfg e) = here rho && forallb (attrs_hold rho) guards.
Lemma here_one : forall mod_cfg attrs rho,
  cfg_eval_opt rho (Cfg_append mod_cfg (Cfg_of_attrs attrs)) = here_of mod_cfg rho && forallb (attrs_hold rho) [attrs].
Proof. intros. rewrite append_meaning. cbn. rewrite andb_true_r. reflexivity. Qed.
Lemma here_two : forall mod_cfg block attrs rho,
  cfg_eval_opt rho (Cfg_append (Cfg_append mod_cfg (Cfg_of_attrs block)) (Cfg_of_attrs attrs))
  = here_of mod_cfg rho && forallb (attrs_hold rho) [block; attrs].
Proof. intros. rewrite !append_meaning. cbn. rewrite andb_true_r, andb_assoc. reflexivity. Qed.
Lemma here_plain : forall mod_cfg block attrs rho, Cfg_of_attrs block = None ->
  cfg_eval_opt rho (Cfg_append mod_cfg (Cfg_of_attrs attrs)) = here_of mod_cfg rho && forallb (attrs_hold rho) [block; attrs].
Proof. intros. rewrite append_meaning. cbn. unfold attrs_hold at 1. rewrite H. cbn. rewrite andb_true_r. reflexivity. Qed.

Ltac chain Q :=
  repeat match type of Q with
         | match ?e with Some _ => _ | None => None end = Some _ => destruct e eqn:?; [|discriminate Q]
         end.
Lemma struct_fields : forall l a i g f m s, Struct_load l a i g f m = Some s ->
  s_path s = unraw i /\ s_cfg s = Cfg_append m (Cfg_of_attrs a) /\ s_associated_constants s = [].
Proof.
  intros l a i g f m s Q. unfold Struct_load in Q. destruct (Repr_load a) as [r|]; [|discriminate].
  destruct (match rp_style r with ReprC => Some false | ReprTransparent => Some true | ReprRust => None end) as [tr|]; [|discriminate].
  destruct (ensure_safe_to_represent l (rp_align r)); [|discriminate].
  destruct (match f with FieldsUnit => Some [] | FieldsNamed l => _ | FieldsUnnamed l => _ end) as [fs|]; [|discriminate].
  destruct (GenericParams_load g); [|discriminate]. destruct (AnnotationSet_load a); [|discriminate]. inv Q. repeat split; reflexivity.
Qed.
Lemma union_fields : forall l a i g f m s, Union_load l a i g f m = Some s -> u_path s = unraw i /\ u_cfg s = Cfg_append m (Cfg_of_attrs a).
Proof.
  intros l a i g f m s Q. unfold Union_load in Q. destruct (Repr_load a) as [r|]; [|discriminate].
  destruct (negb _); [discriminate|]. destruct (ensure_safe_to_represent l (rp_align r)); [|discriminate].
  destruct (try_skip_map _ f); [|discriminate].
  destruct (GenericParams_load g); [|discriminate]. destruct (AnnotationSet_load a); [|discriminate]. inv Q. repeat split; reflexivity.
Qed.
Lemma typedef_fields : forall a i g t m s, Typedef_load a i g t m = Some s -> t_path s = unraw i /\ t_cfg s = Cfg_append m (Cfg_of_attrs a).
Proof.
  intros a i g t m s Q. unfold Typedef_load in Q. destruct (Type_load t) as [[x|]|]; try discriminate.
  destruct (GenericParams_load g); [|discriminate]. destruct (AnnotationSet_load a); [|discriminate]. inv Q. repeat split; reflexivity.
Qed.
Lemma static_fields : forall n a mu t m s, Static_load n a mu t m = Some s -> g_path s = n /\ g_cfg s = Cfg_append m (Cfg_of_attrs a).
Proof.
  intros n a mu t m s Q. unfold Static_load in Q. destruct (Type_load t) as [[x|]|]; try discriminate.
  destruct (AnnotationSet_load a); [|discriminate]. inv Q. repeat split; reflexivity.
Qed.
Lemma opaque_fields : forall i g a m s, OpaqueItem_load i g a m = Some s -> o_path s = i /\ o_cfg s = Cfg_append m (Cfg_of_attrs a).
Proof.
  intros i g a m s Q. unfold OpaqueItem_load in Q. destruct (GenericParams_load g); [|discriminate]. inv Q. repeat split; reflexivity.
Qed.
Lemma constant_fields : forall n m t v a o c, Constant_load n m t v a o = Some (Some c) -> c_path c = n /\ c_cfg c = Cfg_append m (Cfg_of_attrs a).
Proof.
  intros n m t v a o c Q. unfold Constant_load in Q. destruct (Type_load t) as [[x|]|]; try discriminate.
  destruct (Literal_load v); [|discriminate].
  destruct (match o with Some b => _ | None => _ end) as [t' l']. destruct (AnnotationSet_load a); [|discriminate].
  unfold Constant_new in Q. destruct (match o with Some b => strip_suffix n b | None => Some n end); inv Q. repeat split; reflexivity.
Qed.
Lemma function_fields : forall n s g e a m f, Function_load n s g e a m = Some f -> f_path f = n /\ f_cfg f = Cfg_append m (Cfg_of_attrs a).
Proof.
  intros n s g e a m f Q. unfold Function_load in Q. destruct (try_skip_map as_argument (sg_inputs g)); [|discriminate].
  destruct (Type_load_from_output (sg_output g)); [|discriminate]. destruct (AnnotationSet_load a); [|discriminate]. inv Q. split; reflexivity.
Qed.
Lemma enum_fields : forall (H : Heck) c a i g vs m e, Enum_load c a i g vs m = Ok e -> e_path e = unraw i /\ e_cfg e = Cfg_append m (Cfg_of_attrs a).
Proof.
  intros H c a i g vs m e Q. unfold Enum_load in Q. destruct (or_bad (Repr_load a)); try discriminate.
  destruct (_ && _); [discriminate|]. destruct (is_some _); [discriminate|]. destruct (or_bad (GenericParams_load g)); try discriminate.
  destruct (or_bad (AnnotationSet_load a)); try discriminate. destruct (load_variants _ _ _ _ _ _ _); try discriminate. inv Q.
  split; reflexivity.
Qed.

Section Adding.
  Context {H : Heck}.
  Variables (ld : loading) (mod_cfg : option Cfg).
  Let here := here_of mod_cfg.

  Lemma opaque_grows : forall i g a p q (E : entry -> Prop),
    (forall e, en_kind e = KOpaque -> en_name e = unraw i -> en_cfg e = Cfg_append mod_cfg (Cfg_of_attrs a) -> E e) ->
    load_opaque i g a mod_cfg p = Some q -> grows E p q.
  Proof.
    intros i g a p q E HE Q. unfold load_opaque in Q. destruct (OpaqueItem_load _ _ _ _) as [o|] eqn:O; [|discriminate].
    apply opaque_fields in O as [O1 O2]. inv Q. eapply grows_weaken; [|apply grows_opaque]. intros e <-.
    apply HE; cbn; congruence.
  Qed.
  Lemma struct_grows : forall a i g f p q (E : entry -> Prop),
    (forall e, In (en_kind e) [KStruct; KOpaque] -> en_name e = unraw i -> en_cfg e = Cfg_append mod_cfg (Cfg_of_attrs a) -> E e) ->
    load_syn_struct ld mod_cfg a i g f p = Some q -> grows E p q.
  Proof.
    intros a i g f p q E HE Q. unfold load_syn_struct in Q. destruct (Struct_load _ _ _ _ _ _) as [s|] eqn:O.
    - apply struct_fields in O as [O1 [O2 O3]]. inv Q. eapply grows_weaken; [|apply grows_struct; exact O3]. intros e <-.
      apply HE; cbn; auto.
    - eapply opaque_grows; [|exact Q]. intros e E1 E2 E3. apply HE; [rewrite E1; cbn; auto|exact E2|exact E3].
  Qed.
  Lemma assoc_grows : forall path items p q (E : entry -> Prop),
    (forall a i t v e, In (ImplConst a true i t v) items -> en_kind e = KConstant -> en_name e = unraw i ++ path ->
       en_cfg e = Cfg_append mod_cfg (Cfg_of_attrs a) -> E e) ->
    load_assoc_consts mod_cfg path items p = Some q -> grows E p q.
  Proof.
    intros path. induction items as [|x r IH]; intros p q E HE Q; cbn in Q; [inv Q; apply grows_refl|].
    assert (HE' : forall a i t v e, In (ImplConst a true i t v) r -> en_kind e = KConstant -> en_name e = unraw i ++ path ->
              en_cfg e = Cfg_append mod_cfg (Cfg_of_attrs a) -> E e) by (intros; eapply HE; [right; eassumption|..]; eassumption).
    destruct x as [attrs pub i t v| |]; try (apply (IH _ _ _ HE' Q)).
    destruct (should_skip_parsing attrs); [apply (IH _ _ _ HE' Q)|]. destruct pub; cbn in Q; [|inv Q; apply grows_refl].
    destruct (Constant_load _ _ _ _ _ _) as [[c|]|] eqn:C; [|discriminate|apply (IH _ _ _ HE' Q)].
    apply constant_fields in C as [C1 C2].
    eapply grows_trans; [|apply (IH _ _ _ HE' Q)].
    assert (W : forall e, entry_of KConstant c = e -> E e).
    { intros e <-. eapply HE; [left; reflexivity|reflexivity|exact C1|exact C2]. }
    destruct (get_items path (pr_structs p)) as [[|y l]|]; eapply grows_weaken; try exact W;
      first [apply grows_constant | apply grows_added].
  Qed.
  Lemma impl_grows : forall t items p q (E : entry -> Prop),
    (forall a i ty v e, In (ImplConst a true i ty v) items -> en_kind e = KConstant -> constant_name i t (en_name e) ->
       en_cfg e = Cfg_append mod_cfg (Cfg_of_attrs a) -> E e) ->
    load_syn_assoc_consts_from_impl mod_cfg t items p = Some q -> grows E p q.
  Proof.
    intros t items p q E HE Q. unfold load_syn_assoc_consts_from_impl in Q.
    destruct (Type_load t) as [[ty|]|] eqn:T; try (inv Q; apply grows_refl).
    destruct (get_root_path ty) as [root|] eqn:R; [|inv Q; apply grows_refl].
    eapply assoc_grows; [|exact Q]. intros a i ty' v e I K N C. eapply HE; try eassumption. exists ty, root. auto.
  Qed.

  Lemma expand_in : forall b tr a i t v, In (ImplConst a true i t v) (snd (expand b tr)) ->
    exists w, In (a, i, w) (bf_flags b) /\ i <> "_".
  Proof.
    intros b tr a i t v Q.
    assert (G : exists o tr', In (ImplConst a true i t v) (expand_flags b o tr')).
    { unfold expand in Q. destruct (bf_attrs b); cbn in Q; eauto. }
    destruct G as [o [tr' G]]. unfold expand_flags in G. apply in_map_iff in G as [[[a' i'] w] [E F]]. unfold expand_flag in E. inv E.
    unfold flags_kept in F. apply filter_In in F as [F N]. exists w. split; [exact F|]. cbn in N. intros ->. discriminate.
  Qed.
  Lemma macro_grows : forall attrs name b p q, Cfg_of_attrs attrs = None ->
    load_builtin_macro ld mod_cfg name b p = Some q -> grows (from_item here (ItemMacro attrs name b)) p q.
  Proof.
    intros attrs name b p q P Q. unfold load_builtin_macro in Q. destruct (negb _ || negb _); [inv Q; apply grows_refl|].
    destruct b as [b|]; [|inv Q; apply grows_refl].
    set (tr := existsb s_is_transparent match get_items (unraw (bf_name b)) (pr_structs p) with Some l => l | None => [] end) in Q.
    pose proof (expand_in b tr) as X. destruct (expand b tr) as [str consts] eqn:Ex. cbn [snd] in X.
    assert (S1 : forall p1, match str with Some (a, f) => load_syn_struct ld mod_cfg a (bf_name b) [] f p | None => Some p end = Some p1 ->
               grows (from_item here (ItemMacro attrs name (Some b))) p p1).
    { intros p1 Q1. destruct str as [[a f]|]; [|inv Q1; apply grows_refl]. eapply struct_grows; [|exact Q1].
      intros e E1 E2 E3. exists [attrs; a]. split.
      - rewrite E2. apply in_flags; [|exact E1]. unfold expand in Ex. destruct (bf_attrs b); inv Ex. reflexivity.
      - intro rho. rewrite E3. apply here_plain. exact P. }
    destruct (match str with Some (a, f) => _ | None => _ end) as [p1|]; [|discriminate].
    eapply grows_trans; [exact (S1 p1 eq_refl)|]. eapply grows_trans; [apply grows_annotated|].
    eapply impl_grows; [|exact Q]. intros a i ty v e I K N C. destruct (X _ _ _ _ I) as [w [F U]].
    exists [attrs; a]. split; [rewrite K; eapply in_flag; eassumption|]. intro rho. rewrite C. apply here_plain. exact P.
  Qed.

  Definition plain_block (i : sitem) : Prop :=
    match i with ItemImpl attrs _ _ | ItemMacro attrs _ _ => Cfg_of_attrs attrs = None | _ => True end.
  Definition export_ok (i : sitem) : Prop :=
    match i with
    | ItemFn attrs _ _ => attributes_ok attrs
    | ItemStatic attrs _ _ _ =>
        attributes_ok attrs /\ forall a n, In a attrs -> at_meta a <> AList (Some "unsafe") [ANameValue (Some "export_name") (Some n)]
    | ItemImpl _ _ items => forall a p s, In (ImplFn a p s) items -> attributes_ok a
    | _ => True
    end.
  Lemma fn_grows : forall self sig attrs p (E : entry -> Prop), attributes_ok attrs ->
    (forall e, en_kind e = KFunction -> symbol attrs (unraw (sg_ident sig)) (en_name e) ->
       en_cfg e = Cfg_append mod_cfg (Cfg_of_attrs attrs) -> E e) ->
    grows E p (load_fn_declaration ld mod_cfg self sig attrs p).
  Proof.
    intros self sig attrs p E Ok HE. unfold load_fn_declaration. destruct (negb (top_level ld)); [apply grows_refl|].
    destruct (_ || _); [|apply grows_refl]. destruct (fn_exported_name attrs (unraw (sg_ident sig))) as [n|] eqn:N; [|apply grows_refl].
    destruct (Function_load _ _ _ _ _ _) as [f|] eqn:F; [|apply grows_refl]. apply function_fields in F as [F1 F2].
    apply (exported_name _ _ _ Ok) in N. eapply grows_weaken; [|apply grows_function]. intros e <-.
    apply HE; cbn; [reflexivity|rewrite F1; exact N|exact F2].
  Qed.
  Lemma static_symbol : forall attrs i n, attributes_ok attrs ->
    (forall a n, In a attrs -> at_meta a <> AList (Some "unsafe") [ANameValue (Some "export_name") (Some n)]) ->
    static_exported_name attrs i = Some n -> symbol attrs i n.
  Proof.
    intros attrs i n Ok NU Q. apply exported_name; [exact Ok|]. unfold static_exported_name in Q. unfold fn_exported_name.
    destruct (attr_name_value_lookup attrs "export_name"); [exact Q|].
    destruct (unsafe_attr_name_value_lookup attrs "export_name") as [m|] eqn:U; [|exact Q].
    exfalso. apply (unsafe_name _ _ Ok) in U as [a [Ha M]]. exact (NU a m Ha M).
  Qed.

  Lemma item_grows : forall i p q, plain_block i -> export_ok i -> should_skip_parsing (item_attrs i) = false ->
    load_item ld mod_cfg p i = Some q -> grows (from_item here i) p q.
  Proof.
    intros i p q P X K Q. unfold load_item in Q. rewrite K in Q. destruct i.
    - inv Q. unfold load_syn_foreign_mod. destruct (_ && _); [apply grows_refl|].
      assert (G : forall l, (forall x, In x l -> In x items) -> forall p,
        grows (from_item here (ItemForeignMod attrs abi items)) p (load_foreign_items ld (Cfg_append mod_cfg (Cfg_of_attrs attrs)) l p)).
      { induction l as [|[[a s]|] r IH]; intros S p1; [apply grows_refl| |apply IH; intros; apply S; right; assumption].
        cbn. destruct (negb (top_level ld)); [apply grows_refl|].
        destruct (Function_load _ _ _ _ _ _) as [f|] eqn:F; [|apply IH; intros; apply S; right; assumption].
        eapply grows_trans; [|apply IH; intros; apply S; right; assumption]. apply function_fields in F as [F1 F2].
        eapply grows_weaken; [|apply grows_function]. intros e <-. exists [attrs; a]. cbn. rewrite F1, F2. split.
        - apply in_foreign. apply S. left. reflexivity.
        - intro rho. apply here_two. }
      apply G. auto.
    - inv Q. apply fn_grows; [exact X|]. intros e E1 E2 E3. exists [attrs]. rewrite E1, E3. split; [apply in_fn; exact E2|].
      intro rho. apply here_one.
    - unfold load_syn_const in Q. destruct (negb (top_level ld)); [inv Q; apply grows_refl|].
      destruct public; cbn in Q; [|inv Q; apply grows_refl].
      destruct (Constant_load _ _ _ _ _ _) as [[c|]|] eqn:C; [|discriminate|inv Q; apply grows_refl].
      apply constant_fields in C as [C1 C2]. inv Q. eapply grows_weaken; [|apply grows_constant]. intros e <-. exists [attrs]. cbn.
      rewrite C1, C2. split; [apply in_const|intro rho; apply here_one].
    - inv Q. unfold load_syn_static. destruct (negb (top_level ld)); [apply grows_refl|].
      destruct (static_exported_name attrs (unraw ident)) as [n|] eqn:N; [|apply grows_refl].
      destruct (Static_load _ _ _ _ _) as [g|] eqn:G; [|apply grows_refl]. apply static_fields in G as [G1 G2].
      eapply grows_weaken; [|apply grows_static]. intros e <-. exists [attrs]. cbn. rewrite G1, G2.
      split; [apply in_static; apply static_symbol; [apply X|apply X|exact N]|intro rho; apply here_one].
    - eapply struct_grows; [|exact Q]. intros e E1 E2 E3. exists [attrs]. rewrite E2, E3. split; [apply in_struct; exact E1|].
      intro rho. apply here_one.
    - unfold load_syn_union in Q. destruct (Union_load _ _ _ _ _ _) as [u|] eqn:U.
      + apply union_fields in U as [U1 U2]. inv Q. eapply grows_weaken; [|apply grows_union]. intros e <-. exists [attrs]. cbn. rewrite U1, U2.
        split; [apply in_union; cbn; auto|intro rho; apply here_one].
      + eapply opaque_grows; [|exact Q]. intros e E1 E2 E3. exists [attrs]. rewrite E1, E2, E3. split; [apply in_union; cbn; auto|].
        intro rho. apply here_one.
    - unfold load_syn_enum in Q. destruct (Enum_load _ _ _ _ _ _) as [u| |] eqn:U; [| |discriminate].
      + apply enum_fields in U as [U1 U2]. inv Q. eapply grows_weaken; [|apply grows_enum]. intros e <-. exists [attrs]. cbn. rewrite U1, U2.
        split; [apply in_enum; cbn; auto|intro rho; apply here_one].
      + eapply opaque_grows; [|exact Q]. intros e E1 E2 E3. exists [attrs]. rewrite E1, E2, E3. split; [apply in_enum; cbn; auto|].
        intro rho. apply here_one.
    - unfold load_syn_ty in Q. destruct (Typedef_load _ _ _ _ _) as [u|] eqn:U.
      + apply typedef_fields in U as [U1 U2]. inv Q. eapply grows_weaken; [|apply grows_typedef]. intros e <-. exists [attrs]. cbn. rewrite U1, U2.
        split; [apply in_type; cbn; auto|intro rho; apply here_one].
      + eapply opaque_grows; [|exact Q]. intros e E1 E2 E3. exists [attrs]. rewrite E1, E2, E3. split; [apply in_type; cbn; auto|].
        intro rho. apply here_one.
    - inv Q. unfold load_methods. destruct (bare_ident self_ty) as [ty|]; [|apply grows_refl].
      assert (G : forall l, (forall x, In x l -> In x items) -> forall p,
        grows (from_item here (ItemImpl attrs self_ty items)) p
          (fold_left (fun p x => match x with
                            | ImplFn attrs _ sig =>
                                if should_skip_parsing attrs then p
                                else load_fn_declaration ld mod_cfg (Some (unraw ty)) sig attrs p
                            | _ => p
                            end) l p)).
      { induction l as [|x r IH]; intros S p1; [apply grows_refl|]. cbn. eapply grows_trans; [|apply IH; intros; apply S; right; assumption].
        destruct x as [| a pub sig |]; try apply grows_refl. destruct (should_skip_parsing a); [apply grows_refl|].
        apply fn_grows; [exact (X a pub sig (S _ (or_introl eq_refl)))|]. intros e E1 E2 E3. exists [attrs; a]. rewrite E1, E3.
        split; [eapply in_method; [apply S; left; reflexivity|exact E2]|]. intro rho. apply here_plain. exact P. }
      apply G. auto.
    - apply macro_grows; [exact P|exact Q].
    - inv Q. apply grows_refl.
    - inv Q. apply grows_refl.
  Qed.

  Definition from_items (items : list sitem) (e : entry) : Prop :=
    exists i, In i items /\ should_skip_parsing (item_attrs i) = false /\ from_item here i e.
  Lemma items_grow : forall all items p q, (forall i, In i items -> In i all) ->
    (forall i, In i all -> plain_block i /\ export_ok i) ->
    load_all (load_item ld mod_cfg) items p = Some q -> grows (from_items all) p q.
  Proof.
    intros all. induction items as [|i r IH]; intros p q S X Q; [inv Q; apply grows_refl|]. cbn in Q.
    destruct (load_item ld mod_cfg p i) as [p1|] eqn:E; [|discriminate].
    eapply grows_trans; [|eapply IH; [intros; apply S; right; assumption|exact X|exact Q]].
    destruct (should_skip_parsing (item_attrs i)) eqn:K.
    - unfold load_item in E. rewrite K in E. inv E. apply grows_refl.
    - destruct (X i (S i (or_introl eq_refl))) as [P O]. eapply grows_weaken; [|exact (item_grows i p p1 P O K E)].
      intros e F. exists i. split; [apply S; left; reflexivity|]. auto.
  Qed.
  Lemma late_grow : forall all l p q, (forall x, In x l -> In x (impls_with_assoc_consts all)) ->
    (forall i, In i all -> plain_block i /\ export_ok i) ->
    load_all (fun p x => load_syn_assoc_consts_from_impl mod_cfg (fst x) (snd x) p) l p = Some q -> grows (from_items all) p q.
  Proof.
    intros all. induction l as [|x r IH]; intros p q S X Q; [inv Q; apply grows_refl|]. cbn in Q.
    destruct (load_syn_assoc_consts_from_impl mod_cfg (fst x) (snd x) p) as [p1|] eqn:E; [|discriminate].
    eapply grows_trans; [|eapply IH; [intros; apply S; right; assumption|exact X|exact Q]].
    specialize (S x (or_introl eq_refl)). unfold impls_with_assoc_consts in S.
    assert (G : exists attrs, In (ItemImpl attrs (fst x) (snd x)) all /\ should_skip_parsing attrs = false).
    { clear - S. induction all as [|i r IH]; cbn in S; [contradiction|].
      destruct i; try (destruct (IH S) as [a [A1 A2]]; exists a; split; [right; exact A1|exact A2]).
      destruct (should_skip_parsing attrs) eqn:K; cbn in S; [destruct (IH S) as [a [A1 A2]]; exists a; split; [right; exact A1|exact A2]|].
      destruct (existsb is_impl_const items); [|destruct (IH S) as [a [A1 A2]]; exists a; split; [right; exact A1|exact A2]].
      destruct S as [<- |S]; [exists attrs; split; [left; reflexivity|exact K]|].
      destruct (IH S) as [a [A1 A2]]. exists a. split; [right; exact A1|exact A2]. }
    destruct G as [attrs [I K]]. eapply impl_grows; [|exact E]. intros a i ty v e I2 E1 E2 E3.
    exists (ItemImpl attrs (fst x) (snd x)). split; [exact I|]. split; [exact K|]. exists [attrs; a]. rewrite E1, E3. split.
    - eapply in_impl_const; eassumption.
    - intro rho. apply here_plain. exact (proj1 (X _ I)).
  Qed.
  Lemma module_grows : forall items p q, (forall i, In i items -> plain_block i /\ export_ok i) ->
    load_syn_crate_mod ld mod_cfg items p = Some q -> grows (from_items items) p q.
  Proof.
    intros items p q X Q. unfold load_syn_crate_mod in Q. destruct (load_all (load_item ld mod_cfg) items p) as [p1|] eqn:E; [|discriminate].
    eapply grows_trans; [eapply items_grow; [|exact X|exact E]; auto|]. eapply late_grow; [|exact X|exact Q]. auto.
  Qed.
End Adding.

(** ** Modules *)
Section Visits.
  Context {H : Heck}.
  Variable (ld : loading).
  Lemma module_from : forall v p q, plain_blocks v -> exports_ok v ->
    load_syn_crate_mod ld (Cfg_join (vi_guards v)) (vi_items v) p = Some q -> grows (from_module v) p q.
  Proof.
    intros v p q P X Q. eapply grows_weaken; [|eapply module_grows; [|exact Q]].
    - intros e [i [I [K [gs [N C]]]]]. exists i, gs. repeat (split; [assumption|]). intro rho. rewrite C. unfold here_of.
      rewrite join_meaning. reflexivity.
    - intros i I. split; [exact (P i I)|exact (X i I)].
  Qed.
  Lemma visits_grow : forall vs p q, (forall v, In v vs -> plain_blocks v /\ exports_ok v) ->
    load_visits ld vs p = Some q -> grows (fun e => exists v, In v vs /\ from_module v e) p q.
  Proof.
    induction vs as [|v r IH]; intros p q X Q; [inv Q; apply grows_refl|]. cbn in Q.
    destruct (load_syn_crate_mod ld (Cfg_join (vi_guards v)) (vi_items v) p) as [p1|] eqn:E; [|discriminate].
    eapply grows_trans.
    - eapply grows_weaken; [|apply module_from; [| |exact E]; apply X; left; reflexivity]. intros e F. exists v. split; [left; reflexivity|exact F].
    - eapply grows_weaken; [|apply IH; [|exact Q]; intros; apply X; right; assumption]. intros e [w [I F]]. exists w. split; [right; exact I|exact F].
  Qed.
End Visits.

(** ** Every type is found *)
Definition all_keyed (p : Parse) : Prop :=
  keyed (pr_structs p) /\ keyed (pr_unions p) /\ keyed (pr_enums p) /\ keyed (pr_opaque_items p) /\ keyed (pr_typedefs p).
Lemma keyed_new : all_keyed Parse_new.
Proof. unfold all_keyed. cbn. repeat (split; [apply keyed_nil|]). apply keyed_nil. Qed.
Ltac keyed_split := unfold all_keyed, with_constants, with_globals, with_enums, with_structs, with_unions, with_opaque_items, with_typedefs, push_function in *;
  cbn [pr_constants pr_globals pr_enums pr_structs pr_unions pr_opaque_items pr_typedefs pr_functions] in *.
Lemma has_mono : forall E k n p q, grows E p q -> has k n p -> has k n q.
Proof. intros E k n p q [_ G] [e [I R]]. exists e. auto. Qed.

Section Present.
  Context {H : Heck}.
  Variables (ld : loading) (mod_cfg : option Cfg).
  Lemma opaque_keyed : forall i g a p q, all_keyed p -> load_opaque i g a mod_cfg p = Some q -> all_keyed q /\ has KOpaque (unraw i) q.
  Proof.
    intros i g a p q K Q. unfold load_opaque in Q. destruct (OpaqueItem_load _ _ _ _) as [o|] eqn:O; [|discriminate].
    apply opaque_fields in O as [O1 _]. inv Q. destruct K as [K1 [K2 [K3 [K4 K5]]]]. split.
    - keyed_split. repeat (split; [first [assumption | apply keyed_insert; assumption]|]). assumption.
    - destruct (insert_present o (pr_opaque_items p) K4) as [x [I P]]. exists (entry_of KOpaque x). split; [|split; [reflexivity|]].
      + entries_split. do 6 right. left. apply in_map. exact I.
      + cbn. rewrite <- O1. exact P.
  Qed.
  Lemma struct_keyed : forall a i g f p q, all_keyed p -> load_syn_struct ld mod_cfg a i g f p = Some q -> all_keyed q /\ has_type KStruct (unraw i) q.
  Proof.
    intros a i g f p q K Q. unfold load_syn_struct in Q. destruct (Struct_load _ _ _ _ _ _) as [s|] eqn:O.
    - apply struct_fields in O as [O1 _]. inv Q. destruct K as [K1 [K2 [K3 [K4 K5]]]]. split.
      + keyed_split. repeat (split; [first [assumption | apply keyed_insert; assumption]|]). assumption.
      + left. destruct (insert_present s (pr_structs p) K1) as [x [I P]]. exists (entry_of KStruct x). split; [|split; [reflexivity|]].
        * entries_split. do 4 right. left. apply in_map. exact I.
        * cbn. rewrite <- O1. exact P.
    - apply (opaque_keyed _ _ _ _ _ K) in Q as [Q1 Q2]. split; [exact Q1|right; exact Q2].
  Qed.
  Lemma assoc_keyed : forall path items p q, all_keyed p -> load_assoc_consts mod_cfg path items p = Some q -> all_keyed q.
  Proof.
    intros path. induction items as [|x r IH]; intros p q K Q; cbn in Q; [inv Q; exact K|].
    destruct x as [attrs pub i t v| |]; try (exact (IH _ _ K Q)).
    destruct (should_skip_parsing attrs); [exact (IH _ _ K Q)|]. destruct pub; cbn in Q; [|inv Q; exact K].
    destruct (Constant_load _ _ _ _ _ _) as [[c|]|] eqn:C; [|discriminate|exact (IH _ _ K Q)].
    eapply IH; [|exact Q]. destruct (get_items path (pr_structs p)) as [[|y l]|]; try exact K.
    destruct K as [K1 K2]. keyed_split. split; [|exact K2]. apply keyed_update; [reflexivity|exact K1].
  Qed.
  Lemma impl_keyed : forall t items p q, all_keyed p -> load_syn_assoc_consts_from_impl mod_cfg t items p = Some q -> all_keyed q.
  Proof.
    intros t items p q K Q. unfold load_syn_assoc_consts_from_impl in Q.
    destruct (Type_load t) as [[ty|]|] eqn:T; try (inv Q; exact K). destruct (get_root_path ty); [|inv Q; exact K].
    exact (assoc_keyed _ _ _ _ K Q).
  Qed.
  Definition same_types (p q : Parse) : Prop :=
    pr_structs q = pr_structs p /\ pr_unions q = pr_unions p /\ pr_enums q = pr_enums p /\ pr_opaque_items q = pr_opaque_items p
    /\ pr_typedefs q = pr_typedefs p.
  Lemma same_keyed : forall p q, same_types p q -> all_keyed p -> all_keyed q.
  Proof. intros p q [E1 [E2 [E3 [E4 E5]]]] K. unfold all_keyed. rewrite E1, E2, E3, E4, E5. exact K. Qed.
  Lemma same_refl : forall p, same_types p p.
  Proof. repeat split. Qed.
  Lemma fn_same : forall self sig attrs p, same_types p (load_fn_declaration ld mod_cfg self sig attrs p).
  Proof.
    intros. unfold load_fn_declaration. destruct (negb _); [apply same_refl|]. destruct (_ || _); [|apply same_refl].
    destruct (fn_exported_name _ _); [|apply same_refl]. destruct (Function_load _ _ _ _ _ _); repeat split.
  Qed.
  Lemma item_keyed : forall i p q, all_keyed p -> should_skip_parsing (item_attrs i) = false -> load_item ld mod_cfg p i = Some q ->
    all_keyed q /\ forall k n, defines_type i k n -> has_type k n q.
  Proof.
    intros i p q K N Q. unfold load_item in Q. rewrite N in Q. destruct i.
    - split; [|intros ? ? []]. inv Q. unfold load_syn_foreign_mod. destruct (_ && _); [exact K|].
      generalize (Cfg_append mod_cfg (Cfg_of_attrs attrs)). intro cfg. clear N. revert p K.
      induction items as [|[[a s]|] r IH]; intros p K; [exact K| |exact (IH p K)]. cbn. destruct (negb _); [exact K|]. apply IH.
      destruct (Function_load _ _ _ _ _ _); exact K.
    - split; [|intros ? ? []]. inv Q. eapply same_keyed; [apply fn_same|exact K].
    - split; [|intros ? ? []]. unfold load_syn_const in Q. destruct (negb _); [inv Q; exact K|]. destruct (negb _); [inv Q; exact K|].
      destruct (Constant_load _ _ _ _ _ _) as [[c|]|]; inv Q; exact K.
    - split; [|intros ? ? []]. inv Q. unfold load_syn_static. destruct (negb _); [exact K|]. destruct (static_exported_name _ _); [|exact K].
      destruct (Static_load _ _ _ _ _); exact K.
    - apply (struct_keyed _ _ _ _ _ _ K) in Q as [Q1 Q2]. split; [exact Q1|]. intros k n [-> ->]. exact Q2.
    - unfold load_syn_union in Q. destruct (Union_load _ _ _ _ _ _) as [s|] eqn:O.
      + apply union_fields in O as [O1 _]. inv Q. destruct K as [K1 [K2 [K3 [K4 K5]]]]. split.
        * keyed_split. repeat (split; [first [assumption | apply keyed_insert; assumption]|]). assumption.
        * intros k n [-> ->]. left. destruct (insert_present s (pr_unions p) K2) as [x [I P]]. exists (entry_of KUnion x). split; [|split; [reflexivity|]].
          -- entries_split. do 5 right. left. apply in_map. exact I.
          -- cbn. rewrite <- O1. exact P.
      + apply (opaque_keyed _ _ _ _ _ K) in Q as [Q1 Q2]. split; [exact Q1|]. intros k n [-> ->]. right. exact Q2.
    - unfold load_syn_enum in Q. destruct (Enum_load _ _ _ _ _ _) as [s| |] eqn:O; [| |discriminate].
      + apply enum_fields in O as [O1 _]. inv Q. destruct K as [K1 [K2 [K3 [K4 K5]]]]. split.
        * keyed_split. repeat (split; [first [assumption | apply keyed_insert; assumption]|]). assumption.
        * intros k n [-> ->]. left. destruct (insert_present s (pr_enums p) K3) as [x [I P]]. exists (entry_of KEnum x). split; [|split; [reflexivity|]].
          -- entries_split. do 3 right. left. apply in_map. exact I.
          -- cbn. rewrite <- O1. exact P.
      + apply (opaque_keyed _ _ _ _ _ K) in Q as [Q1 Q2]. split; [exact Q1|]. intros k n [-> ->]. right. exact Q2.
    - unfold load_syn_ty in Q. destruct (Typedef_load _ _ _ _ _) as [s|] eqn:O.
      + apply typedef_fields in O as [O1 _]. inv Q. destruct K as [K1 [K2 [K3 [K4 K5]]]]. split.
        * keyed_split. repeat (split; [first [assumption | apply keyed_insert; assumption]|]). apply keyed_insert. assumption.
        * intros k n [-> ->]. left. destruct (insert_present s (pr_typedefs p) K5) as [x [I P]]. exists (entry_of KTypedef x). split; [|split; [reflexivity|]].
          -- entries_split. do 7 right. left. apply in_map. exact I.
          -- cbn. rewrite <- O1. exact P.
      + apply (opaque_keyed _ _ _ _ _ K) in Q as [Q1 Q2]. split; [exact Q1|]. intros k n [-> ->]. right. exact Q2.
    - split; [|intros ? ? []]. inv Q. unfold load_methods. destruct (bare_ident self_ty); [|exact K]. clear N. revert p K.
      induction items as [|x r IH]; intros p K; [exact K|]. cbn. apply IH. destruct x; try exact K.
      destruct (should_skip_parsing attrs0); [exact K|]. eapply same_keyed; [apply fn_same|exact K].
    - split; [|intros ? ? []]. unfold load_builtin_macro in Q. destruct (_ || _); [inv Q; exact K|]. destruct flags as [b|]; [|inv Q; exact K].
      destruct (expand b _) as [str consts].
      assert (K1 : forall p1, match str with Some (a, f) => load_syn_struct ld mod_cfg a (bf_name b) [] f p | None => Some p end = Some p1 -> all_keyed p1).
      { intros p1 Q1. destruct str as [[a f]|]; [|inv Q1; exact K]. exact (proj1 (struct_keyed _ _ _ _ _ _ K Q1)). }
      destruct (match str with Some (a, f) => _ | None => _ end) as [p1|]; [|discriminate]. specialize (K1 p1 eq_refl).
      eapply impl_keyed; [|exact Q]. destruct K1 as [A B]. keyed_split. split; [|exact B]. apply keyed_update; [reflexivity|exact A].
    - split; [|intros ? ? []]. inv Q. exact K.
    - split; [|intros ? ? []]. inv Q. exact K.
  Qed.
End Present.

(** The same, not looking at what is new *)
Section Kept.
  Context {H : Heck}.
  Variables (ld : loading) (mod_cfg : option Cfg).
  Definition kept (p q : Parse) : Prop := grows (fun _ => True) p q.
  Lemma impl_kept : forall t items p q, load_syn_assoc_consts_from_impl mod_cfg t items p = Some q -> kept p q.
  Proof. intros. eapply impl_grows; [|eassumption]. auto. Qed.
  Lemma macro_kept : forall name b p q, load_builtin_macro ld mod_cfg name b p = Some q -> kept p q.
  Proof.
    intros name b p q Q. unfold load_builtin_macro in Q. destruct (negb _ || negb _); [inv Q; apply grows_refl|].
    destruct b as [b|]; [|inv Q; apply grows_refl]. destruct (expand b _) as [str consts].
    assert (S1 : forall p1, match str with Some (a, f) => load_syn_struct ld mod_cfg a (bf_name b) [] f p | None => Some p end = Some p1 -> kept p p1).
    { intros p1 Q1. destruct str as [[a f]|]; [|inv Q1; apply grows_refl]. eapply struct_grows; [|exact Q1]. auto. }
    destruct (match str with Some (a, f) => _ | None => _ end) as [p1|]; [|discriminate].
    eapply grows_trans; [exact (S1 p1 eq_refl)|]. eapply grows_trans; [apply grows_annotated|]. eapply impl_kept. exact Q.
  Qed.
  Lemma fn_kept : forall self sig attrs p, kept p (load_fn_declaration ld mod_cfg self sig attrs p).
  Proof.
    intros. unfold load_fn_declaration. destruct (negb _); [apply grows_refl|]. destruct (_ || _); [|apply grows_refl].
    destruct (fn_exported_name _ _); [|apply grows_refl]. destruct (Function_load _ _ _ _ _ _); [|apply grows_refl].
    eapply grows_weaken; [|apply grows_function]. auto.
  Qed.
  Lemma item_kept : forall i p q, load_item ld mod_cfg p i = Some q -> kept p q.
  Proof.
    intros i p q Q. unfold load_item in Q. destruct (should_skip_parsing _); [inv Q; apply grows_refl|]. destruct i.
    - inv Q. unfold load_syn_foreign_mod. destruct (_ && _); [apply grows_refl|].
      generalize (Cfg_append mod_cfg (Cfg_of_attrs attrs)). intro cfg. revert p.
      induction items as [|[[a s]|] r IH]; intros p; [apply grows_refl| |exact (IH p)]. cbn. destruct (negb _); [apply grows_refl|].
      eapply grows_trans; [|apply IH]. destruct (Function_load _ _ _ _ _ _); [|apply grows_refl]. eapply grows_weaken; [|apply grows_function]. auto.
    - inv Q. apply fn_kept.
    - unfold load_syn_const in Q. destruct (negb _); [inv Q; apply grows_refl|]. destruct (negb _); [inv Q; apply grows_refl|].
      destruct (Constant_load _ _ _ _ _ _) as [[c|]|]; inv Q; [|apply grows_refl]. eapply grows_weaken; [|apply grows_constant]. auto.
    - inv Q. unfold load_syn_static. destruct (negb _); [apply grows_refl|]. destruct (static_exported_name _ _); [|apply grows_refl].
      destruct (Static_load _ _ _ _ _); [|apply grows_refl]. eapply grows_weaken; [|apply grows_static]. auto.
    - eapply struct_grows; [|exact Q]. auto.
    - unfold load_syn_union in Q. destruct (Union_load _ _ _ _ _ _) as [s|]; [|eapply opaque_grows; [|exact Q]; auto].
      inv Q. eapply grows_weaken; [|apply grows_union]. auto.
    - unfold load_syn_enum in Q. destruct (Enum_load _ _ _ _ _ _) as [s| |]; [|eapply opaque_grows; [|exact Q]; auto|discriminate].
      inv Q. eapply grows_weaken; [|apply grows_enum]. auto.
    - unfold load_syn_ty in Q. destruct (Typedef_load _ _ _ _ _) as [s|]; [|eapply opaque_grows; [|exact Q]; auto].
      inv Q. eapply grows_weaken; [|apply grows_typedef]. auto.
    - inv Q. unfold load_methods. destruct (bare_ident self_ty); [|apply grows_refl]. revert p.
      induction items as [|x r IH]; intros p; [apply grows_refl|]. cbn. eapply grows_trans; [|apply IH]. destruct x; try apply grows_refl.
      destruct (should_skip_parsing attrs0); [apply grows_refl|]. apply fn_kept.
    - eapply macro_kept. exact Q.
    - inv Q. apply grows_refl.
    - inv Q. apply grows_refl.
  Qed.
  Lemma all_kept : forall A (f : Parse -> A -> option Parse) l p q, (forall x p q, f p x = Some q -> kept p q) -> load_all f l p = Some q -> kept p q.
  Proof.
    intros A f. induction l as [|x r IH]; intros p q X Q; [inv Q; apply grows_refl|]. cbn in Q. destruct (f p x) as [p1|] eqn:E; [|discriminate].
    eapply grows_trans; [exact (X _ _ _ E)|]. exact (IH _ _ X Q).
  Qed.
  Lemma type_kept : forall k n p q, kept p q -> has_type k n p -> has_type k n q.
  Proof. intros k n p q K [A|A]; [left|right]; eapply has_mono; eassumption. Qed.
  Lemma items_present : forall items p q, all_keyed p -> load_all (load_item ld mod_cfg) items p = Some q ->
    all_keyed q /\ forall i k n, In i items -> should_skip_parsing (item_attrs i) = false -> defines_type i k n -> has_type k n q.
  Proof.
    induction items as [|i r IH]; intros p q K Q; [inv Q; split; [exact K|intros ? ? ? []]|]. cbn in Q.
    destruct (load_item ld mod_cfg p i) as [p1|] eqn:E; [|discriminate].
    assert (K1 : all_keyed p1).
    { destruct (should_skip_parsing (item_attrs i)) eqn:N; [|exact (proj1 (item_keyed ld mod_cfg i p p1 K N E))].
      unfold load_item in E. rewrite N in E. inv E. exact K. }
    destruct (IH _ _ K1 Q) as [K2 R]. split; [exact K2|]. intros j k n [<- |I] N D; [|exact (R j k n I N D)].
    eapply type_kept; [|exact (proj2 (item_keyed ld mod_cfg i p p1 K N E) k n D)].
    eapply all_kept; [|exact Q]. intros; eapply item_kept; eassumption.
  Qed.
  Lemma late_kept : forall (l : list (sty * list simpl_item)) p q,
    load_all (fun p x => load_syn_assoc_consts_from_impl mod_cfg (fst x) (snd x) p) l p = Some q -> all_keyed p -> all_keyed q /\ kept p q.
  Proof.
    induction l as [|x r IH]; intros p q Q K; [inv Q; split; [exact K|apply grows_refl]|]. cbn in Q.
    destruct (load_syn_assoc_consts_from_impl mod_cfg (fst x) (snd x) p) as [p1|] eqn:E; [|discriminate].
    destruct (IH _ _ Q (impl_keyed _ _ _ _ _ K E)) as [K2 R]. split; [exact K2|]. eapply grows_trans; [eapply impl_kept; exact E|exact R].
  Qed.
  Lemma module_present : forall items p q, all_keyed p -> load_syn_crate_mod ld mod_cfg items p = Some q ->
    (all_keyed q /\ kept p q) /\ forall i k n, In i items -> should_skip_parsing (item_attrs i) = false -> defines_type i k n -> has_type k n q.
  Proof.
    intros items p q K Q. unfold load_syn_crate_mod in Q. destruct (load_all (load_item ld mod_cfg) items p) as [p1|] eqn:E; [|discriminate].
    destruct (items_present _ _ _ K E) as [K1 R]. destruct (late_kept _ _ _ Q K1) as [K2 G]. split; [split; [exact K2|]|].
    - eapply grows_trans; [|exact G]. eapply all_kept; [|exact E]. intros; eapply item_kept; eassumption.
    - intros i k n I N D. eapply type_kept; [exact G|]. exact (R i k n I N D).
  Qed.
End Kept.
Lemma visits_present : forall (H : Heck) ld vs p q, all_keyed p -> load_visits ld vs p = Some q ->
  (all_keyed q /\ kept p q)
  /\ forall v i k n, In v vs -> In i (vi_items v) -> should_skip_parsing (item_attrs i) = false -> defines_type i k n -> has_type k n q.
Proof.
  intros H ld. induction vs as [|v r IH]; intros p q K Q.
  - inv Q. split; [split; [exact K|apply grows_refl]|intros ? ? ? ? []].
  - cbn in Q. destruct (load_syn_crate_mod ld (Cfg_join (vi_guards v)) (vi_items v) p) as [p1|] eqn:E; [|discriminate].
    destruct (module_present ld _ _ _ _ K E) as [[K1 G1] R1]. destruct (IH _ _ K1 Q) as [[K2 G2] R2].
    split; [split; [exact K2|eapply grows_trans; eassumption]|]. intros w i k n [<- |I] J N D; [|exact (R2 w i k n I J N D)].
    eapply type_kept; [exact G2|]. exact (R1 i k n J N D).
Qed.
