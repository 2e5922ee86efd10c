(** Proofs about monomorphisation: the steps it takes, and induction over them. *)
Require Import Coq.Strings.String Coq.Lists.List Coq.Bool.Bool Coq.Arith.Arith Coq.micromega.Lia.
From Verif Require Import Base P_Base M_Config M_Cfg M_Type M_Ir M_Item M_Library S_Item S_Library P_Type P_Item P_Table P_Deps P_Library.
Import ListNotations.
Open Scope list_scope.

(** Items stored in a collection of monomorphs. *)
Definition m_items (m : Monomorphs) : list ItemContainer :=
  map ICEnum (m_enums m) ++ map ICStruct (m_structs m) ++ map ICUnion (m_unions m) ++ map ICOpaque (m_opaques m) ++ map ICTypedef (m_typedefs m).
Definition push_item (x : ItemContainer) : Monomorphs -> Monomorphs :=
  match x with
  | ICOpaque o => push_opaque o | ICStruct s => push_struct s | ICUnion u => push_union u | ICEnum e => push_enum e | ICTypedef t => push_typedef t
  end.
Definition ic_monos (x : ItemContainer) : list GenericPath :=
  match x with
  | ICOpaque _ => [] | ICStruct s => Struct_monos s | ICUnion u => Union_monos u | ICEnum e => Enum_monos e | ICTypedef t => Typedef_monos t
  end.
Lemma push_items : forall x m y, In y (m_items (push_item x m)) <-> y = x \/ In y (m_items m).
Proof.
  intros x m y. destruct x; unfold m_items; cbn; rewrite ?map_app, !in_app_iff; cbn; intuition.
Qed.
Lemma push_repl : forall x m, m_replacements (push_item x m) = m_replacements m.
Proof. intros [] m; reflexivity. Qed.
Lemma record_items : forall g p m, m_items (record_replacement g p m) = m_items m.
Proof. reflexivity. Qed.

Lemma foldM_app : forall A B (f : A -> B -> outcome A) xs ys a, foldM f (xs ++ ys) a = (do b := foldM f xs a in foldM f ys b).
Proof. intros A B f xs. induction xs as [|x r IH]; intros ys a; [reflexivity|]. cbn. destruct (f a x); cbn; auto. Qed.
(** Invariants of a fold that finished. *)
Lemma foldM_inv : forall A B (f : A -> B -> outcome A) (Q : A -> Prop) xs a a',
  (forall a x a', In x xs -> Q a -> f a x = Done a' -> Q a') -> Q a -> foldM f xs a = Done a' -> Q a'.
Proof.
  intros A B f Q xs. induction xs as [|x r IH]; intros a a' Hf Ha E; cbn in E; [inversion E; subst; assumption|].
  destruct (f a x) as [b| |] eqn:Eb; try discriminate. cbn in E.
  eapply (IH b a'); [intros; eapply Hf; [right|..]; eassumption| |exact E]. eapply Hf; [left; reflexivity|exact Ha|exact Eb].
Qed.
Lemma foldM_rel : forall A B (f : A -> B -> outcome A) (R : A -> A -> Prop) xs a a', (forall a, R a a) -> (forall a b c, R a b -> R b c -> R a c) ->
  (forall a x a', In x xs -> f a x = Done a' -> R a a') -> foldM f xs a = Done a' -> R a a'.
Proof.
  intros A B f R xs a a' Hr Ht Hf E. eapply (foldM_inv _ _ f (R a) xs a a'); [|apply Hr|exact E]. intros b x b' Hx Hb Eb. eapply Ht; eauto.
Qed.
Lemma foldM_ext : forall A B (f g : A -> B -> outcome A) xs a, (forall a x, In x xs -> f a x = g a x) -> foldM f xs a = foldM g xs a.
Proof.
  intros A B f g xs. induction xs as [|x r IH]; intros a E; [reflexivity|]. cbn. rewrite (E a x (or_introl eq_refl)).
  destruct (g a x); cbn; auto. apply IH. intros. apply E. right. assumption.
Qed.

Section Steps.
  Context {H : Heck}.
  Variable l : Library.
  Let ex := export (l_config l).

  (** The monomorphs one instantiation of an item makes, in order, each with the
      path of the generic item it comes from; [None] where the arguments do not fit. *)
  Definition struct_piece (args : list GenericArgument) (s : Struct) : option (string * ItemContainer) :=
    match GenericParams_call (s_generic_params s) args with
    | Some ms => Some (s_path s, ICStruct (Struct_specialize args ms ex s))
    | None => None
    end.
  Definition pieces (args : list GenericArgument) (i : ItemContainer) : list (option (string * ItemContainer)) :=
    match i with
    | ICStruct s => [struct_piece args s]
    | ICUnion u => [match GenericParams_call (u_generic_params u) args with
                    | Some ms => Some (u_path u, ICUnion (Union_specialize args ms ex u)) | None => None end]
    | ICEnum e => match GenericParams_call (e_generic_params e) args with
                  | Some ms => filter_map (fun v => match v_body v with VBody _ s _ _ => Some (struct_piece args s) | VEmpty _ => None end) (e_variants e)
                               ++ [Some (e_path e, ICEnum (Enum_specialize args ms ex e))]
                  | None => [None]
                  end
    | ICTypedef t => [match GenericParams_call (t_generic_params t) args with
                      | Some ms => Some (t_path t, ICTypedef (Typedef_specialize args ms ex t)) | None => None end]
    | ICOpaque o => [match OpaqueItem_specialize args ex o with Some x => Some (o_path o, ICOpaque x) | None => None end]
    end.
  Definition insert_piece (add : Monomorphs -> GenericPath -> outcome Monomorphs) (args : list GenericArgument)
    (m : Monomorphs) (o : option (string * ItemContainer)) : outcome Monomorphs :=
    match o with
    | None => Panic
    | Some (p, x) => insert_monomorph add p args (ic_path x) (ic_monos x) (push_item x) m
    end.
  Lemma struct_steps : forall add args m s, instantiate_struct l add args m s = insert_piece add args m (struct_piece args s).
  Proof. intros. unfold instantiate_struct, struct_piece. fold ex. destruct (GenericParams_call _ _); reflexivity. Qed.
  Lemma item_steps : forall add args m i, instantiate_item l add args m i = foldM (insert_piece add args) (pieces args i) m.
  Proof.
    intros add args m i. assert (Hd : forall o : outcome Monomorphs, (do a := o in Done a) = o) by (intros [| |]; reflexivity).
    destruct i as [o|s|u|e|t]; unfold instantiate_item, pieces; fold ex.
    - cbn [foldM]. rewrite Hd. destruct (OpaqueItem_specialize args ex o); reflexivity.
    - cbn [foldM]. rewrite Hd. apply struct_steps.
    - cbn [foldM]. rewrite Hd. destruct (GenericParams_call _ _); reflexivity.
    - destruct (GenericParams_call (e_generic_params e) args) as [ms|]; [|reflexivity]. cbn [of_option]. rewrite foldM_app.
      match goal with |- (do m2 := ?a in _) = (do b := ?c in _) => assert (Eb : a = c) end.
      { revert m. induction (e_variants e) as [|v r IH]; intros m; [reflexivity|]. cbn. destruct (v_body v) as [a|n s i ic]; cbn; [apply IH|].
        rewrite struct_steps. destruct (insert_piece add args m (struct_piece args s)); cbn; auto. }
      rewrite Eb. clear Eb. match goal with |- (do m2 := ?a in _) = _ => destruct a as [m2| |] end; [|reflexivity|reflexivity]. cbn [foldM]. symmetry. apply Hd.
    - cbn [foldM]. rewrite Hd. destruct (GenericParams_call _ _); reflexivity.
  Qed.

  (** A path is settled once it has a replacement or is not the path of a known item. *)
  Definition settled (m : Monomorphs) (g : GenericPath) : Prop := m_contains g m = true \/ lib_get_items l (gp_path g) = None.
  (** What one call may do. *)
  Definition complete (m : Monomorphs) (e : GenericPath * string) : Prop :=
    exists x, In x (m_items m) /\ ic_path x = snd e.
  Record grows (m m' : Monomorphs) : Prop := {
    gr_repl : exists pre, m_replacements m' = pre ++ m_replacements m /\ Forall (complete m') pre;
    gr_items : incl (m_items m) (m_items m') }.
  Lemma complete_mono : forall m m' e, incl (m_items m) (m_items m') -> complete m e -> complete m' e.
  Proof. intros m m' e Hi (x & Hx & E). exists x. auto. Qed.
  Lemma grows_refl : forall m, grows m m.
  Proof. intros m. constructor; [exists []; split; [reflexivity|constructor]|apply incl_refl]. Qed.
  Lemma grows_trans : forall a b c, grows a b -> grows b c -> grows a c.
  Proof.
    intros a b c [(p & Ep & Fp) Ia] [(q & Eq & Fq) Ib]. constructor; [|eapply incl_tran; eassumption].
    exists (q ++ p). rewrite Eq, Ep, app_assoc. split; [reflexivity|]. apply Forall_app. split; [assumption|].
    eapply Forall_impl; [|exact Fp]. intros e. apply complete_mono. assumption.
  Qed.
  Lemma contains_mono : forall m m' g, grows m m' -> m_contains g m = true -> m_contains g m' = true.
  Proof.
    intros m m' g [(p & E & _) _]. unfold m_contains. rewrite E. clear E. generalize (m_replacements m) as r. intros r.
    induction p as [|[h q] p IH]; [auto|]. cbn. destruct (GenericPath_eqb g h); auto.
  Qed.
  Lemma settled_mono : forall m m' g, grows m m' -> settled m g -> settled m' g.
  Proof. intros m m' g Hg [Hs|Hs]; [left; eapply contains_mono; eassumption|right; assumption]. Qed.

  (** One piece: record, visit, store. *)
  Lemma piece_inv : forall add args m p x m', insert_piece add args m (Some (p, x)) = Done m' ->
    exists m2, foldM add (ic_monos x) (record_replacement (GenericPath_new p args) (ic_path x) m) = Done m2 /\ m' = push_item x m2.
  Proof.
    intros add args m p x m' E. cbn in E. unfold insert_monomorph in E. destruct (foldM add _ _) as [m2| |]; try discriminate.
    inversion E; subst. eauto.
  Qed.
  Lemma piece_grows : forall add args m o m', (forall m g m', add m g = Done m' -> grows m m') ->
    insert_piece add args m o = Done m' -> grows m m'.
  Proof.
    intros add args m [[p x]|] m' Ha E; [|discriminate]. apply piece_inv in E as (m2 & E & ->).
    apply (foldM_rel _ _ add grows) in E; [|apply grows_refl|apply grows_trans|intros; eapply Ha; eassumption].
    destruct E as [(pre & Er & Fp) Hi]. rewrite record_items in Hi. cbn in Er.
    assert (Hp : incl (m_items m2) (m_items (push_item x m2))) by (intros y Hy; apply push_items; auto).
    constructor; [|eapply incl_tran; eassumption]. rewrite push_repl, Er.
    exists (pre ++ [(GenericPath_new p args, ic_path x)]). rewrite <- app_assoc. split; [reflexivity|].
    apply Forall_app. split; [eapply Forall_impl; [|exact Fp]; intros e; apply complete_mono; assumption|].
    constructor; [|constructor]. exists x. split; [apply push_items; auto|reflexivity].
  Qed.
  Lemma add_grows : forall fuel m g m', add_mono l fuel m g = Done m' -> grows m m'.
  Proof.
    induction fuel as [|n IH]; intros m g m'; cbn [add_mono]; destruct (m_contains g m); try (inversion 1; subst; apply grows_refl);
      destruct (lib_get_items l (gp_path g)) as [items|]; try discriminate; try (inversion 1; subst; apply grows_refl).
    intros E. apply (foldM_rel _ _ _ grows) in E; [assumption|apply grows_refl|apply grows_trans|].
    intros a i a' _. rewrite item_steps. intros Ei. apply (foldM_rel _ _ _ grows) in Ei; [assumption|apply grows_refl|apply grows_trans|].
    intros b o b' _ Eo. eapply piece_grows; [|exact Eo]. exact IH.
  Qed.
End Steps.

(** Equality of generic paths is decided. *)
Lemma list_eqb_eq : forall A (f : A -> A -> bool) l, Forall (fun x => forall y, f x y = true <-> x = y) l -> forall l', list_eqb f l l' = true <-> l = l'.
Proof.
  intros A f l. induction 1 as [|x r Hx Hr IH]; intros [|y s]; cbn; try (split; [discriminate|inversion 1]); [tauto|].
  rewrite andb_true_iff, Hx, IH. split; [intros []; congruence|inversion 1; auto].
Qed.
Lemma option_eqb_eq : forall A (f : A -> A -> bool), (forall x y, f x y = true <-> x = y) -> forall a b, option_eqb f a b = true <-> a = b.
Proof. intros A f Hf [x|] [y|]; cbn; try (split; [discriminate|inversion 1]); [|tauto]. rewrite Hf. split; [congruence|inversion 1; auto]. Qed.
Lemma DeclarationType_eqb_eq : forall a b, DeclarationType_eqb a b = true <-> a = b.
Proof. intros [] []; cbn; split; try discriminate; auto. Qed.
Lemma IntKind_eqb_eq : forall a b, IntKind_eqb a b = true <-> a = b.
Proof. intros [] []; cbn; split; try discriminate; auto. Qed.
Lemma PrimitiveType_eqb_eq : forall a b, PrimitiveType_eqb a b = true <-> a = b.
Proof.
  intros [] []; cbn; try (split; [discriminate|inversion 1]); try tauto.
  rewrite !andb_true_iff, !Bool.eqb_true_iff, IntKind_eqb_eq. split; [intros [[] ?]; congruence|inversion 1; auto].
Qed.
Lemma Ty_eqb_all : (forall a b, Ty_eqb a b = true <-> a = b) /\ (forall a b, GenericPath_eqb a b = true <-> a = b)
  /\ (forall a b, GenericArgument_eqb a b = true <-> a = b) /\ (forall a b, ConstExpr_eqb a b = true <-> a = b).
Proof.
  apply Ty_mut_ind.
  - intros t c n r IH [t' c' n' r'| | | |]; cbn; try (split; [discriminate|inversion 1]).
    rewrite !andb_true_iff, !Bool.eqb_true_iff, IH. split; [intros [[[] ?] ?]; congruence|inversion 1; auto].
  - intros g IH [ |g'| | |]; cbn; try (split; [discriminate|inversion 1]). rewrite IH. split; [congruence|inversion 1; auto].
  - intros p [ | |p'| |]; cbn; try (split; [discriminate|inversion 1]). rewrite PrimitiveType_eqb_eq. split; [congruence|inversion 1; auto].
  - intros t e IH IHe [ | | |t' e'|]; cbn; try (split; [discriminate|inversion 1]). rewrite andb_true_iff, IH, IHe. split; [intros []; congruence|inversion 1; auto].
  - intros r args n nr IH IHa [ | | | |r' args' n' nr']; cbn; try (split; [discriminate|inversion 1]).
    rewrite !andb_true_iff, !Bool.eqb_true_iff, IH, list_eqb_eq.
    + split; [intros [[[] ?] ?]; congruence|inversion 1; auto].
    + eapply Forall_impl; [|exact IHa]. intros [a t] Ht [b u]. cbn in *. rewrite andb_true_iff, Ht, (option_eqb_eq _ _ String.eqb_eq).
      split; [intros []; congruence|inversion 1; auto].
  - intros p e gs c IH [p' e' gs' c']. cbn. rewrite !andb_true_iff, !String.eqb_eq, (list_eqb_eq _ _ _ IH), (option_eqb_eq _ _ DeclarationType_eqb_eq).
    split; [intros [[[] ?] ?]; congruence|inversion 1; auto].
  - intros t IH [t'|e']; cbn; try (split; [discriminate|inversion 1]). rewrite IH. split; [congruence|inversion 1; auto].
  - intros e IH [t'|e']; cbn; try (split; [discriminate|inversion 1]). rewrite IH. split; [congruence|inversion 1; auto].
  - intros g IH [g'|s']; cbn; try (split; [discriminate|inversion 1]). rewrite IH. split; [congruence|inversion 1; auto].
  - intros s [g'|s']; cbn; try (split; [discriminate|inversion 1]). rewrite String.eqb_eq. split; [congruence|inversion 1; auto].
Qed.
Lemma GenericPath_eqb_eq : forall a b, GenericPath_eqb a b = true <-> a = b.
Proof. apply Ty_eqb_all. Qed.
Lemma replacement_In : forall g p r, replacement g r = Some p -> In (g, p) r.
Proof.
  intros g p r. induction r as [|[h q] r IH]; cbn; [discriminate|]. destruct (GenericPath_eqb g h) eqn:E.
  - inversion 1; subst. apply GenericPath_eqb_eq in E. subst. auto.
  - auto.
Qed.
Lemma contains_In : forall g m, m_contains g m = true <-> In g (map fst (m_replacements m)).
Proof.
  intros g m. unfold m_contains. induction (m_replacements m) as [|[h q] r IH]; cbn; [split; [discriminate|intros []]|].
  destruct (GenericPath_eqb g h) eqn:E.
  - apply GenericPath_eqb_eq in E. subst. cbn. tauto.
  - rewrite IH. split; [tauto|]. intros [->|]; [|assumption]. rewrite (proj2 (GenericPath_eqb_eq g g) eq_refl) in E. discriminate.
Qed.

(** A path as types are parsed: nothing renamed, no keyword. *)
Definition proper (g : GenericPath) : Prop := gp_export_name g = gp_path g /\ gp_ctype g = None.
Lemma proper_new : forall g, proper g -> GenericPath_new (gp_path g) (gp_generics g) = g.
Proof. intros [p e gs c] [A B]. cbn in *. subst. reflexivity. Qed.

Section Induct.
  Context {H : Heck}.
  Variable l : Library.
  Variable G : GenericPath -> Prop.
  Variable Q : Monomorphs -> Prop.
  Hypothesis items_ok : forall p items, lib_get_items l p = Some items -> items <> [] /\ Forall (fun i => ic_path i = p) items.
  Hypothesis G_proper : forall g, G g -> proper g.
  Hypothesis G_step : forall g items i p x, G g -> lib_get_items l (gp_path g) = Some items -> In i items ->
    In (Some (p, x)) (pieces l (gp_generics g) i) -> forall h, In h (ic_monos x) -> G h.
  Hypothesis Q_record : forall g items i p x m, G g -> lib_get_items l (gp_path g) = Some items -> In i items ->
    In (Some (p, x)) (pieces l (gp_generics g) i) -> Q m -> Q (record_replacement (GenericPath_new p (gp_generics g)) (ic_path x) m).
  Hypothesis Q_push : forall g items i p x m, G g -> lib_get_items l (gp_path g) = Some items -> In i items ->
    In (Some (p, x)) (pieces l (gp_generics g) i) -> Q m -> Forall (settled l m) (ic_monos x) ->
    In (GenericPath_new p (gp_generics g), ic_path x) (m_replacements m) -> Q (push_item x m).

  Lemma fold_settles : forall add, (forall m g m', add m g = Done m' -> grows m m') ->
    (forall m g m', G g -> add m g = Done m' -> settled l m' g) ->
    forall gs m m', Forall G gs -> foldM add gs m = Done m' -> Forall (settled l m') gs.
  Proof.
    intros add Hgr Hs gs. induction gs as [|g r IH]; intros m m' Hg E; [constructor|]. inversion Hg; subst. cbn in E.
    destruct (add m g) as [b| |] eqn:Eb; try discriminate. constructor; [|eapply IH; eassumption].
    eapply settled_mono; [|eapply Hs; eassumption]. eapply (foldM_rel _ _ add grows); [apply grows_refl|apply grows_trans| |exact E].
    intros. eapply Hgr. eassumption.
  Qed.
  Lemma main_piece : forall args i m m' add, foldM (insert_piece add args) (pieces l args i) m = Done m' ->
    exists x, In (Some (ic_path i, x)) (pieces l args i).
  Proof.
    intros args i m m' add. destruct i as [o|s|u|e|t]; cbn [pieces ic_path].
    - destruct (OpaqueItem_specialize _ _ _); [|discriminate]. intros _. eexists. left. reflexivity.
    - unfold struct_piece. destruct (GenericParams_call _ _); [|discriminate]. intros _. eexists. left. reflexivity.
    - destruct (GenericParams_call _ _); [|discriminate]. intros _. eexists. left. reflexivity.
    - destruct (GenericParams_call _ _); [|discriminate]. intros _. eexists. apply in_app_iff. right. left. reflexivity.
    - destruct (GenericParams_call _ _); [|discriminate]. intros _. eexists. left. reflexivity.
  Qed.
  (** Every piece of a finished fold is recorded. *)
  Lemma pieces_recorded : forall add args ps m m', (forall m g m', add m g = Done m' -> grows m m') ->
    foldM (insert_piece add args) ps m = Done m' -> forall p x, In (Some (p, x)) ps ->
    In (GenericPath_new p args, ic_path x) (m_replacements m').
  Proof.
    intros add args ps m m' Hgr. revert m. induction ps as [|o r IH]; intros m E p x Hx; [destruct Hx|]. cbn in E.
    destruct (insert_piece add args m o) as [b| |] eqn:Eb; try discriminate. destruct Hx as [->|Hx]; [|eapply IH; eassumption].
    apply piece_inv in Eb as (m2 & E2 & ->).
    assert (G2 : grows (record_replacement (GenericPath_new p args) (ic_path x) m) m2).
    { eapply (foldM_rel _ _ add grows); [apply grows_refl|apply grows_trans| |exact E2]. intros. eapply Hgr. eassumption. }
    assert (G3 : grows (push_item x m2) m').
    { eapply (foldM_rel _ _ _ grows); [apply grows_refl|apply grows_trans| |exact E]. intros. eapply piece_grows; [|eassumption]. exact Hgr. }
    destruct G2 as [(pre & R2 & _) _], G3 as [(pre' & R3 & _) _]. rewrite push_repl in R3. cbn in R2. rewrite R3, R2, !in_app_iff. cbn. tauto.
  Qed.

  Lemma add_inv : forall fuel m g m', G g -> add_mono l fuel m g = Done m' -> settled l m' g /\ (Q m -> Q m').
  Proof.
    induction fuel as [|n IH]; intros m g m' Hg; cbn [add_mono]; destruct (m_contains g m) eqn:Ec;
      try (inversion 1; subst; split; [left; assumption|auto]);
      destruct (lib_get_items l (gp_path g)) as [items|] eqn:El; try discriminate; try (inversion 1; subst; split; [right; assumption|auto]).
    intros E. assert (Hgr : forall m g m', add_mono l n m g = Done m' -> grows m m') by (intros; eapply add_grows; eassumption).
    assert (Hset : forall m g m', G g -> add_mono l n m g = Done m' -> settled l m' g) by (intros; eapply IH; eassumption).
    destruct (items_ok _ _ El) as [Hne Hp]. split.
    - left. destruct items as [|i r]; [congruence|]. inversion Hp as [|? ? Hi _]; subst. cbn in E.
      destruct (instantiate_item l _ _ m i) as [b| |] eqn:Eb; try discriminate. rewrite item_steps in Eb.
      destruct (main_piece _ _ _ _ _ Eb) as (x & Hx).
      assert (Hb : m_contains g b = true).
      { apply contains_In. apply in_map_iff. eexists (_, _). split; [|eapply (pieces_recorded _ _ _ _ _ Hgr Eb _ _ Hx)].
        cbn. rewrite Hi. apply proper_new. auto. }
      eapply contains_mono; [|exact Hb]. eapply (foldM_rel _ _ _ grows); [apply grows_refl|apply grows_trans| |exact E].
      intros a j a' _ Ej. rewrite item_steps in Ej. eapply (foldM_rel _ _ _ grows); [apply grows_refl|apply grows_trans| |exact Ej].
      intros. eapply piece_grows; [|eassumption]. exact Hgr.
    - intros Hq. eapply (foldM_inv _ _ _ Q); [|exact Hq|exact E]. intros a i a' Hi Ha Ei. rewrite item_steps in Ei.
      eapply (foldM_inv _ _ _ Q); [|exact Ha|exact Ei]. intros b o b' Ho Hb Eo. destruct o as [[p x]|]; [|discriminate].
      apply piece_inv in Eo as (m2 & E2 & ->).
      assert (Hmon : Forall G (ic_monos x)) by (apply Forall_forall; intros h Hh; eapply G_step; eassumption).
      eapply Q_push; try eassumption.
      + eapply (foldM_inv _ _ _ Q); [| |exact E2]; [|eapply Q_record; eassumption].
        intros c h c' Hh Hc Ec'. rewrite Forall_forall in Hmon. apply (IH c h c' (Hmon _ Hh) Ec'). assumption.
      + eapply fold_settles; eassumption.
      + eapply (foldM_rel _ _ _ grows) in E2; [|apply grows_refl|apply grows_trans|intros; eapply Hgr; eassumption].
        destruct E2 as [(pre & -> & _) _]. apply in_app_iff. right. left. reflexivity.
  Qed.
  Lemma adds_inv : forall fuel gs m m', Forall G gs -> foldM (add_mono l fuel) gs m = Done m' -> Forall (settled l m') gs /\ (Q m -> Q m').
  Proof.
    intros fuel gs m m' Hg E. split.
    - eapply fold_settles; [| |exact Hg|exact E]; [intros; eapply add_grows; eassumption|]. intros. eapply add_inv; eassumption.
    - intros Hq. eapply (foldM_inv _ _ _ Q); [|exact Hq|exact E]. intros a g a' Hi Ha Ea. rewrite Forall_forall in Hg.
      apply (add_inv _ _ _ _ (Hg _ Hi) Ea). assumption.
  Qed.
End Induct.
