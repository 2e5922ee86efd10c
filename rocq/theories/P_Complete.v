(** C52: no constant and no static of the sources is lost. *)
Require Import Coq.Strings.String Coq.Lists.List Coq.Bool.Bool Coq.Arith.Arith Coq.Sorting.Permutation.
From Verif Require Import Base P_Base M_Config M_Cfg S_Cfg P_Cfg M_Type M_Ir M_Item S_Decl M_Attr M_Library M_Bindings M_Syn M_Loader M_Parser S_Item S_Sort S_Library S_Names S_Mono
  S_Parse P_Sort P_Item P_Table P_Library P_Stages P_Names P_NamesLib S_Signature P_SigLib P_ItemPasses P_Exports P_Modules P_Entries P_Crates S_Sources P_Sources P_Fresh P_Made S_Datatypes P_Datatypes
  S_Constants P_ConstMade P_Constants S_Complete.
Import ListNotations.
Open Scope string_scope.

(** ** What can be loaded *)
Lemma length_loads : forall e, plain_length e = true -> exists x, ConstExpr_load e = Some x.
Proof.
  fix IH 1. intros [ |l| | | | |[bf i a]| |x t| | | ] Q; cbn in Q; try discriminate.
  - destruct l; try discriminate; eexists; reflexivity.
  - destruct a; try discriminate. cbn [ConstExpr_load GenericPath_load]. destruct (String.eqb (unraw i) "PhantomData"); eexists; reflexivity.
  - destruct (IH x Q) as (y & E). exists y. exact E.
Qed.
Lemma type_loads : forall t, plain_type t = true -> exists x, Type_load t = Some (Some x).
Proof.
  fix IH 1. intros [m u|m u|[bf i a]|u e| | | | | ] Q; cbn [plain_type] in Q; try discriminate.
  - destruct (IH u Q) as (x & E). cbn [Type_load]. rewrite E. eexists; reflexivity.
  - destruct (IH u Q) as (x & E). cbn [Type_load]. rewrite E. eexists; reflexivity.
  - destruct a; try discriminate. apply andb_true_iff in Q as [A B]. apply negb_true_iff in A, B. cbn [Type_load GenericPath_load]. rewrite A.
    cbn [gp_path GenericPath_new gp_generics is_nil]. rewrite A, B. cbn [orb]. destruct (PrimitiveType_maybe (unraw i)); eexists; reflexivity.
  - apply andb_true_iff in Q as [A B]. destruct (IH u A) as (x & E). destruct (length_loads e B) as (n & N). cbn [Type_load]. rewrite E, N. eexists; reflexivity.
Qed.
Lemma value_loads : forall e, plain_value e = true -> exists x, Literal_load e = Some x.
Proof.
  fix IH 1.
  assert (ALL : forall xs, forallb plain_value xs = true -> exists ys, map_opt Literal_load xs = Some ys).
  { fix go 1. intros [|x r] Q; [exists []; reflexivity|]. cbn [forallb] in Q. apply andb_true_iff in Q as [A B].
    destruct (IH x A) as (y & E). destruct (go r B) as (ys & F). exists (y :: ys). cbn [map_opt]. rewrite E, F. reflexivity. }
  intros [op a b|l|b m|f args|p fields rest|op x|p|x|x t|xs| | ] Q; cbn [plain_value] in Q; try discriminate.
  - apply andb_true_iff in Q as [A B]. destruct (IH a A) as (x & E). destruct (IH b B) as (y & F). cbn [Literal_load]. rewrite E, F. eexists; reflexivity.
  - destruct l; try discriminate; eexists; reflexivity.
  - destruct (IH b Q) as (x & E). cbn [Literal_load]. rewrite E. eexists; reflexivity.
  - destruct f as [ | | | | | |[[|] i a]| | | | | ]; try discriminate. destruct (ALL args Q) as (ys & F). cbn [Literal_load]. rewrite F. eexists; reflexivity.
  - destruct p as [bf i a]. cbn [Literal_load].
    match goal with |- context [map_opt ?f fields] => assert (G : exists ys, map_opt f fields = Some ys) end.
    { clear rest. revert fields Q. fix go 1. intros [|[[at_ m] x] r] Q; [exists []; reflexivity|]. cbn [forallb snd] in Q. apply andb_true_iff in Q as [A B].
      destruct (IH x A) as (y & E). destruct (go r B) as (ys & F). eexists. cbn [map_opt]. rewrite E, F. reflexivity. }
    destruct G as (ys & G). rewrite G. eexists; reflexivity.
  - destruct op; try discriminate; destruct (IH x Q) as (y & E); cbn [Literal_load]; rewrite E; eexists; reflexivity.
  - destruct p as [[|b [|b' r]] i a]; cbn in Q; try discriminate; eexists; reflexivity.
  - destruct (IH x Q) as (y & E). exists y. exact E.
  - apply andb_true_iff in Q as [A B]. destruct (IH x A) as (y & E). destruct (type_loads t B) as (u & F). cbn [Literal_load]. rewrite E, F. eexists; reflexivity.
  - destruct (ALL xs Q) as (ys & F). cbn [Literal_load]. rewrite F. eexists; reflexivity.
Qed.
Lemma constant_loads : forall k attrs ident ty value, plain_type ty = true -> plain_value value = true -> AnnotationSet_load attrs <> None ->
  exists x, Constant_load (unraw ident) k ty value attrs None = Some (Some x).
Proof.
  intros k attrs ident ty value T V A. destruct (type_loads ty T) as (t & E). destruct (value_loads value V) as (l & F).
  unfold Constant_load. rewrite E, F. destruct (AnnotationSet_load attrs); [|exfalso; apply A; reflexivity]. eexists. reflexivity.
Qed.
Lemma static_loads : forall k attrs name mutable ty, plain_type ty = true -> AnnotationSet_load attrs <> None ->
  exists x, Static_load name attrs mutable ty k = Some x.
Proof.
  intros k attrs name mutable ty T A. destruct (type_loads ty T) as (t & E). unfold Static_load. rewrite E.
  destruct (AnnotationSet_load attrs); [|exfalso; apply A; reflexivity]. eexists. reflexivity.
Qed.

(** ** Tables *)
Section Maps.
  Context {T : Type} {It : Item T}.
  Implicit Types (m : ItemMap T).
  Lemma reachable_nil : reachable (T := T) [].
  Proof. exists []. split; [constructor|reflexivity]. Qed.
  Lemma run_ops_app : forall a b m, fst (run_ops m (a ++ b)) = fst (run_ops (fst (run_ops m a)) b).
  Proof.
    induction a as [|o a IH]; intros b m; [reflexivity|]. cbn [app run_ops]. destruct (run_op m o) as [m1 x]. specialize (IH b m1).
    destruct (run_ops m1 (a ++ b)) as [m2 y]. destruct (run_ops m1 a) as [m3 z]. cbn [fst] in *. exact IH.
  Qed.
  Lemma reachable_insert : forall x m, reachable m -> reachable (fst (try_insert x m)).
  Proof.
    intros x m (ops & L & ->). exists (ops ++ [Insert x])%list. split; [apply Forall_app; split; [exact L|repeat constructor]|].
    rewrite run_ops_app. cbn [run_ops run_op]. destruct (try_insert x _). reflexivity.
  Qed.
  (** [y] is in the table, or another of that name that cannot stand beside it *)
  Definition covered (y : T) m : Prop := In y (to_vec m) \/ exists x, In x (to_vec m) /\ clash y x = true.
  Lemma insert_covers : forall y m, reachable m -> covered y (fst (try_insert y m)).
  Proof.
    intros y m R. destruct (reachable_rel m R) as (t & Rt). destruct (insert_rel m t y Rt) as [Rt' _].
    cbn [step] in Rt'. destruct (existsb (clash y) (accepted t)) eqn:E; cbn [fst] in Rt'.
    - right. apply existsb_exists in E as (x & Ix & C). exists x. split; [|exact C]. apply (rel_all_accepted _ _ _ Rt'). exact Ix.
    - left. apply (rel_all_accepted _ _ _ Rt'). cbn [accepted]. apply in_or_app. right. left. reflexivity.
  Qed.
  Lemma covered_grows : forall y m m', (forall x, In x (to_vec m) -> In x (to_vec m')) -> covered y m -> covered y m'.
  Proof. intros y m m' G [I|(x & I & C)]; [left; auto|right; exists x; auto]. Qed.
  Lemma extend_reachable : forall a m, reachable m -> reachable (extend_with a m).
  Proof.
    intros a m. unfold extend_with. revert m. induction (to_vec a) as [|x l IH]; intros m R; [exact R|]. cbn [fold_left]. apply IH. apply reachable_insert. exact R.
  Qed.
  Lemma extend_covers : forall y a m, reachable m -> In y (to_vec a) -> covered y (extend_with a m).
  Proof.
    intros y a m. unfold extend_with. revert m. induction (to_vec a) as [|x l IH]; intros m R I; [destruct I|]. cbn [fold_left].
    destruct I as [->|I]; [|apply IH; [apply reachable_insert; exact R|exact I]].
    assert (G : forall l m x, In x (to_vec m) -> In x (to_vec (fold_left (fun a x => fst (try_insert x a)) l m))).
    { clear. induction l as [|z l IH]; intros m x I; [exact I|]. cbn [fold_left]. apply IH. apply insert_keeps. exact I. }
    eapply covered_grows; [apply G|]. apply insert_covers. exact R.
  Qed.
  Lemma covered_path : forall y m, covered y m -> exists x, In x (to_vec m) /\ i_path x = i_path y.
  Proof.
    intros y m [I|(x & I & C)]; [exists y; auto|]. exists x. split; [exact I|]. unfold clash in C. apply andb_true_iff in C as [C _].
    apply String.eqb_eq in C. symmetry. exact C.
  Qed.
  Lemma covered_guarded : forall y m, covered y m -> guarded y = true -> (forall x, In x (to_vec m) -> i_path x = i_path y -> guarded x = true) -> In y (to_vec m).
  Proof.
    intros y m [I|(x & I & C)] G A; [exact I|]. exfalso. unfold clash in C. apply andb_true_iff in C as [C D]. apply String.eqb_eq in C.
    rewrite G, (A x I (eq_sym C)) in D. discriminate.
  Qed.
End Maps.

(** ** What is loaded stays *)
Inductive fed : Parse -> Parse -> Prop :=
| fed_same : forall p q, pr_constants q = pr_constants p -> pr_globals q = pr_globals p -> fed p q
| fed_constant : forall x p q, pr_constants q = fst (try_insert x (pr_constants p)) -> pr_globals q = pr_globals p -> fed p q
| fed_static : forall x p q, pr_constants q = pr_constants p -> pr_globals q = fst (try_insert x (pr_globals p)) -> fed p q
| fed_trans : forall p q r, fed p q -> fed q r -> fed p r.
Lemma fed_refl : forall p, fed p p.
Proof. intro p. apply fed_same; reflexivity. Qed.
Definition built (p : Parse) : Prop := reachable (pr_constants p) /\ reachable (pr_globals p).
Definition holds_more (p q : Parse) : Prop :=
  (forall x, In x (to_vec (pr_constants p)) -> In x (to_vec (pr_constants q))) /\ (forall x, In x (to_vec (pr_globals p)) -> In x (to_vec (pr_globals q))).
Lemma fed_built : forall p q, fed p q -> built p -> built q.
Proof.
  intros p q F. induction F as [p q A B|x p q A B|x p q A B|p q r F IF G IG]; intros [R1 R2]; unfold built; rewrite ?A, ?B; auto.
  - split; [apply reachable_insert; exact R1|exact R2].
  - split; [exact R1|apply reachable_insert; exact R2].
  - apply IG. apply IF. split; assumption.
Qed.
Lemma fed_more : forall p q, fed p q -> holds_more p q.
Proof.
  intros p q F. induction F as [p q A B|x p q A B|x p q A B|p q r F [I1 I2] G [J1 J2]]; split; rewrite ?A, ?B; auto; intros; apply insert_keeps; assumption.
Qed.
Section Feeding.
  Context {H : Heck}.
  Variables (ld : loading) (k : option Cfg).
  Lemma all_fed : forall A (f : Parse -> A -> option Parse) l p q, (forall x p q, f p x = Some q -> fed p q) -> load_all f l p = Some q -> fed p q.
  Proof.
    intros A f. induction l as [|x r IH]; intros p q X Q; cbn in Q; [injection Q as <-; apply fed_refl|]. destruct (f p x) as [p1|] eqn:E; [|discriminate].
    eapply fed_trans; [exact (X _ _ _ E)|exact (IH _ _ X Q)].
  Qed.
  Lemma opaque_fed : forall i g a p q, load_opaque i g a k p = Some q -> fed p q.
  Proof. intros i g a p q Q. unfold load_opaque in Q. destruct (OpaqueItem_load _ _ _ _); [|discriminate]. injection Q as <-. apply fed_same; reflexivity. Qed.
  Lemma struct_fed : forall a i g f p q, load_syn_struct ld k a i g f p = Some q -> fed p q.
  Proof.
    intros a i g f p q Q. unfold load_syn_struct in Q. destruct (Struct_load _ _ _ _ _ _); [|eapply opaque_fed; exact Q]. injection Q as <-. apply fed_same; reflexivity.
  Qed.
  Lemma assoc_fed : forall path items p q, load_assoc_consts k path items p = Some q -> fed p q.
  Proof.
    intros path. induction items as [|x r IH]; intros p q Q; cbn in Q; [injection Q as <-; apply fed_refl|].
    destruct x as [attrs pub i t v| |]; try exact (IH _ _ Q).
    destruct (should_skip_parsing attrs); [exact (IH _ _ Q)|]. destruct pub; cbn in Q; [|injection Q as <-; apply fed_refl].
    destruct (Constant_load _ _ _ _ _ _) as [[c|]|]; [|discriminate|exact (IH _ _ Q)].
    eapply fed_trans; [|exact (IH _ _ Q)]. destruct (get_items path (pr_structs p)) as [[|y l]|]; try (eapply fed_constant; reflexivity). apply fed_same; reflexivity.
  Qed.
  Lemma impl_fed : forall t items p q, load_syn_assoc_consts_from_impl k t items p = Some q -> fed p q.
  Proof.
    intros t items p q Q. unfold load_syn_assoc_consts_from_impl in Q. destruct (Type_load t) as [[ty|]|]; try (injection Q as <-; apply fed_refl).
    destruct (get_root_path ty); [|injection Q as <-; apply fed_refl]. exact (assoc_fed _ _ _ _ Q).
  Qed.
  Lemma fn_fed : forall self sig attrs p, fed p (load_fn_declaration ld k self sig attrs p).
  Proof.
    intros. unfold load_fn_declaration. destruct (negb _); [apply fed_refl|]. destruct (_ || _); [|apply fed_refl].
    destruct (fn_exported_name _ _); [|apply fed_refl]. destruct (Function_load _ _ _ _ _ _); apply fed_same; reflexivity.
  Qed.
  Lemma item_fed : forall i p q, load_item ld k p i = Some q -> fed p q.
  Proof.
    intros i p q Q. unfold load_item in Q. destruct (should_skip_parsing _); [injection Q as <-; apply fed_refl|]. destruct i.
    - injection Q as <-. unfold load_syn_foreign_mod. destruct (_ && _); [apply fed_refl|].
      generalize (Cfg_append k (Cfg_of_attrs attrs)). intro cfg. revert p.
      induction items as [|[[a s]|] r IH]; intro p; [apply fed_refl| |exact (IH p)]. cbn. destruct (negb _); [apply fed_refl|].
      eapply fed_trans; [|apply IH]. destruct (Function_load _ _ _ _ _ _); apply fed_same; reflexivity.
    - injection Q as <-. apply fn_fed.
    - unfold load_syn_const in Q. destruct (negb _); [injection Q as <-; apply fed_refl|]. destruct (negb _); [injection Q as <-; apply fed_refl|].
      destruct (Constant_load _ _ _ _ _ _) as [[c|]|]; [|discriminate|injection Q as <-; apply fed_refl]. injection Q as <-. eapply fed_constant; reflexivity.
    - injection Q as <-. unfold load_syn_static. destruct (negb _); [apply fed_refl|]. destruct (static_exported_name _ _); [|apply fed_refl].
      destruct (Static_load _ _ _ _ _); [|apply fed_refl]. eapply fed_static; reflexivity.
    - eapply struct_fed. exact Q.
    - unfold load_syn_union in Q. destruct (Union_load _ _ _ _ _ _); [|eapply opaque_fed; exact Q]. injection Q as <-. apply fed_same; reflexivity.
    - unfold load_syn_enum in Q. destruct (Enum_load _ _ _ _ _ _); [|eapply opaque_fed; exact Q|discriminate]. injection Q as <-. apply fed_same; reflexivity.
    - unfold load_syn_ty in Q. destruct (Typedef_load _ _ _ _ _); [|eapply opaque_fed; exact Q]. injection Q as <-. apply fed_same; reflexivity.
    - injection Q as <-. unfold load_methods. destruct (bare_ident self_ty); [|apply fed_refl]. revert p.
      induction items as [|x r IH]; intro p; [apply fed_refl|]. cbn. eapply fed_trans; [|apply IH]. destruct x; try apply fed_refl.
      destruct (should_skip_parsing attrs0); [apply fed_refl|]. apply fn_fed.
    - unfold load_builtin_macro in Q. destruct (_ || _); [injection Q as <-; apply fed_refl|]. destruct flags as [b|]; [|injection Q as <-; apply fed_refl].
      destruct (expand b _) as [str consts]. destruct (match str with Some (a, f) => _ | None => _ end) as [p1|] eqn:E; [|discriminate].
      eapply fed_trans; [|eapply impl_fed; exact Q]. eapply (fed_trans _ p1); [|apply fed_same; reflexivity].
      destruct str as [[a f]|]; [eapply struct_fed; exact E|injection E as <-; apply fed_refl].
    - injection Q as <-. apply fed_refl.
    - injection Q as <-. apply fed_refl.
  Qed.
  Lemma module_fed : forall items p q, load_syn_crate_mod ld k items p = Some q -> fed p q.
  Proof.
    intros items p q Q. unfold load_syn_crate_mod in Q. destruct (load_all (load_item ld k) items p) as [p1|] eqn:E; [|discriminate].
    eapply fed_trans; [eapply all_fed; [|exact E]; intros; eapply item_fed; eassumption|]. eapply all_fed; [|exact Q]. intros x a b. apply impl_fed.
  Qed.
  (** What the constants and statics of a module become *)
  Definition const_made (i : sitem) (y : Constant) : Prop :=
    exists attrs ident ty value, i = ItemConst attrs true ident ty value /\ Constant_load (unraw ident) k ty value attrs None = Some (Some y).
  Definition static_made_ (i : sitem) (y : Static) : Prop :=
    exists attrs ident mutable ty n, i = ItemStatic attrs ident mutable ty /\ static_exported_name attrs (unraw ident) = Some n /\ Static_load n attrs mutable ty k = Some y.
  Lemma module_covers : forall items p q, top_level ld = true -> built p -> load_syn_crate_mod ld k items p = Some q ->
    forall i, In i items -> should_skip_parsing (item_attrs i) = false ->
    (forall y, const_made i y -> covered y (pr_constants q)) /\ (forall y, static_made_ i y -> covered y (pr_globals q)).
  Proof.
    intros items p q TL B Q i I SK. unfold load_syn_crate_mod in Q. destruct (load_all (load_item ld k) items p) as [p1|] eqn:E; [|discriminate].
    assert (F : fed p1 q). { eapply all_fed; [|exact Q]. intros x a b. apply impl_fed. }
    enough (C : (forall y, const_made i y -> covered y (pr_constants p1)) /\ (forall y, static_made_ i y -> covered y (pr_globals p1))).
    { destruct C as [C1 C2]. apply fed_more in F as [F1 F2]. split; intros y M; (eapply covered_grows; [eassumption|auto]). }
    clear F Q q. revert p p1 B E I. induction items as [|j r IH]; intros p p1 B E I; [destruct I|]. cbn in E.
    destruct (load_item ld k p j) as [p2|] eqn:L; [|discriminate]. destruct I as [->|I]; [|exact (IH _ _ (fed_built _ _ (item_fed _ _ _ L) B) E I)].
    assert (F : fed p2 p1). { eapply all_fed; [|exact E]. intros; eapply item_fed; eassumption. } apply fed_more in F as [F1 F2].
    unfold load_item in L. rewrite SK in L. split; intros y M.
    - destruct M as (attrs & ident & ty & value & -> & M). unfold load_syn_const in L. rewrite TL, M in L. cbn [negb] in L. injection L as <-.
      eapply covered_grows; [exact F1|]. cbn [with_constants pr_constants]. apply insert_covers. exact (proj1 B).
    - destruct M as (attrs & ident & mutable & ty & n & -> & N & M). unfold load_syn_static in L. rewrite TL, N, M in L. cbn [negb] in L. injection L as <-.
      eapply covered_grows; [exact F2|]. cbn [with_globals pr_globals]. apply insert_covers. exact (proj2 B).
  Qed.
End Feeding.
Lemma visits_fed : forall (H : Heck) ld vs p q, load_visits ld vs p = Some q -> fed p q.
Proof. intros H ld vs p q. apply all_fed. intros v p1 p2. apply module_fed. Qed.
Lemma crates_fed : forall (H : Heck) cargo c bf rs p q, load_crates cargo c bf rs p = Some q -> fed p q.
Proof. intros H cargo c bf rs p q. apply all_fed. intros r p1 p2. apply visits_fed. Qed.
Definition covers_module (v : visit) (q : Parse) : Prop := forall i, In i (vi_items v) -> should_skip_parsing (item_attrs i) = false ->
  (forall y, const_made (Cfg_join (vi_guards v)) i y -> covered y (pr_constants q)) /\ (forall y, static_made_ (Cfg_join (vi_guards v)) i y -> covered y (pr_globals q)).
Lemma covers_more : forall v p q, holds_more p q -> covers_module v p -> covers_module v q.
Proof.
  intros v p q [M1 M2] C i I SK. destruct (C i I SK) as [C1 C2]. split; intros y M; (eapply covered_grows; [eassumption|auto]).
Qed.
Lemma visits_cover : forall (H : Heck) ld vs p q, top_level ld = true -> built p -> load_visits ld vs p = Some q -> forall v, In v vs -> covers_module v q.
Proof.
  intros H ld vs. induction vs as [|w r IH]; intros p q TL B Q v I; [destruct I|]. cbn in Q.
  destruct (load_syn_crate_mod ld (Cfg_join (vi_guards w)) (vi_items w) p) as [p1|] eqn:E; [|discriminate].
  destruct I as [->|I]; [|exact (IH _ _ TL (fed_built _ _ (module_fed _ _ _ _ _ E) B) Q v I)].
  eapply covers_more; [apply fed_more; exact (visits_fed H _ _ _ _ Q)|]. intros i J SK. exact (module_covers ld _ _ _ _ TL B E i J SK).
Qed.
Lemma crates_cover : forall (H : Heck) cargo c bf rs p q, built p -> load_crates cargo c bf rs p = Some q ->
  forall r v, In r rs -> has_bindings cargo (parse c) (rd_name r) -> In v (rd_visits r) -> covers_module v q.
Proof.
  intros H cargo c bf rs. induction rs as [|s rs IH]; intros p q B Q r v I HB J; [destruct I|]. unfold load_crates in Q. cbn [load_all] in Q.
  destruct (load_visits (loading_of cargo c bf (rd_name s)) (rd_visits s) p) as [p1|] eqn:E; [|discriminate].
  destruct I as [->|I]; [|exact (IH _ _ (fed_built _ _ (visits_fed H _ _ _ _ E) B) Q r v I HB J)].
  eapply covers_more; [apply fed_more; exact (crates_fed H _ _ _ _ _ _ Q)|].
  eapply visits_cover; [|exact B|exact E|exact J]. apply top_level_iff. exact HB.
Qed.

(** ** The parts of a run *)
Lemma built_new : built Parse_new.
Proof. split; apply reachable_nil. Qed.
Lemma merged_built : forall ps p, built p -> built (merged ps p).
Proof.
  induction ps as [|q ps IH]; intros p B; [exact B|]. apply IH. destruct B as [B1 B2]. split; cbn [Parse_extend_with pr_constants pr_globals]; apply extend_reachable; assumption.
Qed.
Lemma merged_more : forall ps p, holds_more p (merged ps p).
Proof.
  induction ps as [|q ps IH]; intro p; [split; auto|]. destruct (IH (Parse_extend_with q p)) as [I1 I2]. split; intros x I; [apply I1|apply I2]; cbn [Parse_extend_with pr_constants pr_globals]; apply extend_keeps; exact I.
Qed.
Lemma merged_covers : forall ps p q, built p -> In q ps ->
  (forall y, In y (to_vec (pr_constants q)) -> covered y (pr_constants (merged ps p))) /\ (forall y, In y (to_vec (pr_globals q)) -> covered y (pr_globals (merged ps p))).
Proof.
  induction ps as [|r ps IH]; intros p q B I; [destruct I|].
  assert (B' : built (Parse_extend_with r p)) by exact (merged_built [r] p B).
  destruct I as [->|I]; [|exact (IH _ _ B' I)]. destruct (merged_more ps (Parse_extend_with q p)) as [M1 M2].
  split; intros y Y; (eapply covered_grows; [eassumption|]); cbn [Parse_extend_with pr_constants pr_globals]; apply extend_covers; try assumption; apply B.
Qed.

Section Parts.
  Context {H : Heck}.
  Variables (d : disk) (c : Config) (bitflags : bool) (srcs : list cpath) (lib : option Cargo) (vss : list (list visit)) (rs : list reading) (ps qs : list Parse).
  Hypotheses (R : sources_read d (parse c) srcs lib vss rs)
             (B : Forall2 (fun fv p => load_visits (src_loading c bitflags (fst fv)) (snd fv) Parse_new = Some p) (combine srcs vss) ps)
             (L : lib_parts c bitflags lib rs qs).
  Lemma part_of_file : forall q, In q ps -> exists file vs, In vs vss /\ load_visits (src_loading c bitflags file) vs Parse_new = Some q.
  Proof.
    clear L qs. destruct R as [A _]. clear R. revert ps B. induction A as [|f ws srcs' vss' V A IH]; intros ps' B' q Hq; [inversion B'; subst; destruct Hq|].
    cbn [combine] in B'. inversion B' as [|fv p0 ? ps'' L' B'']; subst. destruct Hq as [->|Hq]; [exists f, ws; split; [left; reflexivity|exact L']|].
    destruct (IH _ B'' _ Hq) as (f' & vs & Hv & Lv). exists f', vs. split; [right; exact Hv|exact Lv].
  Qed.
  Lemma file_part : forall vs, In vs vss -> exists file q, In q ps /\ load_visits (src_loading c bitflags file) vs Parse_new = Some q.
  Proof.
    clear L qs. destruct R as [A _]. clear R. revert ps B. induction A as [|f ws srcs' vss' V A IH]; intros ps' B' vs Hv; [destruct Hv|].
    cbn [combine] in B'. inversion B' as [|fv p0 ? ps'' L' B'']; subst. destruct Hv as [->|Hv]; [exists f, p0; split; [left; reflexivity|exact L']|].
    destruct (IH _ B'' _ Hv) as (f' & q & Hq & Lq). exists f', q. split; [right; exact Hq|exact Lq].
  Qed.
  Lemma part_built : forall q, In q (ps ++ qs) -> built q.
  Proof.
    intros q I. apply in_app_or in I as [I|I].
    - destruct (part_of_file q I) as (f & vs & _ & E). exact (fed_built _ _ (visits_fed H _ _ _ _ E) built_new).
    - unfold lib_parts in L. destruct lib as [cargo|]; [|rewrite L in I; destruct I]. destruct L as (q' & E & L'). rewrite E in I. destruct I as [<-|[]].
      exact (fed_built _ _ (crates_fed H _ _ _ _ _ _ L') built_new).
  Qed.
  Lemma bound_part : forall v, module_bound (parse c) lib vss rs v -> exists q, In q (ps ++ qs) /\ covers_module v q.
  Proof.
    intros v [I|(cargo & r & E & Ir & HB & Iv)].
    - apply in_concat in I as (vs & Ivs & I). destruct (file_part vs Ivs) as (f & q & Iq & Lq). exists q. split; [apply in_or_app; left; exact Iq|].
      eapply visits_cover; [apply src_top|exact built_new|exact Lq|exact I].
    - unfold lib_parts in L. rewrite E in L. destruct L as (q & -> & L'). exists q. split; [apply in_or_app; right; left; reflexivity|].
      eapply crates_cover; [exact built_new|exact L'|exact Ir|exact HB|exact Iv].
  Qed.
  Lemma part_constants : forall q x, In q (ps ++ qs) -> In x (to_vec (pr_constants q)) -> exists v i, item_read vss rs v i /\ const_from (Cfg_join (vi_guards v)) i None x.
  Proof.
    intros q x I X. assert (K : exists v, In v (modules_read vss rs) /\ given_in v None x).
    { apply in_app_or in I as [I|I].
      - destruct (part_of_file q I) as (f & vs & Iv & E). destruct (visits_give H _ _ _ _ E keyed_nil) as [_ G].
        destruct (G None x X) as [Y|(v & J & F)]; [exfalso; eapply new_consts; exact Y|]. exists v. split; [apply in_or_app; left; apply in_concat; exists vs; auto|exact F].
      - unfold lib_parts in L. destruct lib as [cargo|]; [|rewrite L in I; destruct I]. destruct L as (q' & E & L'). rewrite E in I. destruct I as [<-|[]].
        destruct (crates_give H _ _ _ _ _ _ L' keyed_nil) as [_ G]. destruct (G None x X) as [Y|(r & v & Ir & J & F)]; [exfalso; eapply new_consts; exact Y|].
        exists v. split; [apply in_or_app; right; apply in_concat; exists (rd_visits r); split; [apply in_map; exact Ir|exact J]|exact F]. }
    destruct K as (v & Iv & i & Ii & SK & F). exists v, i. split; [repeat split; assumption|exact F].
  Qed.
  Lemma part_statics : forall q x, In q (ps ++ qs) -> In x (to_vec (pr_globals q)) -> exists v i, item_read vss rs v i /\ static_made_ (Cfg_join (vi_guards v)) i x.
  Proof.
    intros q x I X. assert (K : exists c' v y, In v (modules_read vss rs) /\ made_in c' v y /\ thing_more y (AGlobal x)).
    { apply in_app_or in I as [I|I].
      - destruct (part_of_file q I) as (f & vs & Iv & E). destruct (visits_bring H _ _ _ _ E (AGlobal x) X) as (y & My & [Y|(v & J & F)]); [exfalso; destruct y as [[]|]; destruct Y|].
        eexists _, v, y. split; [apply in_or_app; left; apply in_concat; exists vs; auto|]. split; [exact F|exact My].
      - unfold lib_parts in L. destruct lib as [cargo|]; [|rewrite L in I; destruct I]. destruct L as (q' & E & L'). rewrite E in I. destruct I as [<-|[]].
        destruct (crates_bring H _ _ _ _ _ _ L' (AGlobal x) X) as (y & My & [Y|(r & v & Ir & J & F)]); [exfalso; destruct y as [[]|]; destruct Y|].
        eexists _, v, y. split; [apply in_or_app; right; apply in_concat; exists (rd_visits r); split; [apply in_map; exact Ir|exact J]|]. split; [exact F|exact My]. }
    destruct K as (c' & v & y & Iv & (i & Ii & SK & F) & [->|(s & s' & _ & Z & _)]); [|discriminate Z]. exists v, i. split; [repeat split; assumption|].
    destruct i as [| | |attrs ident mutable ty| | | | | | | |]; try contradiction. destruct F as (n & N & F). exists attrs, ident, mutable, ty, n. auto.
  Qed.
  Variables (start : Parse) (whole : Parse).
  Hypotheses (S1 : start = Parse_new \/ start = add_std_types Parse_new) (M : whole = merged (ps ++ qs) start).
  Lemma start_built : built start.
  Proof. destruct S1 as [->| ->]; split; apply reachable_nil. Qed.
  Lemma whole_constants : forall x, In x (to_vec (pr_constants whole)) -> exists v i, item_read vss rs v i /\ const_from (Cfg_join (vi_guards v)) i None x.
  Proof.
    intros x I. rewrite M in I. destruct (merged_consts _ _ None x I) as [J|(q & Iq & J)]; [exfalso; destruct S1 as [Z|Z]; rewrite Z in J; destruct J|].
    exact (part_constants q x Iq J).
  Qed.
  Lemma whole_statics : forall x, In x (to_vec (pr_globals whole)) -> exists v i, item_read vss rs v i /\ static_made_ (Cfg_join (vi_guards v)) i x.
  Proof.
    intros x I. rewrite M in I. destruct (merged_things _ _ (AGlobal x) I) as [J|(q & Iq & J)]; [exfalso; destruct S1 as [Z|Z]; rewrite Z in J; destruct J|].
    exact (part_statics q x Iq J).
  Qed.
  (** A constant of a bound module: one of its name is there; if all of that name have conditions, itself *)
  Lemma constant_there : forall v i y, module_bound (parse c) lib vss rs v -> In i (vi_items v) -> should_skip_parsing (item_attrs i) = false -> const_made (Cfg_join (vi_guards v)) i y ->
    (exists x, In x (to_vec (pr_constants whole)) /\ c_path x = c_path y)
    /\ ((forall v' i' x, item_read vss rs v' i' -> const_from (Cfg_join (vi_guards v')) i' None x -> c_path x = c_path y -> guarded x = true) -> guarded y = true -> In y (to_vec (pr_constants whole))).
  Proof.
    intros v i y MB Ii SK CM. destruct (bound_part v MB) as (q & Iq & CV). destruct (CV i Ii SK) as [C1 _]. specialize (C1 y CM).
    destruct (merged_covers (ps ++ qs) start q start_built Iq) as [MC _]. rewrite <- M in MC. split.
    - destruct (covered_path _ _ C1) as (x & Ix & Px). destruct (covered_path _ _ (MC x Ix)) as (z & Iz & Pz). exists z. split; [exact Iz|]. exact (eq_trans Pz Px).
    - intros A G. apply (covered_guarded y); [|exact G|].
      + apply MC. apply (covered_guarded y); [exact C1|exact G|]. intros x Ix Px. destruct (part_constants q x Iq Ix) as (v' & i' & IR & F). exact (A v' i' x IR F Px).
      + intros x Ix Px. destruct (whole_constants x Ix) as (v' & i' & IR & F). exact (A v' i' x IR F Px).
  Qed.
  Lemma static_there : forall v i y, module_bound (parse c) lib vss rs v -> In i (vi_items v) -> should_skip_parsing (item_attrs i) = false -> static_made_ (Cfg_join (vi_guards v)) i y ->
    (exists x, In x (to_vec (pr_globals whole)) /\ g_path x = g_path y)
    /\ ((forall v' i' x, item_read vss rs v' i' -> static_made_ (Cfg_join (vi_guards v')) i' x -> g_path x = g_path y -> guarded x = true) -> guarded y = true -> In y (to_vec (pr_globals whole))).
  Proof.
    intros v i y MB Ii SK CM. destruct (bound_part v MB) as (q & Iq & CV). destruct (CV i Ii SK) as [_ C1]. specialize (C1 y CM).
    destruct (merged_covers (ps ++ qs) start q start_built Iq) as [_ MC]. rewrite <- M in MC. split.
    - destruct (covered_path _ _ C1) as (x & Ix & Px). destruct (covered_path _ _ (MC x Ix)) as (z & Iz & Pz). exists z. split; [exact Iz|]. exact (eq_trans Pz Px).
    - intros A G. apply (covered_guarded y); [|exact G|].
      + apply MC. apply (covered_guarded y); [exact C1|exact G|]. intros x Ix Px. destruct (part_statics q x Iq Ix) as (v' & i' & IR & F). exact (A v' i' x IR F Px).
      + intros x Ix Px. destruct (whole_statics x Ix) as (v' & i' & IR & F). exact (A v' i' x IR F Px).
  Qed.
End Parts.

(** ** Through the passes *)
Lemma sorted_out : forall A (p : A -> string) key l x, In x l -> In x (sort_by_path p key l).
Proof.
  intros A p key l x I. pose proof (sort_by_path_spec A p key l) as K. destruct key; cbn in K; [|exact I].
  eapply Permutation.Permutation_in; [|exact I]. destruct K as [K _ _]. first [exact K|exact (Permutation.Permutation_sym K)].
Qed.
Lemma constant_kept : forall (H : Heck) fuel visit l l' b, prepare fuel visit l = Done l' -> finish l' = Done b -> reachable (l_constants l) -> wanted (l_config l) Constants ->
  forall x, In x (to_vec (l_constants l)) -> ~ In (c_path x) (ex_exclude (export (l_config l))) -> In (Constant_rename_for_config (export (l_config l)) x) (b_constants b).
Proof.
  intros H fuel visit l l' b Hp Hf Hr Wa x I NE. apply reachable_wf in Hr. apply prepare_stages in Hp as (l1 & l2 & l3 & l4 & St).
  pose proof (stages_config _ _ _ _ _ _ _ _ _ St) as (_ & C2 & _ & C4 & C5).
  destruct St as [S1 S2 S3 S4 S5]. pose proof (rename_rest _ _ _ S5) as (_ & R2 & _). rewrite C4 in *.
  assert (E2 : l_constants l2 = l_constants l).
  { destruct (transfer_rest visit l) as (_ & T2 & _). destruct (Language_eqb _ Cxx); [subst; exact T2|]. apply mono_rest in S2 as (_ & -> & _). subst. exact T2. }
  assert (E4 : l_constants l4 = map_filter (excluded (l_config l)) (l_constants l)).
  { transitivity (l_constants l3); [subst l4; destruct (Language_eqb _ M_Config.C); [apply resolve_rest|reflexivity]|]. subst l3. cbn. rewrite C2, E2. reflexivity. }
  rewrite E4, wf_rebuild in R2 by (apply wf_map; [split; reflexivity|apply wf_filter; assumption]).
  unfold finish in Hf. destruct (library_dependencies l'); try discriminate. apply (f_equal (fun o => match o with Done x => b_constants x | _ => [] end)) in Hf.
  rewrite <- Hf. cbn [b_constants]. rewrite C5. rewrite (proj2 (should_generate_wanted _ _) Wa). apply sorted_out. rewrite R2, to_vec_map, filter_to_vec.
  apply in_map. apply filter_In. split; [exact I|]. unfold excluded. cbn [i_path Item_Constant]. rewrite (proj2 (mem_str_false _ _) NE). reflexivity.
Qed.
Lemma static_kept : forall (H : Heck) fuel visit l l' b, as_loaded l -> prepare fuel visit l = Done l' -> finish l' = Done b -> reachable (l_globals l) -> wanted (l_config l) Globals ->
  let c := l_config l in
  exists g, step_ok (language c) (keyword_in l') g /\
    forall x, In x (to_vec (l_globals l)) -> ~ In (g_path x) (ex_exclude (export c)) ->
      In (Static_rename_for_config c (map_g_ty (fun t => g (simplify_standard_types (language c) t)) x)) (b_globals b).
Proof.
  intros H fuel visit l l' b Hl Hp Hf Hr Wa c. apply reachable_wf in Hr. apply prepare_stages in Hp as (l1 & l2 & l3 & l4 & St).
  pose proof (fun p => stages_keyword_in _ _ _ _ _ _ _ _ _ p Hl St) as KW.
  pose proof (stages_config _ _ _ _ _ _ _ _ _ St) as (C1 & C2 & C3 & C4 & C5). destruct St as [S1 S2 S3 S4 S5]. fold c in S2, S4, C1, C2, C3, C4, C5.
  destruct (transfer_rest visit l) as (T1 & _ & T3 & _). cbn zeta in *.
  exists (resolving c l3). split. { eapply step_ext; [|exact (resolving_ok c l3)]. intro p. cbv beta. symmetry. exact (KW p). }
  intros x I NE.
  assert (E2 : l_globals l2 = for_all_items_mut (Static_simplify (language c)) (l_globals l)).
  { transitivity (l_globals l1); [|subst l1; cbn; rewrite T1, T3; reflexivity].
    destruct (Language_eqb _ Cxx); [congruence|]. apply mono_rest in S2 as (_ & _ & -> & _). reflexivity. }
  assert (W2 : wf (l_globals l2)) by (rewrite E2; apply wf_map; [split; reflexivity|assumption]).
  assert (W3 : wf (l_globals l3)) by (subst l3; apply wf_filter; assumption).
  assert (I3 : In (Static_simplify (language c) x) (to_vec (l_globals l3))).
  { rewrite S3. cbn [remove_excluded l_globals]. rewrite filter_to_vec, E2, to_vec_map. apply filter_In. split; [apply in_map; exact I|].
    rewrite C2. unfold excluded. cbn [i_path Item_Static Static_simplify g_path]. rewrite (proj2 (mem_str_false _ _)); [reflexivity|]. destruct x. exact NE. }
  assert (I4 : wf (l_globals l4) /\ In (map_g_ty (resolving c l3) (Static_simplify (language c) x)) (to_vec (l_globals l4))).
  { unfold resolving. rewrite S4. destruct (Language_eqb (language c) M_Config.C); cbn [andb].
    - unfold resolve_library. rewrite C3. destruct (generate_tag (style c)); cbn [negb].
      + cbn [l_globals]. split; [apply wf_map; [split; reflexivity|exact W3]|]. rewrite to_vec_map. apply in_map_iff. exists (Static_simplify (language c) x). split; [reflexivity|exact I3].
      + split; [exact W3|]. destruct x; exact I3.
    - split; [exact W3|]. destruct x; exact I3. }
  destruct I4 as [W4 I4]. apply rename_rest in S5 as (_ & _ & E5 & _). rewrite C4, wf_rebuild in E5 by (apply wf_map; [split; reflexivity|exact W4]).
  unfold finish in Hf. destruct (library_dependencies l'); try discriminate. apply (f_equal (fun o => match o with Done x => b_globals x | _ => [] end)) in Hf.
  rewrite <- Hf. cbn [b_globals]. rewrite C5. rewrite (proj2 (should_generate_wanted c Globals) Wa). apply sorted_out. rewrite E5, to_vec_map. apply in_map_iff.
  eexists. split; [|exact I4]. destruct x; reflexivity.
Qed.

(** ** Constants *)
Theorem constants_complete : forall (H : Heck) d c bitflags mfuel fuel std srcs lib l, parse_all d c bitflags mfuel fuel std srcs lib = Parsed l ->
  exists vss rs, sources_read d (parse c) srcs lib vss rs
    /\ forall pfuel visit l' b, prepare pfuel visit l = Done l' -> finish l' = Done b ->
       forall v attrs ident ty value, module_bound (parse c) lib vss rs v -> In (ItemConst attrs true ident ty value) (vi_items v) -> bindable_constant c attrs ident ty value ->
         (exists k, In k (b_constants b) /\ c_path k = unraw ident)
         /\ (constant_alone vss rs v (ItemConst attrs true ident ty value) (unraw ident) ->
             exists k, In k (b_constants b) /\ constant_for c (module_holds v) None attrs ident ty value k /\ raw_constant c (Cfg_join (vi_guards v)) None attrs ty value k).
Proof.
  intros H d c bitflags mfuel fuel std srcs lib l Q. destruct (all_sound d c bitflags mfuel fuel std srcs lib l Q) as (vss & rs & ps & qs & R & B & L & M & LC & _).
  exists vss, rs. split; [exact R|]. intros pfuel visit l' b Hp Hf v attrs ident ty value MB Ii [SK T V A NE Wa].
  assert (HERE : forall v rho, cfg_eval_opt rho (Cfg_join (vi_guards v)) = module_holds v rho) by (intros w rho; apply join_meaning).
  set (start := if std then add_std_types Parse_new else Parse_new) in M.
  assert (S1 : start = Parse_new \/ start = add_std_types Parse_new) by (unfold start; destruct std; auto).
  destruct (constant_loads (Cfg_join (vi_guards v)) attrs ident ty value T V A) as (y & Y).
  assert (CM : const_made (Cfg_join (vi_guards v)) (ItemConst attrs true ident ty value) y) by (exists attrs, ident, ty, value; auto).
  assert (MADE : forall v' i' x, const_from (Cfg_join (vi_guards v')) i' None x -> exists self attrs' ident' ty' value', source_constant i' self attrs' ident' ty' value'
    /\ c_path x = unraw ident' ++ match self with Some s => s | None => "" end
    /\ c_cfg x = Cfg_append (Cfg_join (vi_guards v')) (Cfg_of_attrs attrs')
    /\ constant_for c (module_holds v') self attrs' ident' ty' value' (Constant_rename_for_config (export c) x)
    /\ raw_constant c (Cfg_join (vi_guards v')) self attrs' ty' value' (Constant_rename_for_config (export c) x)).
  { intros v' i' x F. destruct (source_made c _ _ (HERE v') _ _ _ F) as (self & attrs' & ident' & ty' & value' & _ & SC & KF & RC).
    exists self, attrs', ident', ty', value'. split; [exact SC|]. split; [exact (kf_path _ _ _ _ _ _ _ _ KF)|]. split; [exact (proj1 RC)|]. auto. }
  destruct (constant_made c _ _ (HERE v) None attrs ident ty value y) as [KF RC]; [rewrite sapp_nil_r; exact Y|].
  assert (PY : c_path y = unraw ident). { pose proof (kf_path _ _ _ _ _ _ _ _ KF) as K. cbn in K. rewrite sapp_nil_r in K. exact K. }
  destruct (constant_there d c bitflags srcs lib vss rs ps qs R B L start (items_of l) S1 M v _ y MB Ii SK CM) as [(x & Ix & Px) TH].
  assert (Re : reachable (l_constants l)). { change (reachable (pr_constants (items_of l))). rewrite M. apply merged_built. unfold start; destruct std; split; apply reachable_nil. }
  assert (KEEP : forall x, In x (to_vec (l_constants l)) -> c_path x = unraw ident -> In (Constant_rename_for_config (export c) x) (b_constants b)).
  { intros z Iz Pz. rewrite <- LC. apply (constant_kept H _ _ _ _ _ Hp Hf Re); [rewrite LC; exact Wa|exact Iz|]. rewrite Pz, LC. exact NE. }
  split.
  - exists (Constant_rename_for_config (export c) x). split; [apply KEEP; [exact Ix|congruence]|]. cbn [Constant_rename_for_config c_path]. congruence.
  - intros [AL|AL].
    + exists (Constant_rename_for_config (export c) y). split; [|auto]. apply KEEP; [|exact PY]. apply TH.
      * intros v' i' z IR F Pz. destruct (MADE v' i' z F) as (self & attrs' & ident' & ty' & value' & SC & P' & C' & _).
        pose proof (AL v' i' self attrs' ident' ty' value' IR SC ltac:(congruence)) as Co. unfold conditional_item in Co.
        unfold guarded. cbn [i_cfg Item_Constant]. rewrite C'. destruct (Cfg_append _ _); [reflexivity|exfalso; apply Co; reflexivity].
      * assert (IRv : item_read vss rs v (ItemConst attrs true ident ty value)).
        { split; [|split; [exact Ii|exact SK]]. apply in_or_app. destruct MB as [MB|(cargo & r & _ & Ir & _ & Iv)]; [left; exact MB|right].
          apply in_concat. exists (rd_visits r). split; [apply in_map; exact Ir|exact Iv]. }
        pose proof (AL v _ None attrs ident ty value IRv (sc_item _ _ _ _) (sapp_nil_r _)) as Co. unfold conditional_item in Co.
        unfold guarded. cbn [i_cfg Item_Constant]. pose proof (proj1 RC) as CC. cbn [Constant_rename_for_config c_cfg] in CC. rewrite CC.
        destruct (Cfg_append _ _); [reflexivity|exfalso; apply Co; reflexivity].
    + destruct (whole_constants d c bitflags srcs lib vss rs ps qs R B L start (items_of l) S1 M x Ix) as (v' & i' & IR & F).
      destruct (MADE v' i' x F) as (self & attrs' & ident' & ty' & value' & SC & P' & _ & KF' & RC').
      destruct (AL v' i' self attrs' ident' ty' value' IR SC ltac:(congruence)) as [-> ->]. clear LC. inversion SC; subst.
      exists (Constant_rename_for_config (export c) x). split; [|auto]. apply KEEP; [exact Ix|congruence].
Qed.

(** ** Statics *)
Theorem statics_complete : forall (H : Heck) d c bitflags mfuel fuel std srcs lib l, parse_all d c bitflags mfuel fuel std srcs lib = Parsed l ->
  exists vss rs, sources_read d (parse c) srcs lib vss rs
    /\ forall pfuel visit l' b, prepare pfuel visit l = Done l' -> finish l' = Done b -> (forall v, In v (modules_read vss rs) -> exports_ok v) ->
       forall v attrs ident mutable ty n, module_bound (parse c) lib vss rs v -> In (ItemStatic attrs ident mutable ty) (vi_items v) -> symbol attrs (unraw ident) n -> bindable_static c attrs n ty ->
         (exists g, In g (b_globals b) /\ g_path g = n)
         /\ (static_alone vss rs v (ItemStatic attrs ident mutable ty) n ->
             exists g, In g (b_globals b) /\ static_for c (keyword_in l') (module_holds v) n attrs mutable ty g).
Proof.
  intros H d c bitflags mfuel fuel std srcs lib l Q. destruct (all_sound d c bitflags mfuel fuel std srcs lib l Q) as (vss & rs & ps & qs & R & B & L & M & LC & _).
  exists vss, rs. split; [exact R|]. intros pfuel visit l' b Hp Hf EO v attrs ident mutable ty n MB Ii SY [SK T A NE Wa].
  destruct (parsed_fresh d c bitflags mfuel fuel std srcs lib l Q) as [AL _].
  assert (HERE : forall v rho, cfg_eval_opt rho (Cfg_join (vi_guards v)) = module_holds v rho) by (intros w rho; apply join_meaning).
  set (start := if std then add_std_types Parse_new else Parse_new) in M.
  assert (S1 : start = Parse_new \/ start = add_std_types Parse_new) by (unfold start; destruct std; auto).
  assert (IRv : item_read vss rs v (ItemStatic attrs ident mutable ty)).
  { split; [|split; [exact Ii|exact SK]]. apply in_or_app. destruct MB as [MB|(cargo & r & _ & Ir & _ & Iv)]; [left; exact MB|right].
    apply in_concat. exists (rd_visits r). split; [apply in_map; exact Ir|exact Iv]. }
  assert (NAME : forall w a i m t s, item_read vss rs w (ItemStatic a i m t) -> static_exported_name a (unraw i) = Some s -> symbol a (unraw i) s).
  { intros w a i m t s (Iw & Ji & _) N. destruct (EO w Iw _ Ji) as [O1 O2]. exact (static_symbol a (unraw i) s O1 O2 N). }
  assert (N : static_exported_name attrs (unraw ident) = Some n).
  { destruct (EO v (proj1 IRv) _ Ii) as [O1 O2]. apply (exported_name attrs (unraw ident) n O1) in SY. unfold fn_exported_name in SY. unfold static_exported_name.
    destruct (attr_name_value_lookup attrs "export_name"); [exact SY|]. destruct (unsafe_attr_name_value_lookup attrs "export_name") as [m|] eqn:U; [|exact SY].
    exfalso. apply (unsafe_name _ _ O1) in U as [a [Ha U]]. exact (O2 a m Ha U). }
  destruct (static_loads (Cfg_join (vi_guards v)) attrs n mutable ty T A) as (y & Y).
  assert (CM : static_made_ (Cfg_join (vi_guards v)) (ItemStatic attrs ident mutable ty) y) by (exists attrs, ident, mutable, ty, n; auto).
  assert (FIELDS : forall k s a m t x, Static_load s a m t k = Some x -> g_path x = s /\ g_cfg x = Cfg_append k (Cfg_of_attrs a)).
  { intros k s a m t x E. unfold Static_load in E. destruct (Type_load t) as [[u|]|]; try discriminate. destruct (AnnotationSet_load a); [|discriminate]. injection E as <-. split; reflexivity. }
  destruct (FIELDS _ _ _ _ _ _ Y) as [PY CY].
  destruct (static_there d c bitflags srcs lib vss rs ps qs R B L start (items_of l) S1 M v _ y MB Ii SK CM) as [(x & Ix & Px) TH].
  assert (Re : reachable (l_globals l)). { change (reachable (pr_globals (items_of l))). rewrite M. apply merged_built. unfold start; destruct std; split; apply reachable_nil. }
  destruct (static_kept H pfuel visit l l' b AL Hp Hf Re ltac:(rewrite LC; exact Wa)) as (h & StepG & KEEP). cbn zeta in KEEP. rewrite LC in StepG, KEEP.
  assert (FOR : forall w s a m t z, Static_load s a m t (Cfg_join (vi_guards w)) = Some z -> In z (to_vec (l_globals l)) -> s = n ->
    In (Static_rename_for_config c (map_g_ty (fun t => h (simplify_standard_types (language c) t)) z)) (b_globals b)
    /\ static_for c (keyword_in l') (module_holds w) s a m t (Static_rename_for_config c (map_g_ty (fun t => h (simplify_standard_types (language c) t)) z))).
  { intros w s a m t z E I ->. pose proof (al_globals _ AL) as FG. rewrite Forall_forall in FG. specialize (FG _ I). apply fresh_under in FG.
    split; [apply KEEP; [exact I|]; rewrite (proj1 (FIELDS _ _ _ _ _ _ E)); exact NE|]. exact (static_made c _ h StepG _ _ (HERE w) _ _ _ _ _ E FG). }
  destruct (whole_statics d c bitflags srcs lib vss rs ps qs R B L start (items_of l) S1 M x Ix) as (v' & i' & IR & a' & id' & m' & t' & n' & -> & N' & F').
  assert (NN : n' = n) by (destruct (FIELDS _ _ _ _ _ _ F') as [Z _]; congruence).
  split.
  - destruct (FOR _ _ _ _ _ _ F' Ix NN) as [I2 K2]. eexists. split; [exact I2|]. rewrite <- NN. exact (gf_path _ _ _ _ _ _ _ _ K2).
  - intros [ALO|ALO].
    + assert (IY : In y (to_vec (l_globals l))).
      { apply TH.
        * intros w i z IRw (a & id & m & t & s & -> & Nw & F) Pz. destruct (FIELDS _ _ _ _ _ _ F) as [P1 P2]. assert (SN : s = n) by congruence. rewrite SN in Nw.
          pose proof (ALO w a id m t IRw (NAME _ _ _ _ _ _ IRw Nw)) as Co. unfold conditional_item in Co. unfold guarded. cbn [i_cfg Item_Static]. rewrite P2.
          destruct (Cfg_append (Cfg_join (vi_guards w)) (Cfg_of_attrs a)); [reflexivity|exfalso; apply Co; reflexivity].
        * pose proof (ALO v attrs ident mutable ty IRv SY) as Co. unfold conditional_item in Co. unfold guarded. cbn [i_cfg Item_Static]. rewrite CY.
          destruct (Cfg_append (Cfg_join (vi_guards v)) (Cfg_of_attrs attrs)); [reflexivity|exfalso; apply Co; reflexivity]. }
      destruct (FOR _ _ _ _ _ _ Y IY eq_refl) as [I2 K2]. eexists. split; [exact I2|exact K2].
    + subst n'. destruct (ALO v' a' id' m' t' IR (NAME _ _ _ _ _ _ IR N')) as [-> Z]. injection Z as -> -> -> ->.
      destruct (FOR _ _ _ _ _ _ F' Ix eq_refl) as [I2 K2]. eexists. split; [exact I2|exact K2].
Qed.
Theorem constants_bound : forall (H : Heck) d c bitflags mfuel fuel std srcs lib l, parse_all d c bitflags mfuel fuel std srcs lib = Parsed l ->
  exists vss rs, sources_read d (parse c) srcs lib vss rs
    /\ forall pfuel visit l' b, prepare pfuel visit l = Done l' -> finish l' = Done b ->
       forall v attrs ident ty value, module_bound (parse c) lib vss rs v -> In (ItemConst attrs true ident ty value) (vi_items v) -> bindable_constant c attrs ident ty value ->
         (exists k, In k (b_constants b) /\ c_path k = unraw ident)
         /\ (constant_alone vss rs v (ItemConst attrs true ident ty value) (unraw ident) ->
             exists k, In k (b_constants b) /\ constant_for c (module_holds v) None attrs ident ty value k).
Proof.
  intros H d c bitflags mfuel fuel std srcs lib l Q. destruct (constants_complete H d c bitflags mfuel fuel std srcs lib l Q) as (vss & rs & R & G).
  exists vss, rs. split; [exact R|]. intros pfuel visit l' b Hp Hf v attrs ident ty value MB Ii BI. destruct (G _ _ _ _ Hp Hf v attrs ident ty value MB Ii BI) as [G1 G2].
  split; [exact G1|]. intro AL. destruct (G2 AL) as (k & I & KF & _). exists k. auto.
Qed.
