(** Item tables: the program refines the specification of S_Item. *)
Require Import Coq.Strings.String Coq.Lists.List Coq.Bool.Bool Coq.Sorting.Permutation.
From Verif Require Import Base P_Base M_Cfg M_Ir M_Item S_Item.
Import ListNotations.

Section Proofs.
  Context {T : Type} {I : Item T}.
  Implicit Types (m : ItemMap T) (t : table T) (x y : T) (p q : string).

  Definition kind_ok (v : ItemValue T) : Prop :=
    match v with VCfg l => Forall (fun x => guarded x = true) l | VSingle x => guarded x = false end.

  Record Rel m t : Prop := {
    rel_keys : map fst m = paths t;
    rel_nodup : NoDup (paths t);
    rel_val : forall p v, In (p, v) m -> value_items v = at_path p (accepted t) /\ value_items v <> [] /\ kind_ok v;
    rel_known : forall x, In x (accepted t) -> In (i_path x) (paths t)
  }.

  Lemma lookup_nodup : forall m p v, NoDup (map fst m) -> (lookup p m = Some v <-> In (p, v) m).
  Proof.
    induction m as [|[q w] m IH]; intros p v Hn; cbn in *; [split; [discriminate|tauto]|].
    inversion Hn; subst.
    destruct (String.eqb_spec p q).
    - subst. split; intros Hx.
      + inversion Hx; auto.
      + destruct Hx as [Hx|Hx]; [congruence|]. exfalso. apply H1.
        apply in_map_iff. exists (q, v); auto.
    - rewrite IH by assumption. split; intros Hx; [auto|]. destruct Hx as [Hx|Hx]; [congruence|auto].
  Qed.

  Lemma lookup_none_key : forall m p, lookup p m = None <-> ~ In p (map fst m).
  Proof.
    induction m as [|[q w] m IH]; intros p; cbn; [tauto|].
    destruct (String.eqb_spec p q); subst.
    - split; [discriminate|]. intros Hx. exfalso. apply Hx; auto.
    - rewrite IH. split; intros Hx; [intros [Hy|Hy]; [congruence|tauto]|tauto].
  Qed.

  Lemma at_path_app : forall p l1 l2, at_path p (l1 ++ l2) = (at_path p l1 ++ at_path p l2)%list.
  Proof. intros; unfold at_path; apply filter_app. Qed.
  Lemma In_at_path : forall p l x, In x (at_path p l) <-> In x l /\ i_path x = p.
  Proof.
    intros. unfold at_path. rewrite filter_In. rewrite String.eqb_eq. tauto.
  Qed.
  Lemma at_path_nil : forall p l, at_path p l = [] <-> forall x, In x l -> i_path x <> p.
  Proof.
    intros p l; split; intros Hx.
    - intros x Hi He. assert (In x (at_path p l)) by (apply In_at_path; auto).
      rewrite Hx in H. contradiction.
    - destruct (at_path p l) as [|y r] eqn:E; [reflexivity|].
      assert (In y (at_path p l)) by (rewrite E; left; reflexivity).
      apply In_at_path in H. exfalso. eapply Hx; [apply H|apply H].
  Qed.

  Lemma set_entry_keys : forall m p v, map fst (set_entry p v m) = map fst m.
  Proof.
    induction m as [|[q w] m IH]; intros; cbn; [reflexivity|].
    destruct (String.eqb q p); cbn; [reflexivity|rewrite IH; reflexivity].
  Qed.
  Lemma In_set_entry : forall m p v q w, NoDup (map fst m) ->
    In (q, w) (set_entry p v m) -> (q = p /\ w = v) \/ (q <> p /\ In (q, w) m).
  Proof.
    induction m as [|[r u] m IH]; intros p v q w Hn Hi; cbn in *; [contradiction|].
    inversion Hn; subst.
    destruct (String.eqb_spec r p); subst.
    - destruct Hi as [Hi|Hi].
      + inversion Hi; auto.
      + right. split; [|auto]. intros ->. apply H1. apply in_map_iff. exists (p, w); auto.
    - destruct Hi as [Hi|Hi].
      + inversion Hi; subst. auto.
      + apply IH in Hi; [|assumption]. destruct Hi as [[-> ->]|[Ha Hb]]; auto.
  Qed.

  Lemma existsb_clash : forall x l,
    existsb (clash x) l = negb (is_nil (at_path (i_path x) l)) && negb (guarded x && forallb guarded (at_path (i_path x) l)).
  Proof.
    intros x l. induction l as [|y l IH]; [reflexivity|].
    cbn [existsb]. rewrite IH. unfold clash, at_path. cbn [filter].
    rewrite (String.eqb_sym (i_path y) (i_path x)).
    destruct (String.eqb (i_path x) (i_path y)); cbn [andb orb]; [|reflexivity].
    cbn [forallb is_nil negb andb].
    destruct (guarded x), (guarded y); cbn; try reflexivity.
    destruct (filter (fun x0 : T => i_path x0 =? i_path x)%string l) as [|z r]; reflexivity.
  Qed.

  Lemma forallb_Forall : forall (f : T -> bool) l, Forall (fun x => f x = true) l <-> forallb f l = true.
  Proof. intros. rewrite forallb_forall, Forall_forall. reflexivity. Qed.

  Lemma rel_lookup : forall m t p v, Rel m t -> lookup p m = Some v ->
    value_items v = at_path p (accepted t) /\ value_items v <> [] /\ kind_ok v.
  Proof.
    intros m t p v R Hl. apply (rel_val _ _ R).
    apply lookup_nodup; [|assumption]. rewrite (rel_keys _ _ R). apply (rel_nodup _ _ R).
  Qed.

  Lemma rel_lookup_none : forall m t p, Rel m t -> lookup p m = None -> at_path p (accepted t) = [] /\ ~ In p (paths t).
  Proof.
    intros m t p R Hl. apply lookup_none_key in Hl. rewrite (rel_keys _ _ R) in Hl. split; [|assumption].
    apply at_path_nil. intros x Hx He. apply Hl. subst p. apply (rel_known _ _ R). assumption.
  Qed.

  Lemma rel_in_path : forall m t p v, Rel m t -> In (p, v) m -> In p (paths t).
  Proof.
    intros. rewrite <- (rel_keys _ _ H). apply in_map_iff. exists (p, v); auto.
  Qed.

  Lemma insert_rel : forall m t x, Rel m t ->
    Rel (fst (try_insert x m)) (fst (step t (Insert x))) /\ snd (try_insert x m) = snd (step t (Insert x)).
  Proof.
    intros m t x R. unfold try_insert. cbn [step]. rewrite existsb_clash.
    destruct (lookup (i_path x) m) as [v|] eqn:El.
    - destruct (rel_lookup _ _ _ _ R El) as [Hv [Hne Hk]]. rewrite <- Hv.
      assert (Hn : is_nil (value_items v) = false) by (destruct (value_items v); [congruence|reflexivity]).
      rewrite Hn. cbn [negb andb].
      assert (Hin : In (i_path x) (paths t)).
      { assert (Hi : In (i_path x, v) m).
        { apply lookup_nodup; [rewrite (rel_keys _ _ R); apply (rel_nodup _ _ R)|assumption]. }
        eapply rel_in_path; eauto. }
      destruct v as [l|y].
      + cbn in Hk. apply forallb_Forall in Hk. cbn [value_items]. rewrite Hk, andb_true_r.
        unfold guarded at 1 2. destruct (is_some (i_cfg x)) eqn:Eg; cbn [negb fst snd]; [|auto].
        split; [|reflexivity].
        assert (Hm : mem_str (i_path x) (paths t) = true) by (apply mem_str_In; assumption).
        rewrite Hm. constructor; cbn [paths accepted].
        * rewrite set_entry_keys. apply (rel_keys _ _ R).
        * apply (rel_nodup _ _ R).
        * intros q w Hi. apply In_set_entry in Hi; [|rewrite (rel_keys _ _ R); apply (rel_nodup _ _ R)].
          rewrite at_path_app. destruct Hi as [[-> ->]|[Hq Hi]].
          -- cbn [value_items] in *. rewrite <- Hv. cbn [at_path filter]. unfold at_path; cbn [filter].
             rewrite String.eqb_refl. repeat split.
             ++ destruct l; discriminate.
             ++ cbn. apply Forall_app. split; [apply forallb_Forall; assumption|]. constructor; [exact Eg|constructor].
          -- destruct (rel_val _ _ R _ _ Hi) as [Ha Hb]. split; [|assumption]. rewrite Ha.
             unfold at_path at 3; cbn [filter].
             destruct (String.eqb_spec (i_path x) q); [congruence|]. rewrite app_nil_r. reflexivity.
        * intros z Hz. apply in_app_or in Hz. destruct Hz as [Hz|[Hz|[]]]; [apply (rel_known _ _ R); assumption|subst; assumption].
      + cbn [kind_ok value_items] in *. cbn [forallb]. rewrite Hk. cbn [andb]. rewrite andb_false_r. cbn [negb fst snd]. auto.
    - destruct (rel_lookup_none _ _ _ R El) as [Hv Hni]. rewrite Hv. cbn [is_nil negb andb fst snd].
      split; [|reflexivity].
      assert (Hm : mem_str (i_path x) (paths t) = false) by (apply mem_str_false; assumption).
      rewrite Hm. constructor; cbn [paths accepted].
      + rewrite map_app, (rel_keys _ _ R). reflexivity.
      + apply Permutation_NoDup with (i_path x :: paths t).
        * apply Permutation_cons_append.
        * constructor; [assumption|apply (rel_nodup _ _ R)].
      + intros q w Hi. rewrite at_path_app. apply in_app_or in Hi. destruct Hi as [Hi|[Hi|[]]].
        * destruct (rel_val _ _ R _ _ Hi) as [Ha Hb]. split; [|assumption]. rewrite Ha.
          unfold at_path at 3; cbn [filter].
          destruct (String.eqb_spec (i_path x) q); [|rewrite app_nil_r; reflexivity].
          exfalso. subst q. apply Hni. eapply rel_in_path; eauto.
        * inversion Hi; subst. rewrite Hv. unfold at_path; cbn [filter]. rewrite String.eqb_refl.
          unfold kind_ok, guarded. destruct (is_some (i_cfg x)) eqn:Eg; cbn; repeat split; try discriminate; auto.
      + intros z Hz. apply in_app_or in Hz. apply in_or_app.
        destruct Hz as [Hz|[Hz|[]]]; [left; apply (rel_known _ _ R); assumption|right; left; congruence].
  Qed.

  Lemma filter_filter_comm : forall (f g : T -> bool) l, filter f (filter g l) = filter g (filter f l).
  Proof.
    induction l as [|x l IH]; [reflexivity|]. cbn.
    destruct (f x) eqn:Ef, (g x) eqn:Eg; cbn; rewrite ?Ef, ?Eg; congruence.
  Qed.

  Lemma existsb_at_path : forall p l, existsb (fun x => String.eqb (i_path x) p) l = negb (is_nil (at_path p l)).
  Proof.
    induction l as [|x l IH]; [reflexivity|]. cbn. unfold at_path in *; cbn [filter].
    destruct (String.eqb (i_path x) p); [reflexivity|]. assumption.
  Qed.

  Lemma NoDup_filter : forall (f : string -> bool) l, NoDup l -> NoDup (filter f l).
  Proof.
    induction l as [|x l IH]; intros Hn; [constructor|]. inversion Hn; subst. cbn.
    destruct (f x); auto. constructor; auto. rewrite filter_In. tauto.
  Qed.

  Lemma Forall_filter_sub : forall (P : T -> Prop) f l, Forall P l -> Forall P (filter f l).
  Proof.
    intros P f l Hf. apply Forall_forall. intros x Hx. apply filter_In in Hx.
    rewrite Forall_forall in Hf. apply Hf. tauto.
  Qed.

  Lemma map_filter_in : forall pred m p v, In (p, v) (map_filter pred m) ->
    exists w, In (p, w) m /\ value_items v = filter (fun x => negb (pred x)) (value_items w)
              /\ value_items v <> [] /\ (kind_ok w -> kind_ok v).
  Proof.
    intros pred m p v. induction m as [|[q w] m IH]; cbn; [tauto|].
    assert (Hrest : In (p, v) (map_filter pred m) -> exists w0, ((q, w) = (p, w0) \/ In (p, w0) m) /\
      value_items v = filter (fun x => negb (pred x)) (value_items w0) /\ value_items v <> [] /\ (kind_ok w0 -> kind_ok v)).
    { intros Hi. destruct (IH Hi) as [w0 [Ha Hb]]. exists w0; auto. }
    destruct w as [l|y].
    - destruct (filter (fun x => negb (pred x)) l) as [|z r] eqn:Ef; [exact Hrest|].
      intros [Hi|Hi]; [|auto]. inversion Hi; subst. exists (VCfg l). cbn [value_items]. rewrite Ef.
      repeat split; auto; [discriminate|]. cbn. intros Hk. rewrite <- Ef. apply Forall_filter_sub. assumption.
    - destruct (pred y) eqn:Ep; [exact Hrest|].
      intros [Hi|Hi]; [|auto]. inversion Hi; subst. exists (VSingle y). cbn. rewrite Ep. cbn.
      repeat split; auto; discriminate.
  Qed.

  Lemma map_filter_keys : forall pred m,
    map fst (map_filter pred m) =
    map fst (filter (fun e => negb (is_nil (filter (fun x => negb (pred x)) (value_items (snd e))))) m).
  Proof.
    intros pred m. induction m as [|[q w] m IH]; [reflexivity|]. cbn.
    destruct w as [l|y]; cbn.
    - destruct (filter (fun x => negb (pred x)) l) as [|z r] eqn:Ef; cbn; [assumption|f_equal; assumption].
    - destruct (pred y); cbn; [assumption|f_equal; assumption].
  Qed.

  Lemma filter_keys : forall (f : string -> bool) (g : string * ItemValue T -> bool) m,
    (forall p v, In (p, v) m -> g (p, v) = f p) -> map fst (filter g m) = filter f (map fst m).
  Proof.
    intros f g m. induction m as [|[q w] m IH]; intros Hx; [reflexivity|]. cbn.
    rewrite (Hx q w) by (left; reflexivity).
    destruct (f q); cbn; rewrite IH; auto; intros; apply Hx; right; assumption.
  Qed.

  Lemma remove_rel : forall m t pred, Rel m t -> Rel (map_filter pred m) (fst (step t (Remove pred))).
  Proof.
    intros m t pred R. cbn [step fst].
    set (rest := filter (fun x => negb (pred x)) (accepted t)).
    assert (Hat : forall p, at_path p rest = filter (fun x => negb (pred x)) (at_path p (accepted t))).
    { intros p. unfold at_path, rest. apply filter_filter_comm. }
    constructor; cbn [paths accepted].
    - rewrite map_filter_keys, <- (rel_keys _ _ R). apply filter_keys. intros p v Hi. cbn [snd].
      destruct (rel_val _ _ R _ _ Hi) as [Hv _]. rewrite Hv, existsb_at_path, Hat. reflexivity.
    - apply NoDup_filter, (rel_nodup _ _ R).
    - intros p v Hi. apply map_filter_in in Hi. destruct Hi as [w [Hi [Hv [Hne Hk]]]].
      destruct (rel_val _ _ R _ _ Hi) as [Hw [_ Hkw]]. rewrite Hat, <- Hw. auto.
    - intros x Hx. apply filter_In. split.
      + apply (rel_known _ _ R). unfold rest in Hx. apply filter_In in Hx. tauto.
      + apply existsb_exists. exists x. split; [assumption|apply String.eqb_refl].
  Qed.

  Lemma value_items_map : forall f (v : ItemValue T), value_items (map_value f v) = map f (value_items v).
  Proof. intros f [l|x]; reflexivity. Qed.
  Lemma kind_ok_map : forall f (v : ItemValue T), keeps_key f -> kind_ok v -> kind_ok (map_value f v).
  Proof.
    intros f [l|x] Hf; cbn.
    - intros Hk. induction Hk; cbn; constructor; auto. unfold guarded in *. destruct (Hf x) as [_ ->]. assumption.
    - unfold guarded. destruct (Hf x) as [_ ->]. auto.
  Qed.
  Lemma at_path_map : forall f p l, (forall x, i_path (f x) = i_path x) -> at_path p (map f l) = map f (at_path p l).
  Proof.
    intros f p l Hf. unfold at_path. induction l as [|x l IH]; [reflexivity|]. cbn. rewrite Hf.
    destruct (String.eqb (i_path x) p); cbn; rewrite IH; reflexivity.
  Qed.
  Lemma map_nil : forall (f : T -> T) l, map f l = [] -> l = [].
  Proof. intros f [|x l]; [reflexivity|discriminate]. Qed.

  Lemma update_rel : forall m t f, keeps_key f -> Rel m t -> Rel (for_all_items_mut f m) (fst (step t (Update f))).
  Proof.
    intros m t f Hf R. cbn [step fst]. unfold for_all_items_mut. constructor; cbn [paths accepted].
    - rewrite map_map. cbn. apply (rel_keys _ _ R).
    - apply (rel_nodup _ _ R).
    - intros p v Hi. apply in_map_iff in Hi. destruct Hi as [[q w] [He Hi]]. inversion He; subst.
      destruct (rel_val _ _ R _ _ Hi) as [Ha [Hb Hc]]. rewrite value_items_map, at_path_map by (intros; apply Hf).
      rewrite Ha in *. repeat split; auto using kind_ok_map. intros He'. apply map_nil in He'. auto.
    - intros x Hx. apply in_map_iff in Hx. destruct Hx as [y [<- Hy]]. destruct (Hf y) as [-> _]. apply (rel_known _ _ R). assumption.
  Qed.

  Lemma at_path_update : forall f p q l, (forall x, i_path (f x) = i_path x) ->
    at_path q (map (fun x => if String.eqb (i_path x) p then f x else x) l)
    = if String.eqb q p then map f (at_path q l) else at_path q l.
  Proof.
    intros f p q l Hf. unfold at_path. induction l as [|x l IH]; cbn; [destruct (String.eqb q p); reflexivity|].
    destruct (String.eqb_spec (i_path x) p).
    - rewrite Hf. destruct (String.eqb_spec (i_path x) q); rewrite IH.
      + subst. rewrite String.eqb_refl. reflexivity.
      + destruct (String.eqb q p); reflexivity.
    - destruct (String.eqb_spec (i_path x) q); rewrite IH; [|reflexivity].
      subst q. destruct (String.eqb_spec (i_path x) p); [congruence|reflexivity].
  Qed.

  Lemma update_at_rel : forall m t p f, keeps_key f -> Rel m t -> Rel (for_items_mut p f m) (fst (step t (UpdateAt p f))).
  Proof.
    intros m t p f Hf R. cbn [step fst]. unfold for_items_mut.
    destruct (lookup p m) as [v|] eqn:El.
    - constructor; cbn [paths accepted].
      + rewrite set_entry_keys. apply (rel_keys _ _ R).
      + apply (rel_nodup _ _ R).
      + intros q w Hi. apply In_set_entry in Hi; [|rewrite (rel_keys _ _ R); apply (rel_nodup _ _ R)].
        rewrite at_path_update by (intros; apply Hf). destruct Hi as [[-> ->]|[Hq Hi]].
        * rewrite String.eqb_refl, value_items_map. destruct (rel_lookup _ _ _ _ R El) as [Ha [Hb Hc]].
          rewrite Ha in *. repeat split; auto using kind_ok_map. intros He. apply map_nil in He. auto.
        * apply String.eqb_neq in Hq. rewrite Hq. apply (rel_val _ _ R). assumption.
      + intros x Hx. apply in_map_iff in Hx. destruct Hx as [y [<- Hy]].
        destruct (String.eqb (i_path y) p); [destruct (Hf y) as [-> _]|]; apply (rel_known _ _ R); assumption.
    - destruct (rel_lookup_none _ _ _ R El) as [Ha _]. rewrite at_path_nil in Ha.
      assert (Hid : map (fun x => if String.eqb (i_path x) p then f x else x) (accepted t) = accepted t).
      { transitivity (map (fun x => x) (accepted t)); [|apply map_id]. apply map_ext_in. intros x Hx.
        destruct (String.eqb_spec (i_path x) p); [|reflexivity]. exfalso. eapply Ha; eauto. }
      rewrite Hid. destruct t; exact R.
  Qed.

  Lemma run_op_rel : forall m t o, legal o -> Rel m t ->
    Rel (fst (run_op m o)) (fst (step t o)) /\ snd (run_op m o) = snd (step t o).
  Proof.
    intros m t [x|pred|f|p f] Hl R; cbn [run_op].
    - apply insert_rel. assumption.
    - split; [apply remove_rel; assumption|reflexivity].
    - split; [apply update_rel; assumption|reflexivity].
    - split; [apply update_at_rel; assumption|reflexivity].
  Qed.

  Lemma run_ops_rel : forall ops m t, Forall legal ops -> Rel m t ->
    Rel (fst (run_ops m ops)) (fst (steps t ops)) /\ snd (run_ops m ops) = snd (steps t ops).
  Proof.
    induction ops as [|o ops IH]; intros m t Hl R; cbn; [auto|].
    inversion Hl; subst. destruct (run_op_rel m t o H1 R) as [R1 Hb].
    destruct (run_op m o) as [m1 b] eqn:E1, (step t o) as [t1 b'] eqn:E2. cbn in R1, Hb. subst b'.
    destruct (IH m1 t1 H2 R1) as [R2 Hbs].
    destruct (run_ops m1 ops), (steps t1 ops). cbn in *. split; [assumption|congruence].
  Qed.

  Lemma rel_empty : Rel [] (empty_table (T := T)).
  Proof. constructor; cbn; try tauto. constructor. Qed.

  Lemma rel_get_items : forall m t p, Rel m t -> get_items p m = observe_path t p.
  Proof.
    intros m t p R. unfold get_items, observe_path. destruct (lookup p m) as [v|] eqn:El; cbn.
    - destruct (rel_lookup _ _ _ _ R El) as [Ha [Hb _]]. rewrite <- Ha. destruct (value_items v); [congruence|reflexivity].
    - destruct (rel_lookup_none _ _ _ R El) as [-> _]. reflexivity.
  Qed.

  Lemma rel_to_vec : forall m t, Rel m t -> to_vec m = observe_all t.
  Proof.
    intros m t R. unfold to_vec, observe_all. rewrite <- (rel_keys _ _ R), map_map. f_equal.
    apply map_ext_in. intros [p v] Hi. cbn. apply (rel_val _ _ R). assumption.
  Qed.

  Lemma history : forall ops, Forall legal ops ->
    let '(m, flags) := run_ops ([] : ItemMap T) ops in
    let '(t, flags') := steps empty_table ops in
    flags = flags' /\ (forall p, get_items p m = observe_path t p) /\ to_vec m = observe_all t /\ map fst m = paths t.
  Proof.
    intros ops Hl. destruct (run_ops_rel ops [] empty_table Hl rel_empty) as [R Hb].
    destruct (run_ops [] ops) as [m fl], (steps empty_table ops) as [t fl']. cbn in *.
    repeat split; [assumption|intros; eapply rel_get_items; eauto|eapply rel_to_vec; eauto|apply (rel_keys _ _ R)].
  Qed.

  Lemma reachable_rel : forall m, reachable m -> exists t, Rel m t.
  Proof.
    intros m [ops [Hl ->]]. exists (fst (steps empty_table ops)). apply run_ops_rel; [assumption|apply rel_empty].
  Qed.

  Lemma rel_reachable : forall m t, Rel m t -> reachable m -> NoDup (map fst m).
  Proof. intros m t R _. rewrite (rel_keys _ _ R). apply (rel_nodup _ _ R). Qed.

  (** ** No mixing *)
  Lemma no_mixing : forall m p l, reachable m -> get_items p m = Some l ->
    (exists x, l = [x] /\ guarded x = false) \/ (l <> [] /\ Forall (fun x => guarded x = true) l).
  Proof.
    intros m p l Hr Hg. destruct (reachable_rel m Hr) as [t R]. unfold get_items in Hg.
    destruct (lookup p m) as [v|] eqn:El; [|discriminate]. cbn in Hg. inversion Hg; subst.
    destruct (rel_lookup _ _ _ _ R El) as [_ [Hne Hk]]. destruct v as [l|x]; cbn in *; [right; auto|left].
    exists x; auto.
  Qed.

  Lemma paths_right : forall m p l x, reachable m -> get_items p m = Some l -> In x l -> i_path x = p.
  Proof.
    intros m p l x Hr Hg Hi. destruct (reachable_rel m Hr) as [t R]. unfold get_items in Hg.
    destruct (lookup p m) as [v|] eqn:El; [|discriminate]. cbn in Hg. inversion Hg; subst.
    destruct (rel_lookup _ _ _ _ R El) as [Ha _]. rewrite Ha in Hi. apply In_at_path in Hi. tauto.
  Qed.

  (** ** C08 *)
  Lemma filter_to_vec : forall pred m, to_vec (map_filter pred m) = filter (fun x => negb (pred x)) (to_vec m).
  Proof.
    intros pred m. unfold to_vec. induction m as [|[p v] m IH]; [reflexivity|]. cbn [map_filter filter_map].
    cbn [map concat snd]. rewrite filter_app, <- IH. unfold map_filter at 1. cbn [filter_map snd].
    destruct v as [l|x]; cbn [value_items].
    - destruct (filter (fun x => negb (pred x)) l) as [|y r] eqn:Ef; reflexivity.
    - cbn [filter]. destruct (pred x); reflexivity.
  Qed.

  Lemma filter_no_empty : forall pred m p v, In (p, v) (map_filter pred m) -> value_items v <> [].
  Proof. intros. apply map_filter_in in H. destruct H as [w [_ [_ [Hn _]]]]. assumption. Qed.

  Lemma filter_entries : forall pred m p, NoDup (map fst m) ->
    get_items p (map_filter pred m) =
    match get_items p m with
    | None => None
    | Some l => match filter (fun x => negb (pred x)) l with [] => None | l' => Some l' end
    end.
  Proof.
    intros pred m p. unfold get_items, map_filter. induction m as [|[q v] m IH]; intros Hn; [reflexivity|].
    inversion Hn; subst. specialize (IH H2).
    assert (Hnone : p = q -> lookup p m = None) by (intros ->; apply lookup_none_key; assumption).
    cbn [filter_map lookup snd fst].
    destruct (String.eqb_spec p q) as [Heq|Hne].
    - rewrite (Hnone Heq) in IH. cbn [option_map].
      destruct v as [l|x]; cbn [value_items].
      + destruct (filter (fun x => negb (pred x)) l) as [|y r] eqn:Ef.
        * exact IH.
        * cbn [lookup]. rewrite (proj2 (String.eqb_eq p q) Heq). reflexivity.
      + cbn [filter]. destruct (pred x); cbn [negb].
        * exact IH.
        * cbn [lookup]. rewrite (proj2 (String.eqb_eq p q) Heq). reflexivity.
    - apply String.eqb_neq in Hne.
      destruct v as [l|x].
      + destruct (filter (fun x => negb (pred x)) l); cbn [lookup]; rewrite ?Hne; exact IH.
      + destruct (pred x); cbn [lookup]; rewrite ?Hne; exact IH.
  Qed.

  (** Rebuilding replays the items in order. *)
  Lemma extend_is_inserts : forall l m,
    fold_left (fun a x => fst (try_insert x a)) l m = fst (run_ops m (map Insert l)).
  Proof.
    induction l as [|x l IH]; intros m; [reflexivity|]. cbn. rewrite IH.
    destruct (try_insert x m) as [m1 b]. cbn. destruct (run_ops m1 (map Insert l)). reflexivity.
  Qed.

  Lemma legal_inserts : forall l : list T, Forall legal (map Insert l).
  Proof. induction l; constructor; cbn; auto. Qed.

  (** The items kept when a list is inserted in order: those that clash with no kept item before them. *)
  Fixpoint kept (before l : list T) : list T :=
    match l with
    | [] => before
    | x :: r => kept (if existsb (clash x) before then before else (before ++ [x])%list) r
    end.

  Lemma steps_inserts : forall l t, accepted (fst (steps t (map Insert l))) = kept (accepted t) l.
  Proof.
    induction l as [|x l IH]; intros t; [reflexivity|]. cbn [map steps kept].
    cbn [step]. destruct (existsb (clash x) (accepted t)) eqn:E.
    - specialize (IH t). destruct (steps t (map Insert l)). cbn in *. assumption.
    - set (t1 := {| paths := _; accepted := _ |}). specialize (IH t1). destruct (steps t1 (map Insert l)). cbn in *. assumption.
  Qed.

  Lemma kept_no_clash : forall l before,
    (forall i j x y, i < j -> nth_error (before ++ l) i = Some x -> nth_error (before ++ l) j = Some y -> clash y x = false) ->
    kept before l = (before ++ l)%list.
  Proof.
    induction l as [|x l IH]; intros before Hc; cbn; [rewrite app_nil_r; reflexivity|].
    assert (E : existsb (clash x) before = false).
    { apply not_true_is_false. intros Hx. apply existsb_exists in Hx. destruct Hx as [y [Hy Hyc]].
      apply In_nth_error in Hy. destruct Hy as [i Hi].
      assert (Hlt : i < length before) by (apply nth_error_Some; congruence).
      rewrite (Hc i (length before) y x) in Hyc; [discriminate|assumption| |].
      - rewrite nth_error_app1; assumption.
      - rewrite nth_error_app2 by auto. rewrite PeanoNat.Nat.sub_diag. reflexivity. }
    rewrite E. rewrite IH.
    - rewrite <- app_assoc. reflexivity.
    - intros i j y z Hlt. rewrite <- app_assoc. cbn. apply Hc. assumption.
  Qed.

  Lemma observe_all_incl : forall t x, In x (observe_all t) -> In x (accepted t).
  Proof.
    intros t x Hx. unfold observe_all in Hx. apply in_concat in Hx. destruct Hx as [l [Hl Hx]].
    apply in_map_iff in Hl. destruct Hl as [p [<- _]]. apply In_at_path in Hx. tauto.
  Qed.

  Lemma kept_incl : forall l before x, In x (kept before l) -> In x before \/ In x l.
  Proof.
    induction l as [|y l IH]; intros before x Hx; cbn in *; [auto|].
    apply IH in Hx. destruct Hx as [Hx|Hx]; [|auto].
    destruct (existsb (clash y) before); [auto|]. apply in_app_or in Hx. destruct Hx as [Hx|[Hx|[]]]; auto.
  Qed.

  Lemma kept_before : forall l before x, In x before -> In x (kept before l).
  Proof.
    induction l as [|y l IH]; intros before x Hx; cbn; [assumption|]. apply IH.
    destruct (existsb (clash y) before); [assumption|]. apply in_or_app. auto.
  Qed.

  Lemma kept_dropped : forall l before x, In x l -> In x (kept before l) \/ exists y, In y (kept before l) /\ clash x y = true.
  Proof.
    induction l as [|z l IH]; intros before x Hx; [contradiction|]. cbn.
    destruct Hx as [->|Hx]; [|apply IH; assumption].
    destruct (existsb (clash x) before) eqn:E.
    - apply existsb_exists in E. destruct E as [y [Hy Hc]]. right. exists y. split; [apply kept_before; assumption|assumption].
    - left. apply kept_before. apply in_or_app. right; left; reflexivity.
  Qed.

  Lemma rebuild_rel : forall m, Rel (rebuild m) (fst (steps empty_table (map Insert (to_vec m)))).
  Proof.
    intros m. unfold rebuild, extend_with. rewrite extend_is_inserts.
    apply run_ops_rel; [apply legal_inserts|apply rel_empty].
  Qed.

  Lemma rel_all_accepted : forall m t x, Rel m t -> (In x (to_vec m) <-> In x (accepted t)).
  Proof.
    intros m t x R. rewrite (rel_to_vec _ _ R). split; [apply observe_all_incl|].
    intros Hx. unfold observe_all. apply in_concat. exists (at_path (i_path x) (accepted t)). split.
    - apply in_map_iff. exists (i_path x). split; [reflexivity|apply (rel_known _ _ R); assumption].
    - apply In_at_path; auto.
  Qed.

  (** Rebuilding an arbitrarily modified table loses an item only to a clash with one that is kept, and invents none. *)
  Lemma rebuild_keeps : forall m x, In x (to_vec m) ->
    In x (to_vec (rebuild m)) \/ exists y, In y (to_vec (rebuild m)) /\ clash x y = true.
  Proof.
    intros m x Hx. pose proof (rebuild_rel m) as R.
    destruct (kept_dropped (to_vec m) [] x Hx) as [Hk|[y [Hk Hc]]].
    - left. apply (rel_all_accepted _ _ _ R). rewrite steps_inserts. exact Hk.
    - right. exists y. split; [|assumption]. apply (rel_all_accepted _ _ _ R). rewrite steps_inserts. exact Hk.
  Qed.
  Lemma rebuild_invents_nothing : forall m x, In x (to_vec (rebuild m)) -> In x (to_vec m).
  Proof.
    intros m x Hx. apply (rel_all_accepted _ _ _ (rebuild_rel m)) in Hx. rewrite steps_inserts in Hx.
    apply kept_incl in Hx. destruct Hx as [[]|Hx]; assumption.
  Qed.

  (** ** Rebuilding a table whose keys were not changed gives it back. *)
  Lemma insert_guarded_run : forall l m0 p, Forall (fun x => guarded x = true /\ i_path x = p) l -> l <> [] ->
    lookup p m0 = None ->
    fold_left (fun a x => fst (try_insert x a)) l m0 = (m0 ++ [(p, VCfg l)])%list.
  Proof.
    intros l m0 p Hl Hne Hlk.
    assert (Hgen : forall l done, Forall (fun x => guarded x = true /\ i_path x = p) l -> done <> [] ->
      fold_left (fun a x => fst (try_insert x a)) l (m0 ++ [(p, VCfg done)])%list = (m0 ++ [(p, VCfg (done ++ l))])%list).
    { induction l0 as [|x r IH]; intros done Hf Hd; cbn; [rewrite app_nil_r; reflexivity|].
      inversion Hf as [|? ? [Hg Hp] Hf']; subst.
      assert (Hlast : lookup (i_path x) (m0 ++ [(i_path x, VCfg done)]) = Some (VCfg done)).
      { clear - Hlk. induction m0 as [|[q w] m0 IH]; cbn in *; [rewrite String.eqb_refl; reflexivity|].
        destruct (String.eqb (i_path x) q); [discriminate|]. auto. }
      assert (Hset : set_entry (i_path x) (VCfg (done ++ [x])) (m0 ++ [(i_path x, VCfg done)])%list = (m0 ++ [(i_path x, VCfg (done ++ [x]))])%list).
      { clear - Hlk. induction m0 as [|[q w] m0 IH]; cbn in *; [rewrite String.eqb_refl; reflexivity|].
        rewrite (String.eqb_sym q). destruct (String.eqb (i_path x) q); [discriminate|]. rewrite IH by assumption. reflexivity. }
      unfold try_insert. rewrite Hlast. unfold guarded in Hg. rewrite Hg. cbn [fst].
      rewrite Hset, IH; [|assumption|destruct done; discriminate]. rewrite <- app_assoc. reflexivity. }
    destruct l as [|x l]; [congruence|]. cbn. inversion Hl as [|? ? [Hg Hp] Hf']; subst.
    unfold try_insert. rewrite Hlk. unfold guarded in Hg. rewrite Hg. cbn [fst].
    rewrite Hgen; [reflexivity|assumption|discriminate].
  Qed.

  Lemma rebuild_id_rel : forall m t, Rel m t -> rebuild m = m.
  Proof.
    intros m t R. unfold rebuild, extend_with.
    assert (Hgen : forall rest m0, (forall p v, In (p, v) rest -> value_items v <> [] /\ kind_ok v /\ (forall x, In x (value_items v) -> i_path x = p)) ->
      NoDup (map fst (m0 ++ rest)%list) ->
      fold_left (fun a x => fst (try_insert x a)) (to_vec rest) m0 = (m0 ++ rest)%list).
    { induction rest as [|[p v] rest IH]; intros m0 Hv Hn; cbn; [rewrite app_nil_r; reflexivity|].
      unfold to_vec. cbn [map concat snd]. rewrite fold_left_app. fold (to_vec rest).
      assert (Hlk : lookup p m0 = None).
      { apply lookup_none_key. intros Hi. rewrite map_app in Hn. cbn in Hn.
        apply NoDup_remove_2 in Hn. apply Hn. apply in_or_app. auto. }
      destruct (Hv p v (or_introl eq_refl)) as [Hne [Hk Hp]].
      assert (Hstep : fold_left (fun a x => fst (try_insert x a)) (value_items v) m0 = (m0 ++ [(p, v)])%list).
      { destruct v as [l|x]; cbn [value_items] in *.
        - apply insert_guarded_run; auto. apply Forall_forall. intros x Hx. split; [|apply Hp; assumption].
          cbn in Hk. rewrite Forall_forall in Hk. apply Hk. assumption.
        - cbn. unfold try_insert. rewrite (Hp x (or_introl eq_refl)), Hlk. cbn in Hk. unfold guarded in Hk. rewrite Hk. reflexivity. }
      cbn [snd] in Hstep. rewrite Hstep. rewrite IH.
      - rewrite <- app_assoc. reflexivity.
      - intros q w Hi. apply Hv. right. assumption.
      - rewrite <- app_assoc. exact Hn. }
    rewrite (Hgen m []); [reflexivity| |].
    - intros p v Hi. destruct (rel_val _ _ R _ _ Hi) as [Ha [Hb Hc]]. repeat split; auto.
      intros x Hx. rewrite Ha in Hx. apply In_at_path in Hx. tauto.
    - cbn. rewrite (rel_keys _ _ R). apply (rel_nodup _ _ R).
  Qed.

  Lemma rebuild_id : forall m, reachable m -> rebuild m = m.
  Proof. intros m Hr. destruct (reachable_rel m Hr) as [t R]. eapply rebuild_id_rel; eauto. Qed.
End Proofs.
