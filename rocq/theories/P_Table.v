(** Well-formed tables, and changes of a table item by item. *)
Require Import Coq.Strings.String Coq.Lists.List Coq.Bool.Bool.
From Verif Require Import Base P_Base M_Cfg M_Ir M_Item M_Library S_Item P_Item.
Import ListNotations.

Section Table.
  Context {T : Type} {I : Item T}.
  Implicit Types (m : ItemMap T) (x y : T) (p q : string) (v : ItemValue T).

  Definition wf_entry (e : string * ItemValue T) : Prop :=
    value_items (snd e) <> [] /\ Forall (fun x => i_path x = fst e) (value_items (snd e)) /\ kind_ok (snd e).
  Record wf m : Prop := { wf_keys : NoDup (map fst m); wf_entries : Forall wf_entry m }.

  Lemma to_vec_cons : forall e m, to_vec (e :: m) = (value_items (snd e) ++ to_vec m)%list.
  Proof. reflexivity. Qed.

  Lemma to_vec_paths : forall m x, Forall wf_entry m -> In x (to_vec m) -> In (i_path x) (map fst m).
  Proof.
    intros m x Hw. induction Hw as [|e r [_ [Hp _]] _ IH]; [intros []|]. rewrite to_vec_cons, in_app_iff.
    intros [Hx|Hx]; [|right; auto]. left. rewrite Forall_forall in Hp. symmetry. auto.
  Qed.

  Lemma at_path_all : forall p l, Forall (fun x => i_path x = p) l -> at_path p l = l.
  Proof.
    intros p l Hl. unfold at_path. induction Hl as [|x r Hx _ IH]; [reflexivity|]. cbn.
    rewrite Hx, String.eqb_refl, IH. reflexivity.
  Qed.

  Lemma wf_at_path : forall m p v, wf m -> In (p, v) m -> at_path p (to_vec m) = value_items v.
  Proof.
    intros m p v [Hn He]. induction He as [|e r [Hne [Hp Hk]] He IH]; [intros []|]. intros Hi.
    cbn [map] in Hn. inversion Hn as [|? ? Hni Hn']; subst. rewrite to_vec_cons, at_path_app.
    destruct Hi as [->|Hi].
    - cbn [fst snd] in *. rewrite at_path_all by assumption.
      replace (at_path p (to_vec r)) with (@nil T); [apply app_nil_r|]. symmetry. apply at_path_nil.
      intros x Hx E. subst. apply Hni. apply to_vec_paths; assumption.
    - rewrite (IH Hn' Hi). replace (at_path p (value_items (snd e))) with (@nil T); [reflexivity|].
      symmetry. apply at_path_nil. intros x Hx E. rewrite Forall_forall in Hp. rewrite (Hp x Hx) in E. subst.
      apply Hni. apply in_map_iff. exists (fst e, v). auto.
  Qed.

  Lemma wf_rel : forall m, wf m -> Rel m {| paths := map fst m; accepted := to_vec m |}.
  Proof.
    intros m W. constructor; cbn [paths accepted].
    - reflexivity.
    - apply (wf_keys _ W).
    - intros p v Hi. pose proof (wf_entries _ W) as He. rewrite Forall_forall in He. destruct (He _ Hi) as [H1 [H2 H3]].
      cbn [fst snd] in *. rewrite (wf_at_path m p v W Hi). auto.
    - intros x Hx. apply to_vec_paths; [apply (wf_entries _ W)|assumption].
  Qed.

  Lemma rel_wf : forall m t, Rel m t -> wf m.
  Proof.
    intros m t R. constructor.
    - rewrite (rel_keys _ _ R). apply (rel_nodup _ _ R).
    - apply Forall_forall. intros [p v] Hi. destruct (rel_val _ _ R p v Hi) as [H1 [H2 H3]]. repeat split; cbn [fst snd]; auto.
      rewrite H1. apply Forall_forall. intros x Hx. apply In_at_path in Hx. tauto.
  Qed.

  Lemma reachable_wf : forall m, reachable m <-> wf m.
  Proof.
    intros m. split.
    - intros Hr. destruct (reachable_rel m Hr) as [t R]. eapply rel_wf; eassumption.
    - intros W. exists (map Insert (to_vec m)). split; [apply legal_inserts|].
      rewrite <- extend_is_inserts. symmetry. apply (rebuild_id_rel m _ (wf_rel m W)).
  Qed.

  Lemma wf_rebuild : forall m, wf m -> rebuild m = m.
  Proof. intros m W. apply (rebuild_id_rel m _ (wf_rel m W)). Qed.

  Lemma wf_get_items : forall m p, wf m -> get_items p m = match at_path p (to_vec m) with [] => None | l => Some l end.
  Proof. intros m p W. apply (rel_get_items _ _ p (wf_rel m W)). Qed.

  Lemma wf_nil : wf [].
  Proof. constructor; constructor. Qed.
  Lemma wf_op : forall m o, legal o -> wf m -> wf (fst (run_op m o)).
  Proof. intros m o Ho W. eapply rel_wf. apply (run_op_rel _ _ _ Ho (wf_rel m W)). Qed.
  Lemma wf_filter : forall m f, wf m -> wf (map_filter f m).
  Proof. intros m f. exact (wf_op m (Remove f) Logic.I). Qed.
  Lemma wf_insert : forall m x, wf m -> wf (fst (try_insert x m)).
  Proof. intros m x. exact (wf_op m (Insert x) Logic.I). Qed.
  Lemma wf_insert_all : forall xs m, wf m -> wf (insert_all xs m).
  Proof. unfold insert_all. induction xs; cbn; intros m W; [assumption|]. apply IHxs. apply wf_insert. assumption. Qed.
  Lemma wf_rebuilt : forall m, wf (rebuild m).
  Proof. intros m. unfold rebuild, extend_with. apply (wf_insert_all (to_vec m) []). apply wf_nil. Qed.
End Table.

(** ** Item by item *)
Definition vrel {T} (R : T -> T -> Prop) (v w : ItemValue T) : Prop :=
  match v, w with VCfg l, VCfg l' => Forall2 R l l' | VSingle x, VSingle y => R x y | _, _ => False end.
Definition trel {T} (R : T -> T -> Prop) (m m' : ItemMap T) : Prop :=
  Forall2 (fun e e' => fst e = fst e' /\ vrel R (snd e) (snd e')) m m'.

Section Rel.
  Context {T : Type} {I : Item T}.
  Implicit Types (m : ItemMap T) (R Q : T -> T -> Prop).

  Definition same_key (x y : T) : Prop := i_path y = i_path x /\ i_cfg y = i_cfg x.

  Lemma vrel_items : forall R v w, vrel R v w -> Forall2 R (value_items v) (value_items w).
  Proof. intros R [l|x] [l'|y]; cbn; try tauto. constructor; auto. Qed.

  Lemma trel_to_vec : forall R m m', trel R m m' -> Forall2 R (to_vec m) (to_vec m').
  Proof.
    intros R m m' Hm. induction Hm as [|e e' r r' [_ Hv] _ IH]; [constructor|]. rewrite !to_vec_cons.
    apply Forall2_app; [apply vrel_items; assumption|assumption].
  Qed.

  Lemma trel_keys : forall R m m', trel R m m' -> map fst m' = map fst m.
  Proof. intros R m m' Hm. induction Hm as [|e e' r r' [Hk _] _ IH]; [reflexivity|]. cbn. congruence. Qed.

  Lemma trel_get : forall R m m' p, trel R m m' ->
    match get_items p m, get_items p m' with Some l, Some l' => Forall2 R l l' | None, None => True | _, _ => False end.
  Proof.
    intros R m m' p Hm. unfold get_items. induction Hm as [|[q v] [q' v'] r r' [Hk Hv] _ IH]; cbn; [exact Logic.I|].
    cbn in Hk, Hv. subst q'. destruct (String.eqb p q); [|exact IH]. cbn. apply vrel_items. assumption.
  Qed.

  Lemma Forall2_impl : forall A B (P Q : A -> B -> Prop) l l', (forall x y, P x y -> Q x y) -> Forall2 P l l' -> Forall2 Q l l'.
  Proof. intros A B P Q l l' Hi. induction 1; constructor; auto. Qed.
  Lemma vrel_impl : forall R Q v w, (forall x y, R x y -> Q x y) -> vrel R v w -> vrel Q v w.
  Proof. intros R Q [l|x] [l'|y] Hi; cbn; try tauto; auto. apply Forall2_impl. assumption. Qed.
  Lemma trel_impl : forall R Q m m', (forall x y, R x y -> Q x y) -> trel R m m' -> trel Q m m'.
  Proof. intros R Q m m' Hi. apply Forall2_impl. intros e e' [Hk Hv]. split; [assumption|]. eapply vrel_impl; eassumption. Qed.

  Lemma Forall2_comp : forall A (P Q W : A -> A -> Prop) l l' l'', (forall x y z, P x y -> Q y z -> W x z) ->
    Forall2 P l l' -> Forall2 Q l' l'' -> Forall2 W l l''.
  Proof.
    intros A P Q W l l' l'' Hi Hp. revert l''. induction Hp; intros l'' Hq; inversion Hq; subst; constructor; eauto.
  Qed.
  Lemma trel_comp : forall R Q (W : T -> T -> Prop) m m' m'', (forall x y z, R x y -> Q y z -> W x z) -> trel R m m' -> trel Q m' m'' -> trel W m m''.
  Proof.
    intros R Q W m m' m'' Hi Ha Hb. unfold trel in *. eapply Forall2_comp; [|exact Ha|exact Hb].
    intros e e' e'' [H1 H2] [H3 H4]. split; [congruence|].
    destruct (snd e), (snd e'), (snd e''); cbn in *; try tauto; eauto using Forall2_comp.
  Qed.
  Lemma Forall2_refl : forall A (P : A -> A -> Prop) l, (forall x, P x x) -> Forall2 P l l.
  Proof. intros A P l Hp. induction l; constructor; auto. Qed.
  Lemma trel_refl : forall R m, (forall x, R x x) -> trel R m m.
  Proof. intros R m Hr. apply Forall2_refl. intros [p [l|x]]; split; cbn; auto using Forall2_refl. Qed.

  Lemma Forall2_map_r : forall A (f : A -> A) l, Forall2 (fun x y => y = f x) l (map f l).
  Proof. induction l; constructor; auto. Qed.
  Lemma trel_map : forall f m, trel (fun x y => y = f x) m (for_all_items_mut f m).
  Proof.
    intros f m. unfold trel, for_all_items_mut. induction m as [|[p v] r IH]; constructor; auto. split; [reflexivity|].
    destruct v; cbn; auto using Forall2_map_r.
  Qed.
  Lemma map_opt_rel : forall A B (f : A -> option B) l l', map_opt f l = Some l' -> Forall2 (fun x y => f x = Some y) l l'.
  Proof.
    induction l as [|x r IH]; cbn; intros l' Hl.
    - inversion Hl; subst. constructor.
    - fold (map_opt f) in Hl. destruct (f x) as [y|] eqn:Ex; [|discriminate].
      destruct (map_opt f r) as [r'|]; [|discriminate]. inversion Hl; subst. constructor; auto.
  Qed.
  Lemma trel_map_opt : forall f m m', for_all_items_mut_opt f m = Some m' -> trel (fun x y => f x = Some y) m m'.
  Proof.
    intros f m m' Hm. unfold for_all_items_mut_opt in Hm. apply map_opt_rel in Hm. eapply Forall2_impl; [|exact Hm].
    intros [p v] e' He. cbn [fst snd] in *. destruct (map_value_opt f v) as [v'|] eqn:Ev; [|discriminate].
    inversion He; subst. split; [reflexivity|]. destruct v as [l|x]; cbn [map_value_opt] in Ev; cbn [snd].
    - destruct (map_opt f l) as [l'|] eqn:El; [|discriminate]. inversion Ev; subst. cbn. apply map_opt_rel. assumption.
    - destruct (f x) as [x'|] eqn:Ex; [|discriminate]. inversion Ev; subst. assumption.
  Qed.
  Lemma trel_set : forall R m p v w, (forall x, R x x) -> lookup p m = Some v -> vrel R v w -> trel R m (set_entry p w m).
  Proof.
    intros R m p v w Hr. induction m as [|[q u] r IH]; cbn; [discriminate|].
    rewrite (String.eqb_sym q p). destruct (String.eqb p q).
    - intros E Hv. inversion E; subst. constructor; [split; auto|]. apply trel_refl. assumption.
    - intros E Hv. constructor; [|apply IH; assumption]. split; [reflexivity|].
      destruct u; cbn; auto using Forall2_refl.
  Qed.
  Lemma trel_at : forall p f m, trel (fun x y => y = x \/ y = f x) m (for_items_mut p f m).
  Proof.
    intros p f m. unfold for_items_mut. destruct (lookup p m) as [v|] eqn:E.
    - eapply trel_set; [auto|exact E|]. destruct v as [l|x]; cbn; [|auto]. clear E. induction l; constructor; auto.
    - apply trel_refl. auto.
  Qed.

  Lemma Forall2_Forall : forall A B (P : A -> B -> Prop) (Q : A -> Prop) (W : B -> Prop) l l',
    (forall x y, P x y -> Q x -> W y) -> Forall2 P l l' -> Forall Q l -> Forall W l'.
  Proof. intros A B P Q W l l' Hi. induction 1; intros Hq; inversion Hq; subst; constructor; eauto. Qed.

  Lemma wf_trel : forall m m', trel same_key m m' -> wf m -> wf m'.
  Proof.
    intros m m' Hm [Hn He]. constructor; [rewrite (trel_keys _ _ _ Hm); assumption|].
    eapply Forall2_Forall; [|exact Hm|exact He]. intros [p v] [q w] [Hk Hv] [H1 [H2 H3]]. cbn [fst snd] in *. subst q.
    pose proof (vrel_items _ _ _ Hv) as Hf. repeat split; cbn [fst snd].
    - intros E. rewrite E in Hf. inversion Hf; congruence.
    - eapply Forall2_Forall; [|exact Hf|exact H2]. intros x y [Hx _] Hp. congruence.
    - destruct v as [l|x], w as [l'|y]; cbn in *; try tauto.
      + eapply Forall2_Forall; [|exact Hv|exact H3]. intros x y [_ Hc] Hg. unfold guarded in *. rewrite Hc. assumption.
      + destruct Hv as [_ Hc]. unfold guarded in *. rewrite Hc. assumption.
  Qed.
End Rel.
