(** Dependencies: what is listed and in which order. *)
Require Import Coq.Strings.String Coq.Lists.List Coq.Bool.Bool Coq.Arith.Arith Coq.Relations.Relation_Operators Coq.Relations.Operators_Properties.
Require Import Lia.
From Verif Require Import Base P_Base M_Config M_Cfg M_Type P_Type M_Ir M_Item M_Library S_Library.
Import ListNotations.

(** ** The listed names are the mentioned ones *)
Lemma In_concat_map : forall A B (f : A -> list B) l y, In y (concat (map f l)) <-> exists x, In x l /\ In y (f x).
Proof.
  intros. rewrite in_concat. split.
  - intros [r [Hr Hy]]. apply in_map_iff in Hr. destruct Hr as [x [<- Hx]]. eauto.
  - intros [x [Hx Hy]]. exists (f x). split; [apply in_map|]; assumption.
Qed.

Lemma Type_deps_occurs : forall params t q, In q (Type_deps params t) <-> occurs params t q.
Proof.
  intros params t q. revert t. apply Ty_only_ind.
  - intros t c n r IH. cbn. rewrite IH. split; [constructor; assumption|inversion 1; assumption].
  - intros p e gs ct HF. cbn [Type_deps]. rewrite in_app_iff, In_concat_map. split.
    + intros [[g [Hg Hq]]|Hq].
      * destruct g as [u|]; [|contradiction]. rewrite Forall_forall in HF. specialize (HF _ Hg). cbn in HF.
        eapply occ_generic; [exact Hg|apply HF; assumption].
      * destruct (is_generic_param params p) eqn:E; [contradiction|]. destruct Hq as [<-|[]]. constructor; assumption.
    + inversion 1; subst.
      * right. match goal with E : is_generic_param _ _ = false |- _ => rewrite E end. left; reflexivity.
      * left. exists (GType t). split; [assumption|]. rewrite Forall_forall in HF.
        match goal with G : In (GType t) gs |- _ => specialize (HF _ G) end. cbn in HF. apply HF. assumption.
  - intros p. cbn. split; [contradiction|inversion 1].
  - intros t e IH. cbn. rewrite IH. split; [constructor; assumption|inversion 1; assumption].
  - intros r args n nr IHr HF. cbn [Type_deps]. rewrite in_app_iff, In_concat_map, IHr. rewrite Forall_forall in HF. split.
    + intros [Hq|[a [Ha Hq]]]; [constructor; assumption|]. eapply occ_arg; [exact Ha|apply HF; assumption].
    + inversion 1; subst; [left; assumption|]. right. eexists; split; [eassumption|]. apply HF; assumption.
Qed.

Section LitInd.
  Variable P : Literal -> Prop.
  Hypothesis H1 : forall s, P (LExpr s).
  Hypothesis H2 : forall a n, P (LPath a n).
  Hypothesis H3 : forall op v, P v -> P (LUnary op v).
  Hypothesis H4 : forall a op b, P a -> P b -> P (LBin a op b).
  Hypothesis H5 : forall b f, P b -> P (LField b f).
  Hypothesis H6 : forall p e fs, Forall (fun f => P (fst (snd f))) fs -> P (LStruct p e fs).
  Hypothesis H7 : forall t v, P v -> P (LCast t v).
  Hypothesis H8 : forall l, Forall P l -> P (LArray l).
  Fixpoint Literal_ind' (l : Literal) : P l :=
    match l with
    | LExpr s => H1 s
    | LPath a n => H2 a n
    | LUnary op v => H3 op v (Literal_ind' v)
    | LBin a op b => H4 a op b (Literal_ind' a) (Literal_ind' b)
    | LField b f => H5 b f (Literal_ind' b)
    | LStruct p e fs =>
        H6 p e fs ((fix go (l : list (string * (Literal * option Cfg))) : Forall (fun f => P (fst (snd f))) l :=
                      match l with [] => Forall_nil _ | a :: q => Forall_cons a (Literal_ind' (fst (snd a))) (go q) end) fs)
    | LCast t v => H7 t v (Literal_ind' v)
    | LArray l => H8 l ((fix go (l : list Literal) : Forall P l :=
                           match l with [] => Forall_nil _ | a :: q => Forall_cons a (Literal_ind' a) (go q) end) l)
    end.
End LitInd.

Definition lit_here (x : Literal) : list string :=
  match x with LStruct p _ _ => [p] | LPath (Some (p, _)) _ => [p] | _ => [] end.

Lemma Literal_deps_in : forall l q, In q (Literal_deps l) <-> exists x, In x (Literal_visited l) /\ In q (lit_here x).
Proof. intros l q. unfold Literal_deps. rewrite In_concat_map. reflexivity. Qed.

Ltac occ IH := match goal with Ho : lit_occurs _ _ |- _ => apply IH in Ho; let x := fresh "x" in let Hx := fresh "Hx" in let Hq := fresh "Hq" in destruct Ho as [x [Hx Hq]] end.

Lemma Literal_deps_occurs : forall l q, In q (Literal_deps l) <-> lit_occurs l q.
Proof.
  intros l q. rewrite Literal_deps_in. revert l. apply Literal_ind'.
  - intros s. cbn. split; [intros [x [[<-|[]] Hx]]; contradiction|inversion 1].
  - intros [[p e]|] n; cbn; split.
    + intros [x [[<-|[]] [<-|[]]]]. constructor.
    + inversion 1; subst. eexists; split; [left; reflexivity|left; reflexivity].
    + intros [x [[<-|[]] []]].
    + inversion 1.
  - intros op v IH. cbn. split.
    + intros [x [[<-|Hx] Hq]]; [contradiction|]. constructor. apply IH. eauto.
    + intros Ho; inversion Ho; subst; clear Ho. occ IH. eauto.
  - intros a op b IHa IHb. cbn. split.
    + intros [x [[<-|Hx] Hq]]; [contradiction|]. apply in_app_or in Hx.
      destruct Hx as [Hx|Hx]; [apply lo_left, IHa|apply lo_right, IHb]; eauto.
    + intros Ho; inversion Ho; subst; clear Ho.
      * occ IHa. exists x. split; [right; apply in_or_app; auto|assumption].
      * occ IHb. exists x. split; [right; apply in_or_app; auto|assumption].
  - intros b f IH. cbn. split.
    + intros [x [[<-|Hx] Hq]]; [contradiction|]. constructor. apply IH. eauto.
    + intros Ho; inversion Ho; subst; clear Ho. occ IH. eauto.
  - intros p e fs HF. cbn [Literal_visited]. rewrite Forall_forall in HF. split.
    + intros [x [[<-|Hx] Hq]].
      * destruct Hq as [<-|[]]. constructor.
      * apply In_concat_map in Hx. destruct Hx as [[n [v cfg]] [Hf Hx]]. cbn in Hx.
        eapply lo_member; [exact Hf|]. apply (HF _ Hf). cbn. eauto.
    + intros Ho; inversion Ho; subst; clear Ho.
      * eexists; split; [left; reflexivity|left; reflexivity].
      * match goal with G : In (n, (v, cfg)) fs |- _ => pose proof (HF _ G) as HI end. cbn in HI.
        occ HI. exists x. split; [right|assumption].
        apply In_concat_map. exists (n, (v, cfg)). auto.
  - intros t v IH. cbn. split.
    + intros [x [[<-|Hx] Hq]]; [contradiction|]. constructor. apply IH. eauto.
    + intros Ho; inversion Ho; subst; clear Ho. occ IH. eauto.
  - intros l HF. cbn [Literal_visited]. rewrite Forall_forall in HF. split.
    + intros [x [[<-|Hx] Hq]]; [contradiction|]. apply In_concat_map in Hx. destruct Hx as [v [Hv Hx]].
      eapply lo_item; [exact Hv|]. apply (HF _ Hv). eauto.
    + intros Ho; inversion Ho; subst; clear Ho.
      match goal with G : In v l |- _ => pose proof (HF _ G) as HI; occ HI; exists x; split; [right|assumption];
        apply In_concat_map; exists v; split; assumption end.
Qed.

Lemma Constant_deps_mentions : forall c q, In q (Constant_deps c) <-> const_mentions c q.
Proof.
  intros. unfold Constant_deps, const_mentions. rewrite in_app_iff, Type_deps_occurs, Literal_deps_occurs. reflexivity.
Qed.
Lemma fields_deps_occurs : forall gps fs q, In q (fields_deps gps fs) <-> exists f, In f fs /\ occurs gps (fd_ty f) q.
Proof.
  intros. unfold fields_deps. rewrite In_concat_map. split; intros [f [Hf Hq]]; exists f; (split; [assumption|]);
    apply Type_deps_occurs; assumption.
Qed.
Lemma Struct_deps_mentions : forall s q, In q (Struct_deps s) <-> struct_mentions s q.
Proof.
  intros. unfold Struct_deps, struct_mentions, own_fields. rewrite in_app_iff, fields_deps_occurs, In_concat_map.
  split; (intros [Hx|[c [Hc Hq]]]; [left; exact Hx|right; exists c; split; [assumption|]]);
    apply Constant_deps_mentions; assumption.
Qed.
Lemma ic_deps_mentions : forall i q, In q (ic_deps i) <-> item_mentions i q.
Proof.
  intros [o|s|u|e|t] q; cbn.
  - reflexivity.
  - apply Struct_deps_mentions.
  - apply fields_deps_occurs.
  - unfold Enum_deps. rewrite In_concat_map. split; intros [v [Hv Hq]]; exists v; (split; [assumption|]).
    + unfold EnumVariant_deps in Hq. apply in_app_or in Hq. destruct Hq as [Hq|Hq].
      * left. destruct (v_body v) as [a|n s i ic]; [contradiction|]. apply Struct_deps_mentions in Hq. eauto 8.
      * right. destruct (v_discriminant v) as [d|]; [|contradiction]. apply Literal_deps_occurs in Hq. eauto.
    + unfold EnumVariant_deps. apply in_or_app. destruct Hq as [(n & s & i & ic & -> & Hq)|(d & -> & Hq)].
      * left. apply Struct_deps_mentions. assumption.
      * right. apply Literal_deps_occurs. assumption.
  - apply Type_deps_occurs.
Qed.
Lemma Function_deps_mentions : forall f q, In q (Function_deps f) <-> fun_mentions f q.
Proof.
  intros. unfold Function_deps, fun_mentions. rewrite in_app_iff, In_concat_map, Type_deps_occurs.
  split; (intros [Hx|[a [Ha Hq]]]; [left; exact Hx|right; exists a; split; [assumption|]]);
    apply Type_deps_occurs; assumption.
Qed.

Lemma rev_case : forall A (l : list A), l = [] \/ exists l' z, l = (l' ++ [z])%list.
Proof. intros A l. destruct l as [|x l] using rev_ind; [left; reflexivity|right; eauto]. Qed.

(** ** The traversal *)
Section Graph.
  Variable l : Library.
  Let adj (p : string) : list string := concat (map ic_deps (items_of l p)).

  Lemma refers_adj : forall p q, refers l p q <-> known l q /\ In q (adj p).
  Proof.
    intros p q. unfold refers, adj. rewrite In_concat_map.
    split; intros [Hk [i [Hi Hm]]]; (split; [assumption|]); exists i; (split; [assumption|]); apply ic_deps_mentions; assumption.
  Qed.

  Lemma reaches_known : forall p q, reaches l p q -> known l p -> known l q.
  Proof.
    intros p q Hr. apply clos_rt_rtn1 in Hr. induction Hr; [auto|]. intros _. destruct H; assumption.
  Qed.

  Record Inv (d : Dependencies) (ps gray : list string) : Prop := {
    inv_order : d_order d = concat (map (items_of l) ps);
    inv_nodup : NoDup ps;
    inv_items : forall x, In x (d_items d) <-> In x ps \/ In x gray;
    inv_disj : forall x, In x gray -> ~ In x ps;
    inv_known : forall x, In x (d_items d) -> known l x;
    inv_closed : forall u v, In u ps -> refers l u v -> In v (d_items d);
    inv_before : forall a u b v, ps = (a ++ u :: b)%list -> refers l u v -> In v a \/ reaches l v u
  }.

  Lemma reaches_step : forall a b c, reaches l a b -> refers l b c -> reaches l a c.
  Proof. intros. eapply rt_trans; [eassumption|apply rt_step; assumption]. Qed.

  Definition add_post (p : string) (d : Dependencies) (ps gray : list string) (d' : Dependencies) : Prop :=
    exists new, Inv d' (ps ++ new) gray /\ (known l p -> In p (d_items d')) /\ (forall x, In x new -> known l p /\ reaches l p x).

  Definition fold_post (qs : list string) (d : Dependencies) (ps gray : list string) (d' : Dependencies) : Prop :=
    exists new, Inv d' (ps ++ new) gray /\ (forall q, In q qs -> known l q -> In q (d_items d'))
      /\ (forall x, In x new -> exists q, In q qs /\ known l q /\ reaches l q x).

  Lemma fold_from_add : forall f : Dependencies -> string -> outcome Dependencies,
    (forall d ps gray p d', Inv d ps gray -> (known l p -> forall g, In g gray -> reaches l g p) ->
      f d p = Done d' -> add_post p d ps gray d') ->
    forall qs d ps gray d', Inv d ps gray -> (forall q, In q qs -> known l q -> forall g, In g gray -> reaches l g q) ->
      foldM f qs d = Done d' -> fold_post qs d ps gray d'.
  Proof.
    intros f Hf. induction qs as [|q qs IH]; intros d ps gray d' HI Hg Hr; cbn in Hr.
    - inversion Hr; subst. exists []. rewrite app_nil_r. repeat split; try apply HI; try contradiction.
    - destruct (f d q) as [d1| |] eqn:E1; try discriminate.
      destruct (Hf d ps gray q d1 HI (Hg q (or_introl eq_refl)) E1) as [new1 [HI1 [Hq1 Hn1]]].
      destruct (IH d1 (ps ++ new1)%list gray d' HI1) as [new2 [HI2 [Hq2 Hn2]]].
      + intros q' Hq'. apply Hg. right; assumption.
      + assumption.
      + exists (new1 ++ new2)%list. rewrite app_assoc. split; [assumption|]. split.
        * intros q' [<-|Hq'] Hk; [|apply Hq2; assumption].
          specialize (Hq1 Hk). apply (inv_items _ _ _ HI1) in Hq1. apply (inv_items _ _ _ HI2).
          destruct Hq1 as [Hq1|Hq1]; [left; apply in_or_app; auto|right; assumption].
        * intros x Hx. apply in_app_or in Hx. destruct Hx as [Hx|Hx].
          -- exists q. split; [left; reflexivity|]. apply Hn1. assumption.
          -- destruct (Hn2 x Hx) as [q' [Hq' Hr']]. exists q'. split; [right; assumption|assumption].
  Qed.

  Lemma add_ok : forall n d ps gray p d', Inv d ps gray -> (known l p -> forall g, In g gray -> reaches l g p) ->
    d_add n l d p = Done d' -> add_post p d ps gray d'.
  Proof.
    induction n as [|n IH]; intros d ps gray p d' HI Hg Hr.
    - cbn in Hr. destruct (lib_get_items l p) as [items|] eqn:Ei.
      + destruct (mem_str p (d_items d)) eqn:Em; [|discriminate]. inversion Hr; subst. exists []. rewrite app_nil_r.
        repeat split; try apply HI; try contradiction. intros _. apply mem_str_In. assumption.
      + inversion Hr; subst. exists []. rewrite app_nil_r. repeat split; try apply HI; try contradiction.
        intros [items Hk]. congruence.
    - cbn in Hr. destruct (lib_get_items l p) as [items|] eqn:Ei.
      2:{ inversion Hr; subst. exists []. rewrite app_nil_r. repeat split; try apply HI; try contradiction.
          intros [items Hk]. congruence. }
      destruct (mem_str p (d_items d)) eqn:Em.
      { inversion Hr; subst. exists []. rewrite app_nil_r.
        repeat split; try apply HI; try contradiction. intros _. apply mem_str_In. assumption. }
      assert (Hk : known l p) by (exists items; assumption).
      assert (Hio : items_of l p = items) by (unfold items_of; rewrite Ei; reflexivity).
      assert (Hni : ~ In p (d_items d)) by (apply mem_str_false; assumption).
      destruct (foldM (d_add n l) (concat (map ic_deps items)) (d_insert p d)) as [d2| |] eqn:E2; try discriminate.
      inversion Hr; subst d'. clear Hr.
      assert (HI0 : Inv (d_insert p d) ps (p :: gray)).
      { constructor; cbn.
        - apply (inv_order _ _ _ HI).
        - apply (inv_nodup _ _ _ HI).
        - intros x. rewrite (inv_items _ _ _ HI). tauto.
        - intros x [<-|Hx]; [|apply (inv_disj _ _ _ HI); assumption].
          intros Hx. apply Hni. apply (inv_items _ _ _ HI). auto.
        - intros x [<-|Hx]; [assumption|apply (inv_known _ _ _ HI); assumption].
        - intros u v Hu Hv. right. eapply (inv_closed _ _ _ HI); eauto.
        - apply (inv_before _ _ _ HI). }
      assert (HF : fold_post (concat (map ic_deps items)) (d_insert p d) ps (p :: gray) d2).
      { apply (fold_from_add (d_add n l) IH); [assumption| |assumption]. intros q Hq Hkq g [<-|Hgg].
        - apply rt_step. apply refers_adj. split; [assumption|]. unfold adj. rewrite Hio. assumption.
        - eapply reaches_step; [apply Hg; assumption|]. apply refers_adj. split; [assumption|]. unfold adj. rewrite Hio. assumption. }
      destruct HF as [new [HI2 [Hq Hn]]].
      assert (Hpn : ~ In p (ps ++ new)) by (apply (inv_disj _ _ _ HI2); left; reflexivity).
      assert (Hadj : forall v, refers l p v -> In v (d_items d2)).
      { intros v Hv. apply refers_adj in Hv. destruct Hv as [Hkv Hv]. apply Hq; [|assumption]. unfold adj in Hv. rewrite Hio in Hv. assumption. }
      exists (new ++ [p])%list. split; [|split].
      + constructor; cbn.
        * rewrite (inv_order _ _ _ HI2), app_assoc, (map_app _ (ps ++ new)%list), concat_app. cbn. rewrite Hio, app_nil_r. reflexivity.
        * rewrite app_assoc. apply NoDup_Add with (a := p) (l := (ps ++ new)%list).
          -- rewrite <- (app_nil_r (ps ++ new)) at 1. apply Add_app.
          -- split; [apply (inv_nodup _ _ _ HI2)|assumption].
        * intros x. rewrite (inv_items _ _ _ HI2). rewrite !in_app_iff. cbn. tauto.
        * intros x Hx Hy. rewrite app_assoc in Hy. apply in_app_or in Hy. destruct Hy as [Hy|[<-|[]]].
          -- revert Hy. apply (inv_disj _ _ _ HI2). right; assumption.
          -- apply Hni. apply (inv_items _ _ _ HI). auto.
        * apply (inv_known _ _ _ HI2).
        * intros u v Hu Hv. rewrite app_assoc in Hu. apply in_app_or in Hu. destruct Hu as [Hu|[<-|[]]].
          -- eapply (inv_closed _ _ _ HI2); eauto.
          -- apply Hadj. assumption.
        * intros a u b v He Hv. rewrite app_assoc in He.
          destruct (rev_case _ b) as [->|[b' [z ->]]].
          -- apply app_inj_tail in He. destruct He as [<- <-].
             specialize (Hadj v Hv). apply (inv_items _ _ _ HI2) in Hadj. destruct Hadj as [Ha|[<-|Ha]].
             ++ left; assumption.
             ++ right. apply rt_refl.
             ++ right. apply Hg; assumption.
          -- rewrite app_comm_cons, app_assoc in He. apply app_inj_tail in He. destruct He as [He _].
             eapply (inv_before _ _ _ HI2); eauto.
      + intros _. cbn. apply (inv_items _ _ _ HI2). right; left; reflexivity.
      + intros x Hx. split; [assumption|]. apply in_app_or in Hx. destruct Hx as [Hx|[<-|[]]]; [|apply rt_refl].
        destruct (Hn x Hx) as [q [Hqi [Hkq Hqr]]]. eapply rt_trans; [|exact Hqr]. apply rt_step. apply refers_adj.
        split; [assumption|]. unfold adj. rewrite Hio. assumption.
  Qed.

  (** ** Termination *)
  Definition unvisited (d : Dependencies) : nat :=
    length (filter (fun x => negb (mem_str x (d_items d))) (library_paths l)).

  Lemma lookup_key : forall T (m : ItemMap T) p items, get_items p m = Some items -> In p (map fst m).
  Proof.
    intros T m p items Hg. unfold get_items in Hg. destruct (lookup p m) as [v|] eqn:El; [|discriminate].
    apply lookup_In in El. apply in_map_iff. exists (p, v); auto.
  Qed.
  Lemma known_path : forall p, known l p -> In p (library_paths l).
  Proof.
    intros p [items Hi]. unfold lib_get_items, find_kind in Hi. unfold library_paths. rewrite !in_app_iff.
    repeat match type of Hi with
           | context [get_items p ?m] => destruct (get_items p m) eqn:?; [|]
           end;
    repeat match goal with E : get_items p _ = Some _ |- _ => apply lookup_key in E end; try tauto.
    all: repeat match type of Hi with context [if ?b then _ else _] => destruct b end; discriminate.
  Qed.

  Lemma filter_le : forall A (f g : A -> bool) xs, (forall x, f x = true -> g x = true) -> length (filter f xs) <= length (filter g xs).
  Proof.
    induction xs as [|x xs IH]; intros Hfg; cbn; [lia|]. specialize (IH Hfg).
    destruct (f x) eqn:E; [rewrite (Hfg _ E); cbn; lia|destruct (g x); cbn; lia].
  Qed.
  Lemma filter_lt : forall A (f g : A -> bool) xs y, (forall x, f x = true -> g x = true) -> In y xs -> f y = false -> g y = true ->
    length (filter f xs) < length (filter g xs).
  Proof.
    induction xs as [|x xs IH]; intros y Hfg Hy Hf Hg; [contradiction|]. cbn.
    destruct Hy as [->|Hy].
    - rewrite Hf, Hg. cbn. pose proof (filter_le _ f g xs Hfg). lia.
    - specialize (IH y Hfg Hy Hf Hg). destruct (f x) eqn:E; [rewrite (Hfg _ E); cbn; lia|destruct (g x); cbn; lia].
  Qed.

  Lemma unvisited_mono : forall d d', incl (d_items d) (d_items d') -> unvisited d' <= unvisited d.
  Proof.
    intros d d' Hi. apply filter_le. intros x Hx. apply negb_true_iff in Hx. apply negb_true_iff.
    apply mem_str_false. apply mem_str_false in Hx. intros Hc. apply Hx. apply Hi. assumption.
  Qed.
  Lemma unvisited_insert : forall d p, known l p -> mem_str p (d_items d) = false -> unvisited (d_insert p d) < unvisited d.
  Proof.
    intros d p Hk Hm. apply filter_lt with (y := p).
    - intros x Hx. apply negb_true_iff in Hx. apply negb_true_iff. apply mem_str_false. apply mem_str_false in Hx.
      intros Hc. apply Hx. right. assumption.
    - apply known_path. assumption.
    - apply negb_false_iff. apply mem_str_In. left. reflexivity.
    - apply negb_true_iff. assumption.
  Qed.

  Lemma fold_total : forall (f : Dependencies -> string -> outcome Dependencies) k,
    (forall d p, unvisited d <= k -> exists d', f d p = Done d' /\ incl (d_items d) (d_items d')) ->
    forall qs d, unvisited d <= k -> exists d', foldM f qs d = Done d' /\ incl (d_items d) (d_items d').
  Proof.
    intros f k Hf. induction qs as [|q qs IH]; intros d Hd; cbn.
    - exists d. split; [reflexivity|apply incl_refl].
    - destruct (Hf d q Hd) as [d1 [-> Hi]]. destruct (IH d1) as [d2 [E Hi2]].
      + pose proof (unvisited_mono _ _ Hi). lia.
      + exists d2. split; [assumption|eapply incl_tran; eauto].
  Qed.

  Lemma add_total : forall n d p, unvisited d <= n -> exists d', d_add n l d p = Done d' /\ incl (d_items d) (d_items d').
  Proof.
    induction n as [|n IH]; intros d p Hd; cbn.
    - destruct (lib_get_items l p) as [items|] eqn:Ei; [|exists d; split; [reflexivity|apply incl_refl]].
      destruct (mem_str p (d_items d)) eqn:Em; [exists d; split; [reflexivity|apply incl_refl]|].
      exfalso. assert (Hk : known l p) by (exists items; assumption). pose proof (unvisited_insert d p Hk Em). lia.
    - destruct (lib_get_items l p) as [items|] eqn:Ei; [|exists d; split; [reflexivity|apply incl_refl]].
      destruct (mem_str p (d_items d)) eqn:Em; [exists d; split; [reflexivity|apply incl_refl]|].
      assert (Hk : known l p) by (exists items; assumption). pose proof (unvisited_insert d p Hk Em).
      destruct (fold_total (d_add n l) n IH (concat (map ic_deps items)) (d_insert p d)) as [d2 [-> Hi]]; [lia|].
      exists (d_push items d2). split; [reflexivity|]. intros x Hx. cbn. apply Hi. right. assumption.
  Qed.

  Lemma include_is_add : forall n d p, d_include n l d p = d_add (S n) l d p.
  Proof. reflexivity. Qed.

  Lemma unvisited_bound : forall d, unvisited d <= add_fuel l.
  Proof.
    intros d. unfold unvisited, add_fuel. 
    assert (Hle : forall A (f : A -> bool) xs, length (filter f xs) <= length xs).
    { intros A f. induction xs as [|x xs IHx]; cbn; [lia|]. destruct (f x); cbn; lia. }
    specialize (Hle _ (fun x => negb (mem_str x (d_items d))) (library_paths l)). lia.
  Qed.

  Lemma Inv_start : Inv Dependencies_new [] [].
  Proof.
    constructor; cbn; try tauto; [constructor|]. intros a u b v He. destruct a; discriminate.
  Qed.

  Lemma root_paths_spec : forall q, (known l q /\ (In q (root_paths l) \/ In q (ex_include (export (l_config l))))) <-> root l q.
  Proof.
    intros q. unfold root, root_paths. rewrite !in_app_iff, !In_concat_map.
    assert (H1 : (exists f, In f (l_functions l) /\ In q (Function_deps f)) <-> (exists f, In f (l_functions l) /\ fun_mentions f q)).
    { split; intros [f [Hf Hq]]; exists f; (split; [assumption|]); apply Function_deps_mentions; assumption. }
    assert (H2 : (exists g, In g (to_vec (l_globals l)) /\ In q (Static_deps g)) <-> (exists g, In g (to_vec (l_globals l)) /\ occurs [] (g_ty g) q)).
    { split; intros [f [Hf Hq]]; exists f; (split; [assumption|]); apply Type_deps_occurs; assumption. }
    assert (H3 : (exists c, In c (to_vec (l_constants l)) /\ In q (Constant_deps c)) <-> (exists c, In c (to_vec (l_constants l)) /\ const_mentions c q)).
    { split; intros [f [Hf Hq]]; exists f; (split; [assumption|]); apply Constant_deps_mentions; assumption. }
    tauto.
  Qed.

  Lemma dependencies_spec : exists d ps,
    library_dependencies l = Done d /\
    d_order d = concat (map (items_of l) ps) /\ NoDup ps /\
    (forall q, In q ps <-> exported l q) /\
    (forall p q, In p ps -> refers l p q -> ~ reaches l q p -> before q p ps).
  Proof.
    unfold library_dependencies.
    destruct (fold_total (d_add (add_fuel l) l) (add_fuel l) (add_total _) (root_paths l) Dependencies_new (unvisited_bound _)) as [d1 [E1 _]].
    rewrite E1.
    destruct (fold_total (d_include (add_fuel l) l) (add_fuel l)) with (qs := ex_include (export (l_config l))) (d := d1) as [d [E2 _]].
    { intros d p _. rewrite include_is_add. apply add_total. pose proof (unvisited_bound d). lia. }
    { apply unvisited_bound. }
    rewrite E2. exists d.
    assert (HF1 : fold_post (root_paths l) Dependencies_new [] [] d1).
    { apply (fold_from_add _ (add_ok (add_fuel l))); [apply Inv_start|intros; contradiction|assumption]. }
    destruct HF1 as [ps1 [HI1 [Hq1 Hn1]]]. cbn [app] in HI1.
    assert (HF2 : fold_post (ex_include (export (l_config l))) d1 ps1 [] d).
    { apply (fold_from_add (d_include (add_fuel l) l) (add_ok (S (add_fuel l)))); [assumption|intros; contradiction|assumption]. }
    destruct HF2 as [ps2 [HI [Hq2 Hn2]]].
    exists (ps1 ++ ps2)%list. split; [reflexivity|]. split; [apply (inv_order _ _ _ HI)|]. split; [apply (inv_nodup _ _ _ HI)|].
    assert (Hin : forall q, In q (d_items d) <-> In q (ps1 ++ ps2)).
    { intros q. rewrite (inv_items _ _ _ HI). cbn. tauto. }
    split.
    - intros q. split.
      + intros Hq. apply in_app_or in Hq. destruct Hq as [Hq|Hq].
        * destruct (Hn1 q Hq) as [r [Hr [Hk Hrq]]]. exists r. split; [|assumption]. apply root_paths_spec. auto.
        * destruct (Hn2 q Hq) as [r [Hr [Hk Hrq]]]. exists r. split; [|assumption]. apply root_paths_spec. auto.
      + intros [r [Hr Hrq]]. apply root_paths_spec in Hr. destruct Hr as [Hk Hr].
        assert (Hroot : In r (ps1 ++ ps2)).
        { destruct Hr as [Hr|Hr].
          - specialize (Hq1 r Hr Hk). apply (inv_items _ _ _ HI1) in Hq1. apply in_or_app. cbn in Hq1. tauto.
          - apply Hin. apply Hq2; assumption. }
        apply clos_rt_rtn1 in Hrq. induction Hrq; [assumption|]. apply Hin. eapply (inv_closed _ _ _ HI); eauto.
    - intros p q Hp Hpq Hnr. apply in_split in Hp. destruct Hp as [a [b He]].
      destruct (inv_before _ _ _ HI a p b q He Hpq) as [Hx|Hx]; [|contradiction].
      apply in_split in Hx. destruct Hx as [a1 [a2 ->]]. exists a1, a2, b. rewrite He, <- app_assoc. reflexivity.
  Qed.
End Graph.
