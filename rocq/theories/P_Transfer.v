(** Moving annotations from typedefs to the types they name does not depend on
    the iteration order of the hash map (C38). *)
Require Import Coq.Strings.String Coq.Lists.List Coq.Bool.Bool Coq.Sorting.Permutation.
From Verif Require Import Base P_Base M_Config M_Cfg M_Type M_Ir M_Item M_Library S_Item S_Library P_Item P_Table P_Deps P_Library.
Import ListNotations.

(** ** Changes at different paths *)
Section At.
  Context {T : Type} {I : Item T}.
  Implicit Types (m : ItemMap T).

  Lemma lookup_set_other : forall m p q v, p <> q -> lookup q (set_entry p v m) = lookup q m.
  Proof.
    induction m as [|[k w] r IH]; intros p q v Hn; cbn; [reflexivity|].
    destruct (String.eqb_spec k p); cbn.
    - subst. destruct (String.eqb_spec q p); [congruence|reflexivity].
    - destruct (String.eqb q k); [reflexivity|]. apply IH. assumption.
  Qed.
  Lemma set_entry_comm : forall m p q v w, p <> q -> set_entry p v (set_entry q w m) = set_entry q w (set_entry p v m).
  Proof.
    induction m as [|[k u] r IH]; intros p q v w Hn; cbn; [reflexivity|].
    destruct (String.eqb_spec k q), (String.eqb_spec k p); cbn; subst; try congruence.
    - rewrite String.eqb_refl. destruct (String.eqb_spec q p); [congruence|reflexivity].
    - rewrite String.eqb_refl. destruct (String.eqb_spec p q); [congruence|reflexivity].
    - destruct (String.eqb_spec k p), (String.eqb_spec k q); try congruence. f_equal. apply IH. assumption.
  Qed.
  Lemma at_get_other : forall m p q f, p <> q -> get_items q (for_items_mut p f m) = get_items q m.
  Proof.
    intros m p q f Hn. unfold get_items, for_items_mut. destruct (lookup p m); [|reflexivity].
    rewrite lookup_set_other by assumption. reflexivity.
  Qed.
  Lemma at_comm : forall m p q f g, p <> q -> for_items_mut p f (for_items_mut q g m) = for_items_mut q g (for_items_mut p f m).
  Proof.
    intros m p q f g Hn. unfold for_items_mut.
    destruct (lookup q m) eqn:Eq; destruct (lookup p m) eqn:Ep; rewrite ?lookup_set_other, ?Eq, ?Ep by congruence; auto.
    apply set_entry_comm. assumption.
  Qed.
End At.

Definition giving {T} {I : Item T} (p : string) (a : AnnotationSet) (m : ItemMap T) : ItemMap T := fst (give_annotations p a m).
Definition taking {T} {I : Item T} (p : string) (m : ItemMap T) : bool :=
  match get_items p m with Some xs => existsb (fun x => an_is_empty (i_annotations x)) xs | None => false end.

Definition with_types (l : Library) en st un op td : Library :=
  {| l_config := l_config l; l_constants := l_constants l; l_globals := l_globals l;
     l_enums := en; l_structs := st; l_unions := un; l_opaque_items := op; l_typedefs := td;
     l_functions := l_functions l; l_source_files := l_source_files l; l_package_version := l_package_version l |}.

Lemma transfer_one_eq : forall l p a,
  transfer_one l (p, a) =
  with_types l (giving p a (l_enums l))
    (if taking p (l_enums l) then l_structs l else giving p a (l_structs l))
    (if taking p (l_enums l) || taking p (l_structs l) then l_unions l else giving p a (l_unions l))
    (if taking p (l_enums l) || taking p (l_structs l) || taking p (l_unions l) then l_opaque_items l else giving p a (l_opaque_items l))
    (if taking p (l_enums l) || taking p (l_structs l) || taking p (l_unions l) || taking p (l_opaque_items l)
     then l_typedefs l else giving p a (l_typedefs l)).
Proof.
  intros l p a. unfold transfer_one, give_annotations.
  change (match get_items p (l_enums l) with Some xs => _ | None => _ end) with (taking p (l_enums l)).
  change (match get_items p (l_structs l) with Some xs => _ | None => _ end) with (taking p (l_structs l)).
  change (match get_items p (l_unions l) with Some xs => _ | None => _ end) with (taking p (l_unions l)).
  change (match get_items p (l_opaque_items l) with Some xs => _ | None => _ end) with (taking p (l_opaque_items l)).
  destruct (taking p (l_enums l)), (taking p (l_structs l)), (taking p (l_unions l)), (taking p (l_opaque_items l)); try reflexivity.
Qed.

Lemma taking_other : forall T (I : Item T) p q a (m : ItemMap T), p <> q -> taking q (giving p a m) = taking q m.
Proof. intros T I p q a m Hn. unfold taking, giving. cbn [fst give_annotations]. rewrite at_get_other by assumption. reflexivity. Qed.
Lemma taking_other_if : forall T (I : Item T) p q a (m : ItemMap T) (b : bool), p <> q -> taking q (if b then m else giving p a m) = taking q m.
Proof. intros T I p q a m [] Hn; [reflexivity|apply taking_other; assumption]. Qed.
Lemma giving_comm : forall T (I : Item T) p q a b (m : ItemMap T), p <> q -> giving p a (giving q b m) = giving q b (giving p a m).
Proof. intros. unfold giving. cbn [fst give_annotations]. apply at_comm. assumption. Qed.
Lemma giving_comm_if : forall T (I : Item T) p q a b (m : ItemMap T) (s t : bool), p <> q ->
  (if s then (if t then m else giving q b m) else giving p a (if t then m else giving q b m))
  = (if t then (if s then m else giving p a m) else giving q b (if s then m else giving p a m)).
Proof. intros T I p q a b m [] [] Hn; try reflexivity. apply giving_comm. assumption. Qed.

Lemma transfer_comm : forall l p q a b, p <> q -> transfer_one (transfer_one l (p, a)) (q, b) = transfer_one (transfer_one l (q, b)) (p, a).
Proof.
  intros l p q a b Hn. assert (Hn' : q <> p) by congruence. rewrite !transfer_one_eq.
  unfold with_types. cbn [l_config l_constants l_globals l_enums l_structs l_unions l_opaque_items l_typedefs l_functions l_source_files l_package_version].
  rewrite !taking_other, !taking_other_if by assumption.
  f_equal; auto using giving_comm, giving_comm_if.
Qed.

Lemma fold_comm : forall A B (key : B -> string) (f : A -> B -> A),
  (forall a x y, key x <> key y -> f (f a x) y = f (f a y) x) ->
  forall l l', Permutation l l' -> NoDup (map key l) -> forall a, fold_left f l a = fold_left f l' a.
Proof.
  intros A B key f Hc l l' Hp. induction Hp; intros Hn a; cbn.
  - reflexivity.
  - inversion Hn; subst. apply IHHp. assumption.
  - cbn in Hn. inversion Hn as [|? ? Hi _]; subst. rewrite Hc; [reflexivity|]. intros E. apply Hi. left. congruence.
  - rewrite IHHp1 by assumption. apply IHHp2. eapply Permutation_NoDup; [apply Permutation_map; exact Hp1|assumption].
Qed.

Lemma NoDup_snoc : forall A (l : list A) x, NoDup l -> ~ In x l -> NoDup (l ++ [x])%list.
Proof.
  intros A l x Hn Hx. eapply Permutation_NoDup; [apply Permutation_cons_append|]. constructor; assumption.
Qed.

Lemma take_one_nodup : forall t out, NoDup (map fst out) -> NoDup (map fst (snd (Typedef_transfer_annotations t out))).
Proof.
  intros t out Hn. unfold Typedef_transfer_annotations. destruct (an_is_empty _); [assumption|].
  destruct (get_root_path _) as [p|]; [|assumption]. destruct (lookup p out) eqn:E; [assumption|]. cbn.
  rewrite map_app. apply NoDup_snoc; [assumption|]. cbn. intros Hi. apply in_map_iff in Hi as ([k v] & <- & Hi). cbn in E.
  eapply lookup_None in E. apply E. apply in_map_iff. exists (k, v). auto.
Qed.
Lemma take_list_nodup : forall ts out, NoDup (map fst out) -> NoDup (map fst (snd (take_annotations_list ts out))).
Proof.
  induction ts as [|t r IH]; intros out Hn; cbn; [assumption|].
  pose proof (take_one_nodup t out Hn) as Hn'. destruct (Typedef_transfer_annotations t out) as [t' o1]. cbn in Hn'.
  specialize (IH o1 Hn'). destruct (take_annotations_list r o1). exact IH.
Qed.
Lemma take_nodup : forall m out, NoDup (map fst out) -> NoDup (map fst (snd (take_annotations m out))).
Proof.
  induction m as [|[p [ts|t]] r IH]; intros out Hn; cbn; [assumption| |].
  - pose proof (take_list_nodup ts out Hn) as Hn'. destruct (take_annotations_list ts out) as [t' o1]. cbn in Hn'.
    specialize (IH o1 Hn'). destruct (take_annotations r o1). exact IH.
  - pose proof (take_one_nodup t out Hn) as Hn'. destruct (Typedef_transfer_annotations t out) as [t' o1]. cbn in Hn'.
    specialize (IH o1 Hn'). destruct (take_annotations r o1). exact IH.
Qed.

Lemma transfer_any_order : forall visit visit' l,
  (forall xs, Permutation xs (visit xs)) -> (forall xs, Permutation xs (visit' xs)) ->
  transfer_annotations visit l = transfer_annotations visit' l.
Proof.
  intros visit visit' l Hv Hv'. unfold transfer_annotations.
  pose proof (take_nodup (l_typedefs l) [] (NoDup_nil _)) as Hn. destruct (take_annotations (l_typedefs l) []) as [td an]. cbn in Hn.
  assert (Hc : forall (a : Library) (x y : string * AnnotationSet), fst x <> fst y -> transfer_one (transfer_one a x) y = transfer_one (transfer_one a y) x).
  { intros a [p x] [q y] Hpq. apply transfer_comm. assumption. }
  rewrite <- (fold_comm _ _ fst transfer_one Hc _ _ (Hv an) Hn).
  rewrite <- (fold_comm _ _ fst transfer_one Hc _ _ (Hv' an) Hn). reflexivity.
Qed.

Lemma generate_any_order : forall (H : Heck) fuel visit visit' l,
  (forall xs, Permutation xs (visit xs)) -> (forall xs, Permutation xs (visit' xs)) ->
  generate fuel visit l = generate fuel visit' l.
Proof.
  intros H fuel visit visit' l Hv Hv'. unfold generate, prepare. rewrite (transfer_any_order visit visit' l Hv Hv'). reflexivity.
Qed.

(** ** What the transfer does to the definitions of one path *)
Lemma take_one_lookup : forall t out p,
  lookup p (snd (Typedef_transfer_annotations t out)) =
  match lookup p out with Some a => Some a | None => if donates p t then Some (t_annotations t) else None end.
Proof.
  intros t out p. unfold Typedef_transfer_annotations, donates. destruct (an_is_empty _); cbn [snd negb andb].
  { destruct (lookup p out); reflexivity. }
  destruct (get_root_path _) as [q|]; cbn [snd]; [|destruct (lookup p out); reflexivity].
  assert (Hl : forall (o : list (string * AnnotationSet)) a, lookup p (o ++ [(q, a)])%list =
    match lookup p o with Some b => Some b | None => if String.eqb q p then Some a else None end).
  { induction o as [|[k b] r IH]; intros a; cbn; [rewrite String.eqb_sym; reflexivity|]. destruct (String.eqb p k); [reflexivity|apply IH]. }
  destruct (lookup q out) eqn:Eq; cbn [snd].
  - destruct (String.eqb_spec q p); [subst; rewrite Eq; reflexivity|]. destruct (lookup p out); reflexivity.
  - apply Hl.
Qed.
Lemma take_list_lookup : forall ts out p, lookup p (snd (take_annotations_list ts out)) =
  match lookup p out with Some a => Some a | None => donated ts p end.
Proof.
  induction ts as [|t r IH]; intros out p; cbn; [destruct (lookup p out); reflexivity|].
  pose proof (take_one_lookup t out p) as E. destruct (Typedef_transfer_annotations t out) as [t' o1]. cbn in E.
  specialize (IH o1 p). destruct (take_annotations_list r o1). cbn in *. rewrite IH, E. unfold donated. cbn [find].
  destruct (lookup p out); [reflexivity|]. destruct (donates p t); reflexivity.
Qed.
Lemma donated_app : forall a b p, donated (a ++ b)%list p = match donated a p with Some x => Some x | None => donated b p end.
Proof. induction a as [|t r IH]; intros b p; cbn; [reflexivity|]. unfold donated in *. cbn [find app]. destruct (donates p t); [reflexivity|apply IH]. Qed.
Lemma take_lookup : forall m out p, lookup p (snd (take_annotations m out)) =
  match lookup p out with Some a => Some a | None => donated (to_vec m) p end.
Proof.
  induction m as [|[k [ts|t]] r IH]; intros out p; cbn [take_annotations]; [cbn [snd]; destruct (lookup p out); reflexivity| |].
  - pose proof (take_list_lookup ts out p) as E. destruct (take_annotations_list ts out) as [t' o1]. cbn in E.
    specialize (IH o1 p). destruct (take_annotations r o1). cbn [snd] in *. rewrite IH, E, to_vec_cons, donated_app. cbn [snd value_items].
    destruct (lookup p out); reflexivity.
  - pose proof (take_one_lookup t out p) as E. destruct (Typedef_transfer_annotations t out) as [t' o1]. cbn in E.
    specialize (IH o1 p). destruct (take_annotations r o1). cbn [snd] in *. rewrite IH, E, to_vec_cons, donated_app. cbn [snd value_items].
    destruct (lookup p out); [reflexivity|]. unfold donated. cbn [find]. destruct (donates p t); reflexivity.
Qed.

Record agree_at (p : string) (l k : Library) : Prop := {
  ag_en : get_items p (l_enums k) = get_items p (l_enums l);
  ag_st : get_items p (l_structs k) = get_items p (l_structs l);
  ag_un : get_items p (l_unions k) = get_items p (l_unions l);
  ag_op : get_items p (l_opaque_items k) = get_items p (l_opaque_items l);
  ag_td : get_items p (l_typedefs k) = get_items p (l_typedefs l) }.
Lemma agree_trans : forall p a b c, agree_at p a b -> agree_at p b c -> agree_at p a c.
Proof. intros p a b c [] []. constructor; congruence. Qed.
Lemma get_giving_other : forall T (I : Item T) p q a (m : ItemMap T), q <> p -> get_items p (giving q a m) = get_items p m.
Proof. intros. apply at_get_other. assumption. Qed.
Lemma transfer_one_other : forall l q a p, q <> p -> agree_at p l (transfer_one l (q, a)).
Proof.
  intros l q a p Hn. rewrite transfer_one_eq. constructor; cbn [with_types l_enums l_structs l_unions l_opaque_items l_typedefs];
    try (destruct (_ || _)); try (destruct (taking q (l_enums l))); try reflexivity; apply get_giving_other; assumption.
Qed.
Lemma transfer_fold_other : forall xs l p, ~ In p (map fst xs) -> agree_at p l (fold_left transfer_one xs l).
Proof.
  induction xs as [|[q a] r IH]; intros l p Hn; cbn [fold_left]; [constructor; reflexivity|].
  cbn in Hn. eapply agree_trans; [apply (transfer_one_other l q a p); tauto|]. apply IH. tauto.
Qed.

Lemma get_giving : forall T (I : Item T) p a (m : ItemMap T), get_items p (giving p a m) = option_map (map (annotate a)) (get_items p m).
Proof.
  intros T I p a m. unfold giving, get_items. cbn [give_annotations fst]. unfold for_items_mut.
  destruct (lookup p m) as [v|] eqn:E; [|rewrite E; reflexivity].
  assert (Hs : forall w, lookup p (set_entry p w m) = Some w).
  { clear -E. intros w. revert E. induction m as [|[k u] r IH]; cbn; [discriminate|]. rewrite (String.eqb_sym k p).
    destruct (String.eqb p k) eqn:Ek; cbn; rewrite Ek; auto. }
  rewrite Hs. cbn. rewrite value_items_map. reflexivity.
Qed.
Lemma annotate_bare : forall T (I : Item T) p a (m : ItemMap T), some_bare p m = false ->
  option_map (map (annotate a)) (get_items p m) = get_items p m.
Proof.
  intros T I p a m. unfold some_bare. destruct (get_items p m) as [xs|]; [|reflexivity]. intros He. cbn. f_equal.
  transitivity (map (fun x => x) xs); [|apply map_id]. apply map_ext_in. intros x Hx. unfold annotate.
  destruct (an_is_empty (i_annotations x)) eqn:Ea; [|reflexivity].
  assert (Ht : existsb (fun x => an_is_empty (i_annotations x)) xs = true) by (apply existsb_exists; eauto). congruence.
Qed.

(** The typedefs after taking: each donor loses its annotations. *)
Lemma take_typedefs : forall m out, trel (fun x y => y = x \/ (y = set_t_annotations AnnotationSet_new x
    /\ an_is_empty (t_annotations x) = false)) m (fst (take_annotations m out)).
Proof.
  assert (H1 : forall t out, let y := fst (Typedef_transfer_annotations t out) in
    y = t \/ (y = set_t_annotations AnnotationSet_new t /\ an_is_empty (t_annotations t) = false)).
  { intros t out. unfold Typedef_transfer_annotations. destruct (an_is_empty _) eqn:E; [now left|].
    destruct (get_root_path _); [|now left]. destruct (lookup _ _); [now left|]. right. auto. }
  assert (H2 : forall ts out, Forall2 (fun x y => y = x \/ (y = set_t_annotations AnnotationSet_new x
    /\ an_is_empty (t_annotations x) = false)) ts (fst (take_annotations_list ts out))).
  { induction ts as [|t r IH]; intros out; cbn; [constructor|]. pose proof (H1 t out) as E.
    destruct (Typedef_transfer_annotations t out) as [t' o1]. specialize (IH o1). destruct (take_annotations_list r o1). constructor; auto. }
  induction m as [|[k [ts|t]] r IH]; intros out; cbn [take_annotations]; [constructor| |].
  - pose proof (H2 ts out) as E. destruct (take_annotations_list ts out) as [t' o1]. specialize (IH o1).
    destruct (take_annotations r o1). constructor; auto.
  - pose proof (H1 t out) as E. destruct (Typedef_transfer_annotations t out) as [t' o1]. specialize (IH o1).
    destruct (take_annotations r o1). constructor; auto.
Qed.

Lemma transfer_effect : forall visit l p, (forall xs, Permutation xs (visit xs)) ->
  let l' := transfer_annotations visit l in
  match donated (to_vec (l_typedefs l)) p with
  | None => get_items p (l_enums l') = get_items p (l_enums l) /\ get_items p (l_structs l') = get_items p (l_structs l)
      /\ get_items p (l_unions l') = get_items p (l_unions l) /\ get_items p (l_opaque_items l') = get_items p (l_opaque_items l)
  | Some a =>
      let here {T} {I : Item T} (m m' : ItemMap T) := get_items p m' = option_map (map (annotate a)) (get_items p m) in
      let same {T} {I : Item T} (m m' : ItemMap T) := get_items p m' = get_items p m in
      if some_bare p (l_enums l) then
        here (l_enums l) (l_enums l') /\ same (l_structs l) (l_structs l') /\ same (l_unions l) (l_unions l') /\ same (l_opaque_items l) (l_opaque_items l')
      else if some_bare p (l_structs l) then
        same (l_enums l) (l_enums l') /\ here (l_structs l) (l_structs l') /\ same (l_unions l) (l_unions l') /\ same (l_opaque_items l) (l_opaque_items l')
      else if some_bare p (l_unions l) then
        same (l_enums l) (l_enums l') /\ same (l_structs l) (l_structs l') /\ here (l_unions l) (l_unions l') /\ same (l_opaque_items l) (l_opaque_items l')
      else
        same (l_enums l) (l_enums l') /\ same (l_structs l) (l_structs l') /\ same (l_unions l) (l_unions l') /\ here (l_opaque_items l) (l_opaque_items l')
  end.
Proof.
  intros visit l p Hv. rewrite (transfer_any_order visit (fun x => x) l Hv (fun xs => Permutation_refl xs)).
  unfold transfer_annotations.
  pose proof (take_nodup (l_typedefs l) [] (NoDup_nil _)) as Hn. pose proof (take_lookup (l_typedefs l) [] p) as Hl. cbn [lookup] in Hl.
  destruct (take_annotations (l_typedefs l) []) as [td an]. cbn [snd] in Hn, Hl.
  set (l0 := {| l_config := l_config l |}). cbn zeta. rewrite <- Hl. destruct (lookup p an) as [a|] eqn:E.
  - apply lookup_In in E. apply in_split in E as (x & y & ->). rewrite fold_left_app. cbn [fold_left].
    rewrite map_app in Hn. cbn [map fst] in Hn. apply NoDup_remove_2 in Hn. rewrite in_app_iff in Hn.
    destruct (transfer_fold_other x l0 p) as [A1 A2 A3 A4 A5]; [tauto|].
    set (k := fold_left transfer_one x l0) in *.
    destruct (transfer_fold_other y (transfer_one k (p, a)) p) as [B1 B2 B3 B4 B5]; [tauto|].
    rewrite B1, B2, B3, B4. clear B1 B2 B3 B4 B5. rewrite transfer_one_eq.
    cbn [with_types l_enums l_structs l_unions l_opaque_items l_typedefs]. rewrite get_giving.
    change (taking p (l_enums k)) with (some_bare p (l_enums k)). change (taking p (l_structs k)) with (some_bare p (l_structs k)).
    change (taking p (l_unions k)) with (some_bare p (l_unions k)).
    assert (S1 : some_bare p (l_enums k) = some_bare p (l_enums l)) by (unfold some_bare; rewrite A1; reflexivity).
    assert (S2 : some_bare p (l_structs k) = some_bare p (l_structs l)) by (unfold some_bare; rewrite A2; reflexivity).
    assert (S3 : some_bare p (l_unions k) = some_bare p (l_unions l)) by (unfold some_bare; rewrite A3; reflexivity).
    rewrite S1, S2, S3.
    destruct (some_bare p (l_enums l)) eqn:E1; cbn [orb]; [rewrite A1, A2, A3, A4; auto|].
    rewrite annotate_bare by congruence. rewrite A1.
    destruct (some_bare p (l_structs l)) eqn:E2; cbn [orb]; [rewrite get_giving, A2, A3, A4; auto|].
    rewrite get_giving, annotate_bare, A2 by congruence.
    destruct (some_bare p (l_unions l)) eqn:E3; cbn [orb]; [rewrite get_giving, A3, A4; auto|].
    rewrite !get_giving, annotate_bare, A3, A4 by congruence. auto.
  - apply lookup_None in E. destruct (transfer_fold_other an l0 p E) as [A1 A2 A3 A4 _]. auto.
Qed.

(** ** C39 *)
Lemma same_literal_occurs : forall a b q, same_literal a b -> (lit_occurs a q <-> lit_occurs b q).
Proof.
  induction a as [s|o n|op v IH|x op y IH1 IH2|v f IH|p e fs IH|t v IH|vs IH] using Literal_ind'; intros b q Hs;
    inversion Hs; subst; clear Hs;
    try match goal with Hl : same_literal v _ |- _ => specialize (IH _ q Hl) end;
    try match goal with Hl : same_literal x _ |- _ => specialize (IH1 _ q Hl) end;
    try match goal with Hl : same_literal y _ |- _ => specialize (IH2 _ q Hl) end.
  - tauto.
  - tauto.
  - split; intros Ho; inversion Ho; subst; constructor; tauto.
  - split; intros Ho; inversion Ho; subst; first [apply lo_left; tauto | apply lo_right; tauto].
  - split; intros Ho; inversion Ho; subst; constructor; tauto.
  - match goal with Hp : Permutation _ _ |- _ => rename Hp into HP end.
    match goal with Hp : Forall2 _ _ _ |- _ => rename Hp into HF end. split; intros Ho.
    + inversion Ho as [| | | | | |? ? ? n v cfg ? Hin Hv| |]; subst; [constructor|].
      pose proof (Permutation_in _ HP Hin) as Hin'.
      clear -IH HF Hin' Hv Hin. induction HF as [|[n1 [v1 c1]] [n2 [v2 c2]] r s (E1 & E2 & E3) Hr IHr]; [destruct Hin'|].
      cbn in *. destruct Hin' as [E|Hin'].
      * inversion E; subst. rewrite Forall_forall in IH. specialize (IH _ Hin). cbn in IH.
        eapply lo_member; [now left|]. apply (IH _ q E2). assumption.
      * specialize (IHr Hin'). inversion IHr; subst; [constructor|]. eapply lo_member; [right; eassumption|assumption].
    + inversion Ho as [| | | | | |? ? ? n v cfg ? Hin Hv0| |]; subst; [constructor|].
      assert (Hx : exists v', In (n, (v', cfg)) fs' /\ same_literal v' v).
      { clear -HF Hin. induction HF as [|[n1 [v1 c1]] [n2 [v2 c2]] r s (E1 & E2 & E3) Hr IHr]; [destruct Hin|]. cbn in *.
        destruct Hin as [E|Hin]; [inversion E; subst; exists v1; auto|]. destruct (IHr Hin) as (v' & ? & ?). exists v'. auto. }
      destruct Hx as (v' & Hi & Hv). apply (Permutation_in _ (Permutation_sym HP)) in Hi.
      rewrite Forall_forall in IH. specialize (IH _ Hi). cbn in IH.
      eapply lo_member; [exact Hi|]. apply (IH _ q Hv). assumption.
  - split; intros Ho; inversion Ho; subst; constructor; tauto.
  - match goal with Hp : Forall2 _ _ _ |- _ => rename Hp into HF end. split; intros Ho;
    inversion Ho as [| | | | | | | |? v ? Hin Hv]; subst; clear Ho; revert IH;
    induction HF as [|x y r s Hxy Hr IHr]; intros IH; try (destruct Hin; fail); inversion IH as [|? ? Hx Hrest]; subst;
    (destruct Hin as [<-|Hin];
     [ eapply lo_item; [now left|]; apply (Hx y q Hxy); assumption
     | specialize (IHr Hin Hrest); inversion IHr; subst; eapply lo_item; [right; eassumption|assumption]]).
Qed.

Lemma Forall2_In_l : forall A B (R : A -> B -> Prop) l l' x, Forall2 R l l' -> In x l -> exists y, In y l' /\ R x y.
Proof.
  intros A B R l l' x. induction 1 as [|a b r s Hab Hr IH]; [intros []|].
  intros [<-|Hx]; [exists b; split; [now left|assumption]|]. destruct (IH Hx) as (y & Hy & Hxy). exists y. split; [now right|assumption].
Qed.

Lemma same_lookup : forall l k, same_but_literals l k -> forall p, lib_get_items k p = lib_get_items l p.
Proof.
  intros l k (_ & E1 & _ & E2 & E3 & E4 & E5 & E6 & _) p. unfold lib_get_items, find_kind. rewrite E1, E2, E3, E4, E5, E6. reflexivity.
Qed.
Lemma same_exported : forall l k q, same_but_literals l k -> (exported l q <-> exported k q).
Proof.
  intros l k q S. pose proof (same_lookup l k S) as Hk.
  assert (Hi : forall p, items_of k p = items_of l p) by (intros p; unfold items_of; rewrite Hk; reflexivity).
  assert (Hr : forall p r, refers l p r <-> refers k p r).
  { intros p r. unfold refers, known. rewrite Hk, Hi. tauto. }
  assert (Hc : forall p r, reaches l p r <-> reaches k p r).
  { intros p r. unfold reaches. split; induction 1; try (apply Relation_Operators.rt_refl);
      try (eapply Relation_Operators.rt_trans; eassumption); apply Relation_Operators.rt_step; apply Hr; assumption. }
  assert (Hroot : forall r, root l r <-> root k r).
  { intros r. unfold root, known. rewrite Hk. destruct S as (S0 & E1 & E2 & _ & _ & _ & _ & _ & E8). rewrite E1, E2, E8.
    assert (Hm : (exists c, In c (to_vec (l_constants l)) /\ const_mentions c r) <-> (exists c, In c (to_vec (l_constants k)) /\ const_mentions c r)).
    { split.
      - intros (c & Hc1 & Hc2). destruct (Forall2_In_l _ _ _ _ _ _ S0 Hc1) as (d & Hd & (_ & _ & Et & Ev & _)). exists d. split; [assumption|].
        unfold const_mentions in *. rewrite Et. rewrite <- (same_literal_occurs _ _ r Ev). assumption.
      - intros (c & Hc1 & Hc2). destruct (Forall2_In_r _ _ _ _ _ _ S0 Hc1) as (d & Hd & (_ & _ & Et & Ev & _)). exists d. split; [assumption|].
        unfold const_mentions in *. rewrite Et in Hc2. rewrite (same_literal_occurs _ _ r Ev). assumption. }
    tauto. }
  unfold exported. split; intros (r & H1 & H2); exists r; (split; [apply Hroot; assumption|apply Hc; assumption]).
Qed.
Lemma same_items : forall l k b c, same_but_literals l k -> finish l = Done b -> finish k = Done c ->
  forall i, In i (b_items b) <-> In i (b_items c).
Proof.
  intros l k b c S Hb Hc i. rewrite (finish_items l b i Hb), (finish_items k c i Hc).
  assert (Hi : forall p, items_of k p = items_of l p) by (intros p; unfold items_of; rewrite (same_lookup l k S); reflexivity).
  split; intros (q & Hq & Hx); exists q; (split; [apply (same_exported l k q S); assumption|]); rewrite ?Hi in *; assumption.
Qed.
