(** Proofs about names that are defined twice. *)
Require Import Coq.Strings.String Coq.Lists.List Coq.Bool.Bool Coq.Sorting.Permutation.
From Verif Require Import Base P_Base M_Config M_Cfg M_Type M_Ir M_Item M_Library S_Item S_Sort S_Library S_Names P_Sort P_Item P_Table P_Library P_NamesLib S_Twice.
Import ListNotations.
Open Scope string_scope.

Section Pairs.
  Context {A : Type} (R : A -> A -> Prop) (SY : forall x y, R x y -> R y x).
  Lemma pairs_app l m : ForallOrdPairs R l -> ForallOrdPairs R m -> (forall x y, In x l -> In y m -> R x y) -> ForallOrdPairs R (l ++ m).
  Proof.
    induction 1 as [|x r F L IH]; intros M C; cbn [app]; [exact M|]. constructor.
    - apply Forall_app. split; [exact F|]. apply Forall_forall. intros y Y. apply C; [left; reflexivity|exact Y].
    - apply IH; [exact M|]. intros a b A0 B0. apply C; [right; exact A0|exact B0].
  Qed.
  Lemma pairs_perm l m : Permutation l m -> ForallOrdPairs R l -> ForallOrdPairs R m.
  Proof.
    induction 1 as [|x l m P IH|x y l|l m n P1 I1 P2 I2]; intro F.
    - exact F.
    - inversion F as [|? ? F1 F2]; subst. constructor; [exact (Permutation_Forall P F1)|exact (IH F2)].
    - inversion F as [|? ? F1 F2]; subst. inversion F2 as [|? ? F3 F4]; subst. inversion F1 as [|? ? F5 F6]; subst.
      constructor; [constructor; [apply SY; exact F5|exact F3]|]. constructor; [exact F6|exact F4].
    - auto.
  Qed.
  Lemma pairs_concat {K} (g : K -> list A) (name : A -> K) ps :
    (forall p x, In p ps -> In x (g p) -> name x = p) -> (forall p, In p ps -> ForallOrdPairs R (g p)) -> (forall x y, name x <> name y -> R x y) ->
    NoDup ps -> ForallOrdPairs R (concat (map g ps)).
  Proof.
    intros N G D. induction ps as [|p r IH]; intro ND; cbn [map concat]; [constructor|]. inversion ND as [|? ? NI ND']; subst.
    apply pairs_app.
    - apply G. left. reflexivity.
    - apply IH; [| |exact ND']; intros; [apply N|apply G]; auto; right; assumption.
    - intros x y X Y. apply in_concat in Y as (l & L & Y). apply in_map_iff in L as (q & <- & Q). apply D.
      rewrite (N p x (or_introl eq_refl) X), (N q y (or_intror Q) Y). intros ->. exact (NI Q).
  Qed.
End Pairs.

(** In one entry of a table: one definition, or several with conditions. *)
Lemma entry_items : forall T (I : Item T) (m : ItemMap T) p xs, wf m -> get_items p m = Some xs ->
  Forall (fun x => i_path x = p) xs /\ (length xs = 1 \/ Forall (fun x => i_cfg x <> None) xs).
Proof.
  intros T I m p xs W E. split; [exact (proj2 (wf_get _ _ _ _ _ W E))|]. unfold get_items in E.
  destruct (lookup p m) as [v|] eqn:L; [|discriminate]. injection E as <-. apply (lookup_nodup _ _ _ (wf_keys _ W)) in L.
  pose proof (wf_entries _ W) as F. rewrite Forall_forall in F. destruct (F _ L) as (_ & _ & K). cbn [snd] in K. destruct v as [l|x]; [right|left; reflexivity].
  cbn [kind_ok value_items] in *. revert K. apply Forall_impl. intros a G. unfold guarded in G. intro Z. rewrite Z in G. discriminate.
Qed.
Lemma entry_pairs : forall T (R : T -> T -> Prop) (C : T -> Prop) xs, length xs = 1 \/ Forall C xs -> (forall x y, C x -> C y -> R x y) -> ForallOrdPairs R xs.
Proof.
  intros T R C xs [L|F] E.
  - destruct xs as [|x [|y r]]; try discriminate. repeat constructor.
  - induction F as [|x r X F IH]; constructor; [|exact IH]. revert F. apply Forall_impl. intros y Y. apply E; assumption.
Qed.

Lemma kind_entry : forall T (I : Item T) (m : ItemMap T) (mk : T -> ItemContainer) k p xs, reachable m ->
  (forall x, ic_path (mk x) = i_path x) -> (forall x, condition_of (mk x) = i_cfg x) -> (forall x, kind_of (mk x) = k) -> get_items p m = Some xs ->
  Forall (fun i => ic_path i = p) (map mk xs) /\ ForallOrdPairs (fun x y => ic_path x = ic_path y -> condition_of x <> None /\ condition_of y <> None /\ kind_of x = kind_of y) (map mk xs).
Proof.
  intros T I m mk k p xs W P C K G. apply reachable_wf in W. destruct (entry_items _ _ _ _ _ W G) as [A B]. split.
  - apply Forall_map. revert A. apply Forall_impl. intros x E. rewrite P. exact E.
  - apply (entry_pairs _ _ (fun i => condition_of i <> None /\ kind_of i = k)).
    + destruct B as [B|B]; [left; rewrite map_length; exact B|right]. apply Forall_map. revert B. apply Forall_impl. intros x E. rewrite C, K. auto.
    + intros x y [X1 X2] [Y1 Y2] _. rewrite X2, Y2. auto.
Qed.
Lemma items_entry : forall l p, tables_built l ->
  Forall (fun i => ic_path i = p) (items_of l p)
  /\ ForallOrdPairs (fun x y => ic_path x = ic_path y -> condition_of x <> None /\ condition_of y <> None /\ kind_of x = kind_of y) (items_of l p).
Proof.
  intros l p [TE TS TU TO TT]. unfold items_of. destruct (lib_get_items l p) as [items|] eqn:E; [|split; constructor]. unfold lib_get_items in E.
  apply find_kind_inv in E as [(xs & G & ->)|E]; [eapply (kind_entry _ _ _ ICEnum Enums); [exact TE|reflexivity|reflexivity|reflexivity|exact G]|].
  apply find_kind_inv in E as [(xs & G & ->)|E]; [eapply (kind_entry _ _ _ ICStruct Structs); [exact TS|reflexivity|reflexivity|reflexivity|exact G]|].
  apply find_kind_inv in E as [(xs & G & ->)|E]; [eapply (kind_entry _ _ _ ICUnion Unions); [exact TU|reflexivity|reflexivity|reflexivity|exact G]|].
  apply find_kind_inv in E as [(xs & G & ->)|E]; [eapply (kind_entry _ _ _ ICOpaque OpaqueItems); [exact TO|reflexivity|reflexivity|reflexivity|exact G]|].
  apply find_kind_inv in E as [(xs & G & ->)|E]; [eapply (kind_entry _ _ _ ICTypedef Typedefs); [exact TT|reflexivity|reflexivity|reflexivity|exact G]|discriminate].
Qed.
Lemma types_once : forall (H : Heck) fuel visit l b, generate fuel visit l = Done b -> only_alternatives ic_path condition_of kind_of (b_items b).
Proof.
  intros H fuel visit l b G. apply generate_inv in G as (l' & P & F & _). apply prepare_stages in P as (l1 & l2 & l3 & l4 & S). destruct S as [_ _ _ _ S5].
  apply rename_tables in S5. destruct (finish_spec _ _ F) as (d & ps & -> & -> & ND & _).
  unfold only_alternatives. eapply pairs_perm; [|apply d_sort_perm|].
  - intros x y R E. destruct (R (eq_sym E)) as (A & B & C). auto.
  - apply (pairs_concat _ (items_of l') ic_path); [| | |exact ND].
    + intros p x _ X. destruct (items_entry l' p S5) as [A _]. rewrite Forall_forall in A. auto.
    + intros p _. apply items_entry. exact S5.
    + intros x y N E. contradiction.
Qed.

Lemma table_once : forall T (I : Item T) (m : ItemMap T), wf m -> only_alternatives i_path i_cfg (fun _ => tt) (to_vec m).
Proof.
  intros T I m W. unfold only_alternatives, to_vec. pose proof (wf_keys _ W) as N.
  replace (concat (map (fun e => value_items (snd e)) m)) with (concat (map (fun p => match get_items p m with Some xs => xs | None => [] end) (map fst m))).
  - apply (pairs_concat _ (fun p => match get_items p m with Some xs => xs | None => [] end) i_path); [| | |exact N].
    + intros p x _ X. destruct (get_items p m) as [xs|] eqn:G; [|destruct X]. destruct (entry_items _ _ m p xs W G) as [A _].
      rewrite Forall_forall in A. auto.
    + intros p _. destruct (get_items p m) as [xs|] eqn:G; [|constructor]. destruct (entry_items _ _ m p xs W G) as [_ B].
      eapply entry_pairs; [exact B|]. auto.
    + intros x y K E. contradiction.
  - rewrite map_map. f_equal. apply map_ext_in. intros [p v] E. cbn [fst snd]. unfold get_items. apply (lookup_nodup _ _ _ N) in E. rewrite E. reflexivity.
Qed.

Lemma sorted_perm : forall A (path : A -> string) k (l : list A), Permutation l (sort_by_path path k l).
Proof. intros A path [|] l; cbn [sort_by_path]; [apply (sort_perm (fun a b => str_leb (path a) (path b)))|apply Permutation_refl]. Qed.
Lemma alternatives_perm : forall A K (name : A -> string) condition (kind : A -> K) l m, Permutation l m ->
  only_alternatives name condition kind l -> only_alternatives name condition kind m.
Proof.
  intros A K name condition kind l m P. apply pairs_perm; [|exact P]. intros x y R E. destruct (R (eq_sym E)) as (U & V & W). auto.
Qed.
Lemma values_once : forall (H : Heck) fuel visit l b, generate fuel visit l = Done b ->
  only_alternatives c_path c_cfg (fun _ => tt) (b_constants b) /\ only_alternatives g_path g_cfg (fun _ => tt) (b_globals b).
Proof.
  intros H fuel visit l b G. apply generate_inv in G as (l' & P & F & _). apply prepare_stages in P as (l1 & l2 & l3 & l4 & S). destruct S as [_ _ _ _ S5].
  apply rename_rest in S5 as (_ & EC & EG & _). unfold finish in F. destruct (library_dependencies l') as [d| |]; try discriminate. injection F as <-. cbn [b_constants b_globals].
  split.
  - destruct (should_generate _ _); [|constructor]. eapply alternatives_perm; [apply sorted_perm|]. apply (table_once Constant Item_Constant (l_constants l')). rewrite EC. apply wf_rebuilt.
  - destruct (should_generate _ _); [|constructor]. eapply alternatives_perm; [apply sorted_perm|]. apply (table_once Static Item_Static (l_globals l')). rewrite EG. apply wf_rebuilt.
Qed.

Lemma pairs_impl : forall A (R Q : A -> A -> Prop) l, (forall x y, In x l -> In y l -> R x y -> Q x y) -> ForallOrdPairs R l -> ForallOrdPairs Q l.
Proof.
  intros A R Q l I F. induction F as [|x r X F IH]; constructor.
  - rewrite Forall_forall in *. intros y Y. apply I; [left; reflexivity|right; exact Y|apply X, Y].
  - apply IH. intros a b A0 B0. apply I; right; assumption.
Qed.
Lemma names_once : forall (H : Heck) fuel visit l b, as_loaded l -> generate fuel visit l = Done b -> told_apart (l_config l) (map ic_path (b_items b)) ->
  only_alternatives ic_export_name condition_of kind_of (b_items b).
Proof.
  intros H fuel visit l b A G T. pose proof (types_once _ _ _ _ _ G) as O. destruct (names_spec H fuel visit l b A G) as [_ N]. rewrite Forall_forall in N.
  revert O. apply pairs_impl. intros x y X Y R E. apply R. apply T; [apply in_map, X|apply in_map, Y|]. rewrite <- (N x X), <- (N y Y). exact E.
Qed.
Lemma no_renames_apart : forall c names, ex_rename (export c) = [] -> told_apart c names.
Proof.
  intros c names E p q _ _. unfold export_rename. rewrite E. cbn [lookup]. destruct (ex_prefix (export c)) as [x|]; [apply sapp_inj_l|auto].
Qed.
