(** Proofs about types: simplification (C14) and substitution (C15). *)
Require Import Coq.Strings.String Coq.Strings.Ascii Coq.Lists.List Coq.Bool.Bool Coq.Arith.Arith Coq.micromega.Lia.
From Verif Require Import Base P_Base S_Lex M_Config M_Type S_Type.
Import ListNotations.
Open Scope string_scope.

(** Induction over the nested mutual inductive. *)
Section TyInd.
Variable P : Ty -> Prop.
Variable Pg : GenericPath -> Prop.
Variable Pa : GenericArgument -> Prop.
Variable Pe : ConstExpr -> Prop.
Hypothesis Hptr : forall t c n r, P t -> P (TPtr t c n r).
Hypothesis Hpath : forall g, Pg g -> P (TPath g).
Hypothesis Hprim : forall p, P (TPrim p).
Hypothesis Harr : forall t e, P t -> Pe e -> P (TArray t e).
Hypothesis Hfn : forall r args n nr, P r -> Forall (fun a => P (snd a)) args -> P (TFuncPtr r args n nr).
Hypothesis Hg : forall p e gs ct, Forall Pa gs -> Pg (GPath p e gs ct).
Hypothesis Hty : forall t, P t -> Pa (GType t).
Hypothesis Hco : forall e, Pe e -> Pa (GConst e).
Hypothesis Hep : forall g, Pg g -> Pe (EPath g).
Hypothesis Hev : forall s, Pe (EValue s).
Fixpoint Ty_ind' (t : Ty) : P t :=
  match t return P t with
  | TPtr u c n r => Hptr u c n r (Ty_ind' u)
  | TPath g => Hpath g (GPath_ind' g)
  | TPrim p => Hprim p
  | TArray u e => Harr u e (Ty_ind' u) (CE_ind' e)
  | TFuncPtr r args n nr =>
      Hfn r args n nr (Ty_ind' r)
        ((fix go (l : list (option string * Ty)) : Forall (fun a => P (snd a)) l :=
            match l with
            | [] => Forall_nil _
            | a :: q => Forall_cons a (Ty_ind' (snd a)) (go q)
            end) args)
  end
with GPath_ind' (g : GenericPath) : Pg g :=
  match g return Pg g with
  | GPath p e gs ct =>
      Hg p e gs ct ((fix go (l : list GenericArgument) : Forall Pa l :=
                       match l with
                       | [] => Forall_nil _
                       | a :: q => Forall_cons a (GA_ind' a) (go q)
                       end) gs)
  end
with GA_ind' (a : GenericArgument) : Pa a :=
  match a return Pa a with
  | GType t => Hty t (Ty_ind' t)
  | GConst e => Hco e (CE_ind' e)
  end
with CE_ind' (e : ConstExpr) : Pe e :=
  match e return Pe e with
  | EPath g => Hep g (GPath_ind' g)
  | EValue s => Hev s
  end.
Definition Ty_mut_ind : (forall t, P t) /\ (forall g, Pg g) /\ (forall a, Pa a) /\ (forall e, Pe e) :=
  conj Ty_ind' (conj GPath_ind' (conj GA_ind' CE_ind')).
End TyInd.

(** Induction when only types matter. *)
Definition arg_ty (P : Ty -> Prop) (a : GenericArgument) : Prop :=
  match a with GType t => P t | GConst _ => True end.
Lemma Ty_only_ind : forall P : Ty -> Prop,
  (forall t c n r, P t -> P (TPtr t c n r)) ->
  (forall p e gs ct, Forall (arg_ty P) gs -> P (TPath (GPath p e gs ct))) ->
  (forall p, P (TPrim p)) ->
  (forall t e, P t -> P (TArray t e)) ->
  (forall r args n nr, P r -> Forall (fun a => P (snd a)) args -> P (TFuncPtr r args n nr)) ->
  forall t, P t.
Proof.
  intros P H1 H2 H3 H4 H5.
  apply (Ty_ind' P (fun g => P (TPath g)) (arg_ty P) (fun _ => True)); auto.
Qed.

(** ** C14 *)
Lemma str_case : forall (n s : string), n = s \/ String.eqb n s = false.
Proof. intros n s. destruct (String.eqb n s) eqn:E; [left; apply String.eqb_eq, E|right; reflexivity]. Qed.

Lemma simplified_type_path : forall lang n e gs ct,
  simplified_type lang (TPath (GPath n e gs ct)) =
  match gs with
  | [GType u] => simplify_wrapper lang n (match simplified_type lang u with Some g => g | None => u end)
  | _ => None
  end.
Proof. intros. destruct gs as [|[u|c] [|b l]]; reflexivity. Qed.

(** One wrapper: simplified exactly when it has to vanish. *)
Lemma wrapper_exact : forall lang n e u ct,
  (simplify_wrapper lang n u = None <-> must_vanish lang (TPath (GPath n e [GType u] ct)) = false).
Proof.
  intros lang n e u ct. unfold simplify_wrapper, must_vanish.
  destruct (str_case n "Option") as [->|E1].
  { cbn. destruct (negb (Language_eqb lang Cxx)); cbn;
    destruct u as [t c [|] r|g|[| | | | | | | | | |[|] s k]|t l|r a [|] nr]; cbn; split; congruence. }
  destruct (str_case n "NonNull") as [->|E2]; [cbn; split; congruence|].
  destruct (str_case n "NonZero") as [->|E3].
  { cbn. destruct (negb (Language_eqb lang Cxx)); cbn;
    destruct u as [t c [|] r|g|[| | | | | | | | | |[|] s k]|t l|r a [|] nr]; cbn; split; congruence. }
  destruct (str_case n "Box") as [->|E4].
  { destruct lang; cbn; split; congruence. }
  cbn [mem_str]. rewrite E1, E2, E3, E4.
  destruct (String.eqb n "SyncUnsafeCell"); [cbn; split; congruence|].
  destruct (String.eqb n "UnsafeCell"); [cbn; split; congruence|].
  destruct (String.eqb n "Cell"); [cbn; split; congruence|].
  destruct (String.eqb n "ManuallyDrop"), (String.eqb n "MaybeUninit"), (String.eqb n "Pin"), lang;
    cbn; split; congruence.
Qed.

Definition or_self (o : option Ty) (t : Ty) := match o with Some u => u | None => t end.

Lemma wrapper_result : forall lang n u v, simplified lang u = true ->
  simplify_wrapper lang n u = Some v -> simplified lang v = true.
Proof.
  intros lang n u v Hu. unfold simplify_wrapper.
  assert (Hn : forall w, make_nullable u = Some w -> simplified lang w = true).
  { intros w. destruct u as [t c [|] r|g|p|t l|r a [|] nr]; cbn; intro E; inversion E; subst; exact Hu. }
  assert (Hz : forall b w, make_zeroable u b = Some w -> simplified lang w = true).
  { intros b w. destruct u as [t c nn r|g|[| | | | | | | | | |z s k]|t l|r a nn nr]; cbn; try discriminate.
    destruct (Bool.eqb z b); intro E; inversion E; reflexivity. }
  destruct (String.eqb n "Option").
  { destruct (make_nullable u) eqn:E; intro X; [inversion X; subst; auto|eauto]. }
  destruct (String.eqb n "NonNull"). { intro X; inversion X; subst. exact Hu. }
  destruct (String.eqb n "NonZero"). { eauto. }
  destruct (_ && _). { intro X; inversion X; subst. exact Hu. }
  destruct (mem_str _ _). { intro X; inversion X; subst. exact Hu. }
  destruct (_ && _); intro X; inversion X; subst. exact Hu.
Qed.

Lemma simplified_stable : forall lang t, simplified lang t = true -> simplified_type lang t = None.
Proof.
  intro lang.
  apply (Ty_only_ind (fun t => simplified lang t = true -> simplified_type lang t = None)); try reflexivity.
  intros p e gs ct HF Hs. rewrite simplified_type_path.
  destruct gs as [|[u|c] [|b l]]; try reflexivity.
  inversion HF; subst. cbn [arg_ty] in *.
  change (negb (must_vanish lang (TPath (GPath p e [GType u] ct))) && (simplified lang u && true) = true) in Hs.
  apply andb_prop in Hs as [Hv Hu]. rewrite andb_true_r in Hu.
  rewrite H1 by exact Hu. apply wrapper_exact with (e := e) (ct := ct).
  destruct (must_vanish _ _); [discriminate|reflexivity].
Qed.

Lemma simplify_id : forall lang t, simplified lang t = true -> simplify_standard_types lang t = t.
Proof.
  intro lang.
  apply (Ty_only_ind (fun t => simplified lang t = true -> simplify_standard_types lang t = t)).
  - intros t c n r IH Hs. cbn in *. rewrite IH; auto.
  - intros p e gs ct HF Hs.
    assert (Hst := simplified_stable lang _ Hs).
    cbn [simplified] in Hs. apply andb_prop in Hs as [_ Hs].
    assert (E : map (fun g => match g with GType u => GType (simplify_standard_types lang u) | GConst x => GConst x end) gs = gs).
    { clear Hst. induction HF as [|a l Ha HF IH]; [reflexivity|]. cbn [forallb] in Hs. apply andb_prop in Hs as [H1 H2].
      cbn [map]. rewrite IH by exact H2. destruct a; cbn in *; [rewrite Ha by exact H1|]; reflexivity. }
    cbn [simplify_standard_types]. rewrite E. rewrite Hst. reflexivity.
  - reflexivity.
  - intros t e IH Hs. cbn in *. rewrite IH; auto.
  - intros r args n nr IH HF Hs. cbn in *. apply andb_prop in Hs as [H1 H2]. rewrite IH by exact H1.
    f_equal. induction HF as [|a l Ha HF IHl]; [reflexivity|]. cbn in *. apply andb_prop in H2 as [H2 H3].
    rewrite Ha by exact H2. rewrite IHl by exact H3. destruct a; reflexivity.
Qed.

Lemma simplify_simplified : forall lang t, simplified lang (simplify_standard_types lang t) = true.
Proof.
  intro lang.
  apply (Ty_only_ind (fun t => simplified lang (simplify_standard_types lang t) = true)).
  - intros t c n r IH. cbn. exact IH.
  - intros p e gs ct HF. cbn [simplify_standard_types].
    set (gs' := map _ gs).
    assert (Hall : forallb (fun g => match g with GType u => simplified lang u | GConst _ => true end) gs' = true).
    { subst gs'. induction HF as [|a l Ha HF IH]; [reflexivity|]. cbn [map forallb]. rewrite IH.
      destruct a; cbn in *; [rewrite Ha|]; reflexivity. }
    rewrite simplified_type_path.
    assert (Hkeep : must_vanish lang (TPath (GPath p e gs' ct)) = false -> simplified lang (TPath (GPath p e gs' ct)) = true).
    { intro E. cbn [simplified]. rewrite E, Hall. reflexivity. }
    destruct gs' as [|[u|c] [|b l]]; try (apply Hkeep; reflexivity).
    cbn in Hall. rewrite andb_true_r in Hall.
    rewrite (simplified_stable lang u Hall).
    destruct (simplify_wrapper lang p u) eqn:E.
    + eapply wrapper_result; eauto.
    + apply Hkeep. apply wrapper_exact. exact E.
  - reflexivity.
  - intros t e IH. cbn. exact IH.
  - intros r args n nr IH HF. cbn. rewrite IH. cbn.
    induction HF as [|a l Ha HF IHl]; [reflexivity|]. cbn. rewrite Ha, IHl. reflexivity.
Qed.

Lemma simplify_idempotent : forall lang t,
  simplify_standard_types lang (simplify_standard_types lang t) = simplify_standard_types lang t.
Proof. intros. apply simplify_id, simplify_simplified. Qed.

(** Representation. *)
Definition named_of (n : string) (gs : list GenericArgument) : shape * bool :=
  (ShNamed n (map (fun g => match g with
                            | GType u => inl (fst (abi u))
                            | GConst e => inr e
                            end) gs), false).
Lemma abi_path1 : forall n e u ct,
  abi (TPath (GPath n e [GType u] ct)) =
  if pointer_wrapper n then (ShPtr false false (fst (abi u)), true)
  else if thin_wrapper n then abi u
  else if hiding_wrapper n then (fst (abi u), false)
  else if String.eqb n "Option" then if snd (abi u) then (fst (abi u), false) else named_of n [GType u]
  else if String.eqb n "NonZero" then
    match abi u with (ShInt s k, false) => (ShInt s k, true) | _ => named_of n [GType u] end
  else named_of n [GType u].
Proof. reflexivity. Qed.
Lemma abi_path_other : forall n e gs ct, (forall u, gs <> [GType u]) ->
  abi (TPath (GPath n e gs ct)) = named_of n gs.
Proof. intros n e gs ct Hn. destruct gs as [|[u|c] [|b l]]; try reflexivity. elim (Hn u). reflexivity. Qed.

Lemma named_cong : forall lang p gs,
  Forall (arg_ty (fun t => no_option_over_cell t = true ->
    fst (abi (simplify_standard_types lang t)) = fst (abi t)
    /\ (hides t = false -> snd (abi (simplify_standard_types lang t)) = snd (abi t)))) gs ->
  forallb (fun g => match g with GType u => no_option_over_cell u | GConst _ => true end) gs = true ->
  named_of p (map (fun g => match g with GType u => GType (simplify_standard_types lang u) | GConst x => GConst x end) gs)
  = named_of p gs.
Proof.
  intros lang p gs HF Hall. unfold named_of. do 2 f_equal. rewrite map_map.
  induction HF as [|a l Ha HF IH]; [reflexivity|]. cbn [forallb] in Hall. apply andb_prop in Hall as [H1 H2].
  cbn [map]. rewrite IH by exact H2. f_equal. destruct a; cbn in *; [|reflexivity].
  destruct (Ha H1) as [-> _]. reflexivity.
Qed.

Lemma simplify_abi : forall lang t, no_option_over_cell t = true ->
  fst (abi (simplify_standard_types lang t)) = fst (abi t)
  /\ (hides t = false -> snd (abi (simplify_standard_types lang t)) = snd (abi t)).
Proof.
  intro lang.
  apply (Ty_only_ind (fun t => no_option_over_cell t = true ->
    fst (abi (simplify_standard_types lang t)) = fst (abi t)
    /\ (hides t = false -> snd (abi (simplify_standard_types lang t)) = snd (abi t)))).
  - intros t c n r IH Hs. cbn in *. destruct IH as [E _]; auto. rewrite E. auto.
  - intros p e gs ct HF Hs. cbn [no_option_over_cell] in Hs. apply andb_prop in Hs as [Hall Hone].
    cbn [simplify_standard_types]. rewrite simplified_type_path.
    destruct gs as [|[u|c] [|b l]].
    + cbn. auto.
    + cbn [map]. inversion HF; subst. cbn [arg_ty] in H1. cbn in Hall. rewrite andb_true_r in Hall.
      destruct (H1 Hall) as [Hf Hn].
      set (v := simplify_standard_types lang u) in *.
      assert (Hsv : simplified_type lang v = None) by (apply simplified_stable, simplify_simplified).
      rewrite Hsv. rewrite !abi_path1.
      assert (Hnamed : forall m, named_of m [GType v] = named_of m [GType u])
        by (intro m; unfold named_of; cbn; rewrite Hf; reflexivity).
      unfold simplify_wrapper.
      destruct (str_case p "Option") as [->|E1].
      { cbn in Hone. apply negb_true_iff in Hone. specialize (Hn Hone).
        change (pointer_wrapper "Option") with false. change (thin_wrapper "Option") with false.
        change (hiding_wrapper "Option") with false. cbn [String.eqb Ascii.eqb Bool.eqb]. cbn iota.
        assert (Habi : abi v = abi u) by (rewrite (surjective_pairing (abi v)), (surjective_pairing (abi u)), Hf, Hn; reflexivity).
        rewrite <- Habi.
        assert (G : abi (match match make_nullable v with Some t => Some t | None => make_zeroable v true end with
                    | Some w => w | None => TPath (GPath "Option" e [GType v] ct) end)
                    = if snd (abi v) then (fst (abi v), false) else named_of "Option" [GType u]).
        { rewrite <- Hnamed.
          destruct v as [t c [|] r|[gn ge gl gc]|[| | | | | | | | | |[|] s k]|t lx|r a [|] nr] eqn:Ev; try reflexivity.
        }
        destruct (match make_nullable v with Some t => Some t | None => make_zeroable v true end) eqn:Em;
          rewrite G; auto. }
      destruct (str_case p "NonZero") as [->|E3].
      { cbn in Hone. apply negb_true_iff in Hone. specialize (Hn Hone).
        change (pointer_wrapper "NonZero") with false. change (thin_wrapper "NonZero") with false.
        change (hiding_wrapper "NonZero") with false. cbn [String.eqb Ascii.eqb Bool.eqb]. cbn iota.
        assert (Habi : abi v = abi u) by (rewrite (surjective_pairing (abi v)), (surjective_pairing (abi u)), Hf, Hn; reflexivity).
        rewrite <- Habi. rewrite <- Hnamed.
        assert (G : abi (match make_zeroable v false with
                    | Some w => w | None => TPath (GPath "NonZero" e [GType v] ct) end)
                    = match abi v with (ShInt s k, false) => (ShInt s k, true) | _ => named_of "NonZero" [GType v] end).
        { destruct v as [t c nn r|g|[| | | | | | | | | |[|] s k]|t lx|r a nn nr] eqn:Ev; reflexivity. }
        destruct (make_zeroable v false) eqn:Em; rewrite G; auto. }
      destruct (str_case p "NonNull") as [->|E2]; [cbn; rewrite Hf; auto|].
      destruct (str_case p "Box") as [->|E4].
      { destruct lang; cbn; rewrite Hf; auto. }
      rewrite E1, E2, E3, E4. cbn [andb].
      destruct (str_case p "SyncUnsafeCell") as [->|E5]; [cbn; split; [exact Hf|discriminate]|].
      destruct (str_case p "UnsafeCell") as [->|E6]; [cbn; split; [exact Hf|discriminate]|].
      destruct (str_case p "Cell") as [->|E7]; [cbn; split; [exact Hf|discriminate]|].
      destruct (str_case p "MaybeUninit") as [->|E8].
      { destruct lang; cbn; rewrite ?Hf; split; auto; discriminate. }
      destruct (str_case p "ManuallyDrop") as [->|E9].
      { destruct lang; cbn -[abi]; rewrite ?abi_path1; cbn -[abi];
        (split; [exact Hf|intro X; apply Hn; exact X]). }
      destruct (str_case p "Pin") as [->|E10].
      { destruct lang; cbn -[abi]; rewrite ?abi_path1; cbn -[abi];
        (split; [exact Hf|intro X; apply Hn; exact X]). }
      unfold pointer_wrapper, thin_wrapper, hiding_wrapper. cbn [mem_str].
      rewrite E2, E4, E5, E6, E7, E8, E9, E10. cbn [andb].
      rewrite abi_path1. unfold pointer_wrapper, thin_wrapper, hiding_wrapper. cbn [mem_str].
      rewrite E1, E2, E3, E4, E5, E6, E7, E8, E9, E10. rewrite Hnamed. auto.
    + cbn [map]. rewrite !abi_path_other by (intros w; discriminate).
      match goal with |- context[named_of p (GType ?x :: ?y :: ?z)] =>
        assert (E : named_of p (GType x :: y :: z) = named_of p (GType u :: b :: l)) by
          (exact (named_cong lang p (GType u :: b :: l) HF Hall)) end.
      rewrite E. auto.
    + cbn [map]. auto.
    + cbn [map]. rewrite !abi_path_other by (intros w; discriminate).
      match goal with |- context[named_of p (GConst ?x :: ?y :: ?z)] =>
        assert (E : named_of p (GConst x :: y :: z) = named_of p (GConst c :: b :: l)) by
          (exact (named_cong lang p (GConst c :: b :: l) HF Hall)) end.
      rewrite E. auto.
  - auto.
  - intros t e IH Hs. cbn in *. destruct IH as [E _]; auto. rewrite E. auto.
  - intros r args n nr IH HF Hs. cbn in *. apply andb_prop in Hs as [H1 H2].
    destruct (IH H1) as [E _]. rewrite E.
    assert (Ea : map (fun a => (fst a, fst (abi (snd a))))
                   (map (fun a : option string * Ty => (fst a, simplify_standard_types lang (snd a))) args)
                 = map (fun a => (fst a, fst (abi (snd a)))) args).
    { clear IH H1 E. induction HF as [|a l Ha HF IHl]; [reflexivity|]. cbn in *. apply andb_prop in H2 as [H2 H3].
      destruct (Ha H2) as [-> _]. rewrite IHl by exact H3. reflexivity. }
    rewrite Ea. auto.
Qed.

(** ** C15 *)
Section Subst.
Variable ms : mappings.
Hypothesis Hnd : NoDup (map fst ms).

Definition specialize_arg (g : GenericArgument) : GenericArgument :=
  match g with
  | GType (TPath q as ty) =>
      if is_single_identifier q then
        match arg_mapping ms (gp_path q) with
        | Some value => value
        | None => GType (Type_specialize ms ty)
        end
      else GType (Type_specialize ms ty)
  | GType ty => GType (Type_specialize ms ty)
  | GConst expr => GConst expr
  end.
Lemma specialize_path : forall p e gs ct, Type_specialize ms (TPath (GPath p e gs ct)) =
  match type_mapping ms p with
  | Some ty => ty
  | None => TPath (GenericPath_new p (map specialize_arg gs))
  end.
Proof. reflexivity. Qed.

Lemma arg_mapping_lookup : forall p, arg_mapping ms p = lookup p ms.
Proof.
  intro p. clear Hnd. induction ms as [|[k v] r IH]; [reflexivity|]. cbn. rewrite String.eqb_sym.
  destruct (String.eqb p k); auto.
Qed.
Lemma not_in_type_mapping : forall (l : mappings) p, ~ In p (map fst l) -> type_mapping l p = None.
Proof.
  induction l as [|[k v] r IH]; intros p Hn; [reflexivity|]. cbn in *.
  destruct (String.eqb p k) eqn:E; [apply String.eqb_eq in E; subst; tauto|]. apply IH. tauto.
Qed.
Lemma not_in_const_mapping : forall (l : mappings) p, ~ In p (map fst l) -> const_mapping l p = None.
Proof.
  induction l as [|[k v] r IH]; intros p Hn; [reflexivity|]. cbn in *.
  destruct (String.eqb k p) eqn:E; [apply String.eqb_eq in E; subst; tauto|]. apply IH. tauto.
Qed.
Lemma type_mapping_lookup : forall p,
  type_mapping ms p = match lookup p ms with Some (GType t) => Some t | _ => None end.
Proof.
  intro p. revert Hnd. induction ms as [|[k v] r IH]; intro Hd; [reflexivity|].
  cbn in *. inversion Hd as [|? ? Hk Hr]; subst.
  destruct (String.eqb p k) eqn:E; [|auto].
  apply String.eqb_eq in E; subst. destruct v; [reflexivity|]. apply not_in_type_mapping. exact Hk.
Qed.
Lemma const_mapping_lookup : forall p,
  const_mapping ms p = match lookup p ms with
                       | Some (GType (TPath q)) => if is_single_identifier q then Some (EPath q) else None
                       | Some (GConst e) => Some e
                       | _ => None
                       end.
Proof.
  intro p. revert Hnd. induction ms as [|[k v] r IH]; intro Hd; [reflexivity|].
  cbn in *. inversion Hd as [|? ? Hk Hr]; subst. rewrite String.eqb_sym.
  destruct (String.eqb p k) eqn:E; [|auto].
  apply String.eqb_eq in E; subst. apply not_in_const_mapping in Hk.
  destruct v as [[t c n rr|q|pp|t e|rr a n nr]|e]; auto. destruct (is_single_identifier q); auto.
Qed.

Context {V K : Type}.
Variable I : interp V K.

Lemma const_subst : forall e,
  match e with EPath g => is_single_identifier g | EValue _ => true end = true ->
  const_meaning I no_params (ConstExpr_specialize ms e) = const_meaning I (bind I ms) e.
Proof.
  intros [[p ex gs ct]|s] Hs; [|reflexivity].
  unfold is_single_identifier in Hs. cbn in Hs. destruct gs; [|discriminate].
  cbn. rewrite const_mapping_lookup. unfold bind.
  destruct (lookup p ms) as [[[t c n r|[q qe [|qg qgs] qc]|pp|t e|r a n nr]|e]|]; try reflexivity.
Qed.

Lemma arg_meaning_nonpath : forall rho t, (forall p e ct, t <> TPath (GPath p e [] ct)) ->
  arg_meaning I rho (GType t) = (Some (ty_meaning I rho t), None).
Proof.
  intros rho t Hn. destruct t as [t c n r|[p e [|g gs] ct]|p|t e|r a n nr]; try reflexivity.
  elim (Hn p e ct). reflexivity.
Qed.

Lemma specialize_meaning : forall t, loaded t = true ->
  (forall p, In p (applied_names t) -> ~ In p (map fst ms)) ->
  ty_meaning I no_params (Type_specialize ms t) = ty_meaning I (bind I ms) t.
Proof.
  apply (Ty_only_ind (fun t => loaded t = true ->
    (forall p, In p (applied_names t) -> ~ In p (map fst ms)) ->
    ty_meaning I no_params (Type_specialize ms t) = ty_meaning I (bind I ms) t)).
  - intros t c n r IH Hl Ha. cbn in *. rewrite IH; auto.
  - intros p e gs ct HF Hl Ha. rewrite specialize_path, type_mapping_lookup.
    assert (Hargs : map (arg_meaning I no_params) (map specialize_arg gs) = map (arg_meaning I (bind I ms)) gs).
    { assert (Ha' : forall q, In q (flat_map (fun g => match g with GType u => applied_names u | GConst _ => [] end) gs) ->
                     ~ In q (map fst ms)).
      { intros q Hq. apply Ha. cbn. apply in_or_app. right. exact Hq. }
      clear Ha. cbn [loaded] in Hl.
      induction HF as [|a l Hpa HF IH]; [reflexivity|].
      cbn [forallb] in Hl. apply andb_prop in Hl as [Hla Hll]. cbn [map].
      rewrite IH; [|exact Hll|intros q Hq; apply Ha'; cbn; apply in_or_app; right; exact Hq].
      f_equal. destruct a as [u|[g|s]]; [|discriminate|reflexivity].
      cbn [arg_ty] in Hpa.
      assert (Hau : forall q, In q (applied_names u) -> ~ In q (map fst ms))
        by (intros q Hq; apply Ha'; cbn; apply in_or_app; left; exact Hq).
      specialize (Hpa Hla Hau).
      destruct u as [t c n r|[q qe [|qg qgs] qc]|pp|t el|r ar n nr].
      - cbn [specialize_arg]. rewrite !arg_meaning_nonpath by discriminate. rewrite Hpa. reflexivity.
      - cbn [specialize_arg is_single_identifier gp_generics gp_path]. rewrite arg_mapping_lookup.
        cbn [arg_meaning]. unfold bind at 1. destruct (lookup q ms) eqn:El; [reflexivity|].
        rewrite specialize_path, type_mapping_lookup, El. reflexivity.
      - cbn [specialize_arg is_single_identifier gp_generics]. rewrite specialize_path in *.
        rewrite type_mapping_lookup in *.
        assert (Hq : lookup q ms = None).
        { apply lookup_None. apply Hau. cbn. left. reflexivity. }
        rewrite Hq in *. rewrite !arg_meaning_nonpath by discriminate. rewrite Hpa. reflexivity.
      - reflexivity.
      - cbn [specialize_arg]. rewrite !arg_meaning_nonpath by discriminate. rewrite Hpa. reflexivity.
      - cbn [specialize_arg]. rewrite !arg_meaning_nonpath by discriminate. rewrite Hpa. reflexivity. }
    cbn [ty_meaning]. unfold bind at 1.
    destruct (lookup p ms) as [[ty|c]|] eqn:El; cbn [option_map].
    + destruct ty as [t c n r|[q qe [|qg qgs] qc]|pp|t el|r ar n nr]; reflexivity.
    + change (i_named I p (map (arg_meaning I no_params) (map specialize_arg gs))
              = i_named I p (map (arg_meaning I (bind I ms)) gs)).
      rewrite Hargs. reflexivity.
    + change (i_named I p (map (arg_meaning I no_params) (map specialize_arg gs))
              = i_named I p (map (arg_meaning I (bind I ms)) gs)).
      rewrite Hargs. reflexivity.
  - reflexivity.
  - intros t e IH Hl Ha. cbn [loaded] in Hl. apply andb_prop in Hl as [H1 H2].
    cbn [Type_specialize ty_meaning]. rewrite IH by auto. rewrite const_subst by exact H2. reflexivity.
  - intros r args n nr IH HF Hl Ha. cbn in *. apply andb_prop in Hl as [H1 H2].
    rewrite IH; [|exact H1|intros q Hq; apply Ha; apply in_or_app; left; exact Hq].
    assert (Ha' : forall q, In q (flat_map (fun a => applied_names (snd a)) args) -> ~ In q (map fst ms))
      by (intros q Hq; apply Ha; apply in_or_app; right; exact Hq).
    clear Ha. f_equal. rewrite map_map. cbn.
    induction HF as [|a l Hpa HF IHl]; [reflexivity|]. cbn in *. apply andb_prop in H2 as [H2 H3].
    rewrite Hpa; [|exact H2|intros q Hq; apply Ha'; apply in_or_app; left; exact Hq].
    rewrite IHl; [reflexivity|exact H3|intros q Hq; apply Ha'; apply in_or_app; right; exact Hq].
Qed.

(** Nothing that is not a parameter changes, and no parameter is left. *)
Lemma specialize_names : forall t q, In q (ty_names (Type_specialize ms t)) ->
  (In q (ty_names t) \/ exists p a, In p (ty_names t) /\ In (p, a) ms /\ In q (arg_names a)).
Proof.
  apply (Ty_only_ind (fun t => forall q, In q (ty_names (Type_specialize ms t)) ->
    (In q (ty_names t) \/ exists p a, In p (ty_names t) /\ In (p, a) ms /\ In q (arg_names a)))).
  - intros t c n r IH q Hq. apply IH. exact Hq.
  - intros p e gs ct HF q. rewrite specialize_path, type_mapping_lookup.
    destruct (lookup p ms) as [[ty|c]|] eqn:El.
    { intro Hq. right. exists p, (GType ty). repeat split; [left; reflexivity|apply lookup_In; exact El|exact Hq]. }
    1,2: cbn [GenericPath_new ty_names gpath_names].
    1,2: intros [Hq|Hq]; [left; left; exact Hq|].
    1,2: apply in_flat_map in Hq as (a' & Ha' & Hq); apply in_map_iff in Ha' as (a & <- & Ha).
    1,2: rewrite Forall_forall in HF; specialize (HF a Ha).
    1,2: assert (Hin : forall x, In x (arg_names a) -> In x (p :: flat_map arg_names gs))
           by (intros x Hx; right; apply in_flat_map; exists a; auto).
    1,2: destruct a as [u|ex]; [|left; apply Hin; exact Hq].
    1,2: cbn [arg_ty] in HF.
    1,2: assert (Hsp : In q (ty_names (Type_specialize ms u)) ->
           In q (p :: flat_map arg_names gs) \/
           (exists p0 a, In p0 (p :: flat_map arg_names gs) /\ In (p0, a) ms /\ In q (arg_names a)))
           by (intro X; destruct (HF q X) as [Y|(p0 & a0 & Y1 & Y2 & Y3)];
               [left; apply Hin; exact Y|right; exists p0, a0; auto]).
    1,2: destruct u as [t c0 n r|[q0 qe [|qg qgs] qc]|pp|t el|r ar n nr]; try (apply Hsp; exact Hq).
    1,2: cbn [specialize_arg is_single_identifier gp_generics gp_path] in Hq; rewrite arg_mapping_lookup in Hq;
         destruct (lookup q0 ms) eqn:E0; [|apply Hsp; exact Hq];
         right; exists q0, g; repeat split; [apply Hin; left; reflexivity|apply lookup_In; exact E0|exact Hq].
  - intros p q Hq. destruct Hq.
  - intros t e IH q Hq. cbn in Hq. apply in_app_or in Hq as [Hq|Hq].
    + destruct (IH q Hq) as [X|(p & a & X1 & X2 & X3)]; [left; cbn; apply in_or_app; auto|].
      right. exists p, a. repeat split; auto. cbn. apply in_or_app; auto.
    + destruct e as [[p pe [|g gs] ct]|s]; cbn in Hq.
      * rewrite const_mapping_lookup in Hq.
        assert (Hp : In p (ty_names (TArray t (EPath (GPath p pe [] ct))))) by (cbn; apply in_or_app; right; left; reflexivity).
        destruct (lookup p ms) as [[[t0 c n r|[q0 qe [|qg qgs] qc]|pp|t0 el|r ar n nr]|ex]|] eqn:El;
          try (left; cbn; apply in_or_app; right; exact Hq).
        -- right. exists p, (GType (TPath (GPath q0 qe [] qc))). repeat split; auto. apply lookup_In; exact El.
        -- right. exists p, (GConst ex). repeat split; auto. apply lookup_In; exact El.
      * left. cbn. apply in_or_app. right. exact Hq.
      * destruct Hq.
  - intros r args n nr IH HF q Hq. cbn in Hq. apply in_app_or in Hq as [Hq|Hq].
    + destruct (IH q Hq) as [X|(p & a & X1 & X2 & X3)]; [left; cbn; apply in_or_app; auto|].
      right. exists p, a. repeat split; auto. cbn. apply in_or_app; auto.
    + apply in_flat_map in Hq as (a' & Ha' & Hq). apply in_map_iff in Ha' as (a & <- & Ha). cbn in Hq.
      rewrite Forall_forall in HF. destruct (HF a Ha q Hq) as [X|(p & a0 & X1 & X2 & X3)].
      * left. cbn. apply in_or_app. right. apply in_flat_map. eauto.
      * right. exists p, a0. repeat split; auto. cbn. apply in_or_app. right. apply in_flat_map. eauto.
Qed.

Lemma specialize_closed : forall t, loaded t = true -> kinded ms t = true ->
  (forall p a q, In (p, a) ms -> In q (arg_names a) -> ~ In q (map fst ms)) ->
  forall q, In q (ty_names (Type_specialize ms t)) -> ~ In q (map fst ms).
Proof.
  intros t0 Hl0 Hk0 Hargs. revert t0 Hl0 Hk0.
  assert (Hin : forall p a q, lookup p ms = Some a -> In q (arg_names a) -> ~ In q (map fst ms))
    by (intros p a q Hlk; apply (Hargs p a q); apply lookup_In; exact Hlk).
  apply (Ty_only_ind (fun t => loaded t = true -> kinded ms t = true ->
    forall q, In q (ty_names (Type_specialize ms t)) -> ~ In q (map fst ms))).
  - intros t c n r IH Hl Hk. exact (IH Hl Hk).
  - intros p e gs ct HF Hl Hk q. rewrite specialize_path, type_mapping_lookup.
    cbn [kinded] in Hk. apply andb_prop in Hk as [Hp Hk]. cbn [loaded] in Hl.
    destruct (lookup p ms) as [[ty|c]|] eqn:El; [|discriminate|].
    { intro Hq. apply (Hin p (GType ty)); auto. }
    cbn [GenericPath_new ty_names gpath_names]. intros [<-|Hq]; [apply lookup_None; exact El|].
    apply in_flat_map in Hq as (a' & Ha' & Hq). apply in_map_iff in Ha' as (a & <- & Ha).
    rewrite Forall_forall in HF. specialize (HF a Ha).
    rewrite forallb_forall in Hl. specialize (Hl a Ha).
    rewrite forallb_forall in Hk. specialize (Hk a Ha).
    destruct a as [u|[g|s]]; [|discriminate|destruct Hq].
    cbn [arg_ty] in HF.
    destruct u as [t c0 n r|[q0 qe [|qg qgs] qc]|pp|t el|r ar n nr]; try (apply (HF Hl Hk); exact Hq).
    cbn [specialize_arg is_single_identifier gp_generics gp_path] in Hq. rewrite arg_mapping_lookup in Hq.
    destruct (lookup q0 ms) eqn:E0; [apply (Hin q0 g); auto|].
    cbn [arg_names] in Hq. rewrite specialize_path, type_mapping_lookup, E0 in Hq.
    cbn in Hq. destruct Hq as [<-|[]]. apply lookup_None. exact E0.
  - intros p _ _ q Hq. destruct Hq.
  - intros t e IH Hl Hk q Hq. cbn [loaded] in Hl. cbn [kinded] in Hk.
    apply andb_prop in Hl as [Hl1 Hl2]. apply andb_prop in Hk as [Hk1 Hk2].
    cbn [Type_specialize ty_names] in Hq. apply in_app_or in Hq as [Hq|Hq]; [apply IH; auto|].
    destruct e as [[p pe gs ct]|s]; [|destruct Hq].
    unfold is_single_identifier in Hl2. cbn in Hl2. destruct gs; [|discriminate].
    cbn in Hq. rewrite const_mapping_lookup in Hq. cbn [gp_path] in Hk2.
    destruct (lookup p ms) as [[[t0 c n r|q0|pp|t0 el|r ar n nr]|ex]|] eqn:El; try discriminate.
    + rewrite Hk2 in Hq. apply (Hin p (GType (TPath q0))); auto.
    + apply (Hin p (GConst ex)); auto.
    + destruct Hq as [<-|[]]. apply lookup_None. exact El.
  - intros r args n nr IH HF Hl Hk q Hq. cbn [loaded] in Hl. cbn [kinded] in Hk.
    apply andb_prop in Hl as [Hl1 Hl2]. apply andb_prop in Hk as [Hk1 Hk2].
    cbn [Type_specialize ty_names] in Hq. apply in_app_or in Hq as [Hq|Hq]; [apply IH; auto|].
    apply in_flat_map in Hq as (a' & Ha' & Hq). apply in_map_iff in Ha' as (a & <- & Ha). cbn in Hq.
    rewrite Forall_forall in HF. rewrite forallb_forall in Hl2, Hk2. eapply HF; eauto.
Qed.
End Subst.

(** Parameter lists. *)
Lemma call_from_spec : forall params args ms, call_from params args = Some ms ->
  map fst ms = map gp_name_ params /\
  forall i p, nth_error params i = Some p ->
    exists a, nth_error ms i = Some (gp_name_ p, a) /\
      match nth_error args i with Some x => a = x | None => gp_default p = Some a end.
Proof.
  induction params as [|p ps IH]; intros args ms E; cbn in E.
  - inversion E. split; [reflexivity|]. intros [|i] q Hq; discriminate.
  - destruct (match args with a :: _ => Some a | [] => gp_default p end) as [a|] eqn:Ea; [|discriminate].
    destruct (call_from ps (tl args)) as [r|] eqn:Er; [|discriminate]. inversion E; subst; clear E.
    destruct (IH _ _ Er) as [Hf Hn]. split; [cbn; rewrite Hf; reflexivity|].
    intros [|i] q Hq; cbn in *.
    + inversion Hq; subst. exists a. split; [reflexivity|]. destruct args; [exact Ea|congruence].
    + destruct (Hn i q Hq) as (b & Hb & Hb'). exists b. split; [exact Hb|]. destruct args; cbn in *; [|exact Hb'].
      destruct i; exact Hb'.
Qed.
Lemma call_from_defined : forall params args,
  (forall i p, nth_error params i = Some p -> length args <= i -> gp_default p <> None) ->
  exists ms, call_from params args = Some ms.
Proof.
  induction params as [|p ps IH]; intros args Hd; [eexists; reflexivity|]. cbn.
  destruct (IH (tl args)) as [r Hr].
  { intros i q Hq Hi. apply (Hd (S i) q Hq). destruct args; cbn in *; lia. }
  rewrite Hr. destruct args as [|a args]; [|eexists; reflexivity].
  destruct (gp_default p) eqn:E; [eexists; reflexivity|].
  elim (Hd 0 p eq_refl (le_n _) E).
Qed.
Lemma call_spec : forall params args,
  (length args <= length params ->
   (forall i p, nth_error params i = Some p -> length args <= i -> gp_default p <> None) ->
   exists ms, GenericParams_call params args = Some ms) /\
  (forall ms, GenericParams_call params args = Some ms ->
     length args <= length params /\ map fst ms = map gp_name_ params /\
     forall i p, nth_error params i = Some p ->
       exists a, nth_error ms i = Some (gp_name_ p, a) /\
         match nth_error args i with Some x => a = x | None => gp_default p = Some a end).
Proof.
  intros params args. unfold GenericParams_call. split.
  - intros Hl Hd. apply Nat.leb_le in Hl. rewrite Nat.ltb_antisym, Hl. cbn. apply call_from_defined. exact Hd.
  - intros ms E. destruct (Nat.ltb (length params) (length args)) eqn:El; [discriminate|].
    apply Nat.ltb_ge in El. split; [exact El|]. apply call_from_spec. exact E.
Qed.
