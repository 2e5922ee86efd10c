(** Proofs about [S_Signature]: from the source to the written file. *)
Require Import Coq.Strings.String Coq.Strings.Ascii Coq.Lists.List Coq.Bool.Bool Coq.Arith.Arith Coq.Sorting.Permutation.
From Verif Require Import Base P_Base M_Config M_Cfg M_Type M_Ir M_Item M_Attr M_Docs M_Library M_Syn M_Loader S_Item S_Sort S_Library S_Names S_Parse P_Type P_Sort P_Item P_Table
  P_Library P_NamesLib P_Keywords P_Exports M_Writer M_Bindings M_Backend S_Decl S_File S_Shown P_Shown S_Style S_Signature P_Signature.
Import ListNotations.
Open Scope string_scope.

(** ** What the passes do to a type *)
Record finishes (c : Config) (kw : string -> option DeclarationType) (fin : Ty -> Ty) : Prop := {
  fn_ptr : forall u k n r, fin (TPtr u k n r) = TPtr (fin u) k n r;
  fn_prim : forall p, fin (TPrim p) = TPrim p;
  fn_arr : forall u e, fin (TArray u e) = TArray (fin u) (ConstExpr_rename_for_config (export c) [] e);
  fn_fn : forall r a n nv, fin (TFuncPtr r a n nv) = TFuncPtr (fin r) (map (fun a => (fst a, fin (snd a))) a) n nv;
  fn_path : forall p ts, ts = [] \/ language c = Cxx ->
    fin (TPath (GPath p p (map GType ts) None)) = TPath (GPath p (exported c p) (map (fun t => GType (fin t)) ts) (kw p)) }.
Definition step_ok (lang : Language) (kw : string -> option DeclarationType) (g : Ty -> Ty) : Prop :=
  (forall u k n r, g (TPtr u k n r) = TPtr (g u) k n r) /\ (forall p, g (TPrim p) = TPrim p)
  /\ (forall u e, g (TArray u e) = TArray (g u) e)
  /\ (forall r a n nv, g (TFuncPtr r a n nv) = TFuncPtr (g r) (map (fun a => (fst a, g (snd a))) a) n nv)
  /\ (forall p ts, ts = [] \/ lang = Cxx -> g (TPath (GPath p p (map GType ts) None)) = TPath (GPath p p (map GType ts) (kw p)))
  /\ (lang = Cxx -> forall t, g t = t).
Lemma step_finishes : forall c kw g, step_ok (language c) kw g -> finishes c kw (fun t => Type_rename_for_config (export c) [] (g t)).
Proof.
  intros c kw g (A & B & D & E & F & G). constructor.
  - intros. rewrite A. reflexivity.
  - intros. rewrite B. reflexivity.
  - intros. rewrite D. reflexivity.
  - intros. rewrite E. cbn. rewrite map_map. reflexivity.
  - intros p ts TS. rewrite (F p ts TS). cbn. rewrite map_map. unfold exported. f_equal. f_equal.
    destruct TS as [->|L]; [reflexivity|]. apply map_ext. intro t. rewrite (G L t). reflexivity.
Qed.
Definition mangling (lang : Language) (m : Monomorphs) : Ty -> Ty := if Language_eqb lang Cxx then fun t => t else Type_mangle_paths m.
Definition resolving (c : Config) (l3 : Library) : Ty -> Ty :=
  if Language_eqb (language c) M_Config.C && generate_tag (style c) then Type_resolve_declaration_types (library_resolver l3) else fun t => t.
Lemma passes_ok : forall c m l3, step_ok (language c) (fun p => if Language_eqb (language c) M_Config.C && generate_tag (style c) then keyword_of l3 p else None)
  (fun t => resolving c l3 (mangling (language c) m t)).
Proof.
  intros c m l3. unfold resolving, mangling. destruct (language c); cbn [Language_eqb andb]; try destruct (generate_tag (style c));
    (split; [reflexivity|split; [reflexivity|split; [reflexivity|split; [|split; [|try discriminate; reflexivity]]]]]).
  all: try (intros; cbn; rewrite ?map_map; f_equal; try reflexivity; symmetry; erewrite map_ext; [apply map_id|intros []; reflexivity]).
  all: try reflexivity.
  all: try (intros; cbn; rewrite ?map_map; reflexivity).
  all: intros p ts [->|]; try discriminate; cbn; rewrite ?resolver_keyword; reflexivity.
Qed.
Lemma resolving_ok : forall c l3, step_ok (language c) (fun p => if Language_eqb (language c) M_Config.C && generate_tag (style c) then keyword_of l3 p else None) (resolving c l3).
Proof.
  intros c l3. unfold resolving. destruct (language c); cbn [Language_eqb andb]; try destruct (generate_tag (style c));
    (split; [reflexivity|split; [reflexivity|split; [reflexivity|split; [|split; [|try discriminate; reflexivity]]]]]).
  all: try (intros; cbn; rewrite ?map_map; f_equal; try reflexivity; symmetry; erewrite map_ext; [apply map_id|intros []; reflexivity]).
  all: try reflexivity.
  all: intros p ts [->|]; try discriminate; cbn; rewrite ?resolver_keyword; reflexivity.
Qed.

(** ** Functions *)
Lemma map_f_twice : forall g h f, map_f_types g (map_f_types h f) = map_f_types (fun t => g (h t)) f.
Proof. intros. unfold map_f_types, set_f_types. cbn [f_path f_self_type_path f_ret f_args f_extern_decl f_cfg f_annotations f_documentation f_never_return]. rewrite map_map. reflexivity. Qed.
Lemma map_f_id : forall f, map_f_types (fun t => t) f = f.
Proof.
  intros []. unfold map_f_types, set_f_types. cbn. f_equal. rewrite (map_ext _ (fun a => a)); [apply map_id|]. intros []. reflexivity.
Qed.
Lemma sort_by_path_in : forall A (p : A -> string) key l x, In x l -> In x (sort_by_path p key l).
Proof.
  intros A p key l x I. pose proof (sort_by_path_spec A p key l) as K. destruct key; cbn in K; [|exact I].
  eapply Permutation_in; [|exact I]. destruct K as [K _ _]. first [exact K|exact (Permutation_sym K)].
Qed.
Lemma stages_keyword : forall (H : Heck) fuel visit l l1 l2 l3 l4 l' p, as_loaded l -> stages fuel visit l l1 l2 l3 l4 l' ->
  Language_eqb (language (l_config l)) M_Config.C && generate_tag (style (l_config l)) = true -> keyword_of l' p = keyword_of l3 p.
Proof.
  intros H fuel visit l l1 l2 l3 l4 l' p Hl St T. apply andb_prop in T. destruct T as [T1 T2].
  pose proof (stages_fresh _ _ _ _ _ _ _ _ _ St Hl) as [F3 _ _ _ _ _]. destruct St as [_ _ _ S4 S5]. rewrite T1 in S4.
  rewrite (rename_keyword _ _ _ p S5); [|subst l4; apply resolve_tables; assumption]. subst l4. apply resolve_keyword.
Qed.
Lemma stages_keyword_in : forall (H : Heck) fuel visit l l1 l2 l3 l4 l' p, as_loaded l -> stages fuel visit l l1 l2 l3 l4 l' ->
  keyword_in l' p = if Language_eqb (language (l_config l)) M_Config.C && generate_tag (style (l_config l)) then keyword_of l3 p else None.
Proof.
  intros H fuel visit l l1 l2 l3 l4 l' p Hl St. unfold keyword_in. change has_tag with generate_tag. pose proof (stages_config _ _ _ _ _ _ _ _ _ St) as (_ & _ & _ & _ & ->).
  destruct (_ && _) eqn:T; [|reflexivity]. exact (stages_keyword _ _ _ _ _ _ _ _ _ _ Hl St T).
Qed.
Lemma resolved_function : forall c l f, l_config l = c -> In f (l_functions l) ->
  In (map_f_types (resolving c l) f) (l_functions (if Language_eqb (language c) M_Config.C then resolve_library l else l)).
Proof.
  intros c l f E I. unfold resolving. destruct (Language_eqb (language c) M_Config.C); [|cbn; rewrite map_f_id; exact I].
  cbn [andb]. unfold resolve_library. rewrite E. destruct (generate_tag (style c)); cbn [negb]; [|rewrite map_f_id; exact I].
  cbn [l_functions]. apply (in_map (Function_resolve (library_resolver l))) in I. exact I.
Qed.
Lemma function_passes : forall (H : Heck) fuel visit l l', as_loaded l -> prepare fuel visit l = Done l' ->
  exists g, step_ok (language (l_config l)) (keyword_in l') g /\
    forall f, In f (l_functions l) -> mem_str (f_path f) (ex_exclude (export (l_config l))) = false ->
    exists f', Function_rename_for_config (l_config l) (map_f_types g (Function_simplify (language (l_config l)) f)) = Some f' /\ In f' (l_functions l').
Proof.
  intros H fuel visit l l' Hl Hp. apply prepare_stages in Hp as (l1 & l2 & l3 & l4 & St).
  pose proof (fun p => stages_keyword_in _ _ _ _ _ _ _ _ _ p Hl St) as KW.
  pose proof (stages_config _ _ _ _ _ _ _ _ _ St) as (C1 & C2 & C3 & C4 & _). destruct St as [S1 S2 S3 S4 S5].
  destruct (transfer_rest visit l) as (T1 & _ & _ & T4 & _). cbn zeta in *.
  set (c := l_config l) in *.
  assert (M : exists m, l_functions l2 = map (map_f_types (mangling (language c) m)) (l_functions l1)).
  { unfold mangling. destruct (Language_eqb (language c) Cxx) eqn:LC.
    - exists Monomorphs_default. subst l2. symmetry. rewrite (map_ext _ (fun a => a)); [apply map_id|]. intro f. apply map_f_id.
    - apply mono_rest in S2 as (_ & _ & _ & m & E). exists m. exact E. }
  destruct M as [m M]. exists (fun t => resolving c l3 (mangling (language c) m t)). split.
  - pose proof (passes_ok c m l3) as (A1 & A2 & A3 & A4 & A5 & A6). split; [exact A1|]. split; [exact A2|]. split; [exact A3|]. split; [exact A4|].
    split; [|exact A6]. intros p ts TS. rewrite KW. exact (A5 p ts TS).
  - intros f I X.
    assert (I1 : In (Function_simplify (language c) f) (l_functions l1)).
    { subst l1. cbn [sort_functions l_functions l_config simplify_library]. apply sort_by_path_in. rewrite T1, T4. apply in_map. exact I. }
    assert (I2 : In (map_f_types (mangling (language c) m) (Function_simplify (language c) f)) (l_functions l2)) by (rewrite M; apply in_map; exact I1).
    assert (I3 : In (map_f_types (mangling (language c) m) (Function_simplify (language c) f)) (l_functions l3)).
    { subst l3. cbn [remove_excluded l_functions]. apply filter_In. split; [exact I2|]. rewrite C2. cbn. rewrite X. reflexivity. }
    pose proof (resolved_function c l3 _ C3 I3) as I4. rewrite map_f_twice in I4. rewrite <- S4 in I4.
    apply rename_rest in S5 as (_ & _ & _ & S5 & _). apply map_opt_Forall2 in S5. rewrite C4 in S5.
    revert S5 I4. generalize (l_functions l4) (l_functions l'). intros xs ys F I4.
    induction F as [|a b r s E F IH]; [destruct I4|]. destruct I4 as [->|I4]; [exists b; split; [exact E|left; reflexivity]|].
    destruct (IH I4) as (f' & E' & I'). exists f'. split; [exact E'|right; exact I'].
Qed.

Lemma rename_function : forall (H : Heck) c f rules, rule_or (f_annotations f) "rename-all" (fn_rename_args (function c)) = Some rules ->
  an_list (f_annotations f) "ptrs-as-arrays" = None -> Forall (fun a => a_array_length a = None) (f_args f) ->
  Function_rename_for_config c f = Some (set_f_types (Type_rename_for_config (export c) [] (f_ret f))
    (map (fun a => {| a_name := option_map (argument_name_in rules) (a_name a); a_ty := Type_rename_for_config (export c) [] (a_ty a); a_array_length := None |}) (f_args f)) f).
Proof.
  intros H c f rules R P N. unfold Function_rename_for_config. rewrite R, P. f_equal. f_equal.
  unfold argument_name_in. destruct rules; cbn [not_none]; rewrite ?map_map; apply map_ext_in; intros a Ha; rewrite Forall_forall in N; rewrite ?(N a Ha); cbn [a_name a_ty a_array_length];
    destruct (a_name a); reflexivity.
Qed.

(** What is bound for a declaration is determined by it. *)
Lemma parameter_unique : forall a x y, S_Parse.parameter a x -> S_Parse.parameter a y -> x = y.
Proof. intros a x y A B. inversion A; subst; inversion B; subst; congruence. Qed.
Lemma returned_unique : forall o t n u m, returned o t n -> returned o u m -> t = u /\ n = m.
Proof.
  intros [u0|] t n u m; [|cbn; intros [-> ->] [-> ->]; split; reflexivity].
  assert (G : forall v, (n = false /\ (Type_load v = Some (Some t) \/ Type_load v = Some None /\ t = TPrim PVoid)) ->
    (m = false /\ (Type_load v = Some (Some u) \/ Type_load v = Some None /\ u = TPrim PVoid)) -> t = u /\ n = m).
  { intros v [-> A] [-> B]. split; [|reflexivity]. destruct A as [A|[A ->]], B as [B|[B ->]]; congruence. }
  unfold returned. destruct u0; try match goal with |- context [Type_load ?v] => exact (G v) end. intros [-> ->] [-> ->]. split; reflexivity.
Qed.
Lemma binds_unique : forall h1 h2 d f g, binds h1 d f -> binds h2 d g ->
  f_path f = f_path g /\ f_args f = f_args g /\ f_ret f = f_ret g /\ f_never_return f = f_never_return g /\ f_annotations f = f_annotations g.
Proof.
  intros h1 h2 d f g [A1 _ (g1 & G1 & A2) (t1 & R1 & A3) _ _ A4 _] [B1 _ (g2 & G2 & B2) (t2 & R2 & B3) _ _ B4 _].
  assert (E : g1 = g2).
  { clear A2 B2. revert g2 G2. induction G1 as [|a x l xs P G IH]; intros g2 G2; inversion G2; subst; [reflexivity|].
    f_equal; [eapply parameter_unique; eassumption|apply IH; assumption]. }
  subst g2. destruct (returned_unique _ _ _ _ _ R1 R2) as [-> RN]. repeat split; congruence.
Qed.
Lemma parameters_no_reference : forall c kw self an l v xs, rust_parameters c kw self an l v = Some xs -> Forall not_reference l.
Proof.
  intros c kw self an l v. induction l as [|a r IH]; intros xs E; [constructor|]. cbn [rust_parameters] in E. destruct a as [p u|k].
  - constructor; [intros (m & w & Q); discriminate|]. destruct (no_size u); [exact (IH _ E)|].
    destruct (match p with PatWild => _ | PatIdent _ => _ | PatOther => _ end); [|discriminate]. destruct (rust_value _ _ _ _); [|discriminate].
    destruct (S_Signature.parameter _ _ _); [|discriminate]. destruct (rust_parameters _ _ _ _ r v) as [ys|]; [|discriminate]. exact (IH _ eq_refl).
  - destruct (match k with RecvRef _ => _ | RecvTyped _ => _ | RecvValue => _ | RecvOther => _ end) as [y|] eqn:Y in E; [|discriminate].
    destruct (S_Signature.parameter _ _ _); [|discriminate]. destruct (rust_parameters _ _ _ _ r v) as [ys|]; [|discriminate].
    constructor; [|exact (IH _ eq_refl)]. intros (m & w & Q). injection Q as ->. discriminate.
Qed.
Lemma c_function_same : forall c f g, f_path f = f_path g -> f_args f = f_args g -> f_ret f = f_ret g -> f_never_return f = f_never_return g ->
  c_function c f = c_function c g /\ declarable_function c f = declarable_function c g.
Proof. intros c f g A B D E. unfold c_function, declarable_function. rewrite A, B, D, E. split; reflexivity. Qed.

Theorem signature_bindings : forall (H : Heck) fuel visit l l' b here d f rules ct, as_loaded l ->
  prepare fuel visit l = Done l' -> finish l' = Done b ->
  let c := l_config l in
  should_generate (export c) Functions = true -> mem_str (dc_symbol d) (ex_exclude (export c)) = false ->
  binds here d f -> In f (l_functions l) ->
  rule_or (f_annotations f) "rename-all" (fn_rename_args (function c)) = Some rules -> an_list (f_annotations f) "ptrs-as-arrays" = None ->
  usable c (dc_symbol d) = true ->
  rust_function c (keyword_in l') (dc_self d) (argument_name_in rules) (dc_sig d) = Some ct ->
  exists f', In f' (b_functions b) /\ f_path f' = dc_symbol d /\ f_cfg f' = f_cfg f /\ f_annotations f' = f_annotations f
    /\ c_function c f' = ct /\ declarable_function c f' = true.
Proof.
  intros H fuel visit l l' b here d f rules ct Hl Hp Hf c SG NX B I R P U E.
  destruct (function_passes H fuel visit l l' Hl Hp) as (g & SO & K). fold c in SO, K.
  destruct (step_finishes c _ g SO) as [F1 F2 F3 F4 F5].
  pose proof (bi_name _ _ _ B) as NM.
  assert (X : mem_str (f_path f) (ex_exclude (export c)) = false) by (rewrite NM; exact NX).
  destruct (K f I X) as (f' & RN & I').
  assert (NR : Forall not_reference (sg_inputs (dc_sig d))).
  { unfold rust_function in E. destruct (rust_parameters _ _ _ _ _ _) eqn:Q in E; [|discriminate]. exact (parameters_no_reference _ _ _ _ _ _ _ Q). }
  destruct (function_ok c (keyword_in l') (dc_self d) _ F1 F2 F3 F4 F5 (argument_name_in rules) (dc_symbol d) (dc_sig d) ct (dc_foreign d) (dc_attrs d)
    (match dc_block d with [] => None | _ => Cfg_of_attrs (dc_block d) end) (f_annotations f) E (bi_annotations _ _ _ B) U) as (f0 & L0 & P0 & A0 & G).
  pose proof (function_bound d (fun _ => true) (Cfg_of_attrs (dc_block d)) (dc_block d) NR (fun rho => eq_refl) eq_refl) as FB.
  assert (L1 : Function_load (dc_symbol d) (dc_self d) (dc_sig d) (dc_foreign d) (dc_attrs d) (Cfg_of_attrs (dc_block d)) <> None).
  { unfold Function_load in L0 |- *. destruct (try_skip_map _ _); [|discriminate]. destruct (Type_load_from_output _); [|discriminate].
    destruct (AnnotationSet_load _); discriminate. }
  destruct (Function_load (dc_symbol d) (dc_self d) (dc_sig d) (dc_foreign d) (dc_attrs d) (Cfg_of_attrs (dc_block d))) as [f1|] eqn:LF; [|congruence].
  destruct (binds_unique _ _ _ _ _ B FB) as (U1 & U2 & U3 & U4 & U5).
  assert (S01 : f_path f0 = f_path f1 /\ f_args f0 = f_args f1 /\ f_ret f0 = f_ret f1 /\ f_never_return f0 = f_never_return f1).
  { unfold Function_load in L0, LF. destruct (try_skip_map _ _); [|discriminate]. destruct (Type_load_from_output _); [|discriminate].
    destruct (AnnotationSet_load _); [|discriminate]. injection L0 as <-. injection LF as <-. repeat split. }
  destruct S01 as (V1 & V2 & V3 & V4).
  assert (AL : Forall (fun a => a_array_length a = None) (f_args f)).
  { destruct (bi_args _ _ _ B) as (given & _ & ->). apply Forall_app. split; [|destruct (sg_variadic _); repeat constructor].
    rewrite Forall_map. apply Forall_forall. reflexivity. }
  assert (RN' := rename_function H c (map_f_types g (Function_simplify (language c) f)) rules R P).
  rewrite RN' in RN. 2:{ cbn [map_f_types Function_simplify set_f_types f_args]. rewrite !Forall_map. exact AL. }
  injection RN as <-. eexists. split.
  - unfold finish in Hf. destruct (library_dependencies l') as [dd| |]; try discriminate. apply (f_equal (fun o => match o with Done x => Some x | _ => None end)) in Hf. injection Hf as <-. cbn [b_functions].
    pose proof Hp as Hp'. apply prepare_stages in Hp' as (l1 & l2 & l3 & l4 & St). pose proof (stages_config _ _ _ _ _ _ _ _ _ St) as (_ & _ & _ & _ & ->).
    fold c. rewrite SG. exact I'.
  - split; [exact NM|]. split; [reflexivity|]. split; [reflexivity|]. cbv zeta in G.
    match goal with |- c_function _ ?x = _ /\ _ => match type of G with c_function _ ?y = _ /\ _ => destruct (c_function_same c x y) as [Q1 Q2] end end;
      [cbn; congruence| |cbn; congruence|cbn; congruence|rewrite Q1, Q2; exact G].
    cbn [set_f_types f_args map_f_types Function_simplify f_ret]. rewrite !map_map. cbn [map_a_ty a_name a_ty].
    replace (f_args f0) with (f_args f) by congruence. reflexivity.
Qed.

(** ** In the text *)
Definition within (s t : string) : Prop := exists a r, t = (a ++ s ++ r)%string.
Lemma within_refl : forall s, within s s. Proof. intro s. exists "", "". cbn. rewrite sapp_nil_r. reflexivity. Qed.
Lemma within_trans : forall s t u, within s t -> within t u -> within s u.
Proof.
  intros s t u (a & r & ->) (a' & r' & ->). exists (a' ++ a)%string, (r ++ r')%string. rewrite !sapp_assoc. reflexivity.
Qed.
Lemma within_r : forall s a t, within s t -> within s (a ++ t). Proof. intros s a t (x & r & ->). exists (a ++ x)%string, r. rewrite !sapp_assoc. reflexivity. Qed.
Lemma within_l : forall s a t, within s t -> within s (t ++ a). Proof. intros s a t (x & r & ->). exists x, (r ++ a)%string. rewrite !sapp_assoc. reflexivity. Qed.
Lemma laid_within : forall (H : Heck) fuel b before ds ts after, laid fuel b before ds ts after ->
  within before after /\ Forall (fun t => within t after) ts.
Proof.
  intros H fuel b before ds ts after L. induction L as [before|before d ds t ts after A L [W F]]; [split; [apply within_refl|constructor]|].
  split; [eapply within_trans; [|exact W]; apply within_l, within_refl|]. constructor; [|exact F].
  eapply within_trans; [|exact W]. apply within_r, within_r, within_l, within_refl.
Qed.
Lemma file_within : forall (H : Heck) fuel b head defs syms tail t, file fuel b head defs syms tail t -> Forall (fun x => within x t) (defs ++ syms).
Proof.
  intros H fuel b head defs syms tail t (upper & lower & L1 & L2 & ->).
  apply laid_within in L1 as [_ F1]. apply laid_within in L2 as [W F2]. apply Forall_app. split.
  - eapply Forall_impl; [|exact F1]. intros x X. apply within_l. eapply within_trans; [|exact W]. apply within_l. exact X.
  - eapply Forall_impl; [|exact F2]. intros x X. apply within_l. exact X.
Qed.
Lemma made_of_in : forall t ps p, made_of t ps -> In p ps -> exists s, within s t /\ p s.
Proof.
  intros t ps p. revert t. induction ps as [|q ps IH]; intros t M I; [destruct I|]. destruct M as (a & s & r & -> & _ & Q & _ & M).
  destruct I as [<-|I]; [exists s; split; [exists a, r; reflexivity|exact Q]|]. destruct (IH _ M I) as (z & W & Z).
  exists z. split; [apply within_r, within_r; exact W|exact Z].
Qed.
Lemma conditional_in : forall b k ps p, In p ps -> In p (conditional b k ps).
Proof.
  intros b k ps p I. unfold conditional. destruct (to_condition_opt _ _); [|exact I].
  match goal with |- In _ (if ?x then _ else _) => destruct x end; apply in_or_app; right; [exact I|]. apply in_or_app. left. exact I.
Qed.
Lemma declaration_text : forall (H : Heck) fuel b t d, proper_attributes (b_config b) = true -> tab_width (b_config b) <> 0 ->
  b_noop b = false -> bindings_text fuel b = Done t -> In d (definitions b ++ symbols b) ->
  exists s ps, within s t /\ In ps (shown fuel b d) /\ made_of s ps.
Proof.
  intros H fuel b t d A T N W I. destruct (file_shown fuel b A T t N W) as (head & defs & syms & tail & F & S0).
  apply file_within in F. revert F S0 I. generalize (definitions b ++ symbols b)%list (defs ++ syms)%list. intros ds ts F S0.
  induction S0 as [|x y r s (ps & P1 & P2) S0 IH]; [intros []|]. inversion F; subst. intros [->|I]; [exists y, ps; tauto|exact (IH ltac:(assumption) I)].
Qed.
Lemma shown_prototype : forall (H : Heck) fuel b f ps, In ps (shown fuel b (AFunction f)) -> exists l, In (prototype b l f) ps.
Proof.
  intros H fuel b f ps I.
  assert (K : forall l, In (prototype b l f) (shown_function_as b l f)).
  { intro l. unfold shown_function_as. apply conditional_in. apply in_or_app. right. apply in_or_app. right. apply in_or_app. left. left. reflexivity. }
  cbn [shown] in I. destruct (fn_args (function (b_config b))); cbn in I;
    repeat match goal with X : _ \/ _ |- _ => destruct X as [X|X] | X : False |- _ => destruct X | X : _ = ps |- _ => subst ps; eexists; apply K end.
Qed.
Theorem signature_text : forall (H : Heck) fuel visit l l' b here d f rules ct, as_loaded l ->
  prepare fuel visit l = Done l' -> finish l' = Done b ->
  let c := l_config l in
  should_generate (export c) Functions = true -> mem_str (dc_symbol d) (ex_exclude (export c)) = false ->
  binds here d f -> In f (l_functions l) ->
  rule_or (f_annotations f) "rename-all" (fn_rename_args (function c)) = Some rules -> an_list (f_annotations f) "ptrs-as-arrays" = None ->
  usable c (dc_symbol d) = true ->
  rust_function c (keyword_in l') (dc_self d) (argument_name_in rules) (dc_sig d) = Some ct ->
  forall wfuel t, kept (f_annotations f) = true -> proper_attributes c = true -> tab_width c <> 0 -> bindings_text wfuel b = Done t ->
  exists before s after, t = (before ++ s ++ after)%string /\ declares (dialect_of c) s (Some (dc_symbol d)) ct.
Proof.
  intros H fuel visit l l' b here d f rules ct Hl Hp Hf c SG NX B I R P U E wfuel t KP PA TW W.
  destruct (signature_bindings H fuel visit l l' b here d f rules ct Hl Hp Hf SG NX B I R P U E) as (f' & I' & PT & _ & AN & CT & DC).
  assert (BC : b_config b = c /\ b_noop b = false).
  { unfold finish in Hf. destruct (library_dependencies l') as [dd| |]; try discriminate.
    apply (f_equal (fun o => match o with Done x => Some x | _ => None end)) in Hf. injection Hf as <-. cbn [b_config b_noop]. split; [|reflexivity].
    pose proof Hp as Hp'. apply prepare_stages in Hp' as (l1 & l2 & l3 & l4 & St). apply (stages_config _ _ _ _ _ _ _ _ _ St). }
  destruct BC as [BC BN]. rewrite <- BC in PA, TW.
  assert (IS : In (AFunction f') (definitions b ++ symbols b)).
  { apply in_or_app. right. unfold symbols. apply in_or_app. right. apply in_map. apply filter_In. split; [exact I'|rewrite AN; exact KP]. }
  destruct (declaration_text H wfuel b t _ PA TW BN W IS) as (s & ps & WS & IP & MO). destruct (shown_prototype H wfuel b f' ps IP) as (ly & PL).
  destruct (made_of_in _ _ _ MO PL) as (z & WZ & _ & D). destruct (within_trans _ _ _ WZ WS) as (x & y & ->).
  exists x, z, y. split; [reflexivity|]. rewrite BC in D. rewrite <- PT, <- CT. exact (D DC).
Qed.
