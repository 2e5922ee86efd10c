(** Proofs about [S_Constants]: from the sources to the bindings. *)
Require Import Coq.Strings.String Coq.Strings.Ascii Coq.Lists.List Coq.Bool.Bool Coq.Arith.Arith Coq.NArith.NArith Coq.ZArith.ZArith Coq.micromega.Lia.
From Verif Require Import Base P_Base M_Reserved M_Config M_Cfg S_Cfg P_Cfg M_Type M_Ir M_Item S_Decl M_Attr M_Docs M_Library M_Syn M_Loader M_Parser S_Item S_Sort S_Library S_Names S_Mono
  S_Parse P_Type P_Sort P_Item P_Table P_Library P_Stages P_Names P_Spelling P_NamesLib S_Signature P_Signature P_SigLib P_ItemPasses P_Exports P_Modules P_Entries P_Crates S_Sources P_Sources P_Fresh P_Made P_ConstMade
  S_Expr S_Literal S_Value P_Value S_Datatypes P_Datatypes S_Enums P_Enums S_Constants.
Import ListNotations.
Open Scope string_scope.

(** ** Sources *)
Lemma block_loaded : forall t ty n, Type_load t = Some (Some ty) -> get_root_path ty = Some n -> block_name t = Some n.
Proof.
  assert (P : forall q g, GenericPath_load q = Some g -> block_name (SPath q) = Some (gp_path g)).
  { intros [before ident args] g L. cbn [GenericPath_load] in L. cbn [block_name]. destruct (String.eqb (unraw ident) "PhantomData"); [injection L as <-; reflexivity|].
    match type of L with match ?x with Some _ => _ | None => _ end = _ => destruct x; [|discriminate] end. injection L as <-. reflexivity. }
  fix IH 1. intros t ty n L R. destruct t as [m u|m u|q|u e|ins v o|l| | |]; cbn [Type_load] in L.
  - cbn [block_name]. destruct (Type_load u) as [[x|]|] eqn:Lu; [| |discriminate].
    + injection L as <-. exact (IH u x n Lu R).
    + injection L as <-. discriminate R.
  - cbn [block_name]. destruct (Type_load u) as [[x|]|] eqn:Lu; [| |discriminate].
    + injection L as <-. exact (IH u x n Lu R).
    + injection L as <-. discriminate R.
  - destruct (GenericPath_load q) as [g|] eqn:G; [|discriminate]. rewrite (P q g G). destruct (_ || _); [discriminate|].
    destruct (PrimitiveType_maybe (gp_path g)); [destruct (is_nil (gp_generics g)); [|discriminate]; injection L as <-; discriminate R|]. injection L as <-. exact R.
  - destruct (Type_load u) as [[x|]|]; try discriminate. destruct (ConstExpr_load e); [|discriminate]. injection L as <-. discriminate R.
  - destruct (try_skip_map _ ins); [|discriminate]. match type of L with match ?x with Some _ => _ | None => _ end = _ => destruct x; [|discriminate] end. injection L as <-. discriminate R.
  - destruct (is_nil l); discriminate.
  - injection L as <-. discriminate R.
  - discriminate.
  - discriminate.
Qed.
Lemma fold_number : forall n names o tr e, fold_flag n names o tr (syntax e) = syntax e.
Proof.
  intros n names o tr. induction e as [t s m|m|m|q|s w m|x|x IH|x IH|x IH|p x IHx y IHy|p x IHx y IHy|x IHx y IHy|x IHx y IHy|p x IHx y IHy|x IHx y IHy|x IHx y IHy|x IH t];
    cbn [syntax fold_flag]; try reflexivity; try (rewrite IH; reflexivity); rewrite IHx, IHy; reflexivity.
Qed.
Lemma flags_loaded : forall b tr x, In x (snd (expand b tr)) -> exists attrs ident v value, x = ImplConst attrs true ident (SPath (SegPath [] (M_Loader.bf_name b) NoArgs)) value
  /\ In (attrs, ident, v) (bf_flags b) /\ ident <> "_" /\ flag_value b v value.
Proof.
  intros b tr x I. assert (G : forall o t, In x (expand_flags b o t) -> exists attrs ident v value, x = ImplConst attrs true ident (SPath (SegPath [] (M_Loader.bf_name b) NoArgs)) value
    /\ In (attrs, ident, v) (bf_flags b) /\ ident <> "_" /\ flag_value b v value).
  { intros o t J. unfold expand_flags in J. apply in_map_iff in J as ([[attrs ident] v] & <- & J). apply filter_In in J as [J N]. cbn [fst snd] in N.
    apply negb_true_iff in N. apply String.eqb_neq in N. exists attrs, ident, v. eexists. split; [reflexivity|]. split; [exact J|]. split; [exact N|].
    exists (fold_flag (M_Loader.bf_name b) (map (fun f => snd (fst f)) (flags_kept b)) o t v). split; [intros e ->; apply fold_number|]. cbv zeta. destruct (o || t); [left|right]; reflexivity. }
  unfold expand in I. destruct (bf_attrs b); eapply G; exact I.
Qed.

(** ** Numbers *)
Lemma self_same : forall s e l, Literal_load (syntax e) = Some l -> Literal_replace_self_with s l = l.
Proof.
  intro s. induction e as [t f m|m|m|q|f w m|x|x IH|x IH|x IH|p x IHx y IHy|p x IHx y IHy|x IHx y IHy|x IHx y IHy|p x IHx y IHy|x IHx y IHy|x IHx y IHy|x IH t];
    intros l L; cbn [syntax Literal_load lit_text] in L;
    try (destruct (Literal_load (syntax x)) as [lx|]; [|discriminate]; destruct (Literal_load (syntax y)) as [ly|]; [|discriminate]; injection L as <-;
         cbn [Literal_replace_self_with]; rewrite (IHx _ eq_refl), (IHy _ eq_refl); reflexivity);
    try (destruct (Literal_load (syntax x)) as [lx|]; [|discriminate]; injection L as <-; cbn [Literal_replace_self_with]; rewrite (IH _ eq_refl); reflexivity);
    try (injection L as <-; reflexivity).
  - injection L as <-. destruct f, w; reflexivity.
  - destruct (Literal_load (syntax x)) as [lx|]; [|discriminate]. destruct (cast_load t) as (p & Hp & _). rewrite Hp in L. injection L as <-.
    cbn [Literal_replace_self_with replace_self_with]. rewrite (IH _ eq_refl). reflexivity.
Qed.
Definition selfed_literal (self : option string) (l : Literal) : Literal := match self with Some a => Literal_replace_self_with a l | None => l end.
Lemma constant_number : forall c self e l, Literal_load e = Some l -> same_number c (Some e) (Some (Literal_rename_for_config (export c) (selfed_literal self l))).
Proof.
  intros c [a|] e l L; cbn [selfed_literal]; [exact (number_kept c a e l L)|].
  intros x names c_names t z -> K E F fuel b. rewrite <- (self_same "" x l L). exact (number_kept c "" _ l L x names c_names t z eq_refl K E F fuel b).
Qed.
Lemma field_number : forall c self e v l, one_field e v -> Literal_load e = Some l ->
  exists path n f d g, Literal_rename_for_config (export c) (selfed_literal self l) = LStruct path n [(f, (d, g))] /\ same_number c (Some v) (Some d).
Proof.
  intros c self e v l O L.
  assert (G : exists path n f d g, l = LStruct path n [(f, (d, g))] /\ Literal_load v = Some d).
  { destruct O as [[before ident g0] a m v rest|n g0 v].
    - cbn [Literal_load map_opt] in L. destruct (Literal_load v) as [d|] eqn:D; [|discriminate]. injection L as <-. eexists _, _, _, d, _. split; reflexivity.
    - cbn [Literal_load map_opt] in L. destruct (Literal_load v) as [d|] eqn:D; [|discriminate]. injection L as <-. eexists _, _, _, d, _. split; reflexivity. }
  destruct G as (path & n & f & d & g & -> & D).
  assert (S1 : exists path' n', selfed_literal self (LStruct path n [(f, (d, g))]) = LStruct path' n' [(f, (selfed_literal self d, g))]).
  { destruct self as [a|]; cbn [selfed_literal Literal_replace_self_with map fst snd]; [destruct (String.eqb path "Self")|]; eexists _, _; reflexivity. }
  destruct S1 as (path' & n' & ->). cbn [Literal_rename_for_config map fst snd]. eexists _, _, f, _, g. split; [reflexivity|]. exact (constant_number c self v d D).
Qed.

(** ** Types *)
Lemma plain_same : forall lang t ty, argumentless t = true -> Type_load t = Some (Some ty) -> simplify_standard_types lang ty = ty.
Proof.
  intro lang. fix IH 1. intros t ty A L. destruct t as [m u|m u|q|u e|ins v o|l| | |]; try discriminate; cbn [argumentless] in A; cbn [Type_load] in L.
  - destruct (Type_load u) as [[x|]|] eqn:Lu; [| |discriminate]; injection L as <-; cbn [simplify_standard_types]; [rewrite (IH u x A Lu)|]; reflexivity.
  - destruct (Type_load u) as [[x|]|] eqn:Lu; [| |discriminate]; injection L as <-; cbn [simplify_standard_types]; [rewrite (IH u x A Lu)|]; reflexivity.
  - destruct q as [before ident args]. destruct args; try discriminate. cbn [GenericPath_load] in L.
    assert (G : exists n, (if String.eqb (unraw ident) "PhantomData" then Some (GenericPath_new (unraw ident) []) else Some (GenericPath_new (unraw ident) [])) = Some (GenericPath_new n [])) by (exists (unraw ident); destruct (String.eqb _ _); reflexivity).
    destruct G as (n & G). rewrite G in L. destruct (_ || _); [discriminate|]. destruct (PrimitiveType_maybe _); [destruct (is_nil _); [|discriminate]|]; injection L as <-; reflexivity.
  - destruct (Type_load u) as [[x|]|] eqn:Lu; try discriminate. destruct (ConstExpr_load e); [|discriminate]. injection L as <-. cbn [simplify_standard_types]. rewrite (IH u x A Lu). reflexivity.
Qed.
Lemma selfed_same : forall lang self t ty, argumentless t = true -> Type_load t = Some (Some ty) -> simplify_standard_types lang (selfed self ty) = selfed self ty.
Proof.
  intros lang self t ty A L. destruct self as [s|]; cbn [selfed]; [|exact (plain_same lang t ty A L)]. revert t ty A L.
  fix IH 1. intros t ty A L. destruct t as [m u|m u|q|u e|ins v o|l| | |]; try discriminate; cbn [argumentless] in A; cbn [Type_load] in L.
  - destruct (Type_load u) as [[x|]|] eqn:Lu; [| |discriminate]; injection L as <-; cbn [replace_self_with simplify_standard_types]; [rewrite (IH u x A Lu)|]; reflexivity.
  - destruct (Type_load u) as [[x|]|] eqn:Lu; [| |discriminate]; injection L as <-; cbn [replace_self_with simplify_standard_types]; [rewrite (IH u x A Lu)|]; reflexivity.
  - destruct q as [before ident args]. destruct args; try discriminate. cbn [GenericPath_load] in L.
    assert (G : exists n, (if String.eqb (unraw ident) "PhantomData" then Some (GenericPath_new (unraw ident) []) else Some (GenericPath_new (unraw ident) [])) = Some (GenericPath_new n [])) by (exists (unraw ident); destruct (String.eqb _ _); reflexivity).
    destruct G as (n & G). rewrite G in L. destruct (_ || _); [discriminate|]. destruct (PrimitiveType_maybe _); [destruct (is_nil _); [|discriminate]|]; injection L as <-; [reflexivity|].
    cbn [GenericPath_new replace_self_with map]. destruct (String.eqb n "Self"); reflexivity.
  - destruct (Type_load u) as [[x|]|] eqn:Lu; try discriminate. destruct (ConstExpr_load e); [|discriminate]. injection L as <-. cbn [replace_self_with simplify_standard_types]. rewrite (IH u x A Lu). reflexivity.
Qed.
Lemma id_step : forall lang, step_ok lang (fun _ => None) (fun t => t).
Proof.
  intro lang. repeat split. intros r a n nv. f_equal. rewrite (map_ext _ (fun x => x)); [rewrite map_id; reflexivity|]. intros []. reflexivity.
Qed.

(** ** A constant *)
Lemma srev_length : forall a, String.length (srev a) = String.length a.
Proof. induction a as [|x a IH]; [reflexivity|]. rewrite srev_cons, slength_app, IH. cbn. lia. Qed.
Lemma suffix_stripped : forall a b, strip_suffix (a ++ b) b = Some a.
Proof.
  intros a b. unfold strip_suffix. rewrite srev_app, starts_with_app. f_equal. rewrite <- (srev_length b), sdrop_app. apply srev_invol.
Qed.
(** What the text depends on besides [constant_for] *)
Definition raw_constant (c : Config) (k : option Cfg) (self : option string) (attrs : attributes) (ty : sty) (value : sexpr) (x : Constant) : Prop :=
  c_cfg x = Cfg_append k (Cfg_of_attrs attrs)
  /\ (exists t, Type_load ty = Some (Some t) /\ c_ty x = Type_rename_for_config (export c) [] (selfed self t))
  /\ exists l, Literal_load value = Some l /\ M_Ir.c_value x = Literal_rename_for_config (export c) (selfed_literal self l).
Section Made.
  Variables (c : Config) (here : (atom -> bool) -> bool) (k : option Cfg).
  Hypothesis Here : forall rho, cfg_eval_opt rho k = here rho.
  Lemma constant_made : forall self attrs ident ty value x,
    Constant_load (unraw ident ++ match self with Some s => s | None => "" end) k ty value attrs self = Some (Some x) ->
    constant_for c here self attrs ident ty value (Constant_rename_for_config (export c) x) /\ raw_constant c k self attrs ty value (Constant_rename_for_config (export c) x).
  Proof.
    intros self attrs ident ty value x L. unfold Constant_load in L. destruct (Type_load ty) as [[t|]|] eqn:T; try discriminate.
    destruct (Literal_load value) as [l|] eqn:V; [|discriminate].
    assert (E : (match self with Some a => (replace_self_with a t, Literal_replace_self_with a l) | None => (t, l) end) = (selfed self t, selfed_literal self l)) by (destruct self; reflexivity).
    rewrite E in L. destruct (AnnotationSet_load attrs) as [ann|] eqn:A; [|discriminate]. unfold Constant_new in L.
    assert (N : (match self with Some a => strip_suffix (unraw ident ++ match self with Some s => s | None => "" end) a | None => Some (unraw ident ++ match self with Some s => s | None => "" end) end) = Some (unraw ident)).
    { destruct self as [a|]; [apply suffix_stripped|]. rewrite sapp_nil_r. reflexivity. }
    rewrite N in L. injection L as <-. split; [|split; [reflexivity|]; split; [exists t|exists l]; auto]. constructor; cbn [Constant_rename_for_config c_path c_export_name c_associated_to c_ty c_cfg c_annotations c_documentation M_Ir.c_value]; try reflexivity.
    - intros P y R. destruct (step_finishes c _ _ (id_step (language c))) as [F1 F2 F3 F4 F5].
      destruct (types_meant c _ self _ F1 F2 F3 F4 F5 ty false false y R) as (ty' & v & L' & O & G1 & G2 & _). rewrite T in L'. injection L' as <-.
      cbn in O. subst v. unfold simp in G1, G2. rewrite (selfed_same _ self ty t P T) in G1, G2. auto.
    - intro rho. rewrite append_meaning, Here. reflexivity.
    - exact A.
    - exact (constant_number c self value l V).
    - intros v O. exact (field_number c self value v l O V).
  Qed.
  Lemma source_made : forall i o x, const_from k i o x -> exists self attrs ident ty value, (forall p, o = Some p -> self = Some p) /\ source_constant i self attrs ident ty value
    /\ constant_for c here self attrs ident ty value (Constant_rename_for_config (export c) x) /\ raw_constant c k self attrs ty value (Constant_rename_for_config (export c) x).
  Proof.
    assert (B : forall self_ty items o x, of_impl k self_ty items o x -> exists self attrs ident ty value, (forall p, o = Some p -> Some self = Some p) /\ block_name self_ty = Some self
      /\ In (ImplConst attrs true ident ty value) items /\ should_skip_parsing attrs = false /\ constant_for c here (Some self) attrs ident ty value (Constant_rename_for_config (export c) x)
      /\ raw_constant c k (Some self) attrs ty value (Constant_rename_for_config (export c) x)).
    { intros self_ty items o x (t & path & L & R & O & attrs & ident & ty & value & I & S1 & C1). exists path, attrs, ident, ty, value.
      split. { intros p ->. destruct O as [O|O]; [discriminate|]. symmetry. exact O. }
      split; [exact (block_loaded _ _ _ L R)|]. split; [exact I|]. split; [exact S1|]. exact (constant_made (Some path) _ _ _ _ _ C1). }
    intros i o x F. destruct i as [| |attrs public ident ty value| | | | | |own self_ty items|own m b| |]; try contradiction.
    - destruct public; [|contradiction]. destruct F as [-> F]. exists None, attrs, ident, ty, value. split; [discriminate|]. split; [constructor|].
      apply (constant_made None). rewrite sapp_nil_r. exact F.
    - destruct (B _ _ _ _ F) as (self & attrs & ident & ty & value & O & N & I & S1 & C1). exists (Some self), attrs, ident, ty, value. split; [exact O|]. split; [econstructor; eassumption|exact C1].
    - destruct b as [b|]; [|contradiction]. destruct F as (tr & F). destruct (B _ _ _ _ F) as (self & attrs & ident & ty & value & O & N & I & S1 & C1).
      destruct (flags_loaded _ _ _ I) as (attrs' & ident' & v & value' & Q & J & NU & FV). injection Q as <- <- -> <-. cbn in N. injection N as <-.
      exists (Some (unraw (M_Loader.bf_name b))), attrs, ident. eexists _, value. split; [exact O|]. split; [econstructor; eassumption|exact C1].
  Qed.
End Made.

(** ** From the sources to the bindings *)
Lemma constant_passes : forall (H : Heck) fuel visit l l' b, prepare fuel visit l = Done l' -> finish l' = Done b ->
  forall x, In x (b_constants b) -> exists x0, In x0 (to_vec (l_constants l)) /\ x = Constant_rename_for_config (export (l_config l)) x0.
Proof.
  intros H fuel visit l l' b Hp Hf x I. apply prepare_stages in Hp as (l1 & l2 & l3 & l4 & St).
  pose proof (stages_config _ _ _ _ _ _ _ _ _ St) as (_ & C2 & _ & C4 & _).
  destruct St as [S1 S2 S3 S4 S5]. pose proof (rename_rest _ _ _ S5) as (_ & R2 & _). rewrite C4 in *.
  assert (E2 : l_constants l2 = l_constants l).
  { destruct (transfer_rest visit l) as (_ & T2 & _). destruct (Language_eqb _ Cxx); [subst; exact T2|]. apply mono_rest in S2 as (_ & -> & _). subst. exact T2. }
  assert (E4 : l_constants l4 = l_constants l3) by (subst l4; destruct (Language_eqb _ M_Config.C); [apply resolve_rest|reflexivity]).
  unfold finish in Hf. destruct (library_dependencies l'); try discriminate. apply (f_equal (fun o => match o with Done x => b_constants x | _ => [] end)) in Hf.
  rewrite <- Hf in I. cbn [b_constants] in I. destruct (should_generate _ Constants); [|destruct I]. apply sorted_in in I. rewrite R2 in I.
  apply rebuild_invents_nothing in I. rewrite to_vec_map in I. apply in_map_iff in I as (h & <- & Hh). exists h. split; [|reflexivity].
  rewrite E4, S3 in Hh. cbn [remove_excluded l_constants] in Hh. rewrite filter_to_vec in Hh. apply filter_In in Hh as [Hh _]. rewrite E2 in Hh. exact Hh.
Qed.
Theorem constants_made : forall (H : Heck) d c bitflags mfuel fuel std srcs lib l, parse_all d c bitflags mfuel fuel std srcs lib = Parsed l ->
  exists vss rs, sources_read d (parse c) srcs lib vss rs
    /\ forall pfuel visit l' b, prepare pfuel visit l = Done l' -> finish l' = Done b ->
         (forall k, In k (b_constants b) -> exists v i self attrs ident ty value, item_read vss rs v i /\ source_constant i self attrs ident ty value
           /\ constant_for c (module_holds v) self attrs ident ty value k /\ raw_constant c (Cfg_join (vi_guards v)) self attrs ty value k)
         /\ forall s k, In (ICStruct s) (b_items b) -> In k (s_associated_constants s) -> instance_path c (s_path s) \/ exists v i attrs ident ty value,
           item_read vss rs v i /\ source_constant i (Some (s_path s)) attrs ident ty value
           /\ constant_for c (module_holds v) (Some (s_path s)) attrs ident ty value k /\ raw_constant c (Cfg_join (vi_guards v)) (Some (s_path s)) attrs ty value k.
Proof.
  intros H d c bitflags mfuel fuel std srcs lib l Q. destruct (all_given H d c bitflags mfuel fuel std srcs lib l Q) as (vss & rs & R & G).
  exists vss, rs. split; [exact R|]. intros pfuel visit l' b Hp Hf.
  destruct (parsed_fresh d c bitflags mfuel fuel std srcs lib l Q) as [AL BE].
  assert (LC : l_config l = c). { destruct (all_sound _ _ _ _ _ _ _ _ _ Q) as (? & ? & ? & ? & _ & _ & _ & _ & Z & _). exact Z. }
  assert (HERE : forall v rho, cfg_eval_opt rho (Cfg_join (vi_guards v)) = module_holds v rho) by (intros v rho; apply join_meaning).
  split.
  - intros x I. destruct (constant_passes H _ _ _ _ _ Hp Hf x I) as (x0 & I0 & ->). rewrite LC.
    destruct (G None x0 I0) as (v & i & Iv & Ii & NS & CF). destruct (source_made c _ _ (HERE v) _ _ _ CF) as (self & attrs & ident & ty & value & _ & SC & K).
    exists v, i, self, attrs, ident, ty, value. split; [repeat split; assumption|]. auto.
  - intros s x I X. apply finish_defined with (1 := Hf) in I as [I _]. destruct (item_passes H pfuel visit l l' AL BE Hp) as (g & Step & IP). cbn zeta in IP. rewrite LC in Step, IP.
    destruct (IP _ I) as [(x0 & x1 & I0 & SB & P & Rn)|(NC & j & M & Rn)].
    + right. assert (X0 : exists s0, x0 = ICStruct s0).
      { destruct SB as [->|(a & ->)]; destruct x0 as [|s0| | |]; cbn in Rn; try contradiction; exists s0; reflexivity. }
      destruct X0 as (s0 & ->).
      assert (E : exists s1, x1 = ICStruct s1 /\ s_associated_constants s1 = s_associated_constants s0 /\ s_path s1 = s_path s0).
      { destruct SB as [->|(a & ->)]; [exists s0; auto|exists (set_s_annotations a s0); auto]. }
      destruct E as (s1 & -> & EA & EP). cbn [ic_map_types renamed] in Rn. unfold Struct_rename_for_config in Rn.
      destruct (Struct_rename_fields _ _ _) as [fs|]; [|discriminate]. injection Rn as <-.
      cbn [set_s_constants set_s_export_name set_s_fields map_s_types s_associated_constants s_path] in X |- *. rewrite EA in X. rewrite EP. apply in_map_iff in X as (x' & <- & X).
      apply In_defined in I0. destruct (G (Some (s_path s0)) x') as (v & i & Iv & Ii & NS & CF); [exists s0; auto|].
      destruct (source_made c _ _ (HERE v) _ _ _ CF) as (self & attrs & ident & ty & value & O & SC & K). rewrite (O _ eq_refl) in SC, K.
      exists v, i, attrs, ident, ty, value. split; [repeat split; assumption|]. auto.
    + left. split; [exact NC|]. rewrite <- LC in Rn. destruct (made_path H l g j _ M Rn) as (p & args & N & E). exists p, args. rewrite LC in E. auto.
Qed.
Theorem constants_sources : forall (H : Heck) d c bitflags mfuel fuel std srcs lib l, parse_all d c bitflags mfuel fuel std srcs lib = Parsed l ->
  exists vss rs, sources_read d (parse c) srcs lib vss rs
    /\ forall pfuel visit l' b, prepare pfuel visit l = Done l' -> finish l' = Done b -> constants_from_sources c vss rs b.
Proof.
  intros H d c bitflags mfuel fuel std srcs lib l Q. destruct (constants_made H d c bitflags mfuel fuel std srcs lib l Q) as (vss & rs & R & G).
  exists vss, rs. split; [exact R|]. intros pfuel visit l' b Hp Hf. destruct (G _ _ _ _ Hp Hf) as [G1 G2]. constructor.
  - intros k I. destruct (G1 k I) as (v & i & self & attrs & ident & ty & value & IR & SC & K & _). exists v, i, self, attrs, ident, ty, value. auto.
  - intros s k I J. destruct (G2 s k I J) as [P|(v & i & attrs & ident & ty & value & IR & SC & K & _)]; [left; exact P|right]. exists v, i, attrs, ident, ty, value. auto.
Qed.
