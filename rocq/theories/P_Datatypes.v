(** Proofs about [S_Datatypes]. *)
Require Import Coq.Strings.String Coq.Strings.Ascii Coq.Lists.List Coq.Bool.Bool Coq.Arith.Arith Coq.NArith.NArith Coq.Sorting.Permutation Coq.micromega.Lia.
From Verif Require Import Base P_Base M_Reserved M_Config M_Cfg S_Cfg P_Cfg M_Type M_Ir M_Item S_Decl M_Attr M_Docs M_Library M_Syn M_Loader M_Parser S_Item S_Sort S_Library S_Names S_Mono
  S_Parse P_Type P_Sort P_Item P_Table P_Library P_Stages P_Names P_Spelling P_NamesLib S_Signature P_Signature P_SigLib P_ItemPasses P_Exports P_Modules P_Entries P_Crates S_Sources P_Sources P_Fresh P_Made S_Datatypes.
Import ListNotations.
Open Scope string_scope.

(** ** Loading fields *)
Lemma sizeless_none : forall t, Type_load t = Some None -> sizeless t = true.
Proof.
  intros t. destruct t as [m u|m u|[b i a]|u e|ins v out|l| | |]; try discriminate.
  - cbn [Type_load]. destruct (let? c := Type_load u in _); discriminate.
  - cbn [Type_load]. destruct (let? c := Type_load u in _); discriminate.
  - change (Type_load (SPath (SegPath b i a))) with (let? g := GenericPath_load (SegPath b i a) in
      if String.eqb (gp_path g) "PhantomData" || String.eqb (gp_path g) "PhantomPinned" then Some None
      else match PrimitiveType_maybe (gp_path g) with Some prim => if is_nil (gp_generics g) then Some (Some (TPrim prim)) else None | None => Some (Some (TPath g)) end).
    destruct (GenericPath_load (SegPath b i a)) as [g|] eqn:G; [|discriminate].
    assert (P : gp_path g = unraw i). { cbn [GenericPath_load] in G. destruct (String.eqb (unraw i) "PhantomData"); [injection G as <-; reflexivity|].
      destruct (match a with AngleArgs _ => _ | ParenArgs => _ | NoArgs => _ end); [|discriminate]. injection G as <-. reflexivity. }
    rewrite P. cbn [sizeless mem_str]. destruct (unraw i =? "PhantomData"); [reflexivity|]. destruct (unraw i =? "PhantomPinned"); [reflexivity|].
    cbn [orb]. destruct (PrimitiveType_maybe _); [|discriminate]. destruct (is_nil _); discriminate.
  - cbn [Type_load]. destruct (Type_load u) as [[x|]|]; try discriminate. destruct (ConstExpr_load e); discriminate.
  - cbn [Type_load]. destruct (try_skip_map _ _); [|discriminate]. destruct (match out with None => _ | Some SNever => _ | Some _ => _ end); discriminate.
  - destruct l; [reflexivity|discriminate].
Qed.
Lemma sizeless_some : forall t x, Type_load t = Some (Some x) -> sizeless t = false.
Proof.
  intros t x. destruct t as [m u|m u|[b i a]|u e|ins v out|l| | |]; try reflexivity.
  - change (Type_load (SPath (SegPath b i a))) with (let? g := GenericPath_load (SegPath b i a) in
      if String.eqb (gp_path g) "PhantomData" || String.eqb (gp_path g) "PhantomPinned" then Some None
      else match PrimitiveType_maybe (gp_path g) with Some prim => if is_nil (gp_generics g) then Some (Some (TPrim prim)) else None | None => Some (Some (TPath g)) end).
    destruct (GenericPath_load (SegPath b i a)) as [g|] eqn:G; [|discriminate].
    assert (P : gp_path g = unraw i). { cbn [GenericPath_load] in G. destruct (String.eqb (unraw i) "PhantomData"); [injection G as <-; reflexivity|].
      destruct (match a with AngleArgs _ => _ | ParenArgs => _ | NoArgs => _ end); [|discriminate]. injection G as <-. reflexivity. }
    rewrite P. cbn [sizeless mem_str]. destruct (unraw i =? "PhantomData"); [discriminate|]. destruct (unraw i =? "PhantomPinned"); [discriminate|]. reflexivity.
  - destruct l; [discriminate|reflexivity].
Qed.

(** [f] as loaded *)
Definition raw_field (self : string) (m : string * sfield) (f : Field) : Prop :=
  (exists ty, Type_load (sf_ty (snd m)) = Some (Some ty) /\ fd_ty f = replace_self_with self ty) /\ fd_name f = fst m
  /\ fd_cfg f = Cfg_of_attrs (sf_attrs (snd m)) /\ AnnotationSet_load (sf_attrs (snd m)) = Some (fd_annotations f)
  /\ fd_documentation f = Documentation_load (sf_attrs (snd m)).
Lemma named_loaded : forall self l k fs, try_skip_map (fun f => Field_load f self) l = Some fs -> Forall2 (raw_field self) (members true k l) fs.
Proof.
  intros self l. induction l as [|f r IH]; intros k fs E; [injection E as <-; constructor|]. rewrite try_skip_cons in E. cbn [members].
  destruct (Field_load f self) as [o|] eqn:F; [|discriminate]. destruct (try_skip_map _ r) as [ys|] eqn:R; [|discriminate]. injection E as <-.
  unfold Field_load in F. destruct (Type_load (sf_ty f)) as [[ty|]|] eqn:T; [| |discriminate].
  - rewrite (sizeless_some _ _ T). destruct (sf_ident f) as [n|] eqn:N; [|discriminate]. destruct (AnnotationSet_load (sf_attrs f)) as [a|] eqn:A; [|discriminate].
    injection F as <-. constructor; [|apply IH; reflexivity]. split; [exists ty; auto|]. cbn. auto.
  - injection F as <-. rewrite (sizeless_none _ T). apply IH. reflexivity.
Qed.
Lemma tuple_loaded : forall self l k fs, load_tuple_fields k self l = Some fs -> Forall2 (raw_field self) (members false k l) fs.
Proof.
  intros self l. induction l as [|f r IH]; intros k fs E; cbn [load_tuple_fields] in E; [injection E as <-; constructor|]. cbn [members].
  destruct (Type_load (sf_ty f)) as [[ty|]|] eqn:T; [| |discriminate].
  - rewrite (sizeless_some _ _ T). destruct (AnnotationSet_load (sf_attrs f)) as [a|] eqn:A; [|discriminate]. destruct (load_tuple_fields (S k) self r) as [ys|] eqn:R; [|discriminate].
    injection E as <-. constructor; [|apply IH; exact R]. split; [exists ty; auto|]. cbn. auto.
  - rewrite (sizeless_none _ T). apply IH. exact E.
Qed.

(** ** Renaming *)
Lemma rename_kept : forall ex gps, Forall (fun p => export_rename ex (gp_name_ p) = gp_name_ p) gps ->
  forall t, fresh_type t -> Type_rename_for_config ex gps t = Type_rename_for_config ex [] t.
Proof.
  intros ex gps K.
  assert (N : forall n, is_generic_param gps n = true -> export_rename ex n = n).
  { intros n I. unfold is_generic_param in I. apply existsb_exists in I as (p & Ip & E). apply String.eqb_eq in E. rewrite Forall_forall in K. specialize (K p Ip). congruence. }
  apply (Ty_ind' (fun t => fresh_type t -> Type_rename_for_config ex gps t = Type_rename_for_config ex [] t)
    (fun g => Forall fresh (path_refs g) -> GenericPath_rename_for_config ex gps g = GenericPath_rename_for_config ex [] g)
    (fun a => Forall fresh (arg_refs a) -> GenericArgument_rename_for_config ex gps a = GenericArgument_rename_for_config ex [] a)
    (fun e => Forall fresh (const_refs e) -> ConstExpr_rename_for_config ex gps e = ConstExpr_rename_for_config ex [] e)); unfold fresh_type.
  - intros t c n r IH F. cbn. rewrite IH by exact F. reflexivity.
  - intros g IH F. cbn. rewrite IH by exact F. reflexivity.
  - reflexivity.
  - intros t e IH IHe F. cbn in F. apply Forall_app in F as [F1 F2]. cbn. rewrite IH, IHe by assumption. reflexivity.
  - intros r args n nr IH IHa F. cbn in F. apply Forall_app in F as [F1 F2]. cbn. rewrite IH by assumption. f_equal.
    rewrite P_Names.Forall_concat_map in F2. clear - IHa F2. induction IHa as [|a q A IHa IHq]; [reflexivity|]. inversion F2; subst. cbn. rewrite A, IHq by assumption. reflexivity.
  - intros p e gs ct IH F. cbn in F. inversion F as [|x y [E _] F2]; subst. cbn in E. subst e. cbn. f_equal.
    + destruct (is_generic_param gps p) eqn:G; [|reflexivity]. symmetry. apply N. exact G.
    + rewrite P_Names.Forall_concat_map in F2. clear - IH F2. induction IH as [|a q A IHa IHq]; [reflexivity|]. inversion F2; subst. cbn. rewrite A, IHq by assumption. reflexivity.
  - intros t IH F. cbn. rewrite IH by exact F. reflexivity.
  - intros e IH F. cbn. rewrite IH by exact F. reflexivity.
  - intros g IH F. cbn. rewrite IH by exact F. reflexivity.
  - reflexivity.
Qed.

Fixpoint with_names (ns : list string) (fs : list Field) : list Field :=
  match ns, fs with n :: ns', f :: fs' => set_fd_name n f :: with_names ns' fs' | _, _ => [] end.
Lemma set_own_name : forall f, set_fd_name (fd_name f) f = f. Proof. intros []. reflexivity. Qed.
Lemma with_own_names : forall fs, with_names (map fd_name fs) fs = fs.
Proof. induction fs as [|f r IH]; [reflexivity|]. cbn. rewrite set_own_name, IH. reflexivity. Qed.
Lemma with_mapped : forall h fs, map (fun f => set_fd_name (h (fd_name f)) f) fs = with_names (map h (map fd_name fs)) fs.
Proof. intros h. induction fs as [|f r IH]; [reflexivity|]. cbn. rewrite IH. reflexivity. Qed.
Lemma with_given : forall fs given, zip_names fs given = with_names (replace_first given (map fd_name fs)) fs.
Proof.
  unfold replace_first. induction fs as [|f r IH]; intros [|n ns]; try reflexivity.
  - cbn [zip_names firstn skipn length app map]. symmetry. apply (with_own_names (f :: r)).
  - cbn [zip_names]. rewrite IH. reflexivity.
Qed.
Lemma fields_renamed : forall (H : Heck) c ann fs fs', Struct_rename_fields c ann fs = Some fs' ->
  exists names, field_names c ann (map fd_name fs) = Some names /\ fs' = with_names names fs.
Proof.
  intros H c ann fs fs' E. unfold Struct_rename_fields in E. unfold field_names. destruct (rule_or _ _ _) as [r|]; [|discriminate]. injection E as <-.
  eexists. split; [reflexivity|]. destruct (an_list ann "field-names") as [given|]; [apply with_given|].
  destruct r; cbn [not_none]; try match goal with |- context [RenameRule_apply ?r] => exact (with_mapped (fun n => RenameRule_apply r n StructMember) fs) end.
  rewrite <- with_mapped. apply map_ext. intro f. destruct (starts_with_digit _); [reflexivity|]. symmetry. apply set_own_name.
Qed.
Lemma with_escaped : forall ns fs, map escape_field (with_names ns fs) = with_names (map escape_str ns) fs.
Proof. induction ns as [|n ns IH]; intros [|f fs]; try reflexivity. cbn [with_names map]. rewrite IH. reflexivity. Qed.
Lemma names_length : forall (H : Heck) c ann own names, field_names c ann own = Some names -> length names = length own.
Proof.
  intros H c ann own names E. unfold field_names in E. destruct (rule_or _ _ _) as [r|]; [|discriminate]. injection E as <-.
  destruct (an_list ann "field-names") as [given|].
  - unfold replace_first. rewrite app_length, firstn_length, skipn_length. apply Nat.min_case_strong; intros; lia.
  - destruct r; apply map_length.
Qed.

(** ** After the passes *)
Section Passes.
  Variables (c : Config) (kw : string -> option DeclarationType) (g : Ty -> Ty).
  Hypothesis Step : step_ok (language c) kw g.
  Variables (gps : GenericParams).
  Hypothesis Params : language c <> Cxx -> gps = [].
  Let lang := language c.
  Definition finished (t : Ty) : Ty := Type_rename_for_config (export c) gps (g (simplify_standard_types (language c) t)).
  Lemma type_finished : parameters_kept c gps -> forall self t ty, Type_load t = Some (Some ty) -> fresh_type (selfed self ty) ->
    forall x, rust_type c kw self false false t = Some x -> declarable c (finished (selfed self ty)) = true /\ c_type c false (finished (selfed self ty)) = x.
  Proof.
    intros K self t ty L F x E. destruct (step_finishes c kw g Step) as [F1 F2 F3 F4 F5].
    destruct (types_meant c kw self _ F1 F2 F3 F4 F5 t false false x E) as (ty' & v & L' & O & G1 & G2 & _). rewrite L in L'. injection L' as <-.
    cbn in O. subst v. unfold simp in G1, G2.
    assert (Q : finished (selfed self ty) = Type_rename_for_config (export c) [] (g (simplify_standard_types (language c) (selfed self ty)))).
    { unfold finished. destruct (Language_eqb (language c) Cxx) eqn:LC.
      - apply cxx_eqb in LC. destruct Step as (_ & _ & _ & _ & _ & Id). rewrite (Id LC). apply rename_kept; [exact K|]. apply fresh_simplify. exact F.
      - rewrite Params; [reflexivity|]. intro Z. rewrite Z in LC. discriminate. }
    rewrite Q. split; [exact G2|exact G1].
  Qed.
  Lemma fields_finished : parameters_kept c gps -> forall self ms raw, Forall2 (raw_field self) ms raw -> fresh_fields raw ->
    forall ns, length ns = length ms -> fields_for c kw self ns ms (with_names ns (map (map_fd_ty finished) raw)).
  Proof.
    intros K self ms raw R. induction R as [|m f ms raw ((ty & L & T) & N & Cf & An & Do) R IH]; intros F ns Ln; destruct ns as [|n ns]; try discriminate; [constructor|].
    inversion F as [|x y F1 F2]; subst. cbn [map with_names]. constructor; [|apply IH; [exact F2|injection Ln as ->; reflexivity]].
    constructor; cbn [set_fd_name map_fd_ty set_fd_ty fd_name fd_ty fd_cfg fd_annotations fd_documentation]; try assumption; [reflexivity| |].
    - intros t E. rewrite T in F1 |- *. exact (type_finished K (Some self) (sf_ty (snd m)) ty L F1 t E).
    - intro rho. rewrite Cf. reflexivity.
  Qed.
End Passes.

Lemma raw_names : forall self ms raw R, Forall2 (raw_field self) ms raw -> map fd_name (map (map_fd_ty R) raw) = map fst ms.
Proof. intros self ms raw R F. induction F as [|m f ms raw (_ & N & _) F IH]; [reflexivity|]. cbn [map]. rewrite IH. cbn. rewrite N. reflexivity. Qed.
Lemma raw_length : forall self ms raw, Forall2 (raw_field self) ms raw -> length ms = length raw.
Proof. intros self ms raw F. induction F; cbn; congruence. Qed.
Lemma raw_nil : forall self ms raw, Forall2 (raw_field self) ms raw -> is_nil raw = is_nil ms.
Proof. intros self ms raw F. destruct F; reflexivity. Qed.
Lemma with_nil : forall ns fs, length ns = length fs -> is_nil (with_names ns fs) = is_nil fs.
Proof. intros [|] [|]; try discriminate; reflexivity. Qed.
Lemma field_twice : forall f h l, map (map_fd_ty f) (map (map_fd_ty h) l) = map (map_fd_ty (fun t => f (h t))) l.
Proof. intros. rewrite map_map. reflexivity. Qed.

Section Things.
  Context {H : Heck}.
  Variables (c : Config) (kw : string -> option DeclarationType) (g : Ty -> Ty).
  Hypothesis Step : step_ok (language c) kw g.
  Variables (here : (atom -> bool) -> bool) (k : option Cfg).
  Hypothesis Here : forall rho, cfg_eval_opt rho k = here rho.
  Let passes (t : Ty) : Ty := g (simplify_standard_types (language c) t).

  Lemma safe_known : forall a u, ensure_safe_to_represent (layout c) a = Some u -> alignment_known c a.
  Proof. intros [[|n]|] u E; cbn in E |- *; [destruct (ly_packed _); discriminate|destruct (ly_aligned_n _); discriminate|exact Logic.I]. Qed.
  Lemma struct_made : forall attrs ident generics fields s0 s1 s2 s, Struct_load (layout c) attrs ident generics fields k = Some s0 ->
    struct_more s0 s1 -> struct_more s1 s2 -> fresh_struct s1 -> (language c <> Cxx -> s_generic_params s1 = []) ->
    Struct_rename_for_config c (map_s_types passes s2) = Some s -> struct_for c kw here attrs ident generics fields s.
  Proof.
    intros attrs ident generics fields s0 s1 s2 s L M1 M2 (_ & _ & Fr & _) P R. pose proof (more_trans _ _ _ M1 M2) as (cs & a & ->).
    destruct M1 as (cs1 & a1 & ->). clear M2. unfold Struct_load in L.
    destruct (Repr_load attrs) as [r|] eqn:Re; [|discriminate].
    destruct (match rp_style r with ReprC => _ | ReprTransparent => _ | ReprRust => _ end) as [tr|] eqn:Tr; [|discriminate].
    destruct (ensure_safe_to_represent _ _) eqn:SAFE; [|discriminate]. apply safe_known in SAFE.
    destruct (match fields with FieldsUnit => _ | FieldsNamed _ => _ | FieldsUnnamed _ => _ end) as [raw|] eqn:F; [|discriminate].
    destruct (GenericParams_load generics) as [gps|] eqn:G; [|discriminate]. destruct (AnnotationSet_load attrs) as [ann|] eqn:A; [|discriminate].
    injection L as <-. cbn [set_s_constants set_s_annotations s_fields s_generic_params Struct_new] in Fr, P.
    assert (RF : Forall2 (raw_field (unraw ident)) (struct_members fields) raw).
    { destruct fields as [|l|l]; cbn [struct_members].
      - injection F as <-. constructor.
      - apply named_loaded. exact F.
      - apply tuple_loaded. exact F. }
    unfold Struct_rename_for_config in R. cbn [map_s_types set_s_fields set_s_constants set_s_annotations Struct_new s_has_tag_field s_export_name s_annotations s_generic_params s_fields andb] in R.
    assert (RT : rename_field_types (export c) gps false (map (map_fd_ty passes) raw) = map (map_fd_ty (finished c g gps)) raw).
    { destruct raw; [reflexivity|]. cbn [rename_field_types map]. rewrite field_twice. reflexivity. }
    rewrite RT in R. destruct (Struct_rename_fields _ _ _) as [fs|] eqn:SR; [|discriminate]. destruct (fields_renamed H c _ _ _ SR) as (names & FN & ->).
    rewrite (raw_names _ _ _ _ RF) in FN. pose proof (names_length H c _ _ _ FN) as NL. rewrite map_length in NL. injection R as <-.
    assert (ML : length (struct_members fields) = length raw) by (exact (raw_length _ _ _ RF)).
    constructor; cbn [set_s_constants set_s_export_name set_s_fields s_path s_export_name s_generic_params s_cfg s_documentation s_alignment s_is_transparent s_fields s_annotations Struct_new map_s_types set_s_annotations].
    - reflexivity.
    - reflexivity.
    - exact G.
    - intro rho. rewrite append_meaning, Here. reflexivity.
    - reflexivity.
    - exists r. split; [exact Re|]. split; [reflexivity|]. rewrite with_escaped. destruct (rp_style r); try discriminate; injection Tr as <-.
      + left. split; [reflexivity|]. destruct (is_nil raw); reflexivity.
      + right. split; [reflexivity|]. rewrite with_nil by (rewrite !map_length; lia). destruct raw; reflexivity.
    - exact SAFE.
    - intro K. exists names. split; [exact FN|]. rewrite with_escaped. apply fields_finished; try assumption. rewrite map_length. exact NL.
  Qed.

  Lemma union_made : forall attrs ident generics fields u0 u1 u, Union_load (layout c) attrs ident generics fields k = Some u0 ->
    (u1 = u0 \/ exists a, u1 = set_u_annotations a u0) -> fresh_fields (u_fields u0) -> (language c <> Cxx -> u_generic_params u0 = []) ->
    Union_rename_for_config c (map_u_types passes u1) = Some u -> union_for c kw here attrs ident generics fields u.
  Proof.
    intros attrs ident generics fields u0 u1 u L SB Fr P R. unfold Union_load in L.
    destruct (Repr_load attrs) as [r|] eqn:Re; [|discriminate]. destruct (ReprStyle_eqb (rp_style r) ReprC) eqn:RC; [|discriminate]. cbn [negb] in L.
    destruct (ensure_safe_to_represent _ _) eqn:SAFE; [|discriminate]. apply safe_known in SAFE. destruct (try_skip_map _ fields) as [raw|] eqn:F; [|discriminate].
    destruct (GenericParams_load generics) as [gps|] eqn:G; [|discriminate]. destruct (AnnotationSet_load attrs) as [ann|] eqn:A; [|discriminate].
    assert (U : exists a, u1 = set_u_annotations a u0) by (destruct SB as [->|SB]; [exists (u_annotations u0); destruct u0; reflexivity|exact SB]).
    injection L as <-. clear SB. destruct U as (a & ->). cbn [Union_new u_fields u_generic_params] in Fr, P.
    pose proof (named_loaded (unraw ident) fields 0 raw F) as RF.
    unfold Union_rename_for_config in R. cbn [map_u_types set_u_fields set_u_annotations Union_new u_fields u_generic_params u_annotations u_tuple_union u_export_name] in R.
    rewrite field_twice in R. change (fun t => Type_rename_for_config (export c) gps (passes t)) with (finished c g gps) in R.
    destruct (rule_or a "rename-all" (st_rename_fields (structure c))) as [rules|] eqn:RU; [|discriminate]. apply (f_equal (fun o => match o with Some x => x | None => u end)) in R. subst u.
    constructor; cbn [set_u_fields set_u_annotations set_u_export_name u_path u_export_name u_generic_params u_cfg u_documentation u_alignment u_fields u_annotations Union_new map_u_types].
    - reflexivity.
    - reflexivity.
    - exact G.
    - intro rho. rewrite append_meaning, Here. reflexivity.
    - reflexivity.
    - exists r. split; [exact Re|]. split; [reflexivity|]. destruct (rp_style r); try discriminate. reflexivity.
    - exact SAFE.
    - intros K D. unfold field_names. rewrite RU.
      assert (Q : exists names, Some (match an_list a "field-names", rules with
        | Some given, _ => replace_first given (map fst (members true 0 fields))
        | None, RNone => map (fun n => if starts_with_digit n then "_" ++ n else n) (map fst (members true 0 fields))
        | None, r => map (fun n => RenameRule_apply r n StructMember) (map fst (members true 0 fields))
        end) = Some names /\ length names = length (members true 0 fields) /\
        match an_list a "field-names" with
             | Some o => zip_names (map (map_fd_ty (finished c g gps)) raw) o
             | None =>
                 match not_none rules with
                 | Some r => map (fun f => set_fd_name (RenameRule_apply r (fd_name f) StructMember) f) (map (map_fd_ty (finished c g gps)) raw)
                 | None => map (map_fd_ty (finished c g gps)) raw
                 end
             end = with_names names (map (map_fd_ty (finished c g gps)) raw)).
      { eexists. split; [reflexivity|]. pose proof (names_length H c a (map fst (members true 0 fields))) as NL. unfold field_names in NL. rewrite RU in NL.
        specialize (NL _ eq_refl). rewrite (map_length fst) in NL. split; [exact NL|]. clear NL. rewrite <- (raw_names _ _ _ (finished c g gps) RF).
        destruct (an_list a "field-names") as [given|]; [apply with_given|].
        destruct rules; cbn [not_none]; try match goal with |- context [RenameRule_apply ?r] => exact (with_mapped (fun n => RenameRule_apply r n StructMember) _) end.
        rewrite (raw_names _ _ _ (finished c g gps) RF). rewrite map_map.
        assert (Z : map (fun x => if starts_with_digit (fst x) then "_" ++ fst x else fst x) (members true 0 fields) = map fst (members true 0 fields)).
        { apply map_ext_in. intros m Hm. rewrite Forall_forall in D. rewrite (D m Hm). reflexivity. }
        rewrite Z, <- (raw_names _ _ _ (finished c g gps) RF). symmetry. apply with_own_names. }
      destruct Q as (names & Q1 & Q2 & Q3). exists names. split; [exact Q1|]. rewrite Q3. apply fields_finished; assumption.
  Qed.

  Lemma typedef_made : forall attrs ident generics ty t0 t1, Typedef_load attrs ident generics ty k = Some t0 ->
    (t1 = t0 \/ exists a, t1 = set_t_annotations a t0) -> fresh_type (t_aliased t0) -> (language c <> Cxx -> t_generic_params t0 = []) ->
    typedef_for c kw here attrs ident generics ty (Typedef_rename_for_config c (set_t_aliased (passes (t_aliased t1)) t1)).
  Proof.
    intros attrs ident generics ty t0 t1 L SB Fr P. unfold Typedef_load in L. destruct (Type_load ty) as [[x|]|] eqn:T; try discriminate.
    destruct (GenericParams_load generics) as [gps|] eqn:G; [|discriminate]. destruct (AnnotationSet_load attrs) as [ann|] eqn:A; [|discriminate].
    assert (U : exists a, t1 = set_t_annotations a t0) by (destruct SB as [->|SB]; [exists (t_annotations t0); destruct t0; reflexivity|exact SB]).
    injection L as <-. clear SB. destruct U as (a & ->). cbn [Typedef_new t_aliased t_generic_params] in Fr, P.
    constructor; cbn [Typedef_rename_for_config set_t_aliased set_t_annotations Typedef_new t_path t_export_name t_generic_params t_cfg t_documentation t_aliased].
    - reflexivity.
    - reflexivity.
    - exact G.
    - intro rho. rewrite append_meaning, Here. reflexivity.
    - reflexivity.
    - intros K y E. exact (type_finished c kw g Step gps P K None ty x T Fr y E).
  Qed.
  Lemma static_made : forall name attrs mutable ty g0, Static_load name attrs mutable ty k = Some g0 -> fresh_type (g_ty g0) ->
    static_for c kw here name attrs mutable ty (Static_rename_for_config c (map_g_ty passes g0)).
  Proof.
    intros name attrs mutable ty g0 L Fr. unfold Static_load in L. destruct (Type_load ty) as [[x|]|] eqn:T; try discriminate.
    destruct (AnnotationSet_load attrs) as [ann|] eqn:A; [|discriminate]. injection L as <-.
    constructor; cbn [Static_rename_for_config map_g_ty Static_new g_path g_export_name g_ty g_mutable g_cfg g_annotations g_documentation]; try reflexivity.
    - intro rho. rewrite append_meaning, Here. reflexivity.
    - exact A.
    - intros y E. exact (type_finished c kw g Step [] (fun _ => eq_refl) ltac:(constructor) None ty x T Fr y E).
  Qed.
End Things.

(** ** The statics *)
Lemma static_passes : forall (H : Heck) fuel visit l l', as_loaded l -> prepare fuel visit l = Done l' ->
  let c := l_config l in
  exists g, step_ok (language c) (keyword_in l') g /\
    forall x', In x' (to_vec (l_globals l')) -> exists x0, In x0 (to_vec (l_globals l))
      /\ x' = Static_rename_for_config c (map_g_ty (fun t => g (simplify_standard_types (language c) t)) x0).
Proof.
  intros H fuel visit l l' Hl Hp c. apply prepare_stages in Hp as (l1 & l2 & l3 & l4 & St).
  pose proof (fun p => stages_keyword_in _ _ _ _ _ _ _ _ _ p Hl St) as KW.
  pose proof (stages_config _ _ _ _ _ _ _ _ _ St) as (C1 & C2 & C3 & C4 & _). destruct St as [S1 S2 S3 S4 S5]. fold c in S2, S4, C1, C2, C3, C4.
  destruct (transfer_rest visit l) as (T1 & _ & T3 & _). cbn zeta in *.
  exists (resolving c l3). split. { eapply step_ext; [|exact (resolving_ok c l3)]. intro p. cbv beta. symmetry. exact (KW p). }
  intros x' I.
  assert (E2 : l_globals l2 = for_all_items_mut (Static_simplify (language c)) (l_globals l)).
  { transitivity (l_globals l1); [|subst l1; cbn; rewrite T1, T3; reflexivity].
    destruct (Language_eqb _ Cxx); [congruence|]. apply mono_rest in S2 as (_ & _ & -> & _). reflexivity. }
  apply rename_rest in S5 as (_ & _ & E5 & _). rewrite E5, C4 in I.
  assert (I5 : exists x4, In x4 (to_vec (l_globals l4)) /\ x' = Static_rename_for_config c x4).
  { apply rebuild_invents_nothing in I. rewrite to_vec_map in I. apply in_map_iff in I as (x4 & <- & I4). exists x4. auto. }
  destruct I5 as (x4 & I4 & ->).
  assert (I3 : exists x3, In x3 (to_vec (l_globals l3)) /\ x4 = map_g_ty (resolving c l3) x3).
  { unfold resolving. rewrite S4 in I4. destruct (Language_eqb (language c) M_Config.C); cbn [andb].
    - unfold resolve_library in I4. rewrite C3 in I4. destruct (generate_tag (style c)); cbn [negb] in I4.
      + cbn [l_globals] in I4. rewrite to_vec_map in I4. apply in_map_iff in I4 as (x3 & <- & I3). exists x3. auto.
      + exists x4. split; [exact I4|]. destruct x4; reflexivity.
    - exists x4. split; [exact I4|]. destruct x4; reflexivity. }
  destruct I3 as (x3 & I3 & ->). subst l3. cbn [remove_excluded l_globals] in I3. rewrite filter_to_vec, E2, to_vec_map in I3.
  apply filter_In in I3 as [I3 _]. apply in_map_iff in I3 as (x0 & <- & I0). exists x0. split; [exact I0|]. destruct x0; reflexivity.
Qed.

(** ** From the sources to the bindings *)
Lemma more_annotations : forall s1 x2, same_but_annotations (ICStruct s1) x2 -> exists s2, x2 = ICStruct s2 /\ struct_more s1 s2.
Proof.
  intros s1 x2 [->|(a & ->)]; [exists s1; split; [reflexivity|apply more_refl]|]. exists (set_s_annotations a s1). split; [reflexivity|].
  exists (s_associated_constants s1), a. destruct s1. reflexivity.
Qed.
Lemma fresh_under : forall a l, Forall (fun r : scoped => fresh (snd r)) (under a l) -> Forall fresh l.
Proof. intros a l F. unfold under in F. rewrite Forall_map in F. exact F. Qed.
Lemma made_path : forall (H : Heck) l g j x', made_instance l j -> renamed (l_config l) (ic_map_types g j) x' ->
  exists p args, args <> [] /\ ic_path x' = mangle_path p args (ex_mangle (export (l_config l))).
Proof.
  intros H l g j x' (args & x0 & x1 & i & p & l1 & N & _ & _ & _ & LC & I) R. exists p, args. split; [exact N|].
  apply P_MonoLib.instance_path in I. unfold instance_name in I. rewrite LC in I. rewrite <- I. clear - R.
  destruct j, x'; cbn [ic_map_types renamed] in R; try contradiction; cbn [ic_path].
  - subst. reflexivity.
  - apply struct_rename_key in R. destruct R as [R _]. exact R.
  - apply union_rename_key in R. destruct R as [R _]. exact R.
  - apply enum_rename_key in R. destruct R as [R _]. exact R.
  - subst. reflexivity.
Qed.

Lemma sorted_in : forall A (p : A -> string) key l x, In x (sort_by_path p key l) -> In x l.
Proof.
  intros A p key l x I. pose proof (sort_by_path_spec A p key l) as K. destruct key; cbn in K; [|exact I].
  eapply Permutation_in; [|exact I]. destruct K as [K _ _]. first [exact K|exact (Permutation_sym K)].
Qed.
Lemma datatypes_from : forall (H : Heck) d c bitflags mfuel fuel std srcs lib l vss rs, parse_all d c bitflags mfuel fuel std srcs lib = Parsed l -> all_from c vss rs l ->
  forall pfuel visit l' b, prepare pfuel visit l = Done l' -> finish l' = Done b -> declared_from_sources c (keyword_in l') vss rs b.
Proof.
  intros H d c bitflags mfuel fuel std srcs lib l vss rs Q G pfuel visit l' b Hp Hf.
  destruct (parsed_fresh d c bitflags mfuel fuel std srcs lib l Q) as [AL BE].
  assert (LC : l_config l = c). { destruct (all_sound _ _ _ _ _ _ _ _ _ Q) as (? & ? & ? & ? & _ & _ & _ & _ & Z & _). exact Z. }
  destruct (item_passes H pfuel visit l l' AL BE Hp) as (g & Step & IP). cbn zeta in IP. rewrite LC in Step, IP.
  destruct (static_passes H pfuel visit l l' AL Hp) as (h & StepG & GP). cbn zeta in GP. rewrite LC in StepG, GP.
  pose proof (al_items _ AL) as FI. rewrite Forall_forall in FI.
  assert (HT : forall x, In x (defined l) -> has_thing (items_of l) (AType x)).
  { intros x I. apply In_defined in I. destruct x; exact I. }
  assert (HERE : forall v rho, cfg_eval_opt rho (Cfg_join (vi_guards v)) = module_holds v rho).
  { intros v rho. apply join_meaning. }
  assert (INST : forall x' j, language c <> Cxx -> made_instance l j -> renamed c (ic_map_types g j) x' -> instance_path c (ic_path x')).
  { intros x' j NC M Rn. split; [exact NC|]. rewrite <- LC in Rn. destruct (made_path H l g j x' M Rn) as (p & args & N & E). exists p, args. rewrite LC in E. auto. }
  constructor.
  - intros s I. apply finish_defined with (1 := Hf) in I as [I _]. destruct (IP _ I) as [(x0 & x1 & I0 & SB & P & Rn)|(NC & j & M & Rn)]; [right|left; exact (INST _ _ NC M Rn)].
    assert (X0 : exists s0, x0 = ICStruct s0).
    { destruct SB as [->|(a & ->)]; destruct x0 as [|s0| | |]; cbn in Rn; try contradiction; exists s0; reflexivity. }
    destruct X0 as (s1 & ->). apply more_annotations in SB as (s2 & -> & M2). cbn [ic_map_types renamed ic_generic_params] in Rn, P.
    destruct (G _ (HT _ I0)) as [(o & Z)|(v & i & Iv & Ii & NS & MF)]; [discriminate|]. cbn in MF. destruct MF as (s0 & M1 & MF).
    pose proof (FI _ I0) as Fr. cbn in Fr. exists v, i.
    destruct i as [| | | |attrs ident generics fields| | | | |attrs m [bf|]| |]; try contradiction.
    + exists attrs, ident, generics, fields. split; [repeat split; assumption|]. split; [constructor|].
      exact (struct_made c _ g Step _ _ (HERE v) _ _ _ _ _ _ _ _ MF M1 M2 Fr P Rn).
    + destruct MF as (own & BA & MF). exists own, (bf_name bf), [], (bits_field (bf_repr bf)). split; [repeat split; assumption|]. split; [constructor; exact BA|].
      exact (struct_made c _ g Step _ _ (HERE v) _ _ _ _ _ _ _ _ MF M1 M2 Fr P Rn).
  - intros u I. apply finish_defined with (1 := Hf) in I as [I _]. destruct (IP _ I) as [(x0 & x1 & I0 & SB & P & Rn)|(NC & j & M & Rn)]; [right|left; exact (INST _ _ NC M Rn)].
    assert (X0 : exists u0 u1, x0 = ICUnion u0 /\ x1 = ICUnion u1 /\ (u1 = u0 \/ exists a, u1 = set_u_annotations a u0)).
    { destruct SB as [->|(a & ->)]; destruct x0 as [| |u0| |]; cbn in Rn; try contradiction; exists u0; eexists; (split; [reflexivity|split; [reflexivity|]]); eauto. }
    destruct X0 as (u0 & u1 & -> & -> & SU). cbn [ic_map_types renamed ic_generic_params] in Rn, P.
    destruct (G _ (HT _ I0)) as [(o & Z)|(v & i & Iv & Ii & NS & MF)]; [discriminate|]. cbn in MF.
    pose proof (FI _ I0) as (_ & _ & Fr). exists v. destruct i as [| | | | |attrs ident generics fields| | | | | |]; try contradiction.
    exists attrs, ident, generics, fields. split; [repeat split; assumption|].
    exact (union_made c _ g Step _ _ (HERE v) _ _ _ _ _ _ _ MF SU Fr P Rn).
  - intros t I. apply finish_defined with (1 := Hf) in I as [I _]. destruct (IP _ I) as [(x0 & x1 & I0 & SB & P & Rn)|(NC & j & M & Rn)]; [right|left; exact (INST _ _ NC M Rn)].
    assert (X0 : exists t0 t1, x0 = ICTypedef t0 /\ x1 = ICTypedef t1 /\ (t1 = t0 \/ exists a, t1 = set_t_annotations a t0)).
    { destruct SB as [->|(a & ->)]; destruct x0 as [| | | |t0]; cbn in Rn; try contradiction; exists t0; eexists; (split; [reflexivity|split; [reflexivity|]]); eauto. }
    destruct X0 as (t0 & t1 & -> & -> & SU). cbn [ic_map_types renamed ic_generic_params] in Rn, P. subst t.
    destruct (G _ (HT _ I0)) as [(o & Z)|(v & i & Iv & Ii & NS & MF)]; [discriminate|]. cbn in MF.
    pose proof (FI _ I0) as (_ & _ & Fr). exists v. destruct i as [| | | | | | |attrs ident generics ty| | | |]; try contradiction.
    exists attrs, ident, generics, ty. split; [repeat split; assumption|].
    exact (typedef_made c _ g Step _ _ (HERE v) _ _ _ _ _ _ MF SU Fr P).
  - intros x' I.
    assert (I' : In x' (to_vec (l_globals l'))).
    { unfold finish in Hf. destruct (library_dependencies l'); try discriminate. apply (f_equal (fun o => match o with Done x => b_globals x | _ => [] end)) in Hf.
      rewrite <- Hf in I. cbn [b_globals] in I. destruct (should_generate _ Globals); [|destruct I]. exact (sorted_in _ _ _ _ _ I). }
    destruct (GP _ I') as (x0 & I0 & ->). pose proof (al_globals _ AL) as FG. rewrite Forall_forall in FG. specialize (FG _ I0). apply fresh_under in FG.
    destruct (G (AGlobal x0) I0) as [(o & Z)|(v & i & Iv & Ii & NS & MF)]; [discriminate|]. cbn in MF.
    destruct i as [| | |attrs ident mutable ty| | | | | | | |]; try contradiction. destruct MF as (n & SE & MF).
    exists v, attrs, ident, mutable, ty, n. split; [repeat split; assumption|]. split.
    + intro EO. specialize (EO _ Ii). cbn in EO. destruct EO as [E1 E2]. exact (static_symbol attrs (unraw ident) n E1 E2 SE).
    + exact (static_made c _ h StepG _ _ (HERE v) _ _ _ _ _ MF FG).
Qed.
Theorem datatypes_sources : forall (H : Heck) d c bitflags mfuel fuel std srcs lib l, parse_all d c bitflags mfuel fuel std srcs lib = Parsed l ->
  exists vss rs, sources_read d (parse c) srcs lib vss rs
    /\ forall pfuel visit l' b, prepare pfuel visit l = Done l' -> finish l' = Done b -> declared_from_sources c (keyword_in l') vss rs b.
Proof.
  intros H d c bitflags mfuel fuel std srcs lib l Q. destruct (all_made H d c bitflags mfuel fuel std srcs lib l Q) as (vss & rs & R & G).
  exists vss, rs. split; [exact R|]. exact (datatypes_from H d c bitflags mfuel fuel std srcs lib l vss rs Q G).
Qed.
