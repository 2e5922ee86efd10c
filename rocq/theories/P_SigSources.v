(** Proofs about [S_Signature]: every function of the sources is declared with
    its type. *)
Require Import Coq.Strings.String Coq.Strings.Ascii Coq.Lists.List Coq.Bool.Bool Coq.Arith.Arith.
From Verif Require Import Base P_Base M_Config M_Cfg M_Type M_Ir M_Item M_Attr M_Docs M_Library M_Syn M_Loader M_Parser S_Item S_Sort S_Library S_Names S_Parse P_Type P_Sort P_Item P_Table
  P_Library P_NamesLib P_Keywords P_Exports M_Writer M_Bindings M_Backend S_Decl S_File S_Shown P_Shown S_Signature P_Signature P_SigLib S_Sources P_Sources P_Loaded P_Fresh.
Import ListNotations.
Open Scope string_scope.

(** A signature that stands for a C type is supported. *)
Lemma signature_supported : forall (H : Heck) fuel visit l l' d rules ct ann, as_loaded l -> prepare fuel visit l = Done l' ->
  AnnotationSet_load (dc_attrs d) = Some ann -> usable (l_config l) (dc_symbol d) = true ->
  rust_function (l_config l) (keyword_in l') (dc_self d) (argument_name_in rules) (dc_sig d) = Some ct -> ~ unsupported d.
Proof.
  intros H fuel visit l l' d rules ct ann Hl Hp A U E. set (c := l_config l) in *.
  destruct (function_passes H fuel visit l l' Hl Hp) as (g & SO & K). fold c in SO, K.
  destruct (step_finishes c _ g SO) as [F1 F2 F3 F4 F5].
  assert (NR : Forall not_reference (sg_inputs (dc_sig d))).
  { unfold rust_function in E. destruct (rust_parameters _ _ _ _ _ _) eqn:Q in E; [|discriminate]. exact (parameters_no_reference _ _ _ _ _ _ _ Q). }
  destruct (function_ok c (keyword_in l') (dc_self d) _ F1 F2 F3 F4 F5 (argument_name_in rules) (dc_symbol d) (dc_sig d) ct (dc_foreign d) (dc_attrs d)
    (Cfg_of_attrs (dc_block d)) ann E A U) as (f0 & L0 & _).
  pose proof (function_bound d (fun _ => true) (Cfg_of_attrs (dc_block d)) (dc_block d) NR (fun rho => eq_refl) eq_refl) as FB.
  rewrite L0 in FB. exact (bound_not_unsupported _ _ _ FB).
Qed.
Lemma bound_member : forall here ds fs d, bound here ds fs -> In d ds -> ~ unsupported d -> exists f, In f fs /\ binds here d f.
Proof.
  intros here ds fs d B. induction B as [|d' f ds fs Bi B IH|d' ds fs Un B IH]; intros I N; [destruct I| |].
  - destruct I as [->|I]; [exists f; split; [left; reflexivity|exact Bi]|]. destruct (IH I N) as (f' & If & Bf). exists f'. split; [right; exact If|exact Bf].
  - destruct I as [->|I]; [contradiction|exact (IH I N)].
Qed.
Lemma functions_member : forall vs fss v, Forall2 S_Parse.functions_of vs fss -> In v vs -> exists fs, In fs fss /\ S_Parse.functions_of v fs.
Proof.
  intros vs fss v F. induction F as [|w fs vs fss A F IH]; intro I; [destruct I|]. destruct I as [->|I]; [exists fs; split; [left; reflexivity|exact A]|].
  destruct (IH I) as (fs' & If & Bf). exists fs'. split; [right; exact If|exact Bf].
Qed.

(** What is bound for a function of the sources *)
Theorem sources_bound : forall (H : Heck) d c bitflags mfuel fuel std srcs lib l, parse_all d c bitflags mfuel fuel std srcs lib = Parsed l ->
  exists vss rs, sources_read d (parse c) srcs lib vss rs
    /\ ((forall v, In v (modules_read vss rs) -> Forall item_ok (vi_items v)) ->
        forall v ds dc, module_bound (parse c) lib vss rs v -> callables (vi_items v) ds -> In dc ds -> ~ unsupported dc ->
        exists f, In f (l_functions l) /\ binds (fun rho => guards_hold rho (vi_guards v)) dc f).
Proof.
  intros H d c bitflags mfuel fuel std srcs lib l Q. destruct (all_functions d c bitflags mfuel fuel std srcs lib l Q) as (vss & rs & R & G).
  exists vss, rs. split; [exact R|]. intros X v ds dc MB CA I N. destruct (G X) as (fss & gs & F1 & F2 & E).
  assert (IOK : Forall item_ok (vi_items v)).
  { apply X. unfold modules_read. apply in_or_app. destruct MB as [MB|(cargo & r & _ & Ir & _ & Iv)]; [left; exact MB|right].
    apply in_concat. exists (rd_visits r). split; [apply in_map; exact Ir|exact Iv]. }
  assert (K : exists fs, S_Parse.functions_of v fs /\ (forall f, In f fs -> In f (l_functions l))).
  { destruct MB as [MB|(cargo & r & -> & Ir & HB & Iv)].
    - destruct (functions_member _ _ _ F1 MB) as (fs & If & Bf). exists fs. split; [exact Bf|]. intros f J. rewrite E. apply in_or_app. left. apply in_concat. exists fs. auto.
    - destruct F2 as (fsss & F2 & ->). assert (Z : exists hss, In hss fsss /\ crate_functions cargo (parse c) r hss).
      { clear - F2 Ir. induction F2 as [|r' hss rs fsss A F IH]; [destruct Ir|]. destruct Ir as [->|Ir]; [exists hss; split; [left; reflexivity|exact A]|].
        destruct (IH Ir) as (h & Ih & Ah). exists h. split; [right; exact Ih|exact Ah]. }
      destruct Z as (hss & Ih & [A _]). destruct (functions_member _ _ _ (A HB) Iv) as (fs & If & Bf). exists fs. split; [exact Bf|].
      intros f J. rewrite E. apply in_or_app. right. apply in_concat. exists fs. split; [|exact J]. apply in_concat. exists hss. auto. }
  destruct K as (fs & (ds' & CA' & B) & SUB). rewrite (callables_unique _ IOK _ _ CA CA') in I. destruct (bound_member _ _ _ _ B I N) as (f & If & Bf).
  exists f. auto.
Qed.

(** From the sources to the text *)
Theorem sources_text : forall (H : Heck) d c bitflags mfuel fuel std srcs lib l, parse_all d c bitflags mfuel fuel std srcs lib = Parsed l ->
  exists vss rs, sources_read d (parse c) srcs lib vss rs
    /\ ((forall v, In v (modules_read vss rs) -> Forall item_ok (vi_items v)) ->
        forall v ds dc, module_bound (parse c) lib vss rs v -> callables (vi_items v) ds -> In dc ds ->
        forall pfuel visit l' b wfuel t, prepare pfuel visit l = Done l' -> finish l' = Done b -> bindings_text wfuel b = Done t ->
        should_generate (export c) Functions = true -> mem_str (dc_symbol dc) (ex_exclude (export c)) = false ->
        proper_attributes c = true -> tab_width c <> 0 ->
        forall ann rules ct, AnnotationSet_load (dc_attrs dc) = Some ann -> kept ann = true -> an_list ann "ptrs-as-arrays" = None ->
        rule_or ann "rename-all" (fn_rename_args (function c)) = Some rules ->
        usable c (dc_symbol dc) = true ->
        rust_function c (keyword_in l') (dc_self dc) (argument_name_in rules) (dc_sig dc) = Some ct ->
        exists before s after, t = (before ++ s ++ after)%string /\ declares (dialect_of c) s (Some (dc_symbol dc)) ct).
Proof.
  intros H d c bitflags mfuel fuel std srcs lib l Q. destruct (sources_bound H d c bitflags mfuel fuel std srcs lib l Q) as (vss & rs & R & G).
  exists vss, rs. split; [exact R|]. intros X v ds dc MB CA I pfuel visit l' b wfuel t Hp Hf W SG NX PA TW ann rules ct A KP PT RU U E.
  destruct (parsed_fresh d c bitflags mfuel fuel std srcs lib l Q) as [AL _].
  assert (LC : l_config l = c). { destruct (all_sound _ _ _ _ _ _ _ _ _ Q) as (? & ? & ? & ? & _ & _ & _ & _ & Z & _). exact Z. }
  pose proof (signature_supported H pfuel visit l l' dc rules ct ann AL Hp A ltac:(rewrite LC; exact U) ltac:(rewrite LC; exact E)) as NU.
  destruct (G X v ds dc MB CA I NU) as (f & If & B).
  assert (AF : f_annotations f = ann) by (pose proof (bi_annotations _ _ _ B); congruence).
  rewrite <- AF in KP, PT, RU. rewrite <- LC in *.
  exact (signature_text H pfuel visit l l' b _ dc f rules ct AL Hp Hf SG NX B If RU PT U E wfuel t KP PA TW W).
Qed.
