(** C02: names of members and arguments are not keywords. *)
Require Import Coq.Strings.String Coq.Lists.List Coq.Bool.Bool.
From Verif Require Import Base P_Base M_Config M_Reserved P_Reserved M_Cfg M_Type M_Ir M_Item M_Library S_Item S_Library S_Keywords P_Library P_Stages.
Import ListNotations.
Open Scope string_scope.

Lemma keywords_known : forall n, In n c_keywords \/ In n cpp_keywords -> In n RESERVED_KEYWORDS \/ In n overlooked.
Proof.
  assert (A : forallb (fun n => mem_str n RESERVED_KEYWORDS || mem_str n overlooked) (c_keywords ++ cpp_keywords) = true) by (vm_compute; reflexivity).
  intros n Hn. rewrite forallb_forall in A. specialize (A n ltac:(apply in_or_app; exact Hn)).
  apply orb_prop in A as [A|A]; apply mem_str_In in A; auto.
Qed.
Lemma escaped_acceptable : forall n, acceptable (escape_str n).
Proof.
  intros n Hn. apply keywords_known in Hn as [Hn|Hn]; [|assumption]. destruct (escape_str_not_reserved n Hn).
Qed.

Lemma struct_members_ok : forall (H : Heck) c s s', Struct_rename_for_config c s = Some s' -> Forall acceptable (struct_members s').
Proof.
  intros H c s s'. unfold Struct_rename_for_config. destruct (Struct_rename_fields _ _ _) as [fs|]; [|discriminate].
  intros E. inversion E; subst. unfold struct_members. cbn [s_fields set_s_constants set_s_export_name set_s_fields].
  rewrite map_map. apply Forall_forall. intros n Hn. apply in_map_iff in Hn as (f & <- & _). apply escaped_acceptable.
Qed.

Definition body_ok (v : EnumVariant) : Prop := Forall acceptable (body_members v).
Lemma variant_ok : forall (H : Heck) c v v', EnumVariant_rename c v = Some v' -> body_ok v' /\ acceptable (v_export_name v') /\ Forall acceptable (holder v').
Proof.
  intros H c v v'. unfold EnumVariant_rename. destruct (v_body v) as [a|n s i ic] eqn:E.
  - intros Q. injection Q as <-. unfold body_ok, body_members, holder. cbn [v_body v_export_name]. split; [constructor|]. split; [apply escaped_acceptable|constructor].
  - destruct (Struct_rename_for_config c s) as [s'|] eqn:E1; [|discriminate]. intros Q. injection Q as <-.
    unfold body_ok, body_members, holder. cbn [v_body v_export_name]. split; [exact (struct_members_ok _ _ _ _ E1)|]. split; [apply escaped_acceptable|].
    constructor; [apply escaped_acceptable|constructor].
Qed.
Lemma prefix_body : forall c e v, body_members (EnumVariant_prefix c e v) = body_members v.
Proof. intros c e v. unfold body_members, EnumVariant_prefix. destruct v as [a b d [x|n s i ic] k o]; reflexivity. Qed.
Lemma rule_body : forall (H : Heck) r e v, body_members (EnumVariant_rule r e v) = body_members v.
Proof. intros H r e v. unfold body_members, EnumVariant_rule. destruct v as [a b d [x|n s i ic] k o]; reflexivity. Qed.

Lemma enum_members_ok : forall (H : Heck) c e e', Enum_rename_for_config c e = Some e' ->
  Forall body_ok (e_variants e')
  /\ (variants_as_written c e -> Forall (fun v => acceptable (v_export_name v) /\ Forall acceptable (holder v)) (e_variants e')).
Proof.
  intros H c e e'. unfold Enum_rename_for_config, variants_as_written. destruct (Enum_rename_tag c e) as [e1|]; [|discriminate].
  destruct (map_opt (EnumVariant_rename c) (e_variants e1)) as [vs|] eqn:Ev; [|discriminate].
  destruct (rule_or _ _ _) as [r|]; [|discriminate]. intros E. inversion E; subst; clear E. cbn [e_variants set_e_variants].
  assert (A : forall v, In v vs -> body_ok v /\ acceptable (v_export_name v) /\ Forall acceptable (holder v)).
  { intros v Hv. apply (map_opt_In _ _ _ _ _ _ Ev) in Hv as (x & _ & Hx). exact (variant_ok _ _ _ _ Hx). }
  set (vs2 := if match an_bool (e_annotations e) _ with Some b => b | None => _ end then map _ vs else vs).
  assert (B : Forall body_ok vs2).
  { unfold vs2. apply Forall_forall. destruct (match an_bool _ _ with Some b => b | None => _ end).
    - intros v Hv. apply in_map_iff in Hv as (x & <- & Hx). unfold body_ok. rewrite prefix_body. apply A. assumption.
    - intros v Hv. apply A. assumption. }
  split.
  - destruct (not_none r); [|exact B]. apply Forall_forall. intros v Hv. apply in_map_iff in Hv as (x & <- & Hx).
    unfold body_ok. rewrite rule_body. rewrite Forall_forall in B. apply B. assumption.
  - intros [Hr Hp]. inversion Hr; subst. cbn [not_none]. unfold vs2. rewrite Hp. apply Forall_forall. intros v Hv. apply A. assumption.
Qed.

Lemma function_args_ok : forall (H : Heck) c f f', Function_rename_for_config c f = Some f' -> Forall acceptable (function_arguments f').
Proof.
  intros H c f f'. unfold Function_rename_for_config. destruct (rule_or _ _ _) as [r|]; [|discriminate].
  set (a2 := map _ (match not_none r with Some _ => _ | None => _ end)).
  assert (A : Forall (fun a => forall n, a_name a = Some n -> acceptable n) a2).
  { apply Forall_forall. intros a Ha. apply in_map_iff in Ha as (x & <- & _). cbn [a_name]. intros n En. destruct (a_name x); cbn [option_map] in En; [|discriminate].
    injection En as <-. apply escaped_acceptable. }
  assert (B : forall args, Forall (fun a => forall n, a_name a = Some n -> acceptable n) args ->
            Forall acceptable (filter_map (fun a => a_name a) args)).
  { induction args as [|a args IH]; cbn; intros Ha; [constructor|]. inversion Ha; subst. destruct (a_name a) eqn:E; [constructor|]; auto. }
  destruct (an_list _ _) as [tuples|].
  - destruct (ptrs_as_arrays tuples) as [m|]; [|discriminate]. intros E. inversion E; subst. unfold function_arguments. cbn.
    apply B. apply Forall_forall. intros a Ha. apply in_map_iff in Ha as (x & <- & Hx). rewrite Forall_forall in A.
    intros n. unfold set_array_length. destruct (a_name x) as [y|] eqn:Ey.
    + repeat (match goal with |- context [match ?e with _ => _ end] => destruct e end); cbn; try rewrite Ey; intros En; apply (A x Hx); congruence.
    + repeat (match goal with |- context [match ?e with _ => _ end] => destruct e end); cbn; rewrite ?Ey; discriminate.
  - intros E. inversion E; subst. unfold function_arguments. cbn. apply B. exact A.
Qed.

Lemma stage_of : forall (H : Heck) fuel visit l b, generate fuel visit l = Done b ->
  exists l4 l', rename_items l4 = Some l' /\ finish l' = Done b /\ l_config l4 = l_config l.
Proof.
  intros H fuel visit l b Hg. apply generate_inv in Hg as (l' & Hp & Hf & _).
  apply prepare_stages in Hp as (l1 & l2 & l3 & l4 & S). pose proof (stages_config _ _ _ _ _ _ _ _ _ S) as (C1 & C2 & C3 & C4 & _).
  destruct S as [S1 S2 S3 S4 S5]. exists l4, l'. auto.
Qed.
Lemma members_spec : forall (H : Heck) fuel visit l b i n, generate fuel visit l = Done b -> In i (b_items b) -> In n (item_members i) -> acceptable n.
Proof.
  intros H fuel visit l b i n Hg Hi Hn. apply stage_of in Hg as (l4 & l' & Hr & Hf & _).
  apply (finish_defined _ _ _ Hf) in Hi as [Hi _]. apply (rename_items_from _ _ _ _ Hr) in Hi as (j & _ & Hj).
  destruct i as [o|s|u|e|t], j as [o'|s'|u'|e'|t']; cbn in Hn, Hj; try contradiction.
  - apply struct_members_ok in Hj. rewrite Forall_forall in Hj. auto.
  - apply enum_members_ok in Hj as [Hj _]. apply in_concat in Hn as (ns & Hns & Hn). apply in_map_iff in Hns as (v & <- & Hv).
    rewrite Forall_forall in Hj. specialize (Hj v Hv). unfold body_ok in Hj. rewrite Forall_forall in Hj. auto.
Qed.
Lemma arguments_spec : forall (H : Heck) fuel visit l b f n, generate fuel visit l = Done b -> In f (b_functions b) -> In n (function_arguments f) -> acceptable n.
Proof.
  intros H fuel visit l b f n Hg Hi Hn. apply stage_of in Hg as (l4 & l' & Hr & Hf & _).
  apply finish_config in Hf as (_ & Hb & _). rewrite Hb in Hi. destruct (should_generate _ _); [|destruct Hi].
  unfold rename_items in Hr. repeat (match type of Hr with (match ?e with _ => _ end) = _ => destruct e eqn:?; [|discriminate] end).
  inversion Hr; subst. cbn [l_functions] in Hi. 
  match goal with M : map_opt (Function_rename_for_config _) _ = Some _ |- _ => apply (map_opt_In _ _ _ _ _ _ M) in Hi as (g & _ & E) end.
  apply function_args_ok in E. rewrite Forall_forall in E. auto.
Qed.
Lemma enumerators_spec : forall (H : Heck) fuel visit l b e n, generate fuel visit l = Done b -> In (ICEnum e) (b_items b) ->
  variants_as_written (l_config l) e -> In n (enumerators e) \/ In n (concat (map holder (e_variants e))) -> acceptable n.
Proof.
  intros H fuel visit l b e n Hg Hi Hw Hn. apply stage_of in Hg as (l4 & l' & Hr & Hf & Hc).
  apply (finish_defined _ _ _ Hf) in Hi as [Hi _]. apply (rename_items_from _ _ _ _ Hr) in Hi as (j & _ & Hj).
  destruct j as [o'|s'|u'|e'|t']; cbn in Hj; try contradiction.
  pose proof (enum_rename_shape _ _ _ _ Hj) as (_ & _ & _ & _ & _ & Ha & _).
  apply enum_members_ok in Hj as [_ Hj]. rewrite Hc in Hj. specialize (Hj ltac:(unfold variants_as_written in *; rewrite <- Ha; exact Hw)).
  rewrite Forall_forall in Hj. destruct Hn as [Hn|Hn].
  - apply in_map_iff in Hn as (v & <- & Hv). apply Hj. assumption.
  - apply in_concat in Hn as (ns & Hns & Hn). apply in_map_iff in Hns as (v & <- & Hv). destruct (Hj v Hv) as [_ Q]. rewrite Forall_forall in Q. auto.
Qed.
