(** Deciding [as_loaded] for example libraries. *)
Require Import Coq.Strings.String Coq.Lists.List Coq.Bool.Bool.
From Verif Require Import Base M_Config M_Cfg M_Type M_Ir M_Item M_Library S_Item S_Library S_Names S_Demo P_Item P_Table P_Library.
Import ListNotations.

Definition freshb (r : reference) : bool := String.eqb (r_name r) (r_path r) && negb (is_some (r_kind r)).
Definition fresh_paramsb (ps : GenericParams) : bool :=
  forallb (fun p => match gp_default p with Some a => forallb freshb (arg_refs a) | None => true end) ps.
Definition fresh_constantb (c : Constant) : bool :=
  forallb freshb (type_refs (c_ty c)) && forallb freshb (lit_refs (c_value c)) && (is_some (c_associated_to c) || String.eqb (c_export_name c) (c_path c)).
Definition fresh_fieldsb (fs : list Field) : bool := forallb (fun f => forallb freshb (type_refs (fd_ty f))) fs.
Definition fresh_structb (s : Struct) : bool :=
  String.eqb (s_export_name s) (s_path s) && fresh_paramsb (s_generic_params s) && fresh_fieldsb (s_fields s) && forallb fresh_constantb (s_associated_constants s).
Definition fresh_variantb (r : Repr) (v : EnumVariant) : bool :=
  match v_body v with VBody _ s _ _ => fresh_structb s && Bool.eqb (s_has_tag_field s) (inline_tag_field r) | VEmpty _ => true end
  && match v_discriminant v with Some d => forallb freshb (lit_refs d) | None => true end.
Definition fresh_itemb (i : ItemContainer) : bool :=
  match i with
  | ICOpaque o => String.eqb (o_export_name o) (o_path o)
  | ICStruct s => fresh_structb s
  | ICUnion u => String.eqb (u_export_name u) (u_path u) && fresh_paramsb (u_generic_params u) && fresh_fieldsb (u_fields u)
  | ICEnum e => String.eqb (e_export_name e) (e_path e) && fresh_paramsb (e_generic_params e) && forallb (fresh_variantb (e_repr e)) (e_variants e)
  | ICTypedef t => String.eqb (t_export_name t) (t_path t) && fresh_paramsb (t_generic_params t) && forallb freshb (type_refs (t_aliased t))
  end.
Definition loadedb (l : Library) : bool :=
  forallb fresh_itemb (defined l) && forallb (fun s => negb (s_has_tag_field s)) (to_vec (l_structs l))
  && forallb (fun f => forallb (fun r => freshb (snd r)) (function_refs f)) (l_functions l)
  && forallb (fun g => forallb (fun r => freshb (snd r)) (global_refs g)) (to_vec (l_globals l))
  && forallb fresh_constantb (to_vec (l_constants l)).

Lemma forallb_Forall : forall A (f : A -> bool) (P : A -> Prop) l, (forall x, f x = true -> P x) -> forallb f l = true -> Forall P l.
Proof. intros A f P l Hf Hl. apply Forall_forall. intros x Hx. rewrite forallb_forall in Hl. auto. Qed.
Ltac parts := repeat match goal with E : _ && _ = true |- _ => apply andb_true_iff in E as [? ?] end;
  repeat match goal with E : String.eqb _ _ = true |- _ => apply String.eqb_eq in E end.
Lemma freshb_ok : forall r, freshb r = true -> fresh r.
Proof. intros r Hr. unfold freshb in Hr. parts. split; [assumption|]. destruct (r_kind r); [discriminate|reflexivity]. Qed.
Lemma fresh_paramsb_ok : forall ps, fresh_paramsb ps = true -> fresh_params ps.
Proof.
  intros ps Hp p a Hi Ea. unfold fresh_paramsb in Hp. rewrite forallb_forall in Hp. specialize (Hp p Hi). rewrite Ea in Hp.
  eapply forallb_Forall; [exact freshb_ok|exact Hp].
Qed.
Lemma fresh_constantb_ok : forall c, fresh_constantb c = true -> fresh_constant c.
Proof.
  intros c Hc. unfold fresh_constantb in Hc. parts. repeat split; [eapply forallb_Forall; [exact freshb_ok|assumption]..|].
  intros En. rewrite En in *. apply String.eqb_eq. assumption.
Qed.
Lemma fresh_fieldsb_ok : forall fs, fresh_fieldsb fs = true -> fresh_fields fs.
Proof. intros fs. apply forallb_Forall. intros f. apply forallb_Forall. exact freshb_ok. Qed.
Lemma fresh_structb_ok : forall s, fresh_structb s = true -> fresh_struct s.
Proof.
  intros s Hs. unfold fresh_structb in Hs. parts. repeat split; [assumption|apply fresh_paramsb_ok; assumption|apply fresh_fieldsb_ok; assumption|].
  eapply forallb_Forall; [exact fresh_constantb_ok|assumption].
Qed.
Lemma fresh_itemb_ok : forall i, fresh_itemb i = true -> fresh_item i.
Proof.
  intros [o|s|u|e|t]; cbn [fresh_itemb fresh_item]; intros Hi.
  - parts. assumption.
  - apply fresh_structb_ok. assumption.
  - parts. repeat split; [assumption|apply fresh_paramsb_ok; assumption|apply fresh_fieldsb_ok; assumption].
  - parts. split; [assumption|]. split; [apply fresh_paramsb_ok; assumption|]. intros v Hv.
    match goal with E : forallb _ (e_variants e) = true |- _ => rewrite forallb_forall in E; specialize (E v Hv); unfold fresh_variantb in E end. parts. split.
    + intros n s i ic Eb. match goal with E : match v_body v with _ => _ end = true |- _ => rewrite Eb in E end. parts.
      split; [apply fresh_structb_ok; assumption|apply eqb_prop; assumption].
    + intros d Ed. match goal with E : match v_discriminant v with _ => _ end = true |- _ => rewrite Ed in E; eapply forallb_Forall; [exact freshb_ok|exact E] end.
  - parts. repeat split; [assumption|apply fresh_paramsb_ok; assumption|]. eapply forallb_Forall; [exact freshb_ok|assumption].
Qed.
Lemma lib_loaded : forall c cs gs es ss us os ts fs, loadedb (lib c cs gs es ss us os ts fs) = true -> as_loaded (lib c cs gs es ss us os ts fs).
Proof.
  intros c cs gs es ss us os ts fs Hl. unfold loadedb in Hl.
  apply andb_true_iff in Hl as [Hl H5]. apply andb_true_iff in Hl as [Hl H4]. apply andb_true_iff in Hl as [Hl H3]. apply andb_true_iff in Hl as [H1 H2].
  constructor.
  - constructor; cbn [lib l_enums l_structs l_unions l_opaque_items l_typedefs]; apply reachable_wf, wf_insert_all, wf_nil.
  - eapply forallb_Forall; [exact fresh_itemb_ok|exact H1].
  - eapply forallb_Forall; [|exact H2]. intros s. apply negb_true_iff.
  - eapply forallb_Forall; [|exact H3]. intros f. apply forallb_Forall. intros r. apply freshb_ok.
  - eapply forallb_Forall; [|exact H4]. intros f. apply forallb_Forall. intros r. apply freshb_ok.
  - eapply forallb_Forall; [exact fresh_constantb_ok|exact H5].
Qed.
