(** C13: how names are spelled after the whole pipeline. *)
Require Import Coq.Strings.String Coq.Lists.List Coq.Bool.Bool Coq.Sorting.Permutation.
From Verif Require Import Base P_Base M_Config M_Cfg M_Type M_Ir M_Item M_Library S_Item S_Sort S_Library S_Names P_Type P_Sort P_Item P_Table P_Library P_Transfer P_Mono P_Stages P_Names.
Import ListNotations.
Open Scope list_scope.

Definition fresh_type (t : Ty) : Prop := Forall fresh (type_refs t).
Lemma fresh_keep : forall p e c, fresh {| r_path := p; r_name := e; r_kind := c |} -> fresh {| r_path := p; r_name := p; r_kind := None |}.
Proof. intros. split; reflexivity. Qed.
Lemma fresh_new : forall p, fresh {| r_path := p; r_name := p; r_kind := None |}.
Proof. intros. split; reflexivity. Qed.

(** ** Each change of types *)
Section Types.
  Variable f : Ty -> Ty.
  Hypothesis Hf : forall t, fresh_type t -> fresh_type (f t).
  Lemma fresh_fields_map : forall fs, fresh_fields fs -> fresh_fields (map (map_fd_ty f) fs).
  Proof. intros fs. unfold fresh_fields. rewrite Forall_map. apply Forall_impl. intros x. apply Hf. Qed.
  Lemma fresh_struct_map : forall s, fresh_struct s -> fresh_struct (map_s_types f s).
  Proof. intros s (A & B & C & D). repeat split; auto. apply fresh_fields_map. assumption. Qed.
  Lemma fresh_item_map : forall i, fresh_item i -> fresh_item (ic_map_types f i).
  Proof.
    intros [o|s|u|e|t]; cbn [fresh_item ic_map_types]; [auto|apply fresh_struct_map| | |].
    - intros (A & B & C). repeat split; auto. apply fresh_fields_map. assumption.
    - intros (A & B & C). split; [assumption|]. split; [assumption|]. cbn [e_variants map_e_bodies set_e_variants e_repr]. intros v Hv.
      apply in_map_iff in Hv as (w & <- & Hw). destruct (C w Hw) as [D E]. cbn [map_v_body v_body set_v_body v_discriminant]. split; [|assumption].
      intros n s i ic Eb. destruct (v_body w) as [a|n' s' i' ic'] eqn:Ew; cbn in Eb; [discriminate|]. inversion Eb; subst.
      destruct (D _ _ _ _ eq_refl). split; [|assumption]. apply fresh_struct_map. assumption.
    - intros (A & B & C). repeat split; auto. apply Hf. assumption.
  Qed.
  Lemma function_refs_map : forall h, (forall r, In r (function_refs h) -> fresh (snd r)) -> forall r, In r (function_refs (map_f_types f h)) -> fresh (snd r).
  Proof.
    intros h Hh.
    assert (Hr : fresh_type (f_ret h) /\ Forall (fun a => fresh_type (a_ty a)) (f_args h)).
    { unfold function_refs, under in Hh. assert (Hall : Forall fresh (type_refs (f_ret h) ++ concat (map (fun a => type_refs (a_ty a)) (f_args h)))).
      { apply Forall_forall. intros r Hr. apply (Hh ([], r)). apply in_map. assumption. }
      rewrite Forall_app, Forall_concat_map in Hall. assumption. }
    destruct Hr as [H1 H2]. intros r Hr. unfold function_refs, under in Hr. apply in_map_iff in Hr as (x & <- & Hx). cbn.
    assert (Hall : Forall fresh (type_refs (f_ret (map_f_types f h)) ++ concat (map (fun a => type_refs (a_ty a)) (f_args (map_f_types f h))))).
    { rewrite Forall_app, Forall_concat_map. cbn. split; [apply Hf; assumption|]. rewrite Forall_map. eapply Forall_impl; [|exact H2]. intros a. apply Hf. }
    rewrite Forall_forall in Hall. auto.
  Qed.
  Lemma global_refs_map : forall g, Forall (fun r => fresh (snd r)) (global_refs g) -> Forall (fun r => fresh (snd r)) (global_refs (map_g_ty f g)).
  Proof. intros g. unfold global_refs, under. rewrite !Forall_map. cbn. apply Hf. Qed.
End Types.
Lemma fresh_item_annotations : forall a i, fresh_item i -> fresh_item (ic_set_annotations a i).
Proof. intros a [o|s|u|e|t]; cbn; auto. Qed.

Lemma fresh_simplify : forall lang t, fresh_type t -> fresh_type (simplify_standard_types lang t).
Proof. intros lang t. apply (ok_simplify fresh). Qed.
Lemma fresh_mangle : forall m t, fresh_type t -> fresh_type (Type_mangle_paths m t).
Proof. intros m t. apply (ok_mangle fresh). exact fresh_new. Qed.

(** ** Instantiation *)
Lemma call_fresh : forall ps args ms, GenericParams_call ps args = Some ms -> fresh_params ps -> Forall (fun a => Forall fresh (arg_refs a)) args ->
  forall n a, In (n, a) ms -> Forall fresh (arg_refs a).
Proof.
  intros ps args ms. unfold GenericParams_call. destruct (Nat.ltb _ _); [discriminate|]. revert args ms.
  induction ps as [|p r IH]; intros args ms; cbn [call_from]; [inversion 1; intros _ _ n a []|].
  destruct (match args with a :: _ => Some a | [] => gp_default p end) as [v|] eqn:Ev; [|discriminate].
  destruct (call_from r (tl args)) as [ms'|] eqn:Er; [|discriminate]. intros E Hp Ha n a Hin. inversion E; subst; clear E.
  destruct Hin as [Hin|Hin].
  - inversion Hin; subst. destruct args as [|x args]; [eapply Hp; [now left|exact Ev]|]. inversion Ev; subst. inversion Ha; assumption.
  - eapply (IH _ _ Er); [|destruct args; [constructor|inversion Ha; assumption]|exact Hin]. intros q b Hq. apply Hp. right. assumption.
Qed.
Section Piece.
  Context {H : Heck}.
  Variable l : Library.
  Variable args : list GenericArgument.
  Hypothesis Hargs : Forall (fun a => Forall fresh (arg_refs a)) args.
  Lemma specialize_fresh : forall ps ms, GenericParams_call ps args = Some ms -> fresh_params ps ->
    forall t, fresh_type t -> fresh_type (Type_specialize ms t).
  Proof. intros ps ms E Hp t. apply (ok_specialize fresh fresh_keep). eapply call_fresh; eassumption. Qed.
  Lemma fresh_params_nil : fresh_params []. Proof. intros p a []. Qed.
  Lemma fresh_struct_piece : forall s ms ex, GenericParams_call (s_generic_params s) args = Some ms -> fresh_struct s -> fresh_struct (Struct_specialize args ms ex s).
  Proof.
    intros s ms ex E (A & B & C & D). repeat split; [apply fresh_params_nil| |constructor]. cbn. apply fresh_fields_map; [|assumption].
    eapply specialize_fresh; eassumption.
  Qed.
  Lemma call_same : forall ps qs ms, GenericParams_call ps args = Some ms -> ps = qs -> GenericParams_call qs args = Some ms.
  Proof. intros. subst. assumption. Qed.
  (** The mappings of an enum are used for its bodies too. *)
  Lemma fresh_body : forall s ms ex, (forall t, fresh_type t -> fresh_type (Type_specialize ms t)) -> fresh_struct s -> fresh_struct (Struct_specialize args ms ex s).
  Proof. intros s ms ex Hm (A & B & C & D). repeat split; [apply fresh_params_nil| |constructor]. cbn. apply fresh_fields_map; assumption. Qed.
  Lemma fresh_piece : forall i p x, fresh_item i -> In (Some (p, x)) (pieces l args i) -> fresh_item x.
  Proof.
    intros [o|s|u|e|t] p x Hi; cbn [pieces]; intros Hx.
    - destruct (OpaqueItem_specialize args _ o) as [y|] eqn:E; destruct Hx as [Hx|[]]; inversion Hx; subst. unfold OpaqueItem_specialize in E.
      destruct (_ || _); inversion E; subst. reflexivity.
    - destruct Hx as [Hx|[]]. unfold struct_piece in Hx. destruct (GenericParams_call _ _) as [ms|] eqn:E; inversion Hx; subst.
      cbn. eapply fresh_struct_piece; eassumption.
    - destruct (GenericParams_call _ _) as [ms|] eqn:E; destruct Hx as [Hx|[]]; inversion Hx; subst. destruct Hi as (A & B & C).
      repeat split; [apply fresh_params_nil|]. cbn. apply fresh_fields_map; [|assumption]. eapply specialize_fresh; eassumption.
    - destruct Hi as (A & B & C). destruct (GenericParams_call (e_generic_params e) args) as [ms|] eqn:E; [|destruct Hx as [Hx|[]]; discriminate].
      apply in_app_iff in Hx as [Hx|[Hx|[]]].
      + assert (Hv : exists v n s i ic, In v (e_variants e) /\ v_body v = VBody n s i ic /\ Some (p, x) = struct_piece l args s).
        { clear -Hx. induction (e_variants e) as [|v r IH]; cbn in Hx; [destruct Hx|]. destruct (v_body v) as [a|n s i ic] eqn:Eb.
          - destruct (IH Hx) as (w & n & s & i & ic & Hw & Eb' & E). exists w, n, s, i, ic. split; [right; assumption|auto].
          - destruct Hx as [Hx|Hx]; [exists v, n, s, i, ic; split; [left; reflexivity|auto]|].
            destruct (IH Hx) as (w & n' & s' & i' & ic' & Hw & Eb' & E). exists w, n', s', i', ic'. split; [right; assumption|auto]. }
        destruct Hv as (v & n & s & i & ic & Hv & Eb & Ex). destruct (C v Hv) as [D _]. destruct (D _ _ _ _ Eb) as [Hs _].
        unfold struct_piece in Ex. destruct (GenericParams_call (s_generic_params s) args) as [ms'|] eqn:E'; inversion Ex; subst. cbn. eapply fresh_struct_piece; eassumption.
      + inversion Hx; subst. split; [reflexivity|]. split; [apply fresh_params_nil|]. cbn [e_variants Enum_specialize Enum_new e_repr]. intros v Hv.
        apply in_map_iff in Hv as (w & <- & Hw). destruct (C w Hw) as [D F]. cbn [EnumVariant_specialize EnumVariant_new v_body v_discriminant]. split; [|assumption].
        intros n s i ic Eb. destruct (v_body w) as [a|n' s' i' ic'] eqn:Ew; cbn in Eb; [discriminate|]. inversion Eb; subst.
        destruct (D _ _ _ _ eq_refl) as [Hs Ht]. split; [|assumption]. apply fresh_body; [|assumption]. eapply specialize_fresh; eassumption.
    - destruct (GenericParams_call _ _) as [ms|] eqn:E; destruct Hx as [Hx|[]]; inversion Hx; subst. destruct Hi as (A & B & C).
      repeat split; [apply fresh_params_nil|]. cbn. eapply specialize_fresh; eassumption.
  Qed.
End Piece.
