Require Import Coq.Strings.String Coq.Lists.List Coq.Bool.Bool.
From Verif Require Import Base M_Config M_Cfg M_Type M_Ir M_Item M_Library S_Item S_Library S_Names S_Mono.
Import ListNotations.

Lemma fields_from : forall sub fs, Forall2 (field_from sub) fs (map (map_fd_ty sub) fs).
Proof. intros sub fs. induction fs as [|f fs IH]; constructor; [|exact IH]. repeat split. Qed.
Lemma Struct_from : forall (H : Heck) args ms ex s, struct_from (Type_specialize ms) s (Struct_specialize args ms ex s).
Proof.
  intros H args ms ex s. unfold struct_from. split; [apply fields_from|]. repeat split.
  intro Ne. cbn. destruct (s_fields s); [congruence | reflexivity].
Qed.
Lemma instance_from : forall (H : Heck) l args i p x, instance l args i p x ->
  exists j ms, part_of j i /\ made_from (Type_specialize ms) j x /\ ic_generic_params x = []
    /\ (GenericParams_call (ic_generic_params j) args = Some ms \/ exists o, j = ICOpaque o).
Proof.
  intros H l args i p x In0. destruct In0.
  - exists (ICStruct s), ms. split; [now left|]. split; [apply Struct_from | auto].
  - exists (ICUnion u), ms. split; [now left|]. split; [|auto]. cbn. split; [apply fields_from | repeat split].
  - exists (ICTypedef t), ms. split; [now left|]. split; [repeat split | auto].
  - exists (ICOpaque o), []. unfold OpaqueItem_specialize in H0.
    destruct (is_nil (o_generic_params o) || Nat.ltb (length (o_generic_params o)) (length args)); [discriminate|]. injection H0 as <-.
    split; [now left|]. split; [repeat split | eauto].
  - exists (ICEnum e), ms. split; [now left|]. split; [|auto]. cbn. split; [|repeat split].
    induction (e_variants e) as [|v vs IH]; constructor; [|exact IH]. unfold variant_from. cbn. repeat split.
    destruct (v_body v); cbn; [reflexivity|]. repeat split; apply Struct_from.
  - destruct H1. exists (ICStruct s), ms0. split; [right; now exists e, v, n, s, i, ic|].
    split; [apply Struct_from | auto].
Qed.
