(** Where the types and statics of a parsed library come from: the items of the
    sources they were loaded from. *)
Require Import Coq.Strings.String Coq.Strings.Ascii Coq.Lists.List Coq.Bool.Bool Coq.Arith.Arith.
From Verif Require Import Base P_Base M_Config M_Cfg S_Cfg M_Type M_Ir M_Item M_Attr M_Syn M_Library M_Bindings M_Loader M_Parser
  S_Library S_Parse P_Exports P_Modules P_Entries P_Crates S_Sources P_Sources.
Import ListNotations.
Open Scope string_scope.

Inductive thing := AType (i : ItemContainer) | AGlobal (g : Static).
Definition has_thing (p : Parse) (x : thing) : Prop :=
  match x with
  | AType (ICStruct s) => In s (to_vec (pr_structs p)) | AType (ICUnion u) => In u (to_vec (pr_unions p))
  | AType (ICEnum e) => In e (to_vec (pr_enums p)) | AType (ICTypedef t) => In t (to_vec (pr_typedefs p))
  | AType (ICOpaque o) => In o (to_vec (pr_opaque_items p)) | AGlobal g => In g (to_vec (pr_globals p))
  end.
(** a struct whose annotations and constants were added to *)
Definition struct_more (s0 s : Struct) : Prop := exists cs a, s = set_s_constants cs (set_s_annotations a s0).
Lemma more_refl : forall s, struct_more s s.
Proof. intros []. eexists _, _. reflexivity. Qed.
Lemma more_trans : forall a b c, struct_more a b -> struct_more b c -> struct_more a c.
Proof. intros a b c (x & y & ->) (z & w & ->). exists z, w. destruct a. reflexivity. Qed.
Definition thing_more (x y : thing) : Prop :=
  x = y \/ exists s s', x = AType (ICStruct s) /\ y = AType (ICStruct s') /\ struct_more s s'.
Definition brings (E : thing -> Prop) (p q : Parse) : Prop := forall x, has_thing q x -> exists y, thing_more y x /\ (has_thing p y \/ E y).

Lemma thing_refl : forall x, thing_more x x. Proof. left. reflexivity. Qed.
Lemma thing_trans : forall x y z, thing_more x y -> thing_more y z -> thing_more x z.
Proof.
  intros x y z [->|(s & s' & -> & -> & M)] [<-|(t & t' & E & -> & N)].
  - left. reflexivity.
  - right. exists t, t'. auto.
  - right. exists s, s'. auto.
  - injection E as ->. right. exists s, t'. split; [reflexivity|]. split; [reflexivity|]. eapply more_trans; eassumption.
Qed.
Lemma brings_refl : forall E p, brings E p p. Proof. intros E p x Hx. exists x. split; [apply thing_refl|auto]. Qed.
Lemma brings_trans : forall E p q r, brings E p q -> brings E q r -> brings E p r.
Proof.
  intros E p q r A B x Hx. destruct (B x Hx) as (y & My & [Hy|Ey]); [|eauto].
  destruct (A y Hy) as (z & Mz & R). exists z. split; [eapply thing_trans; eassumption|exact R].
Qed.
Lemma brings_weaken : forall (E F : thing -> Prop) p q, (forall x, E x -> F x) -> brings E p q -> brings F p q.
Proof. intros E F p q W A x Hx. destruct (A x Hx) as (y & M & [Y|Y]); eauto. Qed.
Ltac by_insert Hx :=
  let K := fresh in destruct (insert_in _ _ _ Hx) as [K|K]; [eexists; split; [apply thing_refl|left; exact K]|
    subst; eexists; split; [apply thing_refl|right; reflexivity]].
Ltac as_before := let x := fresh in let Hx := fresh in intros x Hx; eexists; split; [apply thing_refl|left; exact Hx].
Ltac brings_one :=
  let x := fresh in let Hx := fresh in
  intros x Hx; destruct x as [[o|s|u|e|t]|g]; cbn in Hx; try (eexists; split; [apply thing_refl|left; exact Hx]); by_insert Hx.
Lemma brings_struct : forall s p, brings (eq (AType (ICStruct s))) p (with_structs (fst (try_insert s (pr_structs p))) p).
Proof. intros s0 p. brings_one. Qed.
Lemma brings_union : forall s p, brings (eq (AType (ICUnion s))) p (with_unions (fst (try_insert s (pr_unions p))) p).
Proof. intros s0 p. brings_one. Qed.
Lemma brings_enum : forall s p, brings (eq (AType (ICEnum s))) p (with_enums (fst (try_insert s (pr_enums p))) p).
Proof. intros s0 p. brings_one. Qed.
Lemma brings_typedef : forall s p, brings (eq (AType (ICTypedef s))) p (with_typedefs (fst (try_insert s (pr_typedefs p))) p).
Proof. intros s0 p. brings_one. Qed.
Lemma brings_opaque : forall s p, brings (eq (AType (ICOpaque s))) p (with_opaque_items (fst (try_insert s (pr_opaque_items p))) p).
Proof. intros s0 p. brings_one. Qed.
Lemma brings_static : forall s p, brings (eq (AGlobal s)) p (with_globals (fst (try_insert s (pr_globals p))) p).
Proof. intros s0 p. brings_one. Qed.
Lemma brings_constant : forall E c p, brings E p (with_constants (fst (try_insert c (pr_constants p))) p).
Proof. intros E c p x Hx. exists x. split; [apply thing_refl|left]. destruct x as [[]|]; exact Hx. Qed.
Lemma brings_function : forall E f p, brings E p (push_function f p).
Proof. intros E c p x Hx. exists x. split; [apply thing_refl|left]. destruct x as [[]|]; exact Hx. Qed.
Lemma brings_changed : forall E f path p, (forall s, struct_more s (f s)) -> brings E p (with_structs (for_items_mut path f (pr_structs p)) p).
Proof.
  intros E f path p F x Hx. destruct x as [[o|s|u|e|t] | g]; cbn in Hx; try (eexists; split; [apply thing_refl|left; exact Hx]).
  apply update_in in Hx as (y & Hy & [->| ->]); [eexists; split; [apply thing_refl|left; exact Hy]|].
  exists (AType (ICStruct y)). split; [right; eauto 6|left; exact Hy].
Qed.

(** ** What an item brings *)
Definition bits_field (t : sty) : sfields := FieldsNamed [{| sf_attrs := []; sf_ident := Some "bits"; sf_ty := t |}].
Definition made_from {H : Heck} (c : Config) (k : option Cfg) (i : sitem) (x : thing) : Prop :=
  match x with
  | AType (ICStruct s) =>
      exists s0, struct_more s0 s /\
      match i with
      | ItemStruct attrs ident generics fields => Struct_load (layout c) attrs ident generics fields k = Some s0
      | ItemMacro _ _ (Some b) => exists attrs, bf_attrs b = Some attrs /\ Struct_load (layout c) attrs (bf_name b) [] (bits_field (bf_repr b)) k = Some s0
      | _ => False
      end
  | AType (ICUnion u) => match i with ItemUnion attrs ident generics fields => Union_load (layout c) attrs ident generics fields k = Some u | _ => False end
  | AType (ICEnum e) => match i with ItemEnum attrs ident generics vs => Enum_load c attrs ident generics vs k = Ok e | _ => False end
  | AType (ICTypedef t) => match i with ItemType attrs ident generics ty => Typedef_load attrs ident generics ty k = Some t | _ => False end
  | AType (ICOpaque o) => True
  | AGlobal g => match i with
                 | ItemStatic attrs ident mutable ty => exists n, static_exported_name attrs (unraw ident) = Some n /\ Static_load n attrs mutable ty k = Some g
                 | _ => False
                 end
  end.

Section Bringing.
  Context {H : Heck}.
  Variables (ld : loading) (k : option Cfg).
  Let c := ld_config ld.
  Lemma opaque_brings : forall E i g a p q, (forall o, E (AType (ICOpaque o)) : Prop) -> load_opaque i g a k p = Some q -> brings E p q.
  Proof.
    intros E i g a p q X Q. unfold load_opaque in Q. destruct (OpaqueItem_load _ _ _ _); [|discriminate]. injection Q as <-.
    eapply brings_weaken; [|apply brings_opaque]. intros x <-. apply X.
  Qed.
  Lemma assoc_brings : forall E path items p q, load_assoc_consts k path items p = Some q -> brings E p q.
  Proof.
    intros E path. induction items as [|x r IH]; intros p q Q; cbn in Q; [injection Q as <-; apply brings_refl|].
    destruct x as [attrs pub i t v| |]; try (apply (IH _ _ Q)).
    destruct (should_skip_parsing attrs); [apply (IH _ _ Q)|]. destruct pub; cbn in Q; [|injection Q as <-; apply brings_refl].
    destruct (Constant_load _ _ _ _ _ _) as [[x|]|]; [|discriminate|apply (IH _ _ Q)].
    eapply brings_trans; [|apply (IH _ _ Q)]. destruct (get_items path (pr_structs p)) as [[|y l]|]; try apply brings_constant.
    apply brings_changed. intros s. exists (s_associated_constants s ++ [x])%list, (s_annotations s). destruct s. reflexivity.
  Qed.
  Lemma impl_brings : forall E t items p q, load_syn_assoc_consts_from_impl k t items p = Some q -> brings E p q.
  Proof.
    intros E t items p q Q. unfold load_syn_assoc_consts_from_impl in Q. destruct (Type_load t) as [[ty|]|]; try (injection Q as <-; apply brings_refl).
    destruct (get_root_path ty); [|injection Q as <-; apply brings_refl]. eapply assoc_brings. exact Q.
  Qed.
  Lemma fn_brings : forall E self sig attrs p, brings E p (load_fn_declaration ld k self sig attrs p).
  Proof.
    intros E self sig attrs p. unfold load_fn_declaration. destruct (negb (top_level ld)); [apply brings_refl|].
    destruct (_ || _); [|apply brings_refl]. destruct (fn_exported_name _ _); [|apply brings_refl].
    destruct (Function_load _ _ _ _ _ _); [|apply brings_refl]. apply brings_function.
  Qed.
  Lemma item_brings : forall i p q, should_skip_parsing (item_attrs i) = false -> load_item ld k p i = Some q -> brings (made_from c k i) p q.
  Proof.
    intros i p q K Q. unfold load_item in Q. rewrite K in Q. destruct i.
    - injection Q as <-. unfold load_syn_foreign_mod. destruct (_ && _); [apply brings_refl|].
      set (E := made_from c k _). generalize (Cfg_append k (Cfg_of_attrs attrs)). intro m. clearbody E. clear K. revert p.
      induction items as [|[[a s]|] r IH]; intro p; [apply brings_refl| |apply IH]. cbn. destruct (negb (top_level ld)); [apply brings_refl|].
      eapply brings_trans; [|apply IH]. destruct (Function_load _ _ _ _ _ _); [apply brings_function|apply brings_refl].
    - injection Q as <-. apply fn_brings.
    - unfold load_syn_const in Q. destruct (negb (top_level ld)); [injection Q as <-; apply brings_refl|].
      destruct public; cbn in Q; [|injection Q as <-; apply brings_refl].
      destruct (Constant_load _ _ _ _ _ _) as [[x|]|]; [|discriminate|injection Q as <-; apply brings_refl]. injection Q as <-. apply brings_constant.
    - injection Q as <-. unfold load_syn_static. destruct (negb (top_level ld)); [apply brings_refl|].
      destruct (static_exported_name attrs (unraw ident)) as [n|] eqn:N; [|apply brings_refl].
      destruct (Static_load _ _ _ _ _) as [g|] eqn:G; [|apply brings_refl].
      eapply brings_weaken; [|apply brings_static]. intros x <-. exists n. auto.
    - unfold load_syn_struct in Q. fold c in Q. destruct (Struct_load _ _ _ _ _ _) as [s|] eqn:O; [|eapply opaque_brings; [|exact Q]; intro; exact Logic.I].
      injection Q as <-. eapply brings_weaken; [|apply brings_struct]. intros x <-. exists s. split; [apply more_refl|exact O].
    - unfold load_syn_union in Q. fold c in Q. destruct (Union_load _ _ _ _ _ _) as [s|] eqn:O; [|eapply opaque_brings; [|exact Q]; intro; exact Logic.I].
      injection Q as <-. eapply brings_weaken; [|apply brings_union]. intros x <-. exact O.
    - unfold load_syn_enum in Q. fold c in Q. destruct (Enum_load _ _ _ _ _ _) as [s| |] eqn:O; [|eapply opaque_brings; [|exact Q]; intro; exact Logic.I|discriminate].
      injection Q as <-. eapply brings_weaken; [|apply brings_enum]. intros x <-. exact O.
    - unfold load_syn_ty in Q. destruct (Typedef_load _ _ _ _ _) as [s|] eqn:O; [|eapply opaque_brings; [|exact Q]; intro; exact Logic.I].
      injection Q as <-. eapply brings_weaken; [|apply brings_typedef]. intros x <-. exact O.
    - injection Q as <-. unfold load_methods. destruct (bare_ident self_ty) as [ty|]; [|apply brings_refl]. set (E := made_from c k _). clearbody E. clear K. revert p.
      induction items as [|x r IH]; intro p; [apply brings_refl|]. cbn. eapply brings_trans; [|apply IH].
      destruct x as [|a pub sig|]; try apply brings_refl. destruct (should_skip_parsing a); [apply brings_refl|apply fn_brings].
    - unfold load_builtin_macro in Q. destruct (negb _ || negb _); [injection Q as <-; apply brings_refl|].
      destruct flags as [b|]; [|injection Q as <-; apply brings_refl].
      set (tr := existsb s_is_transparent match get_items (unraw (bf_name b)) (pr_structs p) with Some l => l | None => [] end) in Q.
      destruct (expand b tr) as [str consts] eqn:Ex.
      destruct (match str with Some (a, f) => _ | None => _ end) as [p1|] eqn:S1; [|discriminate].
      eapply brings_trans; [|eapply brings_trans; [|eapply impl_brings; exact Q]].
      2:{ apply brings_changed. intro s. exists (s_associated_constants s), (add_default (s_annotations s) "internal-derive-bitflags" (ABool true)). destruct s; reflexivity. }
      destruct str as [[a f]|]; [|injection S1 as <-; apply brings_refl].
      unfold expand in Ex. destruct (bf_attrs b) as [a'|] eqn:B; [|discriminate]. injection Ex as -> <- _.
      unfold load_syn_struct in S1. fold c in S1. destruct (Struct_load _ _ _ _ _ _) as [s|] eqn:O; [|eapply opaque_brings; [|exact S1]; intro; exact Logic.I].
      injection S1 as <-. eapply brings_weaken; [|apply brings_struct]. intros x <-. exists s. split; [apply more_refl|]. exists a. auto.
    - injection Q as <-. apply brings_refl.
    - injection Q as <-. apply brings_refl.
  Qed.
  Definition made_here (items : list sitem) (x : thing) : Prop := exists i, In i items /\ should_skip_parsing (item_attrs i) = false /\ made_from c k i x.
  Lemma module_brings : forall items p q, load_syn_crate_mod ld k items p = Some q -> brings (made_here items) p q.
  Proof.
    intros items p q Q. unfold load_syn_crate_mod in Q. destruct (load_all (load_item ld k) items p) as [p1|] eqn:E; [|discriminate].
    eapply brings_trans.
    - assert (G : forall l p q, (forall i, In i l -> In i items) -> load_all (load_item ld k) l p = Some q -> brings (made_here items) p q).
      { induction l as [|i r IH]; intros p0 q0 S Q0; cbn in Q0; [injection Q0 as <-; apply brings_refl|].
        destruct (load_item ld k p0 i) as [p2|] eqn:E2; [|discriminate]. eapply brings_trans; [|apply (IH p2); [intros; apply S; right; assumption|exact Q0]].
        destruct (should_skip_parsing (item_attrs i)) eqn:K.
        - unfold load_item in E2. rewrite K in E2. injection E2 as <-. apply brings_refl.
        - eapply brings_weaken; [|exact (item_brings i p0 p2 K E2)]. intros x M. exists i. split; [apply S; left; reflexivity|auto]. }
      apply (G items p p1); [auto|exact E].
    - revert p1 E Q. generalize (impls_with_assoc_consts items). intros l p1 _. revert p1. induction l as [|x r IH]; intros p1 Q; cbn in Q; [injection Q as <-; apply brings_refl|].
      destruct (load_syn_assoc_consts_from_impl _ _ _ _) as [p2|] eqn:E2; [|discriminate]. eapply brings_trans; [eapply impl_brings; exact E2|apply IH; exact Q].
  Qed.
End Bringing.

Definition made_in {H : Heck} (c : Config) (v : visit) (x : thing) : Prop := made_here {| ld_config := c; ld_bitflags := true; ld_binding := ""; ld_crate := "" |} (Cfg_join (vi_guards v)) (vi_items v) x.
Lemma visits_bring : forall (H : Heck) ld vs p q, load_visits ld vs p = Some q -> brings (fun x => exists v, In v vs /\ made_in (ld_config ld) v x) p q.
Proof.
  intros H ld vs. induction vs as [|v r IH]; intros p q Q; cbn in Q; [injection Q as <-; apply brings_refl|].
  destruct (load_syn_crate_mod ld (Cfg_join (vi_guards v)) (vi_items v) p) as [p1|] eqn:E; [|discriminate]. eapply brings_trans.
  - eapply brings_weaken; [|exact (module_brings ld _ _ _ _ E)]. intros x (i & A & B & M). exists v. split; [left; reflexivity|]. exists i. auto.
  - eapply brings_weaken; [|exact (IH _ _ Q)]. intros x (w & A & B). exists w. split; [right; exact A|exact B].
Qed.
Lemma crates_bring : forall (H : Heck) cargo c bf rs p q, load_crates cargo c bf rs p = Some q ->
  brings (fun x => exists r v, In r rs /\ In v (rd_visits r) /\ made_in c v x) p q.
Proof.
  intros H cargo c bf rs. induction rs as [|r rs IH]; intros p q Q; cbn in Q; [injection Q as <-; apply brings_refl|].
  destruct (load_visits _ _ _) as [p1|] eqn:E; [|discriminate]. eapply brings_trans.
  - eapply brings_weaken; [|exact (visits_bring H _ _ _ _ E)]. intros x (v & A & B). exists r, v. split; [left; reflexivity|auto].
  - eapply brings_weaken; [|exact (IH _ _ Q)]. intros x (r' & w & A & B). exists r', w. split; [right; exact A|exact B].
Qed.
Lemma extend_things : forall a p x, has_thing (Parse_extend_with a p) x -> has_thing p x \/ has_thing a x.
Proof. intros a p [[o|s|u|e|t]|g]; cbn; apply extend_in. Qed.
Lemma merged_things : forall ps p x, has_thing (merged ps p) x -> has_thing p x \/ exists q, In q ps /\ has_thing q x.
Proof.
  induction ps as [|q ps IH]; intros p x Hx; [left; exact Hx|]. destruct (IH _ _ Hx) as [J|(q' & Hq & J)]; [|right; exists q'; split; [right|]; assumption].
  apply extend_things in J as [J|J]; [left; exact J|right; exists q; split; [left; reflexivity|exact J]].
Qed.
Lemma start_things : forall (std : bool) x, has_thing (if std then add_std_types Parse_new else Parse_new) x -> exists o, x = AType (ICOpaque o).
Proof. intros std [[o|s|u|e|t]|g] Hx; try (exists o; reflexivity); exfalso; destruct std; destruct Hx. Qed.
(** The settings of the parser play no role. *)
Lemma variants_config : forall (H : Heck) pc c tag vs gps k path ann,
  load_variants (with_parse_config pc c) tag vs gps k path ann = load_variants c tag vs gps k path ann.
Proof.
  intros H pc c tag vs gps k path ann. induction vs as [|v r IH]; [reflexivity|]. cbn [load_variants]. rewrite IH. reflexivity.
Qed.
Lemma enum_config : forall (H : Heck) pc c attrs ident generics vs k,
  Enum_load (with_parse_config pc c) attrs ident generics vs k = Enum_load c attrs ident generics vs k.
Proof.
  intros. unfold Enum_load. destruct (or_bad (Repr_load attrs)) as [r| |]; [|reflexivity|reflexivity].
  destruct (_ && _); [reflexivity|]. destruct (is_some _); [reflexivity|].
  destruct (or_bad (GenericParams_load generics)) as [g| |]; [|reflexivity|reflexivity].
  destruct (or_bad (AnnotationSet_load attrs)) as [a| |]; [|reflexivity|reflexivity]. rewrite variants_config. reflexivity.
Qed.
Lemma made_config : forall (H : Heck) pc c v x, made_in (with_parse_config pc c) v x -> made_in c v x.
Proof.
  intros H pc c v x (i & A & B & M). exists i. split; [exact A|]. split; [exact B|]. cbn [ld_config] in *.
  destruct x as [[o|s|u|e|t]|g]; cbn [made_from] in *; try exact M; destruct i; try exact M. rewrite enum_config in M. exact M.
Qed.

Definition all_from {H : Heck} (c : Config) (vss : list (list visit)) (rs : list reading) (l : Library) : Prop :=
  forall x, has_thing (items_of l) x ->
    (exists o, x = AType (ICOpaque o)) \/ exists v i, In v (modules_read vss rs) /\ In i (vi_items v) /\ should_skip_parsing (item_attrs i) = false
      /\ made_from c (Cfg_join (vi_guards v)) i x.
Theorem all_made : forall (H : Heck) d c bitflags mfuel fuel std srcs lib l, parse_all d c bitflags mfuel fuel std srcs lib = Parsed l ->
  exists vss rs, sources_read d (parse c) srcs lib vss rs /\ all_from c vss rs l.
Proof.
  intros H d c bitflags mfuel fuel std srcs lib l Q. destruct (all_sound d c bitflags mfuel fuel std srcs lib l Q) as (vss & rs & ps & qs & R & B & L & M & _).
  exists vss, rs. split; [exact R|]. intros x Hx. rewrite M in Hx. apply merged_things in Hx as [Hx|(q & Hq & Hx)]; [left; eapply start_things; exact Hx|].
  assert (K : exists v y, In v (modules_read vss rs) /\ made_in c v y /\ thing_more y x).
  { apply in_app_or in Hq as [Hq|Hq].
    - destruct R as [A _]. clear - A B Hq Hx.
      assert (G : exists file vs, In vs vss /\ load_visits (src_loading c bitflags file) vs Parse_new = Some q).
      { revert ps B Hq. induction A as [|f ws srcs vss V A IH]; intros ps B Hq; [inversion B; subst; destruct Hq|].
        cbn [combine] in B. inversion B as [|fv p0 ? ps' L' B']; subst. destruct Hq as [->|Hq]; [exists f, ws; split; [left; reflexivity|exact L']|].
        destruct (IH _ B' Hq) as (f' & vs & Hv & Lv). exists f', vs. split; [right; exact Hv|exact Lv]. }
      destruct G as (file & vs & Hv & Lv). destruct (visits_bring H _ _ _ _ Lv x Hx) as (y & My & [Hy|(v & Iv & E)]); [exfalso; destruct y as [[]|]; destruct Hy|].
      exists v, y. split; [apply in_or_app; left; apply in_concat; exists vs; auto|]. split; [|exact My]. exact (made_config H _ c v y E).
    - unfold lib_parts in L. destruct lib as [cargo|]; [|subst qs; destruct Hq]. destruct L as (q' & -> & L). destruct Hq as [<-|[]].
      destruct (crates_bring H _ _ _ _ _ _ L x Hx) as (y & My & [Hy|(r & v & Ir & Iv & E)]); [exfalso; destruct y as [[]|]; destruct Hy|].
      exists v, y. split; [apply in_or_app; right; apply in_concat; exists (rd_visits r); split; [apply in_map; exact Ir|exact Iv]|auto]. }
  destruct K as (v & y & Iv & (i & A & D & E) & [<-|(s & s' & -> & -> & Ms)]); right; exists v, i; (split; [exact Iv|split; [exact A|split; [exact D|]]]); [exact E|].
  cbn [made_from ld_config] in E |- *. destruct E as (s0 & M0 & E). exists s0. split; [eapply more_trans; eassumption|exact E].
Qed.
