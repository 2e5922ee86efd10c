(** Where the constants of a parsed library come from: the items of the sources
    they were loaded from. *)
Require Import Coq.Strings.String Coq.Strings.Ascii Coq.Lists.List Coq.Bool.Bool Coq.Arith.Arith.
From Verif Require Import Base P_Base M_Config M_Cfg S_Cfg M_Type M_Ir M_Item M_Attr M_Syn M_Library M_Bindings M_Loader M_Parser
  S_Library S_Parse P_Exports P_Modules P_Entries P_Crates S_Sources P_Sources.
Import ListNotations.
Open Scope string_scope.

(** A constant of the table, or one kept with the struct of that path *)
Definition has_const (p : Parse) (o : option string) (x : Constant) : Prop :=
  match o with
  | None => In x (to_vec (pr_constants p))
  | Some path => exists s, In s (to_vec (pr_structs p)) /\ s_path s = path /\ In x (s_associated_constants s)
  end.
Definition gives (E : option string -> Constant -> Prop) (p q : Parse) : Prop :=
  keyed (pr_structs p) -> keyed (pr_structs q) /\ forall o x, has_const q o x -> has_const p o x \/ E o x.

Lemma gives_refl : forall E p, gives E p p. Proof. intros E p K. split; [exact K|auto]. Qed.
Lemma gives_trans : forall E p q r, gives E p q -> gives E q r -> gives E p r.
Proof.
  intros E p q r A B K. destruct (A K) as [Kq A']. destruct (B Kq) as [Kr B']. split; [exact Kr|]. intros o x X. destruct (B' o x X) as [Y|Y]; auto.
Qed.
Lemma gives_weaken : forall (E F : option string -> Constant -> Prop) p q, (forall o x, E o x -> F o x) -> gives E p q -> gives F p q.
Proof. intros E F p q W A K. destruct (A K) as [Kq A']. split; [exact Kq|]. intros o x X. destruct (A' o x X); auto. Qed.
Lemma gives_same : forall E p q, pr_constants q = pr_constants p -> pr_structs q = pr_structs p -> gives E p q.
Proof. intros E p q A B K. rewrite B. split; [exact K|]. intros [path|] x; unfold has_const; rewrite ?A, ?B; auto. Qed.
Lemma gives_struct : forall E s p, s_associated_constants s = [] -> gives E p (with_structs (fst (try_insert s (pr_structs p))) p).
Proof.
  intros E s p Z K. split; [apply keyed_insert; exact K|]. intros [path|] x; [|auto]. intros (s' & I & P & X). left.
  cbn [with_structs pr_structs] in I. apply insert_in in I as [I|I]; [exists s'; auto|]. subst s'. rewrite Z in X. destruct X.
Qed.
Lemma gives_constant : forall k p, gives (fun o x => o = None /\ x = k) p (with_constants (fst (try_insert k (pr_constants p))) p).
Proof.
  intros k p K. split; [exact K|]. intros [path|] x; [auto|]. cbn [has_const with_constants pr_constants]. intro I. apply insert_in in I as [I|I]; auto.
Qed.
Lemma update_where : forall path f (m : ItemMap Struct) x, keyed m -> In x (to_vec (for_items_mut path f m)) ->
  In x (to_vec m) \/ exists y, In y (to_vec m) /\ i_path y = path /\ x = f y.
Proof.
  intros path f m x K. unfold for_items_mut. destruct (lookup path m) as [v|] eqn:L; [|auto].
  destruct (set_entry_split _ _ _ L) as [l1 [l2 [-> S]]]. rewrite S, !to_vec_app, !to_vec_cons, !in_app_iff.
  assert (KV : forall y, In y (value_items v) -> i_path y = path) by (apply (K path v); apply in_or_app; right; left; reflexivity).
  intros [Q|[Q|Q]]; [auto| |auto]. right. destruct v as [l|z]; cbn in Q.
  - apply in_map_iff in Q as [y [<- Hy]]. exists y. split; [rewrite !in_app_iff; auto|]. split; [exact (KV y Hy)|reflexivity].
  - destruct Q as [<- |[]]. exists z. split; [rewrite !in_app_iff; cbn; auto|]. split; [apply KV; left; reflexivity|reflexivity].
Qed.
Lemma gives_changed : forall E f path p, (forall s, s_path (f s) = s_path s) -> (forall s, s_associated_constants (f s) = s_associated_constants s) ->
  gives E p (with_structs (for_items_mut path f (pr_structs p)) p).
Proof.
  intros E f path p F A K. split; [apply keyed_update; [exact F|exact K]|]. intros [o|] x; [|auto]. intros (s & I & P & X). left.
  cbn [with_structs pr_structs] in I. apply update_in in I as (y & Iy & [->| ->]); [exists y; auto|]. rewrite F in P. rewrite A in X. exists y. auto.
Qed.
Lemma gives_added : forall k path p, gives (fun o x => o = Some path /\ x = k) p (with_structs (for_items_mut path (add_associated_constant k) (pr_structs p)) p).
Proof.
  intros k path p K. split; [apply keyed_update; [reflexivity|exact K]|]. intros [o|] x; [|auto]. intros (s & I & P & X).
  cbn [with_structs pr_structs] in I. apply update_where in I as [I|(y & Iy & Py & ->)]; [left; exists s; auto| |exact K].
  cbn [add_associated_constant s_associated_constants s_path] in X, P. apply in_app_or in X as [X|[<- |[]]]; [left; exists y; auto|].
  right. split; [|reflexivity]. f_equal. rewrite <- P. exact Py.
Qed.

(** ** What an item gives *)
Definition of_block (k : option Cfg) (path : string) (items : list simpl_item) (o : option string) (x : Constant) : Prop :=
  (o = None \/ o = Some path) /\ exists attrs ident ty value, In (ImplConst attrs true ident ty value) items /\ should_skip_parsing attrs = false
    /\ Constant_load (unraw ident ++ path) k ty value attrs (Some path) = Some (Some x).
Definition of_impl (k : option Cfg) (self_ty : sty) (items : list simpl_item) (o : option string) (x : Constant) : Prop :=
  exists t path, Type_load self_ty = Some (Some t) /\ get_root_path t = Some path /\ of_block k path items o x.
Definition const_from (k : option Cfg) (i : sitem) (o : option string) (x : Constant) : Prop :=
  match i with
  | ItemConst attrs true ident ty value => o = None /\ Constant_load (unraw ident) k ty value attrs None = Some (Some x)
  | ItemImpl _ self_ty items => of_impl k self_ty items o x
  | ItemMacro _ _ (Some b) => exists tr, of_impl k (SPath (name_path (bf_name b))) (snd (expand b tr)) o x
  | _ => False
  end.

Section Giving.
  Context {H : Heck}.
  Variables (ld : loading) (k : option Cfg).
  Let c := ld_config ld.
  Lemma struct_fresh : forall l attrs ident generics fields s, Struct_load l attrs ident generics fields k = Some s -> s_associated_constants s = [].
  Proof.
    intros l attrs ident generics fields s S. unfold Struct_load in S.
    repeat match type of S with
    | (if ?x then _ else _) = _ => destruct x; try discriminate
    | match ?x with _ => _ end = _ => destruct x; try discriminate
    end; injection S as <-; reflexivity.
  Qed.
  Lemma opaque_gives : forall E i g a p q, load_opaque i g a k p = Some q -> gives E p q.
  Proof.
    intros E i g a p q Q. unfold load_opaque in Q. destruct (OpaqueItem_load _ _ _ _); [|discriminate]. injection Q as <-. apply gives_same; reflexivity.
  Qed.
  Lemma assoc_gives : forall path all items p q, incl items all -> load_assoc_consts k path items p = Some q -> gives (of_block k path all) p q.
  Proof.
    intros path all. induction items as [|x r IH]; intros p q S Q; cbn [load_assoc_consts] in Q; [injection Q as <-; apply gives_refl|].
    assert (S' : incl r all) by (intros y I; apply S; right; exact I).
    destruct x as [attrs pub i t v| |]; try (apply (IH _ _ S' Q)).
    destruct (should_skip_parsing attrs) eqn:K; [apply (IH _ _ S' Q)|]. destruct pub; cbn [negb] in Q; [|injection Q as <-; apply gives_refl].
    destruct (Constant_load _ _ _ _ _ _) as [[x|]|] eqn:C; [|discriminate|apply (IH _ _ S' Q)].
    assert (B : forall o, o = None \/ o = Some path -> of_block k path all o x).
    { intros o O. split; [exact O|]. exists attrs, i, t, v. split; [apply S; left; reflexivity|]. auto. }
    eapply gives_trans; [|apply (IH _ _ S' Q)]. destruct (get_items path (pr_structs p)) as [[|y l]|].
    - eapply gives_weaken; [|apply gives_constant]. intros o z [-> ->]. auto.
    - eapply gives_weaken; [|apply gives_added]. intros o z [-> ->]. auto.
    - eapply gives_weaken; [|apply gives_constant]. intros o z [-> ->]. auto.
  Qed.
  Lemma impl_gives : forall t items p q, load_syn_assoc_consts_from_impl k t items p = Some q -> gives (of_impl k t items) p q.
  Proof.
    intros t items p q Q. unfold load_syn_assoc_consts_from_impl in Q. destruct (Type_load t) as [[ty|]|] eqn:T; try (injection Q as <-; apply gives_refl).
    destruct (get_root_path ty) as [path|] eqn:R; [|injection Q as <-; apply gives_refl]. eapply gives_weaken; [|eapply assoc_gives; [apply incl_refl|exact Q]].
    intros o x B. exists ty, path. auto.
  Qed.
  Lemma fn_gives : forall E self sig attrs p, gives E p (load_fn_declaration ld k self sig attrs p).
  Proof.
    intros E self sig attrs p. unfold load_fn_declaration. destruct (negb (top_level ld)); [apply gives_refl|].
    destruct (_ || _); [|apply gives_refl]. destruct (fn_exported_name _ _); [|apply gives_refl].
    destruct (Function_load _ _ _ _ _ _); [|apply gives_refl]. apply gives_same; reflexivity.
  Qed.
  Lemma item_gives : forall i p q, should_skip_parsing (item_attrs i) = false -> load_item ld k p i = Some q -> gives (const_from k i) p q.
  Proof.
    intros i p q K Q. unfold load_item in Q. rewrite K in Q. destruct i.
    - injection Q as <-. unfold load_syn_foreign_mod. destruct (_ && _); [apply gives_refl|].
      set (E := const_from k _). generalize (Cfg_append k (Cfg_of_attrs attrs)). intro m. clearbody E. clear K. revert p.
      induction items as [|[[a s]|] r IH]; intro p; [apply gives_refl| |apply IH]. cbn. destruct (negb (top_level ld)); [apply gives_refl|].
      eapply gives_trans; [|apply IH]. destruct (Function_load _ _ _ _ _ _); [apply gives_same; reflexivity|apply gives_refl].
    - injection Q as <-. apply fn_gives.
    - unfold load_syn_const in Q. destruct (negb (top_level ld)); [injection Q as <-; apply gives_refl|].
      destruct public; cbn in Q; [|injection Q as <-; apply gives_refl].
      destruct (Constant_load _ _ _ _ _ _) as [[x|]|] eqn:C; [|discriminate|injection Q as <-; apply gives_refl]. injection Q as <-.
      eapply gives_weaken; [|apply gives_constant]. intros o z [-> ->]. split; [reflexivity|exact C].
    - injection Q as <-. unfold load_syn_static. destruct (negb (top_level ld)); [apply gives_refl|].
      destruct (static_exported_name attrs (unraw ident)) as [n|] eqn:N; [|apply gives_refl].
      destruct (Static_load _ _ _ _ _) as [g|] eqn:G; [|apply gives_refl]. apply gives_same; reflexivity.
    - unfold load_syn_struct in Q. destruct (Struct_load _ _ _ _ _ _) as [s|] eqn:O; [|eapply opaque_gives; exact Q].
      injection Q as <-. apply gives_struct. eapply struct_fresh. exact O.
    - unfold load_syn_union in Q. destruct (Union_load _ _ _ _ _ _) as [s|] eqn:O; [|eapply opaque_gives; exact Q].
      injection Q as <-. apply gives_same; reflexivity.
    - unfold load_syn_enum in Q. destruct (Enum_load _ _ _ _ _ _) as [s| |] eqn:O; [|eapply opaque_gives; exact Q|discriminate].
      injection Q as <-. apply gives_same; reflexivity.
    - unfold load_syn_ty in Q. destruct (Typedef_load _ _ _ _ _) as [s|] eqn:O; [|eapply opaque_gives; exact Q].
      injection Q as <-. apply gives_same; reflexivity.
    - injection Q as <-. unfold load_methods. destruct (bare_ident self_ty) as [ty|]; [|apply gives_refl]. set (E := const_from k _). clearbody E. clear K. revert p.
      induction items as [|x r IH]; intro p; [apply gives_refl|]. cbn. eapply gives_trans; [|apply IH].
      destruct x as [|a pub sig|]; try apply gives_refl. destruct (should_skip_parsing a); [apply gives_refl|apply fn_gives].
    - unfold load_builtin_macro in Q. destruct (negb _ || negb _); [injection Q as <-; apply gives_refl|].
      destruct flags as [b|]; [|injection Q as <-; apply gives_refl].
      set (tr := existsb s_is_transparent match get_items (unraw (bf_name b)) (pr_structs p) with Some l => l | None => [] end) in Q.
      destruct (expand b tr) as [str consts] eqn:Ex.
      destruct (match str with Some (a, f) => _ | None => _ end) as [p1|] eqn:S1; [|discriminate].
      eapply gives_trans; [|eapply gives_trans; [|eapply gives_weaken; [|eapply impl_gives; exact Q]]].
      2:{ apply gives_changed; reflexivity. }
      2:{ intros o x B. exists tr. rewrite Ex. exact B. }
      destruct str as [[a f]|]; [|injection S1 as <-; apply gives_refl].
      unfold load_syn_struct in S1. destruct (Struct_load _ _ _ _ _ _) as [s|] eqn:O; [|eapply opaque_gives; exact S1].
      injection S1 as <-. apply gives_struct. eapply struct_fresh. exact O.
    - injection Q as <-. apply gives_refl.
    - injection Q as <-. apply gives_refl.
  Qed.
  Definition given_here (items : list sitem) (o : option string) (x : Constant) : Prop :=
    exists i, In i items /\ should_skip_parsing (item_attrs i) = false /\ const_from k i o x.
  Lemma impls_in : forall items t l, In (t, l) (impls_with_assoc_consts items) -> exists attrs, In (ItemImpl attrs t l) items /\ should_skip_parsing attrs = false.
  Proof.
    induction items as [|i items IH]; intros t l I; [destruct I|].
    assert (G : In (t, l) (impls_with_assoc_consts items) -> exists attrs, In (ItemImpl attrs t l) (i :: items) /\ should_skip_parsing attrs = false).
    { intro J. destruct (IH _ _ J) as (a & Ia & Sa). exists a. split; [right; exact Ia|exact Sa]. }
    unfold impls_with_assoc_consts in I. cbn [filter_map] in I. fold (impls_with_assoc_consts items) in I. destruct i; try exact (G I).
    destruct (should_skip_parsing attrs) eqn:K; cbn [negb andb] in I; [exact (G I)|]. destruct (existsb is_impl_const items0); [|exact (G I)].
    destruct I as [I|I]; [|exact (G I)]. injection I as -> ->. exists attrs. split; [left; reflexivity|exact K].
  Qed.
  Lemma module_gives : forall items p q, load_syn_crate_mod ld k items p = Some q -> gives (given_here items) p q.
  Proof.
    intros items p q Q. unfold load_syn_crate_mod in Q. destruct (load_all (load_item ld k) items p) as [p1|] eqn:E; [|discriminate].
    eapply gives_trans.
    - assert (G : forall l p q, (forall i, In i l -> In i items) -> load_all (load_item ld k) l p = Some q -> gives (given_here items) p q).
      { induction l as [|i r IH]; intros p0 q0 S Q0; cbn in Q0; [injection Q0 as <-; apply gives_refl|].
        destruct (load_item ld k p0 i) as [p2|] eqn:E2; [|discriminate]. eapply gives_trans; [|apply (IH p2); [intros; apply S; right; assumption|exact Q0]].
        destruct (should_skip_parsing (item_attrs i)) eqn:K.
        - unfold load_item in E2. rewrite K in E2. injection E2 as <-. apply gives_refl.
        - eapply gives_weaken; [|exact (item_gives i p0 p2 K E2)]. intros o x M. exists i. split; [apply S; left; reflexivity|auto]. }
      apply (G items p p1); [auto|exact E].
    - clear E. revert p1 Q. pose proof (impls_in items) as W. revert W. generalize (impls_with_assoc_consts items) as l. intros l W.
      assert (G : forall r p1 q1, incl r l -> load_all (fun p x => load_syn_assoc_consts_from_impl k (fst x) (snd x) p) r p1 = Some q1 -> gives (given_here items) p1 q1).
      { induction r as [|[t li] r IH]; intros p1 q1 S Q; cbn [load_all] in Q; [injection Q as <-; apply gives_refl|].
        destruct (load_syn_assoc_consts_from_impl _ _ _ _) as [p2|] eqn:E2; [|discriminate].
        eapply gives_trans; [|apply (IH p2); [intros y Y; apply S; right; exact Y|exact Q]].
        eapply gives_weaken; [|eapply impl_gives; exact E2]. intros o x B. destruct (W t li (S _ (or_introl eq_refl))) as (a & Ia & Sa).
        exists (ItemImpl a t li). split; [exact Ia|]. split; [exact Sa|]. exact B. }
      intros p1 Q. apply (G l p1 q); [apply incl_refl|exact Q].
  Qed.
End Giving.

Definition given_in (v : visit) (o : option string) (x : Constant) : Prop := given_here (Cfg_join (vi_guards v)) (vi_items v) o x.
Lemma visits_give : forall (H : Heck) ld vs p q, load_visits ld vs p = Some q -> gives (fun o x => exists v, In v vs /\ given_in v o x) p q.
Proof.
  intros H ld vs. induction vs as [|v r IH]; intros p q Q; cbn in Q; [injection Q as <-; apply gives_refl|].
  destruct (load_syn_crate_mod ld (Cfg_join (vi_guards v)) (vi_items v) p) as [p1|] eqn:E; [|discriminate]. eapply gives_trans.
  - eapply gives_weaken; [|exact (module_gives ld _ _ _ _ E)]. intros o x (i & A & B & M). exists v. split; [left; reflexivity|]. exists i. auto.
  - eapply gives_weaken; [|exact (IH _ _ Q)]. intros o x (w & A & B). exists w. split; [right; exact A|exact B].
Qed.
Lemma crates_give : forall (H : Heck) cargo c bf rs p q, load_crates cargo c bf rs p = Some q ->
  gives (fun o x => exists r v, In r rs /\ In v (rd_visits r) /\ given_in v o x) p q.
Proof.
  intros H cargo c bf rs. induction rs as [|r rs IH]; intros p q Q; cbn in Q; [injection Q as <-; apply gives_refl|].
  destruct (load_visits _ _ _) as [p1|] eqn:E; [|discriminate]. eapply gives_trans.
  - eapply gives_weaken; [|exact (visits_give H _ _ _ _ E)]. intros o x (v & A & B). exists r, v. split; [left; reflexivity|auto].
  - eapply gives_weaken; [|exact (IH _ _ Q)]. intros o x (r' & w & A & B). exists r', w. split; [right; exact A|exact B].
Qed.
Lemma extend_consts : forall a p o x, has_const (Parse_extend_with a p) o x -> has_const p o x \/ has_const a o x.
Proof.
  intros a p [path|] x; cbn [has_const Parse_extend_with pr_constants pr_structs].
  - intros (s & I & P & X). apply extend_in in I as [I|I]; [left|right]; exists s; auto.
  - apply extend_in.
Qed.
Lemma merged_consts : forall ps p o x, has_const (merged ps p) o x -> has_const p o x \/ exists q, In q ps /\ has_const q o x.
Proof.
  induction ps as [|q ps IH]; intros p o x Hx; [left; exact Hx|]. destruct (IH _ _ _ Hx) as [J|(q' & Hq & J)]; [|right; exists q'; split; [right|]; assumption].
  apply extend_consts in J as [J|J]; [left; exact J|right; exists q; split; [left; reflexivity|exact J]].
Qed.
Lemma start_consts : forall (std : bool) o x, has_const (if std then add_std_types Parse_new else Parse_new) o x -> False.
Proof. intros std [path|] x; [intros (s & I & _)|intros I]; destruct std; destruct I. Qed.
Lemma new_consts : forall o x, has_const Parse_new o x -> False.
Proof. exact (start_consts false). Qed.

Theorem all_given : forall (H : Heck) d c bitflags mfuel fuel std srcs lib l, parse_all d c bitflags mfuel fuel std srcs lib = Parsed l ->
  exists vss rs, sources_read d (parse c) srcs lib vss rs
    /\ forall o x, has_const (items_of l) o x ->
         exists v i, In v (modules_read vss rs) /\ In i (vi_items v) /\ should_skip_parsing (item_attrs i) = false
           /\ const_from (Cfg_join (vi_guards v)) i o x.
Proof.
  intros H d c bitflags mfuel fuel std srcs lib l Q. destruct (all_sound d c bitflags mfuel fuel std srcs lib l Q) as (vss & rs & ps & qs & R & B & L & M & _).
  exists vss, rs. split; [exact R|]. intros o x Hx. rewrite M in Hx. apply merged_consts in Hx as [Hx|(q & Hq & Hx)]; [exfalso; eapply start_consts; exact Hx|].
  assert (K : exists v, In v (modules_read vss rs) /\ given_in v o x).
  { apply in_app_or in Hq as [Hq|Hq].
    - destruct R as [A _]. clear - A B Hq Hx.
      assert (G : exists file vs, In vs vss /\ load_visits (src_loading c bitflags file) vs Parse_new = Some q).
      { revert ps B Hq. induction A as [|f ws srcs vss V A IH]; intros ps B Hq; [inversion B; subst; destruct Hq|].
        cbn [combine] in B. inversion B as [|fv p0 ? ps' L' B']; subst. destruct Hq as [->|Hq]; [exists f, ws; split; [left; reflexivity|exact L']|].
        destruct (IH _ B' Hq) as (f' & vs & Hv & Lv). exists f', vs. split; [right; exact Hv|exact Lv]. }
      destruct G as (file & vs & Hv & Lv). destruct (visits_give H _ _ _ _ Lv keyed_nil) as [_ G]. destruct (G o x Hx) as [Hy|(v & Iv & E)]; [exfalso; eapply new_consts; exact Hy|].
      exists v. split; [apply in_or_app; left; apply in_concat; exists vs; auto|exact E].
    - unfold lib_parts in L. destruct lib as [cargo|]; [|subst qs; destruct Hq]. destruct L as (q' & -> & L). destruct Hq as [<-|[]].
      destruct (crates_give H _ _ _ _ _ _ L keyed_nil) as [_ G]. destruct (G o x Hx) as [Hy|(r & v & Ir & Iv & E)]; [exfalso; eapply new_consts; exact Hy|].
      exists v. split; [apply in_or_app; right; apply in_concat; exists (rd_visits r); split; [apply in_map; exact Ir|exact Iv]|exact E]. }
  destruct K as (v & Iv & i & A & D & E). exists v, i. auto.
Qed.
