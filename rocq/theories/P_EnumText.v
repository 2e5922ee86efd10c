(** From the enums of the sources to the enumerators in the text. *)
Require Import Coq.Strings.String Coq.Strings.Ascii Coq.Lists.List Coq.Bool.Bool Coq.Arith.Arith Coq.NArith.NArith Coq.ZArith.ZArith Coq.micromega.Lia.
From Verif Require Import Base P_Base S_Lex P_Lex M_Reserved M_Config M_Writer M_Cfg S_Cfg P_Cfg M_Type M_Ir M_Item S_Decl M_Attr M_Docs M_Library M_Literal M_Bindings M_Backend M_Syn M_Loader M_Parser S_Library S_Names
  S_Parse P_Triples P_Library S_File S_Signature P_SigLib S_Sources S_Expr S_Literal P_Literal S_Value P_Value S_Datatypes S_Shown P_Datatypes P_DataText S_Enums P_Enums.
From Verif Require P_Shown.
Import ListNotations.
Open Scope string_scope.

(** ** The literal a discriminant becomes *)
Section Discriminants.
  Variables (fuel : nat) (b : Bindings) (types : string -> bool) (self : string).
  Hypothesis types_ok : standard_types types.
  Hypothesis words_ok : Forall (fun a => S_Value.named_type a = None) (pointer_words (dialect_of (b_config b))).
  Let c : Config := b_config b.
  Lemma settled_minus : forall l, starts_with_minus (settled c self l) = starts_with_minus l.
  Proof.
    intro l. unfold settled. destruct l as [s|a n|o l|x o y|l f|p n fields|t l|items]; try reflexivity.
    - cbn [Literal_replace_self_with]. destruct a as [[p n0]|]; [destruct (String.eqb p "Self")|]; reflexivity.
    - cbn [Literal_replace_self_with]. destruct (String.eqb p "Self"); reflexivity.
  Qed.
  Let name_ok (x : string) : Prop := value_word types (export_rename (export c) x) = true.
  Lemma settled_written : forall e l, writable name_ok e -> Literal_load (syntax e) = Some l -> expressible fuel b types false (settled c self l).
  Proof.
    pose proof (expression_written fuel b types types_ok words_ok) as EW.
    induction e as [t0 s n|n|n|q|s w m|x|x IH|x IH|x IH|o x IHx y IHy|o x IHx y IHy|x IHx y IHy|x IHx y IHy|o x IHx y IHy|x IHx y IHy|x IHx y IHy|x IH t0];
      intros l W L; pose proof L as L0; cbn [syntax Literal_load lit_text] in L;
      try (destruct (Literal_load (syntax x)) as [lx|] eqn:Lx; [|discriminate]; destruct (Literal_load (syntax y)) as [ly|] eqn:Ly; [|discriminate]; injection L as <-;
           destruct W as [W1 W2]; cbn [settled Literal_replace_self_with Literal_rename_for_config expressible]; repeat split; [try (destruct o); discriminate|exact (IHx _ W1 eq_refl)|exact (IHy _ W2 eq_refl)]).
    - pose proof (EW (RLit t0 s n) _ Logic.I L0) as K. injection L as <-. exact K.
    - pose proof (EW (RByte n) _ Logic.I L0) as K. injection L as <-. exact K.
    - pose proof (EW (RCharLit n) _ W L0) as K. injection L as <-. exact K.
    - pose proof (EW (RBoolLit q) _ Logic.I L0) as K. injection L as <-. exact K.
    - pose proof (EW (RLimit s w m) _ W L0) as K. injection L as <-. cbn in W. destruct W as [-> | ->]; [destruct s, w|destruct w, m]; exact K.
    - injection L as <-. left. exact W.
    - exact (IH _ W L).
    - destruct (Literal_load (syntax x)) as [lx|] eqn:Lx; [|discriminate].
      injection L as <-. destruct W as [W1 W2]. cbn [settled Literal_replace_self_with Literal_rename_for_config expressible]. split; [left; reflexivity|]. split; [exact (IH _ W1 eq_refl)|].
      intros _. fold (settled c self lx). rewrite settled_minus. exact (no_minus _ _ Lx W2).
    - destruct (Literal_load (syntax x)) as [lx|] eqn:Lx; [|discriminate]. injection L as <-. cbn [settled Literal_replace_self_with Literal_rename_for_config expressible]. split; [right; reflexivity|].
      split; [exact (IH _ W eq_refl)|]. discriminate.
    - destruct (Literal_load (syntax x)) as [lx|] eqn:Lx; [|discriminate]. destruct (cast_load t0) as (p & Hp & Hm). destruct W as [W1 W2].
      assert (L1 : Literal_load (syntax (RCast (RBoolLit true) t0)) = Some (LCast (TPrim p) (LExpr "true"))) by (cbn [syntax Literal_load lit_text]; rewrite Hp; reflexivity).
      pose proof (EW (RCast (RBoolLit true) t0) _ (conj Logic.I W2) L1) as [K _].
      rewrite Hp in L. injection L as <-. cbn [settled Literal_replace_self_with Literal_rename_for_config replace_self_with Type_rename_for_config expressible]. split; [exact K|exact (IH _ W1 eq_refl)].
  Qed.
  Hypothesis not_cython : language c <> Cython.
  Hypothesis idents_ok : Forall (fun w => S_Lex.is_ident w = true) (pointer_words (dialect_of c)).
  Hypothesis tabs_ok : tab_width c <> 0.
  Lemma settled_read : forall e l s, writable name_ok e -> Literal_load (syntax e) = Some l ->
    S_Shown.written b (write_literal fuel b (settled c self l)) s -> reads c types (Some (tree fuel b (settled c self l))) s.
  Proof.
    intros e l s W L (p & w & w' & P & SP & R & O).
    destruct (literal_operand (tab_width c) (line_endings c) fuel b types not_cython idents_ok (settled c self l) w tabs_ok SP (settled_written e l W L)) as (p' & w2 & s' & us & P' & R' & O' & Lx & Op).
    assert (Q : write_literal fuel b (settled c self l) = clike_write_literal fuel b (settled c self l)).
    { unfold write_literal. fold c. destruct (language c) eqn:LC; [reflexivity|reflexivity|exfalso; exact (not_cython eq_refl)]. }
    rewrite Q, P' in P. injection P as <-. fold c in R. rewrite R in R'. injection R' as <-. rewrite O in O'. apply sapp_inj_l in O'. subst s'. exists us. auto.
  Qed.
End Discriminants.

(** ** Conditions *)
Lemma lex_spaces : forall n t, S_Lex.lex (srepeat " " n ++ t) = S_Lex.lex t.
Proof. induction n as [|n IH]; intro t; [reflexivity|]. cbn [srepeat append]. rewrite lex_blank by reflexivity. apply IH. Qed.
Section Enumerators.
  Context {H : Heck} (fuel : nat) (b : Bindings) (types : string -> bool).
  Let c : Config := b_config b.
  Hypothesis not_cython : Language_eqb (language c) Cython = false.
  Hypothesis macros : forall k d, In (k, d) (defines c) -> macro_name false d = true.
  Lemma condition_read : forall k q s, to_condition_opt (defines c) k = Some q -> S_Shown.written b (Done (Condition_write (language c) q)) s -> reads_condition (ast q) s.
  Proof.
    intros [g|] q s T (p & w & w' & P & _ & R & O); [|discriminate]. cbn [to_condition_opt] in T. injection P as <-. unfold reads_condition.
    assert (M : forall k d, In (k, d) (defines c) -> macro_name (Language_eqb (language c) Cython) d = true) by (rewrite not_cython; exact macros).
    assert (RB : read_condition (Language_eqb (language c) Cython) (cond_text (language c) q) = Some (ast q)) by exact (read_back (language c) q (to_condition_readable (language c) _ M g q T)). rewrite not_cython in RB.
    destruct (run_plain_text (fun _ => true) _ _ _ _ (condition_plain (language c) q) w w' R) as (_ & n & _ & O'). rewrite O in O'. apply sapp_inj_l in O'. subst s.
    unfold read_condition in *. rewrite lex_spaces. exact RB.
  Qed.
  Definition enumerator_of (value : Literal -> option cexpr) (x : EnumVariant) : enumerator :=
    {| er_condition := option_map ast (to_condition_opt (defines c) (v_cfg x));
       er_docs := v_documentation x;
       er_name := v_export_name x;
       er_note := deprecated_note c NEnumVariant (VariantBody_annotations (v_body x));
       er_value := option_map value (v_discriminant x) |}.
  Let implied (p q : piece) : Prop := forall s, p s -> q s.
  Lemma implied_refl : forall ps, Forall2 implied ps ps. Proof. induction ps; constructor; [intros s P; exact P|assumption]. Qed.
  Lemma enumerator_says : forall value x,
    (forall d s, v_discriminant x = Some d -> S_Shown.written b (write_literal fuel b d) s -> reads c types (value d) s) ->
    Forall2 implied (shown_variant fuel b x) (says_enumerator b types (enumerator_of value x)).
  Proof.
    intros value x V. unfold shown_variant, says_enumerator. fold c. rewrite not_cython. cbn [enumerator_of er_condition er_docs er_name er_note er_value].
    assert (I : Forall2 implied
      (documented b (v_documentation x) ++ [say (v_export_name x)] ++ with_note (deprecated_note c NEnumVariant (VariantBody_annotations (v_body x)))
       ++ opt (v_discriminant x) (fun d => [say "="; S_Shown.written b (write_literal fuel b d)]) ++ [say ","])%list
      (documented b (v_documentation x) ++ [say (v_export_name x)] ++ with_note (deprecated_note c NEnumVariant (VariantBody_annotations (v_body x)))
       ++ opt (option_map value (v_discriminant x)) (fun o => [say "="; reads c types o]) ++ [say ","])%list).
    { do 3 (apply Forall2_app; [apply implied_refl|]). apply Forall2_app; [|apply implied_refl].
      destruct (v_discriminant x) as [d|]; [|constructor]. cbn [option_map opt]. constructor; [intros s P; exact P|]. constructor; [|constructor]. intros s P. exact (V d s eq_refl P). }
    unfold conditional. fold c. rewrite not_cython. destruct (to_condition_opt (defines c) (v_cfg x)) as [q|] eqn:T; cbn [option_map]; [|exact I].
    apply Forall2_app; [|apply Forall2_app; [exact I|apply implied_refl]]. constructor; [intros s P; exact P|]. constructor; [|constructor]. intros s P. exact (condition_read _ _ _ T P).
  Qed.
  Lemma made_app : forall ps qs t, made_of t (ps ++ qs) -> exists s r, t = s ++ r /\ made_of s ps /\ made_of r qs.
  Proof.
    induction ps as [|p ps IH]; intros qs t M; [exists "", t; split; [reflexivity|split; [reflexivity|exact M]]|].
    destruct M as (a & s & r & -> & A & Ps & B & M). destruct (IH _ _ M) as (z & r' & -> & Z & M'). apply P_Shown.apart_less in B. exists (a ++ s ++ z), r'. rewrite !sapp_assoc.
    split; [reflexivity|]. split; [|exact M']. exists a, s, z. auto 8.
  Qed.
  Lemma enum_says : forall value e t,
    (forall x d s, In x (e_variants e) -> v_discriminant x = Some d -> S_Shown.written b (write_literal fuel b d) s -> reads c types (value d) s) ->
    made_of t (shown_enum fuel b e) ->
    exists s, within s t /\ made_of s (say "{" :: flat_map (says_enumerator b types) (map (enumerator_of value) (e_variants e)) ++ [fun x => exists r, x = ("}" ++ r)%string])%list.
  Proof.
    intros value e t V M. unfold shown_enum in M. apply made_conditional in M as (s1 & W1 & M). apply made_right in M as (x1 & X1 & M). apply made_right in M as (x2 & X2 & M). apply made_right in M as (x3 & X3 & M). apply made_left in M as (s2 & W2 & M).
    unfold shown_tag_enum in M. apply made_right in M as (s3 & W3 & M). unfold opens in M. fold c in M. rewrite not_cython in M. rewrite app_assoc in M.
    apply made_app in M as (s4 & r & -> & M4 & M). 
    assert (K : exists s5, within s5 (s4 ++ r) /\ made_of s5 (([say "{"] ++ flat_map (shown_variant fuel b) (e_variants e)) ++ [fun x => exists r, x = ("}" ++ r)%string])%list).
    { assert (C1 : exists a z r', r = a ++ z ++ r' /\ all_blank a = true /\ exists y, z = "}" ++ y).
      { unfold closes in M. fold c in M. rewrite not_cython in M. cbn [negb only app] in M.
        destruct (_ && _ && _) in M; destruct M as (a & z & r' & -> & A & Z & _); exists a, z, r'; (split; [reflexivity|]; split; [exact A|]); [exists ""|exists ";"]; exact Z. }
      destruct C1 as (a & z & r' & -> & A & Z). exists (s4 ++ a ++ z). split; [exists "", r'; cbn [append]; rewrite !sapp_assoc; reflexivity|].
      apply P_Shown.made_app; [exact M4|apply P_Shown.made_lead; [exact A|apply P_Shown.made_one, Z]|]. apply P_Shown.apart_calm, P_Shown.head_blank; [exact A|]. destruct Z as (y & ->). reflexivity. }
    destruct K as (s5 & W5 & M5). exists s5. split.
    - exact (within_trans _ _ _ W5 (within_trans _ _ _ W3 (within_trans _ _ _ W2 (within_trans _ _ _ X3 (within_trans _ _ _ X2 (within_trans _ _ _ X1 W1)))))).
    - revert M5. apply made_weaker. rewrite app_comm_cons. apply Forall2_app; [|constructor; [intros s P; exact P|constructor]]. constructor; [intros s P; exact P|].
      clear - not_cython macros implied V. revert V. generalize (e_variants e). induction l as [|x l IH]; intros V; cbn [flat_map map]; [constructor|].
      apply Forall2_app; [|apply IH; intros y d s I; apply V; right; exact I]. apply enumerator_says. intros d s. apply V. left. reflexivity.
  Qed.
End Enumerators.

(** ** Numbers *)
Section Numbers.
  Context {H : Heck} (b : Bindings) (c : Config).
  Hypothesis BC : b_config b = c.
  Lemma join_known : forall gs, Forall (known c) gs -> known_opt c (Cfg_join gs).
  Proof.
    intros [|g gs] F; [exact Logic.I|]. cbn [Cfg_join known_opt]. split.
    - intros a I. cbn [atoms] in I. apply in_flat_map in I as (x & Ix & Ia). rewrite Forall_forall in F. exact (proj1 (F x Ix) a Ia).
    - cbn [no_empty andb]. apply forallb_forall. intros x I. rewrite Forall_forall in F. exact (proj2 (F x I)).
  Qed.
  Lemma append_known : forall k g, known_opt c k -> known_opt c g -> known_opt c (Cfg_append k g).
  Proof.
    intros [k|] [g|] K G; try assumption. destruct K as [K1 K2], G as [G1 G2]. split.
    - intros a I. cbn [atoms flat_map] in I. rewrite app_nil_r in I. apply in_app_or in I as [I|I]; auto.
    - cbn [no_empty andb forallb]. rewrite K2, G2. reflexivity.
  Qed.
  Lemma condition_present : forall value x rho mu, (forall k d, In (k, d) (defines c) -> macro_name (Language_eqb (language c) Cython) d = true) ->
    defines_agree c rho mu -> known_opt c (v_cfg x) -> present mu (enumerator_of b value x) = cfg_eval_opt rho (v_cfg x).
  Proof.
    intros value x rho mu M A K. unfold present, enumerator_of. cbn [er_condition]. rewrite BC. destruct (v_cfg x) as [g|]; [|reflexivity]. destruct K as [K1 K2]. cbn [to_condition_opt cfg_eval_opt].
    destruct (to_condition_exact (defines c) rho mu A g K1 K2) as (cond & E & V). rewrite E. cbn [option_map]. rewrite <- V. apply (ast_eval (language c)). exact (to_condition_readable (language c) _ M g cond E).
  Qed.
  Lemma note_same : forall a a', an_deprecated a = an_deprecated a' -> deprecated_note c NEnumVariant a = deprecated_note c NEnumVariant a'.
  Proof. intros a a' E. unfold deprecated_note. rewrite E. reflexivity. Qed.
End Numbers.

Theorem enums_text : forall (H : Heck) d c bitflags mfuel fuel std srcs lib l, parse_all d c bitflags mfuel fuel std srcs lib = Parsed l ->
  exists vss rs, sources_read d (parse c) srcs lib vss rs
    /\ forall pfuel visit l' b wfuel t types names c_names, prepare pfuel visit l = Done l' -> finish l' = Done b -> bindings_text wfuel b = Done t ->
         proper_attributes c = true -> tab_width c <> 0 -> language c <> Cython ->
         (forall k m, In (k, m) (defines c) -> macro_name false m = true) ->
         standard_types types -> Forall (fun a => S_Lex.is_ident a = true /\ S_Value.named_type a = None) (pointer_words (dialect_of c)) ->
         constants_known c names c_names -> enums_written c types names c_names vss rs b t.
Proof.
  intros H d c bitflags mfuel fuel std srcs lib l Q. destruct (enums_made H d c bitflags mfuel fuel std srcs lib l Q) as (vss & rs & R & G).
  exists vss, rs. split; [exact R|]. intros pfuel visit l' b wfuel t types names c_names Hp Hf W PA TW NC MN ST PW CK. specialize (G _ _ _ _ Hp Hf).
  assert (LC : l_config l = c). { destruct (P_Sources.all_sound _ _ _ _ _ _ _ _ _ Q) as (? & ? & ? & ? & _ & _ & _ & _ & Z & _). exact Z. }
  assert (BC : b_config b = c /\ b_noop b = false).
  { unfold finish in Hf. destruct (library_dependencies l') as [dd| |]; try discriminate.
    apply (f_equal (fun o => match o with Done x => Some x | _ => None end)) in Hf. injection Hf as <-. cbn [b_config b_noop]. split; [|reflexivity].
    apply prepare_stages in Hp as (l1 & l2 & l3 & l4 & St). rewrite <- LC. apply (stages_config _ _ _ _ _ _ _ _ _ St). }
  destruct BC as [BC BN].
  assert (CY : Language_eqb (language c) Cython = false) by (destruct (language c); try reflexivity; exfalso; exact (NC eq_refl)).
  assert (MN' : forall k m, In (k, m) (defines c) -> macro_name (Language_eqb (language c) Cython) m = true) by (rewrite CY; exact MN).
  intros e I K. destruct (G e I) as [IP|(v & attrs & ident & generics & vs & IR & EF & given & own & extra & A & EV & FO & FX)]; [left; exact IP|right].
  exists v, attrs, ident, generics, vs, given. split; [exact IR|]. split; [exact A|]. split; [exact (ef_name _ _ _ _ _ _ _ _ EF)|].
  assert (DEF : In (AnItem (ICEnum e)) (definitions b ++ symbols b)).
  { apply in_or_app. left. unfold definitions. apply in_or_app. right. apply in_or_app. left. apply in_map. apply filter_In. auto. }
  rewrite <- BC in PA, TW. destruct (declaration_text H wfuel b t _ PA TW BN W DEF) as (s & ps & WS & IP & MO). destruct IP as [<-|[]]. rewrite BC in PA, TW.
  (* whatever is known about the values *)
  assert (SAYS : forall value, (forall x d s, In x (e_variants e) -> v_discriminant x = Some d -> S_Shown.written b (write_literal wfuel b d) s -> reads c types (value d) s) ->
    says_enumerators b types given (e_annotations e) (e_export_name e) (vi_guards v) vs (map (enumerator_of b value) own) (map (enumerator_of b value) extra) t).
  { intros value V. constructor.
    - assert (CY' : Language_eqb (language (b_config b)) Cython = false) by (rewrite BC; exact CY).
      assert (MN2 : forall k m, In (k, m) (defines (b_config b)) -> macro_name false m = true) by (rewrite BC; exact MN).
      rewrite <- BC in V. destruct (enum_says wfuel b types CY' MN2 value e s V MO) as (z & WZ & Z). destruct (within_trans _ _ _ WZ WS) as (before & after & ->).
      exists before, z, after. split; [reflexivity|]. rewrite <- map_app, <- EV. exact Z.
    - rewrite BC. clear - FO CY MN MN' BC. induction FO as [|sv x vs own [VF VO] FO IH]; cbn [map]; constructor; [|exact IH]. destruct VF as [V1 V2 V3 (a & V4 & V5) V6 _]. destruct VO as [O1 O2]. constructor.
      + intros rho mu DA KG KA. rewrite (condition_present b c BC value x rho mu MN' DA).
        * rewrite O1, append_meaning, join_meaning. reflexivity.
        * rewrite O1. apply append_known; [apply join_known; exact KG|exact KA].
      + exact V3.
      + exact V1.
      + exists a. split; [exact V4|]. cbn [enumerator_of er_note]. rewrite BC. apply note_same. exact V5.
      + cbn [enumerator_of er_value]. destruct (sv_discriminant sv); [destruct O2 as (l0 & _ & ->)|rewrite O2]; reflexivity.
    - rewrite BC. clear - FX BC. induction FX as [|n x ns extra [X1 (X2 & X3 & X4)] FX IH]; cbn [map]; constructor; [|exact IH]. constructor; [exact X1|].
      cbn [enumerator_of er_condition er_note er_value]. rewrite X2, X3, X4. auto. }
  split.
  - exists (map (enumerator_of b (fun _ => None)) own), (map (enumerator_of b (fun _ => None)) extra). apply SAYS. intros. exact Logic.I.
  - intros ds FD OK. set (value := fun l : Literal => Some (tree wfuel b l)).
    (* each discriminant is read and has its number *)
    assert (VAL : Forall2 (fun sv x => match v_discriminant x with None => True | Some l => forall s, S_Shown.written b (write_literal wfuel b l) s -> reads c types (value l) s end) vs own).
    { clear - FO FD OK BC ST PW TW NC. revert ds FD OK. induction FO as [|sv x vs own [VF VO] FO IH]; intros ds FD OK; [constructor|]. inversion FD as [|a o ? ds' E FD']; subst. inversion OK as [|? ? OK1 OK2]; subst.
      constructor; [|exact (IH _ FD' OK2)]. destruct VO as [_ O2]. rewrite E in O2. destruct o as [y|]; cbn [option_map] in O2; [|rewrite O2; exact Logic.I].
      destruct O2 as (l0 & L0 & ->). destruct (OK1 y eq_refl) as [_ WR]. intros s WS.
      refine (settled_read wfuel b types (unraw ident) ST _ NC _ TW y l0 s WR L0 WS); eapply Forall_impl; [|exact PW| |exact PW]; intros w Hw; apply Hw. }
    exists (map (enumerator_of b value) own), (map (enumerator_of b value) extra). split.
    + apply SAYS. intros x dd z I0 ED WR. rewrite EV in I0. apply in_app_or in I0 as [I0|I0].
      * clear - VAL I0 ED WR. induction VAL as [|sv y vs own V VAL IH]; [destruct I0|]. destruct I0 as [->|I0]; [rewrite ED in V; exact (V z WR)|exact (IH I0)].
      * clear - FX I0 ED. exfalso. induction FX as [|n y ns extra [X1 (X2 & X3 & X4)] FX IH]; [destruct I0|]. destruct I0 as [->|I0]; [rewrite X2 in ED; discriminate|exact (IH I0)].
    + intros rho mu zs next DA KG KV GH RN. 
      assert (EXTRA : forall n, c_numbers c_names mu n (map (enumerator_of b value) extra) = Some (counted n (length (map (enumerator_of b value) extra)))).
      { clear - FX. induction FX as [|n y ns extra [X1 (X2 & X3 & X4)] FX IH]; intro k; [reflexivity|]. cbn [map c_numbers length counted]. unfold present. cbn [enumerator_of er_condition er_value]. rewrite X2, X3.
        cbn [to_condition_opt option_map]. rewrite IH. reflexivity. }
      clear SAYS VAL MO WS. revert RN KV. generalize 0%Z. revert zs. clear - FO FD OK BC DA KG GH EXTRA CK MN'.
      revert ds FD OK. induction FO as [|sv x vs own [VF VO] FO IH]; intros ds FD OK zs z0 RN KV; inversion FD as [|a o ? ds' E FD']; subst.
      * cbn in RN. injection RN as <- <-. exact (EXTRA _).
      * inversion OK as [|? ? OK1 OK2]; subst. inversion KV as [|? ? KV1 KV2]; subst. cbn [map combine rust_numbers] in RN. cbn [map app c_numbers].
        assert (PR : present mu (enumerator_of b value x) = attrs_hold rho (sv_attrs sv)).
        { destruct VO as [O1 _]. rewrite (condition_present b (b_config b) eq_refl value x rho mu MN' DA); [rewrite O1, append_meaning, join_meaning|rewrite O1; apply append_known; [apply join_known; exact KG|exact KV1]].
          unfold guards_hold in GH. rewrite GH. reflexivity. }
        rewrite PR. destruct (attrs_hold rho (sv_attrs sv)).
        -- destruct (match o with None => Some z0 | Some x => option_map snd (rust_value names x) end) as [z|] eqn:Z; [|discriminate].
           destruct (rust_numbers names (z + 1) _) as [[zs' n']|] eqn:RN'; [|discriminate]. injection RN as <- <-.
           assert (CZ : match er_value (enumerator_of b value x) with None => Some z0 | Some None => None | Some (Some y) => option_map snd (c_value c_names y) end = Some z).
           { cbn [enumerator_of er_value]. destruct VF as [_ _ _ _ V5 _]. rewrite E in V5. destruct o as [y|]; cbn [option_map same_number] in V5, Z |- *.
             - destruct (v_discriminant x) as [l0|]; [|destruct V5]. cbn [option_map value]. destruct (rust_value names y) as [[ty vy]|] eqn:RV; [|discriminate]. cbn [option_map snd] in Z. injection Z as <-.
               destruct (OK1 y eq_refl) as [KC _]. destruct (V5 y names c_names ty vy eq_refl CK RV KC wfuel b) as (k & ->). reflexivity.
             - destruct (v_discriminant x); [destruct V5|]. exact Z. }
           rewrite CZ. rewrite (IH ds' FD' OK2 zs' (z + 1)%Z RN' KV2). reflexivity.
        -- destruct (rust_numbers names z0 _) as [[zs' n']|] eqn:RN'; [|discriminate]. injection RN as <- <-.
           rewrite (IH ds' FD' OK2 zs' z0 RN' KV2). reflexivity.
Qed.
