(** From the constants of the sources to their declarations in the text. *)
Require Import Coq.Strings.String Coq.Strings.Ascii Coq.Lists.List Coq.Bool.Bool Coq.Arith.Arith Coq.NArith.NArith Coq.ZArith.ZArith Coq.micromega.Lia.
From Verif Require Import Base P_Base S_Lex P_Lex M_Reserved M_Config M_Writer S_Writer M_Cfg S_Cfg P_Cfg M_Type M_Ir M_Item S_Decl M_Attr M_Docs M_Library M_Literal M_Cdecl M_Bindings M_Backend M_Syn M_Loader M_Parser S_Library S_Names
  S_Parse P_Triples P_Library S_File P_File S_Signature P_SigLib S_Sources S_Expr S_Literal P_Literal S_Value P_Value S_Datatypes S_Shown P_Shown P_Datatypes P_DataText S_Enums P_Enums P_EnumText S_Constants P_Constants.
Import ListNotations.
Open Scope string_scope.

(** ** Numbers as literals *)
Lemma line_app : forall a b, one_line (a ++ b) = one_line a && one_line b.
Proof.
  intros a b. unfold one_line. rewrite !contains_app. destruct (contains_char "010" a), (contains_char "013" a), (contains_char "010" b), (contains_char "013" b); reflexivity.
Qed.
Lemma line_spaces : forall n, one_line (srepeat " " n) = true.
Proof. induction n as [|n IH]; [reflexivity|]. exact IH. Qed.
Lemma line_decimal : forall n, one_line (decimal n) = true.
Proof. intro n. rewrite decimal_digits. induction (N.to_uint n) as [|u IH|u IH|u IH|u IH|u IH|u IH|u IH|u IH|u IH|u IH]; [reflexivity|exact IH..]. Qed.
Lemma line_suffix : forall n s, one_line (int_suffix n s) = true.
Proof. intros n s. unfold int_suffix. repeat match goal with |- context[if ?x then _ else _] => destruct x end; reflexivity. Qed.
Lemma line_char : forall n, (n <= 255)%N -> one_line ("'" ++ escape_default n ++ "'") = true.
Proof.
  intros n L. assert (K : forallb (fun k => one_line ("'" ++ escape_default (N.of_nat k) ++ "'")) (List.seq 0 256) = true) by (vm_compute; reflexivity).
  rewrite forallb_forall in K. specialize (K (N.to_nat n)). rewrite N2Nat.id in K. apply K. apply in_seq. lia.
Qed.
Lemma line_words : forall s, all_wordchars s = true -> one_line s = true.
Proof.
  induction s as [|a s IH]; [reflexivity|]. cbn [all_wordchars]. intro W. apply andb_prop in W as [W1 W2]. specialize (IH W2).
  change (String a s) with (String a "" ++ s). rewrite line_app, IH, andb_true_r. unfold one_line. cbn [contains_char].
  destruct (Ascii.eqb a "010") eqn:E1; [apply Ascii.eqb_eq in E1; subst a; discriminate W1|]. destruct (Ascii.eqb a "013") eqn:E2; [apply Ascii.eqb_eq in E2; subst a; discriminate W1|]. reflexivity.
Qed.
Lemma line_ident : forall s, S_Lex.is_ident s = true -> one_line s = true.
Proof. intros [|a s] I; [discriminate|]. unfold is_ident in I. apply andb_prop in I as [_ I]. exact (line_words _ I). Qed.

Section Numbers.
  Variables (fuel : nat) (b : Bindings) (types : string -> bool) (self : string).
  Let c : Config := b_config b.
  Let name_ok (x : string) : Prop := value_word types (export_rename (export c) x) = true.
  Lemma number_known : forall s w (m : bool), exists t, to_known_assoc_constant (rust_name (RInt s w)) (if m then "MAX" else "MIN") = Some t /\ one_line t = true.
  Proof. intros [] [] []; eexists; split; reflexivity. Qed.
  Lemma limit_settled : forall s w m l, Literal_load (syntax (RLimit s w m)) = Some l -> exists n, settled c self l = LPath (Some (rust_name (RInt s w), n)) (if m then "MAX" else "MIN").
  Proof. intros s w m l L. cbn [syntax Literal_load] in L. apply (f_equal (fun o => match o with Some x => x | None => l end)) in L. subst l. destruct s, w, m; eexists; reflexivity. Qed.
  Lemma number_valid : forall e l v, Literal_load (syntax e) = Some l -> is_valid fuel b (settled c self l) = Done v -> v = true.
  Proof.
    induction e as [t0 s n|n|n|q|s w m|x|x IH|x IH|x IH|o x IHx y IHy|o x IHx y IHy|x IHx y IHy|x IHx y IHy|o x IHx y IHy|x IHx y IHy|x IHx y IHy|x IH t0];
      intros l v L; pose proof L as L0; cbn [syntax Literal_load lit_text] in L;
      try (destruct (Literal_load (syntax x)) as [lx|]; [|discriminate]; destruct (Literal_load (syntax y)) as [ly|]; [|discriminate]; injection L as <-;
           cbn [settled Literal_replace_self_with Literal_rename_for_config is_valid]; unfold and_then;
           fold (settled c self lx); fold (settled c self ly); intro V; destruct (is_valid fuel b (settled c self lx)) as [vx| |] eqn:VX; try discriminate;
           pose proof (IHx _ _ eq_refl VX) as ->; exact (IHy _ _ eq_refl V));
      try (injection L as <-; intro V; injection V as <-; reflexivity).
    - destruct (limit_settled s w m l L0) as (n & ->). cbn [is_valid]. destruct (number_known s w m) as (t & -> & _).
      unfold or_else. destruct (struct_exists _ _ _) as [[]| |]; try discriminate; [intro V; injection V as <-; reflexivity|].
      destruct (enum_exists _ _); intro V; injection V as <-; reflexivity.
    - exact (IH _ _ L).
    - destruct (Literal_load (syntax x)) as [lx|]; [|discriminate]. injection L as <-. exact (IH _ _ eq_refl).
    - destruct (Literal_load (syntax x)) as [lx|]; [|discriminate]. injection L as <-. exact (IH _ _ eq_refl).
    - destruct (Literal_load (syntax x)) as [lx|]; [|discriminate]. destruct (cast_load t0) as (p & Hp & _). rewrite Hp in L. injection L as <-. exact (IH _ _ eq_refl).
  Qed.
  Lemma number_unwrapped : forall e l, Literal_load (syntax e) = Some l -> unwrap_transparent b (settled c self l) = Some (settled c self l).
  Proof.
    induction e as [t0 s n|n|n|q|s w m|x|x IH|x IH|x IH|o x IHx y IHy|o x IHx y IHy|x IHx y IHy|x IHx y IHy|o x IHx y IHy|x IHx y IHy|x IHx y IHy|x IH t0];
      intros l L; pose proof L as L0; cbn [syntax Literal_load lit_text] in L;
      try (destruct (Literal_load (syntax x)) as [lx|]; [|discriminate]; destruct (Literal_load (syntax y)) as [ly|]; [|discriminate]; injection L as <-; reflexivity);
      try (injection L as <-; reflexivity).
    - destruct (limit_settled s w m l L0) as (n & ->). reflexivity.
    - exact (IH _ L).
    - destruct (Literal_load (syntax x)) as [lx|]; [|discriminate]. injection L as <-. reflexivity.
    - destruct (Literal_load (syntax x)) as [lx|]; [|discriminate]. injection L as <-. reflexivity.
    - destruct (Literal_load (syntax x)) as [lx|]; [|discriminate]. destruct (cast_load t0) as (p & Hp & _). rewrite Hp in L. injection L as <-. reflexivity.
  Qed.
  Lemma visited_bin : forall f x o y, existsb f (Literal_visited (LBin x o y)) = f (LBin x o y) || existsb f (Literal_visited x) || existsb f (Literal_visited y).
  Proof. intros. cbn [Literal_visited existsb]. rewrite existsb_app, orb_assoc. reflexivity. Qed.
  Lemma number_constexpr : forall e l, Literal_load (syntax e) = Some l -> can_be_constexpr (settled c self l) = true.
  Proof.
    intros e l L. unfold can_be_constexpr. apply negb_true_iff. revert l L. unfold has_pointer_casts.
    induction e as [t0 s n|n|n|q|s w m|x|x IH|x IH|x IH|o x IHx y IHy|o x IHx y IHy|x IHx y IHy|x IHx y IHy|o x IHx y IHy|x IHx y IHy|x IHx y IHy|x IH t0];
      intros l L; pose proof L as L0; cbn [syntax Literal_load lit_text] in L;
      try (destruct (Literal_load (syntax x)) as [lx|]; [|discriminate]; destruct (Literal_load (syntax y)) as [ly|]; [|discriminate]; injection L as <-;
           cbn [settled Literal_replace_self_with Literal_rename_for_config]; rewrite visited_bin; fold (settled c self lx); fold (settled c self ly);
           rewrite (IHx _ eq_refl), (IHy _ eq_refl); reflexivity);
      try (injection L as <-; reflexivity).
    - destruct (limit_settled s w m l L0) as (n & ->). reflexivity.
    - exact (IH _ L).
    - destruct (Literal_load (syntax x)) as [lx|]; [|discriminate]. injection L as <-. exact (IH _ eq_refl).
    - destruct (Literal_load (syntax x)) as [lx|]; [|discriminate]. injection L as <-. exact (IH _ eq_refl).
    - destruct (Literal_load (syntax x)) as [lx|]; [|discriminate]. destruct (cast_load t0) as (p & Hp & _). rewrite Hp in L. injection L as <-. exact (IH _ eq_refl).
  Qed.
  (** *** On one line *)
  Definition flat (p : prog) : Prop := exists t, plain_text p = Some t /\ one_line t = true.
  Lemma flat_write : forall s, one_line s = true -> flat (write s).
  Proof. intros s L. exists s. cbn. rewrite sapp_nil_r. auto. Qed.
  Lemma flat_seq : forall p q, flat p -> flat q -> flat (seq p q).
  Proof. intros p q (t & P & L) (u & Q & M). exists (t ++ u). rewrite plain_text_seq, P, Q. split; [reflexivity|]. rewrite line_app, L, M. reflexivity. Qed.
  Lemma cast_flat : forall t p q, PrimitiveType_maybe (rust_name t) = Some p -> write_type c (TPrim p) = Some q -> flat q.
  Proof.
    intros t p q M W. unfold write_type, from_type in W.
    assert (K : exists d, build_type c CDecl_new (TPrim p) false = Some (Decl "" (to_repr_c c p) [] [] None d)) by (eexists; destruct p; reflexivity).
    destruct K as (d & K). rewrite K in W. injection W as <-.
    assert (R : flat (write (to_repr_c c p))).
    { apply flat_write. destruct t as [[] []|[]| |]; injection M as <-; cbn [to_repr_c]; repeat match goal with |- context[if ?x then _ else _] => destruct x end; reflexivity. }
    assert (Z : flat PRet) by (exists ""; auto). cbn [CDecl_write String.eqb negb is_nil rev write_left]. destruct (negb _); repeat (apply flat_seq); assumption.
  Qed.
  Hypothesis not_cython : language c <> Cython.
  Lemma operator_line : forall e x o y, Literal_load (syntax e) = Some (LBin x o y) -> one_line (" " ++ o ++ " ") = true.
  Proof.
    induction e as [t0 s n|n|n|q|s w m|x|x IH|x IH|x IH|o x IHx y IHy|o x IHx y IHy|x IHx y IHy|x IHx y IHy|o x IHx y IHy|x IHx y IHy|x IHx y IHy|x IH t0];
      intros lx' o' ly' L; cbn [syntax Literal_load lit_text] in L; try discriminate;
      try (destruct (Literal_load (syntax x)) as [lx|]; [|discriminate]; destruct (Literal_load (syntax y)) as [ly|]; [|discriminate]; injection L as <- <- <-; try (destruct o); reflexivity).
    - exact (IH _ _ _ L).
    - destruct (Literal_load (syntax x)) as [lx|]; discriminate.
    - destruct (Literal_load (syntax x)) as [lx|]; discriminate.
    - destruct (Literal_load (syntax x)) as [lx|]; [|discriminate]. destruct (cast_load t0) as (p & Hp & _). rewrite Hp in L. discriminate.
  Qed.
  Lemma number_flat : forall e l p, writable name_ok e -> Literal_load (syntax e) = Some l -> clike_write_literal fuel b (settled c self l) = Done p -> flat p.
  Proof.
    induction e as [t0 s n|n|n|q|s w m|x|x IH|x IH|x IH|o x IHx y IHy|o x IHx y IHy|x IHx y IHy|x IHx y IHy|o x IHx y IHy|x IHx y IHy|x IHx y IHy|x IH t0];
      intros l p W L P; pose proof L as L0; cbn [syntax Literal_load lit_text] in L;
      try (destruct (Literal_load (syntax x)) as [lx|] eqn:Lx; [|discriminate]; destruct (Literal_load (syntax y)) as [ly|] eqn:Ly; [|discriminate]; injection L as <-;
           destruct W as [W1 W2]; apply operator_line in L0; cbn [settled Literal_replace_self_with Literal_rename_for_config clike_write_literal] in P;
           fold (settled c self lx) in P; fold (settled c self ly) in P;
           destruct (clike_write_literal fuel b (settled c self lx)) as [px| |] eqn:PX; try discriminate; destruct (clike_write_literal fuel b (settled c self ly)) as [py| |] eqn:PY; try discriminate;
           apply (f_equal (fun o => match o with Done x => x | _ => p end)) in P; subst p; repeat apply flat_seq; [apply flat_write; reflexivity|exact (IHx _ _ W1 eq_refl PX)|apply flat_write; exact L0|exact (IHy _ _ W2 eq_refl PY)|apply flat_write; reflexivity]).
    - injection L as <-. injection P as <-. apply flat_write. rewrite line_app, line_decimal. apply line_suffix.
    - injection L as <-. injection P as <-. apply flat_write. apply line_decimal.
    - injection L as <-. injection P as <-. apply flat_write. cbn in W. pose proof (proj2 (N.leb_le n 255) W) as E. rewrite E. apply line_char. exact W.
    - injection L as <-. injection P as <-. apply flat_write. destruct q; reflexivity.
    - destruct (limit_settled s w m l L0) as (n & E). rewrite E in P. cbn [clike_write_literal] in P. apply (f_equal (fun o => match o with Done x => x | _ => p end)) in P. subst p. unfold write_path.
      destruct (number_known s w m) as (t & -> & O). apply flat_write. exact O.
    - injection L as <-. injection P as <-. apply flat_write. cbn in W. unfold name_ok, value_word in W. apply andb_prop in W as [W _]. apply andb_prop in W as [W _]. apply line_ident. exact W.
    - exact (IH _ _ W L P).
    - destruct (Literal_load (syntax x)) as [lx|] eqn:Lx; [|discriminate]. injection L as <-. destruct W as [W1 _]. cbn [settled Literal_replace_self_with Literal_rename_for_config clike_write_literal] in P.
      fold (settled c self lx) in P. destruct (clike_write_literal fuel b (settled c self lx)) as [px| |] eqn:PX; try discriminate. apply (f_equal (fun o => match o with Done x => x | _ => p end)) in P. subst p. apply flat_seq; [apply flat_write; reflexivity|exact (IH _ _ W1 eq_refl PX)].
    - destruct (Literal_load (syntax x)) as [lx|] eqn:Lx; [|discriminate]. injection L as <-. cbn [settled Literal_replace_self_with Literal_rename_for_config clike_write_literal] in P.
      fold (settled c self lx) in P. destruct (clike_write_literal fuel b (settled c self lx)) as [px| |] eqn:PX; try discriminate. apply (f_equal (fun o => match o with Done x => x | _ => p end)) in P. subst p. apply flat_seq; [apply flat_write; reflexivity|exact (IH _ _ W eq_refl PX)].
    - destruct (Literal_load (syntax x)) as [lx|] eqn:Lx; [|discriminate]. destruct (cast_load t0) as (pt & Hp & Hm). rewrite Hp in L. injection L as <-. destruct W as [W1 _].
      cbn [settled Literal_replace_self_with Literal_rename_for_config replace_self_with Type_rename_for_config clike_write_literal] in P. fold (settled c self lx) in P. fold c in P.
      destruct (write_type c (TPrim pt)) as [q|] eqn:WT; [|discriminate]. cbn [of_option] in P. destruct (clike_write_literal fuel b (settled c self lx)) as [px| |] eqn:PX; try discriminate. apply (f_equal (fun o => match o with Done x => x | _ => p end)) in P. subst p.
      repeat apply flat_seq; [apply flat_write; reflexivity|exact (cast_flat _ _ _ Hm WT)|apply flat_write; reflexivity|exact (IH _ _ W1 eq_refl PX)].
  Qed.
  Lemma number_line : forall e l s, writable name_ok e -> Literal_load (syntax e) = Some l -> S_Shown.written b (write_literal fuel b (settled c self l)) s -> one_line s = true.
  Proof.
    intros e l s W L (p & w & w' & P & _ & R & O). assert (Q : write_literal fuel b (settled c self l) = clike_write_literal fuel b (settled c self l)).
    { unfold write_literal. fold c. destruct (language c) eqn:LC; [reflexivity|reflexivity|exfalso; exact (not_cython eq_refl)]. }
    rewrite Q in P. destruct (number_flat e l p W L P) as (t & PT & OL). destruct (run_plain_text (fun _ => true) _ _ _ _ PT w w' R) as (_ & n & _ & O'). rewrite O in O'. apply sapp_inj_l in O'. subst s.
    rewrite line_app, line_spaces, OL. reflexivity.
  Qed.
End Numbers.

(** ** What is written *)
Lemma each_done : forall A (f : A -> outcome prog) l p, each f l = Done p -> forall x, In x l -> exists q, f x = Done q.
Proof.
  intros A f. induction l as [|y l IH]; intros p E x I; [destruct I|]. cbn [each] in E. apply then_done in E as (u & v & E1 & E2 & _). destruct I as [->|I]; [eauto|exact (IH _ E2 x I)].
Qed.
Section Text.
  Context {H : Heck} (fuel : nat) (b : Bindings) (types : string -> bool).
  Let c : Config := b_config b.
  Lemma declaration_done : forall t d, b_noop b = false -> bindings_text fuel b = Done t -> In d (definitions b ++ symbols b) -> exists p, write_declaration fuel b d = Done p.
  Proof.
    intros t d N T I. destruct (file_text fuel b t N T) as (head & defs & syms & tail & F & _). destruct F as (upper & lower & L1 & L2 & _).
    assert (K : forall before ds ts after, laid fuel b before ds ts after -> In d ds -> exists p, write_declaration fuel b d = Done p).
    { intros before ds ts after L. induction L as [|before x ds t0 ts after (p & w & A & _) L IH]; intro J; [destruct J|]. destruct J as [->|J]; [exists p; exact A|exact (IH J)]. }
    apply in_app_or in I as [I|I]; [exact (K _ _ _ _ L1 I)|exact (K _ _ _ _ L2 I)].
  Qed.
  Lemma constants_done : forall s p, write_item fuel b (ICStruct s) = Done p -> forall k, In k (s_associated_constants s) -> exists q, Constant_write fuel b k (Some s) = Done q.
  Proof.
    intros s p E k I.
    assert (A : exists q, associated_constants fuel b s = Done q).
    { cbn [write_item] in E. unfold write_struct_or_typedef in E. destruct (as_typedef s) as [t|]; [apply then_done in E as (u & v & _ & E & _); eauto|].
      unfold write_struct in E. destruct (Language_eqb _ Cython).
      - unfold cython_struct in E. repeat (apply then_done in E as (? & ? & ? & E & _)). repeat match goal with X : associated_constants _ _ _ = Done _ |- _ => eauto end.
      - unfold clike_struct in E. repeat (apply then_done in E as (? & ? & ? & E & _)). repeat match goal with X : associated_constants _ _ _ = Done _ |- _ => eauto end. }
    destruct A as (q & A). unfold associated_constants in A. destruct (each_done _ _ _ _ A k I) as (r & R). apply then_done in R as (u & v & _ & R & _). eauto.
  Qed.
  Hypothesis not_cython : Language_eqb (language c) Cython = false.
  Hypothesis macros : forall k d, In (k, d) (defines c) -> macro_name false d = true.
  Hypothesis types_ok : standard_types types.
  Hypothesis words_ok : Forall (fun a => S_Lex.is_ident a = true /\ S_Value.named_type a = None) (pointer_words (dialect_of c)).
  Hypothesis tabs_ok : tab_width c <> 0.
  Let nc : language c <> Cython. Proof. intro Z. rewrite Z in not_cython. discriminate. Qed.
  Lemma final_settled : forall self e l, Literal_load (syntax e) = Some l ->
    Literal_rename_for_config (export c) (selfed_literal self l) = settled c (match self with Some a => a | None => "" end) l.
  Proof. intros [a|] e l L; [reflexivity|]. unfold settled. rewrite (self_same "" e l L). reflexivity. Qed.
  (** The pieces, of a constant whose value is a number *)
  Lemma constant_pieces : forall gs here self attrs ident ty x k s q name,
    constant_for c here self attrs ident ty (syntax x) k -> raw_constant c (Cfg_join gs) self attrs ty (syntax x) k ->
    writable (fun n => value_word types (export_rename (export c) n) = true) x ->
    match s with Some st => s_generic_params st = [] | None => True end -> Constant_write fuel b k s = Done q -> M_Literal.constant_name b k s = name ->
    exists n cond l, name = Some n /\ M_Ir.c_value k = l /\ condition_for c gs attrs cond
      /\ forall t, made_of t (shown_constant fuel b k s) ->
         made_of t (in_conditions cond (documented b (Documentation_load attrs) ++ says_constant c types self n (constant_in_body b s) ty (tree fuel b l))).
  Proof.
    intros gs here self attrs ident ty x k s q name KF (RC & (ty0 & TL & TY) & l0 & LL & LV) W GP CW CN.
    rewrite (final_settled _ _ _ LL) in LV. set (a := match self with Some a => a | None => "" end) in LV.
    assert (V : exists v, is_valid fuel b (M_Ir.c_value k) = Done v).
    { unfold Constant_write in CW. assert (G : match s with Some st => negb (is_nil (s_generic_params st)) | None => false end = false) by (destruct s as [st|]; [rewrite GP|]; reflexivity).
      rewrite G in CW. destruct (is_valid fuel b (M_Ir.c_value k)) as [v| |]; try discriminate. eauto. }
    destruct V as (v & V). pose proof V as V0. rewrite LV in V0. apply number_valid with (1 := LL) in V0. subst v.
    pose proof (number_unwrapped b a x l0 LL) as U. fold c in U. rewrite <- LV in U.
    pose proof (number_constexpr b a x l0 LL) as CE. fold c in CE. rewrite <- LV in CE.
    assert (NM : exists n, name = Some n).
    { unfold Constant_write in CW. assert (G : match s with Some st => negb (is_nil (s_generic_params st)) | None => false end = false) by (destruct s as [st|]; [rewrite GP|]; reflexivity).
      rewrite G, V in CW. cbn [negb] in CW. rewrite CN in CW. destruct name as [n|]; [eauto|discriminate]. }
    destruct NM as (n & ->). exists n, (option_map ast (to_condition_opt (defines c) (c_cfg k))), (M_Ir.c_value k). split; [reflexivity|]. split; [reflexivity|]. split.
    - intros rho mu DA KG KA. rewrite RC. assert (KN : known_opt c (Cfg_append (Cfg_join gs) (Cfg_of_attrs attrs))) by (apply append_known; [apply join_known; exact KG|exact KA]).
      replace (guards_hold rho gs && attrs_hold rho attrs) with (cfg_eval_opt rho (Cfg_append (Cfg_join gs) (Cfg_of_attrs attrs))) by (rewrite append_meaning, join_meaning; reflexivity).
      destruct (Cfg_append (Cfg_join gs) (Cfg_of_attrs attrs)) as [g|]; [|reflexivity]. destruct KN as [K1 K2]. cbn [to_condition_opt cfg_eval_opt].
      destruct (to_condition_exact (defines c) rho mu DA g K1 K2) as (cond & E & VV). rewrite E. cbn [option_map]. rewrite <- VV. apply (ast_eval (language c)).
      refine (to_condition_readable (language c) (defines c) _ g cond E). intros k0 d0. rewrite not_cython. apply macros.
    - intro t. unfold shown_constant. assert (G : match s with Some st => negb (is_nil (s_generic_params st)) | None => false end = false) by (destruct s as [st|]; [rewrite GP|]; reflexivity).
      rewrite G, V, CN, U. fold c. rewrite not_cython, CE, andb_true_r, (kf_documentation _ _ _ _ _ _ _ _ KF).
      set (implied := fun p q : piece => forall s, p s -> q s).
      assert (READ : forall s0, S_Shown.written b (write_literal fuel b (M_Ir.c_value k)) s0 -> reads c types (Some (tree fuel b (M_Ir.c_value k))) s0).
      { intros s0 WS. rewrite LV in WS |- *. refine (settled_read fuel b types a types_ok _ nc _ tabs_ok x l0 s0 W LL WS); eapply Forall_impl; [|exact words_ok| |exact words_ok]; intros w0 Hw; apply Hw. }
      assert (BODY : Forall2 implied
        (documented b (Documentation_load attrs) ++
         (if Language_eqb (language c) M_Config.C || negb (co_allow_static_const (M_Config.constant c)) && negb (co_allow_constexpr (M_Config.constant c))
          then [macro b n (write_literal fuel b (M_Ir.c_value k))]
          else only (co_allow_constexpr (M_Config.constant c)) [say "constexpr"] ++
               only (co_allow_static_const (M_Config.constant c)) [say (if constant_in_body b s then "inline" else "static")] ++
               only (negb (is_const_ptr (c_ty k))) [say "const"] ++
               [declared b n (c_ty k); say "="; S_Shown.written b (write_literal fuel b (M_Ir.c_value k)); say ";"]))%list
        (documented b (Documentation_load attrs) ++ says_constant c types self n (constant_in_body b s) ty (tree fuel b (M_Ir.c_value k)))%list).
      { apply Forall2_app; [apply implied_refl|]. unfold says_constant, as_macro.
        assert (M : (Language_eqb (language c) M_Config.C || negb (co_allow_static_const (M_Config.constant c)) && negb (co_allow_constexpr (M_Config.constant c)))
          = match language c with Cxx => negb (co_allow_constexpr (M_Config.constant c)) && negb (co_allow_static_const (M_Config.constant c)) | _ => true end).
        { rewrite andb_comm. pose proof nc as nc'. destruct (language c) eqn:LC; [reflexivity|reflexivity|exfalso; apply nc'; reflexivity]. }
        rewrite M. destruct (match language c with Cxx => _ | _ => true end).
        - constructor; [|constructor]. intros s0 (v & -> & WS). exists v. split; [reflexivity|]. split; [|exact (READ v WS)]. rewrite LV in WS. exact (number_line fuel b types a nc x l0 v W LL WS).
        - do 2 (apply Forall2_app; [apply implied_refl|]). apply Forall2_app.
          + assert (CP : negb (is_const_ptr (c_ty k)) = match ty with SRef false _ | SPtr false _ => false | _ => true end).
            { rewrite TY. clear - TL. destruct ty as [m u|m u|[bf i ar]|u e|ins vv o|l| | |]; cbn [Type_load] in TL.
              - destruct (Type_load u) as [o|]; [|discriminate]. injection TL as <-. destruct self; cbn; destruct m; reflexivity.
              - destruct (Type_load u) as [o|]; [|discriminate]. injection TL as <-. destruct self; cbn; destruct m; reflexivity.
              - destruct (GenericPath_load _) as [[p e gsx kx]|]; [|discriminate]. destruct (_ || _); [discriminate|]. destruct (PrimitiveType_maybe _); [destruct (is_nil _); [|discriminate]|]; injection TL as <-; destruct self; cbn; try reflexivity.
                destruct (String.eqb p "Self"); reflexivity.
              - destruct (Type_load u) as [[y|]|]; try discriminate. destruct (ConstExpr_load e); [|discriminate]. injection TL as <-. destruct self; reflexivity.
              - destruct (try_skip_map _ ins); [|discriminate]. match type of TL with match ?z with Some _ => _ | None => _ end = _ => destruct z; [|discriminate] end. injection TL as <-. destruct self; reflexivity.
              - destruct (is_nil l); discriminate.
              - injection TL as <-. destruct self; reflexivity.
              - discriminate.
              - discriminate. }
            rewrite CP. apply implied_refl.
          + constructor; [|constructor; [intros s0 P; exact P|constructor; [exact READ|constructor; [intros s0 P; exact P|constructor]]]].
            intros s0 (_ & D) AR y RT US. destruct (kf_type _ _ _ _ _ _ _ _ KF AR y RT) as [D1 D2]. rewrite <- D2. exact (D D1 US). }
      unfold conditional. fold c. rewrite not_cython. destruct (to_condition_opt (defines c) (c_cfg k)) as [qc|] eqn:TC; cbn [option_map in_conditions]; apply made_weaker; [|exact BODY].
      apply Forall2_app; [|apply Forall2_app; [exact BODY|apply implied_refl]]. constructor; [intros s0 P; exact P|]. constructor; [|constructor]. intros s0 P. exact (condition_read b not_cython macros _ _ _ TC P).
  Qed.
End Text.

Lemma made_member : forall A (f : A -> list piece) l x t, In x l -> made_of t (flat_map f l) -> exists s, within s t /\ made_of s (f x).
Proof.
  intros A f. induction l as [|y l IH]; intros x t I M; [destruct I|]. cbn [flat_map] in M. destruct I as [->|I]; [exact (made_left _ _ _ M)|].
  apply made_right in M as (s & W & M). destruct (IH _ _ I M) as (z & Z & M'). exists z. split; [exact (within_trans _ _ _ Z W)|exact M'].
Qed.
Lemma struct_constant_pieces : forall (H : Heck) fuel b s k t ps, Language_eqb (language (b_config b)) Cython = false -> In ps (shown fuel b (AnItem (ICStruct s))) -> made_of t ps ->
  In k (s_associated_constants s) -> exists z, within z t /\ made_of z (shown_constant fuel b k (Some s)).
Proof.
  intros H fuel b s k t ps NC [<-|[]] M I. destruct (as_typedef s) as [td|].
  - apply made_right in M as (z & W & M). destruct (made_member _ _ _ _ _ I M) as (y & Y & M'). exists y. split; [exact (within_trans _ _ _ Y W)|exact M'].
  - unfold shown_struct in M. rewrite NC in M. apply made_conditional in M as (z & W & M).
    repeat (let y := fresh "y" in let Y := fresh "Y" in apply made_right in M as (y & Y & M); pose proof (within_trans _ _ _ Y W) as W'; clear Y W; rename W' into W).
    destruct (made_member _ _ _ _ _ I M) as (x & X & M'). exists x. split; [exact (within_trans _ _ _ X W)|exact M'].
Qed.
(** What one constant that is written says *)
Lemma number_said : forall (H : Heck) wfuel b types t names c_names, Language_eqb (language (b_config b)) Cython = false -> tab_width (b_config b) <> 0 ->
  (forall k m, In (k, m) (defines (b_config b)) -> macro_name false m = true) ->
  standard_types types -> Forall (fun a => S_Lex.is_ident a = true /\ S_Value.named_type a = None) (pointer_words (dialect_of (b_config b))) -> constants_known (b_config b) names c_names ->
  forall gs here self attrs ident ty value k s q t0 name, constant_for (b_config b) here self attrs ident ty value k -> raw_constant (b_config b) (Cfg_join gs) self attrs ty value k ->
    match s with Some st => s_generic_params st = [] | None => True end -> Constant_write wfuel b k s = Done q -> M_Literal.constant_name b k s = name ->
    within t0 t -> made_of t0 (shown_constant wfuel b k s) ->
    number_written b (b_config b) types names c_names gs self name (constant_in_body b s) attrs ty value t.
Proof.
  intros H wfuel b types t names c_names CY TW MN ST PW CK.
  intros gs here self attrs ident ty value k s q t0 name KF RC GP CW CN WI MO x u z EV RV KC WR. subst value.
  destruct (constant_pieces wfuel b types CY MN ST PW TW gs here self attrs ident ty x k s q name KF RC WR GP CW CN) as (n & cond & lit & E1 & E2 & E3 & E4).
  destruct (kf_number _ _ _ _ _ _ _ _ KF x names c_names u z eq_refl CK RV KC wfuel b) as (kk & E5). rewrite E2 in E5.
  destruct WI as (before & after & WI). exists n, cond, (tree wfuel b lit), kk, before, t0, after. split; [exact E1|]. split; [exact E3|]. split; [exact E5|]. split; [exact WI|exact (E4 _ MO)].
Qed.
Lemma free_number_said : forall (H : Heck) wfuel b types t names c_names, bindings_text wfuel b = Done t -> b_noop b = false -> proper_attributes (b_config b) = true ->
  Language_eqb (language (b_config b)) Cython = false -> tab_width (b_config b) <> 0 ->
  (forall k m, In (k, m) (defines (b_config b)) -> macro_name false m = true) ->
  standard_types types -> Forall (fun a => S_Lex.is_ident a = true /\ S_Value.named_type a = None) (pointer_words (dialect_of (b_config b))) -> constants_known (b_config b) names c_names ->
  forall gs here self attrs ident ty value k, In k (b_constants b) -> constant_for (b_config b) here self attrs ident ty value k -> raw_constant (b_config b) (Cfg_join gs) self attrs ty value k ->
    number_written b (b_config b) types names c_names gs self (Some (free_constant_name (b_config b) self ident)) false attrs ty value t.
Proof.
  intros H wfuel b types t names c_names W BN PA CY TW MN ST PW CK gs here self attrs ident ty value k I KF RC.
  assert (DEF : In (AConstant k) (definitions b ++ symbols b)).
  { apply in_or_app. left. unfold definitions. destruct (primitive_constant k) eqn:U.
    - apply in_or_app. left. apply in_map. apply filter_In. auto.
    - apply in_or_app. right. apply in_or_app. right. apply in_map. apply filter_In. rewrite U. auto. }
  destruct (declaration_text H wfuel b t _ PA TW BN W DEF) as (s & ps & WS & IP & MO). destruct IP as [<-|[]]. destruct (declaration_done wfuel b t _ BN W DEF) as (q & D).
  assert (NM : M_Literal.constant_name b k None = Some (free_constant_name (b_config b) self ident)).
  { cbn [M_Literal.constant_name constant_in_body]. rewrite (kf_self _ _ _ _ _ _ _ _ KF), (kf_name _ _ _ _ _ _ _ _ KF). destruct self; reflexivity. }
  exact (number_said H wfuel b types t names c_names CY TW MN ST PW CK gs here self attrs ident ty value k None q s _ KF RC Logic.I D NM WS MO).
Qed.
Theorem constants_text : forall (H : Heck) d c bitflags mfuel fuel std srcs lib l, parse_all d c bitflags mfuel fuel std srcs lib = Parsed l ->
  exists vss rs, sources_read d (parse c) srcs lib vss rs
    /\ forall pfuel visit l' b wfuel t types names c_names, prepare pfuel visit l = Done l' -> finish l' = Done b -> bindings_text wfuel b = Done t ->
         proper_attributes c = true -> tab_width c <> 0 -> language c <> Cython ->
         (forall k m, In (k, m) (defines c) -> macro_name false m = true) ->
         standard_types types -> Forall (fun a => S_Lex.is_ident a = true /\ S_Value.named_type a = None) (pointer_words (dialect_of c)) ->
         constants_known c names c_names -> constants_written c types names c_names vss rs b t.
Proof.
  intros H d c bitflags mfuel fuel std srcs lib l Q. destruct (constants_made H d c bitflags mfuel fuel std srcs lib l Q) as (vss & rs & R & G).
  exists vss, rs. split; [exact R|]. intros pfuel visit l' b wfuel t types names c_names Hp Hf W PA TW NC MN ST PW CK. destruct (G _ _ _ _ Hp Hf) as [G1 G2].
  assert (LC : l_config l = c). { destruct (P_Sources.all_sound _ _ _ _ _ _ _ _ _ Q) as (? & ? & ? & ? & _ & _ & _ & _ & Z & _). exact Z. }
  assert (BC : b_config b = c /\ b_noop b = false).
  { unfold finish in Hf. destruct (library_dependencies l') as [dd| |]; try discriminate.
    apply (f_equal (fun o => match o with Done x => Some x | _ => None end)) in Hf. injection Hf as <-. cbn [b_config b_noop]. split; [|reflexivity].
    apply prepare_stages in Hp as (l1 & l2 & l3 & l4 & St). rewrite <- LC. apply (stages_config _ _ _ _ _ _ _ _ _ St). }
  destruct BC as [BC BN].
  assert (CY : Language_eqb (language c) Cython = false) by (destruct (language c); try reflexivity; exfalso; exact (NC eq_refl)).
  clear Q G Hp Hf LC l' l R. subst c.
  pose proof (number_said H wfuel b types t names c_names CY TW MN ST PW CK) as WRITTEN.
  constructor.
  - intros k I. destruct (G1 k I) as (v & i & self & attrs & ident & ty & value & IR & SC & KF & RC). exists v, i, self, attrs, ident, ty, value. split; [exact IR|]. split; [exact SC|].
    split; [exact (kf_path _ _ _ _ _ _ _ _ KF)|].
    exact (free_number_said H wfuel b types t names c_names W BN PA CY TW MN ST PW CK (vi_guards v) _ self attrs ident ty value k I KF RC).
  - intros s k I K GP J. destruct (G2 s k I J) as [P|(v & i & attrs & ident & ty & value & IR & SC & KF & RC)]; [left; exact P|right]. exists v, i, attrs, ident, ty, value. split; [exact IR|]. split; [exact SC|].
    split; [exact (kf_path _ _ _ _ _ _ _ _ KF)|].
    assert (DEF : In (AnItem (ICStruct s)) (definitions b ++ symbols b)).
    { apply in_or_app. left. unfold definitions. apply in_or_app. right. apply in_or_app. left. apply in_map. apply filter_In. auto. }
    destruct (declaration_text H wfuel b t _ PA TW BN W DEF) as (y & ps & WS & IP & MO). destruct (declaration_done wfuel b t _ BN W DEF) as (q & D).
    destruct (constants_done wfuel b s q D k J) as (q' & D'). destruct (struct_constant_pieces H wfuel b s k y ps CY IP MO J) as (z & WZ & MZ).
    assert (IB : constant_in_body b (Some s) = in_body (b_config b) s).
    { unfold constant_in_body, in_body. destruct (language (b_config b)); reflexivity. }
    assert (NM : M_Literal.constant_name b k (Some s) = struct_constant_name (b_config b) s ident).
    { unfold M_Literal.constant_name, struct_constant_name. rewrite IB. rewrite (kf_self _ _ _ _ _ _ _ _ KF), (kf_name _ _ _ _ _ _ _ _ KF). destruct (in_body _ _); [reflexivity|].
      destruct (rule_or _ _ _); reflexivity. }
    rewrite <- IB. exact (WRITTEN (vi_guards v) _ (Some (s_path s)) attrs ident ty value k (Some s) q' z _ KF RC GP D' NM (within_trans _ _ _ WZ WS) MZ).
Qed.
