(** Types and literals leave the outline as they found it: within code, and, if
    they are written on one line, within a directive. *)
Require Import Coq.Strings.String Coq.Strings.Ascii Coq.Lists.List Coq.Bool.Bool Coq.Arith.Arith Lia.
From Verif Require Import Base P_Base M_Config M_Writer S_Writer P_Writer M_Cfg P_Cfg M_Type P_Type M_Ir M_Library M_Cdecl P_Declared M_Bindings M_Docs M_Literal M_Backend
  S_Lex S_Comment S_Outline S_Tame P_Outline P_Triples P_Shape P_Deps.
Import ListNotations.
Open Scope string_scope.

(** ** Declarations *)
Fixpoint tame_decl (d : CDecl) : bool :=
  match d with
  | Decl q n gs ds _ _ =>
      calm q && calm n && forallb (fun g => match g with CType a => tame_decl a | CConst s => calm s end) gs
      && forallb (fun x => match x with
                           | CdPtr _ _ _ => true
                           | CdArray len => calm len
                           | CdFunc args _ _ => forallb (fun a => opt calm (fst a) && tame_decl (snd a)) args
                           end) ds
  end.
Definition tame_carg (g : CArg) : bool := match g with CType a => tame_decl a | CConst s => calm s end.
Definition tame_declarator (x : CDeclarator) : bool :=
  match x with
  | CdPtr _ _ _ => true
  | CdArray len => calm len
  | CdFunc args _ _ => forallb (fun a => opt calm (fst a) && tame_decl (snd a)) args
  end.
Lemma tame_decl_eq q n gs ds ct dep : tame_decl (Decl q n gs ds ct dep)
  = calm q && calm n && forallb tame_carg gs && forallb tame_declarator ds.
Proof. reflexivity. Qed.
(** No list of arguments. *)
Fixpoint flat_decl (d : CDecl) : bool :=
  match d with
  | Decl _ _ gs ds _ _ =>
      forallb (fun g => match g with CType a => flat_decl a | CConst _ => true end) gs
      && forallb (fun x => match x with CdFunc _ _ _ => false | _ => true end) ds
  end.

Lemma calm_repr c p : calm (to_repr_c c p) = true.
Proof.
  destruct p; try reflexivity.
  destruct kind, signed; cbn [to_repr_c]; try reflexivity; destruct (usize_is_size_t c); reflexivity.
Qed.

Lemma map_opt_in {A B} (f : A -> option B) l : forall l', map_opt f l = Some l' -> forall y, In y l' -> exists x, In x l /\ f x = Some y.
Proof.
  induction l as [|x l IH]; intros l' E y I; cbn in E; [injection E as <-; destruct I|].
  destruct (f x) as [z|] eqn:F; [|discriminate]. cbn in E. destruct (map_opt f l) as [zs|]; [|discriminate]. injection E as <-.
  destruct I as [<-|I]; [exists x; split; [left; reflexivity|exact F]|].
  destruct (IH zs eq_refl y I) as (u & J & G). exists u. split; [right; exact J|exact G].
Qed.
Lemma forallb_map_opt {A B} (f : A -> option B) (P : B -> bool) l l' : map_opt f l = Some l' ->
  (forall x y, In x l -> f x = Some y -> P y = true) -> forallb P l' = true.
Proof.
  intros E K. apply forallb_forall. intros y I. destruct (map_opt_in f l l' E y I) as (x & J & F). exact (K x y J F).
Qed.

Lemma qualify_tame k d d' : qualify k d = Some d' -> tame_decl d = true -> tame_decl d' = true.
Proof.
  destruct d as [q n gs ds ct dep]. cbn [qualify]. destruct k; [|intros E; injection E as <-; auto].
  destruct (String.eqb q ""); [|discriminate]. intro E; injection E as <-. rewrite !tame_decl_eq.
  intro A. apply andb_prop in A as [A A4]. apply andb_prop in A as [A A3]. apply andb_prop in A as [_ A2]. rewrite A2, A3, A4. reflexivity.
Qed.
Lemma qualify_flat k d d' : qualify k d = Some d' -> flat_decl d = true -> flat_decl d' = true.
Proof.
  destruct d as [q n gs ds ct dep]. cbn [qualify]. destruct k; [|intros E; injection E as <-; auto].
  destruct (String.eqb q ""); [|discriminate]. intro E; injection E as <-. auto.
Qed.
Lemma push_tame x d : tame_declarator x = true -> tame_decl d = true -> tame_decl (push_declarator x d) = true.
Proof.
  destruct d as [q n gs ds ct dep]. cbn [push_declarator]. rewrite !tame_decl_eq, forallb_app. cbn [forallb]. intros -> A.
  apply andb_prop in A as [A ->]. rewrite A. reflexivity.
Qed.

(** [nested] also serves for the element of an array written instead of a pointer. *)
Lemma build_tame c t : forall d k d', build_type c d t k = Some d' -> tame_ty t = true -> tame_decl d = true -> tame_decl d' = true.
Proof.
  induction t as [t k n r IH|p e gs ct IH|p|t e IH|r args n nr IHr IHa] using Ty_only_ind; intros d q d' E A D; cbn [build_type tame_ty] in E, A.
  - apply (IH _ _ _ E A). apply push_tame; [reflexivity|exact D].
  - destruct (qualify q d) as [[q1 n1 gs1 ds1 ct1 dep1]|] eqn:Q; [|discriminate]. cbn in E.
    pose proof (qualify_tame _ _ _ Q D) as D1.
    destruct (negb (String.eqb n1 "")); [discriminate|]. destruct (negb (is_nil gs1)); [discriminate|].
    match type of E with match ?m with _ => _ end = _ => destruct m as [as_|] eqn:M; [|discriminate] end. injection E as <-.
    apply andb_prop in A as [A1 A2]. rewrite tame_decl_eq in *. apply andb_prop in D1 as [D1 D4]. apply andb_prop in D1 as [D1 _].
    apply andb_prop in D1 as [D1 _]. rewrite D1, D4, (wordy_calm _ A1). cbn [andb]. rewrite andb_true_r.
    apply (forallb_map_opt _ _ _ _ M). intros x y I F. rewrite Forall_forall in IH. specialize (IH x I).
    pose proof (proj1 (forallb_forall _ _) A2 x I) as X. destruct x as [u|x]; cbn in *.
    + destruct (build_type c CDecl_new u false) as [a|] eqn:B; [|discriminate]. injection F as <-. cbn. exact (IH _ _ _ B X eq_refl).
    + injection F as <-. exact X.
  - destruct (qualify q d) as [[q1 n1 gs1 ds1 ct1 dep1]|] eqn:Q; [|discriminate]. cbn in E.
    pose proof (qualify_tame _ _ _ Q D) as D1. destruct (negb (String.eqb n1 "")); [discriminate|]. injection E as <-.
    rewrite tame_decl_eq in *. rewrite calm_repr. apply andb_prop in D1 as [D1 ->]. apply andb_prop in D1 as [D1 ->].
    apply andb_prop in D1 as [-> _]. reflexivity.
  - apply andb_prop in A as [A1 A2]. apply (IH _ _ _ E A1). apply push_tame; [exact A2|exact D].
  - apply andb_prop in A as [A1 A2].
    match type of E with match ?m with _ => _ end = _ => destruct m as [as_|] eqn:M; [|discriminate] end.
    apply (IHr _ _ _ E A1). apply push_tame; [|apply push_tame; [reflexivity|exact D]]. cbn [tame_declarator].
    apply (forallb_map_opt _ _ _ _ M). intros [nm u] y I F. rewrite Forall_forall in IHa. specialize (IHa _ I).
    pose proof (proj1 (forallb_forall _ _) A2 _ I) as X. cbn [fst snd] in *.
    destruct (build_type c CDecl_new u false) as [a|] eqn:B; [|discriminate]. injection F as <-. cbn [fst snd].
    apply andb_prop in X as [X1 X2]. rewrite (IHa _ _ _ B X2 eq_refl), andb_true_r. destruct nm as [nm|]; [|reflexivity]. exact (wordy_calm _ X1).
Qed.
Lemma build_flat c t : forall d k d', build_type c d t k = Some d' -> without_functions t = true -> flat_decl d = true -> flat_decl d' = true.
Proof.
  assert (PF : forall x d, match x with CdFunc _ _ _ => false | _ => true end = true -> flat_decl d = true -> flat_decl (push_declarator x d) = true).
  { intros x [q n gs ds ct dep]. cbn. rewrite forallb_app. cbn. intros X A. apply andb_prop in A as [-> ->]. rewrite X. reflexivity. }
  induction t as [t k n r IH|p e gs ct IH|p|t e IH|r args n nr IHr IHa] using Ty_only_ind; intros d q d' E A D; cbn [build_type without_functions] in E, A.
  - apply (IH _ _ _ E A). apply PF; [reflexivity|exact D].
  - destruct (qualify q d) as [[q1 n1 gs1 ds1 ct1 dep1]|] eqn:Q; [|discriminate]. cbn in E.
    pose proof (qualify_flat _ _ _ Q D) as D1.
    destruct (negb (String.eqb n1 "")); [discriminate|]. destruct (negb (is_nil gs1)); [discriminate|].
    match type of E with match ?m with _ => _ end = _ => destruct m as [as_|] eqn:M; [|discriminate] end. injection E as <-.
    cbn [flat_decl] in *. apply andb_prop in D1 as [_ ->]. rewrite andb_true_r.
    apply (forallb_map_opt _ _ _ _ M). intros x y I F. rewrite Forall_forall in IH. specialize (IH x I).
    pose proof (proj1 (forallb_forall _ _) A x I) as X. destruct x as [u|x]; cbn in *.
    + destruct (build_type c CDecl_new u false) as [a|] eqn:B; [|discriminate]. injection F as <-. cbn. exact (IH _ _ _ B X eq_refl).
    + injection F as <-. exact X.
  - destruct (qualify q d) as [[q1 n1 gs1 ds1 ct1 dep1]|] eqn:Q; [|discriminate]. cbn in E.
    pose proof (qualify_flat _ _ _ Q D) as D1. destruct (negb (String.eqb n1 "")); [discriminate|]. injection E as <-. exact D1.
  - apply (IH _ _ _ E A). apply PF; [reflexivity|exact D].
  - discriminate.
Qed.

Ltac case_if := match goal with |- context[if ?x then _ else _] => destruct x end.

Section Inline.
  Variables (holds : string -> bool) (c : Config).
  Let tabw := tab_width c.
  Let le := LineEndingStyle_as_str (line_endings c).
  Hypothesis LANG : language c <> Cython.
  Hypothesis LEC : line_endings c <> CR.
  Notation T := (T holds tabw le).
  Notation mid := P_Triples.mid.
  Notation eol := (P_Triples.eol holds le).

  Definition attributes_ok : bool :=
    opt calm (pt_non_null_attribute (pointer c)) && opt calm (pt_nullable_attribute (pointer c)) && opt calm (fn_no_return (function c)).
  Hypothesis ATTR : attributes_ok = true.

  (** A place where code can be written. *)
  Definition inline (X : list entry -> assertion) : Prop :=
    forall l g s g', effect holds Plain g s Plain g' -> T l (X g) (write s) l (X g').
  (** ... on several lines. *)
  Definition broken (X : list entry -> assertion) : Prop := forall l g, T l (X g) newline l (X g).
  Lemma inline_mid : inline mid.
  Proof. intros l g s g' E. apply T_text, E. Qed.
  Lemma broken_mid : broken mid.
  Proof. intros l g. apply T_forget. eapply T_post; [eapply T_pre; [apply T_newline|apply mid_eol, (LE c LEC)]|apply fresh_mid]. Qed.
  Lemma inline_dir t0 g0 : inline (fun _ => dir t0 g0).
  Proof. intros l g s g' E. exact (T_dir holds tabw le l t0 g0 g s g' E). Qed.

  Section Decl.
    Variable X : list entry -> assertion.
    Hypothesis IN : inline X.

    Lemma T_separated l g sep ps : T l (X g) sep l (X g) -> (forall p, In p ps -> T l (X g) p l (X g)) -> T l (X g) (separated sep ps) l (X g).
    Proof.
      intros Sep. induction ps as [|p ps IH]; intro K; [apply T_ret|].
      assert (KP : T l (X g) p l (X g)) by (apply K; left; reflexivity).
      destruct ps as [|q ps]; [exact KP|].
      change (separated sep (p :: q :: ps)) with (seq p (seq sep (separated sep (q :: ps)))).
      eapply T_seq; [exact KP|]. eapply T_seq; [exact Sep|]. apply IH. intros r I. apply K. right; exact I.
    Qed.
    Lemma T_args l g lay ps : broken X -> (forall p, In p ps -> T l (X g) p l (X g)) -> T l (X g) (write_args c lay ps) l (X g).
    Proof.
      intros BR K.
      assert (HH : T l (X g) (write_args_horizontal ps) l (X g)).
      { apply T_separated; [|exact K]. apply IN. eff. }
      assert (HV : T l (X g) (write_args_vertical ps) l (X g)).
      { apply T_indented. apply T_separated; [|exact K]. eapply T_seq; [apply IN; eff|apply BR]. }
      destruct lay; [exact HH|exact HV|]. eapply T_try; [exact HH|apply T_ret|exact HV].
    Qed.
    Lemma T_horizontal l g ps : (forall p, In p ps -> T l (X g) p l (X g)) ->
      T l (X g) (write_horizontal_source_list ps (Join ", ") (fun p => p)) l (X g).
    Proof.
      induction ps as [|p ps IH]; intro K; [apply T_ret|].
      assert (KP : T l (X g) p l (X g)) by (apply K; left; reflexivity).
      assert (KR : forall q, In q ps -> T l (X g) q l (X g)) by (intros q I; apply K; right; exact I).
      destruct ps as [|q ps].
      - cbn [write_horizontal_source_list]. eapply T_seq; [exact KP|apply T_ret].
      - change (write_horizontal_source_list (p :: q :: ps) (Join ", ") (fun x => x))
          with (seq p (seq (write ", ") (write_horizontal_source_list (q :: ps) (Join ", ") (fun x => x)))).
        eapply T_seq; [exact KP|]. eapply T_seq; [apply IN; eff|exact (IH KR)].
    Qed.

    (** *** Parentheses around pointers *)
    Fixpoint parens (last_was_pointer : bool) (ds : list CDeclarator) : nat :=
      match ds with
      | [] => 0
      | CdPtr _ _ _ :: r => parens true r
      | CdArray _ :: r => (if last_was_pointer then 1 else 0) + parens false r
      | CdFunc _ _ _ :: r => (if last_was_pointer then 1 else 0) + parens true r
      end.
    Definition rep (n : nat) (g : list entry) : list entry := (repeat (Br "(") n ++ g)%list.
    Lemma rep_add n m g : rep n (rep m g) = rep (n + m) g.
    Proof. unfold rep. rewrite repeat_app, app_assoc. reflexivity. Qed.
    Lemma T_pointer l g k n r : T l (X g) (write_pointer c k n r) l (X g).
    Proof.
      unfold attributes_ok in ATTR. apply andb_prop in ATTR as [A _]. apply andb_prop in A as [A1 A2].
      unfold write_pointer. eapply T_seq; [apply IN; destruct r; eff|].
      eapply T_seq; [destruct k; [apply IN; eff|apply T_ret]|].
      destruct (negb (Language_eqb (language c) Cython)); [|apply T_ret].
      destruct (negb n && negb r).
      - destruct (pt_non_null_attribute (pointer c)) as [a|]; [|apply T_ret]. cbn [opt] in A1. apply IN. eff.
      - destruct n; [|apply T_ret]. destruct (pt_nullable_attribute (pointer c)) as [a|]; [|apply T_ret]. cbn [opt] in A2. apply IN. eff.
    Qed.
    Definition head_ptr (ds : list CDeclarator) : bool := match ds with x :: _ => declarator_is_ptr x | [] => false end.
    Lemma T_left l ds : forall pre m, (forall g, T l (X g) (write_left c pre) l (X (rep m g))) ->
      forall g, T l (X g) (write_left c (rev ds ++ pre)) l (X (rep (parens (head_ptr pre) ds + m) g)).
    Proof.
      induction ds as [|d ds IH]; intros pre m K g; [exact (K g)|].
      cbn [rev]. rewrite <- app_assoc. cbn [app].
      set (p := match d with CdPtr _ _ _ => 0 | _ => if head_ptr pre then 1 else 0 end).
      assert (N : forall g, T l (X g) (write_left c (d :: pre)) l (X (rep (p + m) g))).
      { intro g'. cbn [write_left]. rewrite Nat.add_comm, <- rep_add. eapply T_seq; [|apply K].
        fold (head_ptr pre). destruct d as [k n r|len|args lay nv]; cbn [write_left1].
        - apply T_pointer.
        - unfold p. destruct (head_ptr pre); [apply IN; eff|apply T_ret].
        - unfold p. destruct (head_ptr pre); [apply IN; eff|apply T_ret]. }
      specialize (IH (d :: pre) (p + m) N g). cbn [head_ptr] in IH.
      assert (E : parens (declarator_is_ptr d) ds + (p + m) = parens (head_ptr pre) (d :: ds) + m).
      { unfold p. destruct d; cbn [parens declarator_is_ptr]; lia. }
      rewrite <- E. exact IH.
    Qed.
    Lemma T_left_all l ds g : T l (X g) (write_left c (rev ds)) l (X (rep (parens false ds) g)).
    Proof.
      pose proof (T_left l ds [] 0 (fun g => T_ret _ _ _ l (X g)) g) as K. rewrite app_nil_r, Nat.add_0_r in K. exact K.
    Qed.

    Lemma T_decl : forall d x l g, tame_decl d = true -> (broken X \/ flat_decl d = true) -> opt calm x = true ->
      T l (X g) (CDecl_write c d x) l (X g).
    Proof.
      fix IH 1. intros [q n gs ds ct dep] x l g D FL Cx. rewrite CDecl_write_eq. rewrite tame_decl_eq in D.
      apply andb_prop in D as [D Dd]. apply andb_prop in D as [D Dg]. apply andb_prop in D as [Dq Dn].
      assert (Hg : forall p, In p (map (fun g => match g with CType a => CDecl_write c a None | CConst s => write s end) gs) -> T l (X g) p l (X g)).
      { assert (FG : broken X \/ forallb (fun g => match g with CType a => flat_decl a | CConst _ => true end) gs = true).
        { destruct FL as [BR|FL]; [left; exact BR|right]. cbn [flat_decl] in FL. apply andb_prop in FL as [FL _]. exact FL. }
        clear FL Dd Dn Dq Cx.
        induction gs as [|a gs IHgs]; intros p I; [destruct I|]. cbn [forallb] in Dg. apply andb_prop in Dg as [D1 D2].
        assert (F1 : broken X \/ match a with CType a => flat_decl a | CConst _ => true end = true).
        { destruct FG as [BR|FG]; [left; exact BR|right]. cbn [forallb] in FG. apply andb_prop in FG as [FG _]. exact FG. }
        assert (F2 : broken X \/ forallb (fun g => match g with CType a => flat_decl a | CConst _ => true end) gs = true).
        { destruct FG as [BR|FG]; [left; exact BR|right]. cbn [forallb] in FG. apply andb_prop in FG as [_ FG]. exact FG. }
        destruct I as [<-|I]; [|exact (IHgs D2 F2 p I)]. destruct a as [a|s]; cbn [tame_carg] in D1.
        - apply (IH a None l g D1 F1 eq_refl).
        - apply IN. eff. }
      assert (Hr : forall b g, T l (X (rep (parens b ds) g)) (write_right c ds b) l (X g)).
      { assert (FD : broken X \/ forallb (fun x => match x with CdFunc _ _ _ => false | _ => true end) ds = true).
        { destruct FL as [BR|FL]; [left; exact BR|right]. cbn [flat_decl] in FL. apply andb_prop in FL as [_ FL]. exact FL. }
        clear FL Hg Dg Dn Dq Cx g.
        induction ds as [|d ds IHds]; intros b g; [apply T_ret|]. cbn [forallb] in Dd. apply andb_prop in Dd as [D1 D2].
        assert (F2 : broken X \/ forallb (fun x => match x with CdFunc _ _ _ => false | _ => true end) ds = true).
        { destruct FD as [BR|FD]; [left; exact BR|right]. cbn [forallb] in FD. apply andb_prop in FD as [_ FD]. exact FD. }
        specialize (IHds D2 F2).
        assert (CL : forall k, T l (X (rep ((if b then 1 else 0) + k) g)) (if b then write ")" else PRet) l (X (rep k g))).
        { intro k. destruct b; [|apply T_ret]. apply IN. change (rep (1 + k) g) with (Br "(" :: rep k g). eff. }
        destruct d as [k m r|len|args lay nv]; cbn [write_right parens tame_declarator] in *.
        - apply IHds.
        - eapply T_seq; [apply CL|]. eapply T_seq; [apply IN; eff|]. apply IHds.
        - destruct FD as [BR|FD]; [|discriminate].
          eapply T_seq; [apply CL|]. eapply T_seq; [apply IN; eff|].
          eapply T_seq; [destruct (is_nil args && _); [apply IN; eff|apply T_ret]|].
          eapply T_seq.
          { apply T_args; [exact BR|]. clear - IH D1 BR IN.
            induction args as [|[y a] args IHa]; intros p I; [destruct I|]. cbn [forallb fst snd] in D1.
            apply andb_prop in D1 as [A1 A2]. apply andb_prop in A1 as [A1 A3].
            destruct I as [<-|I]; [|exact (IHa A2 p I)]. cbn [fst snd]. apply (IH a y); [exact A3|left; exact BR|exact A1]. }
          eapply T_seq; [apply IN; eff|].
          eapply T_seq; [|apply IHds].
          destruct (nv && negb (Language_eqb (language c) Cython)); [|apply T_ret].
          unfold attributes_ok in ATTR. apply andb_prop in ATTR as [_ A].
          destruct (fn_no_return (function c)) as [a|]; [|apply T_ret]. cbn [opt] in A. apply IN. eff. }
      eapply T_seq; [destruct (negb (q =? "")); [apply IN; eff|apply T_ret]|].
      eapply T_seq; [destruct (negb (Language_eqb (language c) Cython)); [destruct ct as [[]|]; [apply IN; eff..|apply T_ret]|apply T_ret]|].
      eapply T_seq; [apply IN; eff|].
      eapply T_seq.
      { destruct (negb (is_nil gs)); [|apply T_ret]. eapply T_seq; [apply IN; eff|].
        eapply T_seq; [apply T_horizontal; exact Hg|apply IN; eff]. }
      eapply T_seq; [destruct x; [apply IN; eff|apply T_ret]|].
      eapply T_seq; [apply T_left_all|].
      eapply T_seq; [|apply Hr].
      destruct x as [x|]; [|apply T_ret]. cbn [opt] in Cx. apply IN. eff.
    Qed.

    Lemma T_type l g t p : write_type c t = Some p -> tame_ty t = true -> (broken X \/ without_functions t = true) -> T l (X g) p l (X g).
    Proof.
      unfold write_type, from_type. intros E A FL. destruct (build_type c CDecl_new t false) as [d|] eqn:B; [|discriminate]. injection E as <-.
      apply T_decl; [exact (build_tame _ _ _ _ _ B A eq_refl)| |reflexivity].
      destruct FL as [BR|FL]; [left; exact BR|right]. exact (build_flat _ _ _ _ _ B FL eq_refl).
    Qed.
    Lemma T_field l g t n p : write_field c t n = Some p -> tame_ty t = true -> calm n = true -> broken X -> T l (X g) p l (X g).
    Proof.
      unfold write_field, from_type. intros E A N BR. destruct (build_type c CDecl_new t false) as [d|] eqn:B; [|discriminate]. injection E as <-.
      apply T_decl; [exact (build_tame _ _ _ _ _ B A eq_refl)|left; exact BR|exact N].
    Qed.
    Lemma T_func l g f lay p : write_func c f lay = Some p -> broken X ->
      wordy (f_path f) = true -> tame_ty (f_ret f) = true ->
      forallb (fun a => opt wordy (a_name a) && tame_ty (a_ty a) && opt calm (a_array_length a)) (f_args f) = true ->
      T l (X g) p l (X g).
    Proof.
      unfold write_func, from_func. intros E BR W R A.
      match type of E with match match ?m with _ => _ end with _ => _ end = _ => destruct m as [as_|] eqn:M; [|discriminate] end.
      cbn in E. match type of E with match ?m with _ => _ end = _ => destruct m as [d|] eqn:B; [|discriminate] end. injection E as <-.
      apply T_decl; [|left; exact BR|exact (wordy_calm _ W)]. apply (build_tame _ _ _ _ _ B R). cbn.
      rewrite andb_true_r. apply (forallb_map_opt _ _ _ _ M). intros a y I F.
      pose proof (proj1 (forallb_forall _ _) A a I) as Y. apply andb_prop in Y as [Y Y3]. apply andb_prop in Y as [Y1 Y2].
      destruct (from_func_arg c (a_ty a) (a_array_length a)) as [x|] eqn:FA; [|discriminate]. injection F as <-. cbn [fst snd].
      apply andb_true_intro. split; [destruct (a_name a) as [nm|]; [exact (wordy_calm _ Y1)|reflexivity]|].
      unfold from_func_arg in FA. destruct (a_array_length a) as [len|].
      - destruct (a_ty a) as [u k nl_ r| | | |]; try discriminate. apply (build_tame _ _ _ _ _ FA); [|reflexivity].
        cbn [tame_ty opt] in *. rewrite Y2. exact Y3.
      - exact (build_tame _ _ _ _ _ FA Y2 eq_refl).
    Qed.
  End Decl.
End Inline.

(** ** Literals *)
Local Opaque gd.
Lemma visited_self l : In l (Literal_visited l).
Proof. destruct l; left; reflexivity. Qed.
Lemma visited_incl l x : In x (Literal_visited l) -> List.incl (Literal_visited x) (Literal_visited l).
Proof.
  revert l. apply (Literal_ind' (fun l => In x (Literal_visited l) -> List.incl (Literal_visited x) (Literal_visited l))).
  - intros s [<-|[]]. apply List.incl_refl.
  - intros a n [<-|[]]. apply List.incl_refl.
  - intros op v IH [<-|I]; [apply List.incl_refl|]. apply List.incl_tl, IH, I.
  - intros a op v IHa IHv [<-|I]; [apply List.incl_refl|]. apply List.incl_tl. apply in_app_or in I as [I|I]; [apply List.incl_appl, IHa, I|apply List.incl_appr, IHv, I].
  - intros v f IH [<-|I]; [apply List.incl_refl|]. apply List.incl_tl, IH, I.
  - intros p e fs F [<-|I]; [apply List.incl_refl|]. apply List.incl_tl. apply in_concat in I as (y & J & I). apply in_map_iff in J as (f & <- & J).
    rewrite Forall_forall in F. intros z Z. apply in_concat. eexists. split; [apply in_map_iff; exists f; split; [reflexivity|exact J]|]. exact (F f J I z Z).
  - intros t v IH [<-|I]; [apply List.incl_refl|]. apply List.incl_tl, IH, I.
  - intros l F [<-|I]; [apply List.incl_refl|]. apply List.incl_tl. apply in_concat in I as (y & J & I). apply in_map_iff in J as (f & <- & J).
    rewrite Forall_forall in F. intros z Z. apply in_concat. eexists. split; [apply in_map_iff; exists f; split; [reflexivity|exact J]|]. exact (F f J I z Z).
Qed.
Lemma one_line_visited b l x : on_one_line b l = true -> In x (Literal_visited l) -> on_one_line b x = true.
Proof.
  unfold on_one_line. intros A I. apply forallb_forall. intros y J. exact (proj1 (forallb_forall _ _) A y (visited_incl l x I y J)).
Qed.
Lemma done_inj {A} (x y : A) : Done x = Done y -> x = y.
Proof. intro E; injection E as E; exact E. Qed.

Section Literals.
  Context {H : Heck}.
  Variables (holds : string -> bool) (fuel : nat) (b : Bindings).
  Let c := b_config b.
  Let tabw := tab_width c.
  Let le := LineEndingStyle_as_str (line_endings c).
  Hypothesis LANG : language c <> Cython.
  Hypothesis LEC : line_endings c <> CR.
  Hypothesis ATTR : attributes_ok c = true.
  Hypothesis MACROS : macros_ok c = true.
  Hypothesis ENUMS : tame_enums b.
  Notation T := (T holds tabw le).
  Notation mid := P_Triples.mid.
  Notation eol := (P_Triples.eol holds le).
  Notation inline := (inline holds c).

  Lemma known_wordy p n k : to_known_assoc_constant p n = Some k -> wordy k = true.
  Proof.
    unfold to_known_assoc_constant. destruct (String.eqb n "MAX") eqn:E1; [|destruct (String.eqb n "MIN") eqn:E2; [|discriminate]]; cbn [negb andb];
      [apply String.eqb_eq in E1; subst n|apply String.eqb_eq in E2; subst n];
      (destruct (PrimitiveType_maybe p) as [[]|]; try discriminate; destruct kind, signed; try discriminate; intro Z; injection Z as <-; reflexivity).
  Qed.
  Lemma reference_wordy p n k : enum_variant_reference b p n = Some k -> wordy k = true.
  Proof.
    unfold enum_variant_reference. pose proof (ENUMS p) as E. revert E. generalize (for_items (b_enum_map b) p). intros es E.
    assert (K : forall o, (forall k, o = Some k -> wordy k = true) -> forall k,
      fold_left (fun result e => match result with
        | Some _ => result
        | None => match find (fun v => String.eqb (v_name v) n) (e_variants e) with
                  | Some v => Some (variant_reference (b_config b) e v) | None => None end end) es o = Some k -> wordy k = true).
    { revert E. induction es as [|e es IH]; intros E o O k' Z; [exact (O _ Z)|]. cbn [fold_left] in Z.
      refine (IH (fun x I => E x (or_intror I)) _ _ _ Z). intros k1. destruct o as [x|]; [apply O|].
      destruct (find (fun v => String.eqb (v_name v) n) (e_variants e)) as [v|] eqn:F; [|discriminate]. intro Y; injection Y as <-.
      destruct (E e (or_introl eq_refl)) as [W1 W2]. pose proof (proj1 (forallb_forall _ _) W2 v (proj1 (find_some _ _ F))) as W3. cbn in W3.
      unfold variant_reference. destruct (Language_eqb _ _ && _); [|exact W3]. rewrite !wordy_app, W1, W3. reflexivity. }
    apply K. discriminate.
  Qed.

  Section At_.
    Variable X : list entry -> assertion.
    Hypothesis IN : inline X.

    Lemma T_path l g a n : wordy n = true -> opt (fun x => wordy (snd x)) a = true -> T l (X g) (write_path b (path_separator b) a n) l (X g).
    Proof.
      intros W A. unfold write_path. destruct a as [[p e]|]; [|apply IN; eff]. cbn [opt snd] in A.
      destruct (to_known_assoc_constant p n) as [k|] eqn:K; [apply known_wordy in K; apply IN; eff|].
      destruct (enum_variant_reference b p n) as [v|] eqn:V; [apply reference_wordy in V; apply IN; eff|].
      eapply T_seq; [|apply IN; eff]. apply IN. unfold path_separator.
      destruct (Language_eqb _ _); [eff|]. destruct (st_associated_constants_in_body _); eff.
    Qed.

    Definition value_ok (v : outcome prog) : Prop := forall p, v = Done p -> forall l g, T l (X g) p l (X g).
    Lemma T_fields_line (fields : list (string * (outcome prog * option Cfg))) :
      (forall key v k, lookup key fields = Some (v, k) -> wordy key = true /\ value_ok v) ->
      forall order i n p, clike_fields b false fields order i n = Done p -> forall l g, T l (X g) p l (X g).
    Proof.
      intros F. induction order as [|key r IH]; intros i n p E l g; cbn [clike_fields] in E; [apply done_inj in E; subst p; apply T_ret|].
      destruct (lookup key fields) as [[v k]|] eqn:L; [|exact (IH _ _ _ E l g)].
      destruct (F _ _ _ L) as [W V]. destruct v as [v| |]; try discriminate. cbv beta iota zeta in E.
      destruct (clike_fields b false fields r (S i) n) as [rest| |] eqn:R; try discriminate. cbv beta iota zeta in E. apply done_inj in E; subst p.
      eapply T_seq; [|exact (IH _ _ _ R l g)].
      eapply T_seq; [case_if; [apply IN; eff|apply T_ret]|].
      eapply T_seq; [|exact (V v eq_refl l g)].
      destruct (Language_eqb (language (b_config b)) Cxx); apply IN; eff.
    Qed.
  End At_.

  Lemma T_fields_lines (fields : list (string * (outcome prog * option Cfg))) :
    (forall key v k, lookup key fields = Some (v, k) -> wordy key = true /\ value_ok mid v) ->
    forall order i n p, clike_fields b true fields order i n = Done p -> forall l g, T l (eol g) p l (eol g).
  Proof.
    intros F. induction order as [|key r IH]; intros i n p E l g; cbn [clike_fields] in E; [apply done_inj in E; subst p; apply T_ret|].
    destruct (lookup key fields) as [[v k]|] eqn:L; [|exact (IH _ _ _ E l g)].
    destruct (F _ _ _ L) as [W V]. destruct v as [v| |]; try discriminate. cbv beta iota zeta in E.
    destruct (clike_fields b true fields r (S i) n) as [rest| |] eqn:R; try discriminate. cbv beta iota zeta in E. apply done_inj in E; subst p.
    eapply T_seq; [|exact (IH _ _ _ R l g)].
    eapply T_seq; [apply T_forget, T_newline|].
    eapply T_seq; [eapply T_post; [apply (T_before holds c LANG LEC); apply (guard_keepable c LANG MACROS)|apply fresh_mid]|].
    eapply T_seq; [apply T_text; eff|].
    eapply T_seq; [apply (V v eq_refl)|].
    eapply T_seq; [|apply (T_after holds c LANG LEC)].
    destruct (Nat.eqb (i + 1) n).
    - eapply T_post; [apply T_ret|apply mid_eol, (LE c LEC)].
    - eapply T_post; [apply T_text; eff|apply mid_eol, (LE c LEC)].
  Qed.

  Lemma T_literal (X : list entry -> assertion) (IN : inline X) lit :
    tame_literal lit = true -> (X = mid \/ on_one_line b lit = true) -> value_ok X (clike_write_literal fuel b lit).
  Proof.
    revert lit. apply (Literal_ind' (fun lit => tame_literal lit = true -> (X = mid \/ on_one_line b lit = true) -> value_ok X (clike_write_literal fuel b lit))).
    - intros s A _ p E l g. apply done_inj in E; subst p. cbn [tame_literal] in A. apply IN. eff.
    - intros a n A _ p E l g. apply done_inj in E; subst p. cbn [tame_literal] in A. apply andb_prop in A as [A1 A2]. apply T_path; assumption.
    - intros op v IH A O p E l g. cbn [tame_literal clike_write_literal] in A, E. apply andb_prop in A as [A1 A2].
      destruct (clike_write_literal fuel b v) as [q| |] eqn:Q; try discriminate. cbv beta iota zeta in E. apply done_inj in E; subst p.
      assert (O' : X = mid \/ on_one_line b v = true).
      { destruct O as [O|O]; [left; exact O|right]. apply (one_line_visited b _ v O). right. apply visited_self. }
      eapply T_seq; [apply IN; eff|exact (IH A2 O' q eq_refl l g)].
    - intros x op y IHx IHy A O p E l g. cbn [tame_literal clike_write_literal] in A, E. apply andb_prop in A as [A A3]. apply andb_prop in A as [A1 A2].
      destruct (clike_write_literal fuel b x) as [q| |] eqn:Q; try discriminate. cbv beta iota zeta in E.
      destruct (clike_write_literal fuel b y) as [q'| |] eqn:Q'; try discriminate. cbv beta iota zeta in E. apply done_inj in E; subst p.
      assert (Ox : X = mid \/ on_one_line b x = true).
      { destruct O as [O|O]; [left; exact O|right]. apply (one_line_visited b _ x O). right. apply in_or_app. left. apply visited_self. }
      assert (Oy : X = mid \/ on_one_line b y = true).
      { destruct O as [O|O]; [left; exact O|right]. apply (one_line_visited b _ y O). right. apply in_or_app. right. apply visited_self. }
      eapply T_seq; [apply IN; eff|]. eapply T_seq; [apply (IHx A1 Ox q eq_refl)|].
      eapply T_seq; [apply IN; apply effect_calm; exact A2|]. eapply T_seq; [apply (IHy A3 Oy q' eq_refl)|]. apply IN. eff.
    - intros v f IH A O p E l g. cbn [tame_literal clike_write_literal] in A, E. apply andb_prop in A as [A1 A2].
      destruct (clike_write_literal fuel b v) as [q| |] eqn:Q; try discriminate. cbv beta iota zeta in E. apply done_inj in E; subst p.
      assert (O' : X = mid \/ on_one_line b v = true).
      { destruct O as [O|O]; [left; exact O|right]. apply (one_line_visited b _ v O). right. apply visited_self. }
      eapply T_seq; [apply IN; eff|]. eapply T_seq; [apply (IH A1 O' q eq_refl)|]. apply IN. eff.
    - intros path e fs F A O p E l g. cbn [tame_literal clike_write_literal] in A, E. apply andb_prop in A as [A1 A2].
      destruct (field_order fuel b path) as [order| |]; try discriminate. cbv beta iota zeta in E.
      set (values := map (fun f => (fst f, (clike_write_literal fuel b (fst (snd f)), snd (snd f)))) fs) in E.
      destruct (clike_fields b (literal_is_constexpr b (LStruct path e fs)) values order 0 (length order)) as [q| |] eqn:Q; try discriminate.
      cbv beta iota zeta in E. apply done_inj in E; subst p.
      assert (V : forall key v k, lookup key values = Some (v, k) -> wordy key = true /\ value_ok X v).
      { intros key v k L. apply lookup_In in L. apply in_map_iff in L as ((n & lit & cfg) & L & I). cbn in L. injection L as <- <- <-.
        pose proof (proj1 (forallb_forall _ _) A2 _ I) as Y. cbn [fst snd] in Y. apply andb_prop in Y as [Y1 Y2]. split; [exact Y1|].
        rewrite Forall_forall in F. apply (F _ I Y2). cbn [fst snd].
        destruct O as [O|O]; [left; exact O|right]. apply (one_line_visited b _ lit O). right. apply in_concat.
        eexists. split; [apply in_map_iff; exists (n, (lit, cfg)); split; [reflexivity|exact I]|]. apply visited_self. }
      eapply T_seq; [apply IN; destruct (Language_eqb _ _); eff|]. eapply T_seq; [apply IN; eff|].
      destruct (literal_is_constexpr b (LStruct path e fs)) eqn:K.
      + destruct O as [->|O].
        * eapply T_seq; [apply T_push_tab|].
          eapply T_seq; [eapply T_pre; [apply (T_fields_lines values V _ _ _ _ Q)|apply mid_eol, (LE c LEC)]|].
          change (seq (seq pop newline) (write "}")) with (seq pop (seq newline (write "}"))).
          eapply T_seq; [apply T_pop|]. eapply T_seq; [apply T_forget; eapply T_post; [apply T_newline|apply fresh_mid]|]. apply T_text. eff.
        * exfalso. pose proof (proj1 (forallb_forall _ _) O (LStruct path e fs) (visited_self _)) as Z. cbv beta iota in Z.
          rewrite K in Z. discriminate.
      + eapply T_seq; [apply IN; eff|]. eapply T_seq; [apply (T_fields_line X IN values V _ _ _ _ Q)|].
        eapply T_seq; [apply IN; eff|]. apply IN. eff.
    - intros t v IH A O p E l g. cbn [tame_literal clike_write_literal] in A, E. apply andb_prop in A as [A1 A2].
      destruct (write_type (b_config b) t) as [tp|] eqn:TP; try discriminate. cbv beta iota zeta in E.
      destruct (clike_write_literal fuel b v) as [q| |] eqn:Q; try discriminate. cbv beta iota zeta in E. apply done_inj in E; subst p.
      assert (O' : X = mid \/ on_one_line b v = true).
      { destruct O as [O|O]; [left; exact O|right]. apply (one_line_visited b _ v O). right. apply visited_self. }
      eapply T_seq; [apply IN; eff|]. eapply T_seq; [apply (T_type holds c ATTR X IN _ _ _ _ TP A1)|].
      { destruct O as [->|O]; [left; apply (broken_mid holds c LEC)|right].
        exact (proj1 (forallb_forall _ _) O (LCast t v) (visited_self _)). }
      eapply T_seq; [apply IN; eff|]. apply (IH A2 O' q eq_refl).
    - intros items F A O p E l g. cbn [tame_literal clike_write_literal] in A, E.
      destruct (array_items (clike_write_literal fuel b) items) as [q| |] eqn:Q; try discriminate. cbv beta iota zeta in E. apply done_inj in E; subst p.
      eapply T_seq; [apply IN; eff|]. eapply T_seq with (Q := X (Br "{" :: g)); [|apply IN; eff].
      assert (F' : forall x, In x items -> value_ok X (clike_write_literal fuel b x)).
      { intros x I. rewrite Forall_forall in F. apply (F x I (proj1 (forallb_forall _ _) A x I)).
        destruct O as [O|O]; [left; exact O|right]. apply (one_line_visited b _ x O). right. apply in_concat.
        eexists. split; [apply in_map_iff; exists x; split; [reflexivity|exact I]|]. apply visited_self. }
      clear - IN F' Q. revert q Q. induction items as [|x r IH]; intros q Q; cbn [array_items] in Q; [apply done_inj in Q; subst q; apply T_ret|].
      destruct (clike_write_literal fuel b x) as [px| |] eqn:PX; try discriminate. cbv beta iota in Q.
      fold (array_items (clike_write_literal fuel b)) in Q.
      destruct (array_items (clike_write_literal fuel b) r) as [pr| |] eqn:PR; try discriminate. cbv beta iota in Q. apply done_inj in Q; subst q.
      eapply T_seq; [apply (F' x (or_introl eq_refl) px PX)|]. eapply T_seq; [apply IN; eff|].
      apply IH; [intros y I; apply F'; right; exact I|reflexivity].
  Qed.

  Lemma write_literal_clike lit : write_literal fuel b lit = clike_write_literal fuel b lit.
  Proof. unfold write_literal. fold c. destruct (language c); [reflexivity|reflexivity|contradiction]. Qed.

  Lemma tame_unwrap v : forall v', unwrap_transparent b v = Some v' -> tame_literal v = true -> tame_literal v' = true /\ List.incl (Literal_visited v') (Literal_visited v).
  Proof.
    revert v. apply (Literal_ind' (fun v => forall v', unwrap_transparent b v = Some v' -> tame_literal v = true ->
      tame_literal v' = true /\ List.incl (Literal_visited v') (Literal_visited v))); try (intros; cbn [unwrap_transparent] in *;
      match goal with E : Some _ = Some _ |- _ => injection E as <- end; split; [assumption|apply List.incl_refl]).
    intros p e fs F v' E A. cbn [unwrap_transparent] in E. destruct (struct_is_transparent b p).
    - destruct fs as [|[n [v k]] fs]; [discriminate|]. inversion F as [|? ? F1 _]; subst. cbn [fst snd] in F1.
      cbn [tame_literal forallb fst snd] in A. apply andb_prop in A as [_ A]. apply andb_prop in A as [A _]. apply andb_prop in A as [_ A].
      destruct (F1 v' E A) as [A' I]. split; [exact A'|]. intros x J. cbn [Literal_visited map concat fst snd]. right. apply in_or_app. left. exact (I x J).
    - injection E as <-. split; [exact A|apply List.incl_refl].
  Qed.

  (** *** Constants *)
  Lemma T_constant k s : tame_constant b s k = true -> forall l g, OT holds tabw le l (fresh g) (Constant_write fuel b k s) l (eol g).
  Proof.
    intros A l g p E. unfold Constant_write in E. cbv beta iota zeta delta [of_option] in E.
    unfold tame_constant in A. apply andb_prop in A as [A A6]. apply andb_prop in A as [A A5]. apply andb_prop in A as [A A4].
    apply andb_prop in A as [A A3]. apply andb_prop in A as [A1 A2].
    destruct (match s with Some st => negb (is_nil (s_generic_params st)) | None => false end);
      [apply done_inj in E; subst p; eapply T_post; [apply T_ret|apply fresh_eol, (LE c LEC)]|].
    destruct (is_valid fuel b (c_value k)) as [valid| |]; try discriminate. cbv beta iota zeta delta [of_option] in E.
    destruct (negb valid); [apply done_inj in E; subst p; eapply T_post; [apply T_ret|apply fresh_eol, (LE c LEC)]|].
    destruct (constant_name b k s) as [name|]; try discriminate. cbn [of_option] in E; cbv beta iota zeta delta [of_option] in E. cbn [opt] in A1.
    destruct (unwrap_transparent b (c_value k)) as [value|] eqn:U; try discriminate. cbv beta iota zeta delta [of_option] in E.
    destruct (tame_unwrap _ _ U A4) as [AV IV].
    rewrite write_literal_clike in E.
    destruct (clike_write_literal fuel b value) as [txt| |] eqn:TX; try discriminate. cbv beta iota zeta delta [of_option] in E.
    fold c in E.
    change (Language_eqb (language c) M_Config.C || Language_eqb (language c) Cxx
       && negb (co_allow_static_const (constant c) || co_allow_constexpr (constant c) && can_be_constexpr (c_value k)))
      with (a_macro b k) in E.
    destruct (a_macro b k) eqn:MA.
    - cbv beta iota zeta delta [of_option] in E. apply done_inj in E; subst p.
      assert (OL : on_one_line b value = true).
      { cbn in A6. unfold on_one_line in *. apply forallb_forall. intros y J. exact (proj1 (forallb_forall _ _) A6 y (IV y J)). }
      eapply T_seq; [apply (T_before holds c LANG LEC); apply (guard_keepable c LANG MACROS)|].
      eapply T_seq; [apply (T_docs holds c LANG LEC); exact A5|].
      eapply T_seq; [|apply (T_after holds c LANG LEC)].
      set (g' := gd holds c (to_condition_opt (defines c) (c_cfg k)) g).
      eapply T_seq with (Q := dir "#define " g').
      + apply T_directive. assert (EF : effect holds Plain g' (name ++ " ") Plain g') by eff.
        destruct EF as [_ D]. destruct (D "#define " (conds_of g') (open_of g')) as (t' & R).
        eexists. split; [|exists t'; reflexivity].
        change ("#define " ++ name ++ " ") with ("#define " ++ (name ++ " ")). rewrite read_app.
        change (read holds (here BlankLine Plain g') "#define ") with (Some (At (DirectiveLine "#define ") Plain (conds_of g') (open_of g'))).
        exact R.
      + eapply T_post; [apply (T_literal (fun _ => dir "#define " g') (inline_dir holds c _ _) value AV (or_intror OL) txt TX l g)|].
        intros x (t' & ->). apply (eol_neutral _ _ (LE c LEC)); [left; reflexivity|reflexivity].
    - destruct (write_field c (c_ty k) name) as [decl|] eqn:WF; try discriminate. cbv beta iota zeta delta [of_option] in E. rewrite (not_cython c LANG) in E. apply done_inj in E; subst p.
      eapply T_seq; [apply (T_before holds c LANG LEC); apply (guard_keepable c LANG MACROS)|].
      eapply T_seq; [eapply T_post; [apply (T_docs holds c LANG LEC); exact A5|apply fresh_mid]|].
      eapply T_seq; [|apply (T_after holds c LANG LEC)].
      eapply T_post; [|apply mid_eol, (LE c LEC)].
      eapply T_seq; [destruct (co_allow_constexpr _ && _); [apply T_text; eff|apply T_ret]|].
      eapply T_seq; [destruct (co_allow_static_const _); [apply T_text; destruct (constant_in_body _ _); eff|apply T_ret]|].
      eapply T_seq; [destruct (is_const_ptr _); [apply T_ret|apply T_text; eff]|].
      eapply T_seq; [apply (T_field holds c ATTR mid (inline_mid holds c) _ _ _ _ _ WF A3 (wordy_calm _ A1) (broken_mid holds c LEC))|].
      eapply T_seq; [apply T_text; eff|].
      eapply T_seq; [apply (T_literal mid (inline_mid holds c) value AV (or_introl eq_refl) txt TX)|apply T_text; eff].
  Qed.
  Lemma T_constant_declaration k : wordy (c_export_name k) = true -> tame_ty (c_ty k) = true -> 
    forall l g, OT holds tabw le l (fresh g) (of_option (Constant_write_declaration b k)) l (eol g).
  Proof.
    intros W A l g p E. unfold Constant_write_declaration in E. fold c in E.
    destruct (write_field c (c_ty k) (c_export_name k)) as [f|] eqn:WF; [|discriminate]. cbn [of_option] in E. apply done_inj in E; subst p.
    eapply T_seq; [eapply T_post; [apply (T_before holds c LANG LEC); apply (guard_keepable c LANG MACROS)|apply fresh_mid]|].
    eapply T_seq; [apply T_text; destruct (is_const_ptr (c_ty k)); eff|].
    eapply T_seq; [apply (T_field holds c ATTR mid (inline_mid holds c) _ _ _ _ _ WF A (wordy_calm _ W) (broken_mid holds c LEC))|].
    eapply T_seq; [eapply T_post; [apply T_text; eff|apply mid_eol, (LE c LEC)]|]. apply (T_after holds c LANG LEC).
  Qed.
End Literals.
