(** Every part of the written bindings closes the indentation it opens. *)
Require Import Coq.Strings.String Coq.Strings.Ascii Coq.Lists.List Coq.Bool.Bool Coq.Arith.Arith Lia.
From Verif Require Import Base P_Base M_Config M_Writer S_Writer P_Writer M_Cfg P_Cfg M_Type M_Ir M_Item M_Library M_Cdecl P_DeclWritten P_Deps M_Bindings
  M_Docs M_Literal M_Syn M_Backend.
Import ListNotations.
Open Scope string_scope.
Local Open Scope prog_scope.

Definition OB (d : nat) (o : outcome prog) (e : nat) : Prop := forall p, o = Done p -> brackets d p e.
Lemma OB_done d p e : brackets d p e -> OB d (Done p) e.
Proof. intros A q E. injection E as <-. exact A. Qed.
Lemma OB_wb d p : well_bracketed p -> OB d (Done p) d.
Proof. intro A. apply OB_done, wb_at, A. Qed.
Lemma OB_seq d p e q f : OB d p e -> OB e q f -> OB d (p >> q) f.
Proof.
  intros A B x E. unfold then_ in E. destruct p as [p| |]; try discriminate. destruct q as [q| |]; try discriminate.
  injection E as <-. exact (brackets_seq _ _ _ _ _ (A p eq_refl) (B q eq_refl)).
Qed.
Lemma OB_bind {A} d (o : outcome A) f e : (forall x, o = Done x -> OB d (f x) e) -> OB d (do x := o in f x) e.
Proof. intros K p E. destruct o as [x| |]; try discriminate. exact (K x eq_refl p E). Qed.
Lemma OB_nothing d : OB d nothing d. Proof. apply OB_wb. reflexivity. Qed.
Lemma OB_text d s : OB d (text s) d. Proof. apply OB_wb. reflexivity. Qed.
Lemma OB_line d : OB d line d. Proof. apply OB_wb. reflexivity. Qed.
Lemma OB_start d : OB d (Done newline_if_not_start) d. Proof. apply OB_wb. reflexivity. Qed.
Lemma OB_raw d s : OB d (raw_block s) d. Proof. apply OB_wb. reflexivity. Qed.
Lemma OB_panic d e : OB d Panic e. Proof. intros p E. discriminate. Qed.
Lemma OB_when d (x : bool) p : (x = true -> OB d p d) -> OB d (when x p) d.
Proof. intro A. destruct x; [exact (A eq_refl)|apply OB_nothing]. Qed.
Lemma OB_if_some {A} d (o : option A) f : (forall x, o = Some x -> OB d (f x) d) -> OB d (if_some o f) d.
Proof. intro K. destruct o as [x|]; [exact (K x eq_refl)|apply OB_nothing]. Qed.
Lemma OB_each {A} d (f : A -> outcome prog) xs : (forall x, In x xs -> OB d (f x) d) -> OB d (each f xs) d.
Proof.
  induction xs as [|x xs IH]; intro K; [apply OB_nothing|]. cbn [each].
  eapply OB_seq; [apply K; left; reflexivity|apply IH; intros y I; apply K; right; exact I].
Qed.
Lemma OB_wb' o : OB 0 o 0 -> forall d, OB d o d.
Proof. intros A d p E. apply wb_at, A, E. Qed.
Lemma OB_vertical {A} d (xs : list A) lt (f : A -> outcome prog) : (forall x, In x xs -> OB 0 (f x) 0) -> OB d (vertical xs lt f) d.
Proof.
  intros K p E. unfold vertical in E. destruct (collect f xs) as [ps| |] eqn:C; try discriminate. cbv beta iota zeta in E.
  injection E as <-. apply wb_at. apply wb_vertical. intros q I.
  assert (J : exists x, In x xs /\ f x = Done q).
  { clear K. revert ps C I. induction xs as [|x xs IH]; intros ps C I; cbn [collect] in C; [injection C as <-; contradiction|].
    destruct (f x) as [p0| |] eqn:E0; try discriminate. destruct (collect f xs) as [ps'| |]; try discriminate. injection C as <-.
    destruct I as [<-|I]; [exists x; split; [left; reflexivity|exact E0]|].
    destruct (IH ps' eq_refl I) as (y & Y1 & Y2). exists y. split; [right; exact Y1|exact Y2]. }
  destruct J as (x & J1 & J2). exact (K x J1 q J2).
Qed.

Lemma wb_docs c d : well_bracketed (write_documentation c d).
Proof.
  assert (D : forall f : string -> prog, (forall l, well_bracketed (f l)) -> forall ls, well_bracketed (seqs (map f ls))).
  { intros f F ls. apply wb_seqs. intros p I. apply in_map_iff in I as (l & <- & _). apply F. }
  assert (Q : well_bracketed (clike_write_documentation c d)).
  { unfold clike_write_documentation. destruct d as [|l d]; [reflexivity|]. destruct (documentation c); cbn [negb]; [|reflexivity].
    cbv zeta. apply wb_seq; [destruct (doc_style c); reflexivity|]. apply wb_seq; [apply D; reflexivity|destruct (doc_style c); reflexivity]. }
  unfold write_documentation. destruct (language c); [exact Q|exact Q|].
  unfold cython_write_documentation. destruct d as [|l d]; [reflexivity|]. destruct (documentation c); cbn [negb]; [|reflexivity].
  apply D. reflexivity.
Qed.
(** How much deeper the text under a condition is indented. *)
Definition deeper (c : Config) (k : option Condition) : nat := match k with Some _ => if Language_eqb (language c) Cython then 1 else 0 | None => 0 end.
Lemma wb_condition l k : well_bracketed (Condition_write l k).
Proof. eapply plain_wb, condition_plain. Qed.
Lemma before_brackets c k d : brackets d (write_before c k) (deeper c k + d).
Proof.
  destruct k as [k|]; [|reflexivity]. cbn [write_before deeper]. destruct (Language_eqb (language c) Cython).
  - eapply brackets_seq; [reflexivity|]. eapply brackets_seq; [apply wb_at, wb_condition|]. pose proof (brackets_shift _ _ _ d (brackets_open c)) as B.
    rewrite Nat.add_0_r, Nat.add_comm in B. exact B.
  - eapply brackets_seq with (e := S d); [reflexivity|]. eapply brackets_seq with (e := S d); [reflexivity|].
    eapply brackets_seq; [apply wb_at, wb_condition|]. reflexivity.
Qed.
Lemma after_brackets c k d : brackets (deeper c k + d) (write_after c k) d.
Proof.
  destruct k as [k|]; [|reflexivity]. cbn [write_after deeper]. destruct (Language_eqb (language c) Cython).
  - pose proof (brackets_shift _ _ _ d (brackets_close c false)) as B. rewrite Nat.add_0_r, Nat.add_comm in B. exact B.
  - reflexivity.
Qed.
Lemma wb_field c t n p : write_field c t n = Some p -> well_bracketed p.
Proof. unfold write_field. destruct (from_type c t) as [d|]; [|discriminate]. intro E; injection E as <-. apply wb_cdecl. Qed.
Lemma wb_type c t p : write_type c t = Some p -> well_bracketed p.
Proof. unfold write_type. destruct (from_type c t) as [d|]; [|discriminate]. intro E; injection E as <-. apply wb_cdecl. Qed.
Lemma wb_func c f l p : write_func c f l = Some p -> well_bracketed p.
Proof. unfold write_func. destruct (from_func c f l) as [d|]; [|discriminate]. intro E; injection E as <-. apply wb_cdecl. Qed.
Lemma OB_option d o : (forall p, o = Some p -> well_bracketed p) -> OB d (of_option o) d.
Proof. intros K p E. destruct o as [q|]; [|discriminate]. injection E as <-. apply wb_at, K. reflexivity. Qed.

Lemma done_eq {A} (x y : A) : Done x = Done y -> x = y.
Proof. intro E. injection E as E. exact E. Qed.

Create HintDb bk discriminated.
Section Bracketed.
  Context {H : Heck}.
  Variables (fuel : nat) (b : Bindings).
  Let c : Config := b_config b.

  Lemma bind_done {A B} (o : outcome A) (f : A -> outcome B) p : (do x := o in f x) = Done p -> exists x, o = Done x /\ f x = Done p.
  Proof. destruct o as [x| |]; intro E; [exists x; auto|discriminate|discriminate]. Qed.
  Ltac bind_in E := let x := fresh "x" in let E' := fresh "E" in apply bind_done in E as (x & E' & E); cbv beta in E.
  Ltac wbs := repeat first [assumption | reflexivity | apply wb_seq].
  Lemma wb_array f items p : (forall x q, In x items -> f x = Done q -> well_bracketed q) -> array_items f items = Done p -> well_bracketed p.
  Proof.
    revert p. induction items as [|x items IH]; intros p K E; cbn [array_items] in E; [injection E as <-; reflexivity|].
    bind_in E. bind_in E. apply done_eq in E; subst p. apply wb_seq; [exact (K x _ (or_introl eq_refl) E0)|]. apply wb_seq; [reflexivity|].
    apply (IH _ (fun y q I => K y q (or_intror I)) E1).
  Qed.
  Lemma wb_clike_fields k fields n : (forall key v cfg q, lookup key fields = Some (v, cfg) -> v = Done q -> well_bracketed q) ->
    forall order i p, clike_fields b k fields order i n = Done p -> well_bracketed p.
  Proof.
    intros F. induction order as [|key order IH]; intros i p E; cbn [clike_fields] in E; [injection E as <-; reflexivity|].
    destruct (lookup key fields) as [[v cfg]|] eqn:L; [|exact (IH _ _ E)]. bind_in E. bind_in E. cbv zeta in E. apply done_eq in E; subst p.
    pose proof (F _ _ _ _ L E0) as V. pose proof (IH _ _ E1) as R. apply wb_seq; [|exact R]. destruct k.
    - apply wb_seq; [reflexivity|]. unfold well_bracketed. eapply brackets_seq; [apply before_brackets|].
      eapply brackets_seq; [reflexivity|]. eapply brackets_seq; [apply wb_at, V|]. eapply brackets_seq; [destruct (Nat.eqb (i + 1) n); reflexivity|].
      apply after_brackets.
    - apply wb_seq; [destruct (Nat.ltb 0 i); reflexivity|]. apply wb_seq; [|exact V]. destruct (Language_eqb _ Cxx); reflexivity.
  Qed.
  Lemma wb_cython_fields fields : (forall key v q, lookup key fields = Some v -> v = Done q -> well_bracketed q) ->
    forall order first p, cython_fields fields order first = Done p -> well_bracketed p.
  Proof.
    intros F. induction order as [|key order IH]; intros i p E; cbn [cython_fields] in E; [injection E as <-; reflexivity|].
    destruct (lookup key fields) as [v|] eqn:L; [|exact (IH _ _ E)]. bind_in E. bind_in E. apply done_eq in E; subst p.
    apply wb_seq; [destruct i; reflexivity|]. apply wb_seq; [exact (F _ _ _ L E0)|exact (IH _ _ E1)].
  Qed.
  Lemma wb_path sep a n : well_bracketed (write_path b sep a n).
  Proof.
    unfold write_path. destruct a as [[x y]|]; [|reflexivity]. destruct (to_known_assoc_constant x n); [reflexivity|].
    destruct (enum_variant_reference b x n); reflexivity.
  Qed.
  Lemma lookup_map {A B} (f : A -> B) key (l : list (string * A)) y :
    lookup key (map (fun x => (fst x, f (snd x))) l) = Some y -> exists x, In (key, x) l /\ y = f x.
  Proof.
    induction l as [|[k x] l IH]; [discriminate|]. cbn [map lookup fst snd]. destruct (String.eqb key k) eqn:K.
    - intro E. injection E as <-. apply String.eqb_eq in K as ->. exists x. split; [left; reflexivity|reflexivity].
    - intro E. destruct (IH E) as (x' & I & E'). exists x'. split; [right; exact I|exact E'].
  Qed.
  Lemma wb_literal l : forall p, write_literal fuel b l = Done p -> well_bracketed p.
  Proof.
    assert (C1 : forall l p, clike_write_literal fuel b l = Done p -> well_bracketed p).
    { clear l. induction l as [v|a n|op v IH|x op y IHx IHy|v f IH|pa ex fs IH|t v IH|items IH] using Literal_ind'; intros p E; cbn [clike_write_literal] in E.
      - apply done_eq in E; subst p. reflexivity.
      - apply done_eq in E; subst p. apply wb_path.
      - bind_in E. apply done_eq in E; subst p. apply wb_seq; [reflexivity|apply IH, E0].
      - bind_in E. bind_in E. apply done_eq in E; subst p. pose proof (IHx _ E0). pose proof (IHy _ E1). wbs.
      - bind_in E. apply done_eq in E; subst p. pose proof (IH _ E0). wbs.
      - cbv zeta in E. bind_in E. bind_in E. apply done_eq in E; subst p.
        assert (P : well_bracketed x0).
        { refine (wb_clike_fields _ _ _ _ _ _ _ E1). intros key v cfg q L D.
          apply (lookup_map (fun s => (clike_write_literal fuel b (fst s), snd s))) in L as (s & I & L). injection L as -> ->.
          rewrite Forall_forall in IH. exact (IH _ I q D). }
        apply wb_seq; [reflexivity|]. apply wb_seq; [reflexivity|]. destruct (literal_is_constexpr b _).
        + unfold well_bracketed. eapply brackets_seq with (e := 1); [reflexivity|]. eapply brackets_seq with (e := 1); [apply wb_at, P|]. reflexivity.
        + wbs.
      - bind_in E. bind_in E. apply done_eq in E; subst p. pose proof (IH _ E1). destruct (write_type _ t) as [q|] eqn:Q; [|discriminate]. injection E0 as <-.
        pose proof (wb_type _ _ _ Q). wbs.
      - bind_in E. apply done_eq in E; subst p. apply wb_seq; [reflexivity|]. apply wb_seq; [|reflexivity]. refine (wb_array _ _ _ _ E0).
        intros x0 q I D. rewrite Forall_forall in IH. exact (IH _ I q D). }
    assert (C2 : forall l p, cython_write_literal fuel b l = Done p -> well_bracketed p).
    { clear l. induction l as [v|a n|op v IH|x op y IHx IHy|v f IH|pa ex fs IH|t v IH|items IH] using Literal_ind'; intros p E; cbn [cython_write_literal] in E.
      - apply done_eq in E; subst p. reflexivity.
      - apply done_eq in E; subst p. apply wb_path.
      - bind_in E. apply done_eq in E; subst p. apply wb_seq; [reflexivity|apply IH, E0].
      - bind_in E. bind_in E. apply done_eq in E; subst p. pose proof (IHx _ E0). pose proof (IHy _ E1). wbs.
      - bind_in E. apply done_eq in E; subst p. pose proof (IH _ E0). wbs.
      - bind_in E. bind_in E. apply done_eq in E; subst p.
        assert (P : well_bracketed x0).
        { refine (wb_cython_fields _ _ _ _ _ E1). intros key v q L D.
          apply (lookup_map (fun s => cython_write_literal fuel b (fst s))) in L as (s & I & L). subst v.
          rewrite Forall_forall in IH. exact (IH _ I q D). }
        wbs.
      - bind_in E. bind_in E. apply done_eq in E; subst p. pose proof (IH _ E1). destruct (write_type _ t) as [q|] eqn:Q; [|discriminate]. injection E0 as <-.
        pose proof (wb_type _ _ _ Q). wbs.
      - bind_in E. apply done_eq in E; subst p. apply wb_seq; [reflexivity|]. apply wb_seq; [|reflexivity]. refine (wb_array _ _ _ _ E0).
        intros x0 q I D. rewrite Forall_forall in IH. exact (IH _ I q D). }
    unfold write_literal. destruct (language (b_config b)); [apply C1|apply C1|apply C2].
  Qed.
  Lemma OB_literal d l : OB d (write_literal fuel b l) d.
  Proof. intros p E. apply wb_at, (wb_literal l p E). Qed.
  Lemma OB_opened d : OB d (opened b) (S d).
  Proof. apply OB_done. pose proof (brackets_shift _ _ _ d (brackets_open c)) as B. rewrite Nat.add_0_r, Nat.add_comm in B. exact B. Qed.
  Lemma OB_closed d s : OB (S d) (closed b s) d.
  Proof. apply OB_done. pose proof (brackets_shift _ _ _ d (brackets_close c s)) as B. rewrite Nat.add_0_r, Nat.add_comm in B. exact B. Qed.
  Lemma OB_before d k : OB d (before b k) (deeper c k + d).
  Proof. apply OB_done, before_brackets. Qed.
  Lemma OB_after d k : OB (deeper c k + d) (after b k) d.
  Proof. apply OB_done, after_brackets. Qed.
  Lemma OB_docs d x : OB d (docs b x) d.
  Proof. apply OB_wb, wb_docs. Qed.
  Lemma OB_field d t n : OB d (of_option (write_field c t n)) d.
  Proof. apply OB_option. intros p E. exact (wb_field _ _ _ _ E). Qed.
  Lemma OB_func d f l : OB d (of_option (write_func c f l)) d.
  Proof. apply OB_option. intros p E. exact (wb_func _ _ _ _ E). Qed.
  Lemma OB_type d t : OB d (type_text b t) d.
  Proof. apply OB_option. intros p E. exact (wb_type _ _ _ E). Qed.
  Lemma OB_constant_declaration d k : OB d (of_option (Constant_write_declaration b k)) d.
  Proof.
    apply OB_option. intros p E. unfold Constant_write_declaration in E. destruct (write_field (b_config b) (c_ty k) (c_export_name k)) as [f|] eqn:F; [|discriminate].
    cbv beta iota zeta in E. assert (X : forall A (x y : A), Some x = Some y -> x = y) by (intros A x y Z; injection Z as Z; exact Z). apply X in E. subst p.
    unfold well_bracketed. eapply brackets_seq; [apply before_brackets|]. eapply brackets_seq; [reflexivity|].
    eapply brackets_seq; [apply wb_at, (wb_field _ _ _ _ F)|]. eapply brackets_seq; [reflexivity|]. apply after_brackets.
  Qed.
  Lemma OB_constant d k s : OB d (Constant_write fuel b k s) d.
  Proof.
    intros p E. apply wb_at. unfold Constant_write in E. destruct (match s with Some st => _ | None => false end); [apply done_eq in E; subst p; reflexivity|].
    bind_in E. destruct (negb x); [apply done_eq in E; subst p; reflexivity|]. bind_in E. bind_in E. bind_in E. cbv zeta in E. bind_in E. apply done_eq in E. subst p.
    match goal with A : write_literal _ _ _ = Done _ |- _ => apply wb_literal in A; rename A into L end.
    unfold well_bracketed. eapply brackets_seq; [apply before_brackets|]. eapply brackets_seq; [apply wb_at, wb_docs|]. eapply brackets_seq; [|apply after_brackets]. apply wb_at.
    match goal with A : (if ?m then Done PRet else _) = Done ?q |- _ => assert (W : well_bracketed q);
      [destruct m; [apply done_eq in A; subst q; reflexivity|];
       destruct (write_field (b_config b) (c_ty k) x0) as [f|] eqn:F; [|discriminate]; apply done_eq in A; subst q; exact (wb_field _ _ _ _ F)|]; destruct m end.
    - wbs.
    - destruct (Language_eqb (language (b_config b)) Cython); [wbs|].
      apply wb_seq; [destruct (co_allow_constexpr _ && _); reflexivity|]. apply wb_seq; [destruct (co_allow_static_const _); [destruct (constant_in_body b s); reflexivity|reflexivity]|].
      apply wb_seq; [destruct (is_const_ptr _); reflexivity|]. wbs.
  Qed.

  Ltac bk1 :=
    lazymatch goal with
    | |- OB _ (then_ _ _) _ => eapply OB_seq
    | |- OB _ nothing _ => apply OB_nothing
    | |- OB _ (text _) _ => apply OB_text
    | |- OB _ line _ => apply OB_line
    | |- OB _ (Done newline_if_not_start) _ => apply OB_start
    | |- OB _ (raw_block _) _ => apply OB_raw
    | |- OB _ (opened _) _ => apply OB_opened
    | |- OB _ (closed _ _) _ => apply OB_closed
    | |- OB _ (before _ _) _ => apply OB_before
    | |- OB _ (after _ _) _ => apply OB_after
    | |- OB _ (docs _ _) _ => apply OB_docs
    | |- OB _ (type_text _ _) _ => apply OB_type
    | |- OB _ (of_option (write_field _ _ _)) _ => apply OB_field
    | |- OB _ (of_option (write_func _ _ _)) _ => apply OB_func
    | |- OB _ (of_option (Constant_write_declaration _ _)) _ => apply OB_constant_declaration
    | |- OB _ (Constant_write _ _ _ _) _ => apply OB_constant
    | |- OB _ (write_literal _ _ _) _ => apply OB_literal
    | |- OB _ (if_some _ _) _ => apply OB_if_some; intros ? _
    | |- OB _ (spaced _) _ => unfold spaced
    | |- OB _ (when _ _) _ => apply OB_when; intros _
    | |- OB _ (each _ _) _ => apply OB_each; intros ? _
    | |- OB _ (vertical _ _ _) _ => apply OB_vertical; intros ? _
    | |- OB _ Panic _ => apply OB_panic
    end.
  Ltac bk := repeat (first [bk1 | solve [eauto 3 with bk]]).
  Lemma OB_variant d v : OB d (backend_variant fuel b v) d.
  Proof. unfold backend_variant. cbv zeta. destruct (Language_eqb _ Cython); bk. Qed.
  Lemma OB_bfield d f : OB d (backend_field b f) d.
  Proof. unfold backend_field. cbv zeta. destruct (Language_eqb _ Cython); bk. Qed.
  Lemma OB_param d x gp : OB d (generic_param b x gp) d.
  Proof. unfold generic_param. destruct (gp_ty gp), (gp_default gp) as [[?|?]|]; bk. Qed.
  Lemma OB_params_text d x ps : OB d (generic_params_text b x ps) d.
  Proof.
    induction ps as [|g r IH]; [apply OB_nothing|]. cbn [generic_params_text]. destruct r as [|q ps]; [apply OB_param|].
    eapply OB_seq; [apply OB_param|]. eapply OB_seq; [apply OB_text|exact IH].
  Qed.
  Hint Resolve OB_params_text : bk.
  Lemma OB_params d x ps : OB d (write_generic_params b x ps) d.
  Proof. unfold write_generic_params. bk. Qed.
  Hint Resolve OB_variant OB_bfield OB_params : bk.
  Lemma OB_derived d s : OB d (write_derived_ops b s) d.
  Proof.
    unfold write_derived_ops. cbv zeta. eapply OB_seq; [bk|]. apply OB_each. intros p I. unfold derived_sections in I. cbv zeta in I.
    repeat (apply in_app_or in I as [I|I]); (destruct (_ && _) in I || destruct (flag _ _ _) in I); cbn [In] in I; try contradiction; destruct I as [<-|[]].
    - unfold derived_constructor. cbv zeta. bk.
    - unfold derived_bitflags. destruct (s_fields s) as [|f [|? ?]]; try apply OB_panic. cbv zeta. bk. unfold bitflags_binop. cbv zeta. bk.
    - unfold derived_ostream. cbv zeta. bk.
    - unfold derived_op. cbv zeta. bk. destruct (an_atom _ _) as [[?|]|]; bk.
    - unfold derived_op. cbv zeta. bk. destruct (an_atom _ _) as [[?|]|]; bk.
    - unfold derived_op. cbv zeta. bk. destruct (an_atom _ _) as [[?|]|]; bk.
    - unfold derived_op. cbv zeta. bk. destruct (an_atom _ _) as [[?|]|]; bk.
    - unfold derived_op. cbv zeta. bk. destruct (an_atom _ _) as [[?|]|]; bk.
    - unfold derived_op. cbv zeta. bk. destruct (an_atom _ _) as [[?|]|]; bk.
  Qed.
  Lemma OB_alignment d a : OB d (alignment_text b a) d.
  Proof. unfold alignment_text. destruct a as [[|n]|]; bk. Qed.
  Lemma OB_before_body d p : OB d (before_body b p) d. Proof. unfold before_body. bk. Qed.
  Lemma OB_after_body d p : OB d (after_body b p) d. Proof. unfold after_body. bk. Qed.
  Lemma OB_close_item d n : OB (S d) (close_item b n) d. Proof. unfold close_item. destruct (with_typedef b); bk. Qed.
  Lemma OB_item_tag d n : OB d (item_tag b n) d. Proof. unfold item_tag. bk. Qed.
  Lemma OB_associated d s : OB d (associated_constants fuel b s) d. Proof. unfold associated_constants. bk. Qed.
  Hint Resolve OB_derived OB_alignment OB_before_body OB_after_body OB_close_item OB_item_tag OB_associated : bk.
  Lemma OB_struct d s : OB d (write_struct fuel b s) d.
  Proof.
    unfold write_struct. destruct (Language_eqb _ Cython).
    - unfold cython_struct. cbv zeta. bk. destruct (s_alignment s) as [[|]|]; bk.
    - unfold clike_struct. cbv zeta. bk.
  Qed.
  Lemma OB_union d s : OB d (write_union b s) d.
  Proof. unfold write_union. destruct (Language_eqb _ Cython); [unfold cython_union|unfold clike_union]; cbv zeta; bk. Qed.
  Lemma OB_opaque d o : OB d (write_opaque_item b o) d.
  Proof. unfold write_opaque_item. cbv zeta. bk. destruct (Language_eqb _ Cython); [bk|]. destruct (with_typedef b); bk. Qed.
  Lemma OB_typedef d t : OB d (write_type_def b t) d.
  Proof. unfold write_type_def. cbv zeta. bk. destruct (Language_eqb _ Cxx); bk. Qed.
  Lemma OB_static d g : OB d (write_static b g) d.
  Proof. unfold write_static. cbv zeta. bk. Qed.
  Hint Resolve OB_struct : bk.
  Lemma OB_enumerators d vs : OB d (enumerators fuel b vs) d.
  Proof.
    induction vs as [|v [|w vs] IH]; [apply OB_nothing|apply OB_variant|].
    change (OB d (then_ (backend_variant fuel b v) (then_ line (enumerators fuel b (w :: vs)))) d). bk.
  Qed.
  Lemma OB_tag_size d t p : OB d (tag_size_typedef b t p) d.
  Proof. unfold tag_size_typedef. bk. Qed.
  Lemma OB_enum_ostream d e : OB d (derived_functions_enum b e) d.
  Proof. unfold derived_functions_enum. cbv zeta. bk. Qed.
  Lemma OB_open_tag d e s : OB d (open_tag_enum b e s) d.
  Proof. unfold open_tag_enum. cbv zeta. destruct (language (b_config b)), s; bk. Qed.
  Hint Resolve OB_enumerators OB_tag_size OB_enum_ostream OB_open_tag : bk.
  Lemma OB_tag_enum d e s : OB d (write_tag_enum fuel b e s) d.
  Proof. unfold write_tag_enum. bk. destruct (_ && _ && _); bk. Qed.
  Lemma OB_open_struct d e i : OB d (open_struct_or_union b e i) (S d).
  Proof. unfold open_struct_or_union. destruct (Language_eqb _ Cython); bk. Qed.
  Lemma OB_variant_defs d e : OB d (write_variant_defs fuel b e) d.
  Proof.
    unfold write_variant_defs. bk. unfold write_variant_def. destruct (v_body x) as [|n s [|] k]; [bk|bk|]. cbv zeta.
    destruct (Language_eqb _ Cython); cbn [negb when]; bk.
  Qed.
  Lemma OB_tag_field d e s i : OB d (write_tag_field b e s i) d.
  Proof. unfold write_tag_field. cbv zeta. destruct (i && _); cbn [when]; bk. Qed.
  Lemma OB_variant_field d i n s k : OB d (variant_field b i n s k) d.
  Proof.
    unfold variant_field. destruct k; cbv zeta.
    - destruct (Nat.ltb _ _); [bk|]. destruct (Language_eqb _ Cython); cbn [negb when]; bk.
    - destruct (_ || _); bk.
  Qed.
  Lemma OB_variant_fields d i vs : forall f, OB d (variant_fields b i f vs) d.
  Proof.
    induction vs as [|v vs IH]; intro f; cbn [variant_fields]; [bk|]. destruct (v_body v) as [|n s k q]; [apply IH|]. cbv zeta.
    destruct (Language_eqb _ Cython); cbn [negb when].
    - eapply OB_seq; [bk|]. eapply OB_seq; [bk|]. eapply OB_seq; [apply OB_variant_field|]. eapply OB_seq; [bk|apply IH].
    - eapply OB_seq; [bk|]. eapply OB_seq; [bk|]. eapply OB_seq; [apply OB_variant_field|]. eapply OB_seq; [bk|apply IH].
  Qed.
  Lemma OB_attrs d a n : OB d (attrs_text a n) d.
  Proof. unfold attrs_text. destruct (an_atom _ _) as [[?|]|]; bk. Qed.
  Hint Resolve OB_attrs : bk.
  Lemma OB_switch d e f : OB d (switch_tag b e f) d.
  Proof. unfold switch_tag. bk. unfold variant_case. destruct (v_body x); cbv zeta; bk. Qed.
  Hint Resolve OB_switch : bk.
  Lemma OB_casts d v k : OB d (derive_casts b v k) d.
  Proof.
    unfold derive_casts. destruct (v_body v) as [|n s i q]; [bk|]. destruct (_ && _); [bk|]. destruct (is_nil _); [bk|]. bk.
    destruct q; [|bk]. apply OB_bind. intros. bk.
  Qed.
  Hint Resolve OB_casts : bk.
  Lemma OB_helpers d e v : OB d (variant_helpers b e v) d.
  Proof.
    unfold variant_helpers, variant_constructor, variant_is. cbv zeta. bk.
    - destruct (v_body v); bk.
    - destruct (v_body v); bk. unfold init_field. bk. destruct (fd_ty x); bk.
  Qed.
  Hint Resolve OB_helpers : bk.
  Lemma OB_data d e : OB d (derived_functions_data b e) d.
  Proof.
    unfold derived_functions_data, derived_enum_eq, private_constructor, derived_destructor, derived_copy. cbv zeta. bk.
  Qed.
  Hint Resolve OB_tag_enum OB_open_struct OB_variant_defs OB_tag_field OB_variant_fields OB_data : bk.
  Lemma OB_enum d e : OB d (write_enum fuel b e) d.
  Proof.
    unfold write_enum. cbv zeta. destruct (is_some (e_tag e)); cbn [andb when].
    - destruct (Language_eqb (language (b_config b)) Cxx); cbn [negb when]; destruct (negb (inline_tag_field (e_repr e)) && _); cbn [when]; bk.
    - bk.
  Qed.
  Lemma OB_with_layout d f l : OB d (write_function_with_layout b f l) d.
  Proof. unfold write_function_with_layout, write_space. cbv zeta. bk; destruct (f_extern_decl f); destruct l; bk. Qed.
  Lemma OB_function d f : OB d (write_function b f) d.
  Proof.
    unfold write_function. destruct (fn_args _); try apply OB_with_layout. apply OB_bind. intros h E1. apply OB_bind. intros v E2.
    apply OB_done. cbn [brackets]. split; [exact (OB_with_layout 0 _ _ _ E1)|]. intros []; [reflexivity|exact (OB_with_layout d _ _ _ E2)].
  Qed.
  Hint Resolve OB_enum OB_union OB_opaque OB_typedef OB_static OB_function : bk.
  Lemma OB_paragraph d p : OB d p d -> OB d (paragraph p) d.
  Proof. intro A. unfold paragraph. bk. Qed.
  Lemma OB_item d i : OB d (write_item fuel b i) d.
  Proof. destruct i; cbn [write_item]; bk. unfold write_struct_or_typedef. destruct (as_typedef _); bk. Qed.
  Hint Resolve OB_item OB_paragraph : bk.
  Lemma OB_headers d : OB d (write_headers b) d.
  Proof.
    unfold write_headers. destruct (Language_eqb _ Cython).
    - unfold cython_headers. bk; try (apply OB_paragraph; bk).
    - unfold clike_headers, include_line. bk; try (apply OB_paragraph; bk). destruct (language (b_config b)); bk.
  Qed.
  (** The depth inside the namespaces. *)
  Definition inner : nat := if Language_eqb (language c) Cython then 1 else 0.
  Lemma OB_open_namespaces d : OB d (open_namespaces b) (inner + d).
  Proof.
    unfold open_namespaces, inner. fold c. destruct (Language_eqb _ Cython).
    - bk.
    - unfold open_close_namespaces. cbv zeta. cbn [plus]. destruct (negb _); cbn [when]; bk.
  Qed.
  Lemma OB_close_namespaces d : OB (inner + d) (close_namespaces b) d.
  Proof.
    unfold close_namespaces, inner. fold c. destruct (Language_eqb _ Cython).
    - bk.
    - unfold open_close_namespaces. cbv zeta. cbn [plus]. destruct (negb _); cbn [when]; bk.
  Qed.
  Lemma OB_constants d x : OB d (write_constants fuel b x) d. Proof. unfold write_constants. bk. apply OB_paragraph. bk. Qed.
  Lemma OB_items d : OB d (write_items fuel b) d. Proof. unfold write_items. bk. Qed.
  Lemma OB_globals_default d : OB d (write_globals_default b) d. Proof. unfold write_globals_default. bk. Qed.
  Lemma OB_functions_default d : OB d (write_functions_default b) d. Proof. unfold write_functions_default. bk. Qed.
  Hint Resolve OB_globals_default OB_functions_default : bk.
  Lemma OB_globals d : OB d (write_globals b) d.
  Proof. unfold write_globals, clike_globals. destruct (Language_eqb _ Cython); bk. Qed.
  Lemma OB_functions d : OB d (write_functions b) d.
  Proof. unfold write_functions, clike_functions, cython_functions. destruct (Language_eqb _ Cython); bk. Qed.
  Lemma OB_footers d : OB d (write_footers b) d.
  Proof. unfold write_footers. destruct (Language_eqb _ Cython); bk. apply OB_paragraph. bk. Qed.
  Lemma OB_trailer d : OB d (write_trailer b) d.
  Proof. unfold write_trailer. bk. Qed.
  Lemma OB_bindings d : OB d (write_bindings fuel b) d.
  Proof.
    unfold write_bindings. eapply OB_seq; [apply OB_headers|]. eapply OB_seq; [apply OB_open_namespaces|]. eapply OB_seq; [apply OB_constants|].
    eapply OB_seq; [apply OB_items|]. eapply OB_seq; [apply OB_constants|]. eapply OB_seq; [apply OB_globals|]. eapply OB_seq; [apply OB_functions|].
    eapply OB_seq; [apply OB_close_namespaces|]. eapply OB_seq; [apply OB_footers|]. apply OB_trailer.
  Qed.
End Bracketed.

Lemma bindings_bracket {H : Heck} : forall fuel b p, write_bindings fuel b = Done p ->
  well_bracketed p
  /\ (tab_width (b_config b) <> 0 -> exists w, run (tab_width (b_config b)) (LineEndingStyle_as_str (line_endings (b_config b))) p writer_new = Some w /\ w_spaces w = [0]).
Proof.
  intros fuel b p E. pose proof (OB_bindings fuel b 0 p E) as W. split; [exact W|]. intro T.
  destruct (well_bracketed_restores (tab_width (b_config b)) (LineEndingStyle_as_str (line_endings (b_config b))) p writer_new T) as (w & R & S0); [discriminate|exact W|].
  exists w. split; [exact R|exact S0].
Qed.
