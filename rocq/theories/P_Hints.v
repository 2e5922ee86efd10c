Require Import Coq.Strings.String Coq.Lists.List Coq.Bool.Bool Coq.NArith.NArith Coq.Sorting.Permutation.
From Verif Require Import Base P_Base M_Cfg S_Cfg P_Cfg M_Type M_Ir S_Attr P_Attr P_Repr M_Attr S_Hints.
Import ListNotations.
Open Scope string_scope.

Lemma is_ident_iff : forall i n, is_ident i n = true <-> i = Some n.
Proof.
  intros [x|] n; cbn; [|split; discriminate]. split.
  - intro E. apply String.eqb_eq in E. now subst.
  - intro E. injection E as ->. apply String.eqb_refl.
Qed.
Lemma is_ident_not : forall i n, i <> Some n -> is_ident i n = false.
Proof. intros i n N. destruct (is_ident i n) eqn:E; [|reflexivity]. apply is_ident_iff in E. contradiction. Qed.

Lemma hint_of_arg : forall a h, hint_arg a h <-> exists x, repr_hint a = Some x /\ means x h.
Proof.
  intros a h. split.
  - intro A. destruct A as [s h M|t h M|]; eexists; (split; [reflexivity|]); auto. constructor.
  - intros (x & E & M). destruct a as [[i|]| | i args| |]; try discriminate; cbn in E.
    + injection E as <-. now constructor.
    + destruct (is_ident i "align") eqn:A.
      * apply is_ident_iff in A. subst i. destruct args as [|[] [|]]; try discriminate. injection E as <-. now constructor.
      * destruct (is_ident i "packed") eqn:P; [|discriminate]. apply is_ident_iff in P. subst i.
        destruct args as [|[] [|]]; try discriminate; injection E as <-.
        -- inversion M as [s t I| | | |]; subst; [|constructor].
           exfalso. cbn in I. repeat (destruct I as [I|I]; [discriminate|]). exact I.
        -- inversion M.
Qed.
Lemma hints_of_args : forall args ks, Forall2 hint_arg args ks <-> exists hs, map_opt repr_hint args = Some hs /\ Forall2 means hs ks.
Proof.
  induction args as [|a args IH]; intro ks; split.
  - intro F. inversion F; subst. exists []. auto.
  - intros (hs & E & F). injection E as <-. inversion F. constructor.
  - intro F. inversion F as [|? h ? ks' A B]; subst. apply hint_of_arg in A as (x & E & M). apply IH in B as (hs & E' & F').
    exists (x :: hs). cbn. rewrite E, E'. auto.
  - intros (hs & E & F). cbn in E. destruct (repr_hint a) as [x|] eqn:A; [|discriminate].
    destruct (map_opt repr_hint args) as [hs'|] eqn:B; [|discriminate]. injection E as <-.
    inversion F as [|? h ? ks' M F']; subst. constructor; [apply hint_of_arg; eauto|apply IH; eauto].
Qed.
Lemma not_repr : forall a, attr_name a <> Some "repr" -> repr_attr a = None.
Proof.
  intros [m o] N. unfold repr_attr, attr_name in *. cbn in *. destruct m; cbn in *; try rewrite (is_ident_not _ _ N); reflexivity.
Qed.
Lemma args_metas : forall args hs, map_opt repr_hint args = Some hs -> forallb is_meta args = true.
Proof.
  induction args as [|a r IH]; intros hs E; [reflexivity|]. cbn in *. destruct (repr_hint a) as [x|] eqn:A; [|discriminate].
  destruct (map_opt repr_hint r) as [hs'|] eqn:B; [|discriminate]. rewrite (IH _ eq_refl), andb_true_r.
  destruct a; try discriminate A; reflexivity.
Qed.
Lemma map_opt_parts : forall {A B} (f : A -> option B) l m hs, map_opt f (l ++ m) = Some hs ->
  exists h1 h2, map_opt f l = Some h1 /\ map_opt f m = Some h2 /\ hs = (h1 ++ h2)%list.
Proof.
  intros A B f l m. induction l as [|x l IH]; intros hs E; cbn in *; [eauto|].
  destruct (f x) as [y|]; [|discriminate]. destruct (map_opt f (l ++ m)) as [hs'|]; [|discriminate]. injection E as <-.
  destruct (IH _ eq_refl) as (h1 & h2 & -> & -> & ->). exists (y :: h1), h2. auto.
Qed.
(** What is read from the attributes are the hints of their arguments. *)
Lemma hints_read : forall attrs hs, repr_hints attrs = Some hs <-> exists args, repr_args attrs args /\ map_opt repr_hint args = Some hs.
Proof.
  intros attrs hs. unfold repr_hints. split.
  - destruct (map_opt (fun x => x) (filter_map repr_attr attrs)) as [ls|] eqn:E; [|discriminate]. intro M.
    exists (concat ls). split; [|exact M]. clear hs M. revert ls E. induction attrs as [|[m o] r IH]; intros ls E.
    + injection E as <-. constructor.
    + cbn in E. destruct (repr_attr {| at_meta := m; at_outer := o |}) as [x|] eqn:R.
      * cbn in E. destruct x as [args|]; [|discriminate].
        destruct (map_opt (fun x => x) (filter_map repr_attr r)) as [ls'|] eqn:L; [|discriminate]. injection E as <-.
        unfold repr_attr in R. cbn in R. destruct m; try discriminate R; destruct (is_ident ident "repr") eqn:I; try discriminate R.
        apply is_ident_iff in I. subst ident. destruct (forallb is_meta args0); [|discriminate]. injection R as <-.
        cbn. apply ra_repr. apply IH. reflexivity.
      * apply ra_other; [|exact (IH _ E)]. unfold repr_attr, attr_name in *. cbn in *. intro N.
        destruct m; try discriminate N; subst; discriminate R.
  - intros (args & A & M). revert hs M. induction A as [|a r l N A IH|o args r l A IH]; intros hs M.
    + injection M as <-. reflexivity.
    + cbn [filter_map]. rewrite (not_repr _ N). exact (IH _ M).
    + apply map_opt_parts in M as (h1 & h2 & M1 & M2 & ->). specialize (IH _ M2). cbn. rewrite (args_metas _ _ M1). cbn.
      destruct (map_opt (fun x => x) (filter_map repr_attr r)) as [ls|]; [|discriminate]. cbn.
      clear - M1 IH. revert h1 M1. induction args as [|x args J]; intros h1 M1; cbn in *.
      * injection M1 as <-. exact IH.
      * destruct (repr_hint x); [|discriminate]. destruct (map_opt repr_hint args) as [h|]; [|discriminate]. injection M1 as <-.
        rewrite (J _ eq_refl). reflexivity.
Qed.
Lemma load_asked : forall attrs r, Repr_load attrs = Some r <->
  exists args ks, repr_args attrs args /\ Forall2 hint_arg args ks /\ asks ks r.
Proof.
  intros attrs r. unfold Repr_load. split.
  - destruct (repr_hints attrs) as [hs|] eqn:E; [|discriminate]. intro A. apply hints_asked in A as (ks & F & A).
    apply hints_read in E as (args & R & M). exists args, ks. repeat split; try apply A; auto. apply hints_of_args. eauto.
  - intros (args & ks & R & F & A). apply hints_of_args in F as (hs & M & F).
    assert (E : repr_hints attrs = Some hs) by (apply hints_read; eauto). rewrite E. apply hints_asked. eauto.
Qed.
Lemma args_unique : forall attrs l l', repr_args attrs l -> repr_args attrs l' -> l = l'.
Proof.
  intros attrs l l' A. revert l'. induction A as [|a r l N A IH|o args r l A IH]; intros l' B; inversion B; subst; auto.
  - exfalso. apply N. reflexivity.
  - exfalso. match goal with N : attr_name _ <> _ |- _ => apply N end. reflexivity.
  - f_equal. auto.
Qed.
Lemma hint_arg_unique : forall args ks ks', Forall2 hint_arg args ks -> Forall2 hint_arg args ks' -> ks = ks'.
Proof.
  intros args ks ks' A B. apply hints_of_args in A as (hs & E & A), B as (hs' & E' & B).
  assert (hs' = hs) as -> by congruence. exact (means_unique _ _ _ A B).
Qed.
Lemma word_hint : forall args hs s, map_opt repr_hint args = Some hs -> In (s, None) hs -> s <> "packed" -> In (APath (Some s)) args.
Proof.
  induction args as [|a r IH]; intros hs s E I N; cbn in E; [injection E as <-; destruct I|].
  destruct (repr_hint a) as [x|] eqn:A; [|discriminate]. destruct (map_opt repr_hint r) as [hs'|] eqn:B; [|discriminate]. injection E as <-.
  destruct I as [->|I]; [left|right; exact (IH _ _ eq_refl I N)].
  destruct a as [[i|]| | i args| |]; try discriminate; cbn in A; [now injection A as ->|].
  destruct (is_ident i "align"); [destruct args as [|[] [|]]; discriminate|].
  destruct (is_ident i "packed"); [|discriminate]. destruct args as [|[] [|]]; try discriminate. injection A as <-. congruence.
Qed.
Lemma order_free : forall attrs attrs' args, Permutation attrs attrs' -> repr_args attrs args ->
  ~ (In (APath (Some "C")) args /\ In (APath (Some "transparent")) args) -> Repr_load attrs = Repr_load attrs'.
Proof.
  intros attrs attrs' args P A No. destruct (repr_hints attrs) as [hs|] eqn:E.
  - apply (load_perm _ _ _ P E). intros [I J]. apply hints_read in E as (args' & A' & M). rewrite (args_unique _ _ _ A' A) in M.
    apply No. split; eapply word_hint; eauto; discriminate.
  - unfold Repr_load. pose proof (repr_hints_perm _ _ P) as Q. rewrite E in *. destruct (repr_hints attrs'); [contradiction|reflexivity].
Qed.

(** ** Items left out *)
Lemma ignore_text : forall v, trim v = "cbindgen:ignore" <-> exists b b', blanks b /\ blanks b' /\ v = b ++ "cbindgen:ignore" ++ b'.
Proof.
  intro v. split.
  - intro E. destruct (trim_pads v) as (b & b' & B & B' & V). rewrite E in V. eauto.
  - intros (b & b' & B & B' & ->). rewrite trim_pad by assumption. reflexivity.
Qed.
Lemma skip_leaves_out : forall m, is_skip_item_attr m = true <-> leaves_out m.
Proof.
  intro m. split.
  - destruct m as [i|i [v|]|i args| |]; cbn -[trim]; intro E; try discriminate.
    + apply is_ident_iff in E. subst. constructor.
    + apply andb_prop in E as [E V]. apply is_ident_iff in E. subst. apply String.eqb_eq, ignore_text in V as (b & b' & B & B' & ->). now constructor.
    + apply andb_prop in E as [E V]. apply is_ident_iff in E. subst. destruct args as [|[j| | | |] [|]]; try discriminate.
      apply is_ident_iff in V. subst. constructor.
  - intro L. destruct L as [| |b b' B B']; try reflexivity. cbn -[trim]. apply String.eqb_eq, ignore_text. eauto.
Qed.
Lemma skip_left_out : forall attrs, should_skip_parsing attrs = true <-> left_out attrs.
Proof.
  intro attrs. unfold should_skip_parsing, left_out. rewrite existsb_exists.
  split; intros (a & I & L); exists a; (split; [exact I|]); now apply skip_leaves_out.
Qed.
