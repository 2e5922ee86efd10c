(** C03, C04 and C06: [#[cfg]] attributes become equivalent guards. *)
Require Import Coq.Strings.String Coq.Strings.Ascii Coq.Lists.List Coq.Bool.Bool Coq.Sorting.Permutation.
From Verif Require Import Base M_Config M_Writer S_Writer M_Cfg S_Lex S_Cfg P_Cfg.
Import ListNotations.
Open Scope string_scope.

(** The cfg read from an item's attributes holds exactly when all its
    [cfg(..)] attributes hold in Rust. *)
Theorem C03_attributes_meaning : forall rho attrs, Forall (attr_valid rho) attrs ->
  cfg_eval_opt rho (Cfg_load attrs) = forallb (attr_holds rho) attrs.
Proof. exact load_meaning. Qed.
Print Assumptions C03_attributes_meaning.

Definition ex_attrs : list meta :=
  [ MPath (Some "inline");
    MList (Some "cfg") (Some [MPath (Some "unix")]);
    MList (Some "cfg") (Some [MList (Some "not") (Some [MNameValue (Some "feature") (Some "x")])]) ].
Example C03_attributes_meaning_applies : forall rho,
  Forall (attr_valid rho) ex_attrs /\
  Cfg_load ex_attrs = Some (CAll [CBoolean "unix"; CNot (CNamed "feature" "x")]).
Proof.
  intro rho. split; [|reflexivity].
  repeat apply Forall_cons; try apply Forall_nil; intro H; try discriminate;
    eexists; eexists; split; reflexivity.
Qed.

(** An attribute that cannot be parsed ([cfg(target(os = "x"))] and the like)
    is dropped: the item is then treated as always present. *)
Theorem C03_unparsable_attribute_refuted : exists attrs rho,
  forallb (attr_holds rho) attrs = false /\ cfg_eval_opt rho (Cfg_load attrs) = true.
Proof.
  exists [MList (Some "cfg") (Some [MList (Some "target") (Some [MNameValue (Some "os") (Some "x")])])], (fun _ => false).
  split; reflexivity.
Qed.

(** The guard's printed text, read as a preprocessor condition, holds exactly
    when the Rust cfg holds. *)
Theorem C03_guard_text_exact : forall cfg rho mu c,
  (forall k d, In (k, d) (defines cfg) -> macro_name (Language_eqb (language cfg) Cython) d = true) ->
  (forall k d a, In (k, d) (defines cfg) -> denotes k a -> mu d = rho a) ->
  (forall a, In a (atoms c) -> exists k d, In (k, d) (defines cfg) /\ denotes k a) ->
  no_empty c = true ->
  exists cond text e,
    to_condition (defines cfg) c = Some cond /\
    (forall w sp r, w_started w = false -> w_spaces w = sp :: r -> tab_width cfg <> 0 ->
      let le := LineEndingStyle_as_str (line_endings cfg) in
      exists w', run (tab_width cfg) le (write_before cfg (Some cond)) w = Some w' /\
        w_started w' = false /\
        w_out w' = w_out w ++ (if Language_eqb (language cfg) Cython
                               then srepeat " " sp ++ "IF " ++ text ++ ":" ++ le
                               else "#if " ++ text ++ le)) /\
    read_condition (Language_eqb (language cfg) Cython) text = Some e /\
    peval mu e = cfg_eval rho c.
Proof. exact guard_text_exact. Qed.
Print Assumptions C03_guard_text_exact.

Definition ex_defines : list (string * string) :=
  [("unix", "IS_UNIX"); ("feature = x", "HAS_X"); ("windows", "IS_WIN")].
Definition ex_cfg : Cfg :=
  CAny [CNot (CAll [CBoolean "unix"; CNamed "feature" "x"]); CBoolean "windows"].
Example C03_guard_text_exact_applies :
  (forall k d, In (k, d) ex_defines -> macro_name false d = true) /\
  (forall a, In a (atoms ex_cfg) -> exists k d, In (k, d) ex_defines /\ denotes k a) /\
  no_empty ex_cfg = true /\
  option_map (cond_text Cxx) (to_condition ex_defines ex_cfg) =
    Some "(!(defined(IS_UNIX) && defined(HAS_X)) || defined(IS_WIN))".
Proof.
  split; [|split; [|split]].
  - intros k d [H|[H|[H|[]]]]; injection H as <- <-; reflexivity.
  - intros a [<-|[<-|[<-|[]]]].
    + exists "unix", "IS_UNIX". split; [cbn; auto|]. constructor. reflexivity.
    + exists "feature = x", "HAS_X". split; [cbn; auto|].
      exact (den_pair "" "feature" " " " " "x" "" I (conj eq_refl I) (conj eq_refl I) I
               eq_refl eq_refl eq_refl eq_refl).
    + exists "windows", "IS_WIN". split; [cbn; auto|]. constructor. reflexivity.
  - reflexivity.
  - vm_compute. reflexivity.
Qed.

(** Without [no_empty] it fails: [any()] is false in Rust, but the item gets no guard. *)
Theorem C03_empty_any_refuted : forall defs rho,
  cfg_eval rho (CAny []) = false /\ to_condition defs (CAny []) = None.
Proof. split; reflexivity. Qed.

(** Nesting: an item inside a module is guarded by both cfgs. *)
Theorem C03_nested_cfg_meaning : forall rho p c,
  cfg_eval_opt rho (Cfg_append p c) = cfg_eval_opt rho p && cfg_eval_opt rho c.
Proof. exact append_meaning. Qed.

(** The guard does not depend on the order of the [defines] hash map, as long
    as no two keys denote the same atom. *)
Theorem C03_define_order_irrelevant : forall d1 d2,
  Permutation d1 d2 -> NoDup (map fst d1) ->
  (forall k1 m1 k2 m2 a, In (k1, m1) d1 -> In (k2, m2) d1 -> denotes k1 a -> denotes k2 a -> m1 = m2) ->
  forall c, to_condition d1 c = to_condition d2 c.
Proof. exact to_condition_perm. Qed.
Print Assumptions C03_define_order_irrelevant.

(** Two spellings of one key make the output depend on hash order. *)
Theorem C03_define_order_refuted : exists d1 d2 c,
  Permutation d1 d2 /\ NoDup (map fst d1) /\ to_condition d1 c <> to_condition d2 c.
Proof.
  exists [("a = b", "X"); ("a=b", "Y")], [("a=b", "Y"); ("a = b", "X")], (CNamed "a" "b").
  split; [apply perm_swap|]. split.
  - repeat constructor; cbn; intuition discriminate.
  - vm_compute. discriminate.
Qed.

(** C04: whatever the cfg, the printed guard reads back as the condition. *)
Theorem C04_guard_reads_back : forall cfg c cond,
  (forall k d, In (k, d) (defines cfg) -> macro_name (Language_eqb (language cfg) Cython) d = true) ->
  to_condition (defines cfg) c = Some cond ->
  exists text e,
    (forall w sp r, w_started w = false -> w_spaces w = sp :: r -> tab_width cfg <> 0 ->
      let le := LineEndingStyle_as_str (line_endings cfg) in
      exists w', run (tab_width cfg) le (write_before cfg (Some cond)) w = Some w' /\
        w_started w' = false /\
        w_out w' = w_out w ++ (if Language_eqb (language cfg) Cython
                               then srepeat " " sp ++ "IF " ++ text ++ ":" ++ le
                               else "#if " ++ text ++ le)) /\
    read_condition (Language_eqb (language cfg) Cython) text = Some e /\
    forall mu, peval mu e = cond_eval mu cond.
Proof. exact guard_reads_back. Qed.
Print Assumptions C04_guard_reads_back.

(** The same with the operator words of Cython. *)
Example C04_cython_text :
  option_map (cond_text Cython) (to_condition ex_defines ex_cfg) =
    Some "(not (IS_UNIX and HAS_X) or IS_WIN)" /\
  read_condition true "(not (IS_UNIX and HAS_X) or IS_WIN)" =
    Some (EOr (ENot (EAnd (EAtom "IS_UNIX") (EAtom "HAS_X"))) (EAtom "IS_WIN")).
Proof. split; vm_compute; reflexivity. Qed.

(** C06: with unknown atoms the guard can only hide too little, never too
    much, when the polarity condition holds; source flags contain no "=". *)
Theorem C06_unknown_atoms_only_weaken : forall defs rho mu known c,
  (forall k d a, In (k, d) defs -> denotes k a -> mu d = rho a) ->
  (forall a, known a = true <-> exists k d, In (k, d) defs /\ denotes k a) ->
  (forall n, In (Flag n) (atoms c) -> no_eq n) ->
  polarity known true c = true ->
  cfg_eval rho c = true -> cond_eval_opt mu (to_condition defs c) = true.
Proof.
  intros defs rho mu known c H1 H2 H3 H4.
  refine (proj1 (polarity_sound defs rho mu H1 known H2 c _) H4).
  intros [n|k v] Ha; [exact (H3 n Ha)|exact I].
Qed.
Print Assumptions C06_unknown_atoms_only_weaken.

(** In particular when unknown atoms occur only as operands of [all]. *)
Theorem C06_unknown_in_all_only : forall defs rho mu known c,
  (forall k d a, In (k, d) defs -> denotes k a -> mu d = rho a) ->
  (forall a, known a = true <-> exists k d, In (k, d) defs /\ denotes k a) ->
  (forall n, In (Flag n) (atoms c) -> no_eq n) ->
  unknown_only_in_all known c = true ->
  cfg_eval rho c = true -> cond_eval_opt mu (to_condition defs c) = true.
Proof.
  intros defs rho mu known c H1 H2 H3 H4.
  exact (C06_unknown_atoms_only_weaken defs rho mu known c H1 H2 H3 (only_in_all_polarity known c H4)).
Qed.
Print Assumptions C06_unknown_in_all_only.

Example C06_applies :
  let known := fun a => match a with Flag "unix" => true | _ => false end in
  unknown_only_in_all known (CAll [CNot (CBoolean "unix"); CBoolean "foo"]) = true /\
  to_condition [("unix", "U")] (CAll [CNot (CBoolean "unix"); CBoolean "foo"]) = Some (Not (Define "U")).
Proof. split; reflexivity. Qed.

(** It fails otherwise: [any(unix, foo)] with [foo] unknown hides an item that exists. *)
Theorem C06_unknown_under_any_refuted : exists defs rho mu c,
  (forall k d a, In (k, d) defs -> denotes k a -> mu d = rho a) /\
  cfg_eval rho c = true /\ cond_eval_opt mu (to_condition defs c) = false.
Proof.
  exists [("unix", "U")], (fun a => match a with Flag "foo" => true | _ => false end), (fun _ => false),
    (CAny [CBoolean "unix"; CBoolean "foo"]).
  split; [|split; reflexivity].
  intros k d a [H|[]] D. injection H as <- <-.
  pose proof (denotes_load _ _ D) as L. destruct a as [n|k v]; vm_compute in L; [|discriminate].
  injection L as <-. reflexivity.
Qed.
Print Assumptions C06_unknown_under_any_refuted.

(** A guard around well-bracketed code restores the indentation. *)
Theorem C21_guards_bracket : forall c g p, well_bracketed p ->
  well_bracketed (seq (write_before c g) (seq p (write_after c g))).
Proof. exact guards_wb. Qed.
Print Assumptions C21_guards_bracket.
