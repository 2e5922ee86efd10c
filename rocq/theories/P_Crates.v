(** Proofs about the crates that are read (C34). *)
Require Import Coq.Strings.String Coq.Strings.Ascii Coq.Lists.List Coq.Bool.Bool Coq.Arith.Arith Coq.micromega.Lia.
From Verif Require Import Base P_Base M_Config M_Cfg S_Cfg P_Cfg M_Type M_Ir M_Item M_Attr M_Syn M_Library M_Bindings M_Loader M_Parser
  S_Parse P_Exports P_Modules P_Entries.
Import ListNotations.
Open Scope string_scope.
Open Scope list_scope.

Lemma allowed_iff : forall pc seen n, should_parse_dependency pc seen n = true <-> (~ In n seen /\ allowed pc n).
Proof.
  intros pc seen n. unfold should_parse_dependency, allowed. destruct (mem_str n seen) eqn:M.
  - apply mem_str_In in M. split; [discriminate|tauto].
  - apply mem_str_false in M. destruct (pa_parse_deps pc); cbn [negb]; [|split; [discriminate|intros [_ [? _]]; discriminate]].
    destruct (mem_str n (pa_expand_crates pc)) eqn:E.
    + apply mem_str_In in E. split; [auto|reflexivity].
    + apply mem_str_false in E. destruct (pa_include pc) as [l|]; [destruct (mem_str n l) eqn:I; cbn [negb]|].
      * apply mem_str_In in I. rewrite andb_true_iff, !negb_true_iff, !mem_str_false. unfold STD_CRATES. tauto.
      * apply mem_str_false in I. split; [discriminate|tauto].
      * rewrite andb_true_iff, !negb_true_iff, !mem_str_false. unfold STD_CRATES. tauto.
Qed.
Lemma chain_cons : forall c pc p l q g r gs, dependencies c p = Some l -> In (q, g) l -> allowed pc (pk_name q) -> chain c pc q r gs ->
  chain c pc p r (match g with Some x => [x] | None => [] end ++ gs).
Proof.
  intros c pc p l q g r gs D I A C. induction C as [|r s gs l2 g2 C IH D2 I2 A2].
  - rewrite app_nil_r. change (match g with Some x => [x] | None => [] end) with ([] ++ match g with Some x => [x] | None => [] end).
    eapply ch_step; [apply ch_here|eassumption..].
  - rewrite app_assoc. eapply ch_step; eassumption.
Qed.

Section Crates.
  Context {H : Heck}.
  Variables (d : disk) (cargo : Cargo) (config : Config) (bitflags : bool).
  Let pc := parse config.

  Definition load_crates : list reading -> Parse -> option Parse :=
    load_all (fun p r => load_visits (loading_of cargo config bitflags (rd_name r)) (rd_visits r) p).
  Definition all_files (rs : list reading) : list cpath := concat (map (fun r => files_of (rd_visits r)) rs).
  Definition read (rs : list reading) (out : Parse) (s : state) : state :=
    {| ps_crates := rev (map rd_name rs) ++ ps_crates s; ps_sources := ps_sources s ++ firsts (ps_sources s) (all_files rs);
       ps_cfgs := ps_cfgs s; ps_out := out |}.
  Lemma read_read : forall r1 o1 r2 o2 s, read r2 o2 (read r1 o1 s) = read (r1 ++ r2) o2 s.
  Proof.
    intros. unfold read, all_files. cbn [ps_crates ps_sources ps_cfgs]. rewrite !map_app, rev_app_distr, concat_app, firsts_app, !app_assoc.
    reflexivity.
  Qed.
  Lemma read_nil : forall s, read [] (ps_out s) s = s.
  Proof. intros []. unfold read. cbn. rewrite app_nil_r. reflexivity. Qed.
  Lemma pop_read : forall c rs o s, pop_cfg c (read rs o (push_cfg c s)) = read rs o s.
  Proof. intros [x|] rs o s; [|reflexivity]. unfold pop_cfg, push_cfg, set_cfgs, read. cbn. rewrite removelast_last. reflexivity. Qed.
  Lemma push_crates : forall c s, ps_crates (push_cfg c s) = ps_crates s.
  Proof. intros [x|] s; reflexivity. Qed.
  Lemma push_guards : forall c s, ps_cfgs (push_cfg c s) = ps_cfgs s ++ match c with Some x => [x] | None => [] end.
  Proof. intros [x|] s; cbn; [reflexivity|]. symmetry. apply app_nil_r. Qed.

  Lemma source_sound : forall mfuel p s s', parse_crate_source d cargo config bitflags mfuel p s = Parsed s' ->
    exists vs out, crate_modules d cargo pc p (ps_cfgs s) vs
      /\ load_visits (loading_of cargo config bitflags (pk_name p)) vs (ps_out s) = Some out /\ s' = shift (files_of vs) out s.
  Proof.
    intros mfuel p s s' Q. unfold parse_crate_source in Q. fold pc in Q. destruct (mem_str (pk_name p) (pa_expand_crates pc)) eqn:M.
    - apply mem_str_In in M. destruct (cg_expand cargo p) as [items|] eqn:X; [|discriminate].
      change (process_at d (loading_of cargo config bitflags (pk_name p)) mfuel
                {| pl_dirs := None; pl_depth := 0; pl_inline := true; pl_mod_rs := false |} items s = Parsed s') in Q.
      apply process_sound in Q as [vs [V [out [Lo ->]]]].
      exists (self_visit (ps_cfgs s) items :: vs), out. split; [|split; [exact Lo|reflexivity]].
      eapply cm_expanded; [exact M|exact X|]. constructor. exact V.
    - apply mem_str_false in M. destruct (find_crate_src cargo p) as [path|] eqn:F.
      + apply parse_mod_sound in Q as [vs [out [V [Lo ->]]]]. exists vs, out. split; [eapply cm_source; eassumption|]. auto.
      + inv Q. exists [], (ps_out s'). split; [apply cm_unknown; assumption|]. split; [reflexivity|]. symmetry. apply shift_nil.
  Qed.

  Definition sound (enter : PackageRef -> state -> parsing state) : Prop :=
    forall p s s', enter p s = Parsed s' -> ~ In (pk_name p) (ps_crates s) ->
      exists rs out, crates_read d cargo pc (ps_crates s) (ps_cfgs s) p rs /\ load_crates rs (ps_out s) = Some out /\ s' = read rs out s.

  Lemma deps_sound : forall enter, sound enter -> forall p all deps s s', dependencies cargo p = Some all -> incl deps all ->
    each_dependency config enter deps s = Parsed s' ->
    exists rs out, load_crates rs (ps_out s) = Some out /\ s' = read rs out s
      /\ NoDup (map rd_name rs) /\ (forall r, In r rs -> ~ In (rd_name r) (ps_crates s))
      /\ (forall r, In r rs -> exists more, chain cargo pc p (rd_package r) more /\ rd_guards r = ps_cfgs s ++ more)
      /\ (forall r, In r rs -> crate_modules d cargo pc (rd_package r) (rd_guards r) (rd_visits r))
      /\ (forall r, In r rs -> dependencies cargo (rd_package r) <> None)
      /\ (forall r l q g, In r rs -> dependencies cargo (rd_package r) = Some l -> In (q, g) l -> allowed pc (pk_name q) ->
            In (pk_name q) (ps_crates s) \/ In (pk_name q) (map rd_name rs))
      /\ (forall q g, In (q, g) deps -> allowed pc (pk_name q) -> In (pk_name q) (ps_crates s) \/ In (pk_name q) (map rd_name rs)).
  Proof.
    intros enter S p all. induction deps as [|[q cfg] r IH]; intros s s' D I Q; cbn [each_dependency] in Q.
    - inv Q. exists [], (ps_out s'). split; [reflexivity|]. split; [symmetry; apply read_nil|]. split; [constructor|].
      repeat split; intros; contradiction.
    - assert (I' : incl r all) by (intros x Hx; apply I; right; exact Hx).
      destruct (should_parse_dependency (parse config) (ps_crates s) (pk_name q)) eqn:A.
      + apply allowed_iff in A as [F A]. destruct (enter q (push_cfg cfg s)) as [t| | |] eqn:E; try discriminate.
        destruct (S _ _ _ E ltac:(rewrite push_crates; exact F)) as [r1 [o1 [R1 [L1 ->]]]]. rewrite pop_read in Q. rewrite push_out in L1.
        rewrite push_crates, push_guards in R1. destruct R1 as [B1 B2 B3 B4 B5 B6 B7].
        destruct (IH _ _ D I' Q) as [r2 [o2 [L2 [-> [N2 [F2 [C2 [M2 [D2 [K2 W2]]]]]]]]]].
        cbn [read ps_crates ps_cfgs ps_out] in L2, F2, C2, K2, W2.
        exists (r1 ++ r2), o2. split; [unfold load_crates in *; rewrite load_all_app, L1; exact L2|]. split; [apply read_read|].
        rewrite map_app. split; [|split; [|split; [|split; [|split; [|split]]]]].
        * assert (X : forall x, In x (map rd_name r1) -> ~ In x (map rd_name r2)).
          { intros x X1 X2. apply in_map_iff in X2 as [y [<- Y]]. apply (F2 _ Y). apply in_or_app. left. rewrite <- in_rev. exact X1. }
          clear - B2 N2 X. induction (map rd_name r1) as [|x l IHl]; [exact N2|]. inv B2. cbn. constructor.
          -- rewrite in_app_iff. intros [Y|Y]; [contradiction|]. exact (X x (or_introl eq_refl) Y).
          -- apply IHl; [assumption|]. intros y Y. apply X. right. exact Y.
        * intros x X. apply in_app_or in X as [X|X]; [exact (B3 x X)|]. intro Y. apply (F2 x X). apply in_or_app. auto.
        * intros x X. apply in_app_or in X as [X|X].
          -- destruct (B4 x X) as [more [C Eg]]. exists (match cfg with Some y => [y] | None => [] end ++ more). split.
             ++ eapply chain_cons; [exact D|apply I; left; reflexivity|exact A|exact C].
             ++ rewrite Eg, app_assoc. reflexivity.
          -- exact (C2 x X).
        * intros x X. apply in_app_or in X as [X|X]; [exact (B5 x X)|exact (M2 x X)].
        * intros x X. apply in_app_or in X as [X|X]; [exact (B6 x X)|exact (D2 x X)].
        * intros x l y g X Dx Y Al. rewrite in_app_iff. apply in_app_or in X as [X|X].
          -- destruct (B7 x l y g X Dx Y Al); auto.
          -- destruct (K2 x l y g X Dx Y Al) as [Z|Z]; [|auto]. apply in_app_or in Z as [Z|Z]; [|auto]. rewrite <- in_rev in Z. auto.
        * intros y g Y Al. rewrite in_app_iff. destruct Y as [Y|Y].
          -- inv Y. right. left. destruct B1 as [vs [rest ->]]. left. reflexivity.
          -- destruct (W2 y g Y Al) as [Z|Z]; [|auto]. apply in_app_or in Z as [Z|Z]; [|auto]. rewrite <- in_rev in Z. auto.
      + destruct (IH _ _ D I' Q) as [rs [o [L [-> [N [F [C [M [D' [K W]]]]]]]]]].
        exists rs, o. repeat (split; [assumption || reflexivity|]). intros y g [Y|Y] Al; [|exact (W y g Y Al)]. inv Y. left.
        destruct (in_dec string_dec (pk_name y) (ps_crates s)) as [Z|Z]; [exact Z|]. exfalso.
        assert (T : should_parse_dependency (parse config) (ps_crates s) (pk_name y) = true) by (apply allowed_iff; split; assumption). congruence.
  Qed.

  Lemma crate_sound : forall mfuel fuel, sound (parse_crate d cargo config bitflags mfuel fuel).
  Proof.
    intros mfuel. induction fuel as [|n IH]; intros p s s' Q F; [discriminate|]. cbn [parse_crate] in Q.
    destruct (parse_crate_source d cargo config bitflags mfuel p (add_crate (pk_name p) s)) as [t| | |] eqn:E; try discriminate.
    apply source_sound in E as [vs [o [M [L ->]]]]. cbn [add_crate ps_cfgs ps_out] in M, L.
    destruct (dependencies cargo p) as [deps|] eqn:D; [|discriminate].
    destruct (deps_sound _ IH p deps deps _ _ D ltac:(intros x Hx; exact Hx) Q) as [rs [out [L2 [-> [N [F2 [C [M2 [D2 [K W]]]]]]]]]].
    cbn [shift add_crate ps_out ps_crates ps_cfgs] in L2, F2, C, K, W.
    set (r0 := {| rd_package := p; rd_guards := ps_cfgs s; rd_visits := vs |}).
    exists (r0 :: rs), out. split; [|split].
    - constructor.
      + exists vs, rs. reflexivity.
      + cbn. constructor; [|exact N]. intro X. apply in_map_iff in X as [y [E Y]]. apply (F2 y Y). left. symmetry. exact E.
      + intros r [<- |X]; [exact F|]. intro Y. apply (F2 r X). right. exact Y.
      + intros r [<- |X]; [|exact (C r X)]. exists []. split; [apply ch_here|]. symmetry. apply app_nil_r.
      + intros r [<- |X]; [exact M|exact (M2 r X)].
      + intros r [<- |X]; [cbn; congruence|exact (D2 r X)].
      + intros r l q g [<- |X] Dl I A.
        * cbn in Dl. rewrite D in Dl. inv Dl. destruct (W q g I A) as [[Y|Y]|Y]; [right; left; exact Y|left; exact Y|right; right; exact Y].
        * destruct (K r l q g X Dl I A) as [[Y|Y]|Y]; [right; left; exact Y|left; exact Y|right; right; exact Y].
    - change (match load_visits (loading_of cargo config bitflags (pk_name p)) vs (ps_out s) with Some q => load_crates rs q | None => None end
              = Some out). rewrite L. exact L2.
    - unfold read, shift, all_files. unfold r0, rd_name at 2. cbn [ps_crates ps_sources ps_cfgs add_crate map rev concat rd_visits rd_package].
      rewrite firsts_app, <- !app_assoc. reflexivity.
  Qed.

  (** Every package reached is read if names do not repeat. *)
  Lemma all_reached : forall p rs, crates_read d cargo pc [] [] p rs -> one_version cargo pc p ->
    forall q gs, chain cargo pc p q gs -> In q (map rd_package rs).
  Proof.
    intros p rs R U q gs C. induction C as [|q r gs l g C IH D I A].
    - destruct (cr_first _ _ _ _ _ _ _ R) as [vs [rest ->]]. left. reflexivity.
    - apply in_map_iff in IH as [x [E X]]. rewrite <- E in D.
      destruct (cr_closed _ _ _ _ _ _ _ R x l r g X D I A) as [[]|Y]. apply in_map_iff in Y as [y [N Y]].
      destruct (cr_reached _ _ _ _ _ _ _ R y Y) as [more [C2 _]].
      assert (rd_package y = r); [|subst r; apply in_map; exact Y].
      eapply U; [exact C2| |exact N]. rewrite E in D. exact (ch_step _ _ _ _ _ _ _ _ C D I A).
  Qed.

  (** ** It ends *)
  Definition lock_packages : list lock_package :=
    match cg_lock cargo with
    | None => []
    | Some l => match lk_root l with Some r => [r] | None => [] end ++ match lk_package l with Some ps => ps | None => [] end
    end.
  Definition lock_strings : list string :=
    concat (map (fun l => match lp_dependencies l with Some x => x | None => [] end) lock_packages).
  Definition dep_ref (s : string) : option PackageRef :=
    match parse_dep_string s with
    | Some nv => Some {| pk_name := fst nv; pk_version := match snd nv with Some v => Some v | None => only_version cargo (fst nv) end |}
    | None => None
    end.
  Definition lock_refs : list PackageRef := filter_map dep_ref lock_strings.
  Lemma strings_in : forall p x, In x (lock_dependencies cargo p) -> In x lock_strings.
  Proof.
    intros p x. unfold lock_dependencies, lock_strings, lock_packages. destruct (cg_lock cargo) as [l|]; [|intros []].
    set (in_root := match lk_root l with Some r => if lock_matches p r then lp_dependencies r else None | None => None end).
    intro Q. destruct in_root as [a|] eqn:R.
    - unfold in_root in R. destruct (lk_root l) as [r|]; [|discriminate]. destruct (lock_matches p r); [|discriminate].
      cbn. rewrite R. apply in_or_app. left. exact Q.
    - destruct (lk_package l) as [ps|]; [|destruct Q]. destruct (find (lock_matches p) ps) as [y|] eqn:F; [|destruct Q].
      apply find_some in F as [F _]. rewrite map_app, concat_app. apply in_or_app. right. apply in_concat.
      exists (match lp_dependencies y with Some x => x | None => [] end). split; [|exact Q].
      apply in_map_iff. exists y. split; [reflexivity|exact F].
  Qed.
  Lemma map_opt_in : forall A B (f : A -> option B) l m y, map_opt f l = Some m -> In y m -> exists x, In x l /\ f x = Some y.
  Proof.
    intros A B f. induction l as [|x r IH]; intros m y Q I; cbn in Q.
    - inv Q. destruct I.
    - destruct (f x) as [b|] eqn:E; [|discriminate]. destruct (map_opt f r) as [m'|]; [|discriminate]. inv Q.
      destruct I as [<- |I]; [exists x; split; [left; reflexivity|exact E]|].
      destruct (IH _ _ eq_refl I) as [z [Z1 Z2]]. exists z. split; [right; exact Z1|exact Z2].
  Qed.
  Lemma dependency_ref : forall p l q g, dependencies cargo p = Some l -> In (q, g) l -> In q lock_refs.
  Proof.
    intros p l q g D I. destruct (map_opt_in _ _ _ _ _ _ D I) as [x [X E]]. apply strings_in in X.
    unfold lock_refs. assert (R : dep_ref x = Some q).
    { unfold dependency in E. unfold dep_ref. destruct (parse_dep_string x) as [nv|]; [|discriminate]. inv E. reflexivity. }
    clear - X R. induction lock_strings as [|y r IH]; [destruct X|]. cbn. destruct X as [-> |X].
    - rewrite R. left. reflexivity.
    - destruct (dep_ref y); [right|]; exact (IH X).
  Qed.

  Definition unseen (seen : list string) : nat :=
    length (filter (fun n => negb (mem_str n seen)) (nodup string_dec (map pk_name lock_refs))).
  Lemma filter_le : forall A (f g : A -> bool) l, (forall x, In x l -> f x = true -> g x = true) -> length (filter f l) <= length (filter g l).
  Proof.
    intros A f g. induction l as [|x r IH]; intro Q; [apply le_n|]. cbn.
    assert (T : length (filter f r) <= length (filter g r)) by (apply IH; intros; apply Q; [right; assumption|assumption]).
    destruct (f x) eqn:F; [rewrite (Q x (or_introl eq_refl) F); cbn; lia|]. destruct (g x); cbn; lia.
  Qed.
  Lemma filter_lt : forall A (f g : A -> bool) l y, (forall x, In x l -> f x = true -> g x = true) -> In y l -> f y = false -> g y = true ->
    length (filter f l) < length (filter g l).
  Proof.
    intros A f g. induction l as [|x r IH]; intros y Q I F G; [destruct I|]. cbn.
    assert (Q' : forall z, In z r -> f z = true -> g z = true) by (intros; apply Q; [right; assumption|assumption]).
    destruct I as [-> |I].
    - rewrite F, G. cbn. pose proof (filter_le A f g r Q'). lia.
    - pose proof (IH y Q' I F G). destruct (f x) eqn:E; [rewrite (Q x (or_introl eq_refl) E); cbn; lia|]. destruct (g x); cbn; lia.
  Qed.
  Lemma unseen_le : forall a b, incl a b -> unseen b <= unseen a.
  Proof.
    intros a b I. apply filter_le. intros x _. rewrite !negb_true_iff, !mem_str_false. intros N Q. apply N. apply I. exact Q.
  Qed.
  Lemma unseen_lt : forall a n, In n (map pk_name lock_refs) -> ~ In n a -> unseen (n :: a) < unseen a.
  Proof.
    intros a n I N. apply filter_lt with (y := n).
    - intros x _. rewrite !negb_true_iff, !mem_str_false. intros M Q. apply M. right. exact Q.
    - apply nodup_In. exact I.
    - apply negb_false_iff, mem_str_In. left. reflexivity.
    - apply negb_true_iff, mem_str_false. exact N.
  Qed.

  Lemma crate_ends : forall mfuel p0, (forall q s, q = p0 \/ In q lock_refs -> parse_crate_source d cargo config bitflags mfuel q s <> Endless) ->
    forall fuel p s, p = p0 \/ In p lock_refs -> ~ In (pk_name p) (ps_crates s) -> unseen (pk_name p :: ps_crates s) < fuel ->
      parse_crate d cargo config bitflags mfuel fuel p s <> Endless.
  Proof.
    intros mfuel p0 Src. induction fuel as [|n IH]; intros p s P F L; [lia|]. cbn [parse_crate].
    destruct (parse_crate_source d cargo config bitflags mfuel p (add_crate (pk_name p) s)) as [t| | |] eqn:E; try discriminate.
    2: { exfalso. exact (Src _ _ P E). }
    apply source_sound in E as [vs [o [_ [_ ->]]]].
    destruct (dependencies cargo p) as [deps|] eqn:D; [|discriminate].
    assert (G : forall l t, incl l deps -> incl (pk_name p :: ps_crates s) (ps_crates t) ->
      each_dependency config (parse_crate d cargo config bitflags mfuel n) l t <> Endless).
    { induction l as [|[q g] r IHl]; intros t I C; [discriminate|]. cbn [each_dependency].
      assert (I' : incl r deps) by (intros x Hx; apply I; right; exact Hx).
      destruct (should_parse_dependency (parse config) (ps_crates t) (pk_name q)) eqn:A; [|apply IHl; assumption].
      apply allowed_iff in A as [A _].
      assert (R : In q lock_refs) by (eapply dependency_ref; [exact D|apply I; left; reflexivity]).
      destruct (parse_crate d cargo config bitflags mfuel n q (push_cfg g t)) as [u| | |] eqn:E; try discriminate.
      - destruct (crate_sound _ _ _ _ _ E ltac:(rewrite push_crates; exact A)) as [rs [o2 [_ [_ ->]]]]. rewrite pop_read. apply IHl; [exact I'|].
        cbn [read ps_crates]. intros x Hx. apply in_or_app. right. apply C. exact Hx.
      - exfalso. revert E. apply IH; [right; exact R|rewrite push_crates; exact A|]. rewrite push_crates.
        pose proof (unseen_lt (ps_crates t) (pk_name q) (in_map _ _ _ R) A). pose proof (unseen_le _ _ C). lia. }
    apply G; [intros x Hx; exact Hx|]. cbn [shift add_crate ps_crates]. intros x Hx. exact Hx.
  Qed.

  (** Texts that came expanded have a depth. *)
  Fixpoint item_depth (i : sitem) : nat :=
    match i with
    | ItemMod _ _ (Some l) => S (fold_right (fun j m => Nat.max (item_depth j) m) 0 l)
    | _ => 0
    end.
  Definition items_depth (l : list sitem) : nat := fold_right (fun j m => Nat.max (item_depth j) m) 0 l.
  Lemma depth_in : forall l i, In i l -> item_depth i <= items_depth l.
  Proof. induction l as [|x r IH]; intros i []; cbn; [subst; lia|]. pose proof (IH i H0). unfold items_depth in *. lia. Qed.
  Lemma inline_ends : forall ld fuel pl items s, pl_dirs pl = None -> items_depth items < fuel -> process_at d ld fuel pl items s <> Endless.
  Proof.
    intros ld. induction fuel as [|n IH]; intros pl items s P L; [lia|]. rewrite process_step.
    destruct (load_syn_crate_mod ld (Cfg_join (ps_cfgs s)) items (ps_out s)) as [o|]; [|discriminate].
    assert (G : forall mods t, incl mods (nested_modules items) ->
      each_module (enter_module d (process_mod d ld n) (pl_dirs pl) (pl_depth pl) (pl_inline pl) (pl_mod_rs pl)) mods t <> Endless).
    { induction mods as [|[[attrs ident] content] r IHm]; intros t I; [discriminate|]. cbn [each_module fst].
      assert (I' : incl r (nested_modules items)) by (intros x Hx; apply I; right; exact Hx).
      destruct (enter_module d (process_mod d ld n) (pl_dirs pl) (pl_depth pl) (pl_inline pl) (pl_mod_rs pl) (attrs, ident, content)
                  (push_cfg (Cfg_of_attrs attrs) t)) as [u| | |] eqn:E; try discriminate; [apply IHm; exact I'|].
      exfalso. destruct content as [inside|].
      - rewrite enter_inline in E. revert E. apply IH.
        + unfold inline_place. cbn. rewrite P. reflexivity.
        + assert (M : In (ItemMod attrs ident (Some inside)) items) by (apply nested_in; apply I; left; reflexivity).
          apply depth_in in M. cbn [item_depth] in M. unfold items_depth in *. lia.
      - rewrite enter_file in E. unfold module_file in E. rewrite P in E. discriminate. }
    apply G. intros x Hx. exact Hx.
  Qed.
  Lemma list_bound : forall (P : PackageRef -> nat -> Prop), (forall q, exists n, P q n) -> (forall q n m, P q n -> n <= m -> P q m) ->
    forall l, exists n, forall q, In q l -> P q n.
  Proof.
    intros P E Mo. induction l as [|x r [n IH]]; [exists 0; intros ? []|]. destruct (E x) as [m X].
    exists (Nat.max n m). intros q [<- |Q]; [apply (Mo x m); [exact X|lia]|apply (Mo q n); [exact (IH q Q)|lia]].
  Qed.
  Lemma source_ends : forall longest, (forall path, dk_exists d path = true -> length path <= longest) ->
    (forall path items, dk_items d path = Some items -> usual items) ->
    forall p, exists n, forall mfuel s, n <= mfuel -> parse_crate_source d cargo config bitflags mfuel p s <> Endless.
  Proof.
    intros longest Fin Us p. unfold parse_crate_source. destruct (mem_str (pk_name p) (pa_expand_crates (parse config))).
    - destruct (cg_expand cargo p) as [items|]; [|exists 0; intros; discriminate]. exists (S (items_depth items)). intros mfuel s L.
      exact (inline_ends (loading_of cargo config bitflags (pk_name p)) mfuel
               {| pl_dirs := None; pl_depth := 0; pl_inline := true; pl_mod_rs := false |} items s eq_refl L).
    - destruct (find_crate_src cargo p) as [path|]; [|exists 0; intros; discriminate].
      exact (P_Modules.crate_ends d (loading_of cargo config bitflags (pk_name p)) longest Fin Us path).
  Qed.
  Lemma crates_end : forall longest, (forall path, dk_exists d path = true -> length path <= longest) ->
    (forall path items, dk_items d path = Some items -> usual items) ->
    forall p, exists n, forall mfuel fuel, n <= mfuel -> n <= fuel -> parse_crate d cargo config bitflags mfuel fuel p state_new <> Endless.
  Proof.
    intros longest Fin Us p.
    destruct (list_bound (fun q n => forall mfuel s, n <= mfuel -> parse_crate_source d cargo config bitflags mfuel q s <> Endless)
                (source_ends longest Fin Us) ltac:(intros q n m X L mfuel s M; apply X; lia) (p :: lock_refs)) as [n B].
    exists (Nat.max n (S (unseen [pk_name p]))). intros mfuel fuel L1 L2. apply (crate_ends mfuel p).
    - intros q s [-> |Q]; apply B; try lia; [left; reflexivity|right; exact Q].
    - auto.
    - intros [].
    - cbn. lia.
  Qed.
End Crates.

(** ** What comes out *)
Lemma binds_ext : forall h1 h2 d f, (forall rho, h1 rho = h2 rho) -> binds h1 d f -> binds h2 d f.
Proof. intros h1 h2 d f E [A1 A2 A3 A4 A5 A6 A7 A8]. constructor; try assumption. intro rho. rewrite <- E. apply A6. Qed.
Lemma bound_ext : forall h1 h2 ds fs, (forall rho, h1 rho = h2 rho) -> bound h1 ds fs -> bound h2 ds fs.
Proof.
  intros h1 h2 ds fs E B. induction B; [constructor|apply bo_take; [eapply binds_ext; eassumption|assumption]|apply bo_drop; assumption].
Qed.
Section Output.
  Context {H : Heck}.
  Lemma visits_functions : forall ld vs p q, top_level ld = true -> (forall v, In v vs -> Forall item_ok (vi_items v)) ->
    load_visits ld vs p = Some q -> exists fss, Forall2 functions_of vs fss /\ pr_functions q = pr_functions p ++ concat fss.
  Proof.
    intros ld. induction vs as [|v r IH]; intros p q T X Q.
    - inv Q. exists []. split; [constructor|]. rewrite app_nil_r. reflexivity.
    - cbn in Q. destruct (load_syn_crate_mod ld (Cfg_join (vi_guards v)) (vi_items v) p) as [p1|] eqn:E; [|discriminate].
      destruct (module_functions ld _ _ _ _ T (X v (or_introl eq_refl)) E) as [ds [C [fs [B F]]]].
      destruct (IH _ _ T ltac:(intros; apply X; right; assumption) Q) as [fss [G F2]]. exists (fs :: fss). split.
      + constructor; [|exact G]. exists ds. split; [exact C|]. eapply bound_ext; [|exact B]. intro rho. apply join_meaning.
      + rewrite F2, F. cbn. rewrite app_assoc. reflexivity.
  Qed.
  Lemma visits_none : forall ld vs p q, top_level ld = false -> load_visits ld vs p = Some q -> pr_functions q = pr_functions p.
  Proof.
    intros ld. induction vs as [|v r IH]; intros p q T Q; [inv Q; reflexivity|]. cbn in Q.
    destruct (load_syn_crate_mod ld (Cfg_join (vi_guards v)) (vi_items v) p) as [p1|] eqn:E; [|discriminate].
    rewrite (IH _ _ T Q). eapply module_none; eassumption.
  Qed.
  Variables (cargo : Cargo) (config : Config) (bitflags : bool).
  Let pc := parse config.
  Lemma top_level_iff : forall n, top_level (loading_of cargo config bitflags n) = true <-> has_bindings cargo pc n.
  Proof.
    intro n. unfold top_level, should_generate_top_level_item, has_bindings. cbn [ld_config ld_crate ld_binding loading_of].
    destruct (String.eqb n (cg_binding_crate_name cargo)) eqn:E.
    - apply String.eqb_eq in E. tauto.
    - apply String.eqb_neq in E. rewrite mem_str_In. fold pc. tauto.
  Qed.
  Lemma crates_functions : forall rs p q, (forall r v, In r rs -> In v (rd_visits r) -> Forall item_ok (vi_items v)) ->
    load_crates cargo config bitflags rs p = Some q ->
    exists fsss, Forall2 (crate_functions cargo pc) rs fsss /\ pr_functions q = pr_functions p ++ concat (concat fsss).
  Proof.
    induction rs as [|r rs IH]; intros p q X Q.
    - inv Q. exists []. split; [constructor|]. rewrite app_nil_r. reflexivity.
    - unfold load_crates in Q. cbn [load_all] in Q.
      destruct (load_visits (loading_of cargo config bitflags (rd_name r)) (rd_visits r) p) as [p1|] eqn:E; [|discriminate].
      destruct (IH _ _ ltac:(intros; eapply X; [right|]; eassumption) Q) as [fsss [G F2]].
      destruct (top_level (loading_of cargo config bitflags (rd_name r))) eqn:T.
      + destruct (visits_functions _ _ _ _ T ltac:(intros v I; eapply X; [left; reflexivity|exact I]) E) as [fss [G1 F1]].
        exists (fss :: fsss). split.
        * constructor; [|exact G]. split; [intros _; exact G1|]. intro N. apply top_level_iff in T. contradiction.
        * rewrite F2, F1. cbn. rewrite concat_app, app_assoc. reflexivity.
      + exists ([] :: fsss). split.
        * constructor; [|exact G]. split; [|reflexivity]. intro N. apply top_level_iff in N. congruence.
        * rewrite F2, (visits_none _ _ _ _ T E). reflexivity.
  Qed.
  Lemma crates_grow : forall rs p q, (forall r v, In r rs -> In v (rd_visits r) -> plain_blocks v /\ exports_ok v) ->
    load_crates cargo config bitflags rs p = Some q -> grows (from_crates rs) p q.
  Proof.
    induction rs as [|r rs IH]; intros p q X Q; [inv Q; apply grows_refl|]. unfold load_crates in Q. cbn [load_all] in Q.
    destruct (load_visits (loading_of cargo config bitflags (rd_name r)) (rd_visits r) p) as [p1|] eqn:E; [|discriminate].
    eapply grows_trans.
    - eapply grows_weaken; [|eapply visits_grow; [|exact E]; intros v I; eapply X; [left; reflexivity|exact I]].
      intros e [v [I F]]. exists r, v. split; [left; reflexivity|]. auto.
    - eapply grows_weaken; [|apply IH; [|exact Q]; intros; eapply X; [right|]; eassumption].
      intros e [r' [v [I F]]]. exists r', v. split; [right; exact I|exact F].
  Qed.
  Lemma crates_present : forall rs p q, all_keyed p -> load_crates cargo config bitflags rs p = Some q ->
    all_keyed q /\ kept p q /\
    forall r v i k n, In r rs -> In v (rd_visits r) -> In i (vi_items v) -> should_skip_parsing (item_attrs i) = false -> defines_type i k n ->
      has_type k n q.
  Proof.
    induction rs as [|r rs IH]; intros p q K Q.
    - inv Q. split; [exact K|]. split; [apply grows_refl|intros ? ? ? ? ? []].
    - unfold load_crates in Q. cbn [load_all] in Q.
      destruct (load_visits (loading_of cargo config bitflags (rd_name r)) (rd_visits r) p) as [p1|] eqn:E; [|discriminate].
      destruct (visits_present H _ _ _ _ K E) as [[K1 G1] R1]. destruct (IH _ _ K1 Q) as [K2 [G2 R2]].
      split; [exact K2|]. split; [eapply grows_trans; eassumption|].
      intros r' v i k n [<- |I] V J N D; [|exact (R2 r' v i k n I V J N D)].
      eapply type_kept; [exact G2|]. exact (R1 v i k n V J N D).
  Qed.
End Output.
