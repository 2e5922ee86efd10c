(** Proofs about the modules of a crate (C33, C40). *)
Require Import Coq.Strings.String Coq.Strings.Ascii Coq.Lists.List Coq.Bool.Bool Coq.Arith.Arith Coq.micromega.Lia.
From Verif Require Import Base P_Base M_Config M_Cfg S_Cfg P_Cfg M_Type M_Ir M_Item M_Attr M_Syn M_Library M_Bindings M_Loader M_Parser
  P_Attr S_Parse P_Exports.
Import ListNotations.
Open Scope string_scope.

Lemma mem_path_In : forall p l, mem_path p l = true <-> In p l.
Proof.
  intros p l. induction l as [|q r IH]; cbn; [split; [discriminate|contradiction]|].
  destruct (list_eq_dec string_dec p q) as [-> | N]; cbn; [tauto|]. rewrite IH. split; [auto|]. intros [E|E]; [congruence|exact E].
Qed.
Lemma firsts_app : forall l1 l2 seen, firsts seen (l1 ++ l2) = (firsts seen l1 ++ firsts (seen ++ firsts seen l1) l2)%list.
Proof.
  induction l1 as [|x r IH]; intros l2 seen; cbn; [rewrite app_nil_r; reflexivity|].
  destruct (mem_path x seen); [apply IH|]. rewrite IH. cbn. rewrite <- app_assoc. reflexivity.
Qed.
Lemma files_app : forall a b, files_of (a ++ b) = (files_of a ++ files_of b)%list.
Proof.
  intros a b. unfold files_of. induction a as [|v r IH]; cbn; [reflexivity|]. destruct (vi_file v); cbn; rewrite IH; reflexivity.
Qed.

(** Loading the modules one after the other *)
Definition load_visits {H : Heck} (ld : loading) : list visit -> Parse -> option Parse :=
  load_all (fun p v => load_syn_crate_mod ld (Cfg_join (vi_guards v)) (vi_items v) p).
Lemma load_all_app : forall A (f : Parse -> A -> option Parse) l1 l2 p,
  load_all f (l1 ++ l2) p = match load_all f l1 p with Some q => load_all f l2 q | None => None end.
Proof. intros A f l1 l2. induction l1 as [|x r IH]; intro p; cbn; [reflexivity|]. destruct (f p x); [apply IH|reflexivity]. Qed.

Definition shift (files : list cpath) (out : Parse) (s : state) : state :=
  {| ps_crates := ps_crates s; ps_sources := (ps_sources s ++ firsts (ps_sources s) files)%list; ps_cfgs := ps_cfgs s; ps_out := out |}.
Lemma shift_shift : forall f1 o1 f2 o2 s, shift f2 o2 (shift f1 o1 s) = shift (f1 ++ f2) o2 s.
Proof. intros. unfold shift. cbn. rewrite firsts_app, app_assoc. reflexivity. Qed.
Lemma state_eq : forall s, s = {| ps_crates := ps_crates s; ps_sources := ps_sources s; ps_cfgs := ps_cfgs s; ps_out := ps_out s |}.
Proof. intros []. reflexivity. Qed.
Lemma shift_nil : forall s, shift [] (ps_out s) s = s.
Proof. intro s. unfold shift. cbn. rewrite app_nil_r. symmetry. apply state_eq. Qed.
Lemma add_source_shift : forall p s, add_source p s = shift [p] (ps_out s) s.
Proof.
  intros p s. unfold add_source, shift. cbn. destruct (mem_path p (ps_sources s)); [|reflexivity]. rewrite app_nil_r. apply state_eq.
Qed.
Lemma push_cfgs : forall attrs s, ps_cfgs (push_cfg (Cfg_of_attrs attrs) s) = inner (ps_cfgs s) attrs.
Proof. intros attrs s. unfold push_cfg, inner. destruct (Cfg_of_attrs attrs); [reflexivity|rewrite app_nil_r; reflexivity]. Qed.
Lemma pop_push : forall c f o s, pop_cfg c (shift f o (push_cfg c s)) = shift f o s.
Proof.
  intros [x|] f o s; [|reflexivity]. unfold pop_cfg, push_cfg, set_cfgs, shift. cbn. rewrite removelast_last. reflexivity.
Qed.
Lemma push_out : forall c s, ps_out (push_cfg c s) = ps_out s.
Proof. intros [x|] s; reflexivity. Qed.
Lemma push_sources : forall c s, ps_sources (push_cfg c s) = ps_sources s.
Proof. intros [x|] s; reflexivity. Qed.

Lemma pop_push_only : forall c s, pop_cfg c (push_cfg c s) = s.
Proof.
  intros [x|] s; [|reflexivity]. unfold pop_cfg, push_cfg, set_cfgs. cbn. rewrite removelast_last. symmetry. apply state_eq.
Qed.

Section Process.
  Context {H : Heck}.
  Variables (d : disk) (ld : loading).

  Definition process_at (fuel : nat) (pl : place) (items : list sitem) : state -> parsing state :=
    process_mod d ld fuel (pl_dirs pl) items (pl_depth pl) (pl_inline pl) (pl_mod_rs pl).
  Definition self_visit (gs : list Cfg) (items : list sitem) : visit := {| vi_file := None; vi_guards := gs; vi_items := items |}.

  (** The file of a module, or the text it is in, as one step *)
  Lemma enter_file : forall process pl attrs ident s,
    enter_module d process (pl_dirs pl) (pl_depth pl) (pl_inline pl) (pl_mod_rs pl) (attrs, ident, None) s
    = match module_file d pl attrs (unraw ident) with
      | Some file => parse_mod_with d process file (S (pl_depth pl)) s
      | None => Parsed s
      end.
  Proof.
    intros process pl attrs ident s. unfold enter_module, module_file. destruct (pl_dirs pl) as [[dir subdir]|]; [|reflexivity].
    destruct (dk_exists d (subdir ++ [append (unraw ident) ".rs"])%list); [reflexivity|].
    destruct (dk_exists d (subdir ++ [unraw ident; "mod.rs"])%list); [reflexivity|].
    destruct (path_attr attrs); reflexivity.
  Qed.
  Lemma parse_mod_file : forall fuel file depth s,
    parse_mod_with d (process_mod d ld fuel) file depth s
    = match dk_items d file with Some items => process_at fuel (file_place file depth) items (add_source file s) | None => Failed end.
  Proof. intros. reflexivity. Qed.
  Lemma enter_inline : forall fuel pl attrs ident items s,
    enter_module d (process_mod d ld fuel) (pl_dirs pl) (pl_depth pl) (pl_inline pl) (pl_mod_rs pl) (attrs, ident, Some items) s
    = process_at fuel (inline_place pl (unraw ident)) items s.
  Proof. intros. reflexivity. Qed.
  Lemma process_step : forall n pl items s,
    process_at (S n) pl items s
    = match load_syn_crate_mod ld (Cfg_join (ps_cfgs s)) items (ps_out s) with
      | None => Panicked
      | Some out => each_module (enter_module d (process_mod d ld n) (pl_dirs pl) (pl_depth pl) (pl_inline pl) (pl_mod_rs pl))
                      (nested_modules items) (set_out out s)
      end.
  Proof. reflexivity. Qed.

  (** What comes out of a run is what its visits give. *)
  Definition fits (pl : place) (gs : list Cfg) (items : list sitem) (s s' : state) : Prop :=
    exists vs, submodules d pl gs (nested_modules items) vs
      /\ exists out, load_visits ld (self_visit gs items :: vs) (ps_out s) = Some out /\ s' = shift (files_of vs) out s.

  Lemma process_sound : forall fuel pl items s s', process_at fuel pl items s = Parsed s' -> fits pl (ps_cfgs s) items s s'.
  Proof.
    induction fuel as [|n IH]; intros pl items s s' Q; [discriminate|]. rewrite process_step in Q.
    destruct (load_syn_crate_mod ld (Cfg_join (ps_cfgs s)) items (ps_out s)) as [out|] eqn:L; [|discriminate].
    enough (G : forall mods t t', each_module (enter_module d (process_mod d ld n) (pl_dirs pl) (pl_depth pl) (pl_inline pl) (pl_mod_rs pl))
                    mods t = Parsed t' ->
              exists vs, submodules d pl (ps_cfgs t) mods vs
                /\ exists out, load_visits ld vs (ps_out t) = Some out /\ t' = shift (files_of vs) out t).
    { destruct (G _ _ _ Q) as [vs [V [o [Lo ->]]]]. exists vs. split; [exact V|]. exists o. split.
      - cbn. rewrite L. exact Lo.
      - reflexivity. }
    clear Q L out s s' items. induction mods as [|[[attrs ident] content] r IHm]; intros t t' Q.
    - cbn in Q. inv Q. exists []. split; [constructor|]. exists (ps_out t'). split; [reflexivity|]. symmetry. apply shift_nil.
    - cbn [each_module fst] in Q. set (u := push_cfg (Cfg_of_attrs attrs) t) in Q.
      destruct content as [items|].
      + rewrite enter_inline in Q.
        destruct (process_at n (inline_place pl (unraw ident)) items u) as [u'| | |] eqn:P; try discriminate.
        apply IH in P as [vs [V [o [Lo ->]]]]. unfold u in Q. rewrite pop_push in Q.
        destruct (IHm _ _ Q) as [ws [W [o2 [L2 ->]]]]. cbn [ps_cfgs shift] in W. cbn [ps_out shift] in L2.
        exists (self_visit (inner (ps_cfgs t) attrs) items :: vs ++ ws)%list. split.
        * change (self_visit (inner (ps_cfgs t) attrs) items :: vs ++ ws)%list
            with ((self_visit (inner (ps_cfgs t) attrs) items :: vs) ++ ws)%list.
          constructor; [|exact W]. constructor. unfold u in V. rewrite push_cfgs in V. exact V.
        * exists o2. rewrite app_comm_cons. unfold load_visits. rewrite load_all_app. unfold u in Lo. rewrite push_cfgs, push_out in Lo.
          unfold load_visits in Lo. rewrite Lo. split; [exact L2|]. rewrite shift_shift, files_app. reflexivity.
      + rewrite enter_file in Q. destruct (module_file d pl attrs (unraw ident)) as [file|] eqn:M.
        * rewrite parse_mod_file in Q. destruct (dk_items d file) as [items|] eqn:D; [|discriminate].
          destruct (process_at n (file_place file (S (pl_depth pl))) items (add_source file u)) as [u'| | |] eqn:P; try discriminate.
          rewrite add_source_shift in P. apply IH in P as [vs [V [o [Lo ->]]]]. rewrite shift_shift in Q. unfold u in Q. rewrite pop_push in Q.
          destruct (IHm _ _ Q) as [ws [W [o2 [L2 ->]]]]. cbn [ps_cfgs shift] in W. cbn [ps_out shift] in L2.
          exists (({| vi_file := Some file; vi_guards := inner (ps_cfgs t) attrs; vi_items := items |} :: vs) ++ ws)%list. split.
          -- eapply su_file; [exact M|exact D| |exact W]. constructor. unfold u in V. cbn [ps_cfgs shift] in V. rewrite push_cfgs in V. exact V.
          -- exists o2. unfold load_visits. rewrite load_all_app. unfold u in Lo. cbn [ps_cfgs ps_out shift] in Lo.
             rewrite push_cfgs, push_out in Lo. unfold load_visits in Lo.
             change (load_all (fun p v => load_syn_crate_mod ld (Cfg_join (vi_guards v)) (vi_items v) p)
                       ({| vi_file := Some file; vi_guards := inner (ps_cfgs t) attrs; vi_items := items |} :: vs) (ps_out t))
               with (load_all (fun p v => load_syn_crate_mod ld (Cfg_join (vi_guards v)) (vi_items v) p)
                       (self_visit (inner (ps_cfgs t) attrs) items :: vs) (ps_out t)).
             rewrite Lo. split; [exact L2|]. rewrite shift_shift, files_app. cbn. reflexivity.
        * unfold u in Q. rewrite pop_push_only in Q. destruct (IHm _ _ Q) as [ws [W R]].
          exists ws. split; [apply su_missing; assumption|exact R].
  Qed.

  (** Conversely the visits determine what comes out, given enough fuel. *)
  Definition outcome_of (vs : list visit) (files : list cpath) (s : state) (r : parsing state) : Prop :=
    match load_visits ld vs (ps_out s) with Some out => r = Parsed (shift files out s) | None => r = Panicked end.
  Lemma visits_complete :
    (forall file pl gs items vs, visits d file pl gs items vs ->
       exists n, forall fuel s, n <= fuel -> ps_cfgs s = gs -> outcome_of vs (files_of (tl vs)) s (process_at fuel pl items s))
    /\ (forall pl gs mods vs, submodules d pl gs mods vs ->
       exists n, forall fuel s, n <= fuel -> ps_cfgs s = gs ->
         outcome_of vs (files_of vs) s
           (each_module (enter_module d (process_mod d ld fuel) (pl_dirs pl) (pl_depth pl) (pl_inline pl) (pl_mod_rs pl)) mods s)).
  Proof.
    apply visits_mutind.
    - intros file pl gs items vs _ [n IH]. exists (S n). intros [|fuel] s L E; [lia|]. rewrite process_step. unfold outcome_of. cbn.
      rewrite E. destruct (load_syn_crate_mod ld (Cfg_join gs) items (ps_out s)) as [out|]; [|reflexivity].
      apply (IH fuel (set_out out s)); [lia|exact E].
    - intros pl gs. exists 0. intros fuel s _ E. unfold outcome_of. cbn. f_equal. symmetry. apply shift_nil.
    - intros pl gs attrs ident items ms vs ws V [n1 IH1] _ [n2 IH2]. exists (n1 + n2). intros fuel s L E.
      cbn [each_module fst]. rewrite enter_inline.
      specialize (IH1 fuel (push_cfg (Cfg_of_attrs attrs) s)). unfold outcome_of in IH1 |- *. unfold load_visits in *. rewrite load_all_app.
      rewrite push_cfgs, push_out, E in IH1. specialize (IH1 ltac:(lia) eq_refl).
      destruct (load_all _ vs (ps_out s)) as [o|]; rewrite IH1; [|reflexivity]. rewrite pop_push.
      specialize (IH2 fuel (shift (files_of (tl vs)) o s)). unfold outcome_of, load_visits in IH2. cbn [ps_cfgs ps_out shift] in IH2.
      specialize (IH2 ltac:(lia) E). destruct (load_all _ ws o) as [o2|]; rewrite IH2; [|reflexivity].
      rewrite shift_shift, files_app. inv V. reflexivity.
    - intros pl gs attrs ident file items ms vs ws M D V [n1 IH1] _ [n2 IH2]. exists (n1 + n2). intros fuel s L E.
      cbn [each_module fst]. rewrite enter_file, M, parse_mod_file, D, add_source_shift.
      specialize (IH1 fuel (shift [file] (ps_out s) (push_cfg (Cfg_of_attrs attrs) s))). rewrite push_out. unfold outcome_of in IH1 |- *.
      unfold load_visits in *. rewrite load_all_app. cbn [ps_cfgs ps_out shift] in IH1. rewrite push_cfgs, E in IH1.
      specialize (IH1 ltac:(lia) eq_refl). destruct (load_all _ vs (ps_out s)) as [o|]; rewrite IH1; [|reflexivity].
      rewrite shift_shift, pop_push.
      specialize (IH2 fuel (shift ([file] ++ files_of (tl vs)) o s)). unfold outcome_of, load_visits in IH2. cbn [ps_cfgs ps_out shift] in IH2.
      specialize (IH2 ltac:(lia) E). destruct (load_all _ ws o) as [o2|]; rewrite IH2; [|reflexivity].
      rewrite shift_shift, files_app. inv V. reflexivity.
    - intros pl gs attrs ident ms ws M _ [n IH]. exists n. intros fuel s L E. cbn [each_module fst]. rewrite enter_file, M.
      rewrite pop_push_only. apply IH; assumption.
  Qed.

  (** Reading a crate from its first file *)
  Lemma parse_mod_sound : forall fuel path s s', parse_mod d ld fuel path 0 s = Parsed s' ->
    exists vs out, crate_visits d path (ps_cfgs s) vs /\ load_visits ld vs (ps_out s) = Some out /\ s' = shift (files_of vs) out s.
  Proof.
    intros fuel path s s' Q. unfold parse_mod in Q. rewrite parse_mod_file in Q.
    destruct (dk_items d path) as [items|] eqn:D; [|discriminate]. apply process_sound in Q as [vs [V [out [Lo ->]]]].
    rewrite add_source_shift in *. cbn [ps_cfgs ps_out shift] in *.
    exists ({| vi_file := Some path; vi_guards := ps_cfgs s; vi_items := items |} :: vs), out. split; [|split].
    - exists items. split; [exact D|]. constructor. exact V.
    - exact Lo.
    - rewrite shift_shift. reflexivity.
  Qed.
  Lemma parse_mod_complete : forall path gs vs, crate_visits d path gs vs ->
    exists n, forall fuel s, n <= fuel -> ps_cfgs s = gs -> outcome_of vs (files_of vs) s (parse_mod d ld fuel path 0 s).
  Proof.
    intros path gs vs [items [D V]]. destruct (proj1 visits_complete _ _ _ _ _ V) as [n IH]. exists n. intros fuel s L E.
    unfold parse_mod. rewrite parse_mod_file, D, add_source_shift.
    specialize (IH fuel (shift [path] (ps_out s) s) L E). unfold outcome_of in *. cbn [ps_out shift] in IH.
    destruct (load_visits ld vs (ps_out s)) as [o|]; rewrite IH; [|reflexivity]. rewrite shift_shift. inv V. reflexivity.
  Qed.
End Process.

(** The visits are determined. *)
Lemma visits_unique : forall d,
  (forall file pl gs items vs, visits d file pl gs items vs -> forall ws, visits d file pl gs items ws -> vs = ws)
  /\ (forall pl gs mods vs, submodules d pl gs mods vs -> forall ws, submodules d pl gs mods ws -> vs = ws).
Proof.
  intro d. apply visits_mutind.
  - intros file pl gs items vs _ IH ws W. inv W. f_equal. auto.
  - intros pl gs ws W. inv W. reflexivity.
  - intros pl gs attrs ident items ms vs ws _ IH1 _ IH2 xs W. inv W. f_equal; auto.
  - intros pl gs attrs ident file items ms vs ws M D _ IH1 _ IH2 xs W. inv W; [|congruence].
    match goal with A : module_file _ _ _ _ = Some ?f, B : dk_items _ ?f = Some ?i |- _ => rewrite M in A; inv A; rewrite D in B; inv B end.
    f_equal; auto.
  - intros pl gs attrs ident ms ws M _ IH xs W. inv W; [congruence|]. auto.
Qed.

(** ** Every chain of modules ends when modules are looked for in the usual
    places and the disk holds finitely many files. *)
Lemma split_dot_rs : forall name, rev (split_on "." (append name ".rs")) = "rs" :: rev (split_on "." name).
Proof.
  induction name as [|a r IH]; [reflexivity|]. cbn [append split_on].
  destruct (Ascii.eqb a "."); cbn [rev].
  - rewrite IH. reflexivity.
  - destruct (split_on "." (r ++ ".rs")) as [|x l] eqn:E; [exfalso; exact (split_nonempty _ _ E)|].
    destruct (split_on "." r) as [|y k] eqn:F; [exfalso; exact (split_nonempty _ _ F)|]. cbn [rev] in *.
    destruct l as [|z l].
    + cbn in IH. exfalso. apply (f_equal (@length _)) in IH. cbn in IH. rewrite app_length in IH. cbn in IH. lia.
    + destruct (exists_last (l := z :: l) ltac:(discriminate)) as [l' [w El]]. rewrite El in *. rewrite rev_app_distr in *. cbn in *.
      inv IH. f_equal. apply app_inj_tail in H1 as [-> ->]. reflexivity.
Qed.
Lemma stem_rs : forall dir name, name <> "" -> file_stem (dir ++ [append name ".rs"])%list = name.
Proof.
  intros dir name N. unfold file_stem, file_name. rewrite last_last, split_dot_rs.
  destruct (rev (split_on "." name)) as [|x l] eqn:E.
  - exfalso. apply (f_equal (@rev _)) in E. rewrite rev_involutive in E. exact (split_nonempty _ _ E).
  - rewrite <- E, rev_involutive. rewrite (join_split "." name : join "." (split_on "." name) = name).
    destruct (String.eqb_spec name ""); [contradiction|reflexivity].
Qed.
Lemma not_mod_rs : forall name, name <> "mod" -> String.eqb (append name ".rs") "mod.rs" = false.
Proof.
  intros name N. apply String.eqb_neq. intro E. apply N. change "mod.rs" with ("mod" ++ ".rs") in E. exact (sapp_inj_r _ _ _ E).
Qed.
Lemma nested_in : forall items attrs ident content, In (attrs, ident, content) (nested_modules items) -> In (ItemMod attrs ident content) items.
Proof.
  intros items attrs ident content. unfold nested_modules. induction items as [|i r IH]; cbn; [contradiction|].
  destruct i; try (intro Q; right; auto; fail). destruct (should_skip_parsing attrs0); [intro Q; right; auto|].
  intros [Q|Q]; [inv Q; left; reflexivity|right; auto].
Qed.

Lemma module_file_usual : forall d pl attrs name file, path_attr attrs = None -> module_file d pl attrs name = Some file ->
  exists dir subdir, pl_dirs pl = Some (dir, subdir) /\ dk_exists d file = true
    /\ (file = (subdir ++ [append name ".rs"])%list \/ file = (subdir ++ [name; "mod.rs"])%list).
Proof.
  intros d pl attrs name file P Q. unfold module_file in Q. destruct (pl_dirs pl) as [[dir subdir]|]; [|discriminate].
  exists dir, subdir. split; [reflexivity|]. destruct (dk_exists d (subdir ++ [append name ".rs"])%list) eqn:E1; [inv Q; auto|].
  destruct (dk_exists d (subdir ++ [name; "mod.rs"])%list) eqn:E2; [inv Q; auto|]. rewrite P in Q. discriminate.
Qed.
Lemma removelast_two : forall (l : cpath) a b, removelast (l ++ [a; b])%list = (l ++ [a])%list.
Proof. intros. change [a; b] with ([a] ++ [b])%list. rewrite app_assoc. apply removelast_last. Qed.
Lemma last_two : forall (l : cpath) a b x, last (l ++ [a; b])%list x = b.
Proof. intros. change [a; b] with ([a] ++ [b])%list. rewrite app_assoc. apply last_last. Qed.
Lemma file_place_rs : forall subdir name depth, name <> "" -> name <> "mod" ->
  pl_dirs (file_place (subdir ++ [append name ".rs"])%list (S depth)) = Some (subdir, (subdir ++ [name])%list).
Proof.
  intros subdir name depth N1 N2. unfold file_place. rewrite last_last, not_mod_rs, removelast_last, stem_rs by assumption. reflexivity.
Qed.
Lemma file_place_mod : forall subdir name depth,
  pl_dirs (file_place (subdir ++ [name; "mod.rs"])%list depth) = Some ((subdir ++ [name])%list, (subdir ++ [name])%list).
Proof.
  intros subdir name depth. unfold file_place. rewrite last_two, removelast_two. cbn. rewrite orb_true_r. reflexivity.
Qed.

Section Ends.
  Context {H : Heck}.
  Variables (d : disk) (ld : loading) (longest : nat).
  Hypothesis Finite : forall p, dk_exists d p = true -> length p <= longest.
  Hypothesis Usual : forall p items, dk_items d p = Some items -> usual items.

  Definition room (pl : place) : nat := match pl_dirs pl with Some (_, sub) => S longest - length sub | None => 0 end.
  Lemma room_inline : forall pl name, room (inline_place pl name) <= room pl.
  Proof.
    intros pl name. unfold room, inline_place. cbn [pl_dirs]. destruct (pl_dirs pl) as [[a b]|]; cbn [option_map fst snd]; [|lia].
    rewrite app_length. lia.
  Qed.
  Lemma room_file : forall pl attrs name file depth, path_attr attrs = None -> name <> "" -> name <> "mod" ->
    module_file d pl attrs name = Some file -> room (file_place file (S depth)) < room pl.
  Proof.
    intros pl attrs name file depth P N1 N2 M. destruct (module_file_usual _ _ _ _ _ P M) as [dir [sub [D [E F]]]].
    apply Finite in E. unfold room. rewrite D. destruct F as [-> | ->].
    - rewrite file_place_rs by assumption. rewrite app_length in *. cbn [length] in *. lia.
    - rewrite file_place_mod. rewrite app_length in *. cbn [length] in *. lia.
  Qed.

  Lemma each_ends : forall (enter : nat -> module -> state -> parsing state) mods,
    (forall m, In m mods -> exists n, forall fuel s, n <= fuel -> enter fuel m s <> Endless) ->
    exists n, forall fuel s, n <= fuel -> each_module (enter fuel) mods s <> Endless.
  Proof.
    intros enter. induction mods as [|m r IH]; intro F; [exists 0; discriminate|].
    destruct (F m (or_introl eq_refl)) as [n1 E1]. destruct (IH (fun x Q => F x (or_intror Q))) as [n2 E2].
    exists (n1 + n2). intros fuel s L. cbn. specialize (E1 fuel (push_cfg (Cfg_of_attrs (fst (fst m))) s) ltac:(lia)).
    destruct (enter fuel m _) as [s'| | |]; [|discriminate|discriminate|contradiction]. apply E2. lia.
  Qed.

  Lemma process_ends : forall k items, usual items -> forall pl, room pl <= k ->
    exists n, forall fuel s, n <= fuel -> process_at d ld fuel pl items s <> Endless.
  Proof.
    induction k as [k IHk] using lt_wf_ind. intros items U. induction U as [items P _ IHu]. intros pl R.
    destruct (each_ends (fun fuel => enter_module d (process_mod d ld fuel) (pl_dirs pl) (pl_depth pl) (pl_inline pl) (pl_mod_rs pl))
                (nested_modules items)) as [n E].
    { intros [[attrs ident] [inside|]] Q; apply nested_in in Q.
      - destruct (IHu attrs ident inside Q (inline_place pl (unraw ident))) as [n E].
        + pose proof (room_inline pl (unraw ident)). lia.
        + exists n. intros fuel s L. rewrite enter_inline. apply E. exact L.
      - destruct (P _ _ _ Q) as [PN [N1 N2]]. destruct (module_file d pl attrs (unraw ident)) as [file|] eqn:M.
        + destruct (dk_items d file) as [inside|] eqn:D.
          * pose proof (room_file pl attrs (unraw ident) file (pl_depth pl) PN N1 N2 M) as R2.
            destruct (IHk (room (file_place file (S (pl_depth pl)))) ltac:(lia) inside (Usual _ _ D) _ (le_n _)) as [n E].
            exists n. intros fuel s L. rewrite enter_file, M, parse_mod_file, D. apply E. exact L.
          * exists 0. intros fuel s _. rewrite enter_file, M, parse_mod_file, D. discriminate.
        + exists 0. intros fuel s _. rewrite enter_file, M. discriminate. }
    exists (S n). intros [|fuel] s L; [lia|]. rewrite process_step.
    destruct (load_syn_crate_mod ld (Cfg_join (ps_cfgs s)) items (ps_out s)); [|discriminate]. apply E. lia.
  Qed.
  Lemma crate_ends : forall path, exists n, forall fuel s, n <= fuel -> parse_mod d ld fuel path 0 s <> Endless.
  Proof.
    intro path. destruct (dk_items d path) as [items|] eqn:D.
    - destruct (process_ends _ _ (Usual _ _ D) (file_place path 0) (le_n _)) as [n E]. exists n. intros fuel s L.
      unfold parse_mod. rewrite parse_mod_file, D. apply E. exact L.
    - exists 0. intros fuel s _. unfold parse_mod. rewrite parse_mod_file, D. discriminate.
  Qed.
End Ends.

(** ** The files are those of the compiler *)
Definition same_place (pl : place) (r : rust_place) : Prop :=
  exists dir, pl_dirs pl = Some (dir, default_dir r)
    /\ (if pl_inline pl && negb (pl_mod_rs pl) then default_dir r else dir) = ru_dir r
    /\ (pl_mod_rs pl = true -> dir = default_dir r).
Lemma same_inline : forall pl r name, same_place pl r -> same_place (inline_place pl name) (inside_place r name).
Proof.
  intros pl r name [dir [E [B M]]]. exists (dir ++ [name])%list. unfold inline_place, inside_place, default_dir in *. cbn. rewrite E. cbn.
  rewrite app_nil_r. split; [reflexivity|]. split.
  - destruct (pl_mod_rs pl); cbn; [|reflexivity]. rewrite M by reflexivity. reflexivity.
  - intro Q. rewrite M by exact Q. reflexivity.
Qed.
Lemma same_file_rs : forall r name depth, name <> "" -> name <> "mod" ->
  same_place (file_place (default_dir r ++ [append name ".rs"])%list (S depth)) {| ru_dir := default_dir r; ru_relative := Some name |}.
Proof.
  intros r name depth N1 N2. exists (default_dir r). rewrite file_place_rs by assumption. split; [reflexivity|]. split; [reflexivity|].
  unfold file_place. cbn. rewrite last_last, not_mod_rs by assumption. discriminate.
Qed.
Lemma same_file_mod : forall r name depth,
  same_place (file_place (default_dir r ++ [name; "mod.rs"])%list depth) {| ru_dir := (default_dir r ++ [name])%list; ru_relative := None |}.
Proof.
  intros r name depth. exists (default_dir r ++ [name])%list. rewrite file_place_mod.
  assert (E : default_dir {| ru_dir := (default_dir r ++ [name])%list; ru_relative := None |} = (default_dir r ++ [name])%list)
    by (unfold default_dir at 1; cbn; apply app_nil_r).
  rewrite E. split; [reflexivity|]. split; [|reflexivity]. reflexivity.
Qed.
Lemma same_root : forall path, same_place (file_place path 0) {| ru_dir := removelast path; ru_relative := None |}.
Proof.
  intro path. exists (removelast path). unfold file_place, default_dir. cbn. rewrite app_nil_r. repeat split; reflexivity.
Qed.

(** One module: the file looked at is the one the compiler reads, also for a
    path attribute if no file is in the usual places. *)
Lemma module_file_rust : forall d pl r attrs name file, same_place pl r ->
  (path_attr attrs = None \/ (dk_exists d (default_dir r ++ [append name ".rs"])%list = false
                              /\ dk_exists d (default_dir r ++ [name; "mod.rs"])%list = false)) ->
  module_file d pl attrs name = Some file -> exists r', rust_file d r attrs name file r'.
Proof.
  intros d pl r attrs name file [dir [E [B M]]] P Q. unfold module_file in Q. rewrite E in Q.
  destruct P as [P|[P1 P2]].
  - destruct (dk_exists d (default_dir r ++ [append name ".rs"])%list) eqn:E1.
    + inv Q. eexists. apply rf_file; assumption.
    + destruct (dk_exists d (default_dir r ++ [name; "mod.rs"])%list) eqn:E2; [|rewrite P in Q; discriminate].
      inv Q. eexists. apply rf_directory; assumption.
  - rewrite P1, P2 in Q. destruct (path_attr attrs) as [text|] eqn:T; [|discriminate]. cbn in Q. rewrite B in Q. inv Q.
    eexists. apply rf_path. exact T.
Qed.

Section Rust.
  Variable d : disk.
  Hypothesis Usual : forall p items, dk_items d p = Some items -> usual items.
  Lemma visits_rust :
    (forall file pl gs items vs, visits d file pl gs items vs -> usual items -> forall r, same_place pl r ->
       rust_visits d file r items (map (fun v => (vi_file v, vi_items v)) vs))
    /\ (forall pl gs mods vs, submodules d pl gs mods vs ->
        (forall attrs ident content, In (attrs, ident, content) mods ->
           path_attr attrs = None /\ unraw ident <> "" /\ unraw ident <> "mod" /\ forall inside, content = Some inside -> usual inside) ->
        forall r, same_place pl r -> rust_submodules d r mods (map (fun v => (vi_file v, vi_items v)) vs)).
  Proof.
    apply visits_mutind.
    - intros file pl gs items vs _ IH U r S. cbn. constructor. apply IH; [|exact S].
      intros attrs ident content Q. apply nested_in in Q. destruct U as [items P I]. destruct (P _ _ _ Q) as [P1 [P2 P3]].
      split; [exact P1|]. split; [exact P2|]. split; [exact P3|]. intros inside ->. exact (I _ _ _ Q).
    - intros pl gs _ r _. constructor.
    - intros pl gs attrs ident items ms vs ws _ IH1 _ IH2 U r S. rewrite map_app.
      destruct (U _ _ _ (or_introl eq_refl)) as [P [_ [_ I]]]. constructor; [exact P| |].
      + apply IH1; [exact (I _ eq_refl)|apply same_inline; exact S].
      + apply IH2; [|exact S]. intros a i c Q. exact (U a i c (or_intror Q)).
    - intros pl gs attrs ident file items ms vs ws M D _ IH1 _ IH2 U r S. rewrite map_app.
      destruct (U _ _ _ (or_introl eq_refl)) as [P [N1 [N2 _]]]. pose proof S as [dir [E _]].
      unfold module_file in M. rewrite E in M.
      assert (W : rust_submodules d r ms (map (fun v => (vi_file v, vi_items v)) ws)).
      { apply IH2; [|exact S]. intros a i c Q. exact (U a i c (or_intror Q)). }
      destruct (dk_exists d (default_dir r ++ [append (unraw ident) ".rs"])%list) eqn:E1.
      + inv M. eapply rs_file; [apply rf_file; assumption|exact D| |exact W].
        apply IH1; [exact (Usual _ _ D)|apply same_file_rs; assumption].
      + destruct (dk_exists d (default_dir r ++ [unraw ident; "mod.rs"])%list) eqn:E2; [|rewrite P in M; discriminate].
        inv M. eapply rs_file; [apply rf_directory; assumption|exact D| |exact W].
        apply IH1; [exact (Usual _ _ D)|apply same_file_mod].
    - intros pl gs attrs ident ms ws M _ IH U r S. pose proof S as [dir [E _]]. unfold module_file in M. rewrite E in M.
      destruct (U _ _ _ (or_introl eq_refl)) as [P _].
      destruct (dk_exists d (default_dir r ++ [append (unraw ident) ".rs"])%list) eqn:E1; [discriminate|].
      destruct (dk_exists d (default_dir r ++ [unraw ident; "mod.rs"])%list) eqn:E2; [discriminate|].
      apply rs_missing.
      + intros file r' Q. inv Q; congruence.
      + apply IH; [|exact S]. intros a i c Q. exact (U a i c (or_intror Q)).
  Qed.
  Lemma crate_rust : forall path gs vs, crate_visits d path gs vs ->
    exists items, dk_items d path = Some items
      /\ rust_visits d (Some path) {| ru_dir := removelast path; ru_relative := None |} items
           (map (fun v => (vi_file v, vi_items v)) vs).
  Proof.
    intros path gs vs [items [D V]]. exists items. split; [exact D|].
    exact (proj1 visits_rust _ _ _ _ _ V (Usual _ _ D) _ (same_root path)).
  Qed.
End Rust.
