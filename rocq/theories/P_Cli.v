(** The command takes its settings and asks cargo as S_Cli says. *)
Require Import Coq.Strings.String Coq.Lists.List Coq.Bool.Bool.
From Verif Require Import Base P_Base M_Config M_Type M_Ir M_Item M_Library M_Bindings M_Files M_Attr M_Syn M_Loader M_Parser M_Settings M_Cli.
From Verif Require Import S_Settings P_Settings S_Cli P_Cargo.
From Verif Require P_Files.
Import ListNotations.
Open Scope string_scope.

Lemma override_exact : forall {A} f (words : list (string * A)) o dflt a, (forall s a, f s = Some a <-> In (s, a) words) ->
  override f o dflt = Some a <-> wins words o dflt a.
Proof. intros A f words [s|] dflt a E; cbn; [apply E|split; congruence]. Qed.
Lemma turned_on : forall f b, turns_on f b (if f then true else b).
Proof. intros [] []; unfold turns_on; intuition congruence. Qed.
Lemma turned_on_is : forall f b c, turns_on f b c -> c = if f then true else b.
Proof. intros [] [] []; unfold turns_on; intuition congruence. Qed.

Ltac kept := unfold kept_but; repeat (apply Forall_cons; [first [right; reflexivity|left; cbn; tauto]|]); apply Forall_nil.
Ltac keep F :=
  unfold kept_but in F;
  repeat (let S := fresh "S" in apply Forall_cons_iff in F; destruct F as [S F];
          cbn [key Value Subtable In] in S;
          first [destruct S as [S|S]; [exfalso; decompose [or] S; first [discriminate|contradiction]|cbn in S] | clear S]); clear F.

Section Command.
  Context {H : Heck}.
  Variable w : Outside.

  Lemma overrides_exact : forall m s0 s, apply_config_overrides m s0 = Some s <-> overridden m s0 s.
  Proof.
    intros m s0 s. unfold apply_config_overrides. split.
    - destruct (override Language_from_str (m_lang m) (language (se_config s0))) as [lang|] eqn:L; [|discriminate].
      destruct (override Style_from_str (m_style m) (style (se_config s0))) as [st|] eqn:S; [|discriminate].
      destruct (override Profile_from_str (m_profile m) (xp_profile (se_expand s0))) as [pr|] eqn:P; [|discriminate].
      intros E. injection E as <-.
      apply (override_exact _ languages) in L; [|apply languages_exact].
      apply (override_exact _ styles) in S; [|apply styles_exact].
      apply (override_exact _ profiles) in P; [|apply profiles_exact].
      constructor; cbn; try assumption; try apply turned_on; try reflexivity; kept.
    - intros [L S P C V D T R Rp Re Pa].
      rewrite (proj2 (override_exact _ languages _ _ _ languages_exact) L).
      rewrite (proj2 (override_exact _ styles _ _ _ styles_exact) S).
      rewrite (proj2 (override_exact _ profiles _ _ _ profiles_exact) P).
      apply turned_on_is in C, V, D, T.
      keep R. keep Rp. keep Re.
      destruct s as [[] ? ? ? []], s0 as [[] ? ? ? []]. unfold of_config in *. cbn in *.
      repeat match goal with p : ParseConfig |- _ => destruct p end. cbn in *.
      subst. reflexivity.
  Qed.
  Lemma overrides_defined : forall m s0, clap_accepts m = true -> exists s, apply_config_overrides m s0 = Some s.
  Proof.
    intros m s0 A. unfold clap_accepts in A. apply andb_true_iff in A. destruct A as [A P].
    apply andb_true_iff in A. destruct A as [L S]. unfold apply_config_overrides.
    assert (K : forall {A} f words (o : option string) (dflt : A), allowed_word words o = true ->
      Forall (fun x => f x <> None) words -> exists a, override f o dflt = Some a).
    { intros A f words [x|] dflt W F; cbn in *; [|eexists; reflexivity].
      apply mem_str_In in W. rewrite Forall_forall in F. specialize (F x W). destruct (f x) as [a|]; [exists a; reflexivity|].
      contradiction. }
    destruct (K _ Language_from_str _ _ (language (se_config s0)) L) as [a ->];
      [repeat (apply Forall_cons; [discriminate|]); apply Forall_nil|].
    destruct (K _ Style_from_str _ _ (style (se_config s0)) S) as [b ->];
      [repeat (apply Forall_cons; [discriminate|]); apply Forall_nil|].
    destruct (K _ Profile_from_str _ _ (xp_profile (se_expand s0)) P) as [c ->];
      [repeat (apply Forall_cons; [discriminate|]); apply Forall_nil|].
    eexists. reflexivity.
  Qed.

  (** ** Where the settings come from *)

  (** The same settings, read from elsewhere *)
  Definition set_path (o : option string) (s : Settings) : Settings :=
    let c := se_config s in
    {| se_config :=
         {| header := header c; includes_ := includes_ c; sys_includes_ := sys_includes_ c; after_includes := after_includes c;
            trailer := trailer c; include_guard_ := include_guard_ c; pragma_once := pragma_once c; no_includes := no_includes c;
            package_version := package_version c; autogen_warning := autogen_warning c; include_version := include_version c;
            namespace := namespace c; namespaces := namespaces c; using_namespaces := using_namespaces c; braces := braces c;
            line_length := line_length c; tab_width := tab_width c; line_endings := line_endings c; language := language c;
            cpp_compat := cpp_compat c; style := style c; sort_by := sort_by c; usize_is_size_t := usize_is_size_t c;
            parse := parse c; export := export c; layout := layout c; function := function c; structure := structure c;
            enumeration := enumeration c; constant := constant c; defines := defines c; documentation := documentation c;
            documentation_style := documentation_style c; documentation_length := documentation_length c;
            pointer := pointer c; cython := cython c; config_path := o |};
       se_bitflags := se_bitflags s; se_only_target := se_only_target s; se_clean := se_clean s; se_expand := se_expand s |}.
  Lemma table_path : forall t o s, table file_table t s -> table file_table t (set_path o s).
  Proof.
    intros t o s (l & -> & K & F). exists l. split; [reflexivity|]. split; [exact K|]. clear K.
    unfold file_table in *.
    repeat (let S := fresh "S" in apply Forall_cons_iff in F; destruct F as [S F]; apply Forall_cons; [exact S|clear S]).
    apply Forall_nil.
  Qed.
  Lemma set_path_same : forall s o p, config_path (se_config s) = Some p -> with_path p (set_path o s) = s.
  Proof. intros [[] ? ? ? ?] o p E. cbn in *. subst. reflexivity. Qed.
  Lemma from_file_exact : forall p s, from_file w p = Some s <-> says w p s.
  Proof.
    intros p s. unfold from_file, says. split.
    - destruct (ou_toml w p) as [[t|]|]; try discriminate. intros E.
      destruct (as_settings t) as [s0|] eqn:A; [|discriminate]. injection E as <-.
      apply settings_exact in A. destruct A as [T P]. exists t. split; [reflexivity|]. split; [|reflexivity].
      exact (table_path t (Some (ou_text w p)) s0 T).
    - intros (t & -> & T & P).
      rewrite (proj2 (settings_exact t (set_path None s)) (conj (table_path t None s T) eq_refl)).
      cbn [option_map]. f_equal. apply set_path_same. exact P.
  Qed.
  Lemma defaults_exact : forall s, s = default_settings <-> defaults s.
  Proof.
    intros s. assert (D : as_settings (TmTable []) = Some default_settings) by reflexivity.
    unfold defaults. split.
    - intros ->. apply settings_exact in D. exact D.
    - intros A. apply (proj2 (settings_exact _ _)) in A. congruence.
  Qed.
  Lemma configured_exact : forall m dir s,
    (match m_config m with Some p => from_file w p | None => from_root_or_default w dir end) = Some s <-> configured w m dir s.
  Proof.
    intros m dir s. unfold configured. destruct (m_config m) as [p|]; [apply from_file_exact|].
    unfold from_root_or_default. fold (in_dir dir "cbindgen.toml").
    destruct (ou_toml w (in_dir dir "cbindgen.toml")) as [t|] eqn:T.
    - rewrite from_file_exact. split; [left; assumption|]. intros [A|[A _]]; [exact A|discriminate].
    - split.
      + intros E. injection E as <-. right. split; [reflexivity|]. apply defaults_exact. reflexivity.
      + intros [(t & A & _)|[_ A]]; [congruence|]. apply defaults_exact in A. congruence.
  Qed.
  Lemma settings_of_exact : forall m dir s, settings_of w m dir = Ran s <-> exists s0, configured w m dir s0 /\ overridden m s0 s.
  Proof.
    intros m dir s. unfold settings_of.
    destruct (match m_config m with Some p => from_file w p | None => from_root_or_default w dir end) as [s0|] eqn:F; cbn [or_crash bind_ran].
    - apply configured_exact in F. split.
      + destruct (apply_config_overrides m s0) as [s'|] eqn:O; [|discriminate]. intros E. injection E as <-.
        exists s0. split; [exact F|]. apply overrides_exact. exact O.
      + intros (s1 & C1 & O). apply (proj2 (configured_exact _ _ _)) in C1, F. rewrite F in C1. injection C1 as <-.
        apply (proj2 (overrides_exact _ _ _)) in O. rewrite O. reflexivity.
    - split; [discriminate|]. intros (s1 & C1 & _). apply (proj2 (configured_exact _ _ _)) in C1. congruence.
  Qed.
  (** It never refuses: a configuration it cannot read is a crash. *)
  Lemma settings_of_ends : forall m dir, clap_accepts m = true ->
    (exists s, settings_of w m dir = Ran s) \/ settings_of w m dir = Crashed /\ forall s, ~ configured w m dir s.
  Proof.
    intros m dir A. unfold settings_of.
    destruct (match m_config m with Some p => from_file w p | None => from_root_or_default w dir end) as [s0|] eqn:F; cbn [or_crash bind_ran].
    - left. destruct (overrides_defined m s0 A) as [s ->]. exists s. reflexivity.
    - right. split; [reflexivity|]. intros s C1. apply (proj2 (configured_exact _ _ _)) in C1. congruence.
  Qed.

  (** ** What is read *)

  Lemma plan_file : forall m s srcs lib, ou_is_dir w (the_input w m) = false ->
    plan w m = Ran (s, srcs, lib) <->
    srcs = [the_input w m] /\ lib = None /\ exists s0, configured w m (removelast (the_input w m)) s0 /\ overridden m s0 s.
  Proof.
    intros m s srcs lib D. unfold plan. fold (the_input w m). rewrite D. cbn [negb].
    destruct (settings_of w m (parent_dir (the_input w m))) as [s'| | |] eqn:S; cbn [bind_ran].
    - apply settings_of_exact in S. unfold parent_dir in S. split.
      + intros E. injection E as <- <- <-. split; [reflexivity|]. split; [reflexivity|]. exact S.
      + intros (-> & -> & K). apply (proj2 (settings_of_exact _ _ _)) in K, S. rewrite S in K. injection K as <-. reflexivity.
    - split; [discriminate|]. intros (_ & _ & K). apply (proj2 (settings_of_exact _ _ _)) in K. unfold parent_dir in S. congruence.
    - split; [discriminate|]. intros (_ & _ & K). apply (proj2 (settings_of_exact _ _ _)) in K. unfold parent_dir in S. congruence.
    - split; [discriminate|]. intros (_ & _ & K). apply (proj2 (settings_of_exact _ _ _)) in K. unfold parent_dir in S. congruence.
  Qed.

  Lemma expansion_is : forall manifest p x, expand_arguments manifest p x = expansion manifest p x.
  Proof.
    intros manifest [n [v|]] [[] [] [l|] []]; unfold expand_arguments, expansion, package_id; cbn; rewrite ?sapp_nil_r; reflexivity.
  Qed.
  Lemma loaded_answered : forall m dir clean only x c,
    Cargo_load w dir (m_lockfile m) (m_crate m) true clean only (m_metadata m) x = Some c -> answered w m dir only clean x c.
  Proof.
    intros m dir clean only x c. unfold Cargo_load. fold (in_dir dir "Cargo.toml").
    destruct (ou_metadata w (in_dir dir "Cargo.toml") (m_metadata m) only) as [md|] eqn:M; [|discriminate].
    destruct (match m_crate m with Some n => Some n | None => ou_manifest w (in_dir dir "Cargo.toml") end) as [n|] eqn:N; [|discriminate].
    intros E. injection E as <-. constructor; cbn [cg_packages cg_lock cg_binding_crate_name cg_manifest_path cg_expand].
    - exists md. repeat split; try assumption.
    - symmetry. exact N.
    - reflexivity.
    - intros p. rewrite expansion_is. reflexivity.
  Qed.
  Lemma not_answered : forall m dir clean only x,
    Cargo_load w dir (m_lockfile m) (m_crate m) true clean only (m_metadata m) x = None ->
    ou_metadata w (in_dir dir "Cargo.toml") (m_metadata m) only = None
    \/ m_crate m = None /\ ou_manifest w (in_dir dir "Cargo.toml") = None.
  Proof.
    intros m dir clean only x. unfold Cargo_load. fold (in_dir dir "Cargo.toml").
    destruct (ou_metadata w (in_dir dir "Cargo.toml") (m_metadata m) only) as [md|] eqn:M; [|left; reflexivity].
    destruct (m_crate m); [discriminate|]. destruct (ou_manifest w (in_dir dir "Cargo.toml")); [discriminate|].
    intros _. right. split; reflexivity.
  Qed.
  Lemma loaded_again : forall m dir clean only x c, 
    Cargo_load w dir (m_lockfile m) (m_crate m) true clean only (m_metadata m) x = Some c -> forall y,
    exists d, Cargo_load w dir (m_lockfile m) (m_crate m) true clean only (m_metadata m) y = Some d
      /\ cg_packages d = cg_packages c /\ cg_binding_crate_name d = cg_binding_crate_name c
      /\ cg_manifest_path d = cg_manifest_path c.
  Proof.
    intros m dir clean only x c E y. revert E. unfold Cargo_load.
    destruct (ou_metadata w _ (m_metadata m) only) as [md|]; [|discriminate].
    destruct (match m_crate m with Some n => _ | None => _ end) as [n|]; [|discriminate].
    intros E. injection E as <-. eexists. repeat split.
  Qed.
  Lemma home_found : forall c p, binding_crate_ref c = Some p -> exists dir, find_crate_dir c p = Some dir /\ home c dir.
  Proof.
    intros c p B. apply binding_crate_found in B. destruct B as (q & I & <- & N & L).
    unfold find_crate_dir. destruct (get_package c (mp_ref q)) as [r|] eqn:G.
    - exists (parent_dir (join_text [] (mp_manifest_path r))). split; [reflexivity|].
      apply find_some in G. destruct G as [Ir Er]. exists q. split; [exact I|]. split; [exact N|]. split; [exact L|].
      exists r. split; [exact Ir|]. split; [|reflexivity]. apply ref_eqb. exact Er.
    - exfalso. unfold get_package in G. pose proof (find_none _ _ G q I) as F. cbn in F.
      rewrite (proj2 (ref_eqb _ _) eq_refl) in F. discriminate.
  Qed.
  Lemma home_same : forall c d dir, cg_packages d = cg_packages c -> cg_binding_crate_name d = cg_binding_crate_name c ->
    cg_manifest_path d = cg_manifest_path c -> home c dir -> home d dir.
  Proof. intros c d dir P N M Ho. unfold home in *. rewrite P, N, M. exact Ho. Qed.

  Lemma plan_crate : forall m s srcs lib, ou_is_dir w (the_input w m) = true -> plan w m = Ran (s, srcs, lib) ->
    srcs = [] /\ exists c dir s0, lib = Some c /\ answered w m (the_input w m) (m_only_target m) (m_clean m) (se_expand s) c
      /\ (m_config m = None -> home c dir) /\ configured w m dir s0 /\ overridden m s0 s.
  Proof.
    intros m s srcs lib D. unfold plan. fold (the_input w m). rewrite D. cbn [negb].
    destruct (Cargo_load w (the_input w m) (m_lockfile m) (m_crate m) true (m_clean m) (m_only_target m) (m_metadata m) default_expand)
      as [c0|] eqn:L; [|discriminate].
    assert (K : forall dir, (m_config m = None -> home c0 dir) ->
      bind_ran (settings_of w m dir) (fun s => Ran (s, [], Cargo_load w (the_input w m) (m_lockfile m) (m_crate m) true (m_clean m)
        (m_only_target m) (m_metadata m) (se_expand s))) = Ran (s, srcs, lib) ->
      srcs = [] /\ exists c dir s0, lib = Some c /\ answered w m (the_input w m) (m_only_target m) (m_clean m) (se_expand s) c
      /\ (m_config m = None -> home c dir) /\ configured w m dir s0 /\ overridden m s0 s).
    { intros dir Ho. destruct (settings_of w m dir) as [s'| | |] eqn:S; try discriminate. cbn [bind_ran].
      destruct (loaded_again _ _ _ _ _ _ L (se_expand s')) as (c & Ec & P & N & M). intros E. rewrite Ec in E.
      injection E as <- <- <-. split; [reflexivity|]. apply settings_of_exact in S. destruct S as (s0 & Cf & O).
      exists c, dir, s0. split; [reflexivity|]. split; [apply loaded_answered; exact Ec|].
      split; [|split; assumption]. intros Z. exact (home_same c0 c dir P N M (Ho Z)). }
    destruct (m_config m) as [p|] eqn:Cf.
    - cbn [bind_ran]. apply K. discriminate.
    - destruct (binding_crate_ref c0) as [p|] eqn:B; [|discriminate]. cbn [or_crash bind_ran].
      destruct (home_found _ _ B) as (dir & -> & Ho). apply K. intros _. exact Ho.
  Qed.

  (** What it takes to get that far *)
  Lemma plan_ends : forall m, clap_accepts m = true -> 
    (exists s srcs lib, plan w m = Ran (s, srcs, lib))
    \/ plan w m = Refused /\ ou_is_dir w (the_input w m) = true
       /\ (ou_metadata w (in_dir (the_input w m) "Cargo.toml") (m_metadata m) (m_only_target m) = None
           \/ m_crate m = None /\ ou_manifest w (in_dir (the_input w m) "Cargo.toml") = None)
    \/ plan w m = Crashed
       /\ ((exists dir, forall s, ~ configured w m dir s)
           \/ m_config m = None /\ exists c, answered w m (the_input w m) (m_only_target m) (m_clean m) default_expand c
              /\ forall p, In p (cg_packages c) -> pk_name (mp_ref p) <> cg_binding_crate_name c).
  Proof.
    intros m A. unfold plan. fold (the_input w m). destruct (ou_is_dir w (the_input w m)); cbn [negb].
    - destruct (Cargo_load w (the_input w m) (m_lockfile m) (m_crate m) true (m_clean m) (m_only_target m) (m_metadata m) default_expand)
        as [c0|] eqn:L.
      2:{ right. left. split; [reflexivity|]. split; [reflexivity|]. exact (not_answered _ _ _ _ _ L). }
      assert (K : forall dir, (exists s srcs lib, bind_ran (settings_of w m dir) (fun s => Ran (s, @nil cpath, Cargo_load w (the_input w m) (m_lockfile m) (m_crate m) true (m_clean m)
        (m_only_target m) (m_metadata m) (se_expand s))) = Ran (s, srcs, lib))
        \/ bind_ran (settings_of w m dir) (fun s => Ran (s, @nil cpath, Cargo_load w (the_input w m) (m_lockfile m) (m_crate m) true (m_clean m)
        (m_only_target m) (m_metadata m) (se_expand s))) = Crashed /\ forall s, ~ configured w m dir s).
      { intros dir. destruct (settings_of_ends m dir A) as [[s ->]|[-> N]]; [left|right; split; [reflexivity|exact N]].
        cbn [bind_ran]. eexists _, _, _. reflexivity. }
      destruct (m_config m) as [p|] eqn:Cf.
      + cbn [bind_ran]. destruct (K (the_input w m)) as [R|[R N]]; [left; exact R|]. right. right. split; [exact R|].
        left. exists (the_input w m). exact N.
      + destruct (binding_crate_ref c0) as [p|] eqn:B.
        * cbn [or_crash bind_ran]. destruct (home_found _ _ B) as (dir & -> & _).
          destruct (K dir) as [R|[R N]]; [left; exact R|]. right. right. split; [exact R|]. left. exists dir. exact N.
        * right. right. split; [reflexivity|]. right. split; [reflexivity|]. exists c0.
          split; [apply loaded_answered; exact L|]. apply binding_crate_none. exact B.
    - destruct (settings_of_ends m (parent_dir (the_input w m)) A) as [[s ->]|[-> N]].
      + left. eexists _, _, _. reflexivity.
      + right. right. split; [reflexivity|]. left. eexists. exact N.
  Qed.

  (** ** The whole run *)

  Variables (mfuel fuel gfuel : nat) (visit : list (string * AnnotationSet) -> list (string * AnnotationSet)).
  Variables (emit : Bindings -> generation) (world : Bindings -> World).
  Let load := load_bindings w mfuel fuel gfuel visit.
  Let run := main w mfuel fuel gfuel visit emit world.

  Lemma loaded_bindings : forall m b, load m = Ran b <->
    exists s srcs lib, plan w m = Ran (s, srcs, lib) /\ build w mfuel fuel gfuel visit s srcs lib = Ran b.
  Proof.
    intros m b. unfold load, load_bindings. destruct (plan w m) as [[[s srcs] lib]| | |]; cbn [bind_ran fst snd].
    - split; [intros E; exists s, srcs, lib; split; [reflexivity|exact E]|].
      intros (s' & srcs' & lib' & E & B). injection E as <- <- <-. exact B.
    - split; [discriminate|]. intros (? & ? & ? & E & _). discriminate.
    - split; [discriminate|]. intros (? & ? & ? & E & _). discriminate.
    - split; [discriminate|]. intros (? & ? & ? & E & _). discriminate.
  Qed.
  Lemma main_changes : forall m s, (m_out m = None \/ (forall b, load m <> Ran b)
      \/ clap_accepts m = false) -> fst (fst (run m s)) = s.
  Proof.
    intros m s K. unfold run, main. destruct (clap_accepts m); [|reflexivity]. cbn [negb].
    destruct (m_verify m && _); [reflexivity|]. fold load. destruct (load m) as [b| | |] eqn:L; try reflexivity.
    destruct K as [->|[K|K]]; [destruct (b_noop b); reflexivity|exfalso; exact (K b eq_refl)|discriminate].
  Qed.
  Lemma main_prints : forall m s, (forall b, load m = Ran b -> m_out m <> None \/ b_noop b = true) -> snd (fst (run m s)) = "".
  Proof.
    intros m s K. unfold run, main. destruct (clap_accepts m); [|reflexivity]. cbn [negb].
    destruct (m_verify m && _); [reflexivity|]. fold load. destruct (load m) as [b| | |] eqn:L; try reflexivity.
    destruct (m_out m); [destruct (main_out _ _ _ _ _ _); reflexivity|].
    destruct (K b eq_refl) as [N|N]; [contradiction|]. rewrite N. reflexivity.
  Qed.
  Lemma main_succeeds : forall m s, snd (run m s) = Some 0 ->
    clap_accepts m = true /\ exists b, load m = Ran b
      /\ match m_out m with
         | None => m_verify m = false /\ (b_noop b = false -> snd (fst (run m s)) = sconcat (chunks (emit b)) /\ finished (emit b) = true)
         | Some p => (forall d, m_depfile m = Some d -> d <> p) -> (forall f, m_symfile m = Some f -> f <> p) -> b_noop b = false ->
             fst (fst (run m s)) p = Some (NFile (sconcat (chunks (emit b))))
             /\ (m_verify m = true -> s p = Some (NFile (sconcat (chunks (emit b)))))
         end.
  Proof.
    intros m s E. unfold run, main in *. destruct (clap_accepts m) eqn:A; [|discriminate]. cbn [negb] in *. split; [reflexivity|].
    destruct (m_verify m && match m_out m with None => true | Some _ => false end) eqn:V; [discriminate|]. fold load in E |- *.
    destruct (load m) as [b| | |] eqn:L; try discriminate. exists b. split; [reflexivity|].
    destruct (m_out m) as [p|].
    - intros Hd Hs N. pose proof (P_Files.main_codes (world b) (emit b) (symfile_text b)
        {| op_out := p; op_verify := m_verify m; op_depfile := m_depfile m; op_symfile := m_symfile m |} s Hd Hs) as K.
      cbn zeta in K. rewrite N in E |- *. destruct (main_out _ _ _ _ _ _) as [s' code]. cbn in E, K |- *. injection E as ->.
      exact (proj1 K eq_refl).
    - rewrite andb_true_r in V. split; [exact V|]. intros N. rewrite N in *. cbn in *. split; [reflexivity|].
      destruct (finished (emit b)); [reflexivity|discriminate].
  Qed.
  Lemma main_usage : forall m s, clap_accepts m = false \/ m_verify m = true /\ m_out m = None -> run m s = (s, "", Some 2).
  Proof.
    intros m s K. unfold run, main. destruct (clap_accepts m); [|reflexivity]. destruct K as [K|[V O]]; [discriminate|].
    rewrite V, O. reflexivity.
  Qed.

  Lemma built : forall s srcs lib b, ou_running w = false -> build w mfuel fuel gfuel visit s srcs lib = Ran b <->
    exists l l', parse_all (ou_disk w) (se_config s) (se_bitflags s) mfuel fuel true srcs lib = Parsed l
      /\ prepare gfuel visit l = Done l' /\ finish l' = Done b.
  Proof.
    intros s srcs lib b R. unfold build. rewrite R.
    destruct (parse_all (ou_disk w) (se_config s) (se_bitflags s) mfuel fuel true srcs lib) as [l| | |].
    - unfold generate. split.
      + destruct (prepare gfuel visit l) as [l'| |] eqn:P; cbn; try discriminate.
        destruct (finish l') as [b'| |] eqn:F; try discriminate. intros E. injection E as <-.
        exists l, l'. repeat split; assumption.
      + intros (l0 & l' & E & P & F). injection E as <-. rewrite P. cbn. rewrite F. reflexivity.
    - split; [discriminate|]. intros (l & l' & E & _). discriminate.
    - split; [discriminate|]. intros (l & l' & E & _). discriminate.
    - split; [discriminate|]. intros (l & l' & E & _). discriminate.
  Qed.
  Lemma main_whole : forall m s, ou_running w = false -> snd (run m s) = Some 0 ->
    exists st srcs lib l l' b, plan w m = Ran (st, srcs, lib)
      /\ parse_all (ou_disk w) (se_config st) (se_bitflags st) mfuel fuel true srcs lib = Parsed l
      /\ prepare gfuel visit l = Done l' /\ finish l' = Done b
      /\ match m_out m with
         | None => snd (fst (run m s)) = sconcat (chunks (emit b))
         | Some p => (forall d, m_depfile m = Some d -> d <> p) -> (forall f, m_symfile m = Some f -> f <> p) ->
             fst (fst (run m s)) p = Some (NFile (sconcat (chunks (emit b))))
         end.
  Proof.
    intros m s R E. destruct (main_succeeds m s E) as (_ & b & L & K). apply loaded_bindings in L.
    destruct L as (st & srcs & lib & P & B). apply built in B; [|exact R]. destruct B as (l & l' & A1 & A2 & A3).
    assert (N : b_noop b = false).
    { unfold finish in A3. destruct (library_dependencies l') as [dd| |]; try discriminate.
      apply (f_equal (fun o => match o with Done x => b_noop x | _ => false end)) in A3. symmetry. exact A3. }
    exists st, srcs, lib, l, l', b. repeat (split; [assumption|]). destruct (m_out m).
    - intros Hd Hs. exact (proj1 (K Hd Hs N)).
    - exact (proj1 (proj2 K N)).
  Qed.
End Command.
