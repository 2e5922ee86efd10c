(** The calls of a build script do what S_Builder says. *)
Require Import Coq.Strings.String Coq.Lists.List Coq.Bool.Bool.
From Verif Require Import Base P_Base M_Config M_Type M_Ir M_Item M_Library M_Bindings M_Files M_Attr M_Syn M_Loader M_Parser M_Settings M_Cli M_Builder.
From Verif Require Import S_Settings P_Settings S_Cli P_Cli S_Builder.
From Verif Require P_Files.
Import ListNotations.
Open Scope string_scope.

Lemma inserted : forall {A} k (v : A) m n, lookup n (map_insert k v m) = if String.eqb n k then Some v else lookup n m.
Proof.
  intros A k v m n. unfold map_insert. cbn [lookup]. destruct (String.eqb_spec n k) as [->|N]; [reflexivity|].
  induction m as [|[k' v'] m IH]; [reflexivity|]. cbn [filter fst lookup]. destruct (String.eqb_spec k' k) as [->|K]; cbn [negb].
  - rewrite IH. destruct (String.eqb_spec n k); [contradiction|reflexivity].
  - cbn [lookup]. rewrite IH. reflexivity.
Qed.
Section Calls.
  Context {H : Heck}.
  Lemma call_did : forall debug c b b', apply_call debug c b = Some b' -> did c b b'.
  Proof.
    intros debug c b b' A. unfold apply_call in A. destruct (debug && negb (asserts c b)); [discriminate|]. injection A as <-.
    constructor.
    - destruct c; try reflexivity; cbn; intro n; apply inserted.
    - destruct c; cbn [about]; try exact Logic.I; try reflexivity; (split; [reflexivity|]); try kept; repeat (split; [kept|]); kept.
    - destruct c; intro N; try reflexivity; exfalso; exact (N eq_refl).
    - destruct c; intro N; try reflexivity; exfalso; exact (N eq_refl).
    - destruct c; intro N; try reflexivity; exfalso; exact (N eq_refl).
    - destruct c; intro N; try reflexivity; exfalso; exact (N eq_refl).
  Qed.
  Lemma call_refused : forall debug c b, apply_call debug c b = None <-> debug = true /\ twice c b.
  Proof.
    intros debug c b. unfold apply_call, twice. destruct debug; cbn [andb]; [|split; [discriminate|intros [N _]; discriminate N]].
    destruct (asserts c b) eqn:A; cbn [negb].
    - split; [discriminate|]. intros [_ [[E N]|[E N]]]; destruct c; try discriminate E; cbn in A.
      + destruct (bu_lib b); [discriminate A|]. exact (False_ind _ (N eq_refl)).
      + destruct (bu_lib b); [discriminate A|]. exact (False_ind _ (N eq_refl)).
      + destruct (bu_lockfile b); [discriminate A|]. exact (False_ind _ (N eq_refl)).
    - split; [intros _|reflexivity]. split; [reflexivity|]. destruct c; try discriminate A; cbn in A.
      + left. split; [reflexivity|]. destruct (bu_lib b); discriminate.
      + left. split; [reflexivity|]. destruct (bu_lib b); discriminate.
      + right. split; [reflexivity|]. destruct (bu_lockfile b); discriminate.
  Qed.
  (** A value stays until a call about the same setting. *)
  Lemma value_stays : forall c d b0 b, ~ touches d c -> value_now c b0 b -> value_now c b0 (plain_call d b).
  Proof.
    intros c d b0 b N V. destruct d, c; try exact V; exfalso; apply N; first [left; reflexivity|right; exact Logic.I].
  Qed.
  Lemma last_counts : forall debug l1 c l2 b b', apply_calls debug (l1 ++ c :: l2) b = Some b' -> Forall (fun d => ~ touches d c) l2 ->
    exists b1, apply_calls debug l1 b = Some b1 /\ value_now c b1 b'.
  Proof.
    intros debug l1 c l2. induction l1 as [|d l1 IH]; intros b b' A F; cbn [app apply_calls] in *.
    - exists b. split; [reflexivity|]. destruct (apply_call debug c b) as [b2|] eqn:C; [|discriminate].
      pose proof (di_value _ _ _ (call_did _ _ _ _ C)) as V. clear C. revert b2 A V. induction F as [|d l2 N F IH]; intros b2 A V; cbn [apply_calls] in A.
      + injection A as <-. exact V.
      + unfold apply_call in A. destruct (debug && negb (asserts d b2)); [discriminate|]. apply (IH _ A). exact (value_stays c d b b2 N V).
    - destruct (apply_call debug d b) as [b2|]; [|discriminate]. exact (IH _ _ A F).
  Qed.
  (** Calls that do not touch each other can change places. *)
  Lemma order_free : forall debug c d b b', ~ touches d c -> apply_calls debug [c; d] b = Some b' -> apply_calls debug [d; c] b = Some b'.
  Proof.
    intros debug c d b b' N. cbn [apply_calls]. unfold apply_call. intro A.
    destruct (debug && negb (asserts c b)) eqn:C; [discriminate|]. destruct (debug && negb (asserts d (plain_call c b))) eqn:D; [discriminate|]. injection A as <-.
    assert (K : asserts d b = asserts d (plain_call c b) /\ asserts c (plain_call d b) = asserts c b /\ plain_call c (plain_call d b) = plain_call d (plain_call c b)).
    { clear C D. destruct b as [[c0 ? ? ? x0] ? ? ? ?]. destruct d, c; try (split; [reflexivity|split; reflexivity]); exfalso; apply N; first [left; reflexivity|right; exact Logic.I]. }
    destruct K as (K1 & K2 & K3). rewrite K1, D, K2, C, K3. reflexivity.
  Qed.
  Lemma new_defaults : defaults (bu_settings Builder_new) /\ bu_srcs Builder_new = [] /\ bu_lib Builder_new = None /\ bu_std_types Builder_new = true /\ bu_lockfile Builder_new = None.
  Proof. split; [|repeat split]. apply defaults_exact. reflexivity. Qed.
End Calls.

Section Generate.
  Context {H : Heck}.
  Variables (w : Outside) (mfuel fuel gfuel : nat) (visit : list (string * AnnotationSet) -> list (string * AnnotationSet)).
  Lemma script_loaded : forall b dir name c, builder_cargo w dir name (bu_lockfile b) (bu_settings b) = Some c -> script_answered w b dir name c.
  Proof.
    intros b dir name c. unfold builder_cargo, Cargo_load. fold (in_dir dir "Cargo.toml").
    destruct (ou_metadata w (in_dir dir "Cargo.toml") None (se_only_target (bu_settings b))) as [md|] eqn:M; [|discriminate].
    destruct (match name with Some n => Some n | None => ou_manifest w (in_dir dir "Cargo.toml") end) as [n|] eqn:N; [|discriminate].
    intros E. injection E as <-. constructor; cbn [cg_packages cg_lock cg_binding_crate_name cg_manifest_path cg_expand].
    - exists md. repeat split; try assumption.
    - symmetry. exact N.
    - reflexivity.
    - intros p. rewrite expansion_is. reflexivity.
  Qed.
  Lemma generated : forall b x, ou_running w = false -> Builder_generate w mfuel fuel gfuel visit b = Ran x ->
    exists lib l l', script_library w b lib
      /\ parse_all (ou_disk w) (se_config (bu_settings b)) (se_bitflags (bu_settings b)) mfuel fuel (bu_std_types b) (bu_srcs b) lib = Parsed l
      /\ prepare gfuel visit l = Done l' /\ finish l' = Done x.
  Proof.
    intros b x R G. unfold Builder_generate in G. rewrite R in G. destruct (parse_srcs _ _ _ _ _ _); try discriminate.
    assert (K : forall lib, generate_with w mfuel fuel gfuel visit b lib = Ran x -> exists l l',
      parse_all (ou_disk w) (se_config (bu_settings b)) (se_bitflags (bu_settings b)) mfuel fuel (bu_std_types b) (bu_srcs b) lib = Parsed l
      /\ prepare gfuel visit l = Done l' /\ finish l' = Done x).
    { intros lib W. unfold generate_with in W. destruct (parse_all _ _ _ _ _ _ _ _) as [l| | |]; try discriminate. unfold generate in W.
      destruct (prepare gfuel visit l) as [l'| |] eqn:P; try discriminate. exists l, l'. split; [reflexivity|]. split; [exact P|].
      destruct (finish l') as [y| |]; try discriminate. injection W as <-. reflexivity. }
    unfold script_library. destruct (bu_lib b) as [[dir name]|].
    - destruct (builder_cargo w dir name (bu_lockfile b) (bu_settings b)) as [c|] eqn:C; [|discriminate]. destruct (K _ G) as (l & l' & K1).
      exists (Some c), l, l'. split; [|exact K1]. exists c. split; [reflexivity|]. exact (script_loaded _ _ _ _ C).
    - destruct (K _ G) as (l & l' & K1). exists None, l, l'. split; [reflexivity|exact K1].
  Qed.
  Lemma root_exact : forall dir s, from_root_or_default w dir = Some s <-> says w (in_dir dir "cbindgen.toml") s \/ ou_toml w (in_dir dir "cbindgen.toml") = None /\ defaults s.
  Proof.
    intros dir s. unfold from_root_or_default. fold (in_dir dir "cbindgen.toml").
    destruct (ou_toml w (in_dir dir "cbindgen.toml")) as [t|] eqn:T.
    - rewrite from_file_exact. split; [left; assumption|]. intros [A|[A _]]; [exact A|discriminate].
    - split.
      + intros E. injection E as <-. right. split; [reflexivity|]. apply defaults_exact. reflexivity.
      + intros [(t & A & _)|[_ A]]; [congruence|]. apply defaults_exact in A. congruence.
  Qed.
  Lemma crate_generated : forall debug dir x, generate_crate w mfuel fuel gfuel visit debug dir = Ran x <->
    exists s, (says w (in_dir dir "cbindgen.toml") s \/ ou_toml w (in_dir dir "cbindgen.toml") = None /\ defaults s)
      /\ Builder_generate w mfuel fuel gfuel visit {| bu_settings := s; bu_srcs := []; bu_lib := Some (dir, None); bu_std_types := true; bu_lockfile := None |} = Ran x.
  Proof.
    intros debug dir x. unfold generate_crate, generate_with_config.
    assert (A : forall s, apply_calls debug [WithConfig s; WithCrate dir] Builder_new = Some {| bu_settings := s; bu_srcs := []; bu_lib := Some (dir, None); bu_std_types := true; bu_lockfile := None |}) by (destruct debug; reflexivity).
    split.
    - destruct (from_root_or_default w dir) as [s|] eqn:F; [|discriminate]. cbn [or_crash bind_ran]. rewrite A. intro G. exists s. split; [|exact G].
      apply root_exact. exact F.
    - intros (s & S & G). apply root_exact in S. rewrite S. cbn [or_crash bind_ran]. rewrite A. exact G.
  Qed.
  Lemma generated_inside : forall b, ou_running w = true ->
    exists x, Builder_generate w mfuel fuel gfuel visit b = Ran x /\ forall ok g s p, run_write ok (b_noop x) g s p = (s, Done false).
  Proof.
    intros b R. unfold Builder_generate. rewrite R. eexists. split; [reflexivity|]. intros. reflexivity.
  Qed.
End Generate.
