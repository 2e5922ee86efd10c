(** C26-C29: output files, dependency files, symbol files, merged field lists. *)
Require Import Coq.Strings.String Coq.Strings.Ascii Coq.Lists.List Coq.Bool.Bool Coq.Arith.Arith Coq.Sorting.Permutation Coq.Sorting.Sorted.
From Verif Require Import Base M_Config M_Cfg M_Type M_Ir M_Item M_Library M_Bindings M_Files S_Files S_Make S_Fields S_Demo P_Files P_Bindings.
Import ListNotations.
Open Scope string_scope.

(** ** C26 *)

(** C26.  A write that ends left the generated text in the file, answers true
    exactly if the file was not already so, and touched nothing else but
    missing directories above it. *)
Theorem C26_honest : forall ok g s p s' a, run_write ok false g s p = (s', Done a) ->
  s' p = Some (NFile (sconcat (chunks g))) /\
  (a = true <-> s p <> Some (NFile (sconcat (chunks g)))) /\ only_touches p s s'.
Proof.
  exact (fun ok g s p s' a E => conj (proj1 (run_write_content ok g s p s' a E)) (conj (proj2 (run_write_content ok g s p s' a E))
    (eq_ind _ (fun x => only_touches p s (fst x)) (run_write_touches ok false g s p) _ E))).
Qed.
Print Assumptions C26_honest.

(** C26.  If nothing stands in its way and generation ends, it ends. *)
Theorem C26_succeeds : forall g s p, tree s -> writable s p -> finished g = true ->
  exists s' a, run_write no_failures false g s p = (s', Done a).
Proof.
  exact (fun g s p Ht Hw Hf => ex_intro _ (fst (run_write no_failures false g s p)) (ex_intro _ _
    (eq_trans (surjective_pairing _) (f_equal (pair _) (write_succeeds g s p Ht Hw Hf))))).
Qed.
Print Assumptions C26_succeeds.

(** C26.  An up-to-date file is not written, whatever the system would answer. *)
Theorem C26_up_to_date : forall g s p, finished g = true -> s p = Some (NFile (sconcat (chunks g))) ->
  write_to_file false g s p = ([], Done false).
Proof.
  intros g s p Hf Hs. unfold write_to_file. rewrite Hs, Hf, String.eqb_refl. reflexivity.
Qed.
Print Assumptions C26_up_to_date.

(** C26.  A second write changes nothing and says so. *)
Theorem C26_idempotent : forall ok ok' g s p s' a, finished g = true -> run_write ok false g s p = (s', Done a) ->
  run_write ok' false g s' p = (s', Done false).
Proof.
  intros ok ok' g s p s' a Hf E. unfold run_write. rewrite (C26_up_to_date g s' p Hf); [reflexivity|].
  exact (proj1 (run_write_content ok g s p s' a E)).
Qed.
Print Assumptions C26_idempotent.

(** C26.  No-op bindings do nothing. *)
Theorem C26_noop : forall ok g s p, write_to_file true g s p = ([], Done false) /\ run_write ok true g s p = (s, Done false).
Proof. exact (fun ok g s p => conj eq_refl eq_refl). Qed.
Print Assumptions C26_noop.

(** C26.  Wherever a write is stopped, the file has its old content or a
    beginning of the new text, nothing else changed, and the next complete
    write puts it right. *)
Theorem C26_crash : forall g s p s', crash (fst (write_to_file false g s p)) s s' ->
  (s' p = s p \/ exists t, is_prefix t (sconcat (chunks g)) /\ s' p = Some (NFile t)) /\ only_touches p s s'.
Proof.
  exact (fun g s p s' Hc => conj (write_crash g s p s' Hc) (crash_touches p _ s s' Hc (write_at false g s p))).
Qed.
Print Assumptions C26_crash.
Theorem C26_recovers : forall g s p s', tree s -> writable s p -> finished g = true ->
  crash (fst (write_to_file false g s p)) s s' ->
  exists a, snd (run_write no_failures false g s' p) = Done a /\
  fst (run_write no_failures false g s' p) p = Some (NFile (sconcat (chunks g))).
Proof. exact write_recovers. Qed.
Print Assumptions C26_recovers.
(** Running out of permission or space is such a stop. *)
Theorem C26_failures : forall ok noop g s p, crash (fst (write_to_file noop g s p)) s (fst (run_write ok noop g s p)).
Proof. exact run_write_crash. Qed.
Print Assumptions C26_failures.

(** C26.  If generating panics, a file that exists stays as it is ... *)
Theorem C26_panic_keeps : forall ok g s p old, finished g = false -> s p = Some (NFile old) ->
  run_write ok false g s p = (s, Panic).
Proof. intros ok g s p old Hf Hs. unfold run_write, write_to_file. rewrite Hs, Hf. reflexivity. Qed.
Print Assumptions C26_panic_keeps.

(** C26.  In any history of writes, also of other files and with crashes, a
    path holds the text of the last write to it, if that ended. *)
Theorem C26_history : forall later earlier e a s0 s,
  history (later ++ e :: earlier) s0 s -> ev_answer e = Some a ->
  (forall e', In e' later -> ev_path e' <> ev_path e) -> s (ev_path e) = Some (NFile (ev_text e)).
Proof. exact last_write_wins. Qed.
Print Assumptions C26_history.
Theorem C26_history_other : forall h s0 s, history h s0 s ->
  forall p n, (forall e, In e h -> ev_path e <> p) -> s0 p = Some n -> s p = Some n.
Proof. exact history_other. Qed.
Print Assumptions C26_history_other.

(** A file system with one directory, in which a file is created, found up to
    date, and replaced. *)
Definition disk : fsys := fun q => match q with [] => Some NDir | ["src"] => Some NDir | _ => None end.
Definition gen (l : list string) : generation := {| chunks := l; finished := true |}.
Definition out : cpath := ["src"; "gen"; "a.h"].
Example write_new :
  let r := run_write no_failures false (gen ["int"; " x;"]) disk out in
  snd r = Done true /\ fst r out = Some (NFile "int x;") /\ fst r ["src"; "gen"] = Some NDir /\
  snd (run_write no_failures false (gen ["int x"; ";"]) (fst r) out) = Done false /\
  let r2 := run_write no_failures false (gen ["y"]) (fst r) out in snd r2 = Done true /\ fst r2 out = Some (NFile "y").
Proof. vm_compute. repeat split. Qed.
Example disk_is_tree : tree disk /\ writable disk out.
Proof.
  split; [split; [reflexivity|]|].
  - intros [|x [|y q]] Hne Hex; [congruence|reflexivity|].
    exfalso. apply Hex. unfold disk. destruct (string_dec x "src") as [->|Hx]; [reflexivity|].
    clear - Hx. repeat (match goal with |- context [match ?c with _ => _ end] => destruct c end; try reflexivity; try (exfalso; apply Hx; reflexivity)).
  - split; [discriminate|]. split; [discriminate|]. intros q c (Hne & r & Hr & E).
    destruct q as [|x [|y [|z q]]]; [congruence| | |]; unfold out in E; injection E; intros; subst; try discriminate.
Qed.
Example crash_mid : crash (fst (write_to_file false (gen ["int"; " x;"]) disk out)) disk
  (put out (NFile "in") (put out (NFile "") (put ["src"; "gen"] NDir disk))).
Proof.
  change (fst (write_to_file false (gen ["int"; " x;"]) disk out))
    with [EMkDir ["src"; "gen"]; ECreate out; EAppend out ("in" ++ "t"); EAppend out " x;"].
  eapply crash_later; [reflexivity|]. eapply crash_later; [reflexivity|].
  apply crash_within with (c := ""). reflexivity.
Qed.

(** C26.  ... but a new file is left with what was written before the panic. *)
Theorem C26_panic_partial_file_refuted : exists g s p, finished g = false /\ s p = None /\
  fst (run_write no_failures false g s p) p = Some (NFile "#ifndef A_H") /\ snd (run_write no_failures false g s p) = Panic.
Proof. exists {| chunks := ["#ifndef"; " A_H"]; finished := false |}, disk, out. vm_compute. repeat split. Qed.
Print Assumptions C26_panic_partial_file_refuted.

(** C26.  The program's exit code: 0 means the header is up to date (and under
    [--verify] was so before); 2 means [--verify] found it was not. *)
Theorem C26_exit_codes : forall w g symbols o s,
  (forall d, op_depfile o = Some d -> d <> op_out o) -> (forall f, op_symfile o = Some f -> f <> op_out o) ->
  let text := sconcat (chunks g) in
  let r := main_out w false g symbols o s in
  (snd r = 0 -> fst r (op_out o) = Some (NFile text) /\ (op_verify o = true -> s (op_out o) = Some (NFile text))) /\
  (snd r = 2 -> op_verify o = true /\ s (op_out o) <> Some (NFile text)).
Proof. exact main_codes. Qed.
Print Assumptions C26_exit_codes.
Definition calm (pieces : option (list string)) : World :=
  {| ok_out := no_failures; ok_dep := no_failures; ok_sym := no_failures; sym_early := 0; dep_pieces := fun _ => pieces |}.
Definition options (verify : bool) : Options :=
  {| op_out := out; op_verify := verify; op_depfile := Some ["src"; "a.d"]; op_symfile := Some ["sym"] |}.
Example program_runs :
  let r := main_out (calm (Some ["a.h:"; nl])) false (gen ["x"]) "{};" (options false) disk in
  snd r = 0 /\ fst r out = Some (NFile "x") /\ fst r ["src"; "a.d"] = Some (NFile ("a.h:" ++ nl)) /\ fst r ["sym"] = Some (NFile "{};").
Proof. vm_compute. repeat split. Qed.
(** [--verify] overwrites the header it is asked to verify: a second run passes. *)
Theorem C26_verify_refuted : exists w g o s, op_verify o = true /\
  let r := main_out w false g "" o s in
  snd r = 2 /\ fst r (op_out o) <> s (op_out o) /\ snd (main_out w false g "" o (fst r)) = 0.
Proof.
  exists (calm (Some [])), (gen ["new"]), (options true), (put out (NFile "old") (put ["src"; "gen"] NDir disk)).
  vm_compute. repeat split. discriminate.
Qed.
Print Assumptions C26_verify_refuted.
(** No-op bindings still overwrite the dependency and symbol files. *)
Theorem C26_noop_program_refuted : exists w g o s, let r := main_out w true g "" o s in
  snd r = 0 /\ exists d, op_depfile o = Some d /\ s d = Some (NFile "a.h: lib.rs") /\ fst r d = Some (NFile "a.h:").
Proof.
  exists (calm (Some ["a.h:"])), (gen []), (options false), (put ["src"; "a.d"] (NFile "a.h: lib.rs") disk).
  vm_compute. split; [reflexivity|]. eexists. repeat split.
Qed.
Print Assumptions C26_noop_program_refuted.

(** ** C27 *)

(** C27.  Make reads the dependency file as one rule: the header's path as its
    target, and as prerequisites exactly the source files and the configuration
    file, each as often as it was given, in the order of paths. *)
Theorem C27_rule : forall canon b header h srcs,
  canon header = Some h ->
  map_opt canon (b_source_files b ++ match config_path (b_config b) with Some p => [p] | None => [] end) = Some srcs ->
  plain_text (cpath_text h) = true -> Forall (fun p => plain_text (cpath_text p) = true) srcs ->
  exists text sorted, depfile_text canon b header = Some text /\ Permutation srcs sorted /\
    StronglySorted (fun x y => cpath_leb x y = true) sorted /\
    make_rule text = Some (cpath_text h, map cpath_text sorted).
Proof. exact depfile_reads. Qed.
Print Assumptions C27_rule.
(** C27.  That text is what the file holds when writing it ended. *)
Theorem C27_file : forall ok pieces s p s', generate_depfile ok pieces s p = (s', Done tt) ->
  only_touches p s s' /\ exists l, pieces = Some l /\ s' p = Some (NFile (sconcat l)).
Proof. exact depfile_writes. Qed.
Print Assumptions C27_file.

Definition no_bindings (c : Config) (srcs : list string) : Bindings :=
  {| b_config := c; b_struct_map := []; b_enum_map := []; b_typedef_map := []; b_constants := []; b_globals := [];
     b_items := []; b_functions := []; b_source_files := srcs; b_noop := false; b_package_version := "" |}.
Definition at_root (s : string) : option cpath := Some ["my src"; s].
Example dependencies_of :
  option_map make_rule (depfile_text at_root (no_bindings default_config ["lib.rs"; "b c.rs"; "a.rs"]) "out.h") =
    Some (Some ("/my src/out.h", ["/my src/a.rs"; "/my src/b c.rs"; "/my src/lib.rs"])) /\
  forallb (fun s => plain_text (cpath_text ["my src"; s])) ["lib.rs"; "b c.rs"; "a.rs"; "out.h"] = true.
Proof. vm_compute. split; reflexivity. Qed.
(** C27.  A path with '#' makes every later prerequisite part of a comment, and
    one with '$' is read as another path. *)
Theorem C27_special_refuted : exists srcs,
  option_map make_rule (depfile_text (fun s => Some [s]) (no_bindings default_config srcs) "out.h") =
  Some (Some ("/out.h", ["/ash.rs"; "/b"])) /\ srcs = ["a$1sh.rs"; "b#1.rs"; "lib.rs"; "main.rs"].
Proof. eexists. split; [|reflexivity]. vm_compute. reflexivity. Qed.
Print Assumptions C27_special_refuted.

(** ** C28 *)

(** C28.  The symbol file reads back as the exported functions and then the
    exported statics, in the order of the bindings, one a line. *)
Theorem C28_symbols : forall b,
  let functions := map f_path (filter (fun f => should_export (f_annotations f)) (b_functions b)) in
  let statics := map g_export_name (filter (fun g => should_export (g_annotations g)) (b_globals b)) in
  (forall x, In x (functions ++ statics) -> contains_char newline_char x = false) ->
  symbol_list (symfile_text b) = Some (functions ++ statics)%list.
Proof. exact symbols_read. Qed.
Print Assumptions C28_symbols.
(** C28.  That text is what the file holds if no operation fails. *)
Theorem C28_file : forall early text s p, tree s -> writable s p ->
  snd (generate_symfile no_failures early text s p) = Done tt /\
  fst (generate_symfile no_failures early text s p) p = Some (NFile text).
Proof. exact symfile_writes. Qed.
Print Assumptions C28_file.
Theorem C28_touches : forall ok early text s p, only_touches p s (fst (generate_symfile ok early text s p)).
Proof. exact symfile_touches. Qed.
Print Assumptions C28_touches.
Definition unexported (f : Function) : Function :=
  {| f_path := f_path f; f_self_type_path := None; f_ret := f_ret f; f_args := f_args f; f_extern_decl := false; f_cfg := None;
     f_annotations := {| an_values := [("no-export", ABool true)]; an_must_use := false; an_deprecated := None |};
     f_documentation := []; f_never_return := false |}.
Example symbols_of :
  let b := {| b_config := default_config; b_struct_map := []; b_enum_map := []; b_typedef_map := []; b_constants := [];
     b_globals := [static "COUNT" u8; static "ROOT" u8]; b_items := [];
     b_functions := [fn "init" [] void; unexported (fn "hidden" [] void); fn "close" [] void];
     b_source_files := []; b_noop := false; b_package_version := "" |} in
  symfile_text b = "{" ++ nl ++ "init;" ++ nl ++ "close;" ++ nl ++ "COUNT;" ++ nl ++ "ROOT;" ++ nl ++ "};" /\
  symbol_list (symfile_text b) = Some ["init"; "close"; "COUNT"; "ROOT"].
Proof. vm_compute. split; reflexivity. Qed.
(** C28.  An error while the last part is written goes unnoticed: the program
    succeeds and the file is cut short. *)
Theorem C28_lost_error_refuted : exists ok text s p,
  snd (generate_symfile ok 0 text s p) = Done tt /\ fst (generate_symfile ok 0 text s p) p = Some (NFile "") /\ text <> "".
Proof. exists (fun n => Nat.ltb n 2), "{};", disk, ["sym"]. vm_compute. repeat split. discriminate. Qed.
Print Assumptions C28_lost_error_refuted.

(** ** C29 *)

(** C29.  The merged list has every field of every definition exactly once. *)
Theorem C29_every_field_once : forall defs,
  NoDup (merge_definitions defs) /\ (forall x, In x (merge_definitions defs) <-> exists d, In d defs /\ In x d).
Proof. exact merge_set. Qed.
Print Assumptions C29_every_field_once.
(** C29.  One definition's fields come in their order. *)
Theorem C29_single : forall d, NoDup d -> merge_definitions [d] = d.
Proof. exact merge_single. Qed.
Print Assumptions C29_single.
(** C29.  A further definition keeps the order found so far, and its own fields
    come in its order if it agrees with that one on the fields in common. *)
Theorem C29_keeps : forall defs d, Sublist (merge_definitions defs) (merge_definitions (defs ++ [d])).
Proof. exact merge_keeps. Qed.
Print Assumptions C29_keeps.
Theorem C29_respects : forall defs d, NoDup d -> consistent d (merge_definitions defs) ->
  Sublist d (merge_definitions (defs ++ [d])).
Proof. exact merge_respects. Qed.
Print Assumptions C29_respects.
Example merged :
  merge_definitions [["a"; "b"; "d"]; ["a"; "x"; "b"; "c"]; ["x"; "c"; "z"]] = ["a"; "x"; "b"; "c"; "z"; "d"] /\
  consistent ["a"; "x"; "b"; "c"] (merge_definitions [["a"; "b"; "d"]]) /\
  consistent ["x"; "c"; "z"] (merge_definitions [["a"; "b"; "d"]; ["a"; "x"; "b"; "c"]]).
Proof. vm_compute. repeat split. Qed.
(** C29.  Three definitions that agree pairwise: the third one's order is lost. *)
Theorem C29_three_refuted : exists d1 d2 d3,
  consistent d1 d2 /\ consistent d1 d3 /\ consistent d2 d3 /\ NoDup d1 /\ NoDup d2 /\ NoDup d3 /\
  (exists order, Sublist d1 order /\ Sublist d2 order /\ Sublist d3 order) /\
  merge_definitions [d1; d2; d3] = ["y"; "x"; "z"] /\ d3 = ["x"; "y"].
Proof.
  assert (nodup2 : forall a b : string, a <> b -> NoDup [a; b]).
  { intros a b Hab. constructor; [intros [E|[]]; congruence|]. constructor; [intros []|constructor]. }
  exists ["x"; "z"], ["y"; "z"], ["x"; "y"].
  repeat (split; [first [reflexivity|apply nodup2; discriminate|idtac]|]); try (vm_compute; split; reflexivity).
  exists ["x"; "y"; "z"]. repeat split.
  - apply sub_take, sub_skip, sub_take, sub_nil.
  - apply sub_skip, sub_take, sub_take, sub_nil.
  - apply sub_take, sub_take, sub_nil.
Qed.
Print Assumptions C29_three_refuted.

(** C29.  Whatever was asked before, the answer is the merged list of the
    struct at which the typedefs end. *)
Theorem C29_memo : forall fuel b ps ls, ask_all fuel b [] ps = Done ls ->
  Forall2 (fun p l => exists q, ends_at b p q /\ l = merge_definitions (map field_names (for_items (b_struct_map b) q))) ps ls.
Proof. exact (fun fuel b ps ls => ask_all_right fuel b ps [] ls (fun p l E => match (eq_ind None (fun o => match o with None => True | Some _ => False end) Logic.I (Some l) E) with end)). Qed.
Print Assumptions C29_memo.
(** C29.  Following typedefs ends when every typedef's target is further down
    some order, as it is in Rust for typedefs that mean what their paths say. *)
Theorem C29_ends : forall b (rank : string -> nat), (forall p q, aliased b p q -> rank q < rank p) ->
  forall fuel ps, (forall p, In p ps -> rank p < fuel) -> exists ls, ask_all fuel b [] ps = Done ls.
Proof. exact (fun b rank Hr fuel ps Hp => ask_all_done fuel b ps [] (fun p Hin => resolved_ranked b rank Hr p fuel (Hp p Hin))). Qed.
Print Assumptions C29_ends.
Definition two_views (H : Heck) : outcome Bindings :=
  generate 9 (fun x => x) (lib (config_with Cxx default_export SortNone) [] [] [] [struct "Foo" [] [fld "x" u8; fld "y" u8]] [] []
    [typedef "Bar" (ty "Foo"); typedef "Baz" (ty "Bar")] [fn "f" [("a", ty "Baz")] void]).
Example asked : forall H : Heck, (do b := two_views H in ask_all 5 b [] ["Baz"; "Foo"; "Bar"; "Baz"; "Qux"]) =
  Done [["x"; "y"]; ["x"; "y"]; ["x"; "y"]; ["x"; "y"]; []].
Proof. intros. vm_compute. reflexivity. Qed.
(** C29.  Modules are not told apart: [pub type Foo = a::Foo] is taken as an
    alias of itself.  The bindings are built, and asking for the struct never ends. *)
Theorem C29_self_alias_refuted : forall H : Heck, exists l b, generate 9 (fun x => x) l = Done b /\
  In "Foo" (map s_path (to_vec (b_struct_map b))) /\
  (forall fuel, struct_exists fuel b "Foo" = Diverge) /\ (forall fuel m, lookup "Foo" m = None -> struct_field_names fuel b m "Foo" = Diverge).
Proof.
  intros H. exists (lib (config_with Cxx default_export SortNone) [const "F" (ty "Foo") (LStruct "Foo" "Foo" [("x", (LExpr "1", None))])] [] []
    [struct "Foo" [] [fld "x" u8]] [] [] [typedef "Foo" (ty "Foo")] []).
  eexists. split; [vm_compute; reflexivity|]. split; [vm_compute; tauto|].
  match goal with |- context [struct_exists _ ?b _] => assert (Hd : forall fuel, resolved_struct_path fuel b "Foo" = Diverge) end.
  { intros fuel. apply (resolved_cycle _ (fun p => p = "Foo")); [|reflexivity]. intros p ->. exists "Foo". split; reflexivity. }
  split; [intros fuel; unfold struct_exists; rewrite Hd; reflexivity|].
  intros fuel m Hm. unfold struct_field_names. rewrite Hm, Hd. reflexivity.
Qed.
Print Assumptions C29_self_alias_refuted.
