(** C34: which packages a package depends on, and where they are. *)
Require Import Coq.Strings.String Coq.Strings.Ascii Coq.Lists.List Coq.Bool.Bool.
From Verif Require Import Base M_Cfg S_Cfg M_Bindings M_Parser S_Cargo P_Cargo.
From Verif Require T_Parse.
Import ListNotations.
Open Scope string_scope.

(** The dependencies of a package are those its entry in the lock file lists,
    in that order.  Each has the name in its line, and the version there or
    else that of the only package of that name; it counts on the targets the
    metadata give for it.  Reading them fails only at a blank line. *)
Theorem C34_listed : forall c p lines, NoDup (map mp_ref (cg_packages c)) -> clear_entry c p -> listed c p lines ->
  match dependencies c p with
  | Some ds => Forall2 (dependency_line c p) lines ds
  | None => exists line, In line lines /\ blanks line
  end.
Proof. exact dependencies_read. Qed.
(** There is such a list. *)
Theorem C34_is_listed : forall c p, clear_entry c p -> exists lines, listed c p lines.
Proof. intros c p C. exists (lock_dependencies c p). exact (lines_listed c p C). Qed.
(** The crate bindings are made for is one of the given name, and the one with
    the given manifest if there is such a one. *)
Theorem C34_binding_crate : forall c p, binding_crate_ref c = Some p ->
  exists m, In m (cg_packages c) /\ mp_ref m = p /\ pk_name p = cg_binding_crate_name c
    /\ ((exists m', In m' (cg_packages c) /\ pk_name (mp_ref m') = cg_binding_crate_name c /\ mp_manifest_path m' = cg_manifest_path c) -> mp_manifest_path m = cg_manifest_path c).
Proof. exact binding_crate_found. Qed.
Theorem C34_no_binding_crate : forall c, binding_crate_ref c = None <-> forall m, In m (cg_packages c) -> pk_name (mp_ref m) <> cg_binding_crate_name c.
Proof. exact binding_crate_none. Qed.
(** The source of a package is that of its first library target. *)
Theorem C34_source : forall c p path, NoDup (map mp_ref (cg_packages c)) ->
  find_crate_src c p = Some path <-> exists m before t after, In m (cg_packages c) /\ mp_ref m = p /\ mp_targets m = (before ++ t :: after)%list
    /\ is_library t /\ Forall (fun t => ~ is_library t) before /\ snd t = path.
Proof. exact source_found. Qed.

(** A lock file with two versions of [b], one of [c] and none of [d], and blanks
    of several kinds. *)
Definition example : Cargo :=
  {| cg_manifest_path := "x/Cargo.toml"; cg_binding_crate_name := "a";
     cg_lock := Some {| lk_root := Some (T_Parse.lock_pkg "a" "1" ["  b 2 (registry)"; "c"; "d"; "b"]);
                        lk_package := Some [T_Parse.lock_pkg "b" "1" []; T_Parse.lock_pkg "b" "2" []; T_Parse.lock_pkg "c" "7" []] |};
     cg_packages := [T_Parse.meta_pkg "a" "0" [] ["old"; "lib.rs"];
       {| mp_ref := T_Parse.pkg "a" "1";
          mp_dependencies := [("b", Some ("cfg(windows)", Some (MList (Some "cfg") (Some [MPath (Some "windows")])))); ("c", Some ("x86_64-linux", None)); ("d", None)];
          mp_targets := [(["bin"], ["x"; "main.rs"]); (["cdylib"; "rlib"], ["x"; "lib.rs"]); (["lib"], ["x"; "other.rs"])]; mp_manifest_path := "x/Cargo.toml" |};
       T_Parse.meta_pkg "b" "1" [] ["b1"; "lib.rs"]; T_Parse.meta_pkg "b" "2" [] ["b2"; "lib.rs"]; T_Parse.meta_pkg "c" "7" [] ["c"; "lib.rs"]];
     cg_expand := fun _ => None |}.
Example C34_cargo_example :
  NoDup (map mp_ref (cg_packages example)) /\ clear_entry example (T_Parse.pkg "a" "1")
  /\ listed example (T_Parse.pkg "a" "1") ["  b 2 (registry)"; "c"; "d"; "b"]
  /\ dependencies example (T_Parse.pkg "a" "1") =
       Some [(T_Parse.pkg "b" "2", Some (CBoolean "windows")); (T_Parse.pkg "c" "7", Some (CBoolean "x86_64-linux"));
             ({| pk_name := "d"; pk_version := None |}, None); ({| pk_name := "b"; pk_version := None |}, Some (CBoolean "windows"))]
  /\ binding_crate_ref example = Some (T_Parse.pkg "a" "1")
  /\ find_crate_src example (T_Parse.pkg "a" "1") = Some ["x"; "lib.rs"].
Proof.
  assert (C : clear_entry example (T_Parse.pkg "a" "1")).
  { intros l x y L [X [N _]] [Y [M _]]. injection L as <-. cbn in X, Y.
    assert (K : forall z, (Some (T_Parse.lock_pkg "a" "1" ["  b 2 (registry)"; "c"; "d"; "b"]) = Some z
        \/ exists ps, Some [T_Parse.lock_pkg "b" "1" []; T_Parse.lock_pkg "b" "2" []; T_Parse.lock_pkg "c" "7" []] = Some ps /\ In z ps) -> lp_name z = "a" ->
      z = T_Parse.lock_pkg "a" "1" ["  b 2 (registry)"; "c"; "d"; "b"]).
    { intros z [Q|(ps & Q & I)] E; [congruence|]. injection Q as <-. destruct I as [<-|[<- |[<- |[]]]]; discriminate. }
    rewrite (K x X N), (K y Y M). reflexivity. }
  split; [|split; [exact C|split; [exact (lines_listed example (T_Parse.pkg "a" "1") C)|repeat split]]].
  repeat (apply NoDup_cons; [cbn; intuition discriminate|]). apply NoDup_nil.
Qed.

(** A target that is one word is not taken for a target: the dependency counts
    on all of them. *)
Theorem C34_one_word_target_refuted :
  Cfg_load_metadata (Some ("wasi", Some (MPath (Some "wasi")))) = None /\ Cfg_load_metadata (Some ("a-b", None)) = Some (CBoolean "a-b").
Proof. split; reflexivity. Qed.

Print Assumptions C34_listed.
Print Assumptions C34_is_listed.
Print Assumptions C34_binding_crate.
Print Assumptions C34_no_binding_crate.
Print Assumptions C34_source.
