(** What the lock file and the metadata of cargo say about packages. *)
Require Import Coq.Strings.String Coq.Strings.Ascii Coq.Lists.List Coq.Bool.Bool.
From Verif Require Import Base M_Cfg S_Cfg M_Bindings M_Parser.
Import ListNotations.
Open Scope string_scope.

(** The words of a line. *)
Inductive words_of : string -> list string -> Prop :=
| wo_none : forall s, blanks s -> words_of s []
| wo_word : forall b w r ws, blanks b -> w <> "" -> Forall (fun a => is_white a = false) (list_ascii_of_string w) ->
    (r = "" \/ exists a r', r = String a r' /\ is_white a = true) -> words_of r ws -> words_of (b ++ w ++ r) (w :: ws).

(** The entries of the lock file for a package, whose version may be unknown. *)
Definition entry_of (l : Lock) (p : PackageRef) (x : lock_package) : Prop :=
  (lk_root l = Some x \/ exists ps, lk_package l = Some ps /\ In x ps)
  /\ lp_name x = pk_name p /\ (forall v, pk_version p = Some v -> lp_version x = v).
(** All entries for it, usually one, say the same. *)
Definition clear_entry (c : Cargo) (p : PackageRef) : Prop :=
  forall l x y, cg_lock c = Some l -> entry_of l p x -> entry_of l p y -> lp_dependencies x = lp_dependencies y.
Definition listed (c : Cargo) (p : PackageRef) (lines : list string) : Prop :=
  (exists l x, cg_lock c = Some l /\ entry_of l p x /\ lp_dependencies x = Some lines)
  \/ lines = [] /\ forall l x, cg_lock c = Some l -> entry_of l p x -> lp_dependencies x = None.

(** A line is a name and perhaps a version.  Without one, it is the version of
    the only package of that name. *)
Definition only_one (c : Cargo) (n v : string) : Prop :=
  exists l1 m l2, cg_packages c = (l1 ++ m :: l2)%list /\ mp_ref m = {| pk_name := n; pk_version := Some v |}
    /\ forall m' v', In m' (l1 ++ l2) -> mp_ref m' <> {| pk_name := n; pk_version := Some v' |}.
Definition version_of (c : Cargo) (n : string) (rest : list string) (v : option string) : Prop :=
  match rest, v with
  | w :: _, _ => v = Some w
  | [], Some w => only_one c n w
  | [], None => forall w, ~ only_one c n w
  end.
(** On which targets it is a dependency: [None] if that cannot be told. *)
Definition target_holds (rho : atom -> bool) (t : option (string * option meta)) : option bool :=
  match t with
  | None => Some true
  | Some (_, Some (MList (Some "cfg") (Some [a]))) => rust_eval rho a
  | Some (triple, None) => Some (rho (Flag triple))
  | Some (_, Some _) => None
  end.
Definition dependency_line (c : Cargo) (p : PackageRef) (line : string) (d : PackageRef * option Cfg) : Prop :=
  exists n rest, words_of line (n :: rest) /\ pk_name (fst d) = n /\ version_of c n rest (pk_version (fst d))
    /\ (forall m, In m (cg_packages c) -> mp_ref m = p ->
         match lookup n (mp_dependencies m) with
         | Some t => forall rho x, target_holds rho t = Some x -> cfg_eval_opt rho (snd d) = x
         | None => snd d = None
         end)
    /\ ((forall m, In m (cg_packages c) -> mp_ref m <> p) -> snd d = None).

(** A target that is a library. *)
Definition is_library (t : list string * cpath) : Prop := exists k, In k ["lib"; "staticlib"; "rlib"; "cdylib"; "dylib"] /\ In k (fst t).
