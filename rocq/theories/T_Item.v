(** C07, C08: item tables. *)
Require Import Coq.Strings.String Coq.Lists.List Coq.Bool.Bool.
From Verif Require Import Base M_Cfg M_Ir M_Item M_Library S_Item P_Item.
Import ListNotations.

(** C07.  For every history of insertions, removals and updates: the answers to
    insertions, every lookup, the order of all items and the order of the paths
    are those of the specification. *)
Theorem C07_history : forall (T : Type) (I : Item T) (ops : list (op T)),
  Forall legal ops ->
  let '(m, flags) := run_ops [] ops in
  let '(t, flags') := steps empty_table ops in
  flags = flags' /\ (forall p, get_items p m = observe_path t p) /\ to_vec m = observe_all t /\ map fst m = paths t.
Proof. exact @history. Qed.
Print Assumptions C07_history.

(** C07.  A path has one unguarded definition or only guarded ones. *)
Theorem C07_no_mixing : forall (T : Type) (I : Item T) (m : ItemMap T) p l,
  reachable m -> get_items p m = Some l ->
  (exists x, l = [x] /\ guarded x = false) \/ (l <> [] /\ Forall (fun x => guarded x = true) l).
Proof. exact @no_mixing. Qed.
Print Assumptions C07_no_mixing.

Theorem C07_lookup_path : forall (T : Type) (I : Item T) (m : ItemMap T) p l x,
  reachable m -> get_items p m = Some l -> In x l -> i_path x = p.
Proof. exact @paths_right. Qed.
Print Assumptions C07_lookup_path.

(** C08.  Filtering removes exactly the matching items, keeps the order and
    leaves no empty entry. *)
Theorem C08_filter_items : forall (T : Type) (pred : T -> bool) (m : ItemMap T),
  to_vec (map_filter pred m) = filter (fun x => negb (pred x)) (to_vec m).
Proof. exact @filter_to_vec. Qed.
Print Assumptions C08_filter_items.

Theorem C08_filter_no_empty_entry : forall (T : Type) (I : Item T) (pred : T -> bool) (m : ItemMap T) p v,
  In (p, v) (map_filter pred m) -> value_items v <> [].
Proof. exact @filter_no_empty. Qed.
Print Assumptions C08_filter_no_empty_entry.

Theorem C08_filter_lookup : forall (T : Type) (pred : T -> bool) (m : ItemMap T) p,
  NoDup (map fst m) ->
  get_items p (map_filter pred m) =
  match get_items p m with
  | None => None
  | Some l => match filter (fun x => negb (pred x)) l with [] => None | l' => Some l' end
  end.
Proof. exact @filter_entries. Qed.
Print Assumptions C08_filter_lookup.

(** C08.  Rebuilding any table, however its items were changed, drops an item
    only because it clashes with one that is kept, and adds none. *)
Theorem C08_rebuild_keeps : forall (T : Type) (I : Item T) (m : ItemMap T) x,
  In x (to_vec m) ->
  In x (to_vec (rebuild m)) \/ exists y, In y (to_vec (rebuild m)) /\ clash x y = true.
Proof. exact @rebuild_keeps. Qed.
Print Assumptions C08_rebuild_keeps.

Theorem C08_rebuild_adds_none : forall (T : Type) (I : Item T) (m : ItemMap T) x,
  In x (to_vec (rebuild m)) -> In x (to_vec m).
Proof. exact @rebuild_invents_nothing. Qed.
Print Assumptions C08_rebuild_adds_none.

(** C08.  A table the program can be in is unchanged by a rebuild. *)
Theorem C08_rebuild_identity : forall (T : Type) (I : Item T) (m : ItemMap T),
  reachable m -> rebuild m = m.
Proof. exact @rebuild_id. Qed.
Print Assumptions C08_rebuild_identity.

(** A history with a guarded pair, a rejected unguarded item, a rejected
    duplicate and a removal. *)
Definition oi (p : string) (cfg : option Cfg) (n : nat) : OpaqueItem :=
  OpaqueItem_new p [] cfg AnnotationSet_new (repeat "x"%string n).
Definition demo_ops : list (op OpaqueItem) :=
  [Insert (oi "A" (Some (CBoolean "unix")) 0); Insert (oi "B" None 1); Insert (oi "A" None 2);
   Insert (oi "A" (Some (CBoolean "windows")) 3); Insert (oi "B" None 4); Insert (oi "B" (Some (CBoolean "unix")) 5);
   Remove (fun x => Nat.eqb (length (o_documentation x)) 0); Update (OpaqueItem_rename_for_config M_Config.default_config);
   UpdateAt "B" (set_o_annotations AnnotationSet_new)].
Example demo_legal : Forall legal demo_ops.
Proof. repeat constructor. Qed.
Example demo_result :
  run_ops [] demo_ops =
  ([("A"%string, VCfg [oi "A" (Some (CBoolean "windows")) 3]); ("B"%string, VSingle (oi "B" None 1))],
   [true; true; false; true; false; false; true; true; true]).
Proof. reflexivity. Qed.
(** A clash can be created by changing paths, and the rebuild resolves it. *)
Example demo_rebuild :
  to_vec (rebuild [("A"%string, VSingle (oi "Z" None 1)); ("B"%string, VSingle (oi "Z" None 2)); ("C"%string, VSingle (oi "C" None 3))])
  = [oi "Z" None 1; oi "C" None 3].
Proof. reflexivity. Qed.
