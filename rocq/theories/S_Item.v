(** Specification of an item table (C07, C08), without the representation used
    by the program: the items accepted so far in the order of their acceptance,
    and the paths in the order of their first acceptance. *)
Require Import Coq.Strings.String Coq.Lists.List Coq.Bool.Bool.
From Verif Require Import Base M_Cfg M_Item.
Import ListNotations.

Record table (T : Type) := { paths : list string; accepted : list T }.
Arguments paths {T} _.
Arguments accepted {T} _.

Section Table.
  Context {T : Type} {I : Item T}.

  Definition guarded (x : T) : bool := is_some (i_cfg x).
  Definition at_path (p : string) (l : list T) : list T := filter (fun x => String.eqb (i_path x) p) l.

  (** Two definitions of one path clash unless both are guarded. *)
  Definition clash (x y : T) : bool := String.eqb (i_path x) (i_path y) && negb (guarded x && guarded y).

  Inductive op :=
  | Insert (x : T)
  | Remove (pred : T -> bool)              (* drop every item satisfying it *)
  | Update (f : T -> T)                    (* change every item *)
  | UpdateAt (p : string) (f : T -> T).    (* change the items of one path *)

  (** An update must not change what the table is organised by. *)
  Definition keeps_key (f : T -> T) : Prop := forall x, i_path (f x) = i_path x /\ i_cfg (f x) = i_cfg x.
  Definition legal (o : op) : Prop :=
    match o with Insert _ | Remove _ => True | Update f | UpdateAt _ f => keeps_key f end.

  (** One operation; the flag says whether an insertion was accepted. *)
  Definition step (t : table T) (o : op) : table T * bool :=
    match o with
    | Insert x =>
        if existsb (clash x) (accepted t) then (t, false)
        else ({| paths := if mem_str (i_path x) (paths t) then paths t else (paths t ++ [i_path x])%list;
                 accepted := (accepted t ++ [x])%list |}, true)
    | Remove pred =>
        let rest := filter (fun x => negb (pred x)) (accepted t) in
        ({| paths := filter (fun p => existsb (fun x => String.eqb (i_path x) p) rest) (paths t);
            accepted := rest |}, true)
    | Update f => ({| paths := paths t; accepted := map f (accepted t) |}, true)
    | UpdateAt p f =>
        ({| paths := paths t;
            accepted := map (fun x => if String.eqb (i_path x) p then f x else x) (accepted t) |}, true)
    end.

  Fixpoint steps (t : table T) (ops : list op) : table T * list bool :=
    match ops with
    | [] => (t, [])
    | o :: r => let '(t1, b) := step t o in let '(t2, bs) := steps t1 r in (t2, b :: bs)
    end.

  Definition empty_table : table T := {| paths := []; accepted := [] |}.

  (** What can be observed of a table. *)
  Definition observe_path (t : table T) (p : string) : option (list T) :=
    match at_path p (accepted t) with [] => None | l => Some l end.
  Definition observe_all (t : table T) : list T := concat (map (fun p => at_path p (accepted t)) (paths t)).

  (** ** The program run on the same history *)
  Definition run_op (m : ItemMap T) (o : op) : ItemMap T * bool :=
    match o with
    | Insert x => try_insert x m
    | Remove pred => (map_filter pred m, true)
    | Update f => (for_all_items_mut f m, true)
    | UpdateAt p f => (for_items_mut p f m, true)
    end.
  Fixpoint run_ops (m : ItemMap T) (ops : list op) : ItemMap T * list bool :=
    match ops with
    | [] => (m, [])
    | o :: r => let '(m1, b) := run_op m o in let '(m2, bs) := run_ops m1 r in (m2, b :: bs)
    end.

  (** A table the program can be in. *)
  Definition reachable (m : ItemMap T) : Prop :=
    exists ops, Forall legal ops /\ m = fst (run_ops [] ops).
End Table.
Arguments op T : clear implicits.
