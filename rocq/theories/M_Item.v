(** Model of src/bindgen/ir/item.rs: the tables of items, keyed by path and in
    insertion order. *)
Require Import Coq.Strings.String Coq.Lists.List Coq.Bool.Bool.
From Verif Require Import Base M_Cfg M_Type M_Ir.
Import ListNotations.
Open Scope string_scope.

(** item.rs:22-56, the part of the trait that tables and the library use. *)
Class Item (T : Type) := {
  i_path : T -> string;
  i_cfg : T -> option Cfg;
  i_annotations : T -> AnnotationSet;
  i_set_annotations : AnnotationSet -> T -> T;
  i_generic_params : T -> GenericParams
}.
(** item.rs:40-42 *)
Definition is_generic {T} {I : Item T} (x : T) : bool := negb (is_nil (i_generic_params x)).
Definition is_some {A} (o : option A) : bool := match o with Some _ => true | None => false end.

(** item.rs:82-86 *)
Inductive ItemValue (T : Type) := VCfg (l : list T) | VSingle (x : T).
Arguments VCfg {T} l.
Arguments VSingle {T} x.

(** item.rs:88-91; an [IndexMap] is a list of entries with distinct keys. *)
Definition ItemMap (T : Type) := list (string * ItemValue T).

Section Map.
  Context {T : Type} {I : Item T}.

  Definition value_items (v : ItemValue T) : list T := match v with VCfg l => l | VSingle x => [x] end.
  Definition map_value (f : T -> T) (v : ItemValue T) : ItemValue T :=
    match v with VCfg l => VCfg (map f l) | VSingle x => VSingle (f x) end.
  Definition map_value_opt (f : T -> option T) (v : ItemValue T) : option (ItemValue T) :=
    match v with
    | VCfg l => let? l' := map_opt f l in Some (VCfg l')
    | VSingle x => let? x' := f x in Some (VSingle x')
    end.

  (** Replace the value stored under a key that is present. *)
  Fixpoint set_entry (p : string) (v : ItemValue T) (m : ItemMap T) : ItemMap T :=
    match m with
    | [] => []
    | (q, w) :: r => if String.eqb q p then (q, v) :: r else (q, w) :: set_entry p v r
    end.

  (** item.rs:109-134 *)
  Definition try_insert (x : T) (m : ItemMap T) : ItemMap T * bool :=
    match lookup (i_path x) m with
    | Some (VCfg items) =>
        if is_some (i_cfg x) then (set_entry (i_path x) (VCfg (items ++ [x])) m, true) else (m, false)
    | Some (VSingle _) => (m, false)
    | None => ((m ++ [(i_path x, if is_some (i_cfg x) then VCfg [x] else VSingle x)])%list, true)
    end.

  (** item.rs:142-153; also the order in which [for_all_items] (174-188) calls its callback. *)
  Definition to_vec (m : ItemMap T) : list T := concat (map (fun e => value_items (snd e)) m).

  (** item.rs:136-140 *)
  Definition extend_with (other m : ItemMap T) : ItemMap T :=
    fold_left (fun a x => fst (try_insert x a)) (to_vec other) m.
  (** item.rs:102-107 *)
  Definition rebuild (m : ItemMap T) : ItemMap T := extend_with m [].

  (** item.rs:155-160, before wrapping in containers; 206-221 visits the same items. *)
  Definition get_items (p : string) (m : ItemMap T) : option (list T) := option_map value_items (lookup p m).

  (** item.rs:162-172 *)
  Definition map_filter (callback : T -> bool) (m : ItemMap T) : ItemMap T :=
    filter_map (fun e => match snd e with
                         | VCfg l => match filter (fun x => negb (callback x)) l with
                                     | [] => None
                                     | l' => Some (fst e, VCfg l')
                                     end
                         | VSingle x => if callback x then None else Some e
                         end) m.

  (** item.rs:190-204 *)
  Definition for_all_items_mut (f : T -> T) (m : ItemMap T) : ItemMap T :=
    map (fun e => (fst e, map_value f (snd e))) m.
  (** The same with a callback that may panic. *)
  Definition for_all_items_mut_opt (f : T -> option T) (m : ItemMap T) : option (ItemMap T) :=
    map_opt (fun e => let? v := map_value_opt f (snd e) in Some (fst e, v)) m.

  (** item.rs:223-239 *)
  Definition for_items_mut (p : string) (f : T -> T) (m : ItemMap T) : ItemMap T :=
    match lookup p m with
    | Some v => set_entry p (map_value f v) m
    | None => m
    end.
End Map.
