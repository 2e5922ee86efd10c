(** Merging the field lists of several definitions of one struct. *)
Require Import Coq.Strings.String Coq.Lists.List Coq.Bool.Bool.
From Verif Require Import Base M_Type M_Ir M_Item M_Library M_Bindings.
Import ListNotations.
Open Scope string_scope.

(** [d] is [l] with some elements left out. *)
Inductive Sublist {A} : list A -> list A -> Prop :=
| sub_nil : forall l, Sublist [] l
| sub_skip : forall d y l, Sublist d l -> Sublist d (y :: l)
| sub_take : forall d x l, Sublist d l -> Sublist (x :: d) (x :: l).
(** The fields two definitions have in common come in the same order. *)
Definition consistent (d f : list string) : Prop :=
  filter (fun x => mem_str x f) d = filter (fun x => mem_str x d) f.

(** What the typedef [p] stands for: of its definitions that name a path, the
    last one counts. *)
Definition aliased (b : Bindings) (p q : string) : Prop :=
  exists before t g after, for_items (b_typedef_map b) p = (before ++ t :: after)%list /\ t_aliased t = TPath g /\ gp_path g = q
    /\ forall t' g', In t' after -> t_aliased t' <> TPath g'.
(** [q] is where following the typedefs from [p] ends. *)
Inductive ends_at (b : Bindings) : string -> string -> Prop :=
| ends_here : forall p, (forall q, ~ aliased b p q) -> ends_at b p p
| ends_later : forall p q r, aliased b p q -> ends_at b q r -> ends_at b p r.

(** Calls one after the other, each with the memo left by the one before. *)
Fixpoint ask_all (fuel : nat) (b : Bindings) (m : memo) (ps : list string) : outcome (list (list string)) :=
  match ps with
  | [] => Done []
  | p :: r => do a := struct_field_names fuel b m p in
              do l := ask_all fuel b (fst a) r in Done (snd a :: l)
  end.
