(** Specification of stable sorting (C10, C37): [l'] is a stable sort of [l] if
    it has the same elements, is in order, and elements that compare equal are
    in the same order as in [l]. *)
Require Import Coq.Lists.List Coq.Bool.Bool Coq.Sorting.Permutation Coq.Sorting.Sorted.
Import ListNotations.

Definition equivalent {A} (le : A -> A -> bool) (x y : A) : bool := le x y && le y x.

Record stable_sort_of {A} (le : A -> A -> bool) (l l' : list A) : Prop := {
  same_elements : Permutation l l';
  in_order : StronglySorted (fun a b => le a b = true) l';
  ties_kept : forall x, filter (equivalent le x) l' = filter (equivalent le x) l
}.

(** What a comparison must satisfy for "the" stable sort to make sense. *)
Record total_preorder {A} (le : A -> A -> bool) : Prop := {
  le_total : forall x y, le x y = true \/ le y x = true;
  le_trans : forall x y z, le x y = true -> le y z = true -> le x z = true
}.
