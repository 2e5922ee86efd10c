(** What the attributes of an item say: its [repr] hints, and that cbindgen is
    to leave it out. *)
Require Import Coq.Strings.String Coq.Lists.List Coq.NArith.NArith.
From Verif Require Import Base S_Cfg S_Attr M_Attr.
Import ListNotations.
Open Scope string_scope.

(** A hint as it is written: a word, or [align(N)], or [packed()]. *)
Inductive hint_arg : arg -> hint -> Prop :=
| ha_word : forall s h, means (s, None) h -> hint_arg (APath (Some s)) h
| ha_align : forall t h, means ("align", Some t) h -> hint_arg (AList (Some "align") [AInt t]) h
| ha_packed : hint_arg (AList (Some "packed") []) HPacked.
Definition attr_name (a : attribute) : option string :=
  match at_meta a with APath i | ANameValue i _ | AList i _ => i | _ => None end.
(** The arguments of all [repr(...)] attributes, in order; nothing when one of
    them has no arguments. *)
Inductive repr_args : list attribute -> list arg -> Prop :=
| ra_nil : repr_args [] []
| ra_other : forall a r l, attr_name a <> Some "repr" -> repr_args r l -> repr_args (a :: r) l
| ra_repr : forall o args r l, repr_args r l ->
    repr_args ({| at_meta := AList (Some "repr") args; at_outer := o |} :: r) (args ++ l).

(** [#[test]], [#[cfg(test)]] and the doc line [cbindgen:ignore] say that an
    item is not part of the bindings. *)
Inductive leaves_out : arg -> Prop :=
| lo_test : leaves_out (APath (Some "test"))
| lo_cfg : leaves_out (AList (Some "cfg") [APath (Some "test")])
| lo_doc : forall b b', blanks b -> blanks b' -> leaves_out (ANameValue (Some "doc") (Some (b ++ "cbindgen:ignore" ++ b'))).
Definition left_out (attrs : list attribute) : Prop := exists a, In a attrs /\ leaves_out (at_meta a).
