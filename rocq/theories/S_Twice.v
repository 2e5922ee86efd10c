(** No name is defined twice without conditions. *)
Require Import Coq.Strings.String Coq.Lists.List Coq.Bool.Bool.
From Verif Require Import Base M_Config M_Cfg M_Ir M_Library S_Library S_Names.
Import ListNotations.
Open Scope string_scope.

(** The condition of a type's definition *)
Definition condition_of (i : ItemContainer) : option Cfg :=
  match i with
  | ICOpaque o => o_cfg o | ICStruct s => s_cfg s | ICUnion u => u_cfg u | ICEnum e => e_cfg e | ICTypedef t => t_cfg t
  end.
(** Any two members of a list, at different places, which have the same name
    are alternatives: both have a condition and they are of the same kind. *)
Definition only_alternatives {A K} (name : A -> string) (condition : A -> option Cfg) (kind : A -> K) (l : list A) : Prop :=
  ForallOrdPairs (fun x y => name x = name y -> condition x <> None /\ condition y <> None /\ kind x = kind y) l.
(** The configuration gives different names to different types. *)
Definition told_apart (c : Config) (names : list string) : Prop :=
  forall p q, In p names -> In q names -> export_rename (export c) p = export_rename (export c) q -> p = q.
