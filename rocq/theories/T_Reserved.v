(** C01: keyword escaping is exact. *)
Require Import Coq.Strings.String Coq.Lists.List.
From Verif Require Import Base M_Reserved P_Reserved.
Import ListNotations.
Open Scope string_scope.

(** Escaping never panics; it appends one underscore to a keyword and leaves
    every other string alone; the result is never a keyword. *)
Theorem C01_escape_exact : forall s,
  exists r, escape s = Some r /\
    (In s RESERVED_KEYWORDS -> r = s ++ "_") /\
    (~ In s RESERVED_KEYWORDS -> r = s) /\
    ~ In r RESERVED_KEYWORDS.
Proof. exact escape_exact. Qed.
Print Assumptions C01_escape_exact.

(** Two identifiers are confused only when one is a keyword and the other is
    that keyword with an underscore. *)
Theorem C01_escape_collisions : forall a b r,
  escape a = Some r -> escape b = Some r ->
  a = b \/ (In a RESERVED_KEYWORDS /\ b = a ++ "_") \/ (In b RESERVED_KEYWORDS /\ a = b ++ "_").
Proof. exact escape_collision. Qed.
Print Assumptions C01_escape_collisions.

(** ... and then they really are: escaping is not injective. *)
Theorem C01_escape_injective_refuted : exists a b,
  a <> b /\ escape a = escape b.
Proof. exact escape_not_injective. Qed.
Print Assumptions C01_escape_injective_refuted.

Example C01_keyword : escape "namespace" = Some "namespace_" /\ In "namespace" RESERVED_KEYWORDS.
Proof. split; [vm_compute; reflexivity|vm_compute; tauto]. Qed.
Example C01_other : escape "namespaces" = Some "namespaces".
Proof. vm_compute. reflexivity. Qed.
Example C01_first_and_last : escape "alignas" = Some "alignas_" /\ escape "while" = Some "while_".
Proof. split; vm_compute; reflexivity. Qed.
