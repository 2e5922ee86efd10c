(** C38, C39: typedef annotations, and what hash maps' iteration order can change. *)
Require Import Coq.Strings.String Coq.Lists.List Coq.Bool.Bool Coq.Sorting.Permutation.
From Verif Require Import Base M_Config M_Cfg M_Type M_Ir M_Item M_Library S_Item S_Library S_Demo P_Table P_Library P_Transfer.
Import ListNotations.
Open Scope string_scope.

(** C38.  The order in which the map of moved annotations is visited does not matter. *)
Theorem C38_any_order : forall (H : Heck) fuel visit visit' l,
  (forall xs, Permutation xs (visit xs)) -> (forall xs, Permutation xs (visit' xs)) ->
  generate fuel visit l = generate fuel visit' l.
Proof. exact (@generate_any_order). Qed.
Print Assumptions C38_any_order.

(** C38.  What the transfer does to the definitions of a name [p].  The
    annotations of the first annotated typedef of [p] go to those definitions of
    [p] that have none, in the first kind (enum, struct, union, opaque) in which
    there is such a definition; definitions with annotations, and the other
    kinds, stay as they are. *)
Theorem C38_effect : forall visit l p, (forall xs, Permutation xs (visit xs)) ->
  let l' := transfer_annotations visit l in
  match donated (to_vec (l_typedefs l)) p with
  | None => get_items p (l_enums l') = get_items p (l_enums l) /\ get_items p (l_structs l') = get_items p (l_structs l)
      /\ get_items p (l_unions l') = get_items p (l_unions l) /\ get_items p (l_opaque_items l') = get_items p (l_opaque_items l)
  | Some a =>
      let here {T} {I : Item T} (m m' : ItemMap T) := get_items p m' = option_map (map (annotate a)) (get_items p m) in
      let same {T} {I : Item T} (m m' : ItemMap T) := get_items p m' = get_items p m in
      if some_bare p (l_enums l) then
        here (l_enums l) (l_enums l') /\ same (l_structs l) (l_structs l') /\ same (l_unions l) (l_unions l') /\ same (l_opaque_items l) (l_opaque_items l')
      else if some_bare p (l_structs l) then
        same (l_enums l) (l_enums l') /\ here (l_structs l) (l_structs l') /\ same (l_unions l) (l_unions l') /\ same (l_opaque_items l) (l_opaque_items l')
      else if some_bare p (l_unions l) then
        same (l_enums l) (l_enums l') /\ same (l_structs l) (l_structs l') /\ here (l_unions l) (l_unions l') /\ same (l_opaque_items l) (l_opaque_items l')
      else
        same (l_enums l) (l_enums l') /\ same (l_structs l) (l_structs l') /\ same (l_unions l) (l_unions l') /\ here (l_opaque_items l) (l_opaque_items l')
  end.
Proof. exact transfer_effect. Qed.
Print Assumptions C38_effect.

(** C38.  Two annotated typedefs of one struct: the first one donates. *)
Definition note (n : string) : AnnotationSet := {| an_values := [(n, ABool true)]; an_must_use := false; an_deprecated := None |}.
Definition annotated (n : string) (t : Ty) (a : string) : Typedef := Typedef_new n [] t None (note a) [].
Definition donors : Library :=
  lib default_config [] [] [] [struct "Foo" [] []; struct "Bar" [] []] [] []
    [annotated "A" (ty "Foo") "first"; annotated "B" (ptr (ty "Foo")) "pointer"; annotated "C" (ty "Foo") "second"] [].
Example donors_moved : let l := transfer_annotations (fun x => x) donors in
  map (fun s => (s_path s, an_values (s_annotations s))) (to_vec (l_structs l))
    = [("Foo", [("first", ABool true)]); ("Bar", [])]
  /\ map (fun t => (t_path t, an_values (t_annotations t))) (to_vec (l_typedefs l))
    = [("A", []); ("B", [("pointer", ABool true)]); ("C", [("second", ABool true)])].
Proof. split; reflexivity. Qed.

(** C39.  The order in which the fields of struct literals are visited cannot change which items are in the bindings... *)
Theorem C39_same_items : forall l k b c, same_but_literals l k -> finish l = Done b -> finish k = Done c ->
  forall i, In i (b_items b) <-> In i (b_items c).
Proof. exact same_items. Qed.
Print Assumptions C39_same_items.

(** ... but it changes their order: [const A: Pair = Pair { x: Foo::X, y: Bar::Y }]. *)
Definition two_fields (fs : list (string * (Literal * option Cfg))) : Library :=
  lib default_config [const "A" (ty "Pair") (LStruct "Pair" "Pair" fs)] [] []
    [struct "Foo" [] [fld "a" u8]; struct "Bar" [] [fld "b" u8]; struct "Pair" [] [fld "x" u8; fld "y" u8]] [] [] [] [].
Definition x_field : string * (Literal * option Cfg) := ("x", (LPath (Some ("Foo", "Foo")) "X", None)).
Definition y_field : string * (Literal * option Cfg) := ("y", (LPath (Some ("Bar", "Bar")) "Y", None)).
Theorem C39_hash_order_refuted : exists l k b c, same_but_literals l k /\ finish l = Done b /\ finish k = Done c
  /\ map ic_path (b_items b) = ["Pair"; "Foo"; "Bar"] /\ map ic_path (b_items c) = ["Pair"; "Bar"; "Foo"].
Proof.
  exists (two_fields [x_field; y_field]), (two_fields [y_field; x_field]). do 2 eexists.
  split; [|split; [reflexivity|split; [reflexivity|split; reflexivity]]].
  repeat split. repeat constructor. cbn. eapply sl_struct; [apply perm_swap|]. repeat constructor.
Qed.
Print Assumptions C39_hash_order_refuted.
