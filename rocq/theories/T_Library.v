(** C09-C12, C37: what the bindings contain, and in which order. *)
Require Import Coq.Strings.String Coq.Lists.List Coq.Bool.Bool Coq.Relations.Relation_Operators.
From Verif Require Import Base M_Config M_Cfg M_Type M_Ir M_Item M_Library S_Item S_Sort S_Library S_Demo P_Sort P_Deps P_Library P_Demo.
Import ListNotations.
Open Scope string_scope.

(** C09.  The dependency walk never runs out of depth, and lists the names
    reachable from the exported functions, globals, constants and included
    names: all of them, nothing else, none twice, and each after the names it
    mentions unless they mention it back. *)
Theorem C09_dependencies : forall l : Library,
  exists d ps, library_dependencies l = Done d /\ d_order d = concat (map (items_of l) ps) /\ NoDup ps
    /\ (forall q, In q ps <-> exported l q)
    /\ (forall p q, In p ps -> refers l p q -> ~ reaches l q p -> before q p ps).
Proof. exact dependencies_spec. Qed.
Print Assumptions C09_dependencies.

(** C09.  The bindings contain exactly the definitions of the exported names. *)
Theorem C09_bindings : forall l b i, finish l = Done b ->
  (In i (b_items b) <-> exists q, exported l q /\ In i (items_of l q)).
Proof. exact finish_items. Qed.
Print Assumptions C09_bindings.

(** C09.  In the order finally written, an item comes after all the
    definitions of a name it mentions, unless that name leads back to it or
    the item is an enum without fields. *)
Theorem C09_final_order : forall l b p q i j, finish l = Done b ->
  exported l p -> In j (items_of l p) -> fieldless_enum j = false -> item_mentions j q -> known l q -> ~ reaches l q p ->
  In i (items_of l q) -> before i j (b_items b).
Proof. exact final_order. Qed.
Print Assumptions C09_final_order.

Definition cxx : Config := config_with Cxx default_export SortNone.
Example demo_order : forall H : Heck, paths_of (generate 9 (fun x => x) (demo cxx)) =
  Done (["Color"; "Apple"; "Zed"; "Edge"; "Coord"; "Point"; "Shape"; "Node"; "Bits"], ["LIMIT"; "HIDDEN"; "ALPHA"],
        ["ROOT"; "COUNT"], ["second"; "first"]).
Proof. reflexivity. Qed.

(** The theorem applies to the demo: [Node] mentions [Shape], which does not lead back. *)
Example demo_final_applies : let l := demo cxx in
  exported l "Node" /\ In (ICStruct (struct "Node" [] [fld "next" (ptr (ty "Edge")); fld "value" (ty "Shape")])) (items_of l "Node")
  /\ item_mentions (ICStruct (struct "Node" [] [fld "next" (ptr (ty "Edge")); fld "value" (ty "Shape")])) "Shape"
  /\ known l "Shape" /\ ~ reaches l "Shape" "Node" /\ reaches l "Node" "Edge" /\ reaches l "Edge" "Node".
Proof. exact demo_applies. Qed.

(** The final sort can put an enum without fields before a struct whose
    constant its discriminant uses. *)
Theorem C09_enum_discriminant_refuted : exists l b i j,
  finish l = Done b /\ b_items b = [j; i] /\ item_mentions j (ic_path i) /\ items_of l (ic_path i) = [i]
  /\ ~ reaches l (ic_path i) (ic_path j).
Proof. exact discriminant_order. Qed.
Print Assumptions C09_enum_discriminant_refuted.

(** C10.  The final order is: the enums without fields in dependency order, the
    opaque types by name, everything else in dependency order. *)
Theorem C10_layers : forall l b d, finish l = Done b -> library_dependencies l = Done d ->
  exists os, stable_sort_of (fun x y => str_leb (ic_path x) (ic_path y)) (filter opaque_type (d_order d)) os
    /\ b_items b = (filter fieldless_enum (d_order d) ++ os ++ filter other_item (d_order d))%list.
Proof. exact final_layers. Qed.
Print Assumptions C10_layers.

(** C10.  The comparison is consistent, so any stable sorting algorithm gives this list. *)
Theorem C10_any_stable_sort : forall l l', stable_sort_of (fun a b => not_gt (ordering a b)) l l' -> l' = d_sort l.
Proof. exact d_sort_any. Qed.
Print Assumptions C10_any_stable_sort.
Theorem C10_is_stable_sort : forall l, stable_sort_of (fun a b => not_gt (ordering a b)) l (d_sort l).
Proof. exact d_sort_stable. Qed.
Print Assumptions C10_is_stable_sort.
Theorem C10_comparison_total : total_preorder (fun a b => not_gt (ordering a b)).
Proof. exact item_preorder. Qed.
Print Assumptions C10_comparison_total.
Theorem C10_comparison_antisymmetric : forall a b, ordering b a = CompOpp (ordering a b).
Proof. exact ordering_antisym. Qed.
Print Assumptions C10_comparison_antisymmetric.

(** C11.  Only wanted kinds are in the bindings. *)
Theorem C11_only_wanted : forall (H : Heck) fuel visit l b, generate fuel visit l = Done b ->
  (forall i, In i (b_items b) -> wanted (l_config l) (kind_of i))
  /\ (b_functions b <> [] -> wanted (l_config l) Functions)
  /\ (b_constants b <> [] -> wanted (l_config l) Constants)
  /\ (b_globals b <> [] -> wanted (l_config l) Globals).
Proof. exact only_wanted. Qed.
Print Assumptions C11_only_wanted.

(** C11.  A wanted kind is looked up: a definition of a wanted kind whose name
    no other table has is found under its name (and so exported by C09 when
    reachable), and functions, constants and globals are all kept. *)
Theorem C11_wanted_found : forall (l : Library) i,
  reachable (l_enums l) -> reachable (l_structs l) -> reachable (l_unions l) -> reachable (l_opaque_items l) -> reachable (l_typedefs l) ->
  In i (defined l) -> wanted (l_config l) (kind_of i) ->
  (forall j, In j (defined l) -> ic_path j = ic_path i -> kind_of j = kind_of i) ->
  In i (items_of l (ic_path i)).
Proof. exact wanted_found. Qed.
Print Assumptions C11_wanted_found.
Theorem C11_functions_kept : forall l b, finish l = Done b ->
  (wanted (l_config l) Functions -> b_functions b = l_functions l)
  /\ (wanted (l_config l) Constants -> Permutation.Permutation (to_vec (l_constants l)) (b_constants b))
  /\ (wanted (l_config l) Globals -> Permutation.Permutation (to_vec (l_globals l)) (b_globals b)).
Proof. exact finish_kept. Qed.
Print Assumptions C11_functions_kept.

Example demo_kinds : forall H : Heck,
  paths_of (generate 9 (fun x => x) (demo (config_with Cxx (export_with ["Shape"; "Coord"; "Color"; "Node"] [] [Enums; Typedefs; Functions] [] None) SortNone))) =
  Done (["Color"; "Shape"; "Coord"], [], [], ["second"; "first"]).
Proof. reflexivity. Qed.

(** C12.  Nothing whose name is excluded is in the bindings. *)
Theorem C12_excluded : forall (H : Heck) fuel visit l b n, generate fuel visit l = Done b -> is_excluded (l_config l) n ->
  (forall i, In i (b_items b) -> ic_path i <> n) /\ (forall f, In f (b_functions b) -> f_path f <> n)
  /\ (forall c, In c (b_constants b) -> c_path c <> n) /\ (forall g, In g (b_globals b) -> g_path g <> n).
Proof. exact excluded_absent. Qed.
Print Assumptions C12_excluded.

(** C12 and C37.  The functions of the bindings are the functions of the
    library that are not excluded: sorted by path if so configured, otherwise
    in their order.  The same for constants and globals. *)
Theorem C12_C37_functions : forall (H : Heck) fuel visit l b, generate fuel visit l = Done b -> wanted (l_config l) Functions ->
  exists fs, sorted_by (sort_key (fn_sort_by (function (l_config l))) (l_config l)) f_path
               (filter (fun f => not_excluded (l_config l) (f_path f)) (l_functions l)) fs
    /\ Forall2 same_function fs (b_functions b).
Proof. exact functions_of. Qed.
Print Assumptions C12_C37_functions.
Theorem C12_C37_constants : forall (H : Heck) fuel visit l b, generate fuel visit l = Done b ->
  wanted (l_config l) Constants -> reachable (l_constants l) ->
  exists cs, sorted_by (sort_key (co_sort_by (constant (l_config l))) (l_config l)) c_path
               (filter (fun c => not_excluded (l_config l) (c_path c)) (to_vec (l_constants l))) cs
    /\ Forall2 same_constant cs (b_constants b).
Proof. exact constants_of. Qed.
Print Assumptions C12_C37_constants.
Theorem C12_C37_globals : forall (H : Heck) fuel visit l b, generate fuel visit l = Done b ->
  wanted (l_config l) Globals -> reachable (l_globals l) ->
  exists gs, sorted_by (sort_key (co_sort_by (constant (l_config l))) (l_config l)) g_path
               (filter (fun g => not_excluded (l_config l) (g_path g)) (to_vec (l_globals l))) gs
    /\ Forall2 same_static gs (b_globals b).
Proof. exact globals_of. Qed.
Print Assumptions C12_C37_globals.

(** C12.  Excluding names removes no other type definition from the tables. *)
Theorem C12_others_kept : forall l i,
  In i (defined (remove_excluded l)) <-> In i (defined l) /\ not_excluded (l_config l) (ic_path i) = true.
Proof. exact excluded_defined. Qed.
Print Assumptions C12_others_kept.

Example demo_exclude_sort : forall H : Heck,
  paths_of (generate 9 (fun x => x) (demo (config_with M_Config.C (export_with ["Unused"] ["HIDDEN"; "Shape"; "second"] [] [] None) SortName))) =
  Done (["Color"; "Zed"; "Bits"; "Edge"; "Node"; "Unused"], ["ALPHA"; "LIMIT"], ["COUNT"; "ROOT"], ["first"]).
Proof. reflexivity. Qed.

(** Exclusion comes after the generic types are instantiated, and goes by the
    new names: excluding [Foo] does not exclude its instances. *)
Example generic_not_excluded : forall H : Heck,
  paths_of (generate 9 (fun x => x)
    (lib (config_with M_Config.C (export_with [] ["Foo"] [] [] None) SortNone) [] [] []
       [struct "Foo" [gp "T"] [fld "x" (ty "T")]] [] [] [] [fn "f" [("x", ty1 "Foo" u8)] void])) =
  Done (["Foo_u8"], [], [], ["f"]).
Proof. reflexivity. Qed.
