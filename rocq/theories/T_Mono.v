(** C18: generic types are replaced by one definition per instantiation (C and Cython). *)
Require Import Coq.Strings.String Coq.Lists.List Coq.Bool.Bool Coq.Arith.Arith Coq.micromega.Lia.
From Verif Require Import Base M_Config M_Cfg M_Type M_Ir M_Item M_Library S_Item S_Library S_Names S_Mono S_Demo P_Loaded P_Mono P_MonoLib P_MonoEnds P_MonoPipe P_Instance.
Import ListNotations.
Open Scope string_scope.

(** C18.  After the pass no definition has generic parameters. *)
Theorem C18_no_generic_left : forall (H : Heck) fuel l l', instantiate_monomorphs fuel l = Done l' ->
  forall i, In i (defined l') -> ic_generic_params i = [].
Proof. exact mono_no_generic. Qed.
Print Assumptions C18_no_generic_left.

(** C18.  Every definition after the pass is a non-generic definition from
    before or an instance the library needs, with every use of a known generic
    type replaced by the name of its instance and nothing else changed. *)
Theorem C18_items : forall (H : Heck) fuel l l', ready l -> instantiate_monomorphs fuel l = Done l' ->
  forall i, In i (defined l') -> exists j, (In j (defined l) /\ ic_generic_params j = [] \/ wanted_instance l j) /\ item_replaced l j i.
Proof. exact mono_items_spec. Qed.
Print Assumptions C18_items.

(** C18.  An instance has the guard, annotations, documentation, alignment and
    so on of the generic definition; only its name and types differ, the types
    by putting the arguments for the parameters (see C15). *)
Theorem C18_instance : forall (H : Heck) l args i p x, instance l args i p x ->
  exists j ms, part_of j i /\ made_from (Type_specialize ms) j x /\ ic_generic_params x = []
    /\ (GenericParams_call (ic_generic_params j) args = Some ms \/ exists o, j = ICOpaque o).
Proof. exact instance_from. Qed.
Print Assumptions C18_instance.

(** C18.  Functions are the same functions in the same order, with their types so replaced. *)
Theorem C18_functions : forall (H : Heck) fuel l l', ready l -> instantiate_monomorphs fuel l = Done l' ->
  Forall2 (function_replaced l) (l_functions l) (l_functions l').
Proof. exact mono_functions_spec. Qed.
Print Assumptions C18_functions.

(** C18.  Every instance needed is defined.  If another instance has the same
    name, perhaps only that one is; all are if all have guards. *)
Theorem C18_defined : forall (H : Heck) fuel l l', ready l -> (forall p, body_name l p -> ~ known l p) -> instantiate_monomorphs fuel l = Done l' ->
  forall x, wanted_instance l x -> (forall i, In i (defined l) -> ic_path i <> ic_path x) ->
  (exists y i, wanted_instance l y /\ ic_path y = ic_path x /\ item_replaced l y i /\ In i (defined l'))
  /\ ((forall y, wanted_instance l y -> ic_path y = ic_path x -> ic_guard y <> None) -> exists i, item_replaced l x i /\ In i (defined l')).
Proof. exact mono_makes_all. Qed.
Print Assumptions C18_defined.

(** C18.  In the bindings for C and Cython no generic definition is left, and
    no definition or function uses a generic type the library knows. *)
Theorem C18_bindings : forall (H : Heck) fuel visit l b, as_loaded l -> bodies_as_enums l -> language (l_config l) <> Cxx -> generate fuel visit l = Done b ->
  (forall i, In i (b_items b) -> ic_generic_params i = [])
  /\ (forall i t g, In i (b_items b) -> In t (written_types i) -> uses g t -> ~ known l (gp_path g))
  /\ (forall f g, In f (b_functions b) -> function_uses f g -> ~ known l (gp_path g)).
Proof. exact generate_unused. Qed.
Print Assumptions C18_bindings.

(** C18.  The pass ends if the instances needed are finitely many and the
    bodies of an enum do not, through bodies alone, lead back to the enum; and
    it succeeds if the arguments fit. *)
Theorem C18_terminates : forall (H : Heck) l all (rank : GenericPath -> nat), ready l ->
  (forall g, wanted_type l g -> known l (gp_path g) -> In g all) ->
  (forall g h, wanted_type l g -> body_needs l g h -> known l (gp_path h) -> rank h < rank g) ->
  exists n, forall fuel, n <= fuel -> instantiate_monomorphs fuel l <> Diverge
    /\ ((forall g items i, wanted_type l g -> lib_get_items l (gp_path g) = Some items -> In i items -> fits (gp_generics g) i) ->
        exists l', instantiate_monomorphs fuel l = Done l').
Proof. exact mono_ends. Qed.
Print Assumptions C18_terminates.

(** A library with a recursive generic struct, a generic enum over it, a
    generic union and opaque type, nested arguments and an unknown generic type. *)
Definition opaque1 (n : string) : OpaqueItem := OpaqueItem_new n [gp "T"] None AnnotationSet_new [].
Definition generics : Library :=
  lib (config_with M_Config.C default_export SortNone) [] []
    [data_enum "Maybe" [gp "T"] [unit_variant "Nothing" None; data_variant "Just" (body "Just_Body" [gp "T"] [fld "node" (ptr (ty1 "Node" (ty "T")))])]]
    [struct "Node" [gp "T"] [fld "value" (ty "T"); fld "next" (ptr (ty1 "Node" (ty "T"))); fld "up" (ptr (ty1 "Maybe" (ty "T")))]]
    [Union_new "Raw" [gp "T"] [fld "a" (ty "T"); fld "b" u8] None false None AnnotationSet_new []]
    [opaque1 "Hidden"] [typedef "Bytes" (ty1 "Maybe" u8)]
    [fn "f" [("p", ptr (ty1 "Raw" (ty1 "Hidden" u8))); ("q", ptr (ty "Bytes"))] (ptr (ty1 "Foreign" u8))].
Example generics_loaded : as_loaded generics /\ bodies_as_enums generics /\ ready generics.
Proof.
  assert (A : as_loaded generics) by (apply lib_loaded; vm_compute; reflexivity).
  assert (B : bodies_as_enums generics) by (apply bodies_listed; vm_compute; repeat constructor).
  split; [assumption|]. split; [assumption|]. apply loaded_is_ready; assumption.
Qed.
Definition inst (n : string) (t : Ty) : GenericPath := GenericPath_new n [GType t].
Definition generics_wanted : list GenericPath := [inst "Maybe" u8; inst "Node" u8; inst "Raw" (ty1 "Hidden" u8); inst "Hidden" u8; inst "Foreign" u8].
Definition generics_rank (g : GenericPath) : nat := if String.eqb (gp_path g) "Maybe" then 1 else 0.
Example generics_end : forall H : Heck,
  (forall g, wanted_type generics g -> In g generics_wanted)
  /\ (forall g h, wanted_type generics g -> body_needs generics g h -> known generics (gp_path h) -> generics_rank h < generics_rank g)
  /\ (forall p, body_name generics p -> ~ known generics p).
Proof.
  intros H. destruct generics_loaded as (_ & _ & R). repeat split.
  - apply closed_finite; [exact R|vm_compute; reflexivity].
  - apply (ranked_list generics generics_wanted generics_rank R); vm_compute; reflexivity.
  - intros p Hp (items & E). apply body_names_listed in Hp. vm_compute in Hp. destruct Hp as [<-|[]]. vm_compute in E. discriminate.
Qed.
Definition outline (o : outcome Bindings) : outcome (list (string * list Ty) * list (list Ty)) :=
  do b := o in Done (map (fun i => (ic_path i, written_types i)) (b_items b), map (fun f => f_ret f :: map a_ty (f_args f)) (b_functions b)).
Definition kw (n : string) (d : option DeclarationType) : Ty := TPath (GPath n n [] d).
Example generics_c : forall H : Heck, outline (generate 9 (fun x => x) generics) =
  Done ([("Hidden_u8", []); ("Raw_Hidden_u8", [kw "Hidden_u8" (Some DStruct); u8]); ("Node_u8", [u8; ptr (kw "Node_u8" (Some DStruct)); ptr (kw "Maybe_u8" (Some DStruct))]);
         ("Maybe_u8", [ptr (kw "Node_u8" (Some DStruct))]); ("Bytes", [kw "Maybe_u8" (Some DStruct)])],
        [[ptr (TPath (GPath "Foreign" "Foreign" [GType u8] None)); ptr (kw "Raw_Hidden_u8" (Some DUnion)); ptr (kw "Bytes" None)]]).
Proof. intros. vm_compute. reflexivity. Qed.

(** ** What fails without the conditions *)

(** C18.  A generic enum whose variants use it again, as in
    [enum List<T> { Nil, Cons { rest: *mut List<T> } }], is never finished: the bodies
    are instantiated before the instance of the enum is noted. *)
Definition list_lib : Library :=
  lib (config_with M_Config.C default_export SortNone) [] []
    [data_enum "List" [gp "T"] [unit_variant "Nil" None; data_variant "Cons" (body "Cons_Body" [gp "T"] [fld "rest" (ptr (ty1 "List" (ty "T")))])]]
    [] [] [] [] [fn "f" [("l", ptr (ty1 "List" u8))] void].
Lemma list_diverges : forall (H : Heck) n m, m_contains (inst "List" u8) m = false -> add_mono list_lib n m (inst "List" u8) = Diverge.
Proof.
  intros H. induction n as [|n IH]; intros m Hm; cbn [add_mono]; rewrite Hm.
  - vm_compute. reflexivity.
  - match goal with |- match ?a with _ => _ end = _ => let v := eval vm_compute in a in change a with v end. cbn [foldM].
    match goal with |- (do a := ?x in _) = _ => enough (E : x = Diverge) by (rewrite E; reflexivity) end.
    rewrite item_steps. match goal with |- foldM ?f ?ps _ = _ => let v := eval vm_compute in ps in change ps with v end. cbn [foldM].
    match goal with |- (do a := ?x in _) = _ => enough (E : x = Diverge) by (rewrite E; reflexivity) end.
    cbn [insert_piece]. unfold insert_monomorph. cbn [ic_monos]. match goal with |- context [Struct_monos ?s] => change (Struct_monos s) with [inst "List" u8] end.
    cbn [foldM]. change (gp_generics (inst "List" u8)) with [GType u8]. rewrite IH; [reflexivity|].
    unfold m_contains, record_replacement. cbn [m_replacements replacement].
    match goal with |- is_some (if ?b then _ else _) = _ => change b with false end. exact Hm.
Qed.
Theorem C18_recursive_enum_refuted : exists l, ready l /\ forall (H : Heck) fuel, instantiate_monomorphs fuel l = Diverge.
Proof.
  exists list_lib. split.
  - apply loaded_is_ready; [apply lib_loaded; vm_compute; reflexivity|apply bodies_listed; vm_compute; repeat constructor].
  - intros H fuel. unfold instantiate_monomorphs. change (library_monos list_lib) with [inst "List" u8]. cbn [foldM].
    rewrite list_diverges; reflexivity.
Qed.
Print Assumptions C18_recursive_enum_refuted.

(** C18.  Neither is a struct that uses itself with ever larger arguments, as
    in [struct Nest<T> { next: *mut Nest<*mut T> }], which Rust accepts. *)
Definition nest_lib : Library :=
  lib (config_with M_Config.C default_export SortNone) [] [] []
    [struct "Nest" [gp "T"] [fld "next" (ptr (ty1 "Nest" (ptr (ty "T"))))]] [] [] [] [fn "f" [("n", ptr (ty1 "Nest" u8))] void].
Definition deep (k : nat) : Ty := Nat.iter k ptr u8.
Lemma deep_inj : forall j k, deep j = deep k -> j = k.
Proof. induction j as [|j IH]; intros [|k]; cbn; try discriminate; [reflexivity|]. intros E. inversion E. f_equal. apply IH. assumption. Qed.
Lemma nest_diverges : forall (H : Heck) n j m, (forall k, j <= k -> m_contains (inst "Nest" (deep k)) m = false) -> add_mono nest_lib n m (inst "Nest" (deep j)) = Diverge.
Proof.
  intros H. induction n as [|n IH]; intros j m Hm; cbn [add_mono]; rewrite (Hm j (le_n j)).
  - vm_compute. reflexivity.
  - match goal with |- match ?a with _ => _ end = _ => let v := eval vm_compute in a in change a with v end. cbn [foldM].
    match goal with |- (do a := ?x in _) = _ => enough (E : x = Diverge) by (rewrite E; reflexivity) end.
    rewrite item_steps. change (gp_generics (inst "Nest" (deep j))) with [GType (deep j)].
    match goal with |- foldM ?f (pieces _ _ (ICStruct ?s)) _ = _ =>
      change (pieces nest_lib [GType (deep j)] (ICStruct s)) with
        [Some ("Nest", ICStruct (Struct_specialize [GType (deep j)] [("T", GType (deep j))] default_export s))] end. cbn [foldM].
    match goal with |- (do a := ?x in _) = _ => enough (E : x = Diverge) by (rewrite E; reflexivity) end.
    cbn [insert_piece]. unfold insert_monomorph. cbn [ic_monos]. match goal with |- context [Struct_monos ?s] => change (Struct_monos s) with [inst "Nest" (deep (S j))] end.
    cbn [foldM]. rewrite IH; [reflexivity|]. intros k Hk. unfold m_contains, record_replacement. cbn [m_replacements replacement].
    destruct (GenericPath_eqb (inst "Nest" (deep k)) (GenericPath_new "Nest" [GType (deep j)])) eqn:E.
    + apply GenericPath_eqb_eq in E. inversion E as [Ed]. apply deep_inj in Ed. lia.
    + apply Hm. lia.
Qed.
Theorem C18_growing_refuted : exists l, ready l /\ forall (H : Heck) fuel, instantiate_monomorphs fuel l = Diverge.
Proof.
  exists nest_lib. split.
  - apply loaded_is_ready; [apply lib_loaded; vm_compute; reflexivity|apply bodies_listed; vm_compute; repeat constructor].
  - intros H fuel. unfold instantiate_monomorphs. change (library_monos nest_lib) with [inst "Nest" (deep 0)]. cbn [foldM].
    rewrite nest_diverges; reflexivity.
Qed.
Print Assumptions C18_growing_refuted.

(** C18.  Globals and constants are not visited: the generic type of a global
    stays, and there is no definition for it. *)
Theorem C18_globals_refuted : forall H : Heck, exists l b, as_loaded l /\ generate 9 (fun x => x) l = Done b
  /\ map g_ty (b_globals b) = [ty1 "Holder" u8] /\ known l "Holder" /\ b_items b = [].
Proof.
  intros H. exists (lib (config_with M_Config.C default_export SortNone) [] [static "S" (ty1 "Holder" u8)] [] [struct "Holder" [gp "T"] [fld "a" (ty "T")]] [] [] [] []).
  eexists. split; [apply lib_loaded; vm_compute; reflexivity|]. split; [vm_compute; reflexivity|]. split; [vm_compute; reflexivity|]. split; [|vm_compute; reflexivity].
  eexists. vm_compute. reflexivity.
Qed.
Print Assumptions C18_globals_refuted.

(** C18.  Associated constants of a generic struct are not copied to its instances. *)
Theorem C18_constants_refuted : exists (s : Struct), s_associated_constants s <> [] /\
  forall (H : Heck) l args p x, instance l args (ICStruct s) p (ICStruct x) -> s_associated_constants x = [].
Proof.
  exists (add_associated_constant (const "MAX" u8 (LExpr "3")) (struct "Pair" [gp "T"] [fld "a" (ty "T")])). split; [discriminate|].
  intros H l args p x In0. inversion In0. reflexivity.
Qed.
Print Assumptions C18_constants_refuted.

(** C18.  An instance whose name is taken is dropped: [Pair<u8>] and the
    struct [Pair_u8] both become [Pair_u8], with the fields of the latter. *)
Theorem C18_taken_refuted : forall H : Heck, exists l, ready l /\
  outline (generate 9 (fun x => x) l) = Done ([("Pair_u8", [ptr void])], [[void; kw "Pair_u8" (Some DStruct); kw "Pair_u8" (Some DStruct)]]).
Proof.
  intros H. exists (lib (config_with M_Config.C default_export SortNone) [] [] [] [struct "Pair" [gp "T"] [fld "a" (ty "T")]; struct "Pair_u8" [] [fld "z" (ptr void)]] [] [] []
    [fn "f" [("a", ty1 "Pair" u8); ("b", ty "Pair_u8")] void]).
  split; [|vm_compute; reflexivity]. apply loaded_is_ready; [apply lib_loaded; vm_compute; reflexivity|apply bodies_listed; vm_compute; repeat constructor].
Qed.
Print Assumptions C18_taken_refuted.

(** C18.  A guarded generic enum and a struct that use each other: the instance
    of the enum is written twice, under the same guard. *)
Theorem C18_once_refuted : forall H : Heck, exists l b, ready l /\ generate 9 (fun x => x) l = Done b
  /\ map (fun i => (ic_path i, ic_guard i)) (b_items b) = [("Link_u8", None); ("Tree_u8", Some (CBoolean "unix")); ("Tree_u8", Some (CBoolean "unix"))].
Proof.
  intros H. exists (lib (config_with M_Config.C default_export SortNone) [] []
    [Enum_new "Tree" [gp "T"] repr_c [unit_variant "Leaf" None; data_variant "Branch" (body "Branch_Body" [gp "T"] [fld "link" (ptr (ty1 "Link" (ty "T")))])]
       (Some "Tag") (Some (CBoolean "unix")) AnnotationSet_new []]
    [struct "Link" [gp "T"] [fld "tree" (ptr (ty1 "Tree" (ty "T")))]] [] [] [] [fn "f" [("t", ptr (ty1 "Tree" u8))] void]).
  eexists. split; [|split; vm_compute; reflexivity]. apply loaded_is_ready; [apply lib_loaded; vm_compute; reflexivity|apply bodies_listed; vm_compute; repeat constructor].
Qed.
Print Assumptions C18_once_refuted.
