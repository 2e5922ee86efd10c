(** C14-C17: simplification, instantiation and mangling of types. *)
Require Import Coq.Strings.String Coq.Strings.Ascii Coq.Lists.List Coq.Bool.Bool Coq.Arith.Arith.
From Verif Require Import Base S_Lex M_Config M_Type S_Type P_Type P_Mangle.
Import ListNotations.
Open Scope string_scope.

Definition T0 (n : string) : Ty := TPath (GPath n n [] None).
Definition T1 (n : string) (t : Ty) : Ty := TPath (GPath n n [GType t] None).
Definition T2 (n : string) (t u : Ty) : Ty := TPath (GPath n n [GType t; GType u] None).
Definition u8 := TPrim (PInteger true false B8).
Definition mut_ptr (t : Ty) := TPtr t false true false.
Definition const_ptr (t : Ty) := TPtr t true true false.

(** ** C14 *)
(** Simplifying twice changes nothing more. *)
Theorem C14_idempotent : forall lang t,
  simplify_standard_types lang (simplify_standard_types lang t) = simplify_standard_types lang t.
Proof. exact simplify_idempotent. Qed.
Print Assumptions C14_idempotent.

(** No wrapper that has to vanish survives, at any depth. *)
Theorem C14_no_wrapper_left : forall lang t, simplified lang (simplify_standard_types lang t) = true.
Proof. exact simplify_simplified. Qed.
Print Assumptions C14_no_wrapper_left.

(** A type without such wrappers is left alone. *)
Theorem C14_others_unchanged : forall lang t, simplified lang t = true -> simplify_standard_types lang t = t.
Proof. exact simplify_id. Qed.
Print Assumptions C14_others_unchanged.

(** The representation in memory is unchanged, provided no [Option] is applied
    to a cell or [MaybeUninit]. *)
Theorem C14_same_representation : forall lang t, no_option_over_cell t = true ->
  fst (abi (simplify_standard_types lang t)) = fst (abi t)
  /\ (hides t = false -> snd (abi (simplify_standard_types lang t)) = snd (abi t)).
Proof. exact simplify_abi. Qed.
Print Assumptions C14_same_representation.

Definition ex_wrapped : Ty :=
  TFuncPtr (T1 "Option" (T1 "Box" (T1 "Cell" u8)))
    [(Some "x", T1 "Pin" (T1 "Option" (T1 "NonNull" (T0 "Foo")))); (None, T1 "Option" (T1 "NonZero" u8))] false false.
Example C14_applies :
  no_option_over_cell ex_wrapped = true /\ hides ex_wrapped = false /\
  simplified M_Config.C ex_wrapped = false /\
  simplify_standard_types M_Config.C ex_wrapped =
    TFuncPtr (TPtr u8 false true false)
      [(Some "x", TPtr (T0 "Foo") false true false); (None, u8)] false false /\
  simplify_standard_types Cxx ex_wrapped =
    TFuncPtr (T1 "Option" (T1 "Box" u8))
      [(Some "x", T1 "Pin" (TPtr (T0 "Foo") false true false)); (None, u8)] false false.
Proof. repeat split. Qed.

(** [Option<Cell<NonNull<T>>>] is larger than a pointer in Rust (a cell hides
    the niche) but is written as a pointer. *)
Theorem C14_option_of_cell_refuted : exists lang t,
  fst (abi t) <> fst (abi (simplify_standard_types lang t)).
Proof.
  exists M_Config.C, (T1 "Option" (T1 "Cell" (T1 "NonNull" (T0 "Foo")))). discriminate.
Qed.

(** ** C15 *)
(** The instantiated type means what the generic type means when its
    parameters stand for the arguments, in every interpretation of types. *)
Theorem C15_simultaneous_substitution : forall ms, NoDup (map fst ms) ->
  forall V K (I : interp V K) t, loaded t = true ->
  (forall p, In p (applied_names t) -> ~ In p (map fst ms)) ->
  ty_meaning I no_params (Type_specialize ms t) = ty_meaning I (bind I ms) t.
Proof. intros ms Hnd V K I. exact (specialize_meaning ms Hnd I). Qed.
Print Assumptions C15_simultaneous_substitution.

(** Every name in the result was there before or comes from an argument of a
    parameter that was there. *)
Theorem C15_no_other_names : forall ms, NoDup (map fst ms) -> forall t q,
  In q (ty_names (Type_specialize ms t)) ->
  In q (ty_names t) \/ exists p a, In p (ty_names t) /\ In (p, a) ms /\ In q (arg_names a).
Proof. exact specialize_names. Qed.
Print Assumptions C15_no_other_names.

(** No parameter is left behind. *)
Theorem C15_no_parameter_left : forall ms, NoDup (map fst ms) -> forall t,
  loaded t = true -> kinded ms t = true ->
  (forall p a q, In (p, a) ms -> In q (arg_names a) -> ~ In q (map fst ms)) ->
  forall q, In q (ty_names (Type_specialize ms t)) -> ~ In q (map fst ms).
Proof. exact specialize_closed. Qed.
Print Assumptions C15_no_parameter_left.

Definition ex_ms : mappings := [("T", GType (T0 "U")); ("U", GType u8); ("N", GConst (EValue "4"))].
Definition ex_gen : Ty :=
  TFuncPtr (TArray (T2 "Pair" (T0 "T") (T0 "U")) (EPath (GPath "N" "N" [] None)))
    [(None, TPath (GPath "Buf" "Buf" [GType (mut_ptr (T0 "U")); GType (T0 "N")] None))] false false.
Example C15_applies :
  loaded ex_gen = true /\ kinded ex_ms ex_gen = true /\
  (forall p, In p (applied_names ex_gen) -> ~ In p (map fst ex_ms)) /\ NoDup (map fst ex_ms) /\
  Type_specialize ex_ms ex_gen =
    TFuncPtr (TArray (T2 "Pair" (T0 "U") u8) (EValue "4"))
      [(None, TPath (GPath "Buf" "Buf" [GType (mut_ptr u8); GConst (EValue "4")] None))] false false.
Proof.
  split; [reflexivity|]. split; [reflexivity|]. split.
  { intros p Hp. cbn in Hp. cbn. intuition (subst; discriminate). }
  split; [|reflexivity].
  repeat constructor; cbn; intuition discriminate.
Qed.

(** Parameters are paired with arguments by position, missing ones with their defaults. *)
Theorem C15_parameters_by_position : forall params args,
  (length args <= length params ->
   (forall i p, nth_error params i = Some p -> length args <= i -> gp_default p <> None) ->
   exists ms, GenericParams_call params args = Some ms) /\
  (forall ms, GenericParams_call params args = Some ms ->
     length args <= length params /\ map fst ms = map gp_name_ params /\
     forall i p, nth_error params i = Some p ->
       exists a, nth_error ms i = Some (gp_name_ p, a) /\
         match nth_error args i with Some x => a = x | None => gp_default p = Some a end).
Proof. exact call_spec. Qed.
Print Assumptions C15_parameters_by_position.

(** A default that refers to an earlier parameter ([struct S<T, U = T>]) is not
    itself instantiated: [S<u8>] has a field of type [T]. *)
Theorem C15_dependent_default_refuted : exists params args ms,
  GenericParams_call params args = Some ms /\
  (forall a q, In a args -> In q (arg_names a) -> ~ In q (map gp_name_ params)) /\
  ty_names (Type_specialize ms (T0 "U")) = ["T"] /\ In "T" (map gp_name_ params).
Proof.
  exists [ {| gp_name_ := "T"; gp_ty := GPType; gp_default := None |};
           {| gp_name_ := "U"; gp_ty := GPType; gp_default := Some (GType (T0 "T")) |} ],
         [GType u8], [("T", GType u8); ("U", GType (T0 "T"))].
  repeat split; cbn; auto. intros a q [<-|[]] [].
Qed.

(** ** C16 *)
(** With the default settings, different instantiations whose names have no
    underscore and are always used with the same number of arguments, with
    pointers of one mutability at most four deep, get different names. *)
Theorem C16_mangling_injective_partial : forall (H : Heck) arity n gs n' gs' l l',
  view_args gs = Some l -> view_args gs' = Some l' ->
  well_named arity (MNode [] n l) = true -> well_named arity (MNode [] n' l') = true ->
  mangle_name n gs plain_config = mangle_name n' gs' plain_config ->
  n = n' /\ map erase l = map erase l'.
Proof. intros H arity. exact (mangle_injective arity H). Qed.
Print Assumptions C16_mangling_injective_partial.

Definition ex_arity (n : string) : nat := if String.eqb n "Foo" then 2 else if String.eqb n "Bar" then 1 else 0.
Definition ex_args : list GenericArgument :=
  [GType (T1 "Bar" (const_ptr (const_ptr (T0 "T")))); GType (TArray u8 (EValue "4"))].
Example C16_applies : exists l, view_args ex_args = Some l /\
  well_named ex_arity (MNode [] "Foo" l) = true /\
  forall H : Heck, mangle_name "Foo" ex_args plain_config = "Foo_Bar___________T______________u8__________4".
Proof. eexists. repeat split. Qed.

(** In general names collide. *)
Theorem C16_pointer_order_refuted : forall H : Heck, exists n gs gs', gs <> gs' /\
  mangle_name n gs plain_config = mangle_name n gs' plain_config.
Proof.
  intro H. exists "Foo", [GType (mut_ptr (const_ptr (T0 "A")))], [GType (const_ptr (mut_ptr (T0 "A")))].
  split; [discriminate|reflexivity].
Qed.
Theorem C16_pointer_to_array_refuted : forall H : Heck,
  mangle_name "Foo" [GType (mut_ptr (TArray (T0 "A") (EValue "2")))] plain_config
  = mangle_name "Foo" [GType (TArray (mut_ptr (T0 "A")) (EValue "2"))] plain_config.
Proof. reflexivity. Qed.
Theorem C16_underscore_refuted : forall H : Heck,
  mangle_name "Foo" [GType (T0 "A__B")] plain_config = mangle_name "Foo" [GType (T0 "A"); GType (T0 "B")] plain_config
  /\ mangle_name "Foo" [GType (T0 "A_B")] plain_config = mangle_name "Foo" [GType (T1 "A" (T0 "B"))] plain_config.
Proof. split; reflexivity. Qed.
(** Nullability is not mangled: [Foo<&T>] and [Foo<*const T>] share a name. *)
Theorem C16_nullability_refuted : forall H : Heck,
  mangle_name "Foo" [GType (TPtr (T0 "A") true false false)] plain_config
  = mangle_name "Foo" [GType (const_ptr (T0 "A"))] plain_config.
Proof. reflexivity. Qed.
(** Without underscores even the boundary between arguments is lost. *)
Theorem C16_remove_underscores_refuted : forall H : Heck,
  let m := {| remove_underscores := true; rename_types := RNone |} in
  mangle_name "Foo" [GType (T0 "A"); GType (T0 "BC")] m = mangle_name "Foo" [GType (T0 "AB"); GType (T0 "C")] m.
Proof. reflexivity. Qed.

(** Five levels of one kind of pointer are four of the other, and a function
    pointer without arguments is a pointer to its result's pointee. *)
Theorem C16_deep_pointers_refuted : forall H : Heck,
  mangle_name "Foo" [GType (mut_ptr (mut_ptr (mut_ptr (mut_ptr (mut_ptr (T0 "A"))))))] plain_config
  = mangle_name "Foo" [GType (const_ptr (const_ptr (const_ptr (const_ptr (T0 "A")))))] plain_config.
Proof. reflexivity. Qed.
Theorem C16_function_pointer_refuted : forall H : Heck,
  mangle_name "Foo" [GType (TFuncPtr (mut_ptr (T0 "A")) [] false false)] plain_config
  = mangle_name "Foo" [GType (const_ptr (const_ptr (T0 "A")))] plain_config.
Proof. reflexivity. Qed.

(** The names the repository's own unit tests expect (mangle.rs:164-351). *)
Example mangle_unit_tests : forall H : Heck,
  mangle_path "Foo" [GType (TPrim PFloat)] plain_config = "Foo_f32" /\
  mangle_path "Foo" [GType (T1 "Bar" (TPrim PFloat))] plain_config = "Foo_Bar_f32" /\
  mangle_path "Foo" [GType (T0 "Bar")] plain_config = "Foo_Bar" /\
  mangle_path "Foo" [GType (T0 "Bar")] {| remove_underscores := true; rename_types := RNone |} = "FooBar" /\
  mangle_path "Foo" [GType (T1 "Bar" (T0 "T")); GType (T0 "E")] plain_config = "Foo_Bar_T_____E" /\
  mangle_path "Foo" [GType (T1 "Bar" (T0 "T")); GType (T1 "Bar" (T0 "E"))] plain_config = "Foo_Bar_T_____Bar_E" /\
  mangle_path "Top" [GConst (EValue "40")] plain_config = "Top_40" /\
  mangle_path "Top" [GConst (EPath (GPath "N" "N" [] None))] plain_config = "Top_N" /\
  mangle_path "Top" [GType (T0 "N")] plain_config = "Top_N" /\
  mangle_path "Foo" [GType (TPrim PFloat); GConst (EValue "40")] plain_config = "Foo_f32__40".
Proof. repeat split. Qed.

(** ** C17 *)
Theorem C17_mangled_names_are_identifiers : forall (H : Heck) m name gs, words_to_words (rename_types m) ->
  is_ident name = true -> forallb mangle_ok_arg gs = true -> is_ident (mangle_name name gs m) = true.
Proof. exact mangled_ident. Qed.
Print Assumptions C17_mangled_names_are_identifiers.
Example C17_applies : forall H : Heck, words_to_words (rename_types plain_config) /\
  words_to_words (RPrefix "m") /\
  is_ident "Foo" = true /\
  forallb mangle_ok_arg (GType (TFuncPtr u8 [(None, mut_ptr (T0 "my_t"))] false false) :: ex_args) = true.
Proof.
  intro H. split; [intros s Hs; cbn; rewrite rename_none; exact Hs|].
  split; [|split; reflexivity].
  intros s Hs. unfold RenameRule_apply. destruct (String.eqb s ""); [exact Hs|]. rewrite words_app, Hs. reflexivity.
Qed.
