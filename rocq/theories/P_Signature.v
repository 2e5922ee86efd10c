(** Proofs about [S_Signature]. *)
Require Import Coq.Strings.String Coq.Strings.Ascii Coq.Lists.List Coq.Bool.Bool Coq.Arith.Arith Coq.NArith.NArith.
From Verif Require Import Base M_Config M_Type S_Type P_Type M_Ir M_Attr M_Syn M_Loader S_Decl S_Signature.
Import ListNotations.
Open Scope string_scope.

(** ** The names of primitive types *)
Definition nonzero_names : list string :=
  ["NonZeroU8"; "NonZeroU16"; "NonZeroU32"; "NonZeroU64"; "NonZeroUSize"; "NonZeroI8"; "NonZeroI16"; "NonZeroI32"; "NonZeroI64"; "NonZeroISize"].
Definition integer_names : list string :=
  ["c_short"; "c_int"; "c_long"; "c_longlong"; "ssize_t"; "c_ushort"; "c_uint"; "c_ulong"; "c_ulonglong"; "size_t"; "RawFd"; "isize"; "intptr_t";
   "usize"; "uintptr_t"; "u8"; "uint8_t"; "u16"; "uint16_t"; "u32"; "uint32_t"; "u64"; "uint64_t"; "i8"; "int8_t"; "i16"; "int16_t"; "i32";
   "int32_t"; "i64"; "int64_t"].
Definition primitive_names : list string :=
  (["c_void"; "c_char"; "c_schar"; "c_uchar"; "c_float"; "c_double"; "ptrdiff_t"; "VaList"; "bool"; "char"; "f32"; "f64"]
   ++ integer_names ++ nonzero_names)%list.
Ltac by_characters := repeat match goal with
 | |- match ?s with _ => _ end = Some _ -> _ => destruct s
 | |- None = Some _ -> _ => discriminate
 | |- Some _ = Some _ -> _ => intros _; reflexivity
 end.
Lemma mem_app : forall n a b, mem_str n (a ++ b) = mem_str n a || mem_str n b.
Proof. intros. induction a as [|x a IH]; [reflexivity|]. cbn. destruct (n =? x); [reflexivity|exact IH]. Qed.
Lemma nonzero_named : forall n p, maybe_nonzero_integer n = Some p -> mem_str n nonzero_names = true.
Proof. intros n p. unfold maybe_nonzero_integer. by_characters. Qed.
Lemma integer_named : forall n p, maybe_integer n = Some p -> mem_str n (integer_names ++ nonzero_names) = true.
Proof.
  assert (K : forall n p, maybe_nonzero_integer n = Some p -> mem_str n (integer_names ++ nonzero_names) = true).
  { intros n p E. rewrite mem_app, (nonzero_named _ _ E). apply orb_true_r. }
  intros n p. unfold maybe_integer. revert K. generalize maybe_nonzero_integer. intros mb K. by_characters; apply K.
Qed.
Lemma primitive_named : forall n p, PrimitiveType_maybe n = Some p -> mem_str n primitive_names = true.
Proof.
  assert (K : forall n p, maybe_integer n = Some p -> mem_str n primitive_names = true).
  { intros n p E. unfold primitive_names. rewrite mem_app, (integer_named _ _ E). apply orb_true_r. }
  intros n p. unfold PrimitiveType_maybe. revert K. generalize maybe_integer. intros mb K. by_characters; apply K.
Qed.
Lemma lookup_found : forall {A} n (m : list (string * A)) x, lookup n m = Some x -> In (n, x) m.
Proof.
  intros A n m x. induction m as [|[k v] m IH]; cbn; [discriminate|]. destruct (String.eqb_spec n k) as [->|_]; intro E; [injection E as <-; left; reflexivity|].
  right. exact (IH E).
Qed.
Lemma lookup_missing : forall {A} n (m : list (string * A)), lookup n m = None -> mem_str n (map fst m) = false.
Proof.
  intros A n m. induction m as [|[k v] m IH]; cbn; [reflexivity|]. destruct (n =? k); [discriminate|exact IH].
Qed.
Lemma mem_In : forall n l, mem_str n l = true <-> In n l.
Proof.
  intros n l. induction l as [|x l IH]; cbn; [split; [discriminate|tauto]|]. destruct (String.eqb_spec n x) as [->|N]; [split; auto|].
  rewrite IH. split; [auto|intros [E|?]; [congruence|assumption]].
Qed.
Lemma integers_ok : forall c n ws, lookup n (rust_integers c) = Some ws ->
  exists s k, PrimitiveType_maybe n = Some (PInteger true s k) /\ forall z, primitive c (PInteger z s k) = ws.
Proof.
  intros c n ws E. apply lookup_found in E. cbn in E.
  repeat (destruct E as [E|E]; [injection E as <- <-; eexists; eexists; split; [reflexivity|]; intros z; cbn; destruct (usize_is_size_t c); reflexivity|]).
  contradiction.
Qed.
Lemma nonzero_ok : forall c n ws, lookup n rust_nonzero = Some ws ->
  exists s k, PrimitiveType_maybe n = Some (PInteger false s k) /\ forall z, primitive c (PInteger z s k) = ws.
Proof.
  intros c n ws E. apply lookup_found in E. cbn in E.
  repeat (destruct E as [E|E]; [injection E as <- <-; eexists; eexists; split; reflexivity|]). contradiction.
Qed.
Lemma primitives_ok : forall c n ws, lookup n (rust_primitives c) = Some ws ->
  exists p, PrimitiveType_maybe n = Some p /\ primitive c p = ws /\ p <> PVaList.
Proof.
  intros c n ws E. apply lookup_found in E. cbn in E.
  repeat (destruct E as [E|E]; [injection E as <- <-; eexists; split; [reflexivity|split; [cbn; try destruct (usize_is_size_t c); reflexivity|discriminate]]|]).
  contradiction.
Qed.
Lemma not_primitive : forall c n, lookup n (rust_primitives c) = None -> mem_str n ["VaList"; "NonZeroUSize"; "NonZeroISize"] = false ->
  PrimitiveType_maybe n = None.
Proof.
  intros c n E M. apply lookup_missing in E. destruct (PrimitiveType_maybe n) as [p|] eqn:Q; [exfalso|reflexivity].
  apply primitive_named in Q. apply mem_In in Q.
  assert (K : forall x, In x primitive_names -> mem_str x (map fst (rust_primitives c)) = true \/ mem_str x ["VaList"; "NonZeroUSize"; "NonZeroISize"] = true).
  { intros x I. cbn in I. repeat (destruct I as [<-|I]; [first [left; reflexivity|right; reflexivity]|]). contradiction. }
  destruct (K n Q); congruence.
Qed.

(** ** Induction over types as written *)
Section Induction.
  Variable P : sty -> Prop.
  Definition arg_holds (a : sgarg) : Prop := match a with ArgType u => P u | _ => True end.
  Definition args_hold (a : sargs) : Prop := match a with AngleArgs l => Forall arg_holds l | _ => True end.
  Hypothesis Href : forall m u, P u -> P (SRef m u).
  Hypothesis Hptr : forall m u, P u -> P (SPtr m u).
  Hypothesis Hpath : forall b i a, args_hold a -> P (SPath (SegPath b i a)).
  Hypothesis Harr : forall u e, P u -> P (SArray u e).
  Hypothesis Hfn : forall l v o, Forall (fun a => P (snd a)) l -> match o with Some u => P u | None => True end -> P (SFnPtr l v o).
  Hypothesis Htup : forall l, P (STuple l).
  Hypothesis Hell : P SEllipsis.
  Hypothesis Hnev : P SNever.
  Hypothesis Hoth : P SOtherType.
  Fixpoint sty_ind' (t : sty) : P t :=
    match t with
    | SRef m u => Href m u (sty_ind' u)
    | SPtr m u => Hptr m u (sty_ind' u)
    | SPath (SegPath b i a) =>
        Hpath b i a (match a return args_hold a with
                     | AngleArgs l => (fix go l : Forall arg_holds l :=
                                         match l with
                                         | [] => Forall_nil _
                                         | x :: r => Forall_cons x (match x return arg_holds x with ArgType u => sty_ind' u | _ => Logic.I end) (go r)
                                         end) l
                     | NoArgs | ParenArgs => Logic.I
                     end)
    | SArray u e => Harr u e (sty_ind' u)
    | SFnPtr l v o =>
        Hfn l v o ((fix go l : Forall (fun a => P (snd a)) l :=
                      match l with [] => Forall_nil _ | a :: r => Forall_cons a (sty_ind' (snd a)) (go r) end) l)
          (match o with Some u => sty_ind' u | None => Logic.I end)
    | STuple l => Htup l
    | SEllipsis => Hell
    | SNever => Hnev
    | SOtherType => Hoth
    end.
End Induction.

Lemma no_size_load : forall t, no_size t = true -> Type_load t = Some None.
Proof.
  intros t. destruct t as [| |[b i a]| | |l| | |]; try discriminate.
  - cbn. destruct (unraw i =? "PhantomData") eqn:E1; cbn.
    + intros _. rewrite E1. reflexivity.
    + destruct (unraw i =? "PhantomPinned") eqn:E2; [|discriminate]. destruct a; try discriminate. intros _. cbn. rewrite E1, E2. reflexivity.
  - destruct l; [reflexivity|discriminate].
Qed.

Lemma try_skip_cons : forall {A B} (f : A -> option (option B)) x r,
  try_skip_map f (x :: r) = let? o := f x in let? ys := try_skip_map f r in Some (match o with Some y => y :: ys | None => ys end).
Proof. reflexivity. Qed.

Lemma cxx_eqb : forall l, Language_eqb l Cxx = true -> l = Cxx.
Proof. intros []; [reflexivity|discriminate|discriminate]. Qed.

Section Meaning.
  Variables (c : Config) (kw : string -> option DeclarationType) (self : option string).
  Variable fin : Ty -> Ty.
  Let lang := language c.
  Hypothesis fin_ptr : forall u k n r, fin (TPtr u k n r) = TPtr (fin u) k n r.
  Hypothesis fin_prim : forall p, fin (TPrim p) = TPrim p.
  Hypothesis fin_arr : forall u e, fin (TArray u e) = TArray (fin u) (ConstExpr_rename_for_config (export c) [] e).
  Hypothesis fin_fn : forall r a n nv, fin (TFuncPtr r a n nv) = TFuncPtr (fin r) (map (fun a => (fst a, fin (snd a))) a) n nv.
  Hypothesis fin_path : forall p ts, ts = [] \/ language c = Cxx ->
    fin (TPath (GPath p p (map GType ts) None)) = TPath (GPath p (exported c p) (map (fun t => GType (fin t)) ts) (kw p)).
  Definition selfed (t : Ty) : Ty := match self with Some s => replace_self_with s t | None => t end.
  Definition simp (t : Ty) : Ty := simplify_standard_types lang (selfed t).

  Lemma simp_ptr : forall u k n r, simp (TPtr u k n r) = TPtr (simp u) k n r. Proof. intros. unfold simp, selfed. destruct self; reflexivity. Qed.
  Lemma simp_prim : forall p, simp (TPrim p) = TPrim p. Proof. intros. unfold simp, selfed. destruct self; reflexivity. Qed.
  Lemma simp_arr : forall u e, simp (TArray u e) = TArray (simp u) e. Proof. intros. unfold simp, selfed. destruct self; reflexivity. Qed.
  Lemma simp_fn : forall r a n nv, simp (TFuncPtr r a n nv) = TFuncPtr (simp r) (map (fun a => (fst a, simp (snd a))) a) n nv.
  Proof.
    intros. unfold simp, selfed. destruct self; [|reflexivity]. cbn. f_equal. rewrite map_map. apply map_ext. reflexivity.
  Qed.
  (** a wrapper *)
  Lemma simp_wrapped : forall n u v, n <> "Self" -> simplify_wrapper lang n (simp u) = Some v -> simp (TPath (GPath n n [GType u] None)) = v.
  Proof.
    intros n u v N E.
    assert (K : forall w, simplify_wrapper lang n (simplify_standard_types lang w) = Some v ->
      simplify_standard_types lang (TPath (GPath n n [GType w] None)) = v).
    { intros w Ew. cbn [simplify_standard_types map simplified_type]. rewrite (simplified_stable _ _ (simplify_simplified lang w)), Ew. reflexivity. }
    unfold simp, selfed in *. destruct self as [s|]; [|exact (K _ E)].
    cbn [replace_self_with]. rewrite (proj2 (String.eqb_neq _ _) N). cbn [map]. exact (K _ E).
  Qed.
  Lemma not_wrapper : forall n u, mem_str n (wrappers c) = false -> simplify_wrapper lang n u = None.
  Proof.
    intros n u. unfold wrappers, simplify_wrapper, lang. destruct (Language_eqb (language c) Cxx); cbn;
    repeat match goal with |- context [n =? ?s] => destruct (n =? s); try discriminate end; reflexivity.
  Qed.
  Lemma simp_named : forall n ts, mem_str n (wrappers c) = false -> n <> "Self" \/ ts = [] ->
    simp (TPath (GPath n n (map GType ts) None)) = TPath (GPath (self_name self n) (self_name self n) (map (fun t => GType (simp t)) ts) None).
  Proof.
    intros n ts W N.
    assert (K : forall m us, mem_str m (wrappers c) = false \/ us = [] ->
      simplify_standard_types lang (TPath (GPath m m (map GType us) None)) = TPath (GPath m m (map (fun t => GType (simplify_standard_types lang t)) us) None)).
    { intros m us A. cbn [simplify_standard_types]. rewrite map_map.
      assert (B : simplified_type lang (TPath (GPath m m (map (fun x => GType (simplify_standard_types lang x)) us) None)) = None).
      { destruct us as [|w [|]]; [reflexivity| |reflexivity]. cbn [map simplified_type]. destruct A as [A|]; [|discriminate]. exact (not_wrapper _ _ A). }
      rewrite B. reflexivity. }
    unfold simp, selfed, self_name. destruct self as [s|]; [|apply K; auto].
    cbn [replace_self_with]. destruct (String.eqb_spec n "Self") as [->|X].
    - destruct N as [N| ->]; [contradiction|]. cbn [map]. exact (K s [] (or_intror eq_refl)).
    - rewrite map_map. rewrite <- (map_map (replace_self_with s) GType). rewrite K by auto. rewrite map_map. reflexivity.
  Qed.

  Definition opted (nullable : bool) (u v : Ty) : Prop := if nullable then simplify_wrapper lang "Option" u = Some v else v = u.
  Definition good (const : bool) (v : Ty) (x : ctype) : Prop :=
    c_type c const (fin v) = x /\ declarable c (fin v) = true /\ (const = true -> no_function_pointer (fin v) = true).
  Definition meant (t : sty) : Prop := forall const nullable x, rust_type c kw self const nullable t = Some x ->
    exists ty v, Type_load t = Some (Some ty) /\ opted nullable (simp ty) v /\ good const v x.

  Lemma void_good : forall k, good k (TPrim PVoid) (void_type k).
  Proof. intro k. unfold good. rewrite fin_prim. repeat split. Qed.
  Lemma target_good : forall u k x, meant u -> (if no_size u then Some (void_type k) else rust_type c kw self k false u) = Some x ->
    exists ty, (let? l := Type_load u in Some (match l with Some y => y | None => TPrim PVoid end)) = Some ty /\ good k (simp ty) x.
  Proof.
    intros u k x IH E. destruct (no_size u) eqn:N.
    - injection E as <-. rewrite (no_size_load _ N). eexists. split; [reflexivity|]. rewrite simp_prim. apply void_good.
    - destruct (IH _ _ _ E) as (ty & v & L & O & G). cbn in O. subst v. rewrite L. eexists. split; [reflexivity|exact G].
  Qed.
  Lemma pointer_good : forall k u x const n, good k u x -> good const (TPtr u k n false) (CPtr false (qualifiers c const n false) x).
  Proof.
    intros k u x const n (A & B & D). unfold good. rewrite fin_ptr. split; [cbn; rewrite A; reflexivity|]. split; [|reflexivity].
    cbn. rewrite B. cbn. destruct k; [|reflexivity]. rewrite D by reflexivity. reflexivity.
  Qed.
  Lemma void_is : forall k t, is_void t = true -> is_void_type (c_type c k t) = true.
  Proof. intros k [| |[]| |]; try discriminate. reflexivity. Qed.
  Lemma array_is : forall k t, S_Decl.is_array t = true -> is_array_type (c_type c k t) = true.
  Proof. intros k [| | | |]; try discriminate. reflexivity. Qed.
  Lemma params_cons : forall name ty y p rest, parameter c name y = Some p -> good false ty y ->
    declarable_params c (declarable c) rest = true ->
    declarable_params c (declarable c) ((name, fin ty) :: rest) = true /\ p = (name, c_type c false (fin ty)).
  Proof.
    intros name ty y p rest E (A & B & _) R. unfold parameter in E. destruct (usable_name c name) eqn:U; [|discriminate].
    destruct (is_void_type y) eqn:V; [discriminate|]. destruct (is_array_type y); [discriminate|]. cbn in E. injection E as <-. subst y. split; [|reflexivity].
    assert (NV : is_void (fin ty) = false). { destruct (is_void (fin ty)) eqn:Q; [|reflexivity]. rewrite (void_is _ _ Q) in V. discriminate. }
    cbn [declarable_params]. destruct name, (fin ty) as [| |[]| |]; try discriminate; try (destruct rest); rewrite ?U, ?B, ?NV, ?R; reflexivity.
  Qed.

  Lemma length_ok : forall e n, rust_length c e = Some n ->
    exists ce, ConstExpr_load e = Some ce /\ ConstExpr_as_str (ConstExpr_rename_for_config (export c) [] ce) = n /\ solid n = true.
  Proof.
    intros e n E. destruct e as [|l| | | | |[b i a]| | | | |]; try discriminate.
    - destruct l; try discriminate. unfold rust_length in E. destruct (solid _) eqn:S0; [|discriminate]. injection E as <-.
      eexists. repeat split. exact S0.
    - destruct a; try discriminate. unfold rust_length in E. destruct (solid _) eqn:S0; [|discriminate]. injection E as <-.
      cbn [ConstExpr_load GenericPath_load]. destruct (unraw i =? "PhantomData"); (eexists; repeat split; exact S0).
  Qed.

  (** *** Parameters of a function pointer *)
  Definition load_param (a : option string * sty) : option (option (option string * Ty)) :=
    let? l := Type_load (snd a) in Some (option_map (pair (fst a)) l).
  Definition spoken (l : list (option string * Ty)) : list (option string * Ty) :=
    map (fun a => (fst a, fin (snd a))) (map (fun a => (fst a, simp (snd a))) l).
  Definition rust_params (variadic : bool) := (fix params (wildcards : nat) (l : list (option string * sty)) : option (list (option string * ctype)) :=
               match l with
               | [] => Some (if variadic then [(None, CDots)] else [])
               | (x, u) :: r =>
                   if no_size u then params wildcards r
                   else
                     let? y := rust_type c kw self false false u in
                     let wild := match x with Some y => String.eqb y "_" | None => false end in
                     let name := if wild then Some (if Nat.eqb wildcards 0 then "_" else "_" ++ decimal (N.of_nat wildcards))
                                 else option_map unraw x in
                     let? p := parameter c name y in
                     let? ps := params (if wild then S wildcards else wildcards) r in
                     Some (p :: ps)
               end).
  Lemma params_unfold : forall variadic k x u r, rust_params variadic k ((x, u) :: r) =
    if no_size u then rust_params variadic k r
    else let? y := rust_type c kw self false false u in
         let wild := match x with Some y => String.eqb y "_" | None => false end in
         let name := if wild then Some (if Nat.eqb k 0 then "_" else "_" ++ decimal (N.of_nat k)) else option_map unraw x in
         let? p := parameter c name y in let? ps := rust_params variadic (if wild then S k else k) r in Some (p :: ps).
  Proof. reflexivity. Qed.
  Lemma params_ok : forall variadic l, Forall (fun a => meant (snd a)) l -> forall k ps, rust_params variadic k l = Some ps ->
    exists args, try_skip_map load_param l = Some args /\
      let all := spoken (name_wildcards k args ++ if variadic then [(None, TPrim PVaList)] else [])%list in
      map (fun a => (fst a, c_type c false (snd a))) all = ps /\ declarable_params c (declarable c) all = true.
  Proof.
    intros variadic l F. induction F as [|[x u] r M F IH]; intros k ps E.
    - injection E as <-. exists []. split; [reflexivity|]. destruct variadic; [|split; reflexivity].
      cbn [name_wildcards app spoken map fst snd]. rewrite simp_prim, fin_prim. split; reflexivity.
    - cbn [snd] in M. rewrite params_unfold in E. rewrite try_skip_cons.
      change (load_param (x, u)) with (let? l := Type_load u in Some (option_map (pair x) l)). destruct (no_size u) eqn:N.
      + destruct (IH _ _ E) as (args & L & R). exists args. rewrite (no_size_load _ N). cbn [option_map]. rewrite L. split; [reflexivity|exact R].
      + destruct (rust_type c kw self false false u) as [y|] eqn:Y; [|discriminate].
        destruct (M _ _ _ Y) as (ty & v & L & O & G). cbn in O. subst v. cbv zeta in E.
        destruct (parameter c _ y) as [p|] eqn:P; [|discriminate].
        destruct (rust_params variadic _ r) as [qs|] eqn:Q in E; [|discriminate].
        injection E as <-. destruct (IH _ _ Q) as (args & LA & A & D).
        exists ((x, ty) :: args). rewrite L. cbn [option_map]. rewrite LA. split; [reflexivity|].
        assert (K : name_wildcards k ((x, ty) :: args) =
          ((if match x with Some y => y =? "_" | None => false end then Some (if Nat.eqb k 0 then "_" else "_" ++ decimal (N.of_nat k)) else option_map unraw x), ty)
          :: name_wildcards (if match x with Some y => y =? "_" | None => false end then S k else k) args).
        { destruct x as [x|]; [|reflexivity]. cbn [name_wildcards]. destruct (x =? "_"); reflexivity. }
        rewrite K. cbn [app spoken map fst snd].
        destruct (params_cons _ (simp ty) y p _ P G D) as (D' & EP). split; [|exact D'].
        rewrite EP. f_equal. exact A.
  Qed.

  (** *** Generic arguments *)
  Definition load_arg (a : sgarg) : option (option GenericArgument) :=
    match a with
    | ArgType u => let? l := Type_load u in Some (option_map GType l)
    | ArgLifetime => Some None
    | ArgConst e => let? x := ConstExpr_load e in Some (Some (GConst x))
    | ArgOther => None
    end.
  Definition rust_arguments := (fix arguments (l : list sgarg) : option (list ctype) :=
                                   match l with
                                   | [] => Some []
                                   | ArgLifetime :: r => arguments r
                                   | ArgType u :: r => if no_size u then None
                                                       else let? x := rust_type c kw self false false u in let? xs := arguments r in Some (x :: xs)
                                   | _ :: _ => None
                                   end).
  Lemma arguments_unfold : forall a r, rust_arguments (a :: r) =
    match a with
    | ArgLifetime => rust_arguments r
    | ArgType u => if no_size u then None else let? x := rust_type c kw self false false u in let? xs := rust_arguments r in Some (x :: xs)
    | _ => None
    end.
  Proof. intros [] ?; reflexivity. Qed.
  Lemma arguments_ok : forall l, Forall (arg_holds meant) l -> forall xs, rust_arguments l = Some xs ->
    exists ts, try_skip_map load_arg l = Some (map GType ts) /\ map (fun t => c_type c false (fin (simp t))) ts = xs /\
      forallb (fun t => declarable c (fin (simp t))) ts = true.
  Proof.
    intros l F. induction F as [|a r M F IH]; intros xs E.
    - injection E as <-. exists []. repeat split.
    - rewrite arguments_unfold in E. rewrite try_skip_cons. destruct a as [u| | |]; try discriminate.
      + cbn [arg_holds] in M. destruct (no_size u); [discriminate|]. destruct (rust_type c kw self false false u) as [x|] eqn:Y; [|discriminate].
        destruct (M _ _ _ Y) as (ty & v & L & O & G). cbn in O. subst v.
        destruct (rust_arguments r) as [ys|] eqn:Q; [|discriminate]. injection E as <-. destruct (IH _ eq_refl) as (ts & LA & A & D).
        exists (ty :: ts). cbn [load_arg]. rewrite L. cbn [option_map]. rewrite LA.
        split; [reflexivity|]. destruct G as (G1 & G2 & _). cbn [map forallb]. rewrite G1, G2, A, D. split; reflexivity.
      + destruct (IH _ E) as (ts & LA & R). exists ts. split; [|exact R]. cbn [load_arg]. rewrite LA. reflexivity.
  Qed.

  Definition rust_wrapped (const nullable : bool) (n : string) (u : sty) : option ctype :=
          if no_size u then None
          else if String.eqb n "Option" then if nullable then None else rust_type c kw self const true u
          else if mem_str n ["NonNull"; "Box"] then
            let? x := rust_type c kw self false false u in Some (CPtr false (qualifiers c const nullable false) x)
          else if String.eqb n "NonZero" then
            match u with
            | SPath (SegPath _ i NoArgs) => let? words := lookup (unraw i) (rust_integers c) in Some (CName const None words [])
            | _ => None
            end
          else if mem_str n ["ManuallyDrop"; "Pin"] then rust_type c kw self const nullable u
          else if nullable then None else rust_type c kw self const false u.
  Lemma path_unfold : forall const nullable b ident args, rust_type c kw self const nullable (SPath (SegPath b ident args)) =
    let n := unraw ident in
    if mem_str n (wrappers c) then match args with AngleArgs [ArgType u] => rust_wrapped const nullable n u | _ => None end
    else if nullable then
      match args with NoArgs => let? words := lookup n rust_nonzero in Some (CName const None words []) | _ => None end
    else match lookup n (rust_primitives c) with
         | Some words => match args with NoArgs => Some (CName const None words []) | _ => None end
         | None =>
             let? xs := match args with NoArgs => Some [] | AngleArgs l => rust_arguments l | ParenArgs => None end in
             if is_nil xs then named c kw const (self_name self n) []
             else if Language_eqb (language c) Cxx && negb (String.eqb n "Self") then named c kw const n xs else None
         end.
  Proof. reflexivity. Qed.
  Lemma load_path : forall b ident args, Type_load (SPath (SegPath b ident args)) =
    let n := unraw ident in
    if String.eqb n "PhantomData" then Some None
    else
      let? gs := match args with AngleArgs l => try_skip_map load_arg l | ParenArgs => None | NoArgs => Some [] end in
      if String.eqb n "PhantomPinned" then Some None
      else match PrimitiveType_maybe n with
           | Some prim => if is_nil gs then Some (Some (TPrim prim)) else None
           | None => Some (Some (TPath (GenericPath_new n gs)))
           end.
  Proof.
    intros. cbn [Type_load GenericPath_load]. destruct (unraw ident =? "PhantomData") eqn:E; [cbn; rewrite E; reflexivity|].
    destruct args; cbn -[String.eqb PrimitiveType_maybe try_skip_map]; rewrite ?E; try reflexivity.
    change (try_skip_map _ args) with (try_skip_map load_arg args).
    destruct (try_skip_map load_arg args); [|reflexivity]. cbn -[String.eqb PrimitiveType_maybe]. rewrite E. reflexivity.
  Qed.
  Lemma prim_good : forall const p ws, primitive c p = ws -> p <> PVaList -> good const (TPrim p) (CName const None ws []).
  Proof.
    intros const p ws <- N. unfold good. rewrite fin_prim. repeat split; destruct p; try reflexivity; contradiction.
  Qed.
  Lemma named_good : forall const n ts x, (ts = [] \/ language c = Cxx) -> named c kw const n (map (fun t => c_type c false (fin t)) ts) = Some x ->
    forallb (fun t => declarable c (fin t)) ts = true -> good const (TPath (GPath n n (map GType ts) None)) x.
  Proof.
    intros const n ts x A E D. unfold named in E. destruct (usable c (exported c n)) eqn:U; [|discriminate].
    destruct (mem_str n _); [discriminate|]. injection E as <-. unfold good. rewrite (fin_path n ts A).
    split; [|split; [|reflexivity]].
    - cbn [c_type]. rewrite map_map. reflexivity.
    - cbn [declarable]. rewrite U.
      assert (K : is_nil (map (fun t => GType (fin t)) ts) || Language_eqb (language c) Cxx = true).
      { destruct A as [->|A]; [reflexivity|rewrite A; apply orb_true_r]. }
      rewrite K. clear - D. cbn. induction ts as [|t ts IH]; [reflexivity|]. cbn in *. apply andb_prop in D. destruct D as [D1 D2].
      rewrite D1. exact (IH D2).
  Qed.
  Lemma named_proper : forall const n args x, named c kw const n args = Some x ->
    n =? "PhantomData" = false /\ n =? "PhantomPinned" = false /\ mem_str n ["VaList"; "NonZeroUSize"; "NonZeroISize"] = false.
  Proof.
    intros const n args x E. unfold named in E. destruct (usable _ _); [|discriminate]. cbn in E |- *.
    destruct (n =? "PhantomData"); [discriminate|]. destruct (n =? "PhantomPinned"); [discriminate|].
    destruct (n =? "VaList"); [discriminate|]. destruct (n =? "NonZeroUSize"); [discriminate|]. destruct (n =? "NonZeroISize"); [discriminate|].
    repeat split.
  Qed.
  Lemma wrapper_names : forall n, mem_str n (wrappers c) = true ->
    n =? "PhantomData" = false /\ n =? "PhantomPinned" = false /\ PrimitiveType_maybe n = None /\ n <> "Self".
  Proof.
    intros n E. apply mem_In in E. unfold wrappers in E. destruct (Language_eqb (language c) Cxx); cbn in E;
      repeat (destruct E as [<-|E]; [repeat split; discriminate|]); contradiction.
  Qed.

  Lemma wrapped_ok : forall b ident u const nullable x, meant u -> mem_str (unraw ident) (wrappers c) = true ->
    rust_wrapped const nullable (unraw ident) u = Some x ->
    exists ty v, Type_load (SPath (SegPath b ident (AngleArgs [ArgType u]))) = Some (Some ty) /\ opted nullable (simp ty) v /\ good const v x.
  Proof.
    intros b ident u const nullable x M W E. unfold rust_wrapped in E. set (n := unraw ident) in *.
    destruct (wrapper_names _ W) as (N1 & N2 & N3 & N4).
    assert (LD : forall t, Type_load u = Some (Some t) -> Type_load (SPath (SegPath b ident (AngleArgs [ArgType u]))) = Some (Some (TPath (GPath n n [GType t] None)))).
    { intros t L. rewrite load_path. cbv zeta. fold n. rewrite N1, try_skip_cons. cbn [load_arg]. rewrite L. cbn [option_map try_skip_map].
      rewrite N2, N3. reflexivity. }
    destruct (no_size u); [discriminate|].
    assert (LANG : forall m, m = n -> mem_str m ["Box"; "ManuallyDrop"; "MaybeUninit"; "Pin"] = true -> Language_eqb lang Cxx = false).
    { intros m -> B. unfold wrappers in W. destruct (Language_eqb (language c) Cxx) eqn:Q; [|exact Q]. exfalso.
      apply mem_In in B. cbn in B. clearbody n. cbn in W. repeat (destruct B as [<-|B]; [discriminate|]). contradiction. }
    (* a wrapper that is dropped *)
    assert (TRANSP : forall null' y, rust_type c kw self const null' u = Some y -> (forall t, simplify_wrapper lang n t = Some t) ->
      exists ty v, Type_load (SPath (SegPath b ident (AngleArgs [ArgType u]))) = Some (Some ty) /\ opted null' (simp ty) v /\ good const v y).
    { intros null' y Y T. destruct (M _ _ _ Y) as (t & v & L & O & G). eexists. exists v. split; [exact (LD _ L)|].
      rewrite (simp_wrapped n t (simp t) N4 (T _)). split; [exact O|exact G]. }
    destruct (String.eqb_spec n "Option") as [En|No].
    - destruct nullable; [discriminate|]. destruct (M _ _ _ E) as (t & v & L & O & G). cbn [opted] in O.
      eexists. exists v. split; [exact (LD _ L)|]. split; [|exact G]. cbn [opted]. symmetry. apply simp_wrapped; [exact N4|]. rewrite En. exact O.
    - destruct (mem_str n ["NonNull"; "Box"]) eqn:NB.
      + destruct (rust_type c kw self false false u) as [y|] eqn:Y; [|discriminate]. injection E as <-.
        destruct (M _ _ _ Y) as (t & v & L & O & G). cbn [opted] in O. subst v.
        eexists. exists (TPtr (simp t) false nullable false). split; [exact (LD _ L)|]. split; [|apply pointer_good; exact G].
        assert (T : simplify_wrapper lang n (simp t) = Some (TPtr (simp t) false false false)).
        { apply mem_In in NB. destruct NB as [<-|[<-|[]]]; [reflexivity|]. unfold simplify_wrapper.
          rewrite (LANG "Box" eq_refl eq_refl). reflexivity. }
        rewrite (simp_wrapped n t _ N4 T). destruct nullable; reflexivity.
      + destruct (String.eqb_spec n "NonZero") as [En|Nz].
        * destruct u as [| |[b' i a]| | | | | |]; try discriminate. destruct a; try discriminate.
          destruct (lookup (unraw i) (rust_integers c)) as [ws|] eqn:LK; [|discriminate]. injection E as <-.
          destruct (integers_ok _ _ _ LK) as (sg & kd & PM & PR).
          assert (L : Type_load (SPath (SegPath b' i NoArgs)) = Some (Some (TPrim (PInteger true sg kd)))).
          { rewrite load_path. cbv zeta.
            assert (Q : forall z, z = unraw i -> PrimitiveType_maybe z = None -> False) by (intros z -> Z; congruence).
            destruct (String.eqb_spec (unraw i) "PhantomData") as [Z|_]; [exfalso; apply (Q "PhantomData"); auto|].
            destruct (String.eqb_spec (unraw i) "PhantomPinned") as [Z|_]; [exfalso; apply (Q "PhantomPinned"); auto|]. rewrite PM. reflexivity. }
          eexists. exists (TPrim (PInteger nullable sg kd)). split; [exact (LD _ L)|].
          assert (T : simplify_wrapper lang n (simp (TPrim (PInteger true sg kd))) = Some (TPrim (PInteger false sg kd))).
          { rewrite simp_prim, En. reflexivity. }
          rewrite (simp_wrapped n _ _ N4 T). split; [destruct nullable; reflexivity|]. apply prim_good; [apply PR|discriminate].
        * destruct (mem_str n ["ManuallyDrop"; "Pin"]) eqn:MP.
          -- apply (TRANSP nullable x E). intro t. assert (NL : Language_eqb lang Cxx = false).
             { apply (LANG n eq_refl). apply mem_In in MP. destruct MP as [<-|[<-|[]]]; reflexivity. }
             apply mem_In in MP. unfold simplify_wrapper. destruct MP as [<-|[<-|[]]]; rewrite NL; reflexivity.
          -- destruct nullable; [discriminate|]. apply (TRANSP false x E). intro t.
             assert (C1 : mem_str n ["Cell"; "UnsafeCell"; "SyncUnsafeCell"] = true \/ (n = "MaybeUninit")).
             { clearbody n. apply mem_In in W. unfold wrappers in W. destruct (Language_eqb (language c) Cxx); cbn in W;
               repeat (destruct W as [<-|W]; [first [left; reflexivity | right; reflexivity | discriminate | contradiction]|]); contradiction. }
             destruct C1 as [C1|C1].
             ++ apply mem_In in C1. destruct C1 as [<-|[<-|[<-|[]]]]; reflexivity.
             ++ rewrite C1. unfold simplify_wrapper. rewrite (LANG "MaybeUninit"); [reflexivity|symmetry; exact C1|reflexivity].
  Qed.

  Theorem types_meant : forall t, meant t.
  Proof.
    apply sty_ind'.
    - intros m u IH const nullable x E. cbn [rust_type] in E.
      destruct (if no_size u then _ else _) as [y|] eqn:Y in E; [|discriminate]. injection E as <-.
      destruct (target_good _ _ _ IH Y) as (ty & L & G). cbn [Type_load]. rewrite L.
      eexists. exists (TPtr (simp ty) (negb m) nullable false). split; [reflexivity|]. rewrite simp_ptr. split; [destruct nullable; reflexivity|].
      apply pointer_good. exact G.
    - intros m u IH const nullable x E. cbn [rust_type] in E. destruct nullable; [discriminate|].
      destruct (if no_size u then _ else _) as [y|] eqn:Y in E; [|discriminate]. injection E as <-.
      destruct (target_good _ _ _ IH Y) as (ty & L & G). cbn [Type_load]. rewrite L.
      eexists. exists (TPtr (simp ty) (negb m) true false). split; [reflexivity|]. rewrite simp_ptr. split; [reflexivity|].
      apply pointer_good. exact G.
    - intros b i a HA const nullable x E. rewrite path_unfold in E. cbv zeta in E.
      destruct (mem_str (unraw i) (wrappers c)) eqn:W.
      + destruct a as [|[|[u| | |] [|]]|]; try discriminate. cbn [args_hold] in HA. inversion HA as [|? ? HU]; subst.
        exact (wrapped_ok b i u const nullable x HU W E).
      + destruct nullable.
        * destruct a; try discriminate. destruct (lookup (unraw i) rust_nonzero) as [ws|] eqn:LK; [|discriminate]. injection E as <-.
          destruct (nonzero_ok c _ _ LK) as (sg & kd & PM & PR). rewrite load_path. cbv zeta.
          assert (Q : forall z, z = unraw i -> PrimitiveType_maybe z = None -> False) by (intros z -> Z; congruence).
          destruct (String.eqb_spec (unraw i) "PhantomData") as [Z|_]; [exfalso; apply (Q "PhantomData"); auto|].
          destruct (String.eqb_spec (unraw i) "PhantomPinned") as [Z|_]; [exfalso; apply (Q "PhantomPinned"); auto|]. rewrite PM.
          eexists. exists (TPrim (PInteger true sg kd)). split; [reflexivity|]. rewrite simp_prim. split; [reflexivity|].
          apply prim_good; [apply PR|discriminate].
        * destruct (lookup (unraw i) (rust_primitives c)) as [ws|] eqn:LK.
          -- destruct a; try discriminate. injection E as <-. destruct (primitives_ok _ _ _ LK) as (p & PM & PR & PV). rewrite load_path. cbv zeta.
             assert (Q : forall z, z = unraw i -> PrimitiveType_maybe z = None -> False) by (intros z -> Z; congruence).
             destruct (String.eqb_spec (unraw i) "PhantomData") as [Z|_]; [exfalso; apply (Q "PhantomData"); auto|].
             destruct (String.eqb_spec (unraw i) "PhantomPinned") as [Z|_]; [exfalso; apply (Q "PhantomPinned"); auto|]. rewrite PM.
             eexists. exists (TPrim p). split; [reflexivity|]. rewrite simp_prim. split; [reflexivity|]. apply prim_good; assumption.
          -- destruct (match a with NoArgs => Some [] | AngleArgs l => rust_arguments l | ParenArgs => None end) as [xs|] eqn:AR; [|discriminate].
             assert (AL : exists ts, (match a with AngleArgs l => try_skip_map load_arg l | ParenArgs => None | NoArgs => Some [] end) = Some (map GType ts) /\
               map (fun t => c_type c false (fin (simp t))) ts = xs /\ forallb (fun t => declarable c (fin (simp t))) ts = true).
             { destruct a as [|l|]; try discriminate; [|exact (arguments_ok l HA xs AR)].
               injection AR as <-. exists []. repeat split. }
             destruct AL as (ts & LA & A & D).
             assert (FIN : forall m, m = self_name self (unraw i) -> named c kw const m xs = Some x ->
               (unraw i <> "Self" \/ ts = []) -> (ts = [] \/ language c = Cxx) ->
               unraw i =? "PhantomData" = false /\ unraw i =? "PhantomPinned" = false /\ mem_str (unraw i) ["VaList"; "NonZeroUSize"; "NonZeroISize"] = false ->
               exists ty v, Type_load (SPath (SegPath b i a)) = Some (Some ty) /\ opted false (simp ty) v /\ good const v x).
             { intros m EM NM NS TS (N1 & N2 & N3). rewrite load_path. cbv zeta. rewrite N1, LA, N2, (not_primitive c _ LK N3).
               eexists. eexists. split; [reflexivity|]. split; [reflexivity|]. unfold GenericPath_new. rewrite (simp_named _ ts W NS), <- EM.
               rewrite <- (map_map simp GType). apply named_good.
               - destruct TS as [->|TS]; [left; reflexivity|right; exact TS].
               - rewrite map_map, A. exact NM.
               - rewrite <- D. clear. induction ts as [|t ts IH]; [reflexivity|]. cbn. rewrite IH. reflexivity. }
             assert (SELF : forall z w, named c kw const z xs = Some w -> self_name self (unraw i) = z ->
               unraw i =? "PhantomData" = false /\ unraw i =? "PhantomPinned" = false /\ mem_str (unraw i) ["VaList"; "NonZeroUSize"; "NonZeroISize"] = false).
             { intros z w Q <-. unfold self_name in Q. destruct self as [sf|]; [|exact (named_proper _ _ _ _ Q)].
               destruct (String.eqb_spec (unraw i) "Self") as [->|_]; [repeat split|exact (named_proper _ _ _ _ Q)]. }
             destruct (is_nil xs) eqn:NX.
             ++ destruct xs; [|discriminate]. destruct ts; [|discriminate]. apply (FIN _ eq_refl E); auto. exact (SELF _ _ E eq_refl).
             ++ destruct (Language_eqb (language c) Cxx) eqn:LC; [|discriminate]. destruct (String.eqb_spec (unraw i) "Self") as [_|NS]; [discriminate|].
                cbn in E. assert (SN : self_name self (unraw i) = unraw i).
                { unfold self_name. destruct self; [|reflexivity]. rewrite (proj2 (String.eqb_neq _ _) NS). reflexivity. }
                apply (FIN (unraw i)); auto. { right. exact (cxx_eqb _ LC). } exact (SELF _ _ E SN).
    - intros u e IH const nullable x E. cbn [rust_type] in E. destruct nullable; [discriminate|]. cbn [orb] in E.
      destruct (no_size u); [discriminate|]. destruct (rust_type c kw self const false u) as [y|] eqn:Y; [|discriminate].
      destruct (rust_length c e) as [n|] eqn:LN; [|discriminate]. injection E as <-.
      destruct (IH _ _ _ Y) as (ty & v & L & O & G1 & G2 & G3). cbn in O. subst v. destruct (length_ok _ _ LN) as (ce & L1 & L2 & L3).
      cbn [Type_load]. rewrite L. rewrite L1. eexists. eexists. split; [reflexivity|]. split; [reflexivity|].
      rewrite simp_arr. unfold good. rewrite fin_arr. cbn [c_type declarable no_function_pointer]. rewrite L2, G1, G2, L3. repeat split. exact G3.
    - intros l v o FL HO const nullable x E. cbn [rust_type] in E.
      change (fix params (wildcards : nat) (l0 : list (option string * sty)) {struct l0} : option (list (option string * ctype)) := _) with (rust_params v) in E.
      destruct const; [discriminate|]. cbn [orb] in E.
      destruct (nullable || plain_function_pointers c) eqn:PF; [|discriminate]. cbn [negb] in E.
      destruct (rust_params v 0 l) as [ps|] eqn:PS; [|discriminate]. destruct (params_ok v l FL _ _ PS) as (args & LA & A & D).
      destruct (match o with Some SNever => _ | Some u => _ | None => _ end) as [rt|] eqn:RT in E; [|discriminate].
      destruct (is_array_type rt) eqn:AT; [discriminate|]. injection E as <-.
      assert (R : exists rty, (match o with
                | None => Some (TPrim PVoid, false)
                | Some SNever => Some (TPrim PVoid, true)
                | Some u => let? c := (let? c := Type_load u in Some (match c with Some x => x | None => TPrim PVoid end)) in Some (c, false)
                end) = Some (rty, match o with Some SNever => true | _ => false end) /\ good false (simp rty) rt).
      { assert (K : forall u, o = Some u -> u <> SNever -> (if no_size u then Some (void_type false) else rust_type c kw self false false u) = Some rt -> 
          exists rty, (let? c := (let? c := Type_load u in Some (match c with Some x => x | None => TPrim PVoid end)) in Some (c, false)) = Some (rty, false) /\ good false (simp rty) rt).
        { intros u -> NV Q. destruct (target_good u false rt HO Q) as (rty & L & G). rewrite L. exists rty. split; [reflexivity|exact G]. }
        assert (VOID : Some (void_type false) = Some rt -> good false (simp (TPrim PVoid)) rt).
        { intro Q. injection Q as <-. rewrite simp_prim. apply void_good. }
        destruct o as [u|]; [|exists (TPrim PVoid); split; [reflexivity|exact (VOID RT)]].
        destruct u; try (apply (K _ eq_refl); [discriminate|exact RT]). exists (TPrim PVoid); split; [reflexivity|exact (VOID RT)]. }
      destruct R as (rty & LR & G1 & G2 & _). cbn [Type_load].
      change (fun a : option string * sty => match Type_load (snd a) with Some c => Some (option_map (pair (fst a)) c) | None => None end) with load_param.
      rewrite LA. rewrite LR. cbn [fst snd]. set (nv := match o with Some SNever => true | _ => false end) in *.
      eexists. eexists. split; [reflexivity|]. rewrite simp_fn.
      instantiate (1 := TFuncPtr (simp rty) (map (fun a => (fst a, simp (snd a))) (name_wildcards 0 args ++ if v then [(None, TPrim PVaList)] else [])%list) nullable nv).
      split; [destruct nullable; reflexivity|].
      unfold good. rewrite fin_fn. fold (spoken (name_wildcards 0 args ++ if v then [(None, TPrim PVaList)] else [])%list).
      split; [cbn [c_type]; rewrite A, G1; reflexivity|]. split; [|discriminate].
      cbn [declarable]. rewrite G2, PF, D.
      assert (NA : S_Decl.is_array (fin (simp rty)) = false).
      { destruct (S_Decl.is_array (fin (simp rty))) eqn:Q; [|reflexivity]. rewrite <- G1, (array_is _ _ Q) in AT. discriminate. }
      rewrite NA. reflexivity.
    - intros l const nullable x E. discriminate.
    - intros const nullable x E. discriminate.
    - intros const nullable x E. discriminate.
    - intros const nullable x E. discriminate.
  Qed.

  (** ** Functions *)
  Variable argument_name : string -> string.
  Definition told (a : FunctionArgument) : FunctionArgument :=
    {| a_name := option_map argument_name (a_name a); a_ty := fin (simp (a_ty a)); a_array_length := None |}.
  Definition pairs (l : list FunctionArgument) : list (option string * Ty) := map (fun a => (a_name a, a_ty a)) l.
  Lemma good_not_va : forall k t x, good k (simp t) x -> is_va_list t = false.
  Proof. intros k t x (_ & D & _). destruct t as [| |[]| |]; try reflexivity. rewrite simp_prim, fin_prim in D. discriminate. Qed.
  Lemma good_not_array : forall k t x, good k (simp t) x -> is_array_type x = false -> M_Loader.is_array t = false.
  Proof.
    intros k t x (A & _ & _) N. destruct t; try reflexivity. rewrite simp_arr, fin_arr in A. subst x. discriminate.
  Qed.
  Lemma self_good : forall k n x, self = Some n -> named c kw k n [] = Some x -> good k (simp (TPath self_path)) x.
  Proof.
    intros k n x S0 E. change (TPath self_path) with (TPath (GPath "Self" "Self" (map GType []) None)).
    assert (W : mem_str "Self" (wrappers c) = false). { unfold wrappers. destruct (Language_eqb (language c) Cxx); reflexivity. }
    rewrite (simp_named "Self" [] W (or_intror eq_refl)). unfold self_name. rewrite S0. cbn [String.eqb Ascii.eqb Bool.eqb].
    apply (named_good k n [] x (or_introl eq_refl) E eq_refl).
  Qed.
  Lemma parameters_ok : forall variadic l xs, rust_parameters c kw self argument_name l variadic = Some xs ->
    exists args, try_skip_map as_argument l = Some args /\
      let all := map told (args ++ if variadic then [argument None (TPrim PVaList)] else [])%list in
      map (c_param c) all = xs /\ declarable_params c (declarable c) (pairs all) = true.
  Proof.
    intros variadic l. induction l as [|a r IH]; intros xs E.
    - injection E as <-. exists []. split; [reflexivity|]. destruct variadic; [|split; reflexivity].
      cbn [app map]. unfold told. cbn [a_name a_ty argument option_map]. rewrite simp_prim, fin_prim. split; reflexivity.
    - rewrite try_skip_cons.
      assert (STEP : forall name ty y x ys, parameter c (option_map argument_name name) y = Some x -> good false (simp ty) y ->
        rust_parameters c kw self argument_name r variadic = Some ys -> as_argument a = Some (Some (argument name ty)) -> xs = x :: ys ->
        exists args, (let? o := as_argument a in let? ys := try_skip_map as_argument r in Some (match o with Some y => y :: ys | None => ys end)) = Some args /\
        let all := map told (args ++ if variadic then [argument None (TPrim PVaList)] else [])%list in
        map (c_param c) all = xs /\ declarable_params c (declarable c) (pairs all) = true).
      { intros name ty y x ys P G R LA ->. destruct (IH _ R) as (args & L & A & D). rewrite LA, L. exists (argument name ty :: args). split; [reflexivity|].
        destruct (params_cons _ (simp ty) y x _ P G D) as (D' & EP). cbn [app map pairs]. split; [|exact D'].
        rewrite EP. f_equal. exact A. }
      destruct a as [p u|k]; cbn [rust_parameters] in E. all: swap 1 2.
      + destruct (match k with RecvRef m => _ | _ => _ end) as [y|] eqn:Y in E; [|discriminate].
        destruct (parameter c _ y) as [x|] eqn:P; [|discriminate].
        destruct (rust_parameters c kw self argument_name r variadic) as [ys|] eqn:R; [|discriminate]. injection E as <-.
        assert (G : exists ty, gen_self_type k = Some ty /\ good false (simp ty) y).
        { unfold self_parameter in Y. destruct k as [m|u| |]; try discriminate.
          - destruct self as [s0|] eqn:S0; [|discriminate]. destruct (named c kw (negb m) s0 []) as [z|] eqn:NM; [|discriminate]. injection Y as <-.
            eexists. split; [reflexivity|]. rewrite simp_ptr. apply pointer_good. exact (self_good _ _ _ S0 NM).
          - assert (Q : (if no_size u then None else rust_value c kw self u) = Some y) by (destruct u; try discriminate; exact Y).
            destruct (no_size u); [discriminate|]. destruct (types_meant u _ _ _ Q) as (ty & v & L & O & G). cbn in O. subst v.
            exists ty. split; [|exact G]. cbn [gen_self_type]. rewrite L. destruct u; try reflexivity. discriminate.
          - destruct self as [s0|] eqn:S0; [|discriminate]. eexists. split; [reflexivity|]. exact (self_good _ _ _ S0 Y). }
        destruct G as (ty & GS & G). apply (STEP (Some "self") ty y x ys P G eq_refl); [|reflexivity]. cbn [as_argument]. rewrite GS. reflexivity.
      + destruct (no_size u) eqn:N.
        * destruct (IH _ E) as (args & L & R). exists args. cbn [as_argument]. rewrite (no_size_load _ N), L. split; [reflexivity|exact R].
        * destruct (match p with PatIdent i => _ | PatWild => _ | PatOther => _ end) as [nm|] eqn:NM in E; [|discriminate].
          destruct (rust_value c kw self u) as [y|] eqn:Y; [|discriminate]. destruct (parameter c nm y) as [x|] eqn:P; [|discriminate].
          destruct (rust_parameters c kw self argument_name r variadic) as [ys|] eqn:R; [|discriminate]. injection E as <-.
          destruct (types_meant u _ _ _ Y) as (ty & v & L & O & G). cbn in O. subst v.
          assert (NA : is_array_type y = false).
          { unfold parameter in P. destruct (usable_name c nm); [|discriminate]. destruct (is_void_type y); [discriminate|].
            destruct (is_array_type y); [discriminate|reflexivity]. }
          apply (STEP (match p with PatIdent i => Some (unraw i) | _ => None end) ty y x ys); auto.
          -- destruct p; try discriminate; injection NM as <-; exact P.
          -- cbn [as_argument]. rewrite L, (good_not_array _ _ _ G NA). destruct p; try discriminate; [reflexivity|]. rewrite (good_not_va _ _ _ G). reflexivity.
  Qed.
  Lemma result_ok : forall o x, rust_result c kw self o = Some x ->
    exists ty, Type_load_from_output o = Some (ty, match o with Some SNever => true | _ => false end) /\ good false (simp ty) x /\ is_array_type x = false.
  Proof.
    intros o x E.
    assert (VOID : Some (void_type false) = Some x -> good false (simp (TPrim PVoid)) x /\ is_array_type x = false).
    { intro Q. injection Q as <-. rewrite simp_prim. split; [apply void_good|reflexivity]. }
    assert (K : forall u, (if no_size u then Some (void_type false)
                else let? x := rust_value c kw self u in if is_array_type x then None else Some x) = Some x ->
      exists ty, (let? c := Type_load u in Some (match c with Some x => x | None => TPrim PVoid end, false)) = Some (ty, false) /\ good false (simp ty) x /\ is_array_type x = false).
    { intros u Q. destruct (no_size u) eqn:N.
      - rewrite (no_size_load _ N). eexists. split; [reflexivity|exact (VOID Q)].
      - destruct (rust_value c kw self u) as [y|] eqn:Y; [|discriminate]. destruct (is_array_type y) eqn:AT; [discriminate|]. injection Q as <-.
        destruct (types_meant u _ _ _ Y) as (ty & v & L & O & G). cbn in O. subst v. rewrite L. exists ty. repeat split; try exact AT; apply G. }
    destruct o as [u|]; [|eexists; split; [reflexivity|exact (VOID E)]].
    destruct u; try (match type of E with rust_result _ _ _ (Some ?t) = _ => exact (K t E) end). eexists; split; [reflexivity|exact (VOID E)].
  Qed.
  (** A signature with a C type is loaded; and then: *)
  Lemma function_ok : forall path sig ct ext attrs mc ann, rust_function c kw self argument_name sig = Some ct ->
    AnnotationSet_load attrs = Some ann -> usable c path = true ->
    exists f, Function_load path self sig ext attrs mc = Some f /\ f_path f = path /\ f_annotations f = ann /\
      let f1 := Function_simplify lang f in
      let f' := set_f_types (fin (f_ret f1)) (map (fun a => {| a_name := option_map argument_name (a_name a); a_ty := fin (a_ty a); a_array_length := None |}) (f_args f1)) f1 in
      c_function c f' = ct /\ declarable_function c f' = true.
  Proof.
    intros path sig ct ext attrs mc ann E LA U. unfold rust_function in E.
    destruct (rust_parameters _ _ _ _ _ _) as [ps|] eqn:PS; [|discriminate]. destruct (rust_result _ _ _ _) as [rt|] eqn:RT; [|discriminate]. injection E as <-.
    destruct (parameters_ok _ _ _ PS) as (args & L & A & D). destruct (result_ok _ _ RT) as (ty & LR & (G1 & G2 & _) & NA).
    unfold Function_load. rewrite L, LR, LA. eexists. split; [reflexivity|]. split; [reflexivity|]. split; [reflexivity|]. cbv zeta.
    unfold c_function, declarable_function, Function_simplify, map_f_types, set_f_types. cbn [f_path f_ret f_args f_never_return fst snd].
    assert (EQ : forall l, map (fun a => {| a_name := option_map argument_name (a_name a); a_ty := fin (a_ty a); a_array_length := None |})
       (map (map_a_ty (simplify_standard_types lang)) (map (map_a_ty (fun t => match self with Some p => replace_self_with p t | None => t end)) l)) = map told l).
    { intro l. rewrite !map_map. apply map_ext. intro a. reflexivity. }
    rewrite EQ. cbv zeta in A, D.
    change (simplify_standard_types lang (match self with Some p => replace_self_with p ty | None => ty end)) with (simp ty).
    split; [rewrite A, G1; reflexivity|].
    assert (NA' : S_Decl.is_array (fin (simp ty)) = false).
    { destruct (S_Decl.is_array (fin (simp ty))) eqn:Q; [|reflexivity]. rewrite <- G1, (array_is _ _ Q) in NA. discriminate. }
    fold (pairs (map told (args ++ if sg_variadic sig then [argument None (TPrim PVaList)] else [])%list)).
    rewrite U, G2, NA', D. cbn [andb negb]. rewrite forallb_forall. intros a Ha. apply in_map_iff in Ha as (b0 & <- & _). reflexivity.
  Qed.
End Meaning.
