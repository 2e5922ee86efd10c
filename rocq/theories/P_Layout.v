(** Layouts in Rust and in C are the same. *)
Require Import Coq.Strings.String Coq.Strings.Ascii Coq.Lists.List Coq.Bool.Bool Coq.Arith.Arith Coq.NArith.NArith Coq.micromega.Lia Coq.Numbers.DecimalN Coq.Numbers.DecimalString.
From Verif Require Import Base P_Base M_Config M_Cfg S_Cfg P_Cfg M_Type M_Ir M_Attr M_Syn S_Decl M_Loader M_Library M_Bindings S_Library S_Names S_Parse S_Sources S_Signature S_Datatypes S_Enums P_Library P_Value P_Sources P_Made P_Datatypes P_Enums S_Layout M_Parser.
Import ListNotations.
Open Scope string_scope.

(** ** Arithmetic *)
Section Arithmetic.
  Local Open Scope N_scope.
  Lemma up_one : forall n, up n 1 = n.
  Proof. intro n. unfold up. rewrite N.add_0_r, N.div_1_r, N.mul_1_r. reflexivity. Qed.
  Lemma up_le : forall n a, n <= up n a.
  Proof.
    intros n [|p]; [apply N.le_refl|]. unfold up. set (a := N.pos p). assert (A : 1 <= a) by (unfold a; lia). clearbody a. pose proof (N.div_mod (n + (a - 1)) a ltac:(lia)) as D. pose proof (N.mod_lt (n + (a - 1)) a ltac:(lia)) as M.
    rewrite (N.mul_comm _ a). lia.
  Qed.
  Lemma up_zero : forall a, up 0 a = 0.
  Proof. intros [|p]; [reflexivity|]. unfold up. rewrite N.add_0_l, N.div_small by lia. reflexivity. Qed.
  Lemma largest_app : forall l r k, largest (l ++ r) k = N.max (largest l k) (largest r k).
  Proof.
    unfold largest. induction l as [|x l IH]; intros r k; cbn [fold_right app]; [|rewrite IH; lia].
    assert (K : k <= fold_right N.max k r) by (induction r as [|y r IHr]; cbn [fold_right]; lia). lia.
  Qed.
  Lemma largest_least : forall l k, k <= largest l k.
  Proof. unfold largest. induction l as [|x l IH]; intro k; cbn [fold_right]; [lia|]. specialize (IH k). lia. Qed.
  Lemma largest_cons : forall x l k, largest (x :: l) k = N.max x (largest l k). Proof. reflexivity. Qed.
  Lemma place_end : forall packed l from, from <= snd (place packed from l).
  Proof.
    intros packed. induction l as [|[s a] l IH]; intro from; cbn [place]; [cbn; lia|]. destruct (place packed _ l) as [o e] eqn:E. cbn [snd].
    specialize (IH ((if packed then from else up from a) + s)). rewrite E in IH. cbn [snd] in IH. destruct packed; [lia|]. pose proof (up_le from a). lia.
  Qed.
  (** Markers take no room. *)
  Definition markers_empty (fs : list sfield) (ls : list (N * N)) : Prop := Forall2 (fun f l => sizeless (sf_ty f) = true -> l = (0, 1)) fs ls.
  Lemma place_members : forall packed fs ls from, markers_empty fs ls ->
    place packed from (members_only fs ls) = (members_only fs (fst (place packed from ls)), snd (place packed from ls)).
  Proof.
    intros packed fs ls from M. revert from. induction M as [|f [s a] fs ls Z M IH]; intro from; [reflexivity|]. cbn [members_only place].
    destruct (sizeless (sf_ty f)) eqn:SZ.
    - specialize (Z eq_refl). injection Z as -> ->. assert (Q : (if packed then from else up from 1) + 0 = from) by (rewrite up_one; destruct packed; lia).
      rewrite Q, IH. destruct (place packed from ls) as [o e]. cbn [fst snd members_only]. try rewrite SZ. reflexivity.
    - cbn [place]. rewrite IH. destruct (place packed _ ls) as [o e]. cbn [fst snd members_only]. try rewrite SZ. reflexivity.
  Qed.
  Lemma largest_members : forall fs ls, markers_empty fs ls -> largest (map snd (members_only fs ls)) 1 = largest (map snd ls) 1.
  Proof.
    intros fs ls M. induction M as [|f [s a] fs ls Z M IH]; [reflexivity|]. cbn [members_only map snd]. destruct (sizeless (sf_ty f)) eqn:SZ.
    - specialize (Z eq_refl). injection Z as -> ->. rewrite largest_cons, IH. pose proof (largest_least (map snd ls) 1). lia.
    - cbn [map snd]. rewrite !largest_cons, IH. reflexivity.
  Qed.
  Lemma sizes_members : forall fs ls, markers_empty fs ls -> largest (map fst (members_only fs ls)) 0 = largest (map fst ls) 0.
  Proof.
    intros fs ls M. induction M as [|f [s a] fs ls Z M IH]; [reflexivity|]. cbn [members_only map fst]. destruct (sizeless (sf_ty f)) eqn:SZ.
    - specialize (Z eq_refl). injection Z as -> ->. rewrite largest_cons, IH. lia.
    - cbn [map fst]. rewrite !largest_cons, IH. reflexivity.
  Qed.
  Lemma alignment_members : forall asked fs ls, markers_empty fs ls -> alignment_of asked (members_only fs ls) = alignment_of asked ls.
  Proof. intros [[|n]|] fs ls M; cbn [alignment_of]; rewrite ?(largest_members fs ls M); reflexivity. Qed.
  Lemma struct_members_layout : forall asked fs ls, markers_empty fs ls ->
    struct_layout asked (members_only fs ls) = (members_only fs (fst (struct_layout asked ls)), snd (struct_layout asked ls)).
  Proof.
    intros asked fs ls M. unfold struct_layout. rewrite (place_members _ _ _ _ M), (alignment_members _ _ _ M). destruct (place (packed asked) 0 ls) as [o e]. reflexivity.
  Qed.
  Lemma union_members_layout : forall asked fs ls, markers_empty fs ls -> union_layout asked (members_only fs ls) = union_layout asked ls.
  Proof. intros asked fs ls M. unfold union_layout. rewrite (alignment_members _ _ _ M), (sizes_members _ _ M). reflexivity. Qed.
  (** A struct that starts with a tag is not smaller than the tag. *)
  Lemma tagged_size : forall t ls, fst t <= fst (snd (struct_layout None (t :: ls))) /\ snd t <= snd (snd (struct_layout None (t :: ls))).
  Proof.
    intros [s a] ls. unfold struct_layout. cbn [packed place]. rewrite up_zero, N.add_0_l. pose proof (place_end false ls s) as P. destruct (place false s ls) as [o e].
    cbn [fst snd] in P |- *. split.
    - pose proof (up_le e (alignment_of None ((s, a) :: ls))). lia.
    - cbn [alignment_of map snd]. rewrite largest_cons. lia.
  Qed.
  Lemma tagged_members : forall t fs ls, markers_empty fs ls -> snd (struct_layout None (t :: members_only fs ls)) = snd (struct_layout None (t :: ls)).
  Proof.
    intros [s a] fs ls M. unfold struct_layout. cbn [packed place]. rewrite (place_members _ _ _ _ M). destruct (place false _ ls) as [o e]. cbn [fst snd alignment_of map].
    rewrite !largest_cons, (largest_members fs ls M). reflexivity.
  Qed.
  Lemma whole_alone : forall t, whole t -> snd (struct_layout None [t]) = t /\ union_layout None [t] = t.
  Proof.
    intros [s a] [A U]. cbn [fst snd] in A, U. unfold struct_layout, union_layout. cbn [packed place alignment_of map fst snd]. unfold largest. cbn [fold_right].
    rewrite up_zero, N.add_0_l, (N.max_l a 1) by lia. rewrite (N.max_l s 0) by lia. rewrite U. split; reflexivity.
  Qed.
  (** Leaving out layouts that are all the same *)
  Inductive without (x : N * N) : list (N * N) -> list (N * N) -> Prop :=
  | wo_nil : without x [] []
  | wo_keep : forall l ls r, without x ls r -> without x (l :: ls) (l :: r)
  | wo_drop : forall ls r, without x ls r -> without x (x :: ls) r.
  Lemma without_empty : forall ls r, without (0, 1) ls r -> union_layout None ls = union_layout None r.
  Proof.
    assert (K : forall ls r, without (0, 1) ls r -> largest (map fst ls) 0 = largest (map fst r) 0 /\ largest (map snd ls) 1 = largest (map snd r) 1).
    { intros ls r W. induction W as [|[s a] ls r W [I1 I2]|ls r W [I1 I2]]; [split; reflexivity| |]; cbn [map fst snd]; rewrite !largest_cons, I1, I2; [split; reflexivity|].
      pose proof (largest_least (map snd r) 1). split; lia. }
    intros ls r W. destruct (K _ _ W) as [A B]. unfold union_layout. cbn [alignment_of]. rewrite A, B. reflexivity.
  Qed.
  Lemma without_tag : forall t ls r, without t ls r -> Forall (fun l => fst t <= fst l /\ snd t <= snd l) ls -> ls <> [] -> union_layout None ls = union_layout None (t :: r).
  Proof.
    intros t ls r W F NE.
    assert (K : N.max (fst t) (largest (map fst ls) 0) = N.max (fst t) (largest (map fst r) 0) /\ N.max (snd t) (largest (map snd ls) 1) = N.max (snd t) (largest (map snd r) 1)).
    { clear F NE. induction W as [|l ls r W [I1 I2]|ls r W [I1 I2]]; [split; reflexivity| |]; cbn [map]; rewrite !largest_cons; lia. }
    assert (L : fst t <= largest (map fst ls) 0 /\ snd t <= largest (map snd ls) 1).
    { destruct F as [|l ls [F1 F2] F]; [contradiction|]. cbn [map]. rewrite !largest_cons. lia. }
    unfold union_layout. cbn [alignment_of map]. rewrite !largest_cons. destruct K as [<- <-]. rewrite !N.max_r by apply L. reflexivity.
  Qed.
End Arithmetic.

(** ** Scalars *)
Definition scalar_words : list string :=
  ["bool"; "char"; "f32"; "f64"; "u8"; "u16"; "u32"; "u64"; "usize"; "i8"; "i16"; "i32"; "i64"; "isize";
   "NonZeroU8"; "NonZeroU16"; "NonZeroU32"; "NonZeroU64"; "NonZeroI8"; "NonZeroI16"; "NonZeroI32"; "NonZeroI64";
   "c_char"; "c_schar"; "c_uchar"; "c_short"; "c_ushort"; "c_int"; "c_uint"; "c_long"; "c_ulong"; "c_longlong"; "c_ulonglong"; "c_float"; "c_double";
   "uint8_t"; "uint16_t"; "uint32_t"; "uint64_t"; "uintptr_t"; "int8_t"; "int16_t"; "int32_t"; "int64_t"; "intptr_t"; "size_t"; "ssize_t"; "ptrdiff_t"; "RawFd"].
Lemma lookup_key : forall A n (t : list (string * A)) x, lookup n t = Some x -> In n (map fst t).
Proof.
  intros A n t x. induction t as [|[k y] t IH]; cbn [lookup map fst In]; [discriminate|]. destruct (String.eqb n k) eqn:E; [apply String.eqb_eq in E; auto|auto].
Qed.
Lemma scalar_key : forall m n l, lookup n (rust_scalars m) = Some l -> In n scalar_words.
Proof. intros m n l L. exact (lookup_key _ _ _ _ L). Qed.
Lemma scalar_same : forall m c n l, lookup n (rust_scalars m) = Some l ->
  exists words, lookup n (rust_primitives c) = Some words /\ c_scalar m words = Some l /\ (forall w, lookup n rust_nonzero = Some w -> w = words) /\ mem_str n (wrappers c) = false.
Proof.
  intros m c n l L. pose proof (scalar_key _ _ _ L) as I.
  assert (WC : mem_str n (wrappers c) = false).
  { unfold wrappers. clear L. destruct (Language_eqb (language c) Cxx); revert n I; apply Forall_forall; repeat (apply Forall_cons; [reflexivity|]); apply Forall_nil. }
  unfold rust_primitives, rust_integers. destruct (usize_is_size_t c);
    cbn [In scalar_words] in I; repeat (destruct I as [<-|I]; [cbv in L; injection L as <-; eexists; split; [reflexivity|split; [reflexivity|split; [vm_compute; intros w E; congruence|exact WC]]]|]); destruct I.
Qed.

(** ** The C type of a path *)
Lemma path_type : forall c kw self const nullable q ident args ct, rust_type c kw self const nullable (SPath (SegPath q ident args)) = Some ct ->
  (mem_str (unraw ident) (wrappers c) = true /\ exists u, args = AngleArgs [ArgType u] /\ no_size u = false /\
     (unraw ident = "Option" /\ rust_type c kw self const true u = Some ct
      \/ In (unraw ident) owning_words /\ (exists p x, ct = CPtr false p x)
      \/ unraw ident = "NonZero" /\ (exists p i words, u = SPath (SegPath p i NoArgs) /\ lookup (unraw i) (rust_integers c) = Some words /\ ct = CName const None words [])
      \/ In (unraw ident) transparent_words /\ exists nullable', rust_type c kw self const nullable' u = Some ct))
  \/ (mem_str (unraw ident) (wrappers c) = false /\
      (args = NoArgs /\ (exists words, (lookup (unraw ident) rust_nonzero = Some words \/ lookup (unraw ident) (rust_primitives c) = Some words) /\ ct = CName const None words [])
       \/ lookup (unraw ident) (rust_primitives c) = None
          /\ (lifetimes_only args = true /\ named c kw const (self_name self (unraw ident)) [] = Some ct \/ exists xs, xs <> [] /\ named c kw const (unraw ident) xs = Some ct))).
Proof.
  intros c kw self const nullable q ident args ct T. cbn [rust_type] in T. destruct (mem_str (unraw ident) (wrappers c)) eqn:W.
  - left. split; [reflexivity|]. destruct args as [|[|[u| | |] [|]]|]; try discriminate T. exists u. split; [reflexivity|]. destruct (no_size u); [discriminate T|]. split; [reflexivity|].
    destruct (String.eqb_spec (unraw ident) "Option") as [O|O]; [left; split; [exact O|destruct nullable; [discriminate T|exact T]]|right].
    destruct (mem_str (unraw ident) ["NonNull"; "Box"]) eqn:M.
    { left. split.
      - apply mem_str_In in M. exact M.
      - destruct (rust_type c kw self false false u); [injection T as <-; eauto|discriminate T]. }
    right. destruct (String.eqb_spec (unraw ident) "NonZero") as [Z|Z].
    { left. split; [exact Z|]. destruct u as [| |[p i [| |]]| | | | | |]; try discriminate T. destruct (lookup (unraw i) (rust_integers c)) as [words|] eqn:L; [|discriminate T]. injection T as <-. eauto 8. }
    right.
    assert (N : In (unraw ident) transparent_words).
    { apply mem_str_In in W. unfold wrappers in W. destruct (Language_eqb (language c) Cxx); cbn [app In] in W;
        repeat (destruct W as [W|W]; [rewrite <- W in *; first [discriminate M|contradiction|cbn; auto 8]|]); destruct W. }
    split; [exact N|]. destruct (mem_str (unraw ident) ["ManuallyDrop"; "Pin"]); [exists nullable; exact T|]. destruct nullable; [discriminate T|]. exists false. exact T.
  - right. split; [reflexivity|]. destruct nullable.
    { left. destruct args; try discriminate T. split; [reflexivity|]. destruct (lookup (unraw ident) rust_nonzero) as [words|]; [|discriminate T]. injection T as <-. eauto. }
    destruct (lookup (unraw ident) (rust_primitives c)) as [words|] eqn:L.
    { left. destruct args; try discriminate T. injection T as <-. split; [reflexivity|]. eauto. }
    right. split; [reflexivity|].
    match type of T with match ?o with _ => _ end = _ => destruct o as [xs|] eqn:XS; [|discriminate T] end.
    destruct xs as [|x xs]; cbn [is_nil] in T.
    { left. split; [|exact T]. clear T. destruct args as [|l|]; [reflexivity| |discriminate XS]. cbn [lifetimes_only]. induction l as [|[t| | |] l IH]; [reflexivity| |exact (IH XS)|discriminate XS..].
      destruct (no_size t); [discriminate XS|]. destruct (rust_type c kw self false false t); [|discriminate XS]. match type of XS with match ?o with _ => _ end = _ => destruct o; discriminate XS end. }
     destruct (Language_eqb (language c) Cxx && _)%bool; [|discriminate T]. right. exists (x :: xs). split; [discriminate|exact T].
Qed.
Lemma integer_primitive : forall c n words, lookup n (rust_integers c) = Some words -> mem_str n (wrappers c) = false /\ lookup n (rust_primitives c) = Some words.
Proof.
  intros c n words L. assert (I : In n (map fst (rust_integers c))) by exact (lookup_key _ _ _ _ L).
  unfold rust_primitives, rust_integers, wrappers in *. destruct (usize_is_size_t c), (Language_eqb (language c) Cxx);
    cbn [same_words map app fst In] in I; repeat (destruct I as [<-|I]; [vm_compute in L; injection L as <-; split; reflexivity|]); destruct I.
Qed.
Lemma digits_acc : forall u p, digits_value (Npos p) (NilEmpty.string_of_uint u) = Some (Npos (Pos.of_uint_acc u p)).
Proof.
  induction u as [|u IH|u IH|u IH|u IH|u IH|u IH|u IH|u IH|u IH|u IH]; intro p; [reflexivity|..]; cbn [NilEmpty.string_of_uint Pos.of_uint_acc]; rewrite <- IH;
    match goal with |- digits_value _ (String ?a _) = _ => let d := eval vm_compute in (digit_value a) in
      cbn [digits_value]; change (digit_value a) with d; cbv iota beta end;
    match goal with |- digits_value ?x _ = digits_value ?y _ => replace x with y by lia; reflexivity end.
Qed.
Lemma digits_uint : forall u, digits_value 0 (NilEmpty.string_of_uint u) = Some (N.of_uint u).
Proof. induction u as [|u IH|u IH|u IH|u IH|u IH|u IH|u IH|u IH|u IH|u IH]; [reflexivity|exact IH|..]; exact (digits_acc u _). Qed.
Lemma digits_decimal : forall n, digits_value 0 (decimal n) = Some n.
Proof. intro n. rewrite decimal_digits, digits_uint, DecimalN.Unsigned.of_to. reflexivity. Qed.

(** ** The comparison *)
Scheme rl_ind := Minimality for rust_layout Sort Prop
  with fl_ind := Minimality for fields_layout Sort Prop
  with vl_ind := Minimality for variants_layout Sort Prop
  with tl_ind := Minimality for type_layout Sort Prop.
Combined Scheme layouts_ind from rl_ind, fl_ind, vl_ind, tl_ind.

Lemma members_fields : forall named l k, map snd (members named k l) = filter (fun f => negb (sizeless (sf_ty f))) l.
Proof. intros named. induction l as [|f l IH]; intro k; cbn [members filter]; [reflexivity|]. destruct (sizeless (sf_ty f)); cbn [negb map snd]; rewrite IH; reflexivity. Qed.
Lemma struct_members_fields : forall fields, map snd (struct_members fields) = filter (fun f => negb (sizeless (sf_ty f))) (source_fields fields).
Proof. intros [|l|l]; [reflexivity|apply members_fields..]. Qed.
Lemma variant_members_fields : forall o l k, map snd (variant_members o k l) = filter (fun f => negb (sizeless (sf_ty f))) l.
Proof. intros o. induction l as [|f l IH]; intro k; cbn [variant_members filter]; [reflexivity|]. destruct (sizeless (sf_ty f)); cbn [negb map snd]; rewrite IH; reflexivity. Qed.
Lemma filter_swap : forall A (p q : A -> bool) l, filter p (filter q l) = filter q (filter p l).
Proof. intros A p q. induction l as [|x l IH]; [reflexivity|]. cbn [filter]. destruct (p x) eqn:P, (q x) eqn:Q; cbn [filter]; rewrite ?P, ?Q, IH; reflexivity. Qed.
Lemma members_only_nil : forall A fs, members_only fs (@nil A) = []. Proof. intros A [|f fs]; reflexivity. Qed.

Section Same.
  Context {H : Heck}.
  Variables (kw : string -> option DeclarationType) (m : machine) (rho : atom -> bool) (mu : string -> bool) (value c_value : string -> option N)
    (vss : list (list visit)) (rs : list reading) (b : Bindings).
  Notation c := (b_config b).
  Notation name n := (export_rename (export c) n).
  Hypothesis DS : declared_from_sources c kw vss rs b.
  Hypothesis ES : enums_from_sources c kw vss rs b.
  Hypothesis CM : comparable kw m rho mu value c_value vss rs b.

  Lemma there_same : forall g, known_opt c g -> there mu b g = cfg_eval_opt rho g.
  Proof.
    intros [g|] K; [|reflexivity]. destruct K as [K1 K2]. unfold there. cbn [to_condition_opt cfg_eval_opt].
    destruct (to_condition_exact (defines c) rho mu (cm_macros _ _ _ _ _ _ _ _ _ CM) g K1 K2) as (cond & E & V). rewrite E. exact V.
  Qed.

  (** *** What is declared for a type *)
  Inductive item_for : ItemContainer -> attributes -> string -> body -> Prop :=
  | if_struct : forall s (here : (atom -> bool) -> bool) attrs ident generics fields, struct_for c kw here attrs ident generics fields s -> item_for (ICStruct s) attrs (unraw ident) (BStruct fields)
  | if_union : forall u (here : (atom -> bool) -> bool) attrs ident generics fields, union_for c kw here attrs ident generics fields u ->
      Forall (fun f => match sf_ident f with Some i => starts_with_digit (unraw i) = false | None => False end) fields -> item_for (ICUnion u) attrs (unraw ident) (BUnion fields)
  | if_enum : forall e (here : (atom -> bool) -> bool) attrs ident generics vs, here rho = true -> enum_for c kw here attrs ident generics vs e -> item_for (ICEnum e) attrs (unraw ident) (BEnum vs)
  | if_alias : forall t (here : (atom -> bool) -> bool) attrs ident generics ty, typedef_for c kw here attrs ident generics ty t -> item_for (ICTypedef t) attrs (unraw ident) (BAlias ty).
  Lemma no_params : forall x p, item_layout m mu c_value b x p -> match x with
    | ICStruct s => s_generic_params s = [] | ICUnion u => u_generic_params u = [] | ICEnum e => e_generic_params e = [] | ICTypedef t => t_generic_params t = [] | ICOpaque _ => False end.
  Proof.
    intros x p L. destruct L as [s ls G|s t l A G|u ls G|e G|e t ls G|e t ls G|t l G]; try exact G.
    unfold as_typedef in A. destruct (s_fields s); [discriminate A|]. destruct (s_is_transparent s); [|discriminate A]. injection A as <-. exact G.
  Qed.
  Lemma item_there : forall x here attrs, In x (b_items b) -> there mu b (item_cfg_of x) = true -> in_condition here attrs (item_cfg_of x) -> here rho = true /\ attrs_hold rho attrs = true.
  Proof.
    intros x here attrs I T C. rewrite there_same in T by (apply (cm_known _ _ _ _ _ _ _ _ _ CM x _ I); left; reflexivity).
    rewrite (C rho) in T. apply andb_prop in T. exact T.
  Qed.
  Lemma item_defined : forall x p, In x (b_items b) -> there mu b (item_cfg_of x) = true -> item_layout m mu c_value b x p ->
    instance_path c (item_path_of x) \/ exists attrs ident bd, defined rho vss rs attrs ident bd /\ item_name x = name (unraw ident) /\ item_for x attrs (unraw ident) bd.
  Proof.
    intros x p I T L. apply no_params in L. destruct x as [o|s|u|e|t]; [destruct L|..].
    - destruct (df_structs _ _ _ _ _ DS _ I) as [J|(v & i & attrs & ident & generics & fields & R & D & F)]; [left; exact J|right].
      exists attrs, ident, (BStruct fields). destruct (item_there _ _ _ I T (sf_cfg _ _ _ _ _ _ _ _ F)) as [M A].
      split; [exists v, i; split; [exact R|split; [|split; assumption]]|split; [exact (sf_name _ _ _ _ _ _ _ _ F)|exact (if_struct _ _ _ _ _ _ F)]].
      apply (dt_struct i attrs ident generics fields D). rewrite (sf_params _ _ _ _ _ _ _ _ F), L. reflexivity.
    - destruct (df_unions _ _ _ _ _ DS _ I) as [J|(v & attrs & ident & generics & fields & R & F)]; [left; exact J|right].
      exists attrs, ident, (BUnion fields). destruct (item_there _ _ _ I T (uf_cfg _ _ _ _ _ _ _ _ F)) as [M A].
      split; [eexists v, _; split; [exact R|split; [|split; assumption]]|split; [exact (uf_name _ _ _ _ _ _ _ _ F)|exact (if_union _ _ _ _ _ _ F (cm_unions _ _ _ _ _ _ _ _ _ CM _ _ _ _ _ R))]].
      apply dt_union. rewrite (uf_params _ _ _ _ _ _ _ _ F), L. reflexivity.
    - destruct (ES _ I) as [J|(v & attrs & ident & generics & vs & R & F)]; [left; exact J|right].
      exists attrs, ident, (BEnum vs). destruct (item_there _ _ _ I T (ef_cfg _ _ _ _ _ _ _ _ F)) as [M A].
      split; [eexists v, _; split; [exact R|split; [|split; assumption]]|split; [exact (ef_name _ _ _ _ _ _ _ _ F)|exact (if_enum _ _ _ _ _ _ M F)]].
      apply dt_enum. rewrite (ef_params _ _ _ _ _ _ _ _ F), L. reflexivity.
    - destruct (df_typedefs _ _ _ _ _ DS _ I) as [J|(v & attrs & ident & generics & ty & R & F)]; [left; exact J|right].
      exists attrs, ident, (BAlias ty). destruct (item_there _ _ _ I T (tf_cfg _ _ _ _ _ _ _ _ F)) as [M A].
      split; [eexists v, _; split; [exact R|split; [|split; assumption]]|split; [exact (tf_name _ _ _ _ _ _ _ _ F)|exact (if_alias _ _ _ _ _ _ F)]].
      apply dt_alias. rewrite (tf_params _ _ _ _ _ _ _ _ F), L. reflexivity.
  Qed.
  (** the item of a type that is defined *)
  Lemma item_of : forall x p attrs ident bd, In x (b_items b) -> there mu b (item_cfg_of x) = true -> item_layout m mu c_value b x p ->
    defined rho vss rs attrs ident bd -> item_name x = name (unraw ident) -> item_for x attrs (unraw ident) bd.
  Proof.
    intros x p attrs ident bd I T L D N. destruct (item_defined _ _ I T L) as [J|(attrs' & ident' & bd' & D' & N' & F)].
    - exfalso. destruct (cm_instances _ _ _ _ _ _ _ _ _ CM x I J) as [_ K]. exact (K _ _ _ D (eq_sym N)).
    - assert (U : unraw ident = unraw ident') by (apply (cm_names _ _ _ _ _ _ _ _ _ CM _ _ _ _ _ _ D D'); rewrite <- N, <- N'; reflexivity).
      destruct (cm_once _ _ _ _ _ _ _ _ _ CM _ _ _ _ _ _ D D' U) as [-> ->]. rewrite U. exact F.
  Qed.
  Lemma item_no_scalar : forall x p, In x (b_items b) -> there mu b (item_cfg_of x) = true -> item_layout m mu c_value b x p -> c_scalar m [item_name x] = None.
  Proof.
    intros x p I T L. destruct (item_defined _ _ I T L) as [J|(attrs' & ident' & bd' & D' & N' & F)].
    - exact (proj1 (cm_instances _ _ _ _ _ _ _ _ _ CM x I J)).
    - rewrite N'. exact (cm_scalars _ _ _ _ _ _ _ _ _ CM _ _ _ D').
  Qed.

  (** *** Names of C *)
  Definition own_ok (own : option (string * (N * N))) : Prop :=
    match own with Some (n, _) => c_scalar m [n] = None /\ forall attrs ident y, defined rho vss rs attrs ident y -> name (unraw ident) <> n | None => True end.
  Lemma scalar_layout : forall own k words l l', own_ok own -> c_scalar m words = Some l -> c_layout m mu c_value b own (CName k None words []) l' -> l' = l.
  Proof.
    intros own k words l l' O S L. inversion L; subst.
    - congruence.
    - destruct O as [O _]. congruence.
    - match goal with J : item_layout _ _ _ _ ?x ?p, I : In ?x _, T : there _ _ _ = true |- _ => rewrite (item_no_scalar x p I T J) in S end. discriminate S.
  Qed.

  Lemma named_is : forall const n args ct, named c kw const n args = Some ct -> ct = CName const (tag_of c (kw n)) [name n] args.
  Proof. intros const n args ct E. unfold named in E. destruct (usable c (exported c n) && _)%bool; [|discriminate E]. injection E as <-. reflexivity. Qed.
  Lemma primitive_scalar : forall n words, lookup n (rust_primitives c) = Some words -> n = "c_void" \/ lookup n (rust_scalars m) <> None.
  Proof.
    intros n words L. assert (I : In n (map fst (rust_primitives c))) by exact (lookup_key _ _ _ _ L). clear L. revert n I. apply Forall_forall.
    unfold rust_primitives, rust_integers. destruct (usize_is_size_t c); repeat (apply Forall_cons; [first [left; reflexivity|right; discriminate]|]); apply Forall_nil.
  Qed.
  Lemma nonzero_scalar : forall n words, lookup n rust_nonzero = Some words -> lookup n (rust_scalars m) <> None.
  Proof.
    intros n words L. assert (I : In n (map fst rust_nonzero)) by exact (lookup_key _ _ _ _ L). clear L. revert n I. apply Forall_forall.
    repeat (apply Forall_cons; [discriminate|]); apply Forall_nil.
  Qed.
  Lemma wrapper_own : forall n, mem_str n (wrappers c) = true -> In n own_words.
  Proof.
    intros n W. apply mem_str_In in W. revert n W. apply Forall_forall. unfold wrappers. destruct (Language_eqb (language c) Cxx); repeat (apply Forall_cons; [cbn; auto 20|]); apply Forall_nil.
  Qed.
  Lemma own_no_primitive : forall n, In n own_words -> lookup n rust_nonzero = None /\ (n = "c_void" \/ lookup n (rust_primitives c) = None).
  Proof.
    intro n. revert n. apply Forall_forall. unfold rust_primitives, rust_integers. destruct (usize_is_size_t c); repeat (apply Forall_cons; [split; [reflexivity|first [left; reflexivity|right; reflexivity]]|]); apply Forall_nil.
  Qed.

  (** *** The statements *)
  Notation sized := (filter (fun f => negb (sizeless (sf_ty f)))).
  Definition type_of (self : string) (f : sfield) (g : Field) : Prop := rust_type c kw (Some self) false false (sf_ty f) = Some (c_type c false (fd_ty g)).
  Definition tag_fields (own : option (string * (N * N))) (tag : option (N * N)) (tags : list Field) : Prop :=
    match tag with None => tags = [] | Some t => exists f n k, tags = [f] /\ c_type c false (fd_ty f) = CName false k [n] [] /\ own = Some (n, t) end.
  Inductive variants_bodies (self : string) (own : option (string * (N * N))) (tag : option (N * N)) : list svariant -> list Struct -> Prop :=
  | vb_nil : variants_bodies self own tag [] []
  | vb_none : forall v vs bs, fields_of rho v = [] -> variants_bodies self own tag vs bs -> variants_bodies self own tag (v :: vs) bs
  | vb_some : forall v vs s bs tags fs, c_fields_there mu b (s_fields s) = (tags ++ fs)%list -> tag_fields own tag tags -> Forall2 (type_of self) (sized (fields_of rho v)) fs ->
      variants_bodies self own tag vs bs -> variants_bodies self own tag (v :: vs) (s :: bs).
  Definition same_type (self : option string) (ty : sty) (l : N * N) : Prop :=
    forall own const nullable ct l', own_ok own -> rust_type c kw self const nullable ty = Some ct -> c_layout m mu c_value b own ct l' -> l' = l.
  Definition same_fields (self : string) (fs : list sfield) (ls : list (N * N)) : Prop :=
    markers_empty fs ls /\ forall own cfs cls, own_ok own -> Forall2 (type_of self) (sized fs) cfs -> c_fields_layout m mu c_value b own cfs cls -> cls = members_only fs ls.
  Definition alone (tag : option (N * N)) : N * N := snd (struct_layout None (match tag with Some t => [t] | None => [] end)).
  Definition same_variants (self : string) (tag : option (N * N)) (vs : list svariant) (ls : list (N * N)) : Prop :=
    forall own bs cls, own_ok own -> variants_bodies self own tag vs bs -> bodies_layout m mu c_value b own bs cls -> without (alone tag) ls cls.
  Definition same_item (self : string) (attrs : attributes) (bd : body) (p : list N * (N * N)) : Prop :=
    forall ident i p', unraw ident = self -> defined rho vss rs attrs ident bd -> In i (b_items b) -> there mu b (item_cfg_of i) = true -> item_name i = name self ->
    item_layout m mu c_value b i p' -> snd p' = snd p /\ same_offsets rho bd (fst p) (fst p').

  Lemma pointer_layout : forall own q t l, c_layout m mu c_value b own (CPtr false q t) l -> l = address m.
  Proof. intros own q t l L. inversion L; subst. reflexivity. Qed.
  Lemma no_arguments : forall own k t n a r l, ~ c_layout m mu c_value b own (CName k t n (a :: r)) l.
  Proof. intros own k t n a r l L. inversion L. Qed.
  Lemma scalar_case : forall self q ident l, lookup (unraw ident) (rust_scalars m) = Some l -> same_type self (SPath (SegPath q ident NoArgs)) l.
  Proof.
    intros self q ident l L own const nullable ct l' O T CL. destruct (scalar_same m c _ _ L) as (words & P & S & NZ & W).
    apply path_type in T as [[W' _]|[_ [(_ & w & LK & ->)|(PN & _)]]]; [congruence| |congruence].
    assert (w = words) by (destruct LK as [LK|LK]; [exact (NZ _ LK)|congruence]). subst w. exact (scalar_layout _ _ _ _ _ O S CL).
  Qed.
  Lemma nothing_case : forall self t, sizeless t = true -> same_type self t (0, 1)%N.
  Proof.
    intros self t Z own const nullable ct l' O T CL. exfalso. destruct t as [| |[q ident args]| | |[|]| | |]; try discriminate Z; [|discriminate T].
    cbn [sizeless] in Z. apply mem_str_In in Z. apply path_type in T.
    assert (I : In (unraw ident) own_words) by (cbn in Z; destruct Z as [<-|[<-|[]]]; cbn; auto 8).
    destruct (own_no_primitive _ I) as [N1 N2]. destruct T as [[W _]|[_ [(_ & w & LK & _)|(_ & Nm)]]].
    - unfold wrappers in W. destruct Z as [Z|[Z|[]]]; rewrite <- Z in W; destruct (Language_eqb (language c) Cxx); discriminate W.
    - destruct LK as [LK|LK]; [congruence|]. destruct N2 as [N2|N2]; [|congruence]. rewrite N2 in Z. cbn in Z. destruct Z as [Z|[Z|[]]]; discriminate Z.
    - assert (SN : forall s, self_name s (unraw ident) = unraw ident) by (intros [s|]; [|reflexivity]; cbn [self_name]; destruct Z as [Z|[Z|[]]]; rewrite <- Z; reflexivity).
      rewrite SN in Nm. assert (Q : forall args', named c kw const (unraw ident) args' = None).
      { intro args'. unfold named. destruct Z as [Z|[Z|[]]]; rewrite <- Z; cbn [mem_str]; rewrite andb_comm; reflexivity. }
      destruct Nm as [[_ E]|(xs & _ & E)]; rewrite Q in E; discriminate E.
  Qed.
  Lemma reference_case : forall self k u, same_type self (SRef k u) (address m).
  Proof.
    intros self k u own const nullable ct l' O T CL. cbn [rust_type] in T.
    match type of T with match ?o with _ => _ end = _ => destruct o as [x|]; [|discriminate T] end. injection T as <-. exact (pointer_layout _ _ _ _ CL).
  Qed.
  Lemma pointer_case : forall self k u, same_type self (SPtr k u) (address m).
  Proof.
    intros self k u own const nullable ct l' O T CL. cbn [rust_type] in T. destruct nullable; [discriminate T|].
    match type of T with match ?o with _ => _ end = _ => destruct o as [x|]; [|discriminate T] end. injection T as <-. exact (pointer_layout _ _ _ _ CL).
  Qed.
  Lemma function_case : forall self i v o, same_type self (SFnPtr i v o) (address m).
  Proof.
    intros self i v o own const nullable ct l' O T CL. cbn [rust_type] in T. destruct (const || _)%bool; [discriminate T|].
    match type of T with match ?o with _ => _ end = _ => destruct o as [x|]; [|discriminate T] end.
    match type of T with match ?o with _ => _ end = _ => destruct o as [y|]; [|discriminate T] end.
    destruct (is_array_type y); [discriminate T|]. injection T as <-. exact (pointer_layout _ _ _ _ CL).
  Qed.
  Lemma owning_case : forall self q ident u, In (unraw ident) owning_words -> same_type self (SPath (SegPath q ident (AngleArgs [ArgType u]))) (address m).
  Proof.
    intros self q ident u I own const nullable ct l' O T CL. apply path_type in T as [[_ (u' & A & _ & [(N & _)|[(_ & p & x & ->)|[(N & _)|(N & _)]]])]|[W [(A & _)|(_ & [(A & _)|(xs & X & E)])]]].
    - exfalso. rewrite N in I. cbn in I. intuition discriminate.
    - exact (pointer_layout _ _ _ _ CL).
    - exfalso. rewrite N in I. cbn in I. intuition discriminate.
    - exfalso. cbn in I, N. intuition congruence.
    - discriminate A.
    - discriminate A.
    - exfalso. apply named_is in E. subst ct. destruct xs as [|a xs]; [contradiction|]. exact (no_arguments _ _ _ _ _ _ _ CL).
  Qed.
  Lemma array_case : forall self u e s a n, same_type self u (s, a) -> length_of value e = Some n -> same_type self (SArray u e) (n * s, a)%N.
  Proof.
    intros self u e s a n IH LE own const nullable ct l' O T CL. cbn [rust_type] in T. destruct (nullable || no_size u)%bool; [discriminate T|].
    destruct (rust_type c kw self const false u) as [x|] eqn:X; [|discriminate T]. destruct (rust_length c e) as [k|] eqn:K; [|discriminate T]. injection T as <-.
    inversion CL as [| |own' n' t s' a' k' CT CK| |]; subst. specialize (IH own const false x _ O X CT). injection IH as -> ->.
    assert (n' = k) by (match goal with Q : Some _ = array_length k |- _ => unfold array_length in Q; destruct (String.eqb k ""); congruence end). subst n'.
    enough (k' = n) by (subst; reflexivity). unfold rust_length in K. unfold length_of in LE.
    destruct e as [|l| | | | |[q i [| |]]| | | | |]; try discriminate LE.
    - destruct l as [| |d z| | |]; try discriminate LE. injection LE as <-. destruct (solid (decimal d)); [|discriminate K]. injection K as <-. unfold c_length in CK. rewrite digits_decimal in CK. congruence.
    - destruct (solid _); [|discriminate K]. injection K as <-. apply (cm_values _ _ _ _ _ _ _ _ _ CM) in LE. unfold exported in CK. congruence.
  Qed.
  Lemma inside_case : forall self q ident u l, In (unraw ident) transparent_words -> same_type self u l -> same_type self (SPath (SegPath q ident (AngleArgs [ArgType u]))) l.
  Proof.
    intros self q ident u l I IH own const nullable ct l' O T CL. apply path_type in T as [[_ (u' & A & _ & [(N & T)|[(N & _)|[(N & _)|(N & k & T)]]])]|[W [(A & _)|(_ & [(A & _)|(xs & X & E)])]]].
    - injection A as <-. exact (IH _ _ _ _ _ O T CL).
    - exfalso. cbn in I, N. intuition congruence.
    - exfalso. rewrite N in I. cbn in I. intuition discriminate.
    - injection A as <-. exact (IH _ _ _ _ _ O T CL).
    - discriminate A.
    - discriminate A.
    - exfalso. apply named_is in E. subst ct. destruct xs as [|a xs]; [contradiction|]. exact (no_arguments _ _ _ _ _ _ _ CL).
  Qed.
  Lemma option_case : forall self q ident u l, unraw ident = "Option" -> same_type self u l -> same_type self (SPath (SegPath q ident (AngleArgs [ArgType u]))) l.
  Proof.
    intros self q ident u l I IH own const nullable ct l' O T CL. apply path_type in T as [[_ (u' & A & _ & [(N & T)|[(N & _)|[(N & _)|(N & k & T)]]])]|[W [(A & _)|(_ & [(A & _)|(xs & X & E)])]]].
    - injection A as <-. exact (IH _ _ _ _ _ O T CL).
    - exfalso. rewrite I in N. cbn in N. intuition discriminate.
    - congruence.
    - exfalso. rewrite I in N. cbn in N. intuition discriminate.
    - discriminate A.
    - discriminate A.
    - exfalso. apply named_is in E. subst ct. destruct xs as [|a xs]; [contradiction|]. exact (no_arguments _ _ _ _ _ _ _ CL).
  Qed.
  Lemma nonzero_case : forall self q ident u l, unraw ident = "NonZero" -> same_type self u l -> same_type self (SPath (SegPath q ident (AngleArgs [ArgType u]))) l.
  Proof.
    intros self q ident u l I IH own const nullable ct l' O T CL. apply path_type in T as [[_ (u' & A & _ & [(N & T)|[(N & _)|[(_ & p & i & words & -> & LK & ->)|(N & k & T)]]])]|[W [(A & _)|(_ & [(A & _)|(xs & X & E)])]]].
    - congruence.
    - exfalso. rewrite I in N. cbn in N. intuition discriminate.
    - injection A as ->. apply (IH own const false (CName const None words []) l' O); [|exact CL]. destruct (integer_primitive _ _ _ LK) as [W L]. cbn [rust_type]. rewrite W, L. reflexivity.
    - exfalso. rewrite I in N. cbn in N. intuition discriminate.
    - discriminate A.
    - discriminate A.
    - exfalso. apply named_is in E. subst ct. destruct xs as [|a xs]; [contradiction|]. exact (no_arguments _ _ _ _ _ _ _ CL).
  Qed.
  Lemma named_case : forall self q ident args attrs ident' x p, lookup (unraw ident) (rust_scalars m) = None -> ~ In (unraw ident) own_words ->
    defined rho vss rs attrs ident' x -> unraw ident' = self_name self (unraw ident) -> same_item (unraw ident') attrs x p -> same_type self (SPath (SegPath q ident args)) (snd p).
  Proof.
    intros self q ident args attrs ident' x p NS NO D U IH own const nullable ct l' O T CL. apply path_type in T as [[W _]|[_ [(_ & w & LK & _)|(_ & [(_ & E)|(xs & X & E)])]]].
    - exfalso. exact (NO (wrapper_own _ W)).
    - exfalso. destruct LK as [LK|LK]; [exact (nonzero_scalar _ _ LK NS)|]. destruct (primitive_scalar _ _ LK) as [V|V]; [apply NO; rewrite V; cbn; auto 8|exact (V NS)].
    - apply named_is in E. subst ct. rewrite <- U in CL. inversion CL as [own' k words l S| | |own' k tag n l OE|own' k tag y p' OE IY TY LY]; subst.
      + rewrite (cm_scalars _ _ _ _ _ _ _ _ _ CM _ _ _ D) in S. discriminate S.
      + exfalso. destruct O as [_ O]. exact (O _ _ _ D eq_refl).
      + match goal with Q : item_name y = _ |- _ => exact (proj1 (IH ident' y p' eq_refl D IY TY Q LY)) end.
    - exfalso. apply named_is in E. subst ct. destruct xs as [|a xs]; [contradiction|]. exact (no_arguments _ _ _ _ _ _ _ CL).
  Qed.

  (** *** Fields *)
  Lemma empty_marker : forall self t l, rust_layout m rho value vss rs self t l -> sizeless t = true -> l = (0, 1)%N.
  Proof.
    intros self t l L Z.
    assert (K : forall q ident args, t = SPath (SegPath q ident args) -> unraw ident = "PhantomData" \/ unraw ident = "PhantomPinned").
    { intros q ident args ->. cbn [sizeless] in Z. apply mem_str_In in Z. cbn in Z. intuition. }
    inversion L; subst; try reflexivity; try discriminate Z; destruct (K _ _ _ eq_refl) as [V|V]; rewrite V in *; exfalso.
    all: try match goal with Q : lookup _ _ = Some _ |- _ => discriminate Q end.
    all: try match goal with Q : In _ owning_words |- _ => cbn in Q; intuition discriminate end.
    all: try match goal with Q : In _ transparent_words |- _ => cbn in Q; intuition discriminate end.
    all: try match goal with Q : ~ In _ own_words |- _ => apply Q; cbn; auto 8 end.
    all: discriminate.
  Qed.
  Lemma fields_case : forall self f l r ls, rust_layout m rho value vss rs (Some self) (sf_ty f) l -> same_type (Some self) (sf_ty f) l -> same_fields self r ls -> same_fields self (f :: r) (l :: ls).
  Proof.
    intros self f l r ls RL ST [M SF]. split; [constructor; [exact (empty_marker _ _ _ RL)|exact M]|].
    intros own cfs cls O F CL. cbn [filter members_only] in F |- *. destruct (sizeless (sf_ty f)) eqn:Z; cbn [negb] in F; [exact (SF own cfs cls O F CL)|].
    inversion F as [|a g fs cfs' TO F' E1 E2]; subst. inversion CL as [|own' g' l' r' ls' CG CR]; subst. f_equal; [exact (ST own false false _ _ O TO CG)|exact (SF own cfs' ls' O F' CR)].
  Qed.
  Lemma fields_match : forall self names ms cfs all, fields_for c kw self names ms cfs -> map snd ms = sized all -> Forall (known_opt c) (map fd_cfg cfs) ->
    Forall (fun p => rust_type c kw (fst p) false false (snd p) <> None) (map (fun f => (Some self, sf_ty f)) (sized (fields_there rho all))) ->
    Forall2 (type_of self) (sized (fields_there rho all)) (c_fields_there mu b cfs).
  Proof.
    intros self names ms cfs all F. unfold fields_there. rewrite filter_swap. intros <-. clear all. induction F as [|n x f ns ms fs FF F IH]; intros K T; [constructor|].
    cbn [map filter c_fields_there] in *. inversion K as [|? ? K1 K2]; subst. unfold c_fields_there in *. cbn [filter]. rewrite (there_same _ K1), (ff_cfg _ _ _ _ _ _ FF rho).
    destruct (attrs_hold rho (sf_attrs (snd x))); [|exact (IH K2 T)]. cbn [map] in T. inversion T as [|? ? T1 T2]; subst. cbn [fst snd] in T1. constructor; [|exact (IH K2 T2)].
    unfold type_of. destruct (rust_type c kw (Some self) false false (sf_ty (snd x))) as [t|] eqn:E; [|contradiction]. destruct (ff_type _ _ _ _ _ _ FF t E) as [_ <-]. reflexivity.
  Qed.
  Lemma c_fields_app : forall own f g ls, c_fields_layout m mu c_value b own (f ++ g) ls -> exists l r, ls = (l ++ r)%list /\ c_fields_layout m mu c_value b own f l /\ c_fields_layout m mu c_value b own g r.
  Proof.
    intros own. induction f as [|x f IH]; intros g ls L; [exists [], ls; repeat split; [constructor|exact L]|]. cbn [app] in L. inversion L as [|own' y l r ls' L1 L2]; subst.
    destruct (IH _ _ L2) as (l1 & r1 & -> & A & B). exists (l :: l1), r1. repeat split; [constructor; assumption|exact B].
  Qed.

  (** *** Variants *)
  Lemma variants_case : forall self tag v ls r rest, same_fields self (fields_of rho v) ls -> fields_layout m rho value vss rs self (fields_of rho v) ls -> same_variants self tag r rest ->
    same_variants self tag (v :: r) (snd (struct_layout None (match tag with Some t => t :: ls | None => ls end)) :: rest).
  Proof.
    intros self tag v ls r rest [M SF] FL SV own bs cls O VB BL. inversion VB as [|v' vs' bs' FN VB'|v' vs' s bs' tags fs CF TF T2 VB']; subst.
    - rewrite FN in FL. inversion FL; subst. unfold same_variants, alone in *. destruct tag; apply wo_drop; exact (SV own bs cls O VB' BL).
    - inversion BL as [|own' s' l r' rest' CL NE BL']; subst. rewrite CF in CL. destruct (c_fields_app _ _ _ _ CL) as (l1 & l2 & -> & C1 & C2). specialize (SF own fs l2 O T2 C2). subst l2.
      specialize (SV own bs' rest' O VB' BL'). destruct tag as [t|].
      + destruct TF as (f & n & k & -> & CT & OW). inversion C1 as [|own' f' l r' ls' CG CR]; subst. inversion CR; subst. rewrite CT in CG.
        assert (l = t).
        { inversion CG as [own' k' words l' S| | |own' k' tg n' l' OE|own' k' tg y p' OE IY TY LY]; subst; [destruct O as [O _]; congruence|congruence|congruence]. }
        subst l. cbn [app]. rewrite (tagged_members t _ _ M). apply wo_keep. exact SV.
      + cbn in TF. subst tags. inversion C1; subst. cbn [app]. rewrite (struct_members_layout None _ _ M). cbn [snd]. apply wo_keep. exact SV.
  Qed.

  (** *** Types *)
  Lemma asked_known : forall a, alignment_known c a -> c_asked b a = a.
  Proof. intros [[|n]|] K; cbn [alignment_known c_asked] in *; [destruct (ly_packed (layout c))|destruct (ly_aligned_n (layout c))|]; [reflexivity|contradiction|reflexivity|contradiction|reflexivity]. Qed.
  Lemma kept_nil : parameters_kept c []. Proof. apply Forall_nil. Qed.
  Lemma conditions_known : forall x gs, In x (b_items b) -> incl gs (conditions_in x) -> Forall (known_opt c) gs.
  Proof. intros x gs I S. apply Forall_forall. intros g J. exact (cm_known _ _ _ _ _ _ _ _ _ CM x g I (S g J)). Qed.
  Lemma struct_match : forall s here attrs ident generics fields, struct_for c kw here attrs ident generics fields s -> s_generic_params s = [] -> In (ICStruct s) (b_items b) ->
    Forall (fun p => rust_type c kw (fst p) false false (snd p) <> None) (types_in rho (unraw ident) (BStruct fields)) ->
    Forall2 (type_of (unraw ident)) (sized (fields_there rho (source_fields fields))) (c_fields_there mu b (s_fields s)).
  Proof.
    intros s here attrs ident generics fields F G I T. destruct (sf_fields _ _ _ _ _ _ _ _ F) as (names & _ & FF); [rewrite G; exact kept_nil|].
    refine (fields_match _ _ _ _ _ FF (struct_members_fields fields) _ T). apply (conditions_known (ICStruct s) _ I). intros g J. right. exact J.
  Qed.
  Lemma union_named : forall fields k, Forall (fun f => match sf_ident f with Some i => starts_with_digit (unraw i) = false | None => False end) fields ->
    Forall (fun x : string * sfield => starts_with_digit (fst x) = false) (members true k fields).
  Proof.
    induction fields as [|f l IH]; intros k F; cbn [members]; [constructor|]. inversion F as [|? ? F1 F2]; subst. destruct (sizeless (sf_ty f)); [exact (IH k F2)|].
    constructor; [|exact (IH _ F2)]. cbn [fst]. destruct (sf_ident f); [exact F1|contradiction].
  Qed.
  Lemma struct_case : forall self attrs fields r ls, Repr_load attrs = Some r -> rp_style r = ReprC -> same_fields self (fields_there rho (source_fields fields)) ls ->
    same_item self attrs (BStruct fields) (struct_layout (rp_align r) ls).
  Proof.
    intros self attrs fields r ls R ST [M SF] ident i p' U D I T N L. subst self. pose proof (cm_types _ _ _ _ _ _ _ _ _ CM _ _ _ _ D I N) as TY.
    pose proof (item_of _ _ _ _ _ I T L D N) as F. inversion F as [s here attrs' ident' generics fields' SFOR E1 E2 E3 E4| | |]; subst. rewrite <- E3 in *.
    destruct (sf_layout _ _ _ _ _ _ _ _ SFOR) as (r' & R' & AL & TR). assert (r' = r) by congruence. subst r'.
    destruct TR as [[_ TR]|[TR _]]; [|congruence].
    inversion L as [s' ls' G A CL NE|s' t l A G CL| | | | |]; subst.
    - rewrite (asked_known _ (sf_attribute _ _ _ _ _ _ _ _ SFOR)), AL. pose proof (struct_match _ _ _ _ _ _ SFOR G I TY) as FM.
      rewrite (SF None _ _ Logic.I FM CL). rewrite (struct_members_layout (rp_align r) _ _ M). split; reflexivity.
    - exfalso. unfold as_typedef in A. destruct (s_fields s); [discriminate A|]. rewrite TR in A. discriminate A.
  Qed.
  Lemma one_sized : forall fs before l after f lf, markers_empty fs (before ++ l :: after) -> Forall (fun x => x = (0, 1)%N) (before ++ after) -> sized fs = [f] ->
    members_only fs (before ++ l :: after) = [lf] -> lf = l.
  Proof.
    intros fs before l after f lf M Z. revert fs M. induction before as [|x before IH]; intros fs M S E; cbn [app] in *.
    - inversion M as [|g ? fs' ? Q M' E1 E2]; subst. cbn [members_only filter] in *. destruct (sizeless (sf_ty g)) eqn:SG; cbn [negb] in S; [|injection E as -> _; reflexivity].
      rewrite (Q eq_refl). assert (J : In lf after).
      { clear -E. revert after E. induction fs' as [|g fs IH]; intros [|a after] E; cbn [members_only] in E; try discriminate. destruct (sizeless (sf_ty g)); [right; exact (IH _ E)|left; congruence]. }
      rewrite Forall_forall in Z. exact (Z _ J).
    - inversion M as [|g ? fs' ? Q M' E1 E2]; subst. inversion Z as [|? ? Z1 Z2]; subst. cbn [members_only filter] in *. destruct (sizeless (sf_ty g)) eqn:SG; cbn [negb] in S; [exact (IH Z2 fs' M' S E)|].
      injection S as _ S. injection E as <- E. clear IH. assert (K : Forall (fun x => x = (0, 1)%N) (before ++ l :: after)).
      { clear -M' S. induction M' as [|g x fs ls Q M IH]; [constructor|]. cbn [filter] in S. destruct (sizeless (sf_ty g)); [|discriminate S]. constructor; [exact (Q eq_refl)|exact (IH S)]. }
      rewrite Forall_forall in K. symmetry. apply K. apply in_or_app. right. left. reflexivity.
  Qed.
  Lemma transparent_case : forall self attrs fields r before l after, Repr_load attrs = Some r -> rp_style r = ReprTransparent ->
    same_fields self (fields_there rho (source_fields fields)) (before ++ l :: after) -> Forall (fun x => x = (0, 1)%N) (before ++ after) ->
    same_item self attrs (BStruct fields) ([], l).
  Proof.
    intros self attrs fields r before l after R ST [M SF] Z ident i p' U D I T N L. subst self. pose proof (cm_types _ _ _ _ _ _ _ _ _ CM _ _ _ _ D I N) as TY.
    pose proof (item_of _ _ _ _ _ I T L D N) as F. inversion F as [s here attrs' ident' generics fields' SFOR E1 E2 E3 E4| | |]; subst. rewrite <- E3 in *.
    destruct (sf_layout _ _ _ _ _ _ _ _ SFOR) as (r' & R' & AL & TR). assert (r' = r) by congruence. subst r'.
    destruct TR as [[TR _]|[_ TR]]; [congruence|].
    inversion L as [s' ls' G A CL NE|s' t lt A G CL| | | | |]; subst.
    - exfalso. unfold as_typedef in A. rewrite TR in A. destruct (s_fields s); [|discriminate A]. inversion CL; subst. apply NE. reflexivity.
    - cbn [fst snd]. split; [|cbn [same_offsets]; rewrite members_only_nil; reflexivity].
      destruct (cm_transparent _ _ _ _ _ _ _ _ _ CM _ _ _ _ D R ST) as (f & S1 & S2).
      assert (G' : s_generic_params s = []) by exact (no_params _ _ L).
      pose proof (struct_match _ _ _ _ _ _ SFOR G' I TY) as FM.
      assert (S3 : sized (fields_there rho (source_fields fields)) = [f]).
      { unfold fields_there. rewrite filter_swap, S1. cbn [filter]. rewrite S2. reflexivity. }
      assert (LEN : length (s_fields s) = 1).
      { destruct (sf_fields _ _ _ _ _ _ _ _ SFOR) as (names & _ & FF); [rewrite G'; exact kept_nil|].
        transitivity (length (struct_members fields)).
        - clear -FF. induction FF; cbn [length]; congruence.
        - rewrite <- (map_length snd), struct_members_fields, S1. reflexivity. }
      unfold as_typedef in A. destruct (s_fields s) as [|g [|]]; try discriminate LEN. destruct (s_is_transparent s); [|discriminate A]. injection A as <-. cbn [t_aliased new_from_struct_field] in CL.
      rewrite S3 in FM. unfold c_fields_there in FM. cbn [filter] in FM. destruct (there mu b (fd_cfg g)); [|inversion FM].
      assert (Q : [lt] = members_only (fields_there rho (source_fields fields)) (before ++ l :: after)).
      { apply (SF None [g] [lt] Logic.I); [rewrite S3; exact FM|]. constructor; [exact CL|constructor]. }
      exact (one_sized _ _ _ _ _ _ M Z S3 (eq_sym Q)).
  Qed.
  Lemma union_case : forall self attrs fields r ls, Repr_load attrs = Some r -> rp_style r = ReprC -> same_fields self (fields_there rho fields) ls ->
    same_item self attrs (BUnion fields) ([], union_layout (rp_align r) ls).
  Proof.
    intros self attrs fields r ls R ST [M SF] ident i p' U D I T N L. subst self. pose proof (cm_types _ _ _ _ _ _ _ _ _ CM _ _ _ _ D I N) as TY.
    pose proof (item_of _ _ _ _ _ I T L D N) as F. inversion F as [|u here attrs' ident' generics fields' UFOR UN E1 E2 E3 E4| |]; subst. rewrite <- E3 in *.
    destruct (uf_layout _ _ _ _ _ _ _ _ UFOR) as (r' & R' & AL & _). assert (r' = r) by congruence. subst r'.
    inversion L as [| |u' ls' G CL NE| | | |]; subst. split; [|exact Logic.I]. cbn [snd].
    rewrite (asked_known _ (uf_attribute _ _ _ _ _ _ _ _ UFOR)), AL.
    destruct (uf_fields _ _ _ _ _ _ _ _ UFOR) as (names & _ & FF); [rewrite G; exact kept_nil|exact (union_named _ _ UN)|].
    assert (FM : Forall2 (type_of (unraw ident')) (sized (fields_there rho fields)) (c_fields_there mu b (u_fields u))).
    { refine (fields_match _ _ _ _ _ FF (members_fields true fields 0) _ TY). apply (conditions_known (ICUnion u) _ I). intros g J. right. exact J. }
    rewrite (SF None _ _ Logic.I FM CL). exact (union_members_layout _ _ _ M).
  Qed.
  Lemma alias_case : forall self attrs t l, same_type None t l -> same_item self attrs (BAlias t) ([], l).
  Proof.
    intros self attrs t l ST ident i p' U D I T N L. subst self. pose proof (cm_types _ _ _ _ _ _ _ _ _ CM _ _ _ _ D I N) as TY.
    pose proof (item_of _ _ _ _ _ I T L D N) as F. inversion F as [| | |x here attrs' ident' generics ty TFOR E1 E2 E3 E4]; subst.
    inversion L as [| | | | | |x' l' G CL]; subst. split; [|exact Logic.I]. cbn [types_in] in TY. inversion TY as [|? ? T1 _]; subst. cbn [fst snd] in *.
    destruct (rust_type c kw None false false t) as [ct|] eqn:E; [|contradiction]. destruct (tf_type _ _ _ _ _ _ _ _ TFOR) with (x := ct) as [_ Q]; [rewrite G; exact kept_nil|exact E|].
    rewrite Q in CL. exact (ST None false false ct l' Logic.I E CL).
  Qed.

  (** *** Enums *)
  Lemma tag_whole : forall t, whole (tag_layout m t).
  Proof.
    destruct (cm_machine _ _ _ _ _ _ _ _ _ CM) as (M1 & M2 & M3 & M4). intros [t|]; [|exact M1]. cbn [tag_layout].
    destruct (rt_kind t); cbn [integer_layout]; first [exact M2|exact M3|exact M4|split; [discriminate|reflexivity]].
  Qed.
  Lemma alone_some : forall t, whole t -> alone (Some t) = t. Proof. intros t W. exact (proj1 (whole_alone t W)). Qed.
  Lemma alone_none : alone None = (0, 1)%N. Proof. reflexivity. Qed.
  (** the layout of the tag in the bodies, if it is there *)
  Definition inner_tag (st : ReprStyle) (t : N * N) : option (N * N) := match st with ReprC => None | _ => Some t end.
  Lemma bodies_match : forall here given ann self en st t tl vs own extra (e : Enum),
    here rho = true -> st <> ReprTransparent -> In (ICEnum e) (b_items b) -> e_variants e = (own ++ extra)%list ->
    Forall2 (variant_for c kw here given ann self en st (Some t) []) vs own -> (forall x, In x extra -> exists a, v_body x = VEmpty a) ->
    Forall (fun p => rust_type c kw (fst p) false false (snd p) <> None) (types_in rho self (BEnum vs)) ->
    variants_bodies self (Some (t, tl)) (inner_tag st tl) (variants_there rho vs) (bodies_there mu b (own ++ extra)).
  Proof.
    intros here given ann self en st t tl vs own extra e HR NT I EV F X TY.
    assert (XB : bodies_there mu b extra = []).
    { clear -X. induction extra as [|x l IH]; [reflexivity|]. unfold bodies_there. cbn [flat_map]. destruct (X x (or_introl eq_refl)) as [a ->]. exact (IH (fun y J => X y (or_intror J))). }
    assert (K : forall x, In x own -> known_opt c (v_cfg x) /\ match v_body x with VBody _ s _ _ => Forall (known_opt c) (map fd_cfg (s_fields s)) | VEmpty _ => True end).
    { intros x J. assert (J' : In x (e_variants e)) by (rewrite EV; apply in_or_app; left; exact J). split.
      - apply (cm_known _ _ _ _ _ _ _ _ _ CM _ _ I). right. apply in_flat_map. exists x. split; [exact J'|left; reflexivity].
      - destruct (v_body x) as [a|n s inl a] eqn:B; [exact Logic.I|]. apply (conditions_known _ _ I). intros g Jg. right. apply in_flat_map. exists x. split; [exact J'|]. rewrite B. right. exact Jg. }
    clear EV. unfold bodies_there. rewrite flat_map_app. fold (bodies_there mu b extra). rewrite XB, app_nil_r. clear X XB extra.
    induction F as [|v x vs own VF F IH]; [constructor|]. assert (KR : forall y, In y own -> known_opt c (v_cfg y) /\ match v_body y with VBody _ s _ _ => Forall (known_opt c) (map fd_cfg (s_fields s)) | VEmpty _ => True end) by (intros y J; apply K; right; exact J).
    destruct (K x (or_introl eq_refl)) as [K1 K2]. cbn [flat_map]. unfold variants_there. cbn [filter].
    assert (TH : there mu b (v_cfg x) = attrs_hold rho (sv_attrs v)) by (rewrite (there_same _ K1), (vf_cfg _ _ _ _ _ _ _ _ _ _ _ _ VF rho), HR; reflexivity).
    cbn [types_in] in TY. unfold variants_there in TY. cbn [filter] in TY. rewrite TH.
    destruct (attrs_hold rho (sv_attrs v)).
    2: { replace (match v_body x with VBody _ _ _ _ => [] | VEmpty _ => [] end) with (@nil Struct) by (destruct (v_body x); reflexivity). exact (IH TY KR). }
    cbn [flat_map] in TY. apply Forall_app in TY as [TY1 TY2]. specialize (IH TY2 KR).
    pose proof (vf_body _ _ _ _ _ _ _ _ _ _ _ _ VF) as VB. destruct (v_body x) as [a|n s inl a]; cbn [app].
    - apply vb_none; [|exact IH]. unfold fields_of, has_data in *. destruct (sv_fields v); [reflexivity|discriminate VB..].
    - destruct VB as (_ & _ & member & _ & _ & BF). specialize (BF NT). destruct (bf_fields _ _ _ _ _ _ _ _ _ BF kept_nil) as (ann' & names & tags & fs & _ & _ & SF & LT & _ & TG & FF).
      assert (KT : Forall (fun f => there mu b (fd_cfg f) = true) tags) by (eapply Forall_impl; [|exact TG]; intros f [_ ->]; reflexivity).
      rewrite SF, map_app in K2. apply Forall_app in K2 as [_ K2].
      refine (vb_some _ _ _ v _ s _ tags (c_fields_there mu b fs) _ _ _ IH).
      + rewrite SF. unfold c_fields_there. rewrite filter_app. f_equal. clear -KT. induction KT as [|f l Q KT IH]; [reflexivity|]. cbn [filter]. rewrite Q, IH. reflexivity.
      + destruct st; cbn [inner_tag tag_fields length] in *; [|destruct tags; [reflexivity|discriminate LT]|contradiction].
        destruct tags as [|f [|]]; try discriminate LT. inversion TG as [|? ? [T1 _] _]; subst. cbn [option_map] in T1. injection T1 as T1. eexists f, t, _. rewrite T1. repeat split.
      + exact (fields_match _ _ _ _ _ FF (variant_members_fields _ _ _) K2 TY1).
  Qed.
  Lemma no_tag_no_data : forall vs, existsb has_data vs = false -> Forall (fun v => fields_of rho v = []) (variants_there rho vs).
  Proof.
    intros vs E. apply Forall_forall. intros v J. apply filter_In in J as [J _]. unfold fields_of. destruct (has_data v) eqn:D.
    - exfalso. assert (existsb has_data vs = true) by (apply existsb_exists; eauto). congruence.
    - unfold has_data in D. destruct (sv_fields v); [reflexivity|discriminate D..].
  Qed.
  Lemma plain_variants : forall self tag vs, Forall (fun v => fields_of rho v = []) vs -> same_variants self tag vs (map (fun _ => alone tag) vs).
  Proof.
    intros self tag vs F. induction F as [|v vs E F IH].
    - intros own bs cls O VB BL. inversion VB; subst. inversion BL; subst. constructor.
    - cbn [map]. assert (Q : alone tag = snd (struct_layout None (match tag with Some t => [t] | None => [] end))) by reflexivity. rewrite Q. clear Q.
      pose proof (variants_case self tag v [] vs (map (fun _ => alone tag) vs)) as K. destruct tag as [t|]; apply K.
      all: try rewrite E; try exact IH; try constructor; try constructor. all: intros own cfs cls O F2 CL; inversion F2; subst; inversion CL; subst; reflexivity.
  Qed.
  Lemma without_repeat : forall A x (l : list A) r, without x (map (fun _ => x) l) r -> Forall (fun y => y = x) r.
  Proof.
    intros A x. induction l as [|a l IH]; intros r W; cbn [map] in W; inversion W; subst; [constructor|constructor; [reflexivity|auto]|auto].
  Qed.
  Lemma union_same : forall t r, Forall (fun y => y = t) r -> union_layout None (t :: r) = union_layout None [t].
  Proof.
    intros t r F. assert (K : N.max (fst t) (largest (map fst r) 0) = N.max (fst t) 0 /\ N.max (snd t) (largest (map snd r) 1) = N.max (snd t) 1).
    { induction F as [|y r -> F [I1 I2]]; [split; reflexivity|]. cbn [map]. rewrite !largest_cons. lia. }
    unfold union_layout. cbn [alignment_of map]. rewrite !largest_cons. destruct K as [-> ->]. reflexivity.
  Qed.
  Lemma empty_bodies : forall self own vs bs cls, variants_bodies self own None vs bs -> Forall (fun v => fields_of rho v = []) vs -> bodies_layout m mu c_value b own bs cls -> cls = [].
  Proof.
    intros self own vs bs cls VB. revert cls. induction VB as [|v vs bs FN VB IH|v vs s bs tags fs CF TF T2 VB IH]; intros cls F BL.
    - inversion BL; reflexivity.
    - inversion F; subst. auto.
    - exfalso. inversion F as [|? ? F1 F2]; subst. rewrite F1 in T2. inversion T2; subst. cbn in TF. subst tags. inversion BL as [|own' s' l r' rest' CL NE BL']; subst. rewrite CF in CL. inversion CL; subst. apply NE. reflexivity.
  Qed.
  Lemma tagged_sizes : forall self t vs ls, variants_layout m rho value vss rs self (Some t) vs ls -> Forall (fun l => (fst t <= fst l /\ snd t <= snd l)%N) ls.
  Proof.
    intros self t vs. induction vs as [|v vs IH]; intros ls V; inversion V; subst; constructor; [apply tagged_size|auto].
  Qed.

  Lemma enum_own : forall e t, In (ICEnum e) (b_items b) -> e_tag e = Some t -> forall l, own_ok (Some (t, l)).
  Proof. intros e t I E l. exact (cm_tags _ _ _ _ _ _ _ _ _ CM e t I E). Qed.
  (** the variants of an enum with data *)
  Lemma enum_bodies : forall e here attrs ident generics vs t, here rho = true -> enum_for c kw here attrs ident generics vs e -> e_generic_params e = [] -> e_tag e = Some t -> In (ICEnum e) (b_items b) ->
    rp_style (e_repr e) <> ReprTransparent -> Forall (fun p => rust_type c kw (fst p) false false (snd p) <> None) (types_in rho (unraw ident) (BEnum vs)) ->
    forall tl, variants_bodies (unraw ident) (Some (t, tl)) (inner_tag (rp_style (e_repr e)) tl) (variants_there rho vs) (bodies_there mu b (e_variants e)).
  Proof.
    intros e here attrs ident generics vs t HR F G ET I NT TY tl. destruct (ef_variants _ _ _ _ _ _ _ _ F) as (given & own & extra & _ & EV & F1 & F2). rewrite EV.
    rewrite ET, G in F1. refine (bodies_match _ _ _ _ _ _ _ _ _ _ _ e HR NT I EV F1 _ TY).
    clear -F2. intros x J. induction F2 as [|n y ns ys XF F2 IH]; [destruct J|]. destruct J as [<-|J]; [|exact (IH J)]. destruct (xf_rest _ _ _ _ _ XF) as (_ & _ & B). eauto.
  Qed.
  Lemma plain_case : forall self attrs vs r, Repr_load attrs = Some r -> rp_style r = ReprC \/ rp_style r = ReprRust /\ rp_ty r <> None ->
    Forall (fun v => fields_of rho v = []) (variants_there rho vs) -> same_item self attrs (BEnum vs) ([], raised (rp_align r) (tag_layout m (rp_ty r))).
  Proof.
    intros self attrs vs r R ST FE ident i p' U D I T N L. subst self. pose proof (cm_types _ _ _ _ _ _ _ _ _ CM _ _ _ _ D I N) as TY.
    pose proof (item_of _ _ _ _ _ I T L D N) as F. inversion F as [| |e here attrs' ident' generics vs' HR EFOR E1 E2 E3 E4|]; subst. rewrite <- E3 in *.
    destruct (ef_repr _ _ _ _ _ _ _ _ EFOR) as (R' & NA & _). assert (r = e_repr e) by congruence. subst r. rewrite NA. cbn [raised]. split; [|exact Logic.I].
    assert (NT : rp_style (e_repr e) <> ReprTransparent) by (destruct ST as [->|[-> _]]; discriminate).
    pose proof (tag_whole (rp_ty (e_repr e))) as TW.
    inversion L as [| | |e' G ET|e' t ls G ET SC BL NE|e' t ls G ET SC BL|]; subst; cbn [snd].
    - reflexivity.
    - exfalso. pose proof (enum_bodies _ _ _ _ _ _ _ HR EFOR G ET I NT TY (tag_layout m (rp_ty (e_repr e)))) as VB. rewrite SC in VB. cbn [inner_tag] in VB. exact (NE (empty_bodies _ _ _ _ _ VB FE BL)).
    - pose proof (enum_bodies _ _ _ _ _ _ _ HR EFOR G ET I NT TY (tag_layout m (rp_ty (e_repr e)))) as VB.
      assert (IT : inner_tag (rp_style (e_repr e)) (tag_layout m (rp_ty (e_repr e))) = Some (tag_layout m (rp_ty (e_repr e)))) by (destruct (rp_style (e_repr e)); [reflexivity|contradiction|reflexivity]).
      rewrite IT in VB. pose proof (plain_variants _ _ _ FE _ _ _ (enum_own _ _ I ET _) VB BL) as W. rewrite (alone_some _ TW) in W. apply without_repeat in W.
      rewrite (union_same _ _ W). exact (proj2 (whole_alone _ TW)).
  Qed.
  Lemma tagged_case : forall self attrs vs r ls, Repr_load attrs = Some r -> rp_style r = ReprC -> ~ Forall (fun v => fields_of rho v = []) (variants_there rho vs) ->
    same_variants self None (variants_there rho vs) ls -> same_item self attrs (BEnum vs) ([], raised (rp_align r) (snd (struct_layout None [tag_layout m (rp_ty r); union_layout None ls]))).
  Proof.
    intros self attrs vs r ls R ST FE SV ident i p' U D I T N L. subst self. pose proof (cm_types _ _ _ _ _ _ _ _ _ CM _ _ _ _ D I N) as TY.
    pose proof (item_of _ _ _ _ _ I T L D N) as F. inversion F as [| |e here attrs' ident' generics vs' HR EFOR E1 E2 E3 E4|]; subst. rewrite <- E3 in *.
    destruct (ef_repr _ _ _ _ _ _ _ _ EFOR) as (R' & NA & _). assert (r = e_repr e) by congruence. subst r. rewrite NA. cbn [raised]. split; [|exact Logic.I].
    assert (NT : rp_style (e_repr e) <> ReprTransparent) by (rewrite ST; discriminate).
    inversion L as [| | |e' G ET|e' t cls G ET SC BL NE|e' t cls G ET SC BL|]; subst; cbn [snd].
    - exfalso. apply FE. rewrite (ef_tag _ _ _ _ _ _ _ _ EFOR) in ET. destruct (existsb has_data vs) eqn:HD; [discriminate ET|]. exact (no_tag_no_data _ HD).
    - pose proof (enum_bodies _ _ _ _ _ _ _ HR EFOR G ET I NT TY (tag_layout m (rp_ty (e_repr e)))) as VB. rewrite SC in VB. cbn [inner_tag] in VB.
      pose proof (SV _ _ _ (enum_own _ _ I ET _) VB BL) as W. rewrite alone_none in W. rewrite (without_empty _ _ W). reflexivity.
    - contradiction.
  Qed.
  Lemma inside_tag_case : forall self attrs vs r t ls, Repr_load attrs = Some r -> rp_style r = ReprRust -> rp_ty r = Some t -> ~ Forall (fun v => fields_of rho v = []) (variants_there rho vs) ->
    variants_layout m rho value vss rs self (Some (tag_layout m (Some t))) (variants_there rho vs) ls ->
    same_variants self (Some (tag_layout m (Some t))) (variants_there rho vs) ls -> same_item self attrs (BEnum vs) ([], raised (rp_align r) (union_layout None ls)).
  Proof.
    intros self attrs vs r rt ls R ST RT FE VL SV ident i p' U D I T N L. subst self. pose proof (cm_types _ _ _ _ _ _ _ _ _ CM _ _ _ _ D I N) as TY.
    pose proof (item_of _ _ _ _ _ I T L D N) as F. inversion F as [| |e here attrs' ident' generics vs' HR EFOR E1 E2 E3 E4|]; subst. rewrite <- E3 in *.
    destruct (ef_repr _ _ _ _ _ _ _ _ EFOR) as (R' & NA & _). assert (r = e_repr e) by congruence. subst r. rewrite NA. cbn [raised]. split; [|exact Logic.I].
    assert (NT : rp_style (e_repr e) <> ReprTransparent) by (rewrite ST; discriminate).
    inversion L as [| | |e' G ET|e' t cls G ET SC BL NE|e' t cls G ET SC BL|]; subst; cbn [snd].
    - exfalso. apply FE. rewrite (ef_tag _ _ _ _ _ _ _ _ EFOR) in ET. destruct (existsb has_data vs) eqn:HD; [discriminate ET|]. exact (no_tag_no_data _ HD).
    - congruence.
    - rewrite RT in *. pose proof (enum_bodies _ _ _ _ _ _ _ HR EFOR G ET I NT TY (tag_layout m (Some rt))) as VB. rewrite ST in VB. cbn [inner_tag] in VB.
      pose proof (SV _ _ _ (enum_own _ _ I ET _) VB BL) as W. rewrite (alone_some _ (tag_whole _)) in W. symmetry. apply (without_tag _ _ _ W (tagged_sizes _ _ _ _ VL)).
      intros ->. apply FE. inversion VL; subst. constructor.
  Qed.

  (** *** All together *)
  Lemma all_layouts : (forall self ty l, rust_layout m rho value vss rs self ty l -> same_type self ty l)
    /\ (forall self fs ls, fields_layout m rho value vss rs self fs ls -> same_fields self fs ls)
    /\ (forall self tag vs ls, variants_layout m rho value vss rs self tag vs ls -> same_variants self tag vs ls)
    /\ (forall self attrs bd p, type_layout m rho value vss rs self attrs bd p -> same_item self attrs bd p).
  Proof.
    apply layouts_ind; intros.
    - apply scalar_case; assumption.
    - apply nothing_case; assumption.
    - apply reference_case.
    - apply pointer_case.
    - apply function_case.
    - apply owning_case; assumption.
    - eapply array_case; eassumption.
    - apply inside_case; assumption.
    - apply nonzero_case; assumption.
    - apply option_case; assumption.
    - eapply named_case; eassumption.
    - split; [constructor|]. intros own cfs cls O F CL. inversion F; subst. inversion CL; subst. reflexivity.
    - apply fields_case; assumption.
    - intros own bs cls O VB BL. inversion VB; subst. inversion BL; subst. constructor.
    - apply variants_case; assumption.
    - apply struct_case; assumption.
    - eapply transparent_case; eassumption.
    - apply union_case; assumption.
    - apply plain_case; assumption.
    - apply tagged_case; assumption.
    - eapply inside_tag_case; eassumption.
    - apply alias_case; assumption.
  Qed.
  Theorem layouts_same : same_layouts c kw m rho mu value c_value vss rs b.
  Proof.
    destruct all_layouts as (A & _ & _ & D). constructor.
    - intros self const t x l l' T R CL. exact (A _ _ _ R None const false x l' Logic.I T CL).
    - intros attrs ident x p i p' DF TL I T N L. exact (D _ _ _ _ TL ident i p' eq_refl DF I T N L).
  Qed.
End Same.

Lemma finish_config : forall {H : Heck} l b, finish l = Done b -> b_config b = l_config l.
Proof. intros H l b F. unfold finish in F. destruct (library_dependencies l); try discriminate. apply (f_equal (fun o => match o with Done x => b_config x | _ => l_config l end)) in F. symmetry. exact F. Qed.
Theorem layouts_sources : forall (H : Heck) d c bitflags mfuel fuel std srcs lib l, parse_all d c bitflags mfuel fuel std srcs lib = Parsed l ->
  exists vss rs, sources_read d (parse c) srcs lib vss rs
    /\ forall pfuel visit l' b m rho mu value c_value, prepare pfuel visit l = Done l' -> finish l' = Done b ->
         comparable (keyword_in l') m rho mu value c_value vss rs b -> same_layouts c (keyword_in l') m rho mu value c_value vss rs b.
Proof.
  intros H d c bitflags mfuel fuel std srcs lib l Q. destruct (all_made H d c bitflags mfuel fuel std srcs lib l Q) as (vss & rs & R & G).
  exists vss, rs. split; [exact R|]. intros pfuel visit l' b m rho mu value c_value Hp Hf CM.
  assert (LC : l_config l = c). { destruct (all_sound _ _ _ _ _ _ _ _ _ Q) as (? & ? & ? & ? & _ & _ & _ & _ & Z & _). exact Z. }
  assert (BC : b_config b = c). { rewrite (finish_config l' b Hf), <- LC. clear -Hp. apply prepare_stages in Hp as (l1 & l2 & l3 & l4 & St). apply (stages_config _ _ _ _ _ _ _ _ _ St). }
  pose proof (datatypes_from H d c bitflags mfuel fuel std srcs lib l vss rs Q G pfuel visit l' b Hp Hf) as D.
  pose proof (enums_from H d c bitflags mfuel fuel std srcs lib l vss rs Q G pfuel visit l' b Hp Hf) as E.
  assert (E' : enums_from_sources c (keyword_in l') vss rs b).
  { intros e I. destruct (E e I) as [W|(v & attrs & ident & generics & vs & W1 & W2 & _)]; [left; exact W|right]. exists v, attrs, ident, generics, vs. auto. }
  clear E. rewrite <- BC in *. exact (layouts_same _ _ _ _ _ _ _ _ _ D E' CM).
Qed.
