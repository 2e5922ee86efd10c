(** Proofs about the values of constants. *)
Require Import Coq.Strings.String Coq.Strings.Ascii Coq.Lists.List Coq.Bool.Bool Coq.ZArith.ZArith Coq.NArith.NArith Coq.NArith.Nnat Coq.micromega.Lia.
Require Import Coq.Numbers.DecimalString Coq.Numbers.DecimalFacts Coq.Numbers.DecimalN.
From Verif Require Import Base P_Base M_Config M_Type M_Ir M_Library M_Bindings M_Syn M_Literal S_Decl S_Expr S_Literal S_Value.
Import ListNotations.
Open Scope string_scope.
Local Open Scope Z_scope.

(** ** Ranges *)
Ltac range := unfold in_range, lowest, highest; cbn [signed wide bits Z.pow Z.pow_pos Pos.iter Z.mul Pos.mul Z.sub Z.add Z.opp Z.pos_sub Pos.pred_double Pos.sub];
              repeat rewrite andb_true_iff in *; repeat rewrite Z.leb_le in *.
Lemma in_range_iff : forall t v, in_range t v = true <-> lowest t <= v <= highest t.
Proof. intros t v. unfold in_range. rewrite andb_true_iff, !Z.leb_le. reflexivity. Qed.
Definition size (t : itype) : Z := 2 ^ bits (wide t).
Lemma range_size : forall t, 0 < size t /\ lowest t <= 0 <= highest t /\ highest t - lowest t + 1 = size t.
Proof. intros [[] []]; vm_compute; repeat split; intros; try discriminate. Qed.
Lemma wrap_range : forall t v, lowest t <= wrap t v <= highest t.
Proof.
  intros t v. unfold wrap. fold (size t). destruct (range_size t) as (A & B & E). pose proof (Z.mod_pos_bound v (size t) A) as M.
  destruct (Z.leb_spec (v mod size t) (highest t)); lia.
Qed.
Lemma wrap_id : forall t v, in_range t v = true -> wrap t v = v.
Proof.
  intros t v R. apply in_range_iff in R. unfold wrap. fold (size t). destruct (range_size t) as (A & B & E).
  destruct (Z.leb_spec 0 v) as [P|P].
  - rewrite Z.mod_small by lia. destruct (Z.leb_spec v (highest t)); lia.
  - replace (v mod size t) with (v + size t); [destruct (Z.leb_spec (v + size t) (highest t)); lia|].
    apply (Z.mod_unique v (size t) (-1)); lia.
Qed.
Lemma wrap_in : forall t v, in_range t (wrap t v) = true.
Proof. intros t v. apply in_range_iff, wrap_range. Qed.

(** ** Decimal constants *)
Lemma string_uint : forall d, d <> Decimal.Nil -> NilZero.uint_of_string (NilZero.string_of_uint d) = Some d.
Proof. exact NilZero.usu. Qed.
Lemma to_uint_not_nil : forall n, N.to_uint n <> Decimal.Nil.
Proof. intros n Q. pose proof (DecimalN.Unsigned.of_to n) as E. pose proof (DecimalN.Unsigned.to_of (N.to_uint n)) as F. rewrite E, Q in F. discriminate. Qed.
Lemma to_uint_norm : forall n x, N.to_uint n = Decimal.D0 x -> x = Decimal.Nil.
Proof.
  intros n x Q. pose proof (DecimalN.Unsigned.to_of (N.to_uint n)) as F. rewrite DecimalN.Unsigned.of_to, Q in F.
  unfold Decimal.unorm in F. cbn [Decimal.nzhead] in F.
  destruct (Decimal.nzhead x) eqn:E; try discriminate F; try (injection F; auto).
  exfalso. revert E. apply nzhead_nonzero.
Qed.
Definition ends_number (s : string) : Prop := match s with String a _ => is_digit a = false | "" => True end.
Lemma span_digits : forall d s, ends_number s -> span is_digit (NilEmpty.string_of_uint d ++ s) = (NilEmpty.string_of_uint d, s).
Proof.
  induction d; intros s E; cbn [NilEmpty.string_of_uint append span]; try (rewrite (IHd s E); reflexivity).
  destruct s as [|a s]; [reflexivity|]. cbn. cbn in E. rewrite E. reflexivity.
Qed.
Lemma decimal_digits : forall n, decimal n = NilEmpty.string_of_uint (N.to_uint n).
Proof. intros n. unfold decimal, NilZero.string_of_uint. pose proof (to_uint_not_nil n). destruct (N.to_uint n); congruence. Qed.
Lemma decimal_read : forall n s, ends_number s ->
  number_value (decimal n ++ s) = first_that (suffix_types s) (Z.of_N n).
Proof.
  intros n s E. unfold number_value. rewrite decimal_digits, span_digits by exact E. rewrite <- decimal_digits.
  replace (NilZero.uint_of_string (decimal n)) with (Some (N.to_uint n)) by (symmetry; apply string_uint, to_uint_not_nil).
  rewrite DecimalN.Unsigned.of_to.
  rewrite decimal_digits. pose proof (to_uint_norm n) as Z0. destruct (N.to_uint n) as [|u|u|u|u|u|u|u|u|u|u]; try reflexivity.
  rewrite (Z0 u eq_refl). reflexivity.
Qed.
Lemma decimal_leaf : forall names n s, ends_number s -> leaf_value names (decimal n ++ s) = number_value (decimal n ++ s).
Proof.
  intros names n s E. rewrite decimal_digits. pose proof (to_uint_not_nil n) as Q. destruct (N.to_uint n); [congruence|..]; reflexivity.
Qed.

(** ** Translation of expressions never fails *)
Lemma cast_load : forall t, exists p, Type_load (SPath (SegPath [] (rust_name t) NoArgs)) = Some (Some (TPrim p)) /\ PrimitiveType_maybe (rust_name t) = Some p.
Proof. intros [[] []|[]| |]; eexists; split; reflexivity. Qed.
Lemma loads : forall e, exists l, Literal_load (syntax e) = Some l.
Proof.
  induction e as [t s n|n|n|b|s w m|x|x [l Hl]|x [l Hl]|x [l Hl]|o a [k Hk] b [l Hl]|o a [k Hk] b [l Hl]|a [k Hk] b [l Hl]|a [k Hk] b [l Hl]|o a [k Hk] b [l Hl]|a [k Hk] b [l Hl]|a [k Hk] b [l Hl]|x [l Hl] t];
    cbn [syntax Literal_load lit_text]; try rewrite Hk; try rewrite Hl; try (eexists; reflexivity).
  destruct (cast_load t) as (p & Hp & _). rewrite Hp. eexists; reflexivity.
Qed.

Section Values.
  Variables (fuel : nat) (b : Bindings).
  Variables (names : string -> option (rtype * Z)) (c_names : string -> option (itype * Z)).
  Hypothesis names_agree : forall x t v, names x = Some (t, v) -> exists k, leaf_value c_names x = Some (k, v).

  Local Notation value e := (c_value c_names (tree fuel b e)).

  Lemma lit_value : forall t s n, in_range (literal_type t s n) (Z.of_N n) = true ->
    leaf_value c_names (decimal n ++ int_suffix n (if s then rust_name t else "")) = Some (literal_type t s n, Z.of_N n).
  Proof.
    intros t s n R.
    assert (Plain : forall x, String.eqb x "u64" = false -> String.eqb x "i64" = false -> String.eqb x "u32" = false ->
       let k := if in_range int (Z.of_N n) then int else if in_range (Int true W64) (Z.of_N n) then Int true W64 else Int false W64 in
       in_range k (Z.of_N n) = true -> leaf_value c_names (decimal n ++ int_suffix n x) = Some (k, Z.of_N n)).
    { intros x X1 X2 X3 k K. unfold int_suffix. rewrite X1, X2, X3.
      assert (E : (9223372036854775807 <? n)%N = negb (in_range (Int true W64) (Z.of_N n))).
      { destruct (N.ltb_spec 9223372036854775807 n) as [L|L]; symmetry.
        - apply negb_true_iff. destruct (in_range (Int true W64) (Z.of_N n)) eqn:Q; [|reflexivity]. apply in_range_iff in Q. unfold highest in Q. cbn in Q. lia.
        - apply negb_false_iff, in_range_iff. unfold lowest, highest. cbn. lia. }
      rewrite E. destruct (in_range (Int true W64) (Z.of_N n)) eqn:Q; cbn [negb].
      - rewrite decimal_leaf, decimal_read by exact Logic.I. cbn [suffix_types String.eqb first_that]. subst k. destruct (in_range int (Z.of_N n)); [reflexivity|]. rewrite Q. reflexivity.
      - assert (Q' : in_range int (Z.of_N n) = false).
        { destruct (in_range int (Z.of_N n)) eqn:Q'; [|reflexivity]. exfalso. apply in_range_iff in Q'. assert (in_range (Int true W64) (Z.of_N n) = true); [|congruence].
          apply in_range_iff. unfold lowest, highest in *. cbn in *. lia. }
        rewrite decimal_leaf, decimal_read by reflexivity. cbn [suffix_types String.eqb first_that Ascii.eqb Bool.eqb]. subst k. rewrite Q' in *. rewrite K. reflexivity. }
    destruct s; [|apply Plain; (reflexivity || exact R)].
    destruct t as [[] []|[]| |]; try (apply Plain; (reflexivity || exact R)).
    all: unfold int_suffix; cbn [rust_name String.eqb Ascii.eqb Bool.eqb]; rewrite decimal_leaf, decimal_read by reflexivity;
         cbn [suffix_types String.eqb first_that Ascii.eqb Bool.eqb]; cbn [literal_type] in R |- *; rewrite R; reflexivity.
  Qed.

  Lemma char_value : forall n, basic_character n = true -> leaf_value c_names ("'" ++ escape_default n ++ "'") = Some (int, Z.of_N n).
  Proof.
    intros n B. assert (n <= 126)%N by (unfold basic_character in B; rewrite !orb_true_iff, andb_true_iff, !N.leb_le, !N.eqb_eq in B; lia).
    assert (F : forallb (fun k => negb (basic_character k) ||
       match leaf_value (fun _ => None) ("'" ++ escape_default k ++ "'") with
       | Some (t, v) => signed t && (bits (wide t) =? 32) && (v =? Z.of_N k) | None => false end) (map N.of_nat (seq 0 127)) = true) by (vm_compute; reflexivity).
    rewrite forallb_forall in F. specialize (F n). rewrite in_map_iff in F.
    specialize (F (ex_intro _ (N.to_nat n) (conj (N2Nat.id n) (proj2 (in_seq 127 0 (N.to_nat n)) ltac:(lia))))).
    rewrite B in F. cbn [negb orb] in F.
    change (leaf_value c_names ("'" ++ escape_default n ++ "'")) with (leaf_value (fun _ => None) ("'" ++ escape_default n ++ "'")).
    destruct (leaf_value (fun _ => None) ("'" ++ escape_default n ++ "'")) as [[[s w] v]|]; [|discriminate F].
    apply andb_prop in F. destruct F as [F F3]. apply andb_prop in F. destruct F as [F1 F2]. cbn in F1, F2. apply Z.eqb_eq in F3.
    destruct s; [|discriminate]. destruct w; try discriminate. subst v. reflexivity.
  Qed.

  Lemma limit_value : forall s w m, m = true \/ s = true ->
    leaf_value c_names (written_name b (Some (rust_name (RInt s w), rust_name (RInt s w))) (if m then "MAX" else "MIN"))
    = Some (promote (Int s w), if m then highest (Int s w) else lowest (Int s w)).
  Proof. intros [] [] [] [|]; try discriminate; reflexivity. Qed.

  Lemma cast_value : forall t p, is_integer t = true -> PrimitiveType_maybe (rust_name t) = Some p ->
    exists w, c_type (b_config b) false (TPrim p) = CName false None [w] [] /\ named_type w = Some (representation t).
  Proof.
    intros [[] []|[]| |] p I E; try discriminate I; cbn in E; injection E as <-; cbn [c_type primitive sized]; try (eexists; split; reflexivity);
      destruct (usize_is_size_t (b_config b)); eexists; split; reflexivity.
  Qed.

  Lemma rtype_eqb_eq : forall t u, rtype_eqb t u = true -> t = u.
  Proof. intros [[] []|[]| |] [[] []|[]| |]; cbn; congruence. Qed.
  Lemma result_fits : forall k v, in_range k v = true -> result k v = Some (k, v).
  Proof. intros k v R. unfold result. rewrite R. rewrite (wrap_id k v R). destruct (signed k); reflexivity. Qed.

  Local Notation value_of := (value_of names).
  Local Notation type_in_c := (type_in_c c_names).
  Local Notation fits := (fits names c_names).
  Lemma value_of_eq : forall e t v, rust_value names e = Some (t, v) -> value_of e = v.
  Proof.
    intros e t v E. unfold S_Value.value_of. destruct e; try (rewrite E; reflexivity).
    cbn in E. destruct (is_integer t0); [|discriminate]. destruct (in_range _ _); [|discriminate]. congruence.
  Qed.
  Lemma two_inv : forall A (ra rb : option (rtype * Z)) (f : rtype -> Z -> Z -> option A) r,
    match ra, rb with Some (t, x), Some (u, y) => if rtype_eqb t u then f t x y else None | _, _ => None end = Some r ->
    exists t x y, ra = Some (t, x) /\ rb = Some (t, y) /\ f t x y = Some r.
  Proof.
    intros A [[t x]|] [[u y]|] f r E; try discriminate. destruct (rtype_eqb t u) eqn:Q; [|discriminate]. apply rtype_eqb_eq in Q. subst u. eauto 6.
  Qed.
  Lemma both_fit_inv : forall a b0 t u x y, both_fit names c_names a b0 -> rust_value names a = Some (t, x) -> rust_value names b0 = Some (u, y) ->
    let k := common (type_in_c a) (type_in_c b0) in
    in_range k x = true /\ in_range k y = true /\ wrap k x = x /\ wrap k y = y.
  Proof.
    intros a b0 t u x y [F1 F2] E1 E2 k. rewrite (value_of_eq _ _ _ E1) in F1. rewrite (value_of_eq _ _ _ E2) in F2.
    repeat split; try assumption; apply wrap_id; assumption.
  Qed.

  (** *** Rust's values are those of their types *)
  Lemma bits_pos : forall w, 0 < bits w.
  Proof. intros []; reflexivity. Qed.
  Lemma range_shift : forall t v, in_range t v = true <-> (if signed t then Z.shiftr v (bits (wide t) - 1) = 0 \/ Z.shiftr v (bits (wide t) - 1) = -1 else Z.shiftr v (bits (wide t)) = 0).
  Proof.
    intros [s w] v. rewrite in_range_iff. pose proof (bits_pos w) as B. unfold lowest, highest. cbn [signed wide]. destruct s.
    - rewrite Z.shiftr_div_pow2 by lia. pose proof (Z.pow_pos_nonneg 2 (bits w - 1) ltac:(lia) ltac:(lia)) as P. split.
      + intros R. destruct (Z.leb_spec 0 v) as [Q|Q]; [left|right]; symmetry.
        * apply (Z.div_unique v _ 0 v); lia.
        * apply (Z.div_unique v _ (-1) (v + 2 ^ (bits w - 1))); lia.
      + intros [Q|Q]; pose proof (Z.div_mod v (2 ^ (bits w - 1)) ltac:(lia)) as D; pose proof (Z.mod_pos_bound v _ P); rewrite Q in D; lia.
    - rewrite Z.shiftr_div_pow2 by lia. pose proof (Z.pow_pos_nonneg 2 (bits w) ltac:(lia) ltac:(lia)) as P. split.
      + intros R. symmetry. apply (Z.div_unique v _ 0 v); lia.
      + intros Q. pose proof (Z.div_mod v (2 ^ bits w) ltac:(lia)) as D. pose proof (Z.mod_pos_bound v _ P). rewrite Q in D. lia.
  Qed.
  Lemma bits_range : forall o t x y, in_range t x = true -> in_range t y = true -> in_range t (bit_value o x y) = true.
  Proof.
    intros o t x y X Y. apply range_shift. apply range_shift in X. apply range_shift in Y.
    destruct (signed t).
    - destruct o; cbn [bit_value]; rewrite ?Z.shiftr_land, ?Z.shiftr_lor, ?Z.shiftr_lxor; destruct X as [-> | ->], Y as [-> | ->]; vm_compute; tauto.
    - destruct o; cbn [bit_value]; rewrite ?Z.shiftr_land, ?Z.shiftr_lor, ?Z.shiftr_lxor, X, Y; reflexivity.
  Qed.
  Lemma shr_range : forall t x y, in_range t x = true -> 0 <= y -> in_range t (x / 2 ^ y) = true.
  Proof.
    intros t x y R Y. apply in_range_iff in R. apply in_range_iff. destruct (range_size t) as (_ & B & _). pose proof (Z.pow_pos_nonneg 2 y ltac:(lia) Y) as P.
    destruct (Z.leb_spec 0 x) as [Q|Q].
    - pose proof (Z.div_pos x _ Q P). pose proof (Z.div_le_upper_bound x (2 ^ y) x P ltac:(nia)). lia.
    - pose proof (Z.div_le_lower_bound x (2 ^ y) x P ltac:(nia)). assert (x / 2 ^ y < 0) by (apply Z.div_lt_upper_bound; lia). lia.
  Qed.
  Hypothesis names_valid : forall x t v, names x = Some (t, v) -> valid t v.
  Lemma bool_valid : forall v, v = 0 \/ v = 1 -> valid RBool v.
  Proof. intros v [-> | ->]; (split; [reflexivity|split; [tauto|discriminate]]). Qed.
  Lemma truth_bool : forall q, truth q = 0 \/ truth q = 1.
  Proof. intros []; cbn; tauto. Qed.
  Lemma integer_valid : forall t v, is_integer t = true -> in_range (representation t) v = true -> valid t v.
  Proof. intros t v I R. split; [exact R|]. split; intros ->; discriminate. Qed.
  Lemma rust_valid : forall e t v, rust_value names e = Some (t, v) -> valid t v.
  Proof.
    induction e as [t0 s n|n|n|q|s w m|x|x IH|x IH|x IH|o x IHx y IHy|o x IHx y IHy|x IHx y IHy|x IHx y IHy|o x IHx y IHy|x IHx y IHy|x IHx y IHy|x IH t0];
      intros t v E; cbn [rust_value] in E.
    - destruct (is_integer t0) eqn:I; [|discriminate]. destruct (in_range _ _) eqn:R; [|discriminate]. injection E as <- <-. exact (integer_valid _ _ I R).
    - destruct (in_range _ _) eqn:R; [|discriminate]. injection E as <- <-. exact (integer_valid (RInt false W8) _ eq_refl R).
    - destruct (Z.of_N n <? 1114112) eqn:D; [|discriminate]. cbn [andb] in E. destruct (negb _); [|discriminate]. injection E as <- <-. apply Z.ltb_lt in D. split; [|split; [discriminate|intros _; exact D]].
      apply in_range_iff. unfold lowest, highest. cbn. lia.
    - injection E as <- <-. apply bool_valid, truth_bool.
    - injection E as <- <-. apply integer_valid; [reflexivity|]. apply in_range_iff. cbn [representation]. destruct (range_size (Int s w)). destruct m; lia.
    - exact (names_valid _ _ _ E).
    - exact (IH _ _ E).
    - destruct (match x with RLit t _ n => Some (t, Z.of_N n) | _ => rust_value names x end) as [[tx vx]|]; [|discriminate].
      destruct (is_integer tx && is_signed tx) eqn:I; [|discriminate]. destruct (in_range _ _) eqn:R; [|discriminate]. injection E as <- <-.
      apply andb_prop in I. exact (integer_valid _ _ (proj1 I) R).
    - destruct (rust_value names x) as [[tx vx]|] eqn:Ex; [|discriminate]. destruct (IH _ _ eq_refl) as (R & V & _).
      assert (is_integer tx = true -> Some (tx, if is_signed tx then - vx - 1 else highest (representation tx) - vx) = Some (t, v) -> valid t v).
      { intros I Q. injection Q as <- <-. apply integer_valid; [exact I|]. apply in_range_iff in R. apply in_range_iff. unfold is_signed. clear - R.
        unfold lowest, highest in *. destruct (signed (representation tx)); lia. }
      destruct tx; try (apply H; [reflexivity|exact E]); [|discriminate]. injection E as <- <-. apply bool_valid. destruct (V eq_refl) as [-> | ->]; vm_compute; tauto.
    - apply two_inv in E. destruct E as (u & vx & vy & Ex & Ey & E). destruct (is_integer u) eqn:I; [|discriminate]. cbn [andb] in E. destruct (negb _); [|discriminate].
      destruct (in_range _ _) eqn:R; [|discriminate]. injection E as <- <-. exact (integer_valid _ _ I R).
    - apply two_inv in E. destruct E as (u & vx & vy & Ex & Ey & E). destruct (is_integer u || rtype_eqb u RBool) eqn:I; [|discriminate]. injection E as <- <-.
      destruct (IHx _ _ Ex) as (Rx & Vx & _). destruct (IHy _ _ Ey) as (Ry & Vy & _). split; [apply bits_range; assumption|]. split; [|intros ->; discriminate I].
      intros ->. destruct (Vx eq_refl) as [-> | ->], (Vy eq_refl) as [-> | ->], o; vm_compute; tauto.
    - destruct (rust_value names x) as [[u vx]|]; [|discriminate]. destruct (rust_value names y) as [[u' vy]|]; [|discriminate].
      destruct (is_integer u) eqn:I; [|discriminate]. cbn [andb] in E. destruct (is_integer u' && _ && _); [|discriminate]. injection E as <- <-. exact (integer_valid _ _ I (wrap_in _ _)).
    - destruct (rust_value names x) as [[u vx]|]; [|discriminate]. destruct (rust_value names y) as [[u' vy]|]; [|discriminate].
      destruct (is_integer u) eqn:I; [|discriminate]. cbn [andb] in E. destruct (is_integer u'); [|discriminate]. cbn [andb] in E. destruct (Z.leb_spec 0 vy); [|discriminate].
      cbn [andb] in E. destruct (vy <? _); [|discriminate]. injection E as <- <-. destruct (IHx _ _ eq_refl) as (R & _). exact (integer_valid _ _ I (shr_range _ _ _ R H)).
    - apply two_inv in E. destruct E as (u & vx & vy & Ex & Ey & E). injection E as <- <-. apply bool_valid, truth_bool.
    - destruct (rust_value names x) as [[[| | |] vx]|]; try discriminate. destruct (vx =? 0); [injection E as <- <-; apply bool_valid; tauto|].
      destruct (rust_value names y) as [[[| | |] vy]|]; try discriminate. injection E as <- <-. exact (IHy _ _ eq_refl).
    - destruct (rust_value names x) as [[[| | |] vx]|]; try discriminate. destruct (vx =? 0); [|injection E as <- <-; apply bool_valid; tauto].
      destruct (rust_value names y) as [[[| | |] vy]|]; try discriminate. injection E as <- <-. exact (IHy _ _ eq_refl).
    - destruct (rust_value names x) as [[u vx]|]; [|discriminate]. destruct (is_integer t0) eqn:I; [|discriminate]. injection E as <- <-. exact (integer_valid _ _ I (wrap_in _ _)).
  Qed.

  (** the value of a negated literal may be out of the literal's own range *)
  Definition operand_value (e : rexpr) : option (rtype * Z) := match e with RLit t _ n => Some (t, Z.of_N n) | _ => rust_value names e end.
  Lemma operand_of : forall e r, rust_value names e = Some r -> operand_value e = Some r.
  Proof. intros e r E. destruct e; try exact E. cbn in E |- *. destruct (is_integer t); [|discriminate]. destruct (in_range _ _); [|discriminate]. exact E. Qed.
  Lemma operand_value_of : forall e t v, operand_value e = Some (t, v) -> value_of e = v.
  Proof. intros e t v E. destruct e; try exact (value_of_eq _ _ _ E). cbn in E |- *. congruence. Qed.

  Lemma values_from : forall e t v l, operand_value e = Some (t, v) -> fits e -> Literal_load (syntax e) = Some l -> value l = Some (type_in_c e, v).
  Proof.
    induction e as [t0 s n|n|n|q|s w m|x|x IH|x IH|x IH|o x IHx y IHy|o x IHx y IHy|x IHx y IHy|x IHx y IHy|o x IHx y IHy|x IHx y IHy|x IHx y IHy|x IH t0];
      intros t v l E F L; cbn [syntax Literal_load lit_text] in L.
    - injection L as <-. cbn in E. injection E as <- <-. cbn [tree c_value]. apply lit_value. exact F.
    - injection L as <-. cbn [operand_value rust_value] in E. destruct (in_range _ _) eqn:R; [|discriminate]. injection E as <- <-.
      cbn [tree c_value]. rewrite <- (sapp_nil_r (decimal n)). rewrite decimal_leaf, decimal_read by exact Logic.I. cbn [suffix_types String.eqb first_that].
      assert (in_range int (Z.of_N n) = true) as ->; [|reflexivity]. apply in_range_iff in R. apply in_range_iff. unfold lowest, highest in *; cbn in *; lia.
    - injection L as <-. cbn [fits] in F. cbn [operand_value rust_value] in E. destruct ((Z.of_N n <? 1114112) && _); [|discriminate]. injection E as <- <-.
      cbn [tree c_value]. assert ((n <=? 255)%N = true) as ->; [|apply char_value; exact F].
      cbn in F. unfold basic_character in F. rewrite !orb_true_iff, andb_true_iff, !N.leb_le, !N.eqb_eq in F. apply N.leb_le. lia.
    - injection L as <-. cbn in E. injection E as <- <-. destruct q; reflexivity.
    - injection L as <-. cbn in E. injection E as <- <-. cbn [tree c_value]. apply limit_value. exact F.
    - injection L as <-. cbn [operand_value rust_value] in E. destruct (names_agree _ _ _ E) as (k & Hk). cbn [tree c_value written_name S_Value.type_in_c].
      rewrite Hk. reflexivity.
    - cbn [operand_value rust_value] in E. cbn [S_Value.fits] in F. exact (IH _ _ _ (operand_of _ _ E) F L).
    - destruct (Literal_load (syntax x)) as [lx|] eqn:Lx; [|discriminate]. injection L as <-. cbn [operand_value rust_value] in E. fold (operand_value x) in E.
      destruct (operand_value x) as [[tx vx]|] eqn:Ex; [|discriminate]. destruct (is_integer tx && is_signed tx); [|discriminate].
      destruct (in_range (representation tx) (- vx)); [|discriminate]. injection E as <- <-. destruct F as [F1 F2].
      rewrite (operand_value_of _ _ _ Ex) in F2. cbn [tree c_value]. rewrite (IH _ _ _ eq_refl F1 eq_refl). cbn [String.eqb Ascii.eqb Bool.eqb].
      rewrite (result_fits _ _ F2). reflexivity.
    - destruct (Literal_load (syntax x)) as [lx|] eqn:Lx; [|discriminate]. injection L as <-. destruct F as [F1 F2].
      assert (Ee : rust_value names (RNot x) = Some (t, v)) by exact E. rewrite (value_of_eq _ _ _ Ee) in F2. cbn [operand_value rust_value] in E.
      destruct (rust_value names x) as [[tx vx]|] eqn:Ex; [|discriminate]. rewrite (value_of_eq _ _ _ Ex) in F2.
      cbn [tree c_value]. rewrite (IH _ _ _ (operand_of _ _ Ex) F1 eq_refl). cbn [String.eqb Ascii.eqb Bool.eqb]. rewrite F2. reflexivity.
    - destruct (Literal_load (syntax x)) as [lx|] eqn:Lx; [|discriminate]. destruct (Literal_load (syntax y)) as [ly|] eqn:Ly; [|discriminate]. injection L as <-.
      cbn [S_Value.fits] in F. destruct F as (F1 & F2 & F3 & F4 & F5). assert (Ee : rust_value names (RArith o x y) = Some (t, v)) by exact E. rewrite (value_of_eq _ _ _ Ee) in F4.
      cbn [operand_value rust_value] in E. apply two_inv in E. destruct E as (u & vx & vy & Ex & Ey & E).
      destruct (is_integer u); [|discriminate]. cbn [andb] in E.
      destruct (negb (divides o && ((vy =? 0) || negb (in_range (representation u) (Z.quot vx vy))))) eqn:D; [|discriminate].
      destruct (in_range (representation u) (arith_value o vx vy)) eqn:R; [|discriminate]. injection E as <- <-.
      destruct (both_fit_inv _ _ _ _ _ _ F3 Ex Ey) as (R1 & R2 & W1 & W2). rewrite (value_of_eq _ _ _ Ex), (value_of_eq _ _ _ Ey) in F5.
      cbn [tree c_value]. set (k := common (type_in_c x) (type_in_c y)) in *.
      assert (Op : String.eqb (binop_text (arith_op o)) "&&" = false /\ String.eqb (binop_text (arith_op o)) "||" = false /\ arith_named (binop_text (arith_op o)) = Some o)
        by (destruct o; repeat split; reflexivity). destruct Op as (-> & -> & ->).
      rewrite (IHx _ _ _ (operand_of _ _ Ex) F1 eq_refl), (IHy _ _ _ (operand_of _ _ Ey) F2 eq_refl). cbv zeta. fold k. rewrite W1, W2.
      assert (divides o && ((vy =? 0) || negb (in_range k (Z.quot vx vy))) = false) as ->.
      { destruct (divides o); [|reflexivity]. cbn [andb] in D |- *. rewrite (F5 eq_refl). destruct (vy =? 0); [discriminate D|reflexivity]. }
      rewrite (result_fits _ _ F4). reflexivity.
    - destruct (Literal_load (syntax x)) as [lx|] eqn:Lx; [|discriminate]. destruct (Literal_load (syntax y)) as [ly|] eqn:Ly; [|discriminate]. injection L as <-.
      cbn [S_Value.fits] in F. destruct F as (F1 & F2 & F3).
      cbn [operand_value rust_value] in E. apply two_inv in E. destruct E as (u & vx & vy & Ex & Ey & E).
      destruct (is_integer u || rtype_eqb u RBool); [|discriminate]. injection E as <- <-.
      destruct (both_fit_inv _ _ _ _ _ _ F3 Ex Ey) as (R1 & R2 & W1 & W2). cbn [tree c_value]. set (k := common (type_in_c x) (type_in_c y)) in *.
      assert (Op : String.eqb (binop_text (bit_op o)) "&&" = false /\ String.eqb (binop_text (bit_op o)) "||" = false /\ arith_named (binop_text (bit_op o)) = None /\ bit_named (binop_text (bit_op o)) = Some o)
        by (destruct o; repeat split; reflexivity). destruct Op as (-> & -> & -> & ->).
      rewrite (IHx _ _ _ (operand_of _ _ Ex) F1 eq_refl), (IHy _ _ _ (operand_of _ _ Ey) F2 eq_refl). cbv zeta. fold k. rewrite W1, W2. reflexivity.
    - destruct (Literal_load (syntax x)) as [lx|] eqn:Lx; [|discriminate]. destruct (Literal_load (syntax y)) as [ly|] eqn:Ly; [|discriminate]. injection L as <-.
      cbn [S_Value.fits] in F. destruct F as (F1 & F2 & F3 & F4). assert (Ee : rust_value names (RShl x y) = Some (t, v)) by exact E. rewrite (value_of_eq _ _ _ Ee) in F4.
      cbn [operand_value rust_value] in E.
      destruct (rust_value names x) as [[u vx]|] eqn:Ex; [|discriminate]. destruct (rust_value names y) as [[u' vy]|] eqn:Ey; [|discriminate].
      destruct (is_integer u && is_integer u' && (0 <=? vy) && (vy <? bits (wide (representation u)))) eqn:D; [|discriminate]. injection E as <- Ev.
      rewrite !andb_true_iff, Z.leb_le, Z.ltb_lt in D. destruct D as ((_ & D1) & D2). rewrite (value_of_eq _ _ _ Ex), (value_of_eq _ _ _ Ey) in *.
      cbn [tree c_value binop_text String.eqb Ascii.eqb Bool.eqb]. rewrite (IHx _ _ _ (operand_of _ _ Ex) F1 eq_refl), (IHy _ _ _ (operand_of _ _ Ey) F2 eq_refl). cbv zeta.
      cbn [arith_named bit_named compare_named lookup String.eqb Ascii.eqb Bool.eqb S_Value.type_in_c]. set (p := promote (type_in_c x)) in *.
      rewrite (proj2 (Z.leb_le 0 vy) D1), (proj2 (Z.ltb_lt _ _) F3). cbn [andb].
      destruct (signed p) eqn:Sp.
      + destruct F4 as (P & F4 & F5). rewrite (proj2 (Z.ltb_ge vx 0) P). cbn [andb]. rewrite F4 in F5. rewrite (result_fits _ _ F5). congruence.
      + cbn [andb]. unfold result. rewrite Sp. congruence.
    - destruct (Literal_load (syntax x)) as [lx|] eqn:Lx; [|discriminate]. destruct (Literal_load (syntax y)) as [ly|] eqn:Ly; [|discriminate]. injection L as <-.
      cbn [S_Value.fits] in F. destruct F as (F1 & F2 & F3).
      cbn [operand_value rust_value] in E.
      destruct (rust_value names x) as [[u vx]|] eqn:Ex; [|discriminate]. destruct (rust_value names y) as [[u' vy]|] eqn:Ey; [|discriminate].
      destruct (is_integer u && is_integer u' && (0 <=? vy) && (vy <? bits (wide (representation u)))) eqn:D; [|discriminate]. injection E as <- Ev.
      rewrite !andb_true_iff, Z.leb_le, Z.ltb_lt in D. destruct D as ((_ & D1) & D2). rewrite (value_of_eq _ _ _ Ey) in F3.
      cbn [tree c_value binop_text String.eqb Ascii.eqb Bool.eqb]. rewrite (IHx _ _ _ (operand_of _ _ Ex) F1 eq_refl), (IHy _ _ _ (operand_of _ _ Ey) F2 eq_refl). cbv zeta.
      cbn [arith_named bit_named compare_named lookup String.eqb Ascii.eqb Bool.eqb S_Value.type_in_c]. set (p := promote (type_in_c x)) in *.
      rewrite (proj2 (Z.leb_le 0 vy) D1), (proj2 (Z.ltb_lt _ _) F3). cbn [andb]. congruence.
    - destruct (Literal_load (syntax x)) as [lx|] eqn:Lx; [|discriminate]. destruct (Literal_load (syntax y)) as [ly|] eqn:Ly; [|discriminate]. injection L as <-.
      cbn [S_Value.fits] in F. destruct F as (F1 & F2 & F3).
      cbn [operand_value rust_value] in E. apply two_inv in E. destruct E as (u & vx & vy & Ex & Ey & E). injection E as <- <-.
      destruct (both_fit_inv _ _ _ _ _ _ F3 Ex Ey) as (R1 & R2 & W1 & W2). cbn [tree c_value]. set (k := common (type_in_c x) (type_in_c y)) in *.
      assert (Op : String.eqb (binop_text (compare_op o)) "&&" = false /\ String.eqb (binop_text (compare_op o)) "||" = false /\ arith_named (binop_text (compare_op o)) = None
                   /\ bit_named (binop_text (compare_op o)) = None /\ compare_named (binop_text (compare_op o)) = Some o)
        by (destruct o; repeat split; reflexivity). destruct Op as (-> & -> & -> & -> & ->).
      rewrite (IHx _ _ _ (operand_of _ _ Ex) F1 eq_refl), (IHy _ _ _ (operand_of _ _ Ey) F2 eq_refl). cbv zeta. fold k. rewrite W1, W2. reflexivity.
    - destruct (Literal_load (syntax x)) as [lx|] eqn:Lx; [|discriminate]. destruct (Literal_load (syntax y)) as [ly|] eqn:Ly; [|discriminate]. injection L as <-.
      cbn [S_Value.fits] in F. destruct F as (F1 & F2). cbn [operand_value rust_value] in E.
      destruct (rust_value names x) as [[[| | |] vx]|] eqn:Ex; try discriminate. rewrite (value_of_eq _ _ _ Ex) in F2.
      cbn [tree c_value binop_text String.eqb Ascii.eqb Bool.eqb]. rewrite (IHx _ _ _ (operand_of _ _ Ex) F1 eq_refl). destruct (Z.eqb_spec vx 0) as [Z0|Z0].
      + injection E as <- <-. reflexivity.
      + destruct (rust_value names y) as [[[| | |] vy]|] eqn:Ey; try discriminate. injection E as <- <-. rewrite (IHy _ _ _ (operand_of _ _ Ey) (F2 Z0) eq_refl).
        destruct (rust_valid _ _ _ Ey) as (_ & Bv & _). destruct (Bv eq_refl) as [-> | ->]; reflexivity.
    - destruct (Literal_load (syntax x)) as [lx|] eqn:Lx; [|discriminate]. destruct (Literal_load (syntax y)) as [ly|] eqn:Ly; [|discriminate]. injection L as <-.
      cbn [S_Value.fits] in F. destruct F as (F1 & F2). cbn [operand_value rust_value] in E.
      destruct (rust_value names x) as [[[| | |] vx]|] eqn:Ex; try discriminate. rewrite (value_of_eq _ _ _ Ex) in F2.
      cbn [tree c_value binop_text String.eqb Ascii.eqb Bool.eqb]. rewrite (IHx _ _ _ (operand_of _ _ Ex) F1 eq_refl). destruct (Z.eqb_spec vx 0) as [Z0|Z0].
      + destruct (rust_value names y) as [[[| | |] vy]|] eqn:Ey; try discriminate. injection E as <- <-. rewrite (IHy _ _ _ (operand_of _ _ Ey) (F2 Z0) eq_refl).
        destruct (rust_valid _ _ _ Ey) as (_ & Bv & _). destruct (Bv eq_refl) as [-> | ->]; reflexivity.
      + injection E as <- <-. reflexivity.
    - destruct (Literal_load (syntax x)) as [lx|] eqn:Lx; [|discriminate]. destruct (cast_load t0) as (p & Hp & Hm). rewrite Hp in L. injection L as <-.
      cbn [operand_value rust_value] in E. destruct (rust_value names x) as [[tx vx]|] eqn:Ex; [|discriminate]. destruct (is_integer t0) eqn:I0; [|discriminate].
      injection E as <- <-. destruct (cast_value _ _ I0 Hm) as (w & W1 & W2). cbn [tree c_value]. rewrite W1, W2.
      rewrite (IH _ _ _ (operand_of _ _ Ex) F eq_refl). reflexivity.
  Qed.

  (** *** The careful way *)
  Hypothesis names_kept : forall x t v k, names x = Some (t, v) -> leaf_value c_names x = Some (k, v) -> kept t k.
  Lemma kept_promote : forall t k, kept t k -> kept t (promote k).
  Proof. intros [[] []|[]| |] [[] []]; cbn; intuition congruence. Qed.
  Lemma kept_common : forall t k k', kept t k -> kept t k' -> kept t (common k k') /\ promote (common k k') = common k k'.
  Proof. intros [[] []|[]| |] [[] []] [[] []]; cbn; intuition congruence. Qed.
  Lemma kept_covers : forall t k v, kept t k -> valid t v -> in_range (promote k) v = true.
  Proof.
    intros t k v K (R & B & Ch). apply in_range_iff in R. apply in_range_iff. unfold lowest, highest in *.
    destruct t as [[] []|[]| |], k as [[] []]; cbn in K; try (exfalso; intuition congruence); cbn [representation promote signed wide bits] in *;
      try (cbn in *; lia); try (destruct (B eq_refl) as [-> | ->]; cbn; lia); specialize (Ch eq_refl); cbn in *; lia.
  Qed.
  Lemma kept_bits : forall t k, is_integer t = true -> kept t k -> bits (wide (representation t)) <= bits (wide (promote k)).
  Proof. intros [[] []|[]| |] [[] []] I K; cbn in *; try discriminate; intuition (congruence || lia). Qed.
  Lemma kept_wide : forall t k, wide_unsigned t = true -> kept t k -> k = representation t /\ promote k = k /\ signed k = false.
  Proof. intros [[] []|[]| |] k W K; cbn in W; try discriminate; cbn in K; subst k; repeat split. Qed.
  Lemma wrap_add : forall t v, wrap t (v + size t) = wrap t v.
  Proof. intros t v. unfold wrap. fold (size t). replace (v + size t) with (v + 1 * size t) by lia. rewrite Z.mod_add by (destruct (range_size t); lia). reflexivity. Qed.

  Local Notation careful := (careful names).
  Lemma lit_careful : forall t s n, is_integer t = true -> Z.of_N n <= highest (representation t) \/ (is_signed t = true /\ lowest (representation t) <= - Z.of_N n) ->
    careful (RLit t s n) -> fits (RLit t s n) /\ kept t (literal_type t s n).
  Proof.
    intros t s n I R (C1 & C2 & C3).
    assert (Small : Z.of_N n <= 2147483648 -> let k := if in_range int (Z.of_N n) then int else if in_range (Int true W64) (Z.of_N n) then Int true W64 else Int false W64 in
              in_range k (Z.of_N n) = true /\ (promote k = Int true W32 \/ promote k = Int true W64)).
    { intros L. assert (in_range (Int true W64) (Z.of_N n) = true) as ->. { apply in_range_iff. unfold lowest, highest. cbn. lia. }
      destruct (in_range int (Z.of_N n)) eqn:Q; cbv zeta; [split; [exact Q|left; reflexivity]|split; [|right; reflexivity]].
      apply in_range_iff. unfold lowest, highest. cbn. lia. }
    unfold is_signed, lowest, highest in R.
    destruct t as [[] []|z| |]; try discriminate I; [| | | | | | | |exfalso; apply (C2 z); reflexivity].
    all: try (destruct s; cbn [literal_type S_Value.fits kept]; apply Small; cbn in R; lia).
    all: rewrite (C1 eq_refl); cbn [S_Value.fits literal_type kept]; split; [|reflexivity]; apply in_range_iff; unfold lowest, highest; cbn in R |- *.
    - assert (Z.of_N n <> 9223372036854775808) by (apply C3; reflexivity). lia.
    - destruct R as [R|[R _]]; [lia|discriminate].
    - destruct R as [R|[R _]]; [lia|discriminate].
  Qed.

  Lemma type_of_eq : forall e t v, rust_value names e = Some (t, v) -> S_Value.type_of names e = t.
  Proof. intros e t v E. unfold S_Value.type_of. rewrite E. reflexivity. Qed.
  Lemma careful_fits : forall e t v, rust_value names e = Some (t, v) -> careful e -> fits e /\ kept t (type_in_c e).
  Proof.
    induction e as [t0 s n|n|n|q|s w m|x|x IH|x IH|x IH|o x IHx y IHy|o x IHx y IHy|x IHx y IHy|x IHx y IHy|o x IHx y IHy|x IHx y IHy|x IHx y IHy|x IH t0];
      intros t v E F; pose proof (rust_valid _ _ _ E) as V; pose proof (value_of_eq _ _ _ E) as Ve; pose proof E as Ee; cbn [rust_value] in E.
    - destruct (is_integer t0) eqn:I; [|discriminate]. destruct (in_range _ _) eqn:R; [|discriminate]. injection E as <- <-. apply lit_careful; [exact I| |exact F].
      left. apply in_range_iff in R. lia.
    - destruct (in_range _ _); [|discriminate]. injection E as <- <-. split; [exact Logic.I|left; reflexivity].
    - destruct ((Z.of_N n <? 1114112) && _); [|discriminate]. injection E as <- <-. split; [exact F|left; reflexivity].
    - injection E as <- <-. split; [exact Logic.I|left; reflexivity].
    - injection E as <- <-. split; [exact F|]. destruct s, w; cbn; tauto.
    - split; [exact Logic.I|]. destruct (names_agree _ _ _ E) as (k & Hk). cbn [S_Value.type_in_c]. rewrite Hk. exact (names_kept _ _ _ _ E Hk).
    - exact (IH _ _ E F).
    - fold (operand_value x) in E. destruct (operand_value x) as [[tx vx]|] eqn:Ex; [|discriminate]. destruct (is_integer tx && is_signed tx) eqn:I; [|discriminate].
      destruct (in_range (representation tx) (- vx)) eqn:R; [|discriminate]. injection E as <- <-. apply andb_prop in I. destruct I as [I1 I2].
      assert (C : fits x /\ kept tx (type_in_c x)).
      { destruct x; try exact (IH _ _ Ex F). cbn in Ex. injection Ex as -> <-. apply lit_careful; [exact I1| |exact F]. right. split; [exact I2|]. apply in_range_iff in R. lia. }
      destruct C as [C K]. split; [|exact (kept_promote _ _ K)]. split; [exact C|]. rewrite (operand_value_of _ _ _ Ex). exact (kept_covers _ _ _ K V).
    - destruct F as [F1 F2]. destruct (rust_value names x) as [[tx vx]|] eqn:Ex; [|discriminate]. rewrite (type_of_eq _ _ _ Ex) in F2.
      destruct (IH _ _ eq_refl F1) as [C K]. cbn [S_Value.fits]. rewrite Ve, (value_of_eq _ _ _ Ex).
      assert (E' : Some (tx, if is_signed tx then - vx - 1 else highest (representation tx) - vx) = Some (t, v)).
      { destruct tx; try exact E; [destruct F2; discriminate|discriminate]. } clear E. injection E' as <- <-. unfold is_signed in *.
      split; [split; [exact C|]|exact (kept_promote _ _ K)].
      destruct F2 as [Sg|Wd].
      + rewrite Sg in *. apply wrap_id. exact (kept_covers _ _ _ K V).
      + destruct (kept_wide _ _ Wd K) as (-> & -> & Sg). rewrite Sg in *. rewrite <- wrap_add. destruct V as [V _]. rewrite <- (wrap_id _ _ V). f_equal.
        clear - Sg. unfold highest, size. rewrite Sg. lia.
    - destruct F as [F1 F2]. apply two_inv in E. destruct E as (u & vx & vy & Ex & Ey & E). destruct (is_integer u) eqn:I; [|discriminate]. cbn [andb] in E.
      destruct (negb (divides o && ((vy =? 0) || negb (in_range (representation u) (Z.quot vx vy))))) eqn:D; [|discriminate].
      destruct (in_range (representation u) (arith_value o vx vy)) eqn:R; [|discriminate]. injection E as <- <-.
      destruct (IHx _ _ Ex F1) as [Cx Kx]. destruct (IHy _ _ Ey F2) as [Cy Ky]. destruct (kept_common _ _ _ Kx Ky) as [K P].
      cbn [S_Value.fits S_Value.type_in_c]. unfold both_fit. rewrite Ve, (value_of_eq _ _ _ Ex), (value_of_eq _ _ _ Ey). rewrite <- P.
      repeat split; try assumption; try (apply (kept_covers u); [exact K|]); try (apply rust_valid with (1 := Ex)); try (apply rust_valid with (1 := Ey)); try exact V.
      + intros Dv. apply (kept_covers u); [exact K|]. apply integer_valid; [exact I|]. rewrite Dv in D. cbn [andb] in D. destruct (vy =? 0); [discriminate D|]. cbn [orb] in D.
        rewrite negb_involutive in D. exact D.
      + rewrite P. exact K.
    - destruct F as [F1 F2]. apply two_inv in E. destruct E as (u & vx & vy & Ex & Ey & E). destruct (is_integer u || rtype_eqb u RBool); [|discriminate]. injection E as <- <-.
      destruct (IHx _ _ Ex F1) as [Cx Kx]. destruct (IHy _ _ Ey F2) as [Cy Ky]. destruct (kept_common _ _ _ Kx Ky) as [K P].
      cbn [S_Value.fits S_Value.type_in_c]. unfold both_fit. rewrite (value_of_eq _ _ _ Ex), (value_of_eq _ _ _ Ey). rewrite <- P.
      repeat split; try assumption; try (apply (kept_covers u); [exact K|]); try (apply rust_valid with (1 := Ex)); try (apply rust_valid with (1 := Ey)).
      rewrite P. exact K.
    - destruct F as (F1 & F2 & F3). destruct (rust_value names x) as [[u vx]|] eqn:Ex; [|discriminate]. destruct (rust_value names y) as [[u' vy]|] eqn:Ey; [|discriminate].
      rewrite (type_of_eq _ _ _ Ex) in F3.
      destruct (is_integer u && is_integer u' && (0 <=? vy) && (vy <? bits (wide (representation u)))) eqn:D; [|discriminate]. injection E as <- <-.
      rewrite !andb_true_iff, Z.leb_le, Z.ltb_lt in D. destruct D as (_ & D2).
      destruct (IHx _ _ eq_refl F1) as [Cx Kx]. destruct (IHy _ _ eq_refl F2) as [Cy Ky].
      cbn [S_Value.fits S_Value.type_in_c]. rewrite Ve, (value_of_eq _ _ _ Ex), (value_of_eq _ _ _ Ey).
      split; [|exact (kept_promote _ _ Kx)]. destruct (kept_wide _ _ F3 Kx) as (-> & -> & ->). repeat split; assumption.
    - destruct F as (F1 & F2). destruct (rust_value names x) as [[u vx]|] eqn:Ex; [|discriminate]. destruct (rust_value names y) as [[u' vy]|] eqn:Ey; [|discriminate].
      destruct (is_integer u && is_integer u' && (0 <=? vy) && (vy <? bits (wide (representation u)))) eqn:D; [|discriminate]. injection E as <- <-.
      rewrite !andb_true_iff, Z.leb_le, Z.ltb_lt in D. destruct D as (((D0 & _) & _) & D2).
      destruct (IHx _ _ eq_refl F1) as [Cx Kx]. destruct (IHy _ _ eq_refl F2) as [Cy Ky].
      cbn [S_Value.fits S_Value.type_in_c]. rewrite (value_of_eq _ _ _ Ey). pose proof (kept_bits _ _ D0 Kx).
      split; [|exact (kept_promote _ _ Kx)]. repeat split; try assumption. lia.
    - destruct F as [F1 F2]. apply two_inv in E. destruct E as (u & vx & vy & Ex & Ey & E). injection E as <- <-.
      destruct (IHx _ _ Ex F1) as [Cx Kx]. destruct (IHy _ _ Ey F2) as [Cy Ky]. destruct (kept_common _ _ _ Kx Ky) as [K P].
      cbn [S_Value.fits S_Value.type_in_c]. unfold both_fit. rewrite (value_of_eq _ _ _ Ex), (value_of_eq _ _ _ Ey). rewrite <- P.
      repeat split; try assumption; try (apply (kept_covers u); [exact K|]); try (apply rust_valid with (1 := Ex)); try (apply rust_valid with (1 := Ey)).
      left. reflexivity.
    - destruct F as [F1 F2]. destruct (rust_value names x) as [[[| | |] vx]|] eqn:Ex; try discriminate. destruct (IHx _ _ eq_refl F1) as [Cx Kx].
      cbn [S_Value.fits]. rewrite (value_of_eq _ _ _ Ex). destruct (Z.eqb_spec vx 0) as [Z0|Z0].
      + injection E as <- <-. split; [split; [exact Cx|congruence]|left; reflexivity].
      + destruct (rust_value names y) as [[[| | |] vy]|] eqn:Ey; try discriminate. injection E as <- <-. destruct (IHy _ _ eq_refl F2). split; [split; [exact Cx|tauto]|left; reflexivity].
    - destruct F as [F1 F2]. destruct (rust_value names x) as [[[| | |] vx]|] eqn:Ex; try discriminate. destruct (IHx _ _ eq_refl F1) as [Cx Kx].
      cbn [S_Value.fits]. rewrite (value_of_eq _ _ _ Ex). destruct (Z.eqb_spec vx 0) as [Z0|Z0].
      + destruct (rust_value names y) as [[[| | |] vy]|] eqn:Ey; try discriminate. injection E as <- <-. destruct (IHy _ _ eq_refl F2). split; [split; [exact Cx|tauto]|left; reflexivity].
      + injection E as <- <-. split; [split; [exact Cx|congruence]|left; reflexivity].
    - destruct (rust_value names x) as [[u vx]|] eqn:Ex; [|discriminate]. destruct (is_integer t0) eqn:I; [|discriminate]. injection E as <- <-.
      destruct (IH _ _ eq_refl F) as [C K]. split; [exact C|]. destruct t0 as [[] []|[]| |]; try discriminate I; cbn; tauto.
  Qed.
End Values.

(** ** Such expressions can be written *)
Lemma number_words : forall s q, S_Lex.all_wordchars s = true -> snd (number q s) = "".
Proof.
  induction s as [|a s IH]; intros q Hs; [reflexivity|]. cbn [S_Lex.all_wordchars] in Hs. apply andb_prop in Hs. destruct Hs as [Ha Hs].
  cbn [number]. rewrite Ha. cbn [orb]. specialize (IH (exponent a) Hs). destruct (number (exponent a) s). exact IH.
Qed.
Lemma words_app : forall s r, S_Lex.all_wordchars s = true -> S_Lex.all_wordchars r = true -> S_Lex.all_wordchars (s ++ r) = true.
Proof. induction s as [|a s IH]; intros r Hs Hr; [exact Hr|]. cbn [S_Lex.all_wordchars append] in *. apply andb_prop in Hs. destruct Hs as [-> Hs]. exact (IH _ Hs Hr). Qed.
Lemma digits_words : forall d, S_Lex.all_wordchars (NilEmpty.string_of_uint d) = true.
Proof. induction d; try reflexivity; exact IHd. Qed.
Lemma decimal_number : forall n s, S_Lex.all_wordchars s = true -> is_number (decimal n ++ s) = true.
Proof.
  intros n s Hs. rewrite decimal_digits. assert (N : snd (number false (NilEmpty.string_of_uint (N.to_uint n) ++ s)) = "").
  { apply number_words. apply words_app; [apply digits_words|exact Hs]. }
  pose proof (to_uint_not_nil n) as Q. destruct (N.to_uint n) as [|u|u|u|u|u|u|u|u|u|u]; [congruence|..]; cbn [NilEmpty.string_of_uint append is_number] in N |- *; rewrite N; reflexivity.
Qed.
Lemma suffix_words : forall n s, S_Lex.all_wordchars (int_suffix n s) = true.
Proof. intros n s. unfold int_suffix. destruct (String.eqb s "u64"), (String.eqb s "i64"), (String.eqb s "u32"), (9223372036854775807 <? n)%N; reflexivity. Qed.
Lemma char_text : forall n, (n <= 255)%N -> is_character ("'" ++ escape_default n ++ "'") = true.
Proof.
  intros n L.
  assert (F : forallb (fun k => is_character ("'" ++ escape_default k ++ "'")) (map N.of_nat (seq 0 256)) = true) by (vm_compute; reflexivity).
  rewrite forallb_forall in F. apply F. apply in_map_iff. exists (N.to_nat n). split; [apply N2Nat.id|]. apply in_seq. lia.
Qed.

Section Written.
  Variables (fuel : nat) (b : Bindings) (types : string -> bool).
  Hypothesis types_ok : standard_types types.
  Hypothesis words_ok : Forall (fun a => named_type a = None) (pointer_words (dialect_of (b_config b))).

  Lemma standard_word : forall w, In w ("true" :: "false" :: map fst limits) -> value_word types w = true.
  Proof.
    intros w I. destruct types_ok as [_ T]. unfold value_word. rewrite (T w I).
    assert (F : forallb (fun w => S_Lex.is_ident w && negb (mem_str w ("const" :: tag_words ++ specifier_words))) ("true" :: "false" :: map fst limits) = true) by (vm_compute; reflexivity).
    rewrite forallb_forall in F. rewrite (F w I). reflexivity.
  Qed.
  Lemma standard_type : forall w, named_type w <> None -> types w && type_word b w = true.
  Proof.
    intros w Nw. rewrite (proj1 types_ok w Nw). cbn [andb]. unfold type_word.
    assert (S_Lex.is_ident w && negb (mem_str w ("const" :: tag_words ++ specifier_words)) = true) as P.
    { unfold named_type in Nw. match type of Nw with lookup w ?l <> None => assert (F : forallb (fun x => S_Lex.is_ident (fst x) && negb (mem_str (fst x) ("const" :: tag_words ++ specifier_words))) l = true) by (vm_compute; reflexivity);
        destruct (lookup w l) as [k|] eqn:E; [|congruence]; apply lookup_In in E; rewrite forallb_forall in F; exact (F _ E) end. }
    apply andb_prop in P. destruct P as [-> P]. cbn [andb]. apply negb_true_iff in P. apply negb_true_iff.
    apply mem_str_false. apply mem_str_false in P. intros I. apply in_app_or in I. destruct I as [I|I]; [exact (P I)|].
    rewrite Forall_forall in words_ok. exact (Nw (words_ok _ I)).
  Qed.

  Lemma no_minus : forall e l, Literal_load (syntax e) = Some l -> minus_first e = false -> starts_with_minus l = false.
  Proof.
    induction e; intros l L M; cbn [syntax Literal_load lit_text] in L; try discriminate M;
      try (injection L as <-; reflexivity);
      try (destruct (Literal_load (syntax e1)); [|discriminate]; destruct (Literal_load (syntax e2)); [|discriminate]; injection L as <-; reflexivity).
    - exact (IHe _ L M).
    - destruct (Literal_load (syntax e)); [|discriminate]. injection L as <-. reflexivity.
    - destruct (Literal_load (syntax e)); [|discriminate]. destruct (cast_load t) as (p & Hp & _). rewrite Hp in L. injection L as <-. reflexivity.
  Qed.
  Lemma expression_written : forall e l, writable (fun x => value_word types x = true) e -> Literal_load (syntax e) = Some l -> expressible fuel b types false l.
  Proof.
    induction e as [t0 s n|n|n|q|s w m|x|x IH|x IH|x IH|o x IHx y IHy|o x IHx y IHy|x IHx y IHy|x IHx y IHy|o x IHx y IHy|x IHx y IHy|x IHx y IHy|x IH t0];
      intros l W L; cbn [syntax Literal_load lit_text] in L;
      try (destruct (Literal_load (syntax x)) as [lx|] eqn:Lx; [|discriminate]; destruct (Literal_load (syntax y)) as [ly|] eqn:Ly; [|discriminate]; injection L as <-;
           destruct W as [W1 W2]; cbn [expressible]; repeat split; [try (destruct o); discriminate|exact (IHx _ W1 eq_refl)|exact (IHy _ W2 eq_refl)]).
    - injection L as <-. left. apply decimal_number, suffix_words.
    - injection L as <-. left. rewrite <- (sapp_nil_r (decimal n)). apply decimal_number. reflexivity.
    - injection L as <-. cbn in W. rewrite (proj2 (N.leb_le n 255) W). right. left. exact (char_text n W).
    - injection L as <-. right. right. apply standard_word. destruct q; cbn; tauto.
    - injection L as <-. left. apply standard_word. cbn in W. destruct s, w, m; cbn; try tauto; destruct W; discriminate.
    - injection L as <-. left. exact W.
    - exact (IH _ W L).
    - destruct (Literal_load (syntax x)) as [lx|] eqn:Lx; [|discriminate]. injection L as <-. destruct W as [W1 W2]. cbn [expressible]. split; [left; reflexivity|].
      split; [exact (IH _ W1 eq_refl)|]. intros _. exact (no_minus _ _ Lx W2).
    - destruct (Literal_load (syntax x)) as [lx|] eqn:Lx; [|discriminate]. injection L as <-. cbn [expressible]. split; [right; reflexivity|].
      split; [exact (IH _ W eq_refl)|]. discriminate.
    - destruct (Literal_load (syntax x)) as [lx|] eqn:Lx; [|discriminate]. destruct (cast_load t0) as (p & Hp & Hm). rewrite Hp in L. injection L as <-. destruct W as [W1 W2].
      split; [|exact (IH _ W1 eq_refl)].
      destruct (cast_value b t0 p W2 Hm) as (w & Hw & Hn). 
      assert (Hp' : primitive (b_config b) p = [w]) by (destruct p; cbn [c_type] in Hw; congruence).
      assert (T : types w && type_word b w = true) by (apply standard_type; rewrite Hn; discriminate).
      assert (V : p <> PVaList) by (destruct t0 as [[] []|[]| |]; cbn in Hm; congruence).
      destruct p; try congruence; cbn [cast_type]; rewrite Hp'; cbn [forallb]; rewrite T, orb_true_r; reflexivity.
  Qed.
End Written.

(** ** Constants that use each other *)
Lemma kept_representation : forall t, kept t (representation t).
Proof. intros [[] []|[]| |]; cbn; tauto. Qed.
Definition value_in_c (fuel : nat) (b : Bindings) (e : rexpr) (names : string -> option (itype * Z)) : option (itype * Z) :=
  match Literal_load (syntax e) with Some l => c_value names (tree fuel b l) | None => None end.
Definition agrees (names : string -> option (rtype * Z)) (c_names : string -> option (itype * Z)) : Prop :=
  forall x t v, names x = Some (t, v) -> free_name x /\ valid t v /\ exists k, c_names x = Some (k, v) /\ kept t k.
Lemma constants_agree : forall fuel b l names c_names names', agrees names c_names -> careful_constants l names -> rust_constants l names = Some names' ->
  exists c_names', c_constants (value_in_c fuel b) l c_names = Some c_names' /\ agrees names' c_names'.
Proof.
  intros fuel b l. induction l as [|k r IH]; intros names c_names names' A C E; cbn [rust_constants c_constants careful_constants] in *.
  - injection E as <-. eexists. split; [reflexivity|exact A].
  - destruct C as (C1 & C2 & C3). destruct (rust_value names (k_expr k)) as [[t v]|] eqn:Ev; [|discriminate].
    destruct (rtype_eqb t (k_type k)) eqn:Et; [|discriminate]. apply rtype_eqb_eq in Et.
    destruct (loads (k_expr k)) as (l & L). unfold value_in_c at 1. rewrite L.
    assert (A1 : forall x t v, names x = Some (t, v) -> exists k, leaf_value c_names x = Some (k, v)).
    { intros x u y E1. destruct (A _ _ _ E1) as (F & _ & q & Q & _). exists q. rewrite F. exact Q. }
    assert (A2 : forall x t v, names x = Some (t, v) -> valid t v) by (intros x u y E1; apply (A _ _ _ E1)).
    assert (A3 : forall x t v k, names x = Some (t, v) -> leaf_value c_names x = Some (k, v) -> kept t k).
    { intros x u y q E1 E2. destruct (A _ _ _ E1) as (F & _ & q' & Q & K). rewrite F, Q in E2. injection E2 as <-. exact K. }
    destruct (careful_fits names c_names A1 A2 A3 _ _ _ Ev C2) as [F K].
    rewrite (values_from fuel b names c_names A1 A2 _ _ _ _ (operand_of _ _ _ Ev) F L).
    apply (IH _ _ _) with (2 := C3) (3 := E). intros x u y E1. cbn beta in E1 |- *.
    pose proof (rust_valid names A2 _ _ _ Ev) as V.
    destruct (String.eqb_spec x (k_name k)) as [->|N].
    + injection E1 as <- <-. split; [exact C1|]. split; [exact V|]. destruct (k_macro k); [eauto|]. eexists. rewrite <- Et. split; [rewrite wrap_id; [reflexivity|exact (proj1 V)]|apply kept_representation].
    + exact (A _ _ _ E1).
Qed.

Lemma characters_lost : forall fuel b n, (n <= 255)%N -> basic_character n = false ->
  rust_value (fun _ => None) (RCharLit n) = Some (RChar, Z.of_N n) /\ value_in_c fuel b (RCharLit n) (fun _ => None) = None.
Proof.
  intros fuel b n L B. split.
  - cbn [rust_value]. rewrite (proj2 (Z.ltb_lt (Z.of_N n) 1114112)) by lia. rewrite (proj2 (Z.leb_gt 55296 (Z.of_N n))) by lia. reflexivity.
  - unfold value_in_c. cbn [syntax Literal_load lit_text]. rewrite (proj2 (N.leb_le n 255) L). cbn [tree c_value].
    assert (F : forallb (fun k => basic_character k || match leaf_value (fun _ => None) ("'" ++ escape_default k ++ "'") with None => true | Some _ => false end) (map N.of_nat (seq 0 256)) = true)
      by (vm_compute; reflexivity).
    rewrite forallb_forall in F. specialize (F n (proj2 (in_map_iff _ _ _) (ex_intro _ (N.to_nat n) (conj (N2Nat.id n) (proj2 (in_seq 256 0 (N.to_nat n)) ltac:(lia)))))).
    rewrite B in F. cbn [orb] in F. destruct (leaf_value _ _); [discriminate F|reflexivity].
Qed.
