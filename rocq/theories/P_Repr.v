Require Import Coq.Strings.String Coq.Strings.Ascii Coq.Lists.List Coq.Bool.Bool Coq.Arith.Arith Coq.NArith.NArith Lia
  Coq.Sorting.Permutation.
From Verif Require Import Base P_Base M_Config M_Cfg M_Type M_Ir M_Attr S_Attr.
Import ListNotations.
Open Scope string_scope.

(** ** Numerals *)
Lemma digit_iff : forall c d, digit c d <-> digit_value c = Some d.
Proof.
  intros c d. unfold digit, digit_value. split.
  - intros (L & ->). rewrite N_ascii_embedding by lia.
    replace (N.leb 48 (48 + d)) with true by (symmetry; apply N.leb_le; lia).
    replace (N.leb (48 + d) 57) with true by (symmetry; apply N.leb_le; lia). cbn [andb]. f_equal. lia.
  - destruct (N.leb 48 (N_of_ascii c)) eqn:A; [|discriminate]. destruct (N.leb (N_of_ascii c) 57) eqn:B; [|discriminate].
    cbn [andb]. intro E. injection E as <-. apply N.leb_le in A, B. split; [lia|].
    replace (48 + (N_of_ascii c - 48))%N with (N_of_ascii c) by lia. now rewrite ascii_N_embedding.
Qed.
Lemma parse_snoc : forall s c acc, parse_digits (s ++ String c "") acc =
  match parse_digits s acc with Some n => match digit_value c with Some d => Some (10 * n + d)%N | None => None end | None => None end.
Proof.
  induction s as [|x s IH]; intros c acc; cbn [append parse_digits]; [reflexivity|]. destruct (digit_value x); [apply IH | reflexivity].
Qed.
Lemma string_snoc : forall P : string -> Prop, P "" -> (forall s c, P s -> P (s ++ String c "")) -> forall s, P s.
Proof.
  intros P P0 PS. assert (G : forall n s, String.length s = n -> P s).
  { induction n as [|n IH]; intros s L.
    - destruct s; [exact P0 | discriminate].
    - assert (E : exists t c, s = t ++ String c "").
      { clear - L. revert n L. induction s as [|a s IH]; intros n L; [discriminate|]. destruct s as [|b s].
        - exists "", a. reflexivity.
        - destruct n as [|n]; [discriminate|]. destruct (IH n) as (t & c & ->); [cbn in *; lia|]. exists (String a t), c. reflexivity. }
      destruct E as (t & c & ->). apply PS. apply IH. rewrite slength_app in L. cbn in L. lia. }
  intro s. now apply (G (String.length s)).
Qed.
Lemma numeral_iff : forall s n, numeral s n <-> s <> "" /\ parse_digits s 0 = Some n.
Proof.
  intros s n. split.
  - intro Nu. induction Nu as [c d D|s c n d Nu IH D].
    + split; [discriminate|]. apply digit_iff in D. cbn [parse_digits]. rewrite D. reflexivity.
    + destruct IH as (Ne & E). split; [now destruct s|]. apply digit_iff in D. now rewrite parse_snoc, E, D.
  - revert n. induction s as [|s c IH] using string_snoc; intros n (Ne & E); [congruence|].
    rewrite parse_snoc in E. destruct (parse_digits s 0) as [m|] eqn:Em; [|discriminate].
    destruct (digit_value c) as [d|] eqn:Ed; [|discriminate]. injection E as <-. apply digit_iff in Ed.
    destruct s as [|x s].
    + cbn in Em. injection Em as <-. replace (10 * 0 + d)%N with d by lia. now constructor.
    + apply num_more; [|exact Ed]. apply IH. split; [discriminate | reflexivity].
Qed.
Lemma numeral_head : forall s n, numeral s n -> match s with String "+" r => r | _ => s end = s /\ s <> "".
Proof.
  intros s n Nu. apply numeral_iff in Nu as (Ne & E). split; [|exact Ne].
  destruct s as [|c s]; [reflexivity|]. cbn [parse_digits] in E.
  destruct (digit_value c) eqn:D; [|discriminate].
  destruct c as [b0 b1 b2 b3 b4 b5 b6 b7].
  destruct b0, b1, b2, b3, b4, b5, b6, b7; try reflexivity; discriminate D.
Qed.
Lemma parse_u64_iff : forall a n, parse_u64 a = Some n <-> exists plus t, (plus = "" \/ plus = "+") /\ a = plus ++ t /\ numeral t n /\ (n < 2 ^ 64)%N.
Proof.
  intros a n. unfold parse_u64. split.
  - intro E.
    assert (X : exists plus t, (plus = "" \/ plus = "+") /\ a = plus ++ t /\ t = match a with String "+" r => r | _ => a end).
    { destruct a as [|c r].
      { exists "", "". auto. }
      destruct (Ascii.eqb_spec c "+"%char) as [->|Nc].
      - exists "+", r. auto.
      - exists "", (String c r). split; [auto|]. split; [reflexivity|].
        destruct c as [b0 b1 b2 b3 b4 b5 b6 b7].
        destruct b0, b1, b2, b3, b4, b5, b6, b7; try reflexivity. congruence. }
    destruct X as (plus & t & Hp & Ea & Et). rewrite <- Et in E. exists plus, t. split; [exact Hp|]. split; [exact Ea|].
    destruct (String.eqb_spec t "") as [?|Ne]; [discriminate|].
    destruct (parse_digits t 0) as [m|] eqn:Em; [|discriminate]. destruct (N.ltb_spec m (2 ^ 64)) as [L|]; [|discriminate].
    injection E as <-. split; [|exact L]. now apply numeral_iff.
  - intros (plus & t & Hp & -> & Nu & L). destruct (numeral_head _ _ Nu) as (Eh & Ne).
    assert (Et : match plus ++ t with String "+" r => r | _ => plus ++ t end = t).
    { destruct Hp as [-> | ->]; [exact Eh | reflexivity]. }
    rewrite Et. rewrite (proj2 (String.eqb_neq t "") Ne). apply numeral_iff in Nu as (_ & ->).
    now rewrite (proj2 (N.ltb_lt n (2 ^ 64)) L).
Qed.
Lemma pos_power_iff : forall p, pos_power_of_two p = true <-> exists k, Npos p = (2 ^ k)%N.
Proof.
  induction p as [p IH|p IH|]; cbn [pos_power_of_two].
  - split; [discriminate|]. intros (k & E). destruct (N.eq_dec k 0) as [->|Nk]; [discriminate|].
    replace k with (N.succ (N.pred k)) in E by lia. rewrite N.pow_succ_r in E by lia. lia.
  - rewrite IH. split; intros (k & E).
    + exists (N.succ k). rewrite N.pow_succ_r by lia. rewrite <- E. reflexivity.
    + destruct (N.eq_dec k 0) as [->|Nk]; [discriminate|]. exists (N.pred k).
      replace k with (N.succ (N.pred k)) in E by lia. rewrite N.pow_succ_r in E by lia. lia.
  - split; [|reflexivity]. intros _. exists 0%N. reflexivity.
Qed.
Lemma power_iff : forall n, is_power_of_two n = true <-> exists k, n = (2 ^ k)%N.
Proof.
  intros [|p]; [|apply pos_power_iff]. split; [discriminate|]. intros (k & E). pose proof (N.pow_nonzero 2 k ltac:(lia)). congruence.
Qed.

(** ** Hints *)
Definition classify (h : string * option string) : option hint :=
  match h with
  | (s, None) => match int_hint s with
                 | Some t => Some (HInt t)
                 | None => if String.eqb s "C" then Some HC else if String.eqb s "transparent" then Some HTransparent
                           else if String.eqb s "packed" then Some HPacked else None
                 end
  | (s, Some a) => if String.eqb s "align"
                   then match parse_u64 a with Some n => if is_power_of_two n then Some (HAlign n) else None | None => None end
                   else None
  end.
Definition take (k : hint) (r : Repr) : option Repr :=
  match k with
  | HInt t => match rp_ty r with Some _ => None | None => Some {| rp_style := rp_style r; rp_ty := Some t; rp_align := rp_align r |} end
  | HC => Some {| rp_style := ReprC; rp_ty := rp_ty r; rp_align := rp_align r |}
  | HTransparent => Some {| rp_style := ReprTransparent; rp_ty := rp_ty r; rp_align := rp_align r |}
  | HPacked => match rp_align r with Some _ => None | None => Some {| rp_style := rp_style r; rp_ty := rp_ty r; rp_align := Some Packed |} end
  | HAlign n => match rp_align r with Some _ => None | None => Some {| rp_style := rp_style r; rp_ty := rp_ty r; rp_align := Some (Align n) |} end
  end.
Lemma apply_classify : forall h r, apply_hint h r = match classify h with Some k => take k r | None => None end.
Proof.
  intros [s [a|]] r; unfold apply_hint, classify.
  - destruct (String.eqb s "align"); [|reflexivity]. destruct (parse_u64 a); [|reflexivity]. now destruct (is_power_of_two n).
  - destruct (int_hint s); [reflexivity|]. destruct (String.eqb s "C"); [reflexivity|].
    destruct (String.eqb s "transparent"); [reflexivity|]. now destruct (String.eqb s "packed").
Qed.
Lemma int_hint_iff : forall s t, int_hint s = Some t <-> In (s, t) int_types.
Proof.
  intros s t. unfold int_hint, int_types. cbn [lookup In]. split.
  - repeat (match goal with |- context [String.eqb s ?x] =>
              let E := fresh in destruct (String.eqb s x) eqn:E;
              [apply String.eqb_eq in E; subst s; intro Q; injection Q as <-; tauto | clear E] end).
    discriminate.
  - intros Q. repeat (destruct Q as [Q|Q]; [injection Q as <- <-; reflexivity|]). destruct Q.
Qed.
Lemma classify_means : forall h k, classify h = Some k <-> means h k.
Proof.
  intros [s [a|]] k; cbn [classify]; split.
  - destruct (String.eqb_spec s "align") as [->|]; [|discriminate]. destruct (parse_u64 a) as [n|] eqn:Ea; [|discriminate].
    destruct (is_power_of_two n) eqn:Ep; [|discriminate]. intro E. injection E as <-.
    apply parse_u64_iff in Ea as (plus & t & Hp & -> & Nu & L). apply power_iff in Ep as (j & ->).
    apply me_align with j; auto. apply N.pow_lt_mono_r_iff in L; [exact L | lia].
  - intro M. inversion M; subst. change (String.eqb "align" "align") with true. cbv iota.
    assert (P : parse_u64 (plus ++ t) = Some (2 ^ k0)%N).
    { apply parse_u64_iff. exists plus, t. repeat split; auto. apply N.pow_lt_mono_r; lia. }
    rewrite P. rewrite (proj2 (power_iff _)); [reflexivity | eauto].
  - destruct (int_hint s) as [t|] eqn:Ei.
    + intro E. injection E as <-. apply int_hint_iff in Ei. now constructor.
    + destruct (String.eqb_spec s "C") as [->|]; [intro E; injection E as <-; constructor|].
      destruct (String.eqb_spec s "transparent") as [->|]; [intro E; injection E as <-; constructor|].
      destruct (String.eqb_spec s "packed") as [->|]; [intro E; injection E as <-; constructor | discriminate].
  - intro M. inversion M; subst; try reflexivity. apply int_hint_iff in H0. now rewrite H0.
Qed.

Fixpoint takes (ks : list hint) (r : Repr) : option Repr :=
  match ks with [] => Some r | k :: t => let? r' := take k r in takes t r' end.
Lemma apply_hints_takes : forall hs r r', apply_hints hs r = Some r' <-> exists ks, Forall2 means hs ks /\ takes ks r = Some r'.
Proof.
  induction hs as [|h hs IH]; intros r r'; cbn [apply_hints].
  - split.
    + intro E. exists []. split; [constructor | exact E].
    + intros (ks & F & E). inversion F; subst. exact E.
  - rewrite apply_classify. split.
    + destruct (classify h) as [k|] eqn:Ek; [|discriminate]. destruct (take k r) as [r1|] eqn:Et; [|discriminate].
      intro E. apply IH in E as (ks & F & E). exists (k :: ks). split.
      * constructor; [now apply classify_means | exact F].
      * cbn [takes]. now rewrite Et.
    + intros (ks & F & E). inversion F as [|? k ? ks' M F']; subst. apply classify_means in M. rewrite M. cbn [takes] in E.
      destruct (take k r) as [r1|]; [|discriminate]. apply IH. eauto.
Qed.
Definition opt_list {A} (o : option A) : list A := match o with Some x => [x] | None => [] end.
Definition asks_from (r0 : Repr) (hs : list hint) (r : Repr) : Prop :=
  length (opt_list (rp_ty r0) ++ ints hs) <= 1 /\ length (opt_list (rp_align r0) ++ alignments hs) <= 1 /\
  rp_ty r = hd_error (opt_list (rp_ty r0) ++ ints hs) /\ rp_align r = hd_error (opt_list (rp_align r0) ++ alignments hs) /\
  rp_style r = last (styles hs) (rp_style r0).
Lemma last_cons : forall A (l : list A) x d, last (x :: l) d = last l x.
Proof. intros A l. induction l as [|y l IH]; intros x d; [reflexivity|]. change (last (y :: l) d = last (y :: l) x). now rewrite !IH. Qed.
Lemma takes_asks : forall ks r r', takes ks r = Some r' <-> asks_from r ks r'.
Proof.
  induction ks as [|k ks IH]; intros r r'.
  - cbn [takes]. unfold asks_from. cbn. rewrite !app_nil_r. split.
    + intro E. injection E as <-. destruct (rp_ty r), (rp_align r); cbn; repeat split; auto.
    + intros (_ & _ & A & B & C). destruct r as [s t a], r' as [s' t' a']; cbn in *. subst. destruct t, a; reflexivity.
  - cbn [takes]. destruct k; cbn [take].
    + unfold asks_from. cbn [ints alignments styles filter_map]. fold ints alignments styles.
      destruct (rp_ty r) eqn:Ty.
      * split; [discriminate|]. cbn. intros (L & _). lia.
      * rewrite IH. unfold asks_from. cbn [rp_ty rp_align rp_style opt_list app]. reflexivity.
    + rewrite IH. unfold asks_from. cbn [rp_ty rp_align rp_style]. 
      change (ints (HC :: ks)) with (ints ks). change (alignments (HC :: ks)) with (alignments ks).
      change (styles (HC :: ks)) with (ReprC :: styles ks). now rewrite last_cons.
    + rewrite IH. unfold asks_from. cbn [rp_ty rp_align rp_style]. 
      change (ints (HTransparent :: ks)) with (ints ks). change (alignments (HTransparent :: ks)) with (alignments ks).
      change (styles (HTransparent :: ks)) with (ReprTransparent :: styles ks). now rewrite last_cons.
    + unfold asks_from. change (ints (HPacked :: ks)) with (ints ks). change (alignments (HPacked :: ks)) with (Packed :: alignments ks).
      change (styles (HPacked :: ks)) with (styles ks). destruct (rp_align r) eqn:Al.
      * split; [discriminate|]. cbn. intros (_ & L & _). lia.
      * rewrite IH. unfold asks_from. cbn [rp_ty rp_align rp_style opt_list app]. reflexivity.
    + unfold asks_from. change (ints (HAlign n :: ks)) with (ints ks). change (alignments (HAlign n :: ks)) with (Align n :: alignments ks).
      change (styles (HAlign n :: ks)) with (styles ks). destruct (rp_align r) eqn:Al.
      * split; [discriminate|]. cbn. intros (_ & L & _). lia.
      * rewrite IH. unfold asks_from. cbn [rp_ty rp_align rp_style opt_list app]. reflexivity.
Qed.
Lemma hints_asked : forall hs r, apply_hints hs Repr_default = Some r <-> exists ks, Forall2 means hs ks /\ asks ks r.
Proof.
  intros hs r. rewrite apply_hints_takes. split; intros (ks & F & E); exists ks; (split; [exact F|]).
  - exact (proj1 (takes_asks ks Repr_default r) E).
  - exact (proj2 (takes_asks ks Repr_default r) E).
Qed.
Lemma means_unique : forall hs ks ks', Forall2 means hs ks -> Forall2 means hs ks' -> ks = ks'.
Proof.
  intros hs ks ks' F. revert ks'. induction F as [|h k hs ks M F IH]; intros ks' F'; inversion F' as [|? k' ? ks'' M' F'']; subst; [reflexivity|].
  apply classify_means in M, M'. f_equal; [congruence | auto].
Qed.

(** ** Order *)
Lemma filter_map_perm : forall A B (f : A -> option B) l l', Permutation l l' -> Permutation (filter_map f l) (filter_map f l').
Proof.
  intros A B f l l' P. induction P; cbn; try destruct (f x); try destruct (f y); eauto using perm_skip, perm_swap, perm_trans.
Qed.
Lemma short_perm : forall A (l l' : list A), Permutation l l' -> length l <= 1 -> l = l'.
Proof.
  intros A l l' P L. destruct l as [|x [|]]; cbn in L; [now apply Permutation_nil in P| |lia].
  apply Permutation_length_1_inv in P. now subst.
Qed.
Lemma last_all_same : forall A (l : list A) x d, (forall y, In y l -> y = x) -> l <> [] -> last l d = x.
Proof.
  intros A l x. induction l as [|y l IH]; intros d Al Ne; [congruence|]. rewrite last_cons.
  destruct l as [|z l]; [apply Al; now left|]. apply IH; [|discriminate]. intros w Hw. apply Al. now right.
Qed.
Lemma last_perm : forall A (l l' : list A) d, Permutation l l' -> (forall x y, In x l -> In y l -> x = y) -> last l d = last l' d.
Proof.
  intros A l l' d P Same. destruct l as [|x l]; [apply Permutation_nil in P; now subst|].
  transitivity x; [|symmetry].
  - apply last_all_same; [|discriminate]. intros y Hy. apply Same; [exact Hy | now left].
  - apply last_all_same.
    + intros y Hy. apply Same; [|now left]. eapply Permutation_in; [symmetry; exact P | exact Hy].
    + intros ->. symmetry in P. apply Permutation_nil in P. discriminate.
Qed.
Lemma asks_perm : forall ks ks' r, Permutation ks ks' -> ~ (In HC ks /\ In HTransparent ks) -> asks ks r -> asks ks' r.
Proof.
  intros ks ks' r P No (Li & La & Et & Ea & Es).
  assert (Pi : ints ks = ints ks') by (apply short_perm; [now apply filter_map_perm | exact Li]).
  assert (Pa : alignments ks = alignments ks') by (apply short_perm; [now apply filter_map_perm | exact La]).
  unfold asks. rewrite <- Pi, <- Pa. repeat split; auto. rewrite Es. apply last_perm; [now apply filter_map_perm|].
  assert (Hin : forall x, In x (styles ks) -> x = ReprC /\ In HC ks \/ x = ReprTransparent /\ In HTransparent ks).
  { clear. induction ks as [|k ks IH]; intros x Hx; [destruct Hx|].
    unfold styles in Hx. cbn in Hx. fold (styles ks) in Hx. destruct k; cbn in Hx; try (destruct (IH x Hx) as [(A & B)|(A & B)]; [left | right]; split; [exact A | now right | exact A | now right]);
      destruct Hx as [<- | Hx]; try (left; split; [reflexivity | now left]); try (right; split; [reflexivity | now left]);
      destruct (IH x Hx) as [(A & B)|(A & B)]; [left | right | left | right]; (split; [exact A | now right]). }
  intros x y Hx Hy. apply Hin in Hx as [(-> & Ix)|(-> & Ix)]; apply Hin in Hy as [(-> & Iy)|(-> & Iy)]; try reflexivity; destruct No; auto.
Qed.
Lemma Forall2_perm : forall A B (R : A -> B -> Prop) l l' m, Permutation l l' -> Forall2 R l m -> exists m', Forall2 R l' m' /\ Permutation m m'.
Proof.
  intros A B R l l' m P. revert m. induction P; intros m F.
  - inversion F; subst. exists []. split; constructor.
  - inversion F as [|? y ? m0 Hr F']; subst. destruct (IHP _ F') as (m' & F'' & P'). exists (y :: m'). split; [now constructor | now apply perm_skip].
  - inversion F as [|? b ? m0 Hr F']; subst. inversion F' as [|? c ? m1 Hr' F'']; subst.
    exists (c :: b :: m1). split; [repeat constructor; auto | apply perm_swap].
  - destruct (IHP1 _ F) as (m1 & F1 & P1'). destruct (IHP2 _ F1) as (m2 & F2 & P2'). exists m2. split; [exact F2 | now transitivity m1].
Qed.
Lemma means_in : forall hs ks k, Forall2 means hs ks -> In k ks -> exists h, In h hs /\ means h k.
Proof.
  intros hs ks k F. induction F as [|h k' hs ks M F IH]; intros Hk; [destruct Hk|]. destruct Hk as [<- | Hk].
  - exists h. split; [now left | exact M].
  - destruct (IH Hk) as (h' & Hh & M'). exists h'. split; [now right | exact M'].
Qed.
Lemma apply_perm : forall hs hs', Permutation hs hs' -> ~ (In ("C", None) hs /\ In ("transparent", None) hs) ->
  apply_hints hs Repr_default = apply_hints hs' Repr_default.
Proof.
  assert (G : forall hs hs' r, Permutation hs hs' -> ~ (In ("C", None) hs /\ In ("transparent", None) hs) ->
            apply_hints hs Repr_default = Some r -> apply_hints hs' Repr_default = Some r).
  { intros hs hs' r P No E. apply hints_asked in E as (ks & F & As). apply hints_asked.
    destruct (Forall2_perm _ _ _ _ _ _ P F) as (ks' & F' & P'). exists ks'. split; [exact F'|].
    apply asks_perm with ks; auto. intros (Ic & It). apply No. split.
    - destruct (means_in _ _ _ F Ic) as (h & Hh & M). inversion M; subst. exact Hh.
    - destruct (means_in _ _ _ F It) as (h & Hh & M). inversion M; subst. exact Hh. }
  intros hs hs' P No. destruct (apply_hints hs Repr_default) as [r|] eqn:E.
  - symmetry. now apply (G hs hs').
  - destruct (apply_hints hs' Repr_default) as [r|] eqn:E'; [|reflexivity].
    rewrite <- E. apply (G hs' hs); [now symmetry| |exact E']. intros (A & B). apply No.
    split; eapply Permutation_in; try (symmetry; exact P); assumption.
Qed.
Lemma map_opt_perm : forall A B (f : A -> option B) l l', Permutation l l' ->
  match map_opt f l, map_opt f l' with Some m, Some m' => Permutation m m' | None, None => True | _, _ => False end.
Proof.
  intros A B f l l' P. induction P; cbn [map_opt].
  - constructor.
  - destruct (f x); [|exact Logic.I]. destruct (map_opt f l), (map_opt f l'); auto.
  - destruct (f y), (f x); auto; destruct (map_opt f l); auto. apply perm_swap.
  - destruct (map_opt f l), (map_opt f l'), (map_opt f l''); auto; try contradiction. now transitivity l1.
Qed.
Lemma concat_perm : forall A (l l' : list (list A)), Permutation l l' -> Permutation (concat l) (concat l').
Proof.
  intros A l l' P. induction P; cbn; auto.
  - now apply Permutation_app_head.
  - rewrite !app_assoc. apply Permutation_app_tail. apply Permutation_app_comm.
  - now transitivity (concat l').
Qed.
Lemma repr_hints_perm : forall a a', Permutation a a' ->
  match repr_hints a, repr_hints a' with Some m, Some m' => Permutation m m' | None, None => True | _, _ => False end.
Proof.
  intros a a' P. unfold repr_hints. pose proof (map_opt_perm _ _ (fun x : option (list arg) => x) _ _ (filter_map_perm _ _ repr_attr _ _ P)) as Q.
  destruct (map_opt (fun x => x) (filter_map repr_attr a)), (map_opt (fun x => x) (filter_map repr_attr a')); auto; try contradiction.
  apply map_opt_perm. now apply concat_perm.
Qed.
Lemma load_perm : forall a a' hs, Permutation a a' -> repr_hints a = Some hs -> ~ (In ("C", None) hs /\ In ("transparent", None) hs) ->
  Repr_load a = Repr_load a'.
Proof.
  intros a a' hs P E No. pose proof (repr_hints_perm a a' P) as Q. unfold Repr_load. rewrite E in *.
  destruct (repr_hints a') as [hs'|]; [|contradiction]. now apply apply_perm.
Qed.
Lemma align_power : forall attrs r n, Repr_load attrs = Some r -> rp_align r = Some (Align n) -> exists k, (k < 64)%N /\ n = (2 ^ k)%N.
Proof.
  intros attrs r n E Al. unfold Repr_load in E. destruct (repr_hints attrs) as [hs|]; [|discriminate].
  apply hints_asked in E as (ks & F & (_ & _ & _ & Ea & _)). rewrite Al in Ea.
  assert (In (HAlign n) ks).
  { clear - Ea. induction ks as [|k ks IH]; [discriminate|]. destruct k; try (right; apply IH; exact Ea).
    - discriminate.
    - injection Ea as ->. now left. }
  destruct (means_in _ _ _ F H) as (h & _ & M). inversion M; subst. eauto.
Qed.
