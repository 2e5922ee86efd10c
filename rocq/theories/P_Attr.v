Require Import Coq.Strings.String Coq.Strings.Ascii Coq.Lists.List Coq.Bool.Bool Coq.Arith.Arith Coq.NArith.NArith Lia
  Coq.Sorting.Permutation.
From Verif Require Import Base P_Base M_Config M_Cfg S_Cfg P_Cfg M_Type M_Ir M_Attr S_Attr.
Import ListNotations.
Open Scope string_scope.

(** ** Lines *)
Lemma trim_pads : forall s, exists b b', blanks b /\ blanks b' /\ s = b ++ trim s ++ b'.
Proof.
  intro s. destruct (trim_start_spec s) as (b & B & E). destruct (trim_end_spec (trim_start s)) as (b' & B' & E').
  exists b, b'. repeat split; auto. unfold trim. now rewrite <- E'.
Qed.
Lemma starts_with_iff : forall p s, starts_with p s = true <-> exists r, s = p ++ r.
Proof.
  intros p s. split.
  - intro E. apply starts_with_drop in E. eauto.
  - intros (r & ->). apply starts_with_app.
Qed.
Lemma addressed_dec : forall l, is_annotation_line l = true <-> addressed l.
Proof.
  intro l. unfold is_annotation_line, addressed. rewrite starts_with_iff. split.
  - intros (r & E). destruct (trim_start_spec l) as (b & B & E'). exists b, r. split; [exact B|]. now rewrite <- E.
  - intros (b & r & B & ->). exists r. rewrite trim_start_blanks by exact B. reflexivity.
Qed.

Definition notes_of (ls : list string) : list string := filter is_annotation_line ls.
Lemma sorted_out_filter : forall ls, sorted_out ls (filter (fun x => negb (is_annotation_line x)) ls) (notes_of ls).
Proof.
  induction ls as [|l ls IH]; cbn -[is_annotation_line]; [constructor|].
  destruct (is_annotation_line l) eqn:E; cbn [negb].
  - apply so_note; [now apply addressed_dec | exact IH].
  - apply so_doc; [|exact IH]. intro A. apply addressed_dec in A. congruence.
Qed.
Lemma sorted_out_unique : forall ls d n d' n', sorted_out ls d n -> sorted_out ls d' n' -> d = d' /\ n = n'.
Proof.
  intros ls d n d' n' A. revert d' n'. induction A; intros d' n' B; inversion B; subst; auto; try contradiction.
  - destruct (IHA _ _ H5) as [-> ->]. auto.
  - destruct (IHA _ _ H5) as [-> ->]. auto.
Qed.

(** ** Values *)
Lemma contains_join : forall c ps, (forall p, In p ps -> contains_char c p = false) -> ps <> [] ->
  split_on c (join (String c "") ps) = ps.
Proof.
  intros c ps. induction ps as [|p ps IH]; intros Hn Hne; [congruence|].
  destruct ps as [|q ps].
  - cbn [join]. apply split_no. apply Hn. now left.
  - change (join (String c "") (p :: q :: ps)) with (p ++ String c (join (String c "") (q :: ps))).
    rewrite split_app by (apply Hn; now left). f_equal. apply IH; [|discriminate]. intros x Hx. apply Hn. now right.
Qed.
Lemma join_split : forall c s, join (String c "") (split_on c s) = s.
Proof.
  intros c s. induction s as [|a s IH]; [reflexivity|]. cbn [split_on].
  destruct (Ascii.eqb a c) eqn:E.
  - apply Ascii.eqb_eq in E. subst a. destruct (split_on c s) as [|p ps] eqn:Es.
    + destruct (split_nonempty c s Es).
    + change (join (String c "") ("" :: p :: ps)) with (String c (join (String c "") (p :: ps))). now rewrite IH.
  - destruct (split_on c s) as [|p ps] eqn:Es; [destruct (split_nonempty c s Es)|].
    destruct ps as [|q ps]; cbn in *; now rewrite IH.
Qed.
Lemma split_pieces : forall c s p, In p (split_on c s) -> contains_char c p = false.
Proof.
  intros c s. induction s as [|a s IH]; intros p Hp; cbn [split_on] in Hp.
  - destruct Hp as [<- | []]. reflexivity.
  - destruct (Ascii.eqb a c) eqn:E.
    + destruct Hp as [<- | Hp]; [reflexivity | auto].
    + destruct (split_on c s) as [|q qs] eqn:Es.
      * destruct Hp as [<- | []]. cbn. rewrite E. reflexivity.
      * destruct Hp as [<- | Hp].
        -- cbn. rewrite E. apply (IH q). now left.
        -- apply IH. now right.
Qed.

Lemma slast_app : forall s c, last_char (s ++ String c "") = Some c.
Proof. intros. unfold last_char. rewrite srev_app. reflexivity. Qed.
Lemma slast_split : forall s c, last_char s = Some c -> exists m, s = m ++ String c "".
Proof.
  intros s c E. unfold last_char in E. destruct (srev s) as [|x r] eqn:Er; [discriminate|]. injection E as ->.
  exists (srev r). rewrite <- (srev_invol s), Er, srev_cons. reflexivity.
Qed.
Lemma stake_app : forall a b, stake (String.length a) (a ++ b) = a.
Proof. induction a as [|x a IH]; intro b; cbn; [now destruct b | f_equal; apply IH]. Qed.
Lemma parse_list_bracketed : forall m, parse_list ("[" ++ m ++ "]") = Some (map trim (split_on "," m)).
Proof.
  intro m. unfold parse_list.
  assert (L : String.length ("[" ++ m ++ "]") = S (S (String.length m))).
  { cbn. rewrite slength_app. cbn. lia. }
  rewrite L. change (Nat.ltb (S (S (String.length m))) 2) with false. cbv iota.
  change ("[" ++ m ++ "]") with (String "[" (m ++ "]")). cbv iota beta.
  replace (last_char (String "[" (m ++ "]"))) with (Some "]"%char) by (symmetry; apply (slast_app ("[" ++ m))).
  change (Ascii.eqb "[" "[" && Ascii.eqb "]" "]") with true. cbv iota.
  replace (S (S (String.length m)) - 2) with (String.length m) by lia. rewrite stake_app. reflexivity.
Qed.
Lemma parse_list_iff : forall v, (exists xs, parse_list v = Some xs) <-> bracketed v.
Proof.
  intro v. split.
  - intros (xs & E). unfold parse_list in E. destruct (Nat.ltb (String.length v) 2) eqn:L; [discriminate|].
    destruct v as [|a r]; [discriminate|]. destruct (last_char (String a r)) as [b|] eqn:Eb; [|discriminate].
    destruct (Ascii.eqb_spec a "["%char) as [->|]; [|discriminate].
    destruct (Ascii.eqb_spec b "]"%char) as [->|]; [|discriminate].
    apply slast_split in Eb as (m & Em). destruct m as [|x m].
    + cbn in Em. injection Em as ? ?. discriminate.
    + injection Em as <- Em. exists m. now rewrite Em.
  - intros (m & ->). eexists. apply parse_list_bracketed.
Qed.
Lemma trimmed_trim : forall s, trimmed (trim s).
Proof. intro s. apply trim_idem. Qed.
Lemma map_trim_padded : forall ps, Forall2 padded (map trim ps) ps.
Proof. induction ps as [|p ps IH]; cbn; constructor; [|exact IH]. split; [apply trimmed_trim | apply trim_pads]. Qed.
Lemma padded_trim : forall xs ps, Forall2 padded xs ps -> map trim ps = xs.
Proof.
  intros xs ps F. induction F as [|x p xs ps (T & b & b' & B & B' & ->) F IH]; cbn; [reflexivity|].
  rewrite IH, trim_pad by assumption. now rewrite T.
Qed.
Lemma value_text_total : forall v, value_text v (annotation_value v).
Proof.
  intro v. unfold annotation_value. destruct (parse_list v) as [xs|] eqn:E.
  - destruct (proj1 (parse_list_iff v) (ex_intro _ xs E)) as (m & ->). rewrite parse_list_bracketed in E. injection E as <-.
    pose proof (vt_list (split_on "," m) (map trim (split_on "," m)) (split_nonempty _ _) (split_pieces _ _) (map_trim_padded _)) as V.
    change "," with (String ","%char "") in V. rewrite join_split in V. exact V.
  - assert (Nb : ~ bracketed v).
    { intro B. apply parse_list_iff in B as (xs & B). congruence. }
    destruct (String.eqb v "true") eqn:E1; [apply String.eqb_eq in E1; subst; constructor|].
    destruct (String.eqb v "false") eqn:E2; [apply String.eqb_eq in E2; subst; constructor|].
    destruct (String.eqb v "") eqn:E3; [apply String.eqb_eq in E3; subst; constructor|].
    apply String.eqb_neq in E1. apply String.eqb_neq in E2. apply String.eqb_neq in E3. now constructor.
Qed.
Lemma value_text_unique : forall v x, value_text v x -> x = annotation_value v.
Proof.
  intros v x V. destruct V; try reflexivity.
  - unfold annotation_value. rewrite parse_list_bracketed. change "," with (String ","%char "").
    rewrite contains_join by assumption. f_equal. symmetry. now apply padded_trim.
  - unfold annotation_value. destruct (parse_list v) as [xs|] eqn:E.
    + destruct H2. apply parse_list_iff. eauto.
    + apply String.eqb_neq in H, H0, H1. now rewrite H, H0, H1.
Qed.

(** ** Lines that say something *)
Definition tail_of (l : string) : string := sdrop 9 (trim_start l).
Lemma trim_start_note : forall b r, blanks b -> trim_start (b ++ "cbindgen:" ++ r) = "cbindgen:" ++ r.
Proof. intros. rewrite trim_start_blanks by assumption. reflexivity. Qed.
Lemma note_tail : forall b r, blanks b -> tail_of (b ++ "cbindgen:" ++ r) = r.
Proof. intros. unfold tail_of. rewrite trim_start_note by assumption. reflexivity. Qed.
Lemma no_eq_pad : forall a x b, blanks a -> no_eq x -> blanks b -> contains_char "=" (a ++ x ++ b) = false.
Proof.
  intros a x b A X B. unfold no_eq in X. rewrite !contains_app, X, (contains_blanks "=" a eq_refl A), (contains_blanks "=" b eq_refl B).
  reflexivity.
Qed.
Lemma says_reads : forall l n v, says l n v -> annotation_of_line (trim_start l) = Some (n, v).
Proof.
  intros l n v Sy. unfold annotation_of_line. destruct Sy.
  - fold (tail_of (b0 ++ "cbindgen:" ++ b1 ++ name ++ b2)). rewrite note_tail by assumption.
    rewrite split_no.
    + cbn [map]. rewrite trim_pad by assumption. now rewrite H3.
    + now apply no_eq_pad.
  - fold (tail_of (b0 ++ "cbindgen:" ++ b1 ++ name ++ b2 ++ "=" ++ b3 ++ v ++ b4)). rewrite note_tail by assumption.
    replace (b1 ++ name ++ b2 ++ "=" ++ b3 ++ v ++ b4) with ((b1 ++ name ++ b2) ++ String "=" (b3 ++ v ++ b4))
      by (rewrite !sapp_assoc; reflexivity).
    rewrite split_app, split_no.
    + cbn [map]. rewrite !trim_pad by assumption. rewrite H5, H7. f_equal. f_equal. symmetry. now apply value_text_unique.
    + now apply no_eq_pad.
    + now apply no_eq_pad.
Qed.
Lemma reads_says : forall l n v, addressed l -> annotation_of_line (trim_start l) = Some (n, v) -> says l n v.
Proof.
  intros l n v (b & r & B & ->) E. unfold annotation_of_line in E. fold (tail_of (b ++ "cbindgen:" ++ r)) in E.
  rewrite note_tail in E by exact B. destruct (split_on "=" r) as [|p [|q [|]]] eqn:Es; try discriminate.
  - cbn [map] in E. injection E as <- <-. apply split_single in Es as (-> & Hc).
    destruct (trim_pads p) as (b1 & b2 & B1 & B2 & Ep). rewrite Ep at 1. apply says_flag; auto.
    + unfold no_eq. now rewrite contains_trim.
    + apply trimmed_trim.
  - cbn [map] in E. injection E as <- <-. apply split_pair in Es as (-> & Hp & Hq).
    destruct (trim_pads p) as (b1 & b2 & B1 & B2 & Ep). destruct (trim_pads q) as (b3 & b4 & B3 & B4 & Eq).
    rewrite Ep, Eq at 1.
    replace ((b1 ++ trim p ++ b2) ++ String "=" (b3 ++ trim q ++ b4)) with (b1 ++ trim p ++ b2 ++ "=" ++ b3 ++ trim q ++ b4)
      by (rewrite !sapp_assoc; reflexivity).
    apply says_value; auto.
    + unfold no_eq. now rewrite contains_trim.
    + apply trimmed_trim.
    + unfold no_eq. now rewrite contains_trim.
    + apply trimmed_trim.
    + apply value_text_total.
Qed.
Lemma split_count : forall s, length (split_on "=" s) = S (count_eq s).
Proof.
  induction s as [|a s IH]; [reflexivity|]. cbn [split_on count_eq]. destruct (Ascii.eqb a "=") eqn:E.
  - cbn. now rewrite IH.
  - destruct (split_on "=" s) as [|p ps] eqn:Es; [destruct (split_nonempty _ _ Es)|]. cbn in *. exact IH.
Qed.
Lemma count_eq_app : forall a b, count_eq (a ++ b) = count_eq a + count_eq b.
Proof. induction a as [|x a IH]; intro b; cbn; [reflexivity|]. rewrite IH. lia. Qed.
Lemma count_eq_blanks : forall b, blanks b -> count_eq b = 0.
Proof.
  induction b as [|x b IH]; intro B; cbn in *; [reflexivity|]. destruct B as [W B]. rewrite IH by exact B.
  destruct (Ascii.eqb_spec x "="%char) as [->|]; [discriminate | reflexivity].
Qed.
Lemma unreadable : forall l, addressed l -> (annotation_of_line (trim_start l) = None <-> 2 <= count_eq l).
Proof.
  intros l (b & r & B & ->). unfold annotation_of_line. fold (tail_of (b ++ "cbindgen:" ++ r)). rewrite note_tail by exact B.
  rewrite !count_eq_app, (count_eq_blanks b B). change (count_eq "cbindgen:") with 0.
  pose proof (split_count r) as L. destruct (split_on "=" r) as [|p [|q [|x rest]]] eqn:Es; cbn [map length] in *.
  - destruct (split_nonempty _ _ Es).
  - split; [discriminate | lia].
  - split; [discriminate | lia].
  - split; [lia | reflexivity].
Qed.

(** ** Loading *)
Lemma notes_filter_map : forall ls,
  filter_map (fun l => let l' := trim_start l in if starts_with "cbindgen:" l' then Some l' else None) ls
  = map trim_start (notes_of ls).
Proof.
  induction ls as [|l ls IH]; [reflexivity|]. cbn -[starts_with]. unfold is_annotation_line at 1.
  cbn -[starts_with] in IH. destruct (starts_with "cbindgen:" (trim_start l)); cbn -[starts_with]; now rewrite IH.
Qed.
Lemma notes_addressed : forall ls l, In l (notes_of ls) -> addressed l.
Proof. intros ls l Hl. apply filter_In in Hl as (_ & Hl). now apply addressed_dec. Qed.
Lemma of_lines_ok : forall ns acc vs, (forall l, In l ns -> addressed l) ->
  annotations_of_lines (map trim_start ns) acc = Some vs ->
  exists given, Forall2 (fun l kv => says l (fst kv) (snd kv)) ns given /\ vs = (rev given ++ acc)%list.
Proof.
  induction ns as [|l ns IH]; intros acc vs Ad E; cbn [map annotations_of_lines] in E.
  - injection E as <-. exists []. split; [constructor | reflexivity].
  - destruct (annotation_of_line (trim_start l)) as [[n v]|] eqn:El; [|discriminate].
    destruct (IH _ _ (fun x Hx => Ad x (or_intror Hx)) E) as (given & F & ->).
    exists ((n, v) :: given). split.
    + constructor; [|exact F]. apply reads_says; [apply Ad; now left | exact El].
    + cbn [rev]. now rewrite <- app_assoc.
Qed.
Lemma of_lines_none : forall ns acc, (forall l, In l ns -> addressed l) ->
  (annotations_of_lines (map trim_start ns) acc = None <-> exists l, In l ns /\ 2 <= count_eq l).
Proof.
  induction ns as [|l ns IH]; intros acc Ad; cbn [map annotations_of_lines].
  - split; [discriminate | intros (? & [] & _)].
  - pose proof (unreadable l (Ad l (or_introl eq_refl))) as U.
    destruct (annotation_of_line (trim_start l)) as [kv|] eqn:El.
    + rewrite (IH _ (fun x Hx => Ad x (or_intror Hx))). split.
      * intros (x & Hx & Hc). exists x. split; [now right | exact Hc].
      * intros (x & [<- | Hx] & Hc); [apply U in Hc; discriminate | eauto].
    + split; [|reflexivity]. intros _. exists l. split; [now left | now apply U].
Qed.
Lemma lookup_last : forall name given acc,
  lookup name (rev given) = None /\ fold_left (fun acc kv => if String.eqb (fst kv) name then Some (snd kv) else acc) given acc = acc
  \/ exists v : AnnotationValue, lookup name (rev given) = Some v
      /\ fold_left (fun acc kv => if String.eqb (fst kv) name then Some (snd kv) else acc) given acc = Some v.
Proof.
  intros name given. induction given as [|[k v] given IH] using rev_ind; intro acc; [left; auto|].
  rewrite rev_app_distr, fold_left_app. cbn [rev app lookup fold_left fst snd].
  destruct (String.eqb_spec name k) as [->|N].
  - right. exists v. now rewrite String.eqb_refl.
  - rewrite (proj2 (String.eqb_neq k name)) by congruence. apply IH.
Qed.
Lemma lookup_last_value : forall name given, lookup name (rev given) = last_value name given.
Proof.
  intros name given. unfold last_value. destruct (lookup_last name given None) as [(-> & ->)|(v & -> & ->)]; reflexivity.
Qed.
Lemma load_values : forall attrs s docs notes, AnnotationSet_load attrs = Some s ->
  sorted_out (get_comment_lines attrs) docs notes ->
  exists given, Forall2 (fun l kv => says l (fst kv) (snd kv)) notes given
    /\ forall name, lookup name (an_values s) = last_value name given.
Proof.
  intros attrs s docs notes E So. destruct (sorted_out_unique _ _ _ _ _ So (sorted_out_filter _)) as [-> ->].
  unfold AnnotationSet_load in E. rewrite notes_filter_map in E.
  destruct (annotations_of_lines (map trim_start (notes_of (get_comment_lines attrs))) []) as [vs|] eqn:Ev; [|discriminate].
  injection E as <-. apply of_lines_ok in Ev as (given & F & ->); [|intros l Hl; exact (notes_addressed _ _ Hl)].
  exists given. split; [exact F|]. intro name. cbn [an_values]. rewrite app_nil_r. apply lookup_last_value.
Qed.
Lemma load_error : forall attrs docs notes, sorted_out (get_comment_lines attrs) docs notes ->
  (AnnotationSet_load attrs = None <-> exists l, In l notes /\ 2 <= count_eq l).
Proof.
  intros attrs docs notes So. destruct (sorted_out_unique _ _ _ _ _ So (sorted_out_filter _)) as [-> ->].
  unfold AnnotationSet_load. rewrite notes_filter_map, <- (of_lines_none _ [] (notes_addressed _)).
  destruct (annotations_of_lines _ []); split; congruence.
Qed.
Lemma unsaid : forall l, addressed l -> (2 <= count_eq l <-> forall n v, ~ says l n v).
Proof.
  intros l Ad. rewrite <- (unreadable l Ad). split.
  - intros E n v Sy. apply says_reads in Sy. congruence.
  - intro No. destruct (annotation_of_line (trim_start l)) as [[n v]|] eqn:E; [|reflexivity].
    destruct (No n v). now apply reads_says.
Qed.
Lemma docs_are_rest : forall attrs, exists notes, sorted_out (get_comment_lines attrs) (Documentation_load attrs) notes.
Proof. intro attrs. eexists. apply sorted_out_filter. Qed.
