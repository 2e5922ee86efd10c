Require Import Coq.Strings.String Coq.Strings.Ascii Coq.Lists.List Coq.Bool.Bool Coq.Arith.Arith Lia.
From Verif Require Import Base P_Base M_Config M_Writer S_Writer P_Writer M_Cfg S_Cfg P_Cfg M_Ir M_Attr S_Attr P_Attr M_Docs S_Comment.
Import ListNotations.
Open Scope string_scope.

(** ** The lines of doc comments *)
Lemma trim_strip_cr : forall s, trim (strip_cr s) = trim s.
Proof.
  intro s. unfold strip_cr. destruct (srev s) as [|c r] eqn:E; [reflexivity|].
  destruct (Ascii.eqb_spec c (ascii_of_nat 13)) as [->|]; [|reflexivity].
  assert (Es : s = srev r ++ String (ascii_of_nat 13) "") by (rewrite <- (srev_invol s), E, srev_cons; reflexivity).
  rewrite Es. symmetry. apply (trim_pad "" (srev r)); cbn; auto.
Qed.
Lemma text_of_app : forall a b, text_of (a ++ b)%list = (text_of a ++ text_of b)%list.
Proof. intros. unfold text_of. now rewrite map_app, filter_app. Qed.
Lemma filter_rev' : forall A (f : A -> bool) l, filter f (rev l) = rev (filter f l).
Proof.
  intros A f l. induction l as [|x l IH]; [reflexivity|]. cbn. rewrite filter_app, IH. cbn. destruct (f x); cbn; [reflexivity|].
  now rewrite app_nil_r.
Qed.
Lemma text_of_rev : forall l, text_of (rev l) = rev (text_of l).
Proof. intro l. unfold text_of. now rewrite map_rev, filter_rev'. Qed.
Lemma text_of_skip : forall l, text_of (skip_while is_blank l) = text_of l.
Proof.
  induction l as [|x l IH]; [reflexivity|]. cbn [skip_while]. destruct (is_blank x) eqn:B; [|reflexivity].
  rewrite IH. unfold text_of. cbn [map filter]. unfold is_blank in B. now rewrite B.
Qed.
Lemma text_of_map : forall f l, (forall s, In s l -> trim (f s) = trim s) -> text_of (map f l) = text_of l.
Proof.
  intros f l Hf. unfold text_of. f_equal. rewrite map_map. apply map_ext_in. exact Hf.
Qed.
Lemma text_of_lines : forall s, text_of (text_lines s) = text_of (split_on newline_c s).
Proof.
  intro s. unfold text_lines. set (ls := split_on newline_c s).
  assert (Ne : ls <> []) by apply split_nonempty.
  replace (text_of ls) with (text_of (removelast ls ++ [last ls ""])%list) by (now rewrite <- (app_removelast_last "" Ne)).
  rewrite text_of_app.
  assert (E : text_of (map strip_cr (removelast ls)) = text_of (removelast ls)) by (apply text_of_map; intros; apply trim_strip_cr).
  destruct (String.eqb (last ls "") "") eqn:El.
  - apply String.eqb_eq in El. rewrite El, E. symmetry. apply app_nil_r.
  - now rewrite text_of_app, E.
Qed.
Lemma fold_min_le : forall l x, fold_left Nat.min l x <= x.
Proof. induction l as [|y l IH]; intro x; cbn; [lia|]. specialize (IH (Nat.min x y)). lia. Qed.
Lemma fold_min_in : forall l x y, In y l -> fold_left Nat.min l x <= y.
Proof.
  induction l as [|z l IH]; intros x y Hy; [destruct Hy|]. cbn. destruct Hy as [-> | Hy]; [|auto].
  pose proof (fold_min_le l (Nat.min x y)). lia.
Qed.
Lemma min_list_le : forall l y, In y l -> min_list l <= y.
Proof. intros [|x l] y Hy; [destruct Hy|]. cbn. destruct Hy as [-> | Hy]; [apply fold_min_le | now apply fold_min_in]. Qed.
Lemma trim_sdrop : forall s n, n <= indent_of s -> trim (sdrop n s) = trim s.
Proof.
  intros s n. revert s. induction n as [|n IH]; intros s L; [reflexivity|]. destruct s as [|c s]; [reflexivity|].
  cbn [indent_of] in L. destruct (is_white c) eqn:W; [|lia]. cbn [sdrop]. rewrite IH by lia.
  symmetry. change (String c s) with (String c "" ++ s). rewrite <- (sapp_nil_r s) at 1. apply trim_pad; cbn; auto.
Qed.
Lemma skip_incl : forall A (f : A -> bool) l x, In x (skip_while f l) -> In x l.
Proof. intros A f l x. induction l as [|y l IH]; cbn; [auto|]. destruct (f y); [right; auto | auto]. Qed.
Lemma text_kept : forall v, text_of (split_doc_attr v) = text_of (split_on newline_c v).
Proof.
  intro v. unfold split_doc_attr. destruct (contains_char newline_c v) eqn:E; cbn [negb].
  - rewrite <- text_of_lines, text_of_rev, text_of_skip, text_of_rev, rev_involutive, text_of_map, text_of_skip; [reflexivity|].
    intros s Hs. apply skip_incl in Hs. destruct (is_blank s) eqn:B.
    + unfold is_blank in B. apply String.eqb_eq in B. now rewrite B.
    + rewrite <- (sapp_nil_r (sdrop _ s)). rewrite trim_pad by (cbn; auto). apply trim_sdrop. apply min_list_le. apply in_map.
      apply filter_In. split; [exact Hs | now rewrite B].
  - now rewrite split_no.
Qed.

Lemma one_line_contains : forall s, one_line s = negb (contains_char lf s).
Proof. induction s as [|c s IH]; [reflexivity|]. unfold one_line in *. cbn [all_chars contains_char]. rewrite IH. now destruct (Ascii.eqb c lf). Qed.
Lemma contains_sdrop : forall c n s, contains_char c s = false -> contains_char c (sdrop n s) = false.
Proof. intros c n. induction n as [|n IH]; intros [|a s] E; cbn in *; auto. apply orb_false_elim in E as [_ E]. auto. Qed.
Lemma contains_srev : forall c s, contains_char c (srev s) = contains_char c s.
Proof.
  intros c s. induction s as [|a s IH]; [reflexivity|]. rewrite srev_cons, contains_app, IH. cbn. destruct (Ascii.eqb a c), (contains_char c s); reflexivity.
Qed.
Lemma contains_strip : forall c s, contains_char c s = false -> contains_char c (strip_cr s) = false.
Proof.
  intros c s E. unfold strip_cr. rewrite <- contains_srev in E. destruct (srev s) as [|x r] eqn:Er.
  - rewrite <- (srev_invol s), Er. reflexivity.
  - destruct (Ascii.eqb x (ascii_of_nat 13)).
    + rewrite contains_srev. cbn in E. now apply orb_false_elim in E as [_ E].
    + rewrite <- (contains_srev c s), Er. exact E.
Qed.
Lemma removelast_incl : forall A (l : list A) x, In x (removelast l) -> In x l.
Proof.
  intros A l x. induction l as [|y l IH]; [auto|]. destruct l as [|z l]; [intros []|].
  change (In x (y :: removelast (z :: l)) -> In x (y :: z :: l)). intros [-> | Hx]; [now left | right; auto].
Qed.
Lemma last_In : forall A (l : list A) d, l <> [] -> In (last l d) l.
Proof.
  intros A l d Ne. pose proof (app_removelast_last d Ne) as E. rewrite E at 2. apply in_or_app. right. now left.
Qed.
Lemma text_lines_one : forall s l, In l (text_lines s) -> contains_char lf l = false.
Proof.
  intros s l Hl. unfold text_lines in Hl. set (ls := split_on newline_c s) in *.
  assert (A : forall x, In x ls -> contains_char lf x = false) by (intros x Hx; exact (split_pieces newline_c s x Hx)).
  assert (B : In l (map strip_cr (removelast ls)) -> contains_char lf l = false).
  { intro Hin. apply in_map_iff in Hin as (x & <- & Hx). apply contains_strip. apply A. now apply removelast_incl. }
  destruct (String.eqb (last ls "") ""); [auto|]. apply in_app_or in Hl as [Hl | [<- | []]]; [auto|]. apply A.
  assert (Ne : ls <> []) by apply split_nonempty. now apply last_In.
Qed.
Lemma split_doc_one : forall v l, In l (split_doc_attr v) -> one_line l = true.
Proof.
  intros v l Hl. rewrite one_line_contains. unfold split_doc_attr in Hl. destruct (contains_char newline_c v) eqn:E; cbn [negb] in Hl.
  - apply in_rev in Hl. apply skip_incl in Hl. apply in_rev in Hl. apply in_map_iff in Hl as (s & <- & Hs). apply skip_incl in Hs.
    apply text_lines_one in Hs. destruct (is_blank s); [reflexivity|]. cbn [append contains_char].
    change (Ascii.eqb " " lf) with false. cbn [orb]. now rewrite contains_sdrop.
  - destruct Hl as [<- | []]. change newline_c with lf in E. now rewrite E.
Qed.
Lemma comment_lines_one : forall attrs l, In l (get_comment_lines attrs) -> one_line l = true.
Proof.
  intros attrs l Hl. unfold get_comment_lines in Hl. apply in_concat in Hl as (x & Hx & Hl). apply in_map_iff in Hx as (a & <- & _).
  destruct (at_outer a); [|destruct Hl]. destruct (at_meta a) as [|i [v|]| | |]; try (destruct Hl; fail).
  destruct (is_ident i "doc"); [now apply split_doc_one in Hl | destruct Hl].
Qed.
Lemma doc_lines_one : forall attrs l, In l (Documentation_load attrs) -> one_line l = true.
Proof. intros attrs l Hl. apply filter_In in Hl as (Hl & _). now apply comment_lines_one in Hl. Qed.

(** ** Splicing *)
Definition held (p : option string) : string := match p with Some x => x | None => "" end.
(** What stays of a line that is joined to the next one. *)
Fixpoint kept (p : option string) (x : string) : option string :=
  match x, p with
  | "", None => None
  | "", Some _ => Some ""
  | String c r, None => if Ascii.eqb c "\" then kept (Some "\") r else option_map (String c) (kept None r)
  | String c r, Some q =>
      if inline_blank c then kept (Some (q ++ String c "")) r
      else if Ascii.eqb c "\" then option_map (append q) (kept (Some "\") r)
      else option_map (fun y => q ++ String c y) (kept None r)
  end.
Lemma one_line_cons : forall c s, one_line (String c s) = true -> Ascii.eqb c lf = false /\ one_line s = true.
Proof. intros c s E. unfold one_line in E. cbn [all_chars] in E. apply andb_prop in E as [A B]. now destruct (Ascii.eqb c lf). Qed.
Lemma splice_line : forall x p r, one_line x = true ->
  splice p (x ++ String lf r) =
  match kept p x with Some y => y ++ splice None r | None => held p ++ x ++ String lf (splice None r) end.
Proof.
  induction x as [|c x IH]; intros p r O.
  - destruct p; reflexivity.
  - apply one_line_cons in O as [Nc O]. cbn [append splice kept]. destruct p as [q|].
    + rewrite Nc. destruct (inline_blank c) eqn:Bl.
      * rewrite IH by exact O. destruct (kept (Some (q ++ String c "")) x); [reflexivity|]. cbn [held]. now rewrite sapp_assoc.
      * destruct (Ascii.eqb_spec c "\"%char) as [->|Nb].
        -- rewrite IH by exact O. destruct (kept (Some "\") x); cbn [option_map held]; [now rewrite sapp_assoc | reflexivity].
        -- rewrite IH by exact O. destruct (kept None x); cbn [option_map held]; [now rewrite sapp_assoc | reflexivity].
    + destruct (Ascii.eqb_spec c "\"%char) as [->|Nb].
      * rewrite IH by exact O. destruct (kept (Some "\") x); reflexivity.
      * rewrite IH by exact O. destruct (kept None x); reflexivity.
Qed.
Lemma kept_continues : forall x p, (if kept p x then true else false) = continues (if p then true else false) x.
Proof.
  induction x as [|c x IH]; intro p.
  - destruct p; reflexivity.
  - cbn [kept continues]. destruct p as [q|].
    + destruct (inline_blank c) eqn:Bl.
      * rewrite IH. destruct (Ascii.eqb_spec c "\"%char) as [->|]; [discriminate | reflexivity].
      * destruct (Ascii.eqb c "\").
        -- rewrite <- (IH (Some "\")). now destruct (kept (Some "\") x).
        -- rewrite <- (IH None). now destruct (kept None x).
    + destruct (Ascii.eqb c "\").
      * apply (IH (Some "\")).
      * assert (E : continues false x = if inline_blank c then continues false x else continues false x) by now destruct (inline_blank c).
        rewrite <- E, <- (IH None). now destruct (kept None x).
Qed.
Lemma kept_prefix : forall x p y, kept p x = Some y -> exists z, held p ++ x = y ++ z.
Proof.
  induction x as [|c x IH]; intros p y E; cbn [kept] in E.
  - destruct p as [q|]; [|discriminate]. injection E as <-. cbn. eauto.
  - destruct p as [q|].
    + destruct (inline_blank c).
      * apply IH in E as (z & E). exists z. rewrite <- E. cbn [held]. now rewrite sapp_assoc.
      * destruct (Ascii.eqb_spec c "\"%char) as [->|].
        -- destruct (kept (Some "\") x) as [y'|] eqn:Ek; [|discriminate]. injection E as <-. apply IH in Ek as (z & E).
           exists z. cbn [held] in *. rewrite sapp_assoc, <- E. reflexivity.
        -- destruct (kept None x) as [y'|] eqn:Ek; [|discriminate]. injection E as <-. apply IH in Ek as (z & E).
           exists z. cbn [held append] in *. rewrite E, sapp_assoc. reflexivity.
    + destruct (Ascii.eqb_spec c "\"%char) as [->|].
      * apply IH in E as (z & E). exists z. exact E.
      * destruct (kept None x) as [y'|] eqn:Ek; [|discriminate]. injection E as <-. apply IH in Ek as (z & E).
        exists z. cbn [held append] in *. now rewrite E.
Qed.

(** ** Scanning *)
Lemma wc_block_skip : forall x r, closes x = false -> starts_slash r = false ->
  without_comments BlockComment (x ++ r) = without_comments BlockComment r.
Proof.
  induction x as [|a x IH]; intros r C S0; [reflexivity|].
  cbn [closes] in C. apply orb_false_elim in C as [C1 C2]. specialize (IH r C2 S0).
  change (String a x ++ r) with (String a (x ++ r)). cbn [without_comments]. destruct (x ++ r) as [|b t] eqn:E.
  - destruct x; [|discriminate]. destruct r; [reflexivity | discriminate].
  - assert (Z : Ascii.eqb a "*" && Ascii.eqb b "/" = false).
    { destruct x as [|b' x].
      - cbn in E. subst r. cbn in S0. rewrite S0. apply andb_false_r.
      - cbn in E. injection E as -> _. exact C1. }
    rewrite Z. exact IH.
Qed.
Lemma wc_block_lf : forall r, without_comments BlockComment (String lf r) = without_comments BlockComment r.
Proof. intros [|b r]; reflexivity. Qed.
Lemma wc_block_line : forall x r, closes x = false -> without_comments BlockComment (x ++ String lf r) = without_comments BlockComment r.
Proof. intros x r C. rewrite wc_block_skip by (exact C || reflexivity). apply wc_block_lf. Qed.
Lemma wc_line_skip : forall x r, one_line x = true -> without_comments LineComment (x ++ String lf r) = String lf (without_comments Code r).
Proof.
  induction x as [|a x IH]; intros r O; [reflexivity|]. apply one_line_cons in O as [Na O].
  cbn [append without_comments]. rewrite Na. now apply IH.
Qed.
Lemma wc_code_step : forall c r, Ascii.eqb c "/" = false -> without_comments Code (String c r) = String c (without_comments Code r).
Proof. intros c r Nc. cbn [without_comments]. destruct r as [|b r]; [reflexivity|]. now rewrite Nc. Qed.
Lemma wc_code_spaces : forall n r, without_comments Code (srepeat " " n ++ r) = srepeat " " n ++ without_comments Code r.
Proof. induction n as [|n IH]; intro r; [reflexivity|]. cbn [srepeat append]. rewrite wc_code_step by reflexivity. now rewrite IH. Qed.

Lemma closes_spaces : forall n s, closes (srepeat " " n ++ s) = closes s.
Proof.
  induction n as [|n IH]; intro s; [reflexivity|]. cbn [srepeat append closes]. rewrite IH.
  destruct (srepeat " " n ++ s); reflexivity.
Qed.
Lemma closes_snoc : forall s c, Ascii.eqb c "/" = false -> closes (s ++ String c "") = closes s.
Proof.
  induction s as [|a s IH]; intros c Nc; [reflexivity|]. cbn [append closes]. rewrite IH by exact Nc.
  destruct s as [|b s]; [|reflexivity]. cbn. rewrite Nc. now rewrite andb_false_r.
Qed.
Lemma closes_prefix : forall a b, closes (a ++ b) = false -> closes a = false.
Proof.
  induction a as [|x a IH]; intros b E; [reflexivity|]. cbn [append closes] in *. apply orb_false_elim in E as [E1 E2].
  rewrite (IH b E2). destruct a; [reflexivity|]. cbn in E1. now rewrite E1.
Qed.
Lemma continues_spaces : forall n s b, continues b (srepeat " " n ++ s) = continues b s.
Proof. induction n as [|n IH]; intros s b; [reflexivity|]. cbn [srepeat append continues]. apply IH. Qed.
Lemma continues_app_blank : forall s b, continues b (s ++ String cr "") = continues b s.
Proof. induction s as [|a s IH]; intro b; [reflexivity|]. cbn [append continues]. now rewrite !IH. Qed.
Lemma one_line_app : forall a b, one_line (a ++ b) = one_line a && one_line b.
Proof. intros. rewrite !one_line_contains, contains_app. now destruct (contains_char lf a), (contains_char lf b). Qed.
Lemma one_line_spaces : forall n, one_line (srepeat " " n) = true.
Proof. induction n as [|n IH]; [reflexivity|]. unfold one_line in *. cbn [srepeat append all_chars]. now rewrite IH. Qed.

(** A line ending: [e] and LF. *)
Definition ending (e : string) : Prop := e = "" \/ e = String cr "".
Lemma ending_one_line : forall e, ending e -> one_line e = true.
Proof. intros e [-> | ->]; reflexivity. Qed.
Lemma ending_closes : forall e s, ending e -> closes (s ++ e) = closes s.
Proof. intros e s [-> | ->]; [now rewrite sapp_nil_r | now apply closes_snoc]. Qed.
Lemma ending_continues : forall e s b, ending e -> continues b (s ++ e) = continues b s.
Proof. intros e s b [-> | ->]; [now rewrite sapp_nil_r | now apply continues_app_blank]. Qed.
Definition text_line (e : string) (n : nat) (s : string) : string := srepeat " " n ++ s ++ e ++ String lf "".
Lemma text_line_app : forall e n s r, text_line e n s ++ r = (srepeat " " n ++ s ++ e) ++ String lf r.
Proof. intros. unfold text_line. rewrite !sapp_assoc. reflexivity. Qed.
Lemma splice_text_line : forall e n s r, ending e -> one_line s = true -> continues false s = false ->
  splice None (text_line e n s ++ r) = text_line e n s ++ splice None r.
Proof.
  intros e n s r En O C. rewrite !text_line_app.
  assert (O' : one_line (srepeat " " n ++ s ++ e) = true) by (rewrite !one_line_app, one_line_spaces, O, ending_one_line by exact En; reflexivity).
  rewrite splice_line by exact O'. pose proof (kept_continues (srepeat " " n ++ s ++ e) None) as K. cbv iota in K.
  rewrite continues_spaces, ending_continues, C in K by exact En. destruct (kept None (srepeat " " n ++ s ++ e)); [discriminate | reflexivity].
Qed.
Lemma splice_block_line : forall e n s r, ending e -> one_line s = true -> closes s = false ->
  continues false s = false \/ starts_slash (splice None r) = false ->
  without_comments BlockComment (splice None (text_line e n s ++ r)) = without_comments BlockComment (splice None r).
Proof.
  intros e n s r En O Cl Or. rewrite text_line_app.
  assert (O' : one_line (srepeat " " n ++ s ++ e) = true) by (rewrite !one_line_app, one_line_spaces, O, ending_one_line by exact En; reflexivity).
  assert (Cl' : closes (srepeat " " n ++ s ++ e) = false) by (rewrite closes_spaces, ending_closes by exact En; exact Cl).
  rewrite splice_line by exact O'. destruct (kept None (srepeat " " n ++ s ++ e)) as [y|] eqn:K.
  - destruct Or as [C | Ss].
    + pose proof (kept_continues (srepeat " " n ++ s ++ e) None) as K'. cbv iota in K'. rewrite K, continues_spaces, ending_continues, C in K' by exact En.
      discriminate.
    + apply kept_prefix in K as (z & K). cbn [held append] in K. rewrite K in Cl'. apply closes_prefix in Cl'. now apply wc_block_skip.
  - cbn [held append]. now apply wc_block_line.
Qed.
Lemma wc_ending : forall e r, ending e -> without_comments Code (e ++ String lf r) = e ++ String lf (without_comments Code r).
Proof. intros e r [-> | ->]; cbn [append]; now rewrite !wc_code_step. Qed.

(** A line in a line comment. *)
Lemma line_comment : forall e n pre s l, ending e -> l <> Cython -> pre = "//" \/ pre = "///" -> one_line s = true -> continues false s = false ->
  comment_only l (text_line e n (pre ++ s)).
Proof.
  intros e n pre s l En Nl Hp O C rest. exists (srepeat " " n ++ String lf "").
  assert (C' : continues false (pre ++ s) = false) by (destruct Hp as [-> | ->]; exact C).
  assert (O' : one_line (pre ++ s) = true) by (rewrite one_line_app, O; destruct Hp as [-> | ->]; reflexivity).
  split.
  - clear. induction n as [|n IH]; [reflexivity|]. cbn [srepeat append]. unfold only_blanks in *. cbn [all_chars]. now rewrite IH.
  - replace (code_of l) with c_code by (destruct l; [reflexivity | reflexivity | congruence]).
    unfold c_code. rewrite splice_text_line by assumption. rewrite text_line_app, sapp_assoc, wc_code_spaces.
    assert (E : exists t, one_line t = true /\ (pre ++ s) ++ e = "//" ++ t).
    { destruct Hp as [-> | ->].
      - exists (s ++ e). rewrite one_line_app, O, (ending_one_line e En). split; reflexivity.
      - exists ("/" ++ s ++ e). rewrite !one_line_app, O, (ending_one_line e En). split; reflexivity. }
    destruct E as (t & Ot & ->). change (("//" ++ t) ++ String lf (splice None rest)) with (String "/" (String "/" (t ++ String lf (splice None rest)))).
    cbn [without_comments]. change (Ascii.eqb "/" "/" && Ascii.eqb "/" "/") with true. cbv iota. rewrite wc_line_skip by exact Ot.
    now rewrite sapp_assoc.
Qed.
(** A block. *)
Fixpoint block_body (e : string) (ls : list (nat * string)) : string :=
  match ls with [] => "" | (n, s) :: r => text_line e n s ++ block_body e r end.
Lemma block_end : forall e n r, ending e -> without_comments BlockComment (splice None (text_line e n " */" ++ r)) = e ++ String lf (c_code r).
Proof.
  intros e n r En. rewrite splice_text_line by (exact En || reflexivity). rewrite text_line_app, sapp_assoc, sapp_assoc.
  assert (E : without_comments BlockComment (srepeat " " n ++ " */" ++ e ++ String lf (splice None r)) = without_comments BlockComment (" */" ++ e ++ String lf (splice None r))).
  { apply wc_block_skip; [|reflexivity]. rewrite <- (sapp_nil_r (srepeat " " n)). now rewrite closes_spaces. }
  rewrite E. cbn [append without_comments]. change (Ascii.eqb " " "*" && Ascii.eqb "*" "/") with false. cbv iota.
  change (Ascii.eqb "*" "*" && Ascii.eqb "/" "/") with true. cbv iota. now apply wc_ending.
Qed.
Lemma wc_open : forall r, without_comments Code ("/*" ++ r) = without_comments BlockComment r.
Proof. reflexivity. Qed.
Lemma splice_head_space : forall r, starts_slash (splice None (String " " r)) = false.
Proof. reflexivity. Qed.
Lemma text_line_head : forall e n s r, starts_slash (splice None (text_line e n (String " " s) ++ r)) = false.
Proof. intros e [|n] s r; reflexivity. Qed.
Lemma block_comment : forall e n0 opening ls n1 l, ending e -> l <> Cython -> opening = "/*" \/ opening = "/**" ->
  (forall n s, In (n, s) ls -> one_line s = true /\ closes s = false /\ (continues false s = false \/ forall n' s', In (n', s') ls -> exists t, s' = String " " t)) ->
  comment_only l (text_line e n0 opening ++ block_body e ls ++ text_line e n1 " */").
Proof.
  intros e n0 opening ls n1 l En Nl Ho Hls rest. exists (srepeat " " n0 ++ e ++ String lf "").
  split.
  - assert (Be : only_blanks (e ++ String lf "") = true) by (destruct En as [-> | ->]; reflexivity).
    clear - Be. induction n0 as [|n IH]; [exact Be|]. cbn [srepeat append]. unfold only_blanks in *. cbn [all_chars]. now rewrite IH.
  - replace (code_of l) with c_code by (destruct l; [reflexivity | reflexivity | congruence]).
    assert (Body : without_comments BlockComment (splice None (block_body e ls ++ text_line e n1 " */" ++ rest)) = e ++ String lf (c_code rest)).
    { clear Ho. induction ls as [|[n s] ls IH].
      - now apply block_end.
      - cbn [block_body]. rewrite sapp_assoc. destruct (Hls n s (or_introl eq_refl)) as (O & Cl & Or).
        rewrite splice_block_line; auto.
        + apply IH. intros n' s' Hin. destruct (Hls n' s' (or_intror Hin)) as (O' & Cl' & Or'). split; [exact O'|]. split; [exact Cl'|].
          destruct Or' as [Cn | Sp]; [now left|]. right. intros n'' s'' Hin'. apply (Sp n'' s''). now right.
        + destruct Or as [Cn | Sp]; [now left|]. right. destruct ls as [|[n2 s2] ls].
          * apply text_line_head.
          * cbn [block_body]. rewrite sapp_assoc. destruct (Sp n2 s2) as (t & ->); [right; now left|]. apply text_line_head. }
    unfold c_code at 1. rewrite !sapp_assoc. rewrite splice_text_line by (exact En || (destruct Ho as [-> | ->]; reflexivity)).
    rewrite text_line_app, sapp_assoc, wc_code_spaces, !sapp_assoc. f_equal.
    transitivity (without_comments BlockComment (splice None (block_body e ls ++ text_line e n1 " */" ++ rest))).
    + destruct Ho as [-> | ->].
      * rewrite wc_open. apply wc_block_line. destruct En as [-> | ->]; reflexivity.
      * change ("/**" ++ e ++ String lf (splice None (block_body e ls ++ text_line e n1 " */" ++ rest)))
          with ("/*" ++ (("*" ++ e) ++ String lf (splice None (block_body e ls ++ text_line e n1 " */" ++ rest)))).
        rewrite wc_open. apply wc_block_line. destruct En as [-> | ->]; reflexivity.
    + exact Body.
Qed.

(** ** The writer *)
Section Run.
Variables (tabw : nat) (le : string).
Definition lead (started : bool) (ind : nat) (s : string) : nat := if started || String.eqb s "" then 0 else ind.
Lemma doc_line_run : forall p l w ind sps, w_spaces w = ind :: sps ->
  exists w', run tabw le (write_doc_line p l) w = Some w' /\ w_spaces w' = w_spaces w /\ w_started w' = false
    /\ w_out w' = w_out w ++ srepeat " " (lead (w_started w) ind (p ++ l)) ++ (p ++ l) ++ le.
Proof.
  intros p l w ind sps Sp. unfold write_doc_line. cbn [write seq run]. unfold inner_write, lead.
  destruct (String.eqb_spec p "") as [->|Np]; [|destruct (String.eqb_spec l "") as [->|Nl]].
  - cbn [append]. destruct (String.eqb_spec l "") as [->|Nl].
    + eexists. split; [reflexivity|]. rewrite orb_true_r. cbn. auto.
    + destruct (w_started w) eqn:St.
      * eexists. split; [reflexivity|]. cbn. rewrite sapp_assoc. auto.
      * rewrite Sp. eexists. split; [reflexivity|]. cbn. rewrite !sapp_assoc. auto.
  - rewrite sapp_nil_r, (proj2 (String.eqb_neq p "") Np). destruct (w_started w) eqn:St.
    + eexists. split; [reflexivity|]. cbn. rewrite sapp_assoc. auto.
    + rewrite Sp. eexists. split; [reflexivity|]. cbn. rewrite !sapp_assoc. auto.
  - assert (Ne : String.eqb (p ++ l) "" = false) by (destruct p; [congruence | reflexivity]). rewrite Ne.
    destruct (w_started w) eqn:St.
    + cbn [w_started]. eexists. split; [reflexivity|]. cbn. rewrite !sapp_assoc. auto.
    + rewrite Sp. cbn [w_started]. eexists. split; [reflexivity|]. cbn. rewrite !sapp_assoc. auto.
Qed.
Lemma lines_run : forall ls w ind sps, w_spaces w = ind :: sps ->
  exists w', run tabw le (seqs (map (fun x => write_doc_line (fst x) (snd x)) ls)) w = Some w' /\ w_spaces w' = w_spaces w
    /\ (w_started w' = match ls with [] => w_started w | _ => false end)
    /\ w_out w' = w_out w ++ laid_out le (w_started w) ind (map (fun x => fst x ++ snd x) ls).
Proof.
  induction ls as [|[p l] ls IH]; intros w ind sps Sp; cbn [map seqs fst snd].
  - exists w. cbn. rewrite sapp_nil_r. auto.
  - destruct (doc_line_run p l w ind sps Sp) as (w1 & R1 & S1 & T1 & O1). rewrite run_seq, R1.
    destruct (IH w1 ind sps) as (w2 & R2 & S2 & T2 & O2); [congruence|]. exists w2. split; [exact R2|]. split; [congruence|]. split.
    + rewrite T2, T1. now destruct ls.
    + rewrite O2, O1, T1. unfold lead; cbn [laid_out]. now rewrite !sapp_assoc.
Qed.

Lemma line_run : forall s w, run tabw le (write s ;; newline)%prog w = run tabw le (write_doc_line s "") w.
Proof. intros s w. unfold write_doc_line. cbn [write newline seq run]. destruct (inner_write s w); reflexivity. Qed.
Lemma seqs_app : forall a b w, run tabw le (seqs (a ++ b)%list) w = match run tabw le (seqs a) w with None => None | Some w' => run tabw le (seqs b) w' end.
Proof.
  induction a as [|p a IH]; intros b w; [reflexivity|]. cbn [app seqs]. rewrite !run_seq. destruct (run tabw le p w); [apply IH | reflexivity].
Qed.
Lemma seqs_one : forall p w, run tabw le (seqs [p]) w = run tabw le p w.
Proof. intros. cbn [seqs]. rewrite run_seq. now destruct (run tabw le p w). Qed.
End Run.

Definition pairs_of (l : Language) (style : DocumentationStyle) (lines : list string) : list (string * string) :=
  match l with
  | Cython => map (fun x => (append "#" x, "")) lines
  | _ => match style with
         | DocC => [("/*", "")] ++ map (pair "") lines ++ [(" */", "")]
         | DocDoxy => [("/**", "")] ++ map (pair " *") lines ++ [(" */", "")]
         | DocC99 => map (pair "//") lines
         | _ => map (pair "///") lines
         end
  end%list.
Lemma pairs_framed : forall l style lines, map (fun x => fst x ++ snd x) (pairs_of l style lines) = framed l style lines.
Proof.
  intros l style lines.
  assert (G : forall f, map (fun x => fst x ++ snd x) (map (pair f) lines) = map (append f) lines) by (intro f; rewrite map_map; reflexivity).
  assert (G0 : map (append "") lines = lines) by (transitivity (map (fun x : string => x) lines); [reflexivity | apply map_id]).
  destruct l; cbn [pairs_of framed]; [| |rewrite map_map; apply map_ext; intro x; cbn [fst snd]; apply sapp_nil_r];
    (destruct style; [| | | |]; rewrite ?map_app, G; rewrite ?G0; reflexivity).
Qed.
Lemma doc_style_not_auto : forall c, doc_style c <> DocAuto.
Proof. intro c. unfold doc_style. destruct (documentation_style c), (language c); discriminate. Qed.
Definition doc_on (c : Config) (d : Documentation) : bool := documentation c && negb (is_nil d).
Lemma documentation_pairs : forall tabw le c d w, run tabw le (write_documentation c d) w =
  if doc_on c d then run tabw le (seqs (map (fun x => write_doc_line (fst x) (snd x)) (pairs_of (language c) (doc_style c) (doc_lines c d)))) w
  else Some w.
Proof.
  intros tabw le c d w. unfold write_documentation, doc_on.
  destruct d as [|x d].
  { cbn [is_nil negb]. rewrite andb_false_r. destruct (language c); reflexivity. }
  cbn [is_nil negb]. rewrite andb_true_r. remember (x :: d) as dd eqn:Ed.
  assert (G : run tabw le (clike_write_documentation c dd) w = if documentation c then
     run tabw le (seqs (map (fun x => write_doc_line (fst x) (snd x)) (pairs_of M_Config.C (doc_style c) (doc_lines c dd)))) w else Some w).
  { unfold clike_write_documentation. rewrite Ed at 1. destruct (documentation c); cbn [negb]; [|reflexivity].
    assert (Z : forall f, map (write_doc_line f) (doc_lines c dd) = map (fun x => write_doc_line (fst x) (snd x)) (map (pair f) (doc_lines c dd)))
      by (intro f; rewrite map_map; reflexivity).
    rewrite !run_seq. pose proof (doc_style_not_auto c) as Na. destruct (doc_style c); [| | | |congruence]; cbn [pairs_of doc_prefix]; rewrite Z.
    - rewrite line_run, !map_app. cbn [map]. rewrite !seqs_app, seqs_one. cbn [fst snd].
      destruct (run tabw le (write_doc_line "/*" "") w); [|reflexivity]. rewrite run_seq, seqs_app.
      destruct (run tabw le (seqs _) w0); [|reflexivity]. now rewrite seqs_one, line_run.
    - cbn [run]. rewrite run_seq. destruct (run tabw le (seqs _) w); reflexivity.
    - rewrite line_run, !map_app. cbn [map]. rewrite !seqs_app, seqs_one. cbn [fst snd].
      destruct (run tabw le (write_doc_line "/**" "") w); [|reflexivity]. rewrite run_seq, seqs_app.
      destruct (run tabw le (seqs _) w0); [|reflexivity]. now rewrite seqs_one, line_run.
    - cbn [run]. rewrite run_seq. destruct (run tabw le (seqs _) w); reflexivity. }
  destruct (language c).
  - exact G.
  - exact G.
  - clear G. unfold cython_write_documentation. rewrite Ed at 1. destruct (documentation c); cbn [negb]; [|reflexivity]. cbn [pairs_of].
    rewrite map_map. cbn [fst snd]. generalize (doc_lines c dd). intro ls. revert w. induction ls as [|s ls IH]; intro w; [reflexivity|].
    cbn [map seqs]. rewrite (run_seq tabw le (write ("#" ++ s) ;; newline)%prog), line_run, (run_seq tabw le (write_doc_line ("#" ++ s) "")).
    destruct (run tabw le (write_doc_line ("#" ++ s) "") w); [apply IH | reflexivity].
Qed.
Lemma documentation_text : forall tabw le c d w ind sps, w_spaces w = ind :: sps ->
  exists w', run tabw le (write_documentation c d) w = Some w' /\ w_spaces w' = w_spaces w /\
    w_out w' = w_out w ++ if doc_on c d then laid_out le (w_started w) ind (framed (language c) (doc_style c) (doc_lines c d)) else "".
Proof.
  intros tabw le c d w ind sps Sp. rewrite documentation_pairs. destruct (doc_on c d).
  - destruct (lines_run tabw le (pairs_of (language c) (doc_style c) (doc_lines c d)) w ind sps Sp) as (w' & R & S1 & _ & O).
    exists w'. rewrite pairs_framed in O. auto.
  - exists w. rewrite sapp_nil_r. auto.
Qed.

(** ** Text that is only comments *)
Lemma only_blanks_app : forall a b, only_blanks a = true -> only_blanks b = true -> only_blanks (a ++ b) = true.
Proof.
  induction a as [|x a IH]; intros b A B; [exact B|]. unfold only_blanks in *. cbn [append all_chars] in *. apply andb_prop in A as [-> A].
  now rewrite IH.
Qed.
Lemma comment_only_nil : forall l, comment_only l "".
Proof. intros l rest. exists "". split; reflexivity. Qed.
Lemma comment_only_app : forall l a b, comment_only l a -> comment_only l b -> comment_only l (a ++ b).
Proof.
  intros l a b A B rest. rewrite sapp_assoc. destruct (A (b ++ rest)) as (x & Bx & Ex). destruct (B rest) as (y & By & Ey).
  exists (x ++ y). split; [now apply only_blanks_app|]. now rewrite Ex, Ey, sapp_assoc.
Qed.
Lemma spaces_blank : forall n, only_blanks (srepeat " " n) = true.
Proof. induction n as [|n IH]; [reflexivity|]. unfold only_blanks in *. cbn [srepeat append all_chars]. now rewrite IH. Qed.
Lemma python_spaces : forall n r, python_code false (srepeat " " n ++ r) = srepeat " " n ++ python_code false r.
Proof. induction n as [|n IH]; intro r; [reflexivity|]. cbn [srepeat append python_code]. now rewrite IH. Qed.
Lemma python_skip : forall s r, all_chars (fun c => negb (Ascii.eqb c lf || Ascii.eqb c cr)) s = true -> python_code true (s ++ r) = python_code true r.
Proof.
  induction s as [|c s IH]; intros r A; [reflexivity|]. cbn [all_chars] in A. apply andb_prop in A as [A B].
  cbn [append python_code]. destruct (Ascii.eqb c lf || Ascii.eqb c cr); [discriminate|]. now apply IH.
Qed.
Lemma python_line : forall le n s, le = String lf "" \/ le = String cr "" \/ le = String cr (String lf "") ->
  safe_line Cython DocC s = true -> comment_only Cython (srepeat " " n ++ ("#" ++ s) ++ le).
Proof.
  intros le n s Hle Sf rest. exists (srepeat " " n ++ le). split.
  - apply only_blanks_app; [apply spaces_blank|]. destruct Hle as [-> | [-> | ->]]; reflexivity.
  - cbn [code_of]. rewrite !sapp_assoc, python_spaces. f_equal. change ("#" ++ s ++ le ++ rest) with (String "#" (s ++ le ++ rest)).
    cbn [python_code]. change (Ascii.eqb "#" lf || Ascii.eqb "#" cr) with false. change (Ascii.eqb "#" "#") with true. cbv iota.
    rewrite python_skip by exact Sf. destruct Hle as [-> | [-> | ->]]; reflexivity.
Qed.
Lemma laid_out_each : forall l le st ind ls, (forall n s, In s ls -> comment_only l (srepeat " " n ++ s ++ le)) -> comment_only l (laid_out le st ind ls).
Proof.
  intros l le st ind ls. revert st. induction ls as [|s ls IH]; intros st Hs; cbn [laid_out]; [apply comment_only_nil|].
  replace (srepeat " " (if st || String.eqb s "" then 0 else ind) ++ s ++ le ++ laid_out le false ind ls)
    with ((srepeat " " (if st || String.eqb s "" then 0 else ind) ++ s ++ le) ++ laid_out le false ind ls) by (now rewrite !sapp_assoc).
  apply comment_only_app; [apply Hs; now left|]. apply IH. intros n s' Hin. apply Hs. now right.
Qed.
Lemma laid_out_block : forall e st ind opening ls l, ending e -> l <> Cython -> opening = "/*" \/ opening = "/**" ->
  (forall s, In s ls -> one_line s = true /\ closes s = false /\ (continues false s = false \/ forall s', In s' ls -> exists t, s' = String " " t)) ->
  comment_only l (laid_out (e ++ String lf "") st ind ([opening] ++ ls ++ [" */"])%list).
Proof.
  intros e st ind opening ls l En Nl Ho Hls.
  assert (G : forall b xs, exists ps, map snd ps = xs /\ laid_out (e ++ String lf "") b ind (xs ++ [" */"])%list
              = block_body e ps ++ text_line e (if b && is_nil xs then 0 else ind) " */").
  { intros b xs. revert b. induction xs as [|x xs IH]; intro b.
    - exists []. split; [reflexivity|]. cbn [app laid_out block_body append is_nil]. rewrite andb_true_r. unfold text_line.
      destruct b; cbn [orb String.eqb]; now rewrite !sapp_assoc, ?sapp_nil_r.
    - destruct (IH false) as (ps & Em & El). exists ((if b || String.eqb x "" then 0 else ind, x) :: ps). split; [cbn; now rewrite Em|].
      cbn [app laid_out block_body is_nil]. rewrite andb_false_r, El. unfold text_line. rewrite !sapp_assoc. reflexivity. }
  destruct (G false ls) as (ps & Em & El). cbn [app laid_out]. cbn [app] in El. rewrite El. cbn [andb].
  replace (srepeat " " (if st || String.eqb opening "" then 0 else ind) ++ opening ++ (e ++ String lf "") ++ block_body e ps ++ text_line e ind " */")
    with (text_line e (if st || String.eqb opening "" then 0 else ind) opening ++ block_body e ps ++ text_line e ind " */")
    by (unfold text_line; now rewrite !sapp_assoc).
  apply block_comment; auto. intros n s Hin.
  assert (In s ls) by (rewrite <- Em; change s with (snd (n, s)); now apply in_map).
  destruct (Hls s H) as (O & Cl & Or). split; [exact O|]. split; [exact Cl|]. destruct Or as [Cn | Sp]; [now left|].
  right. intros n' s' Hin'. apply Sp. rewrite <- Em. change s' with (snd (n', s')). now apply in_map.
Qed.
Lemma le_endings : forall x, let le := LineEndingStyle_as_str x in le = String lf "" \/ le = String cr "" \/ le = String cr (String lf "").
Proof. intros []; cbn; auto. Qed.
Lemma le_c : forall x, x <> CR -> exists e, ending e /\ LineEndingStyle_as_str x = e ++ String lf "".
Proof. intros [] Nx; try congruence; [exists "" | exists (String cr "") | exists ""]; split; try reflexivity; unfold ending; auto. Qed.
Lemma framed_comment : forall l style x st ind ls, (l = Cython \/ x <> CR) -> style <> DocAuto ->
  (forall s, In s ls -> safe_line l style s = true) ->
  comment_only l (laid_out (LineEndingStyle_as_str x) st ind (framed l style ls)).
Proof.
  intros l style x st ind ls Hx Na Hs.
  destruct (Language_eqb l Cython) eqn:El.
  { assert (l = Cython) by (destruct l; [discriminate | discriminate | reflexivity]). subst l. cbn [framed]. apply laid_out_each. intros n s Hin.
    apply in_map_iff in Hin as (s0 & <- & Hin). apply python_line; [apply le_endings | exact (Hs s0 Hin)]. }
  assert (Nl : l <> Cython) by (intros ->; discriminate). destruct Hx as [Hx | Hx]; [congruence|].
  destruct (le_c x Hx) as (e & En & ->).
  assert (Sf : forall s, In s ls -> one_line s = true /\ match style with
                       | DocC => closes s = false /\ continues false s = false
                       | DocDoxy => closes s = false /\ starts_slash s = false
                       | _ => continues false s = false end).
  { intros s Hin. specialize (Hs s Hin). unfold safe_line in Hs. destruct l; try congruence; apply andb_prop in Hs as [O Hs]; (split; [exact O|]);
      destruct style; try (apply andb_prop in Hs as [A B]; split; now apply negb_true_iff); now apply negb_true_iff. }
  assert (Ln : forall pre, pre = "//" \/ pre = "///" -> (forall s, In s ls -> one_line s = true /\ continues false s = false) ->
            comment_only l (laid_out (e ++ String lf "") st ind (map (append pre) ls))).
  { intros pre Hp Hc. apply laid_out_each. intros n s Hin. apply in_map_iff in Hin as (s0 & <- & Hin). destruct (Hc s0 Hin) as (O & C).
    exact (line_comment e n pre s0 l En Nl Hp O C). }
  assert (Fr : framed l style ls = framed M_Config.C style ls) by (destruct l; [reflexivity | reflexivity | congruence]). rewrite Fr.
  destruct style; cbn [framed].
  - apply laid_out_block; auto. intros s Hin. destruct (Sf s Hin) as (O & C1 & C2). auto.
  - apply Ln; auto.
  - apply laid_out_block; auto. intros s Hin. apply in_map_iff in Hin as (s0 & <- & Hin). destruct (Sf s0 Hin) as (O & C1 & C2). split; [exact O|]. split.
    + cbn [append closes]. destruct s0 as [|a s0]; [reflexivity|]. cbn in C2. rewrite C2. exact C1.
    + right. intros s' Hin'. apply in_map_iff in Hin' as (s1 & <- & _). cbn [append]. eauto.
  - apply Ln; auto.
  - congruence.
Qed.
Lemma documentation_comment : forall tabw c d w,
  language c = Cython \/ line_endings c <> CR ->
  (forall s, In s (doc_lines c d) -> safe_line (language c) (doc_style c) s = true) -> w_spaces w <> [] ->
  exists w' t, run tabw (LineEndingStyle_as_str (line_endings c)) (write_documentation c d) w = Some w'
    /\ w_out w' = w_out w ++ t /\ comment_only (language c) t.
Proof.
  intros tabw c d w Hx Hs Nw. destruct (w_spaces w) as [|ind sps] eqn:Sp; [congruence|].
  destruct (documentation_text tabw (LineEndingStyle_as_str (line_endings c)) c d w ind sps Sp) as (w' & R & _ & O).
  exists w'. eexists. split; [exact R|]. split; [exact O|]. destruct (doc_on c d); [|apply comment_only_nil].
  apply framed_comment; auto. apply doc_style_not_auto.
Qed.
