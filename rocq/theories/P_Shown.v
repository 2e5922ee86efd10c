(** Every declaration is written as specified in [S_Shown]. *)
Require Import Coq.Strings.String Coq.Strings.Ascii Coq.Lists.List Coq.Bool.Bool Coq.Arith.Arith Lia.
From Verif Require Import Base P_Base S_Lex M_Config M_Writer S_Writer P_Writer M_Cfg P_Cfg M_Type M_Ir M_Item M_Library M_Cdecl S_Decl P_DeclWritten
  M_Bindings M_Docs M_Literal M_Syn M_Backend P_Alike P_Bracketed S_File P_File S_Style S_Shown.
Import ListNotations.
Open Scope string_scope.
Local Open Scope prog_scope.

Lemma all_blank_app a b : all_blank (a ++ b) = all_blank a && all_blank b.
Proof. induction a as [|x a IH]; [reflexivity|]. cbn. rewrite IH, andb_assoc. reflexivity. Qed.
Lemma spaces_blank n : all_blank (srepeat " " n) = true.
Proof. induction n; cbn; auto. Qed.
Lemma ending_blank e : all_blank (LineEndingStyle_as_str e) = true.
Proof. destruct e; reflexivity. Qed.
Lemma ends_word_cons a r : ends_word (String a r) = match r with "" => wordchar a | _ => ends_word r end.
Proof. destruct r; reflexivity. Qed.
Lemma ends_word_app s r : ends_word (s ++ r) = match r with "" => ends_word s | _ => ends_word r end.
Proof.
  destruct r as [|x r]; [rewrite sapp_nil_r; reflexivity|]. induction s as [|a s IH]; [reflexivity|]. cbn [append]. rewrite ends_word_cons.
  destruct (s ++ String x r) eqn:E; [destruct s; discriminate|]. exact IH.
Qed.
Lemma ends_tail s r : r <> "" -> ends_word r = false -> ends_word (s ++ r) = false.
Proof. intros N E. rewrite ends_word_app. destruct r; [contradiction|exact E]. Qed.
Lemma blank_calm a : blank a = true -> wordchar a = false.
Proof. destruct a as [[] [] [] [] [] [] [] []]; vm_compute; intro; try reflexivity; discriminate. Qed.
Lemma ends_blank s : all_blank s = true -> ends_word s = false.
Proof.
  induction s as [|a s IH]; [reflexivity|]. intro B. cbn in B. apply andb_true_iff in B as [A B]. rewrite ends_word_cons.
  destruct s; [apply blank_calm, A|auto].
Qed.
Lemma head_blank s r : all_blank s = true -> head_wordchar r = false -> head_wordchar (s ++ r) = false.
Proof. destruct s as [|a s]; intros B K; [exact K|]. cbn in B. apply andb_true_iff in B as [A _]. apply blank_calm, A. Qed.
Lemma apart_calm s r : head_wordchar r = false -> apart s r = true.
Proof. intro K. unfold apart. rewrite K, andb_false_r. reflexivity. Qed.
Lemma apart_ended s r : ends_word s = false -> apart s r = true.
Proof. intro K. unfold apart. rewrite K. reflexivity. Qed.
Lemma apart_more s r r' : apart s r = true -> (r = "" -> apart s r' = true) -> apart s (r ++ r') = true.
Proof. intros A B. destruct r as [|x r]; [exact (B eq_refl)|exact A]. Qed.
Lemma apart_less s r r' : apart s (r ++ r') = true -> apart s r = true.
Proof. destruct r as [|x r]; intro A; [apply apart_calm; reflexivity|exact A]. Qed.
Lemma apart_tail s r r' : apart (s ++ r) r' = true -> apart r r' = true.
Proof. unfold apart. rewrite ends_word_app. destruct r; [reflexivity|auto]. Qed.
Lemma apart_front s r r' : apart r r' = true -> (r = "" -> apart s r' = true) -> apart (s ++ r) r' = true.
Proof. intros A B. unfold apart. rewrite ends_word_app. destruct r; [exact (B eq_refl)|exact A]. Qed.
Lemma made_lead a t ps : all_blank a = true -> made_of t ps -> made_of (a ++ t) ps.
Proof.
  intros A M. destruct ps as [|p ps]; cbn [made_of] in *; [rewrite all_blank_app, A, M; reflexivity|].
  destruct M as (x & s & r & -> & B & P & AP & M). exists (a ++ x), s, r. rewrite all_blank_app, A, B, !sapp_assoc. auto.
Qed.
Lemma made_app t ps t' ps' : made_of t ps -> made_of t' ps' -> apart t t' = true -> made_of (t ++ t') (ps ++ ps').
Proof.
  revert t. induction ps as [|p ps IH]; intros t M M' AP; [exact (made_lead _ _ _ M M')|]. destruct M as (a & s & r & -> & A & P & B & M).
  exists a, s, (r ++ t'). rewrite !sapp_assoc. split; [reflexivity|]. split; [exact A|]. split; [exact P|]. rewrite <- sapp_assoc in AP. split.
  - apply apart_more; [exact B|]. intros ->. rewrite sapp_nil_r in AP. exact (apart_tail _ _ _ AP).
  - apply IH; [exact M|exact M'|exact (apart_tail _ _ _ AP)].
Qed.
Lemma made_one (p : piece) s : p s -> made_of s [p].
Proof. intro P. exists "", s, "". rewrite sapp_nil_r. split; [reflexivity|]. split; [reflexivity|]. split; [exact P|]. split; [apply apart_calm|]; reflexivity. Qed.
Lemma made_say x : made_of x [say x]. Proof. apply made_one. reflexivity. Qed.
Lemma made_lead_say x : made_of (" " ++ x) [say x].
Proof. apply (made_lead " " x); [reflexivity|apply made_say]. Qed.
Lemma made_trail t ps a : made_of t ps -> all_blank a = true -> made_of (t ++ a) ps.
Proof.
  intros M A. rewrite <- (app_nil_r ps). apply made_app; [exact M|exact A|]. apply apart_calm. destruct a as [|x a]; [reflexivity|].
  apply andb_true_iff in A as [A _]. apply blank_calm, A.
Qed.
Lemma made_cons a s r (p : piece) ps : all_blank a = true -> p s -> apart s r = true -> made_of r ps -> made_of (a ++ s ++ r) (p :: ps).
Proof. intros. exists a, s, r. auto. Qed.

(** Without the white space around it. *)
Fixpoint trim_front (s : string) : string := match s with String a r => if blank a then trim_front r else s | "" => "" end.
Definition trim (s : string) : string := srev (trim_front (srev (trim_front s))).
Fixpoint front (s : string) : string := match s with String a r => if blank a then String a (front r) else "" | "" => "" end.
Definition back (s : string) : string := srev (front (srev s)).
Lemma made_around a x z : all_blank a = true -> all_blank z = true -> made_of (a ++ x ++ z) [say x].
Proof. intros A Z. apply made_lead; [exact A|]. apply made_trail; [apply made_say|exact Z]. Qed.

(** [t] is made of [ps], and may be followed by anything ([ok false]) or by what starts with no word ([ok true]); it starts with no word
    whatever follows ([st false]) or when what follows starts with none ([st true]). *)
Definition fits (t : string) (ps : list piece) (ok st : bool -> bool) : Prop :=
  forall (k : bool) r, (k = true -> head_wordchar r = false) ->
  (ok k = true -> made_of t ps /\ apart t r = true) /\ (st k = true -> head_wordchar (t ++ r) = false).
Definition yes : bool -> bool := fun _ => true.
Definition no : bool -> bool := fun _ => false.
Definition same : bool -> bool := fun k => k.
Definition weaker (ok st ok' st' : bool -> bool) : Prop := forall k, implb (ok' k) (ok k) = true /\ implb (st' k) (st k) = true.
Lemma weaker_refl ok st : weaker ok st ok st.
Proof. intro k. destruct (ok k), (st k); split; reflexivity. Qed.
Lemma fits_weaker t ps ok st ok' st' : fits t ps ok st -> weaker ok st ok' st' -> fits t ps ok' st'.
Proof.
  intros F W k r K. destruct (F k r K) as [A B]. destruct (W k) as [X Y]. split; intro E; rewrite E in *; cbn in *; auto.
Qed.
Lemma fits_made t ps ok st : fits t ps ok st -> ok true = true -> made_of t ps.
Proof. intros F O. destruct (F true "") as [A _]; [reflexivity|]. apply A, O. Qed.
Lemma fits_seq t1 ps ok1 st1 t2 qs ok2 st2 : fits t1 ps ok1 st1 -> fits t2 qs ok2 st2 ->
  fits (t1 ++ t2) (ps ++ qs) (fun k => ok2 k && ok1 (st2 k)) (fun k => st1 (st2 k)).
Proof.
  intros F G k r K. destruct (G k r K) as [G1 G2]. destruct (F (st2 k) (t2 ++ r) G2) as [F1 F2]. split.
  - intro E. apply andb_true_iff in E as [E1 E2]. destruct (G1 E1) as [M2 A2]. destruct (F1 E2) as [M1 A1]. split.
    + apply made_app; [exact M1|exact M2|exact (apart_less _ _ _ A1)].
    + apply apart_front; [exact A2|]. intros ->. exact A1.
  - intro E. rewrite sapp_assoc. exact (F2 E).
Qed.
Lemma fits_nil : fits "" [] yes same.
Proof. intros k r K. split; [|exact K]. intros _. split; reflexivity. Qed.
Lemma fits_blank s : all_blank s = true -> s <> "" -> fits s [] yes yes.
Proof.
  intros B N k r K. split; [intros _; split; [exact B|apply apart_ended, ends_blank, B]|]. intros _. destruct s as [|a s]; [contradiction|].
  apply andb_true_iff in B as [B _]. apply blank_calm, B.
Qed.
Lemma fits_text s ps : made_of s ps -> fits s ps same no.
Proof. intros M k r K. split; [|discriminate]. intro E. split; [exact M|apply apart_calm, K, E]. Qed.
Lemma fits_ended s ps : made_of s ps -> ends_word s = false -> fits s ps yes no.
Proof. intros M E k r K. split; [|discriminate]. intros _. split; [exact M|apply apart_ended, E]. Qed.
(** what is known of a constant text *)
Definition ok_of (s : string) : bool -> bool := if ends_word s then same else yes.
Definition st_of (s : string) : bool -> bool := match s with "" => same | String a _ => if wordchar a then no else yes end.
Lemma fits_constant s ps : made_of s ps -> fits s ps (ok_of s) (st_of s).
Proof.
  intros M k r K. split.
  - intro E. split; [exact M|]. unfold ok_of in E. destruct (ends_word s) eqn:W; [apply apart_calm, K, E|apply apart_ended, W].
  - intro E. destruct s as [|a s]; [exact (K E)|]. unfold st_of in E. cbn. destruct (wordchar a); [discriminate|reflexivity].
Qed.
Lemma fits_lead s : fits (" " ++ s) [say s] same yes.
Proof. intros k r K. split; [|reflexivity]. intro E. split; [apply made_lead_say|apply apart_calm, K, E]. Qed.
Lemma fits_spaces n s ps ok st : s <> "" -> fits s ps ok st -> fits (srepeat " " n ++ s) ps ok st.
Proof.
  intros N F k r K. destruct (F k r K) as [A B]. split.
  - intro E. destruct (A E) as [M P]. split; [apply made_lead; [apply spaces_blank|exact M]|]. apply apart_front; [exact P|]. intro Z. contradiction.
  - intro E. rewrite sapp_assoc. apply head_blank; [apply spaces_blank|exact (B E)].
Qed.
Lemma cdef_is : forall s, cython_def s = cdef s.
Proof. intros []; reflexivity. Qed.
Section Emits.
  Context (tabw : nat) (le : string) (LB : all_blank le = true) (LN : le <> "").
  Notation run := (M_Writer.run tabw le).
  (** From [d] open levels of its own to [e]; what is written is [ps]. *)
  Definition emits (d : nat) (p : prog) (e : nat) (ps : list piece) (ok st : bool -> bool) : Prop :=
    brackets d p e /\
    forall w w', d < length (w_spaces w) -> run p w = Some w' -> exists t, w_out w' = w_out w ++ t /\ fits t ps ok st.
  Definition OE (d : nat) (o : outcome prog) (e : nat) (ps : list piece) (ok st : bool -> bool) : Prop := forall p, o = Done p -> emits d p e ps ok st.

  Lemma deep_after d p e w w' : brackets d p e -> run p w = Some w' -> d < length (w_spaces w) -> e < length (w_spaces w').
  Proof.
    intros B R L. pose proof (firstn_skipn d (w_spaces w)) as X.
    destruct (run_restores tabw le p d e (firstn d (w_spaces w)) (skipn d (w_spaces w)) w w') as (own & W & K); auto.
    - apply firstn_length_le. lia.
    - rewrite W, app_length, K. rewrite skipn_length. lia.
  Qed.
  Lemma emits_weaker d p e ps ok st ok' st' : emits d p e ps ok st -> weaker ok st ok' st' -> emits d p e ps ok' st'.
  Proof. intros [B E] W. split; [exact B|]. intros w w' L R. destruct (E w w' L R) as (t & T & F). exists t. split; [exact T|exact (fits_weaker _ _ _ _ _ _ F W)]. Qed.
  Lemma emits_seq d p e ps ok1 st1 q f qs ok2 st2 : emits d p e ps ok1 st1 -> emits e q f qs ok2 st2 ->
    emits d (p ;; q) f (ps ++ qs) (fun k => ok2 k && ok1 (st2 k)) (fun k => st1 (st2 k)).
  Proof.
    intros [B1 E1] [B2 E2]. split; [exact (brackets_seq _ _ _ _ _ B1 B2)|]. intros w w' L R. apply run_parts in R as (w1 & R1 & R2).
    destruct (E1 w w1 L R1) as (t1 & T1 & M1). destruct (E2 w1 w' (deep_after _ _ _ _ _ B1 R1 L) R2) as (t2 & T2 & M2).
    exists (t1 ++ t2). rewrite T2, T1, sapp_assoc. split; [reflexivity|exact (fits_seq _ _ _ _ _ _ _ _ M1 M2)].
  Qed.
  Lemma emits_ret d : emits d PRet d [] yes same.
  Proof. split; [reflexivity|]. intros w w' L R. injection R as <-. exists "". rewrite sapp_nil_r. split; [reflexivity|exact fits_nil]. Qed.
  Lemma inner_made s w w' ps ok st : inner_write s w = Some w' -> fits s ps ok st -> exists t, w_out w' = w_out w ++ t /\ fits t ps ok st.
  Proof.
    intros E M. unfold inner_write in E. destruct (String.eqb s "") eqn:Z.
    - injection E as <-. apply String.eqb_eq in Z as ->. exists "". rewrite sapp_nil_r. auto.
    - destruct (w_started w); [injection E as <-; exists s; auto|]. destruct (w_spaces w) as [|n r]; [discriminate|]. injection E as <-.
      exists (srepeat " " n ++ s). split; [reflexivity|]. apply fits_spaces; [|exact M]. intros ->. discriminate.
  Qed.
  Lemma emits_write d s ps ok st : fits s ps ok st -> emits d (write s) d ps ok st.
  Proof.
    intro M. split; [reflexivity|]. intros w w' L R. cbn in R. destruct (inner_write s w) as [w1|] eqn:E; [|discriminate]. injection R as <-.
    exact (inner_made _ _ _ _ _ _ E M).
  Qed.
  Lemma emits_constant d s ps : made_of s ps -> emits d (write s) d ps (ok_of s) (st_of s).
  Proof. intro M. apply emits_write, fits_constant, M. Qed.
  Lemma emits_newline d : emits d newline d [] yes yes.
  Proof. split; [reflexivity|]. intros w w' L R. cbn in R. injection R as <-. exists le. split; [reflexivity|exact (fits_blank _ LB LN)]. Qed.
  Lemma emits_newline_if d : emits d newline_if_not_start d [] yes same.
  Proof.
    split; [reflexivity|]. intros w w' L R. cbn in R. injection R as <-. unfold new_line_if_not_start. destruct (Nat.eqb (w_lineno w) 1).
    - exists "". rewrite sapp_nil_r. split; [reflexivity|exact fits_nil].
    - exists le. split; [reflexivity|]. apply (fits_weaker _ _ _ _ _ _ (fits_blank _ LB LN)). intros [|]; split; reflexivity.
  Qed.
  Lemma emits_push d n : emits d (push_set_spaces n) (S d) [] yes same.
  Proof. split; [reflexivity|]. intros w w' L R. cbn in R. injection R as <-. exists "". cbn. rewrite sapp_nil_r. split; [reflexivity|exact fits_nil]. Qed.
  Lemma emits_tab d : emits d push_tab_ (S d) [] yes same.
  Proof.
    split; [reflexivity|]. intros w w' L R. cbn in R. unfold push_tab in R. destruct (w_spaces w) as [|n r]; [discriminate|].
    destruct (Nat.eqb tabw 0); [discriminate|]. injection R as <-. exists "". cbn. rewrite sapp_nil_r. split; [reflexivity|exact fits_nil].
  Qed.
  Lemma emits_pop d : emits (S d) pop d [] yes same.
  Proof.
    split; [reflexivity|]. intros w w' L R. cbn in R. unfold pop_tab in R. destruct (w_spaces w) as [|n r]; [discriminate|]. injection R as <-.
    exists "". cbn. rewrite sapp_nil_r. split; [reflexivity|exact fits_nil].
  Qed.
  Lemma emits_raw d s : emits d (write_raw_block s) d [say s] same no.
  Proof.
    split; [reflexivity|]. intros w w' L R. cbn in R. destruct (inner_write s (set_started w)) as [w1|] eqn:E; [|discriminate]. injection R as <-.
    exact (inner_made _ _ _ _ _ _ E (fits_text _ _ (made_say s))).
  Qed.
  Lemma emits_align d k e ps ok st : (forall n, emits d (k n) e ps ok st) -> emits d (PAlign k) e ps ok st.
  Proof.
    intro K. split; [intro n; apply K|]. intros w w' L R. cbn in R. destruct (align w) as [n|]; [|discriminate]. exact (proj2 (K n) w w' L R).
  Qed.
  (** Whichever is chosen. *)
  Lemma emits_try f m (v : prog) ps qs ok st : ok true = true -> emits 0 f 0 ps ok st -> emits 0 v 0 qs ok st ->
    forall w w', 0 < length (w_spaces w) -> run (PTry f m (fun ok : bool => if ok then PRet else v)) w = Some w' ->
    exists t, w_out w' = w_out w ++ t /\ (made_of t ps \/ made_of t qs).
  Proof.
    intros O [B1 E1] [B2 E2] w w' L R. cbn [M_Writer.run] in R. destruct (Nat.ltb m (w_len w)).
    - destruct (E2 w w' L R) as (t & T & M). pose proof (fits_made _ _ _ _ M O). eauto.
    - destruct (run f (measurer w)) as [mw|] eqn:F; [|discriminate]. destruct (Nat.ltb m (w_max mw)).
      + destruct (E2 w w' L R) as (t & T & M). pose proof (fits_made _ _ _ _ M O). eauto.
      + destruct (inner_write (w_out mw) (set_started w)) as [w1|] eqn:I; [|discriminate]. injection R as <-.
        destruct (E1 (measurer w) mw L F) as (t & T & M). cbn in T. subst t. destruct (inner_made _ _ _ _ _ _ I M) as (t & T' & M').
        pose proof (fits_made _ _ _ _ M' O). eauto.
  Qed.

  Lemma OE_done d p e ps ok st : emits d p e ps ok st -> OE d (Done p) e ps ok st.
  Proof. intros A q E. injection E as <-. exact A. Qed.
  Lemma OE_weaker d o e ps ok st ok' st' : OE d o e ps ok st -> weaker ok st ok' st' -> OE d o e ps ok' st'.
  Proof. intros A W p E. exact (emits_weaker _ _ _ _ _ _ _ _ (A p E) W). Qed.
  Lemma OE_seq d p e ps ok1 st1 q f qs ok2 st2 : OE d p e ps ok1 st1 -> OE e q f qs ok2 st2 ->
    OE d (p >> q) f (ps ++ qs) (fun k => ok2 k && ok1 (st2 k)) (fun k => st1 (st2 k)).
  Proof.
    intros A B x E. unfold then_ in E. destruct p as [p| |]; try discriminate. destruct q as [q| |]; try discriminate. apply done_eq in E. subst x.
    exact (emits_seq _ _ _ _ _ _ _ _ _ _ _ (A p eq_refl) (B q eq_refl)).
  Qed.
  Lemma OE_nothing d : OE d nothing d [] yes same. Proof. apply OE_done, emits_ret. Qed.
  Lemma OE_line d : OE d line d [] yes yes. Proof. apply OE_done, emits_newline. Qed.
  Lemma OE_start d : OE d (Done newline_if_not_start) d [] yes same. Proof. apply OE_done, emits_newline_if. Qed.
  Lemma OE_text d s ps : made_of s ps -> OE d (text s) d ps (ok_of s) (st_of s). Proof. intro M. apply OE_done, emits_constant, M. Qed.
  Lemma OE_say d s : OE d (text s) d [say s] same no. Proof. apply OE_done, emits_write, fits_text, made_say. Qed.
  Lemma OE_say_end d s : ends_word s = false -> OE d (text s) d [say s] yes no.
  Proof. intro E. apply OE_done, emits_write, fits_ended; [apply made_say|exact E]. Qed.
  Lemma OE_say_at d s a r : s = String a r -> OE d (text s) d [say s] same (if wordchar a then no else yes).
  Proof.
    intros ->. eapply OE_weaker; [apply OE_text, made_say|]. unfold ok_of, st_of. destruct (ends_word _), (wordchar a); intros [|]; split; reflexivity.
  Qed.
  Lemma OE_say_at_end d s a r : s = String a r -> ends_word s = false -> OE d (text s) d [say s] yes (if wordchar a then no else yes).
  Proof. intros -> E. eapply OE_weaker; [apply OE_text, made_say|]. unfold ok_of, st_of. rewrite E. destruct (wordchar a); intros [|]; split; reflexivity. Qed.
  Lemma OE_raw d s : OE d (raw_block s) d [say s] same no. Proof. apply OE_done, emits_raw. Qed.
  Definition maybe (st : bool -> bool) : bool -> bool := fun k => k && st k.
  Lemma nothing_maybe d (ok st : bool -> bool) : OE d nothing d [] ok (maybe st).
  Proof. eapply OE_weaker; [apply OE_nothing|]. intros [|]; unfold maybe; destruct (ok _), (st _); split; reflexivity. Qed.
  Lemma maybe_weaker ok st : weaker ok st ok (maybe st).
  Proof. intros [|]; unfold maybe; destruct (ok _), (st _); split; reflexivity. Qed.
  Lemma OE_when d (x : bool) p ps ok st : OE d p d ps ok st -> OE d (when x p) d (only x ps) ok (maybe st).
  Proof. intro A. destruct x; [exact (OE_weaker _ _ _ _ _ _ _ _ A (maybe_weaker _ _))|apply nothing_maybe]. Qed.
  Lemma OE_if_some {A} d (o : option A) f ps ok st : (forall x, OE d (f x) d (ps x) ok st) -> OE d (if_some o f) d (opt o ps) ok (maybe st).
  Proof. intro K. destruct o; [exact (OE_weaker _ _ _ _ _ _ _ _ (K a) (maybe_weaker _ _))|apply nothing_maybe]. Qed.
  (** for any number of them *)
  Definition many_st (st : bool -> bool) : bool -> bool := fun k => k && st true.
  Definition many_ok (ok st : bool -> bool) : bool -> bool := fun k => ok (many_st st k).
  Lemma nothing_many d (ok st : bool -> bool) : OE d nothing d [] (many_ok ok st) (many_st st).
  Proof. eapply OE_weaker; [apply OE_nothing|]. intro k. unfold many_ok, many_st. destruct (ok _), k, (st true); split; reflexivity. Qed.
  Lemma many_again ok st : weaker (fun k => many_ok ok st k && ok (many_st st k)) (fun k => st (many_st st k)) (many_ok ok st) (many_st st).
  Proof.
    intro k. unfold many_ok, many_st. split; [destruct (ok _); reflexivity|]. destruct k; [|reflexivity]. cbn [andb]. destruct (st true) eqn:E; [rewrite E|]; reflexivity.
  Qed.
  Lemma OE_each {A} d (f : A -> outcome prog) ps xs ok st : (forall x, OE d (f x) d (ps x) ok st) ->
    OE d (each f xs) d (flat_map ps xs) (many_ok ok st) (many_st st).
  Proof.
    intro K. induction xs as [|x xs IH]; [apply nothing_many|]. cbn [each flat_map].
    exact (OE_weaker _ _ _ _ _ _ _ _ (OE_seq _ _ _ _ _ _ _ _ _ _ _ (K x) IH) (many_again _ _)).
  Qed.
  Lemma OE_lead d s : OE d (text (" " ++ s)) d [say s] same yes. Proof. apply OE_done, emits_write, fits_lead. Qed.
  Lemma OE_lead_end d s : s <> "" -> ends_word s = false -> OE d (text (" " ++ s)) d [say s] yes yes.
  Proof.
    intros N E. apply OE_done, emits_write. intros k r K. split; [|reflexivity]. intros _. split; [apply made_lead_say|]. apply apart_ended, ends_tail; assumption.
  Qed.
  Lemma OE_spaced d o : OE d (spaced o) d (with_note o) same same.
  Proof. eapply OE_weaker; [apply (OE_if_some d o _ _ same yes); intro x; apply OE_lead|]. intros [|]; split; reflexivity. Qed.
  Lemma OE_eq d p e ps qs ok st ok' st' : OE d p e ps ok st -> ps = qs /\ weaker ok st ok' st' -> OE d p e qs ok' st'.
  Proof. intros A [<- W]. exact (OE_weaker _ _ _ _ _ _ _ _ A W). Qed.

  Lemma emits_items {A} d (ps : list prog) (xs : list A) (f : A -> list piece) cap ok st : cap <> "" -> ends_word cap = false -> head_wordchar cap = false ->
    Forall2 (fun p x => emits d p d (f x) ok st) ps xs ->
    emits d (vertical_items ps (Cap cap) (fun p => p)) d (capped cap f xs) (fun _ => ok true) (fun k => k && st true).
  Proof.
    intros N E S. assert (CE : ok_of cap = yes) by (unfold ok_of; rewrite E; reflexivity).
    assert (CS : st_of cap = yes) by (destruct cap; [contradiction|]; cbn in *; rewrite S; reflexivity).
    assert (CW : emits d (write cap) d [say cap] yes yes) by (rewrite <- CE at 1; rewrite <- CS; apply emits_constant, made_say).
    induction 1 as [|p x ps xs P F IH].
    - eapply emits_weaker; [apply emits_ret|]. intros [|]; unfold yes, same; destruct (ok true), (st true); split; reflexivity.
    - cbn [vertical_items capped flat_map]. destruct ps as [|q ps].
      + inversion F; subst. cbn [flat_map]. rewrite app_nil_r. eapply emits_weaker; [apply emits_seq with (e := d); [exact P|exact CW]|].
        intros [|]; unfold yes; cbn; destruct (ok true), (st true); split; reflexivity.
      + rewrite <- app_assoc. eapply emits_weaker.
        { apply emits_seq with (e := d); [exact P|]. apply emits_seq with (e := d); [exact CW|].
          rewrite <- (app_nil_l (flat_map _ _)). apply emits_seq with (e := d); [apply emits_newline|exact IH]. }
        intros [|]; unfold yes; cbn; destruct (ok true), (st true); split; reflexivity.
  Qed.
  Lemma collected {A} (f : A -> outcome prog) xs ps : collect f xs = Done ps -> Forall2 (fun p x => f x = Done p) ps xs.
  Proof.
    revert ps. induction xs as [|x xs IH]; intros ps E; cbn [collect] in E; [injection E as <-; constructor|].
    destruct (f x) as [p| |] eqn:F; try discriminate. destruct (collect f xs) as [ps'| |]; try discriminate. injection E as <-. constructor; auto.
  Qed.
  Lemma emits_indented d n p ps ok st : emits (S d) p (S d) ps ok st -> emits d (push_set_spaces n ;; p ;; pop) d ps ok st.
  Proof.
    intro P. rewrite <- (app_nil_l ps). rewrite <- (app_nil_r ps). eapply emits_weaker.
    { eapply emits_seq; [apply emits_push|]. eapply emits_seq; [exact P|apply emits_pop]. }
    intro k. unfold yes, same. cbn. rewrite andb_true_r. destruct (ok k), (st k); split; reflexivity.
  Qed.
  Lemma OE_vertical {A} d (xs : list A) cap f (ps : A -> list piece) ok st : cap <> "" -> ends_word cap = false -> head_wordchar cap = false ->
    (forall x, OE (S d) (f x) (S d) (ps x) ok st) -> OE d (vertical xs (Cap cap) f) d (capped cap ps xs) (fun _ => ok true) (fun k => k && st true).
  Proof.
    intros N1 N2 N3 K p E. unfold vertical in E. destruct (collect f xs) as [qs| |] eqn:C; try discriminate. cbv beta iota in E. apply done_eq in E. subst p.
    apply collected in C. unfold write_vertical_source_list. apply emits_align. intro n. apply emits_indented. apply emits_items; [exact N1|exact N2|exact N3|].
    clear - C K. induction C as [|p x ps' xs P F IH]; [constructor|]. constructor; [exact (K x p P)|exact IH].
  Qed.
  Definition join_ok (ok : bool -> bool) : bool -> bool := fun k => ok true && ok k.
  Definition join_st (st : bool -> bool) : bool -> bool := fun k => k && st true && st k.
  Lemma calm_sep d sep ps : made_of sep ps -> head_wordchar sep = false -> emits d (write sep) d ps same same.
  Proof.
    intros M S. eapply emits_weaker; [apply emits_constant, M|]. unfold ok_of, st_of. destruct sep as [|a r]; [intros [|]; split; reflexivity|]. cbn in S. rewrite S.
    destruct (ends_word _); intros [|]; split; reflexivity.
  Qed.
  Lemma emits_joined {A} d (ps : list prog) (xs : list A) (f : A -> list piece) sep t ok st : made_of sep [say t] -> head_wordchar sep = false ->
    Forall2 (fun p x => emits d p d (f x) ok st) ps xs -> emits d (vertical_items ps (Join sep) (fun p => p)) d (separated t f xs) (join_ok ok) (join_st st).
  Proof.
    intros M S. induction 1 as [|p x ps xs P F IH].
    - eapply emits_weaker; [apply emits_ret|]. intros [|]; unfold join_ok, join_st, yes, same; destruct (ok true), (ok false), (st true), (st false); split; reflexivity.
    - cbn [vertical_items separated]. destruct ps as [|q ps].
      + inversion F; subst. rewrite <- (app_nil_r (f x)). eapply emits_weaker; [apply emits_seq with (e := d); [exact P|apply emits_ret]|].
        intros [|]; unfold join_ok, join_st, yes, same; cbn; destruct (ok true), (ok false), (st true), (st false); split; reflexivity.
      + destruct xs as [|y xs]; [inversion F|]. eapply emits_weaker.
        { apply emits_seq with (e := d); [exact P|]. change (say t :: ?l) with ([say t] ++ l)%list.
          apply emits_seq with (e := d); [exact (calm_sep _ _ _ M S)|]. rewrite <- (app_nil_l (separated _ _ _)).
          apply emits_seq with (e := d); [apply emits_newline|exact IH]. }
        intros [|]; unfold join_ok, join_st, yes, same; cbn; destruct (ok true), (ok false), (st true), (st false); split; reflexivity.
  Qed.
  Lemma OE_joined {A} d (xs : list A) sep t f (ps : A -> list piece) ok st : made_of sep [say t] -> head_wordchar sep = false ->
    (forall x, OE (S d) (f x) (S d) (ps x) ok st) -> OE d (vertical xs (Join sep) f) d (separated t ps xs) (join_ok ok) (join_st st).
  Proof.
    intros M N K p E. unfold vertical in E. destruct (collect f xs) as [qs| |] eqn:C; try discriminate. cbv beta iota in E. apply done_eq in E. subst p.
    apply collected in C. unfold write_vertical_source_list. apply emits_align. intro n. apply emits_indented. apply emits_joined; [exact M|exact N|].
    clear - C K. induction C as [|p x ps' xs P F IH]; [constructor|]. constructor; [exact (K x p P)|exact IH].
  Qed.
  (** A list of lines. *)
  Lemma emits_lines {A} d (ps : list prog) (xs : list A) (f : A -> list piece) ok st :
    Forall2 (fun p x => emits d p d (f x) ok st) ps xs -> emits d (vertical_items ps (Join "") (fun p => p)) d (flat_map f xs) (join_ok ok) (join_st st).
  Proof.
    induction 1 as [|p x ps xs P F IH].
    - eapply emits_weaker; [apply emits_ret|]. intros [|]; unfold join_ok, join_st, yes, same; destruct (ok true), (ok false), (st true), (st false); split; reflexivity.
    - cbn [vertical_items flat_map]. destruct ps as [|q ps].
      + inversion F; subst. cbn [flat_map]. eapply emits_weaker; [apply emits_seq with (e := d); [exact P|apply emits_ret]|].
        intros [|]; unfold join_ok, join_st, yes, same; cbn; destruct (ok true), (ok false), (st true), (st false); split; reflexivity.
      + eapply emits_weaker.
        { apply emits_seq with (e := d); [exact P|]. rewrite <- (app_nil_l (flat_map _ _)).
          apply emits_seq with (e := d); [apply (calm_sep _ "" []); reflexivity|]. rewrite <- (app_nil_l (flat_map _ _)).
          apply emits_seq with (e := d); [apply emits_newline|exact IH]. }
        intros [|]; unfold join_ok, join_st, yes, same; cbn; destruct (ok true), (ok false), (st true), (st false); split; reflexivity.
  Qed.
  Lemma OE_lines {A} d (xs : list A) f (ps : A -> list piece) ok st : (forall x, OE (S d) (f x) (S d) (ps x) ok st) ->
    OE d (vertical xs (Join "") f) d (flat_map ps xs) (join_ok ok) (join_st st).
  Proof.
    intros K p E. unfold vertical in E. destruct (collect f xs) as [qs| |] eqn:C; try discriminate. cbv beta iota in E. apply done_eq in E. subst p.
    apply collected in C. unfold write_vertical_source_list. apply emits_align. intro n. apply emits_indented. apply emits_lines.
    clear - C K. induction C as [|p x ps' xs P F IH]; [constructor|]. constructor; [exact (K x p P)|exact IH].
  Qed.
  Lemma collect_map {A B} (f : B -> outcome prog) (g : A -> B) xs : collect f (map g xs) = collect (fun x => f (g x)) xs.
  Proof. induction xs as [|x xs IH]; [reflexivity|]. cbn [collect map]. rewrite IH. reflexivity. Qed.
  Lemma vertical_map {A B} (f : B -> outcome prog) (g : A -> B) xs lt : vertical (map g xs) lt f = vertical xs lt (fun x => f (g x)).
  Proof. unfold vertical. rewrite collect_map. reflexivity. Qed.
  Lemma OE_sections d os pss ok st : Forall2 (fun o ps => OE d o d ps ok st) os pss -> OE d (each (fun p => p) os) d (concat pss) (many_ok ok st) (many_st st).
  Proof.
    induction 1 as [|o ps os pss K F IH]; [apply nothing_many|]. cbn [each concat].
    exact (OE_weaker _ _ _ _ _ _ _ _ (OE_seq _ _ _ _ _ _ _ _ _ _ _ K IH) (many_again _ _)).
  Qed.
End Emits.
Ltac wk := intros [|]; split; reflexivity.

Section Shown.
  Context {H : Heck} (fuel : nat) (b : Bindings).
  Let c : Config := b_config b.
  Let le : string := LineEndingStyle_as_str (line_endings c).
  Context (PA : proper_attributes c = true) (TW : tab_width c <> 0).
  Notation OE d o e ps := (P_Shown.OE (tab_width c) le d o e ps same no).
  Notation OE' := (P_Shown.OE (tab_width c) le).
  Notation emits := (emits (tab_width c) le).
  Lemma LB : all_blank le = true. Proof. apply ending_blank. Qed.
  Lemma LN : le <> "". Proof. unfold le. destruct (line_endings c); discriminate. Qed.

  Lemma OE_self d o e : OB d o e -> OE d o e [written b o].
  Proof.
    intros A p E. split; [exact (A p E)|]. intros w w' L R. destruct (run_appends _ _ p w w' R) as (t & T). exists t. split; [exact T|]. apply fits_text, made_one.
    exists p, w, w'. repeat split; auto. intro Z. rewrite Z in L. cbn in L. lia.
  Qed.
  Lemma deep_nonempty d w : d < length (w_spaces w) -> w_spaces w <> [].
  Proof. intros L Z. rewrite Z in L. cbn in L. lia. Qed.
  Lemma OE_field d t x : OE d (of_option (write_field c t x)) d [declared b x t].
  Proof.
    intros p E. assert (W : write_field c t x = Some p) by (destruct (write_field c t x) as [q|]; [apply done_eq in E; subst; reflexivity|discriminate]).
    split; [apply wb_at, (wb_field _ _ _ _ W)|]. intros w w' L R. destruct (run_appends _ _ p w w' R) as (s & T). exists s. split; [exact T|]. apply fits_text, made_one.
    pose proof (deep_nonempty _ _ L) as N. split; [exists p, w, w'; auto|]. intros D U.
    destruct (field_written c PA (tab_width c) (line_endings c) TW t x w D U N) as (p' & w'' & s' & W' & R' & T' & _ & K).
    rewrite W in W'. injection W' as <-. fold le in R'. rewrite R in R'. injection R' as <-. rewrite T in T'. apply sapp_inj_l in T'. subst s'. exact K.
  Qed.
  Lemma OE_type d t : OE d (type_text b t) d [named_type b t].
  Proof.
    intros p E. unfold type_text in E. fold c in E. assert (W : write_type c t = Some p) by (destruct (write_type c t) as [q|]; [apply done_eq in E; subst; reflexivity|discriminate]).
    split; [apply wb_at, (wb_type _ _ _ W)|]. intros w w' L R. destruct (run_appends _ _ p w w' R) as (s & T). exists s. split; [exact T|]. apply fits_text, made_one.
    pose proof (deep_nonempty _ _ L) as N. split; [exists p, w, w'; fold c; rewrite W; auto|]. intros D.
    destruct (type_written c PA (tab_width c) (line_endings c) TW t w D N) as (p' & w'' & s' & W' & R' & T' & _ & K).
    rewrite W in W'. injection W' as <-. fold le in R'. rewrite R in R'. injection R' as <-. rewrite T in T'. apply sapp_inj_l in T'. subst s'. exact K.
  Qed.
  Lemma OE_func d f l : OE d (of_option (write_func c f l)) d [prototype b l f].
  Proof.
    intros p E. assert (W : write_func c f l = Some p) by (destruct (write_func c f l) as [q|]; [apply done_eq in E; subst; reflexivity|discriminate]).
    split; [apply wb_at, (wb_func _ _ _ _ W)|]. intros w w' L R. destruct (run_appends _ _ p w w' R) as (s & T). exists s. split; [exact T|]. apply fits_text, made_one.
    pose proof (deep_nonempty _ _ L) as N. split; [exists p, w, w'; auto|]. intros D.
    destruct (function_written c PA (tab_width c) (line_endings c) TW f l w D N) as (p' & w'' & s' & W' & R' & T' & _ & K).
    rewrite W in W'. injection W' as <-. fold le in R'. rewrite R in R'. injection R' as <-. rewrite T in T'. apply sapp_inj_l in T'. subst s'. exact K.
  Qed.
  (** Documentation ends with a line break. *)
  Definition ends_lines (p : prog) : Prop :=
    forall w w', run (tab_width c) le p w = Some w' -> exists t, w_out w' = w_out w ++ t /\ ends_word t = false.
  Lemma el_ret : ends_lines PRet.
  Proof. intros w w' R. injection R as <-. exists "". rewrite sapp_nil_r. split; reflexivity. Qed.
  Lemma el_newline : ends_lines newline.
  Proof. intros w w' R. cbn in R. injection R as <-. exists le. split; [reflexivity|apply ends_blank, LB]. Qed.
  Lemma el_last p q : ends_lines q -> (forall w w', run (tab_width c) le q w = Some w' -> w_out w' <> w_out w) -> ends_lines (p ;; q).
  Proof.
    intros Q N w w' R. apply run_parts in R as (w1 & R1 & R2). destruct (run_appends _ _ p w w1 R1) as (t1 & T1). destruct (Q w1 w' R2) as (t2 & T2 & E2).
    exists (t1 ++ t2). rewrite T2, T1, sapp_assoc. split; [reflexivity|]. apply ends_tail; [|exact E2]. intros ->. apply (N _ _ R2). rewrite T2, sapp_nil_r. reflexivity.
  Qed.
  Lemma el_line p : ends_lines (p ;; newline).
  Proof.
    apply el_last; [apply el_newline|]. intros w w' R. cbn in R. injection R as <-. cbn. intro Z. apply (f_equal String.length) in Z. rewrite slength_app in Z.
    pose proof LN. destruct le; [contradiction|]. cbn in Z. lia.
  Qed.
  Lemma el_both p q : ends_lines p -> ends_lines q -> ends_lines (p ;; q).
  Proof.
    intros P Q w w' R. apply run_parts in R as (w1 & R1 & R2). destruct (P w w1 R1) as (t1 & T1 & E1). destruct (Q w1 w' R2) as (t2 & T2 & E2).
    exists (t1 ++ t2). rewrite T2, T1, sapp_assoc. split; [reflexivity|]. rewrite ends_word_app. destruct t2; assumption.
  Qed.
  Lemma el_seqs ps : Forall ends_lines ps -> ends_lines (seqs ps).
  Proof. induction 1 as [|p ps P F IH]; [exact el_ret|apply el_both; assumption]. Qed.
  Lemma el_line2 p q : ends_lines (p ;; q ;; newline).
  Proof.
    intros w w' R. apply run_parts in R as (w1 & R1 & R2). destruct (run_appends _ _ p w w1 R1) as (t1 & T1). apply run_parts in R2 as (w2 & R2 & R3).
    destruct (run_appends _ _ q w1 w2 R2) as (t2 & T2). cbn in R3. injection R3 as <-. exists (t1 ++ t2 ++ le). cbn. rewrite T2, T1, !sapp_assoc.
    split; [reflexivity|]. rewrite <- sapp_assoc. apply ends_tail; [exact LN|apply ends_blank, LB].
  Qed.
  Lemma docs_end x : ends_lines (write_documentation c x).
  Proof.
    unfold write_documentation, clike_write_documentation, cython_write_documentation. destruct (language c); (destruct x as [|l ls]; [exact el_ret|]);
      (destruct (negb (documentation c)); [exact el_ret|]); cbv zeta.
    3:{ apply el_seqs, Forall_forall. intros p I. apply in_map_iff in I as (y & <- & _). apply el_line. }
    all: apply el_both; [destruct (doc_style c); try exact el_ret; apply el_line|]; apply el_both; [|destruct (doc_style c); try exact el_ret; apply el_line];
      apply el_seqs, Forall_forall; intros p I; apply in_map_iff in I as (y & <- & _); apply el_line2.
  Qed.
  Lemma OE_docs d x : OE' d (docs b x) d (documented b x) yes no.
  Proof.
    intros p E. pose proof (OE_self d (docs b x) d (OB_docs _ _ _) p E) as [B K]. split; [exact B|]. intros w w' L R. destruct (K w w' L R) as (t & T & F).
    exists t. split; [exact T|]. apply fits_ended; [exact (fits_made _ _ _ _ F eq_refl)|]. unfold docs in E. apply done_eq in E. subst p. fold c in R.
    destruct (docs_end x w w' R) as (t' & T' & N). rewrite T in T'. apply sapp_inj_l in T'. subst t'. exact N.
  Qed.
  Lemma OE_opened d : OE' d (opened b) (S d) (opens b) yes yes.
  Proof.
    apply OE_done. unfold open_brace, opens. fold c. destruct (language c); cbn [Language_eqb negb].
    1,2: destruct (braces c); [change [say "{"] with ([say "{"] ++ [] ++ [])%list | change [say "{"] with ([] ++ [say "{"] ++ [] ++ [])%list].
    5: change [say ":"] with ([say ":"] ++ [] ++ [])%list.
    all: (eapply emits_weaker; [repeat first [apply (emits_constant _ _ _ " {" [say "{"]), made_lead_say | apply emits_constant, made_say | exact (emits_tab _ _ _)
            | exact (emits_newline _ _ LB LN _) | eapply emits_seq]|wk]).
  Qed.
  Lemma OE_closed d s : OE' (S d) (closed b s) d (closes b s) yes same.
  Proof.
    apply OE_done. unfold close_brace, closes. fold c. rewrite <- (app_nil_l (only _ _)).
    destruct (language c); cbn [Language_eqb negb only].
    3:{ eapply emits_weaker; [eapply emits_seq; [apply emits_pop|apply emits_ret]|wk]. }
    all: destruct s; (eapply emits_weaker; [eapply emits_seq; [apply emits_pop|]; rewrite <- (app_nil_l [_]); eapply emits_seq; [exact (emits_newline _ _ LB LN _)|apply emits_constant, made_say]|wk]).
  Qed.
  Lemma OE_condition d k : OE d (Done (Condition_write (language c) k)) d [written b (Done (Condition_write (language c) k))].
  Proof. apply OE_self. apply OB_wb, wb_condition. Qed.
  Definition opening (k : option Cfg) : list piece :=
    match guard b k with
    | None => []
    | Some q => if Language_eqb (language c) Cython then [say "IF"; written b (Done (Condition_write (language c) q)); say ":"]
                else [say "#if"; written b (Done (Condition_write (language c) q))]
    end.
  Definition closing (k : option Cfg) : list piece :=
    match guard b k with
    | None => []
    | Some _ => if Language_eqb (language c) Cython then [] else [say "#endif"]
    end.
  Lemma conditional_eq k ps : conditional b k ps = (opening k ++ ps ++ closing k)%list.
  Proof.
    unfold conditional, opening, closing, guard. fold c. destruct (to_condition_opt (defines c) k); [|rewrite app_nil_r; reflexivity].
    destruct (Language_eqb (language c) Cython); [rewrite app_nil_r; reflexivity|reflexivity].
  Qed.
  Lemma OE_before d k : OE' d (before b (guard b k)) (deeper c (guard b k) + d) (opening k) yes no.
  Proof.
    apply OE_done. unfold opening. fold c. destruct (guard b k) as [q|]; cbn [write_before deeper]; [|eapply emits_weaker; [apply emits_ret|wk]].
    pose proof OE_condition as Q. destruct (Language_eqb (language c) Cython) eqn:L; cbn [Nat.add].
    - change [say "IF"; ?x; say ":"] with ([say "IF"] ++ [x] ++ [say ":"])%list. eapply emits_weaker.
      { eapply emits_seq; [apply emits_constant; apply (made_trail "IF" _ " "); [apply made_say|reflexivity]|]. eapply emits_seq; [apply (Q d q _ eq_refl)|].
        pose proof (OE_opened d _ eq_refl) as O. unfold opens in O. fold c in O. rewrite L in O. exact O. }
      wk.
    - change [say "#if"; ?x] with ([] ++ [say "#if"] ++ [x] ++ [] ++ [])%list. eapply emits_weaker.
      { eapply emits_seq; [apply emits_push|]. eapply emits_seq; [apply emits_constant; apply (made_trail "#if" _ " "); [apply made_say|reflexivity]|].
        eapply emits_seq; [apply (Q (S d) q _ eq_refl)|]. eapply emits_seq; [apply emits_pop|exact (emits_newline _ _ LB LN _)]. }
      wk.
  Qed.
  Lemma OE_after d k : OE' (deeper c (guard b k) + d) (after b (guard b k)) d (closing k) same same.
  Proof.
    apply OE_done. unfold closing. fold c. destruct (guard b k) as [q|]; cbn [write_after deeper]; [|eapply emits_weaker; [apply emits_ret|wk]].
    destruct (Language_eqb (language c) Cython) eqn:L; cbn [Nat.add].
    - pose proof (OE_closed d false _ eq_refl) as X. unfold closes in X. fold c in X. rewrite L in X. eapply emits_weaker; [exact X|wk].
    - change [say "#endif"] with ([] ++ [] ++ [say "#endif"] ++ [])%list. eapply emits_weaker.
      { eapply emits_seq; [exact (emits_newline _ _ LB LN _)|]. eapply emits_seq; [apply emits_push|]. eapply emits_seq; [apply emits_constant, made_say|apply emits_pop]. }
      wk.
  Qed.
  Lemma OE_cython d s : OE' d (text (cython_def s)) d [say (cdef s)] yes no.
  Proof. rewrite cdef_is. apply OE_say_end. destruct s; reflexivity. Qed.
  Lemma OE_none d : OE d nothing d []. Proof. eapply OE_weaker; [apply OE_nothing|wk]. Qed.
  Lemma OE_literal d l : OE d (write_literal fuel b l) d [written b (write_literal fuel b l)].
  Proof. apply OE_self, OB_literal. Qed.
  Lemma OE_panic d e ps ok st : OE' d Panic e ps ok st. Proof. intros p E. discriminate. Qed.

  (** Both sides as one flat list. *)
  Ltac flat1 := repeat rewrite <- app_assoc; repeat rewrite app_nil_r; cbn [app]; repeat rewrite <- app_assoc; reflexivity.
  Ltac flat := lazymatch goal with |- _ /\ weaker _ _ _ _ => split; [flat1|wk] | |- _ => flat1 end.
  Ltac filled := solve [let Z := fresh in intro Z; repeat (match type of Z with append ?x _ = "" => destruct x; [cbn [append] in Z|discriminate] end); discriminate].
  (** The text ends in something constant that is no word. *)
  Ltac ended := solve [repeat (apply ends_tail; [filled|]); reflexivity].
  Create HintDb oe discriminated.
  Ltac oe1 :=
    lazymatch goal with
    | |- P_Shown.OE _ _ _ (then_ _ _) _ _ _ _ => eapply OE_seq
    | |- P_Shown.OE _ _ _ nothing _ _ _ _ => apply OE_nothing
    | |- P_Shown.OE _ _ _ (text (append (String " " EmptyString) _)) _ _ _ _ => first [apply OE_lead_end; [filled|ended] | apply OE_lead]
    | |- P_Shown.OE _ _ _ (text (append (String " " ?r) ?x)) _ _ _ _ => first [apply (OE_lead_end _ _ _ (append r x)); [filled|ended] | apply (OE_lead _ _ _ (append r x))]
    | |- P_Shown.OE _ _ _ (text (String ?a ?r)) _ _ _ _ =>
        let s := constr:(String a r) in
        let x := eval vm_compute in (front s) in
        let t := eval vm_compute in (trim s) in
        let z := eval vm_compute in (back s) in
        first [apply (OE_text _ _ _ s []); reflexivity | apply (OE_text _ _ _ s [say t]); exact (made_around x t z eq_refl eq_refl)]
    | |- P_Shown.OE _ _ _ (text (append (String ?a ?r) ?x)) _ _ _ _ =>
        first [apply (OE_say_at_end _ _ _ (append (String a r) x) a (append r x) eq_refl); ended | apply (OE_say_at _ _ _ (append (String a r) x) a (append r x) eq_refl)]
    | |- P_Shown.OE _ _ _ (text (cython_def _)) _ _ _ _ => apply OE_cython
    | |- P_Shown.OE _ _ _ (text _) _ _ _ _ => first [apply OE_say_end; ended | apply OE_say]
    | |- P_Shown.OE _ _ _ line _ _ _ _ => exact (OE_line _ _ LB LN _)
    | |- P_Shown.OE _ _ _ (Done newline_if_not_start) _ _ _ _ => exact (OE_start _ _ LB LN _)
    | |- P_Shown.OE _ _ _ (raw_block _) _ _ _ _ => apply OE_raw
    | |- P_Shown.OE _ _ _ (opened _) _ _ _ _ => apply OE_opened
    | |- P_Shown.OE _ _ _ (closed _ _) _ _ _ _ => apply OE_closed
    | |- P_Shown.OE _ _ _ (before _ _) _ _ _ _ => apply OE_before
    | |- P_Shown.OE _ _ _ (after _ _) _ _ _ _ => apply OE_after
    | |- P_Shown.OE _ _ _ (docs _ _) _ _ _ _ => apply OE_docs
    | |- P_Shown.OE _ _ _ (type_text _ _) _ _ _ _ => apply OE_type
    | |- P_Shown.OE _ _ _ (of_option (write_field _ _ _)) _ _ _ _ => apply OE_field
    | |- P_Shown.OE _ _ _ (of_option (write_func _ _ _)) _ _ _ _ => apply OE_func
    | |- P_Shown.OE _ _ _ (write_literal _ _ _) _ _ _ _ => apply OE_literal
    | |- P_Shown.OE _ _ _ (if_some _ _) _ _ _ _ => apply OE_if_some; intros ?
    | |- P_Shown.OE _ _ _ (spaced _) _ _ _ _ => apply OE_spaced
    | |- P_Shown.OE _ _ _ (when _ _) _ _ _ _ => apply OE_when
    | |- P_Shown.OE _ _ _ (each _ _) _ _ _ _ => apply OE_each; intros ?
    | |- P_Shown.OE _ _ _ (vertical _ _ _) _ _ _ _ => apply OE_vertical; [exact LB|exact LN|discriminate|reflexivity|reflexivity|intros ?]
    | |- P_Shown.OE _ _ _ Panic _ _ _ _ => apply OE_panic
    end.
  Ltac oe := repeat (first [oe1 | solve [eauto 3 with oe]]).
  Lemma OE_variant d v : OE d (backend_variant fuel b v) d (shown_variant fuel b v).
  Proof.
    unfold backend_variant, shown_variant. cbv zeta. fold c. destruct (Language_eqb (language c) Cython).
    - eapply OE_eq; [oe|flat].
    - rewrite conditional_eq. eapply OE_eq; [oe|flat].
  Qed.
  Lemma made_glue x n : made_of (x ++ n) [say (x ++ n)]. Proof. apply made_say. Qed.
  Lemma OE_bfield d f : OE d (backend_field b f) d (shown_field b f).
  Proof.
    unfold backend_field, shown_field. cbv zeta. fold c. destruct (Language_eqb (language c) Cython).
    - eapply OE_eq; [oe|flat].
    - rewrite conditional_eq. eapply OE_eq; [oe|]. replace (only (is_some _) []) with (@nil piece) by (destruct (is_some _); reflexivity). flat.
  Qed.
  Hint Resolve OE_variant OE_bfield : oe.
  Lemma OE_param d x gp : OE d (generic_param b x gp) d (shown_param b x gp).
  Proof.
    unfold generic_param, shown_param. fold c. destruct (gp_ty gp), (gp_default gp) as [[?|?]|]; (eapply OE_eq; [oe|flat]).
  Qed.
  Lemma OE_params_text d x ps : OE d (generic_params_text b x ps) d (separated "," (shown_param b x) ps).
  Proof.
    induction ps as [|g r IH]; [apply OE_none|]. cbn [generic_params_text separated]. destruct r as [|q ps]; [apply OE_param|].
    change (say "," :: ?l) with ([say ","] ++ l)%list. eapply OE_weaker; [eapply OE_seq; [apply OE_param|]; eapply OE_seq; [oe|exact IH]|wk].
  Qed.
  Hint Resolve OE_params_text : oe.
  Lemma OE_params d x ps : OE' d (write_generic_params b x ps) d (shown_params b x ps) yes no.
  Proof.
    unfold write_generic_params, shown_params. fold c. destruct ps as [|p ps]; [eapply OE_weaker; [apply OE_nothing|wk]|]. cbn [is_nil negb andb]. eapply OE_eq; [oe|].
    destruct (Language_eqb _ Cxx); [cbn [only]; flat|split; [reflexivity|wk]].
  Qed.
  Hint Resolve OE_params : oe.
  Lemma OE_alignment d a : OE' d (alignment_text b a) d (aligned b a) same same.
  Proof. unfold alignment_text, aligned. fold c. destruct a as [[|n]|]; (eapply OE_eq; [oe|flat]). Qed.
  Lemma OE_before_body d p : OE' d (before_body b p) d (own_text (pre_body (export c) p)) yes no.
  Proof. unfold before_body, own_text. fold c. eapply OE_eq; [oe|]. destruct (pre_body _ _); flat. Qed.
  Lemma OE_after_body d p : OE' d (after_body b p) d (own_text (post_body (export c) p)) same same.
  Proof. unfold after_body, own_text. fold c. eapply OE_eq; [oe|]. destruct (post_body _ _); flat. Qed.
  Lemma with_typedefs : with_typedef b = typedefs b. Proof. reflexivity. Qed.
  Lemma OE_close_item d n : OE' (S d) (close_item b n) d (ending b n) yes same.
  Proof.
    unfold close_item, ending. rewrite with_typedefs. destruct (typedefs b) eqn:T; [|eapply OE_eq; [oe|flat]]. eapply OE_eq; [oe|].
    unfold closes, typedefs in *. fold c. fold c in T. destruct (language c); try discriminate. flat.
  Qed.
  Lemma OE_item_tag d n : OE' d (item_tag b n) d (tag_shown b n) same same. Proof. unfold item_tag, tag_shown. fold c. change has_tag with generate_tag. eapply OE_eq; [oe|flat]. Qed.
  Lemma emits_word d x : emits d (write (x ++ " ")) d [say x] yes no.
  Proof.
    eapply emits_weaker; [apply emits_write, fits_ended; [apply made_trail; [apply made_say|reflexivity]|apply ends_tail; [discriminate|reflexivity]]|wk].
  Qed.
  Lemma emits_no d : emits d PRet d [] yes no. Proof. eapply emits_weaker; [apply emits_ret|wk]. Qed.
  Lemma OE_constant_member d k : OE d (of_option (Constant_write_declaration b k)) d (shown_constant_member b k).
  Proof.
    unfold Constant_write_declaration, shown_constant_member. fold c. rewrite conditional_eq. destruct (write_field c (c_ty k) (c_export_name k)) as [f|] eqn:F; [|apply OE_panic].
    cbv zeta. cbn [of_option]. change [?x; ?y; ?z] with ([x] ++ [y] ++ [z])%list. rewrite <- !app_assoc. apply OE_done. eapply emits_weaker.
    { eapply emits_seq; [exact (OE_before d (c_cfg k) _ eq_refl)|]. eapply emits_seq.
      { instantiate (1 := no). instantiate (1 := yes). destruct (is_const_ptr (c_ty k)); [exact (emits_word _ "static")|exact (emits_word _ "static const")]. }
      eapply emits_seq; [apply (OE_field _ (c_ty k) (c_export_name k)); rewrite F; reflexivity|]. eapply emits_seq; [apply emits_constant, made_say|].
      exact (OE_after d (c_cfg k) _ eq_refl). }
    wk.
  Qed.
  Lemma OE_constant d k s : OE d (Constant_write fuel b k s) d (shown_constant fuel b k s).
  Proof.
    unfold Constant_write, shown_constant. fold c. destruct (match s with Some st => _ | None => false end); [apply OE_none|].
    destruct (is_valid fuel b (c_value k)) as [[|]| |]; [| |apply OE_panic|intros p E; discriminate]; cbn [negb].
    2: apply OE_none.
    destruct (constant_name b k s) as [name|]; [|apply OE_panic]. destruct (unwrap_transparent b (c_value k)) as [v|]; [|apply OE_panic]. cbn [of_option].
    destruct (write_literal fuel b v) as [lit| |] eqn:V; [|apply OE_panic|intros p E; discriminate]. cbv zeta.
    assert (VL : forall e, emits e lit e [written b (Done lit)] same no) by (intro e; pose proof (OE_literal e v lit V) as X; rewrite V in X; exact X).
    rewrite conditional_eq.
    set (cx := co_allow_constexpr (constant c) && can_be_constexpr (c_value k)). set (sc := co_allow_static_const (constant c)).
    set (macro := Language_eqb (language c) M_Config.C || Language_eqb (language c) Cxx && negb (sc || cx)).
    assert (DC : forall q e, of_option (write_field c (c_ty k) name) = Done q -> emits e q e [declared b name (c_ty k)] same no) by (intros q e; apply OE_field).
    destruct macro eqn:M.
    - replace (if Language_eqb (language c) Cython then _ else _) with [S_Shown.macro b name (Done lit)].
      2:{ unfold macro in M. destruct (language c); try discriminate; cbn [Language_eqb orb andb] in *; [|reflexivity].
          destruct sc, cx; try discriminate. reflexivity. }
      rewrite <- !app_assoc. apply OE_done. refine (emits_weaker _ _ _ _ _ _ _ _ _ _ (emits_seq _ _ _ _ _ _ _ _ _ _ _ _ _ (OE_before d (c_cfg k) _ eq_refl) (emits_seq _ _ _ _ _ _ _ _ _ _ _ _ _
        (OE_docs _ _ _ eq_refl) (emits_seq _ _ _ _ _ _ same no _ _ _ _ _ _ (OE_after d (c_cfg k) _ eq_refl)))) _); [|wk].
      set (D := deeper c (guard b (c_cfg k)) + d). clearbody D. destruct (VL D) as [VB _]. split; [eapply brackets_seq; [|exact VB]; reflexivity|]. intros w w' L R. apply run_parts in R as (w1 & R1 & R2).
      assert (L1 : D < length (w_spaces w1)) by (eapply deep_after; [|exact R1|exact L]; reflexivity).
      assert (O1 : exists a, all_blank a = true /\ w_out w1 = w_out w ++ a ++ "#define " ++ name ++ " ").
      { cbn [M_Writer.run write] in R1. unfold inner_write in R1. cbn [append String.eqb] in R1. destruct (w_started w).
        - injection R1 as <-. exists "". split; reflexivity.
        - destruct (w_spaces w) as [|sp r]; [discriminate|]. injection R1 as <-. exists (srepeat " " sp). split; [apply spaces_blank|]. cbn [w_out append]. rewrite ?sapp_assoc. reflexivity. }
      destruct O1 as (a & A & O1). destruct (run_appends _ _ lit w1 w' R2) as (t & O2). exists (a ++ ("#define " ++ name ++ " " ++ t) ++ ""). 
      split; [rewrite O2, O1, sapp_nil_r, !sapp_assoc; reflexivity|]. apply fits_text, made_cons; [exact A| |apply apart_calm; reflexivity|reflexivity].
      exists t. split; [reflexivity|]. exists lit, w1, w'. split; [reflexivity|]. split; [intro Z; rewrite Z in L1; inversion L1|]. split; [exact R2|exact O2].
    - destruct (of_option (write_field c (c_ty k) name)) as [q| |] eqn:Q; [|apply OE_panic|intros p E; discriminate]. specialize (DC q).
      rewrite <- !app_assoc. apply OE_done. refine (emits_weaker _ _ _ _ _ _ _ _ _ _ (emits_seq _ _ _ _ _ _ _ _ _ _ _ _ _ (OE_before d (c_cfg k) _ eq_refl) (emits_seq _ _ _ _ _ _ _ _ _ _ _ _ _
        (OE_docs _ _ _ eq_refl) (emits_seq _ _ _ _ _ _ same no _ _ _ _ _ _ (OE_after d (c_cfg k) _ eq_refl)))) _); [|wk].
      destruct (Language_eqb (language c) Cython) eqn:LC.
      + change [?x; ?y; ?z; ?u] with ([x] ++ [y] ++ [z] ++ [u])%list.
        eapply emits_weaker; [eapply emits_seq; [exact (emits_word _ "const")|]; eapply emits_seq; [apply DC, eq_refl|];
          eapply emits_seq; [apply emits_constant, (made_around " " "# =" " "); reflexivity|apply VL]|wk].
      + replace (Language_eqb (language c) M_Config.C || negb sc && negb cx) with false.
        2:{ unfold macro in M. destruct (language c); cbn [Language_eqb orb andb] in *; try discriminate. rewrite <- negb_orb. symmetry. exact M. }
        change [declared b name (c_ty k); ?y; ?z; ?u] with ([declared b name (c_ty k)] ++ [y] ++ [z] ++ [u])%list.
        eapply emits_weaker.
        { eapply emits_seq. { instantiate (1 := no). instantiate (1 := yes). destruct cx; [exact (emits_word _ "constexpr")|apply emits_no]. }
          eapply emits_seq. { instantiate (1 := no). instantiate (1 := yes). destruct sc; [|apply emits_no]. destruct (constant_in_body b s); [exact (emits_word _ "inline")|exact (emits_word _ "static")]. }
          eapply emits_seq. { instantiate (1 := no). instantiate (1 := yes). destruct (is_const_ptr (c_ty k)); [apply emits_no|exact (emits_word _ "const")]. }
          eapply emits_seq; [apply DC, eq_refl|]. eapply emits_seq; [apply emits_constant, (made_around " " "=" " "); reflexivity|].
          eapply emits_seq; [apply VL|apply emits_constant, made_say]. }
        wk.
  Qed.
  Hint Resolve OE_alignment OE_before_body OE_after_body OE_close_item OE_item_tag OE_constant_member OE_constant : oe.
  Lemma OE_associated d s : OE' d (associated_constants fuel b s) d (flat_map (fun k => shown_constant fuel b k (Some s)) (s_associated_constants s)) same same.
  Proof. unfold associated_constants. eapply OE_eq; [apply OE_each; intro k; oe|flat]. Qed.
  Hint Resolve OE_associated : oe.
  Lemma made_attr x : made_of (x ++ " ") [say x]. Proof. apply made_trail; [apply made_say|reflexivity]. Qed.
  Lemma OE_attrs d a n : OE' d (attrs_text a n) d (own_attributes a n) yes no.
  Proof. unfold attrs_text, own_attributes. destruct (an_atom _ _) as [[x|]|]; [apply OE_done, emits_word|eapply OE_weaker; [apply OE_nothing|wk]|eapply OE_weaker; [apply OE_nothing|wk]]. Qed.
  Hint Resolve OE_attrs : oe.
  Section Cxx.
    Context (CX : language c = Cxx).
    Lemma cxx_opens : opens b = [say "{"]. Proof. unfold opens. fold c. rewrite CX. reflexivity. Qed.
    Lemma cxx_closes : closes b false = [say "}"]. Proof. unfold closes. fold c. rewrite CX. reflexivity. Qed.
    Ltac cx := rewrite ?cxx_opens, ?cxx_closes; unfold method; flat.
    Lemma OE_constructor d s : OE' d (derived_constructor b s) d (shown_constructor b s) yes yes.
    Proof.
      unfold derived_constructor, shown_constructor. cbv zeta. rewrite !vertical_map. eapply OE_eq.
      - do 2 (eapply OE_seq; [oe|]). eapply OE_seq; [apply OE_joined with (t := ","); [exact LB|exact LN|apply made_say|reflexivity|intro; apply OE_bfield]|].
        do 3 (eapply OE_seq; [oe|]). eapply OE_seq; [apply OE_joined with (t := ","); [exact LB|exact LN|apply made_say|reflexivity|intro; apply OE_say]|]. oe.
      - flat.
    Qed.
    Lemma OE_comparison d n op j s : OE' d (derived_op b n op j s) d (shown_comparison b n op j s) yes yes.
    Proof.
      unfold derived_op, shown_comparison, compared. cbv zeta. rewrite vertical_map.
      replace (match s_fields s with [] => [] | _ :: l => l end) with (tl (s_fields s)) by (destruct (s_fields s); reflexivity).
      eapply OE_eq.
      - eapply OE_seq; [oe|]. eapply OE_seq; [exact (OE_attrs _ _ _)|]. do 3 (eapply OE_seq; [oe|]).
        eapply OE_seq; [apply OE_joined with (t := j); [exact LB|exact LN|apply made_lead_say|reflexivity|intro; apply OE_say]|]. oe.
      - destruct (s_has_tag_field s); cx.
    Qed.
    Lemma OE_ostream d s : OE' d (derived_ostream b s) d (shown_ostream b s) yes yes.
    Proof.
      unfold derived_ostream, shown_ostream. cbv zeta. rewrite vertical_map. eapply OE_eq.
      - do 4 (eapply OE_seq; [oe|]).
        eapply OE_seq; [apply OE_joined with (t := "<< " ++ dquote ++ ", " ++ dquote); [exact LB|exact LN|apply (made_lead_say ("<< " ++ dquote ++ ", " ++ dquote))|reflexivity|intro; oe]|]. oe.
      - cx.
    Qed.
    Lemma OE_bitflags d s : OE' d (derived_bitflags b s) d (shown_bitflags b s) yes yes.
    Proof.
      unfold derived_bitflags, shown_bitflags. destruct (s_fields s) as [|f [|? ?]]; try apply OE_panic. cbv zeta. eapply OE_eq.
      - unfold bitflags_binop. oe.
      - rewrite ?cxx_opens, ?cxx_closes. unfold method. fold c. cbn [flat_map]. rewrite !sapp_assoc. flat.
    Qed.
    Lemma OE_derived d s : OE' d (write_derived_ops b s) d (shown_derived b s) yes same.
    Proof.
      unfold write_derived_ops. cbv zeta. rewrite <- (app_nil_l (shown_derived b s)).
      assert (NL : forall x, OE' d (when x line) d [] yes same).
      { intros [|]; [eapply OE_weaker; [exact (OE_line _ _ LB LN _)|wk]|apply OE_nothing]. }
      eapply OE_weaker; [eapply OE_seq; [apply NL|]; instantiate (1 := same); instantiate (1 := yes)|wk].
      unfold derived_sections, shown_derived, orderable, flag, asked. cbv zeta. fold c.
      eapply OE_eq.
      - apply OE_sections.
        assert (SEC : forall (x : bool) o ps, OE' d o d ps yes yes -> Forall2 (fun o ps => OE' d o d ps yes yes) (if x then [o] else []) (if x then [ps] else [])).
        { intros x o ps K. destruct x; constructor; [exact K|constructor]. }
        repeat (eapply Forall2_app; [apply SEC; first [apply OE_constructor | apply OE_bitflags | apply OE_ostream | apply OE_comparison]|]).
        apply SEC, OE_comparison.
      - rewrite !concat_app. assert (CE : forall (x : bool) (ps : list piece), concat (if x then [ps] else []) = only x ps).
        { intros [|] ps; [apply app_nil_r|reflexivity]. }
        rewrite !CE. flat.
    Qed.
  End Cxx.
  Lemma OE_derived' d s : OE' d (when (Language_eqb (language c) Cxx) (write_derived_ops b s)) d (only (Language_eqb (language c) Cxx) (shown_derived b s)) yes same.
  Proof. destruct (language c) eqn:L; [apply OE_derived, L|apply OE_nothing|apply OE_nothing]. Qed.
  Lemma OE_struct d s : OE d (write_struct fuel b s) d (shown_struct fuel b s).
  Proof.
    unfold write_struct, shown_struct. fold c. rewrite conditional_eq. destruct (Language_eqb (language c) Cython) eqn:L.
    - assert (N : closes b true = []) by (unfold closes; fold c; rewrite L; reflexivity).
      unfold cython_struct. cbv zeta. fold c. eapply OE_eq.
      + do 3 (eapply OE_seq; [oe|]). eapply OE_seq; [|oe].
        instantiate (1 := no). instantiate (1 := yes).
        instantiate (1 := match s_alignment s with Some Packed => [say "packed"] | _ => [] end).
        destruct (s_alignment s) as [[|]|]; (eapply OE_eq; [oe|split; [reflexivity|wk]]).
      + rewrite N. unfold shown_fields, nothing_inside. flat.
    - unfold clike_struct. cbv zeta. fold c. rewrite with_typedefs. eapply OE_eq.
      + do 12 (eapply OE_seq; [oe|]). eapply OE_seq; [apply OE_derived'|]. oe.
      + unfold shown_fields. flat.
  Qed.
  Lemma OE_union d u : OE d (write_union b u) d (shown_union b u).
  Proof.
    unfold write_union, shown_union. fold c. rewrite conditional_eq. destruct (Language_eqb (language c) Cython) eqn:L.
    - assert (N : closes b true = []) by (unfold closes; fold c; rewrite L; reflexivity).
      unfold cython_union. cbv zeta. fold c. eapply OE_eq; [oe|]. rewrite N. unfold shown_fields, nothing_inside. flat.
    - unfold clike_union. cbv zeta. fold c. rewrite with_typedefs. eapply OE_eq; [oe|]. unfold shown_fields. flat.
  Qed.
  Lemma OE_opaque d o : OE d (write_opaque_item b o) d (shown_opaque b o).
  Proof.
    unfold write_opaque_item, shown_opaque. cbv zeta. fold c. rewrite <- ?cdef_is, conditional_eq, with_typedefs. destruct (Language_eqb (language c) Cython) eqn:L.
    - assert (N : closes b false = []) by (unfold closes; fold c; rewrite L; reflexivity). assert (O : opens b = [say ":"]) by (unfold opens; fold c; rewrite L; reflexivity).
      eapply OE_eq; [oe|]. rewrite N, O. flat.
    - destruct (typedefs b); (eapply OE_eq; [oe|]; flat).
  Qed.
  Lemma OE_typedef d t : OE d (write_type_def b t) d (shown_typedef b t).
  Proof.
    unfold write_type_def, shown_typedef. cbv zeta. fold c. rewrite conditional_eq.
    assert (PP : only (negb (Language_eqb (language c) Cython)) (shown_params b false (t_generic_params t)) = shown_params b false (t_generic_params t)).
    { unfold shown_params. fold c. destruct (language c); try reflexivity. cbn. destruct (t_generic_params t); reflexivity. }
    destruct (Language_eqb (language c) Cxx) eqn:X.
    - eapply OE_eq.
      + do 3 (eapply OE_seq; [oe|]). eapply OE_seq; [|oe]. eapply OE_seq; [|oe]. replace ("using " ++ t_export_name t ++ " = ") with (("using " ++ t_export_name t ++ " =") ++ " ") by (rewrite !sapp_assoc; reflexivity).
        apply OE_done, (emits_word _ ("using " ++ t_export_name t ++ " =")).
      + rewrite PP. flat.
    - assert (BF : shown_field b (from_name_and_type (t_export_name t) (t_aliased t)) = (documented b [] ++ [declared b (t_export_name t) (t_aliased t)])%list).
      { unfold shown_field. fold c. cbn [fd_annotations fd_cfg fd_documentation fd_name fd_ty from_name_and_type].
        unfold conditional, to_condition_opt. fold c. destruct (Language_eqb (language c) Cython); reflexivity. }
      eapply OE_eq.
      + do 3 (eapply OE_seq; [oe|]). eapply OE_seq; [|oe]. eapply OE_seq; [|oe]. instantiate (1 := no). instantiate (1 := yes). instantiate (1 := [say (if Language_eqb (language c) Cython then "ctypedef" else "typedef")]).
        destruct (language c); [discriminate|apply OE_done, (emits_word _ "typedef")|apply OE_done, (emits_word _ "ctypedef")].
      + rewrite BF, PP. flat.
  Qed.
  Lemma OE_static d g : OE d (write_static b g) d (shown_static b g).
  Proof. unfold write_static, shown_static. cbv zeta. fold c. rewrite conditional_eq. eapply OE_eq; [oe|flat]. Qed.
  Hint Resolve OE_struct OE_typedef : oe.
  Lemma OE_space d l : OE' d (write_space l) d [] yes yes.
  Proof. unfold write_space. destruct l; (eapply OE_eq; [oe|flat]). Qed.
  Hint Resolve OE_space : oe.
  Lemma OE_attribute d l o : OE' d (if_some o (fun x => text x >> write_space l)) d (with_note o) yes no.
  Proof. unfold with_note. eapply OE_weaker; [apply OE_if_some; intro x; eapply OE_eq; [oe|split; [reflexivity|apply weaker_refl]]|wk]. Qed.
  Lemma OE_postfix d l o : OE' d (if_some o (fun x => write_space l >> text x)) d (with_note o) same same.
  Proof. unfold with_note. eapply OE_weaker; [apply OE_if_some; intro x; eapply OE_eq; [oe|split; [reflexivity|apply weaker_refl]]|wk]. Qed.
  Hint Resolve OE_attribute OE_postfix : oe.
  Lemma OE_function_as d f l : OE d (write_function_with_layout b f l) d (shown_function_as b l f).
  Proof.
    unfold write_function_with_layout, shown_function_as. cbv zeta. fold c. rewrite conditional_eq.
    destruct (f_extern_decl f); cbn [negb].
    - eapply OE_eq; [oe|]. cbn [only]. flat.
    - eapply OE_eq.
      + do 2 (eapply OE_seq; [oe|]). eapply OE_seq.
        * eapply OE_seq; [apply OE_attribute|]. eapply OE_seq; apply OE_attribute.
        * eapply OE_seq; [oe|]. eapply OE_seq; [apply OE_when, OE_postfix|]. oe.
      + flat.
  Qed.
  Lemma OE_enumerators d vs : OE d (enumerators fuel b vs) d (flat_map (shown_variant fuel b) vs).
  Proof.
    induction vs as [|v r IH]; [apply OE_none|]. destruct r as [|q r]; cbn [flat_map].
    - rewrite app_nil_r. apply OE_variant.
    - change (enumerators fuel b (v :: q :: r)) with (backend_variant fuel b v >> line >> enumerators fuel b (q :: r)). eapply OE_eq; [|]. 
      { eapply OE_seq; [apply OE_variant|]. eapply OE_seq; [oe|exact IH]. } flat.
  Qed.
  Lemma OE_tag_head d e z : OE d (open_tag_enum b e z) d (shown_tag_head b e z).
  Proof.
    unfold open_tag_enum, shown_tag_head, typed_enum_condition, cpp_compatible_c. cbv zeta. fold c. rewrite <- ?cdef_is. change has_tag with generate_tag. change has_typedef with generate_typedef. destruct (language c) eqn:L; cbn [Language_eqb andb].
    - eapply OE_eq.
      { eapply OE_seq; [|oe]. instantiate (1 := no). instantiate (1 := same). instantiate (1 := [say (if enum_class (enumeration c) (e_annotations e) then "enum class" else "enum")]).
        destruct (enum_class _ _); (eapply OE_eq; [oe|flat]). }
      flat.
    - destruct z as [prim|]; [|eapply OE_eq; [oe|flat]].
      eapply OE_eq.
      { do 4 (eapply OE_seq; [oe|]). eapply OE_seq; [oe|]. eapply OE_seq; [oe|].
        eapply OE_seq; [apply OE_done, emits_write, fits_text; instantiate (1 := [say (": " ++ prim)]); apply (made_lead "  "); [reflexivity|apply made_say]|oe]. }
      destruct (cpp_compat c); flat.
    - destruct z as [prim|]; (eapply OE_eq; [oe|flat]).
  Qed.
  Lemma OE_size d tag prim : OE' d (tag_size_typedef b tag prim) d (shown_size b tag prim) same same.
  Proof.
    unfold tag_size_typedef, shown_size, cpp_compatible_c. fold c. destruct (language c) eqn:L; cbn [Language_eqb andb negb Language_typedef].
    - eapply OE_eq; [oe|flat].
    - eapply OE_eq; [oe|]. destruct (cpp_compat c); flat.
    - eapply OE_eq; [oe|flat].
  Qed.
  Hint Resolve OE_enumerators OE_tag_head OE_size : oe.
  Lemma map_flat {A B} (f : A -> B) (g : B -> piece) xs : flat_map (fun x => [g (f x)]) xs = map g (map f xs).
  Proof. induction xs as [|x xs IH]; [reflexivity|]. cbn. rewrite IH. reflexivity. Qed.
  Lemma OE_enum_functions d e : OE' d (derived_functions_enum b e) d (shown_enum_stream b e) yes same.
  Proof.
    unfold derived_functions_enum, shown_enum_stream, flag, asked. cbv zeta. fold c. destruct (language c) eqn:CX; cbn [Language_eqb andb]; [|apply OE_nothing|apply OE_nothing].
    rewrite !vertical_map. refine (OE_weaker _ _ _ _ _ _ _ _ _ _ (OE_when _ _ _ _ _ _ yes yes _) _); [|wk].
    assert (L1 : forall d (g : EnumVariant -> string), OE d (vertical (e_variants e) (Join "") (fun x => text (g x))) d (statements (map g (e_variants e)))).
    { intros d' g. eapply OE_eq; [apply OE_lines; [exact LB|exact LN|intro; apply OE_say]|]. split; [apply map_flat|wk]. }
    destruct (is_some (e_tag e)); cbn [when only].
    - eapply OE_eq.
      + do 7 (eapply OE_seq; [oe|]). eapply OE_seq; [apply L1|]. do 4 (eapply OE_seq; [oe|]). do 7 (eapply OE_seq; [oe|]). eapply OE_seq; [apply L1|]. oe.
      + rewrite ?cxx_opens, ?cxx_closes by exact CX. unfold method. rewrite !sapp_assoc. flat.
    - eapply OE_eq.
      + do 7 (eapply OE_seq; [oe|]). eapply OE_seq; [apply L1|]. oe.
      + rewrite ?cxx_opens, ?cxx_closes by exact CX. unfold method. flat.
  Qed.
  Hint Resolve OE_enum_functions : oe.
  Lemma OE_tag_enum d e z : OE d (write_tag_enum fuel b e z) d (shown_tag_enum fuel b e z).
  Proof.
    unfold write_tag_enum, shown_tag_enum. fold c. change has_typedef with generate_typedef. destruct (Language_eqb (language c) M_Config.C && negb (is_some z) && generate_typedef (style c)) eqn:T.
    - eapply OE_eq; [oe|]. assert (N : closes b false = [say "}"]). { unfold closes. fold c. destruct (language c); try discriminate. reflexivity. }
      rewrite N. flat.
    - eapply OE_eq; [oe|]. flat.
  Qed.
  Lemma OE_container d e i : OE' d (open_struct_or_union b e i) (S d) (shown_container b e i) yes no.
  Proof.
    unfold open_struct_or_union, shown_container. fold c. rewrite with_typedefs. eapply OE_eq.
    { eapply OE_seq. { instantiate (1 := no). instantiate (1 := yes).
        instantiate (1 := if Language_eqb (language c) Cython then [say (cdef (style c))] else only (typedefs b) [say "typedef"]).
        destruct (Language_eqb (language c) Cython); (eapply OE_eq; [oe|flat]). }
      eapply OE_seq; [instantiate (1 := no); instantiate (1 := same); instantiate (1 := [say (if i then "union" else "struct")]); destruct i; (eapply OE_eq; [oe|flat])|].
      eapply OE_seq; [oe|]. eapply OE_seq; [|oe].
      apply (OE_if_some _ _ _ _ _ (fun x => [say x]) same yes). intro x. apply OE_done, emits_write. intros k r K. split; [|reflexivity].
      intros _. split; [apply (made_around " " x " "); reflexivity|]. apply apart_ended. apply (ends_tail (" " ++ x) " "); [discriminate|reflexivity]. }
    unfold with_note at 2. flat.
  Qed.
  Lemma unless_eq k ps : unless_cython b k ps = (only (negb (Language_eqb (language c) Cython)) (opening k) ++ ps ++ only (negb (Language_eqb (language c) Cython)) (closing k))%list.
  Proof.
    unfold unless_cython. fold c. destruct (Language_eqb (language c) Cython); cbn [negb only]; [rewrite app_nil_r; reflexivity|apply conditional_eq].
  Qed.
  Definition inner (k : option Condition) (d : nat) : nat := if Language_eqb (language c) Cython then d else deeper c k + d.
  Lemma OE_before' d k : OE' d (when (negb (Language_eqb (language c) Cython)) (before b (guard b k))) (inner (guard b k) d) (only (negb (Language_eqb (language c) Cython)) (opening k)) yes no.
  Proof. unfold inner. destruct (Language_eqb (language c) Cython) eqn:L; cbn [negb when only]; [eapply OE_weaker; [apply OE_nothing|wk]|apply OE_before]. Qed.
  Lemma OE_after' d k : OE' (inner (guard b k) d) (when (negb (Language_eqb (language c) Cython)) (after b (guard b k))) d (only (negb (Language_eqb (language c) Cython)) (closing k)) same same.
  Proof. unfold inner. destruct (Language_eqb (language c) Cython) eqn:L; cbn [negb when only]; [eapply OE_weaker; [apply OE_nothing|wk]|apply OE_after]. Qed.
  Lemma OE_bodies d e : OE' d (write_variant_defs fuel b e) d (flat_map (shown_body fuel b) (e_variants e)) same same.
  Proof.
    unfold write_variant_defs. refine (OE_weaker _ _ _ _ _ _ _ _ _ _ (OE_each _ _ _ _ _ _ same same _) _); [|wk].
    intro v. unfold write_variant_def, shown_body. destruct (v_body v) as [|n s [|] k]; try (eapply OE_weaker; [apply OE_nothing|wk]).
    cbv zeta. fold c. rewrite unless_eq. eapply OE_eq; [do 2 (eapply OE_seq; [oe|]); eapply OE_seq; [apply OE_before'|]; eapply OE_seq; [oe|apply OE_after']|flat].
  Qed.
  Lemma OE_tag d e z i : OE d (write_tag_field b e z i) d (shown_tag b e z i).
  Proof.
    unfold write_tag_field, shown_tag. cbv zeta. fold c. destruct (i && Language_eqb (language c) Cxx) eqn:X; cbn [when].
    - assert (C : language c = Cxx) by (apply andb_true_iff in X as [_ X]; destruct (language c); try discriminate; reflexivity).
      assert (N : closes b true = [say "};"]) by (unfold closes; fold c; rewrite C; reflexivity). assert (O : opens b = [say "{"]) by (unfold opens; fold c; rewrite C; reflexivity).
      eapply OE_eq; [oe|]. rewrite N, O. flat.
    - eapply OE_eq; [oe|]. flat.
  Qed.
  Lemma OE_member d i n s k : OE d (variant_field b i n s k) d
    (if k then
       if Language_eqb (language c) Cython then shown_fields b (if i then tl (s_fields s) else s_fields s)
       else [say "struct"; say "{"] ++ shown_fields b (s_fields s) ++ [say "};"]
     else [say ((if generate_typedef (style c) || Language_eqb (language c) Cython then "" else "struct ") ++ s_export_name s ++ " " ++ n ++ ";")])%list.
  Proof.
    unfold variant_field. fold c. destruct k; cbv zeta.
    - destruct (Nat.ltb _ _); [apply OE_panic|]. destruct (Language_eqb (language c) Cython) eqn:L.
      + cbn [negb when]. eapply OE_eq; [oe|]. unfold shown_fields. rewrite andb_true_r. split; [|wk]. destruct i; [|cbn [skipn app]; rewrite app_nil_r; reflexivity].
        cbn [app]. rewrite app_nil_r. destruct (s_fields s); reflexivity.
      + assert (N : closes b true = [say "};"]) by (unfold closes; fold c; rewrite L; reflexivity). assert (O : opens b = [say "{"]) by (unfold opens; fold c; rewrite L; reflexivity).
        cbn [negb when]. rewrite andb_false_r. cbn [skipn]. eapply OE_eq; [oe|]. rewrite N, O. unfold shown_fields. flat.
    - destruct (_ || _); (eapply OE_eq; [oe|flat]).
  Qed.
  Lemma OE_members d i vs : forall f : bool, OE' d (variant_fields b i f vs) d (flat_map (shown_member b i) vs) same (if f then no else same).
  Proof.
    induction vs as [|v vs IH]; intro f; cbn [variant_fields flat_map]; [destruct f; (eapply OE_weaker; [apply OE_nothing|wk])|]. unfold shown_member at 1.
    destruct (v_body v) as [|n s k q]; [apply IH|]. cbv zeta. fold c. rewrite unless_eq.
    eapply OE_eq; [eapply OE_seq; [|eapply OE_seq; [apply OE_before'|]; eapply OE_seq; [apply OE_member|]; eapply OE_seq; [apply OE_after'|apply (IH false)]]|].
    { instantiate (1 := fun k => if f then k else true). instantiate (1 := yes). instantiate (1 := []). destruct f; cbn [negb when]; [apply OE_nothing|exact (OE_line _ _ LB LN _)]. }
    destruct f; flat.
  Qed.
  Section CxxData.
    Context (CX : language c = Cxx).
    Ltac cx := rewrite ?(cxx_opens CX), ?(cxx_closes CX); unfold method; flat.
    Lemma OE_init d n f : OE' d (init_field b n f) d (shown_init b n f) yes yes.
    Proof.
      unfold init_field, shown_init. destruct (fd_ty f); (eapply OE_eq; [oe|cx]).
    Qed.
    Lemma payload_data s : data_fields s = payload s.
    Proof. unfold data_fields, payload. destruct (s_has_tag_field s); [|reflexivity]. destruct (s_fields s); reflexivity. Qed.
    Lemma OE_variant_constructor d e v : OE' d (variant_constructor b e v) d (shown_variant_constructor b e v) yes no.
    Proof.
      unfold variant_constructor, shown_variant_constructor. cbv zeta. destruct (v_body v) as [|n s k q].
      - eapply OE_eq; [oe|cx].
      - rewrite payload_data, vertical_map. eapply OE_eq.
        + do 2 (eapply OE_seq; [oe|]). eapply OE_seq; [apply OE_joined with (t := ","); [exact LB|exact LN|apply made_say|reflexivity|intro; apply OE_bfield]|].
          do 3 (eapply OE_seq; [oe|]). eapply OE_seq; [apply OE_each; intro; apply OE_init|]. oe.
        + cx.
    Qed.
    Lemma OE_is d e v : OE' d (variant_is b e v) d (shown_is e v) yes no.
    Proof. unfold variant_is, shown_is. eapply OE_eq; [oe|cx]. Qed.
    Lemma OE_cast d v k : OE' d (derive_casts b v k) d (shown_cast b v k) yes same.
    Proof.
      unfold derive_casts, shown_cast. fold c. destruct (v_body v) as [|n s i q] eqn:V; [apply OE_nothing|].
      destruct (s_has_tag_field s && is_nil (s_fields s)); [apply OE_panic|]. rewrite payload_data.
      destruct (payload s) as [|f0 fs] eqn:P; cbn [is_nil]; [apply OE_nothing|].
      destruct (last (map Some (s_fields s)) None) as [f|] eqn:LF.
      2:{ exfalso. assert (NE : s_fields s <> []). { intro Z. unfold payload in P. rewrite Z in P. destruct (s_has_tag_field s); discriminate. }
          destruct (exists_last NE) as (l & x & E). rewrite E, map_app in LF. cbn [map] in LF. rewrite last_last in LF. discriminate. }
      cbn [of_option]. eapply OE_eq.
      - do 2 (eapply OE_seq; [oe|]). eapply OE_seq; [exact (OE_attrs _ _ _)|].
        eapply OE_seq. { instantiate (1 := no). instantiate (1 := same). instantiate (1 := if q then [named_type b (TPtr (fd_ty f) k false true)] else [say ((if k then "const " else "") ++ s_export_name s ++ "&")]). destruct q; [oe|apply OE_say]. }
        oe.
      - cx.
    Qed.
    Lemma OE_helpers d e v : OE' d (variant_helpers b e v) d (shown_helpers b e v) same yes.
    Proof.
      unfold variant_helpers, shown_helpers, flag, asked. cbv zeta. fold c. rewrite conditional_eq. eapply OE_eq.
      - do 3 (eapply OE_seq; [oe|]). eapply OE_seq; [apply OE_variant_constructor|]. do 2 (eapply OE_seq; [oe|]). eapply OE_seq; [apply OE_is|].
        do 2 (eapply OE_seq; [apply OE_when, OE_cast|]). oe.
      - flat.
    Qed.
    Lemma OE_switch d e f g : (forall v n s, f v n s = "case " ++ tag_name e ++ "::" ++ v_export_name v ++ ": " ++ g n s) ->
      OE' d (switch_tag b e f) d (shown_switch b e g) yes no.
    Proof.
      intro FG. unfold switch_tag, shown_switch. cbv zeta. eapply OE_eq.
      - do 2 (eapply OE_seq; [oe|]). eapply OE_seq; [|oe]. apply OE_each. intro v. instantiate (1 := no). instantiate (1 := yes). instantiate (1 := fun v => match v_body v with
                  | VBody n s _ _ => conditional b (v_cfg v) [say ("case " ++ tag_name e ++ "::" ++ v_export_name v ++ ": " ++ g n s)]
                  | VEmpty _ => []
                  end). cbv beta. unfold variant_case. destruct (v_body v) as [|n s i q]; [eapply OE_weaker; [apply OE_nothing|wk]|]. cbv zeta. rewrite conditional_eq, FG. eapply OE_eq; [oe|flat].
      - cx.
    Qed.
  End CxxData.
  Lemma OE_data_functions d e : OE' d (derived_functions_data b e) d (shown_data_functions b e) same same.
  Proof.
    unfold derived_functions_data, shown_data_functions, flag, asked. cbv zeta. fold c. destruct (language c) eqn:CX; cbn [Language_eqb]; [|eapply OE_weaker; [apply OE_nothing|wk]|eapply OE_weaker; [apply OE_nothing|wk]].
    cbn [when only]. unfold derived_enum_eq, private_constructor, derived_destructor, derived_copy, flag. cbv zeta. fold c.
    assert (SW : forall d f g, (forall v n s, f v n s = "case " ++ tag_name e ++ "::" ++ v_export_name v ++ ": " ++ g n s) -> OE' d (switch_tag b e f) d (shown_switch b e g) yes no).
    { intros d' f g. apply OE_switch. exact CX. }
    assert (WH : forall x p ps, OE' d p d ps yes yes -> OE' d (when x p) d (only x ps) same same).
    { intros x p ps K. eapply OE_weaker; [apply OE_when, K|wk]. }
    refine (OE_weaker _ _ _ _ _ _ _ _ _ _ (OE_seq _ _ _ _ _ _ same same _ _ _ same same _ _) _); [| |wk].
    { eapply OE_weaker; [apply OE_when, OE_each; intro; apply OE_helpers; exact CX|wk]. }
    refine (OE_weaker _ _ _ _ _ _ _ _ _ _ (OE_seq _ _ _ _ _ _ same same _ _ _ same same (WH _ _ _ _) _) _); [| |wk].
    { eapply OE_eq.
      - do 10 (eapply OE_seq; [oe|]).
        eapply OE_seq; [apply (SW _ _ (fun m _ => "return " ++ m ++ " == " ++ renamed b "other" ++ "." ++ m ++ ";")); intros; rewrite ?sapp_assoc; reflexivity|].
        oe.
      - rewrite ?cxx_opens, ?cxx_closes by exact CX. unfold method. flat. }
    refine (OE_weaker _ _ _ _ _ _ _ _ _ _ (OE_seq _ _ _ _ _ _ same same _ _ _ same same (WH _ _ _ _) _) _); [| |wk].
    { eapply OE_eq; [oe|]. rewrite ?cxx_opens, ?cxx_closes by exact CX. unfold method. flat. }
    refine (OE_weaker _ _ _ _ _ _ _ _ _ _ (OE_seq _ _ _ _ _ _ same same _ _ _ same same (WH _ _ _ _) (WH _ _ _ _)) _); [| |wk].
    { eapply OE_eq.
      - do 5 (eapply OE_seq; [oe|]).
        eapply OE_seq; [apply (SW _ _ (fun m s => m ++ ".~" ++ s_export_name s ++ "(); break;")); intros; rewrite ?sapp_assoc; reflexivity|].
        oe.
      - rewrite ?cxx_opens, ?cxx_closes by exact CX. unfold method. flat. }
    { eapply OE_eq.
      - do 7 (eapply OE_seq; [oe|]).
        eapply OE_seq; [apply (SW _ _ (fun m s => "::new (&" ++ m ++ ") (" ++ s_export_name s ++ ")(" ++ renamed b "other" ++ "." ++ m ++ "); break;")); intros; rewrite ?sapp_assoc; reflexivity|].
        oe.
      - rewrite ?cxx_opens, ?cxx_closes by exact CX. unfold method. flat. }
  Qed.
  Hint Resolve OE_tag_enum OE_container OE_bodies OE_tag OE_members OE_data_functions : oe.
  Lemma OE_enum d e : OE d (write_enum fuel b e) d (shown_enum fuel b e).
  Proof.
    unfold write_enum, shown_enum. cbv zeta. fold c. rewrite conditional_eq. destruct (is_some (e_tag e)) eqn:D; cbn [andb only when].
    2:{ eapply OE_eq; [oe|]. flat. }
    assert (U : forall d, OE d (text "union" >> opened b) (S d) ([say "union"] ++ opens b)) by (intro; eapply OE_eq; [oe|flat]).
    set (i := inline_tag_field (e_repr e)). destruct (Language_eqb (language c) Cython) eqn:LC; cbn [negb]; rewrite ?andb_false_r, ?andb_true_r; cbn [when only].
    - assert (LX : Language_eqb (language c) Cxx = false) by (destruct (language c); [discriminate|reflexivity|reflexivity]). rewrite LX. cbn [negb when only].
      eapply OE_eq; [oe|]. flat.
    - assert (N : closes b true = [say "};"]) by (unfold closes; fold c; rewrite LC; reflexivity). assert (O : opens b = [say "{"]) by (unfold opens; fold c; rewrite LC; reflexivity).
      rewrite O in U. destruct (Language_eqb (language c) Cxx); cbn [negb when only].
      + destruct i; cbn [negb when only]; (eapply OE_eq; [oe|]); rewrite ?N, ?O; flat.
      + destruct i; cbn [negb when only]; (eapply OE_eq; [oe|]); rewrite ?N, ?O; flat.
  Qed.

  Definition OE1 (o : outcome prog) (pss : list (list piece)) : Prop :=
    forall p w w', o = Done p -> w_spaces w <> [] -> run (tab_width c) le p w = Some w' -> exists t ps, w_out w' = w_out w ++ t /\ In ps pss /\ made_of t ps.
  Lemma OE_OE1 o ps : OE 0 o 0 ps -> OE1 o [ps].
  Proof.
    intros K p w w' E S R. destruct (proj2 (K p E) w w') as (t & T & M); [destruct (w_spaces w); [contradiction|cbn; lia]|exact R|].
    exists t, ps. split; [exact T|]. split; [left; reflexivity|exact (fits_made _ _ _ _ M eq_refl)].
  Qed.
  Lemma function_shown f : OE1 (write_function b f) (shown fuel b (AFunction f)).
  Proof.
    unfold write_function, shown. fold c. destruct (fn_args (function c)); [apply OE_OE1, OE_function_as|apply OE_OE1, OE_function_as|].
    intros p w w' E S R. destruct (write_function_with_layout b f Horizontal) as [h| |] eqn:A; try discriminate.
    destruct (write_function_with_layout b f Vertical) as [v| |] eqn:B; try discriminate. apply done_eq in E. subst p.
    destruct (emits_try _ _ h (line_length c) v _ _ same no eq_refl (OE_function_as 0 f Horizontal h A) (OE_function_as 0 f Vertical v B) w w') as (t & T & [M|M]);
      [destruct (w_spaces w); [contradiction|cbn; lia]|exact R| |].
    - exists t, (shown_function_as b Horizontal f). split; [exact T|]. split; [left; reflexivity|exact M].
    - exists t, (shown_function_as b Vertical f). split; [exact T|]. split; [right; left; reflexivity|exact M].
  Qed.
  Lemma declaration_shown x : OE1 (write_declaration fuel b x) (shown fuel b x).
  Proof.
    destruct x as [k|i|g|f]; [apply OE_OE1, OE_constant| |apply OE_OE1, OE_static|apply function_shown].
    destruct i as [o|s|u|e|t]; cbn [write_declaration write_item shown].
    - apply OE_OE1, OE_opaque.
    - unfold write_struct_or_typedef. destruct (as_typedef s); apply OE_OE1; [eapply OE_eq; [oe|flat]|apply OE_struct].
    - apply OE_OE1, OE_union.
    - apply OE_OE1, OE_enum.
    - apply OE_OE1, OE_typedef.
  Qed.
  Lemma alone_shown top x t : alone fuel b top x t -> exists ps, In ps (shown fuel b x) /\ made_of t ps.
  Proof.
    intros (p & w & E & R & <-). destruct (declaration_shown x p (place b top) w E) as (t & ps & T & I & M); [| exact R|].
    - unfold place. cbn. destruct (Language_eqb _ _); discriminate.
    - cbn in T. rewrite T. eauto.
  Qed.

  (** ** What is found in the text *)
  Inductive among : list piece -> list piece -> Prop :=
  | among_nil l : among [] l
  | among_take x l m : among l m -> among (x :: l) (x :: m)
  | among_skip x l m : among l m -> among l (x :: m).
  Lemma found_lead a t ps : found_in t ps -> found_in (a ++ t) ps.
  Proof.
    destruct ps as [|p ps]; [auto|]. intros (x & s & r & -> & P & F). exists (a ++ x), s, r. rewrite !sapp_assoc. auto.
  Qed.
  Lemma found_among t qs ps : made_of t ps -> among qs ps -> found_in t qs.
  Proof.
    intros M A. revert t M. induction A as [l|x l m A IH|x l m A IH]; intros t M; [exact Logic.I| |]; destruct M as (a & s & r & -> & _ & P & _ & M).
    - exists a, s, r. auto.
    - apply found_lead, found_lead, IH, M.
  Qed.
  Lemma among_refl l : among l l. Proof. induction l; constructor; auto. Qed.
  Lemma among_app l m l' m' : among l m -> among l' m' -> among (l ++ l') (m ++ m').
  Proof.
    intros A B. induction A as [m|x l m A IH|x l m A IH]; cbn [app]; [|constructor; exact IH|constructor; exact IH].
    induction m as [|x m IH]; [exact B|]. constructor. exact IH.
  Qed.
  Lemma among_right l m m' : among l m -> among l (m' ++ m). Proof. intro A. apply (among_app [] m' l m); [constructor|exact A]. Qed.
  Lemma among_left l m m' : among l m -> among l (m ++ m').
  Proof. intro A. rewrite <- (app_nil_r l). apply among_app; [exact A|constructor]. Qed.
  Lemma among_conditional l k m : among l m -> among l (conditional b k m).
  Proof. intro A. rewrite conditional_eq. apply among_right, among_left, A. Qed.
  Lemma among_map {A} (f : A -> piece) (g : A -> list piece) xs : (forall x, among [f x] (g x)) -> among (map f xs) (flat_map g xs).
  Proof.
    intro K. induction xs as [|x xs IH]; [constructor|]. change (map f (x :: xs)) with ([f x] ++ map f xs)%list. apply among_app; [apply K|exact IH].
  Qed.
  Lemma among_fields fs : among (map (fun f => declared b (fd_name f) (fd_ty f)) fs) (shown_fields b fs).
  Proof.
    apply among_map. intro f. apply among_left. unfold shown_field. fold c. destruct (Language_eqb (language c) Cython).
    - apply among_right, among_refl.
    - apply among_conditional, among_right, among_left, among_refl.
  Qed.
  Lemma struct_fields_shown s : among (map (fun f => declared b (fd_name f) (fd_ty f)) (s_fields s)) (shown_struct fuel b s).
  Proof.
    unfold shown_struct. apply among_conditional, among_right. fold c. destruct (Language_eqb (language c) Cython).
    - do 7 apply among_right. apply among_left, among_fields.
    - do 8 apply among_right. apply among_left, among_fields.
  Qed.
  Lemma union_fields_shown u : among (map (fun f => declared b (fd_name f) (fd_ty f)) (u_fields u)) (shown_union b u).
  Proof.
    unfold shown_union. apply among_conditional, among_right. fold c. destruct (Language_eqb (language c) Cython).
    - do 3 apply among_right. apply among_left, among_fields.
    - do 7 apply among_right. apply among_left, among_fields.
  Qed.
  Lemma variants_shown e : among (map (fun v => say (v_export_name v)) (e_variants e)) (shown_enum fuel b e).
  Proof.
    unfold shown_enum. cbv zeta. apply among_conditional. do 3 apply among_right. apply among_left. unfold shown_tag_enum. do 2 apply among_right. apply among_left.
    apply among_map. intro v. unfold shown_variant. fold c. destruct (Language_eqb (language c) Cython).
    - apply among_right, among_left, among_refl.
    - apply among_conditional, among_right, among_left, among_refl.
  Qed.
  Lemma found_struct top s t : as_typedef s = None -> alone fuel b top (AnItem (ICStruct s)) t -> found_in t (map (fun f => declared b (fd_name f) (fd_ty f)) (s_fields s)).
  Proof.
    intros A K. destruct (alone_shown top _ t K) as (ps & I & M). cbn [shown] in I. rewrite A in I. destruct I as [<-|[]]. exact (found_among _ _ _ M (struct_fields_shown s)).
  Qed.
  Lemma found_union top u t : alone fuel b top (AnItem (ICUnion u)) t -> found_in t (map (fun f => declared b (fd_name f) (fd_ty f)) (u_fields u)).
  Proof. intro K. destruct (alone_shown top _ t K) as (ps & [<-|[]] & M). exact (found_among _ _ _ M (union_fields_shown u)). Qed.
  Lemma found_enum top e t : alone fuel b top (AnItem (ICEnum e)) t -> found_in t (map (fun v => say (v_export_name v)) (e_variants e)).
  Proof. intro K. destruct (alone_shown top _ t K) as (ps & [<-|[]] & M). exact (found_among _ _ _ M (variants_shown e)). Qed.

  Lemma laid_shown before ds ts after : laid fuel b before ds ts after -> Forall2 (fun d t => exists ps, In ps (shown fuel b d) /\ made_of t ps) ds ts.
  Proof. induction 1 as [|before d ds t ts after A L IH]; constructor; [exact (alone_shown _ _ _ A)|exact IH]. Qed.
  Lemma file_shown t : b_noop b = false -> bindings_text fuel b = Done t ->
    exists head defs syms tail, file fuel b head defs syms tail t
      /\ Forall2 (fun d t => exists ps, In ps (shown fuel b d) /\ made_of t ps) (definitions b ++ symbols b) (defs ++ syms).
  Proof.
    intros N T. destruct (file_text fuel b t N T) as (head & defs & syms & tail & F & _). exists head, defs, syms, tail. split; [exact F|].
    destruct F as (upper & lower & L1 & L2 & _). apply Forall2_app; eapply laid_shown; eassumption.
  Qed.
End Shown.
