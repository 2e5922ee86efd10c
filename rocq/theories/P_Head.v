(** What stands above and below the declarations of a file. *)
Require Import Coq.Strings.String Coq.Strings.Ascii Coq.Lists.List Coq.Bool.Bool Coq.Arith.Arith Lia.
From Verif Require Import Base P_Base M_Config M_Writer S_Writer P_Writer M_Cfg M_Type M_Ir M_Item M_Library M_Cdecl M_Bindings
  M_Docs M_Literal M_Syn M_Backend P_Alike P_Bracketed S_File P_File S_Head.
From Verif Require P_Cfg.
Import ListNotations.
Open Scope string_scope.
Local Open Scope prog_scope.

Section Head.
  Context {H : Heck} (fuel : nat) (b : Bindings).
  Let c : Config := b_config b.
  Let tabw : nat := tab_width c.
  Let le : string := LineEndingStyle_as_str (line_endings c).
  Notation run := (run tabw le).
  Notation le_some := (le_some b).

  (** From the start of a line to the start of a line. *)
  Definition here (w : writer) : Prop := at_start w /\ counted w /\ w_spaces w = [0].
  Definition turns (o : outcome prog) (f : string -> string) : Prop :=
    forall p w w', o = Done p -> here w -> run p w = Some w' -> w_out w' = f (w_out w) /\ here w'.
  Lemma turns_seq p q f g : turns p f -> turns q g -> turns (then_ p q) (fun x => g (f x)).
  Proof.
    intros A B r w w' E Z R. parts E as x y E1 E2. apply run_parts in R as (w1 & R1 & R2). destruct (A _ _ _ E1 Z R1) as [O1 Z1].
    destruct (B _ _ _ E2 Z1 R2) as [O2 Z2]. split; [rewrite O2, O1; reflexivity|exact Z2].
  Qed.
  Lemma turns_ext o f g : turns o f -> (forall x, f x = g x) -> turns o g.
  Proof. intros A K p w w' E Z R. destruct (A _ _ _ E Z R) as [O Z']. rewrite <- K. auto. Qed.
  Lemma turns_nothing : turns nothing (fun x => x).
  Proof. intros p w w' E Z R. injection E as <-. injection R as <-. auto. Qed.
  (** Text that ends its line. *)
  Lemma turns_end o s : appends b o s -> ends tabw le o -> turns o (fun x => x ++ s).
  Proof.
    intros A K p w w' E (S0 & C & Z) R. destruct (A p w w' E Z R) as [O Z']. split; [exact O|]. split; [exact (K p w w' E R)|].
    split; [exact (proj1 (run_counted _ _ le_some _ _ _ C R))|exact Z'].
  Qed.
  Lemma turns_gap : turns (Done newline_if_not_start) (fun x => x ++ gap b x).
  Proof.
    intros p w w' E (S0 & C & Z) R. injection E as <-. cbn in R. injection R as <-. unfold new_line_if_not_start, gap. rewrite (top_line b w S0 C).
    destruct (is_top (w_out w)) eqn:T; [rewrite sapp_nil_r; split; [reflexivity|split; auto]|]. split; [reflexivity|]. split; [split; reflexivity|]. split; [apply counted_newline; [exact le_some|exact C]|exact Z].
  Qed.
  Lemma turns_paragraph o s : appends b o s -> turns (paragraph o) (fun x => below b x s).
  Proof.
    intro A. unfold paragraph, below. refine (turns_ext _ _ _ (turns_seq _ _ _ _ turns_gap (turns_end _ (s ++ le) _ _)) _).
    - apply appends_seq; [exact A|apply appends_line].
    - apply ends_seq, ends_line.
    - intro x. fold c. fold le. rewrite !sapp_assoc. reflexivity.
  Qed.
  Lemma turns_when (x : bool) o s : appends b o s -> turns (when x (paragraph o)) (fun y => fold_left (below b) (asked x s) y).
  Proof. intro A. destruct x; [exact (turns_paragraph o s A)|exact turns_nothing]. Qed.
  Lemma turns_some (o : option string) : turns (if_some o (fun f => paragraph (text f))) (fun y => fold_left (below b) (given o) y).
  Proof. destruct o as [f|]; [exact (turns_paragraph _ f (appends_text b f))|exact turns_nothing]. Qed.
  Lemma ends_here o : ends tabw le o -> forall xs (f : string -> outcome prog), (forall x, ends tabw le (f x)) -> ends tabw le (o >> each f xs).
  Proof. intros E xs f K. apply ends_seq'; [exact E|]. apply keeps_each. intro x. apply ends_keeps, K. Qed.

  (** Lines *)
  Fixpoint each_line (l : list string) : string := match l with [] => "" | x :: r => x ++ le ++ each_line r end.
  Lemma each_line_app l r : each_line (l ++ r) = each_line l ++ each_line r.
  Proof. induction l as [|x l IH]; [reflexivity|]. cbn. rewrite IH, !sapp_assoc. reflexivity. Qed.
  Lemma each_line_join l : l <> [] -> each_line l = join le l ++ le.
  Proof.
    induction l as [|x l IH]; [congruence|]. intros _. destruct l as [|y l]; [cbn; rewrite sapp_nil_r; reflexivity|].
    cbn [each_line] in *. rewrite (IH ltac:(discriminate)). cbn [join]. rewrite !sapp_assoc. reflexivity.
  Qed.
  Lemma turns_line s : turns (text s >> line) (fun x => x ++ each_line [s]).
  Proof.
    refine (turns_ext _ _ _ (turns_end _ (s ++ le) _ _) _); [apply appends_seq; [apply appends_text|apply appends_line]|apply ends_seq, ends_line|].
    intro x. cbn [each_line]. rewrite sapp_nil_r. reflexivity.
  Qed.
  Lemma turns_include h : turns (include_line h) (fun x => x ++ each_line ["#include " ++ h]).
  Proof. apply turns_line. Qed.
  Lemma turns_each {A} (f : A -> outcome prog) (g : A -> string) xs : (forall x, turns (f x) (fun y => y ++ each_line [g x])) ->
    turns (each f xs) (fun y => y ++ each_line (map g xs)).
  Proof.
    intro K. induction xs as [|x xs IH]; [refine (turns_ext _ _ _ turns_nothing _); intro; cbn; rewrite sapp_nil_r; reflexivity|].
    cbn [each map]. refine (turns_ext _ _ _ (turns_seq _ _ _ _ (K x) IH) _). intro y. cbn [each_line]. rewrite !sapp_assoc. cbn. reflexivity.
  Qed.
  Lemma turns_lines o l p r : turns o (fun x => x ++ each_line l) -> turns p (fun x => x ++ each_line r) -> turns (o >> p) (fun x => x ++ each_line (l ++ r)).
  Proof. intros A B. refine (turns_ext _ _ _ (turns_seq _ _ _ _ A B) _). intro x. rewrite each_line_app, sapp_assoc. reflexivity. Qed.
  Lemma turns_if (x : bool) o l : turns o (fun y => y ++ each_line l) -> turns (when x o) (fun y => y ++ each_line (if x then l else [])).
  Proof. intro A. destruct x; [exact A|refine (turns_ext _ _ _ turns_nothing _)]. intro y. cbn. rewrite sapp_nil_r. reflexivity. Qed.
  Lemma turns_given (o : option string) : turns (if_some o (fun l => text l >> line)) (fun y => y ++ each_line (given o)).
  Proof. destruct o as [f|]; [apply turns_line|refine (turns_ext _ _ _ turns_nothing _)]. intro y. cbn. rewrite sapp_nil_r. reflexivity. Qed.
  Lemma turns_block (no : bool) o l : no = is_nil l -> turns o (fun x => x ++ each_line l) ->
    turns (when (negb no) (Done newline_if_not_start >> o)) (fun x => fold_left (below b) (block b l) x).
  Proof.
    intros -> A. destruct l as [|x l]; [exact turns_nothing|]. cbn [is_nil negb when block fold_left].
    refine (turns_ext _ _ _ (turns_seq _ _ _ _ turns_gap A) _). intro y. unfold below. rewrite (each_line_join (x :: l)) by discriminate. fold c. fold le. rewrite !sapp_assoc. reflexivity.
  Qed.
  Lemma turns_and o f p g : turns o f -> turns p g -> forall l r : list string,
    (forall x, f x = fold_left (below b) l x) -> (forall x, g x = fold_left (below b) r x) -> turns (o >> p) (fun x => fold_left (below b) (l ++ r) x).
  Proof. intros A B l r F G. refine (turns_ext _ _ _ (turns_seq _ _ _ _ A B) _). intro x. rewrite fold_left_app, G, F. reflexivity. Qed.

  (** ** C and C++ *)
  Lemma standard_turns : Language_eqb (language c) Cython = false ->
    turns (match language c with
         | M_Config.C =>
             include_line "<stdarg.h>" >> include_line "<stdbool.h>" >>
             when (usize_is_size_t c) (include_line "<stddef.h>") >>
             include_line "<stdint.h>" >> include_line "<stdlib.h>"
         | Cxx =>
             include_line "<cstdarg>" >>
             when (usize_is_size_t c) (include_line "<cstddef>") >>
             include_line "<cstdint>" >> include_line "<cstdlib>" >> include_line "<ostream>" >> include_line "<new>" >>
             when (negb (is_some (en_cast_assert_name (enumeration c)))
                   && (en_derive_mut_casts (enumeration c) || en_derive_const_casts (enumeration c)))
               (include_line "<cassert>")
         | Cython => nothing
         end) (fun x => x ++ each_line (map (fun h => "#include <" ++ h ++ ">") (standard_headers b))).
  Proof.
    intro L. unfold standard_headers. fold c. destruct (language c); [| |discriminate].
    - refine (turns_ext _ _ _ (turns_lines _ _ _ _ (turns_include _) (turns_lines _ _ _ _ (turns_if _ _ _ (turns_include _)) (turns_lines _ _ _ _ (turns_include _) (turns_lines _ _ _ _ (turns_include _)
        (turns_lines _ _ _ _ (turns_include _) (turns_lines _ _ _ _ (turns_include _) (turns_if _ _ _ (turns_include _)))))))) _).
      intro x. f_equal. f_equal. destruct (usize_is_size_t c); destruct (en_cast_assert_name (enumeration c)); destruct (en_derive_mut_casts (enumeration c) || en_derive_const_casts (enumeration c)); reflexivity.
    - refine (turns_ext _ _ _ (turns_lines _ _ _ _ (turns_include _) (turns_lines _ _ _ _ (turns_include _) (turns_lines _ _ _ _ (turns_if _ _ _ (turns_include _)) (turns_lines _ _ _ _ (turns_include _) (turns_include _))))) _).
      intro x. f_equal. f_equal. destruct (usize_is_size_t c); reflexivity.
  Qed.
  Lemma clike_rest : Language_eqb (language c) Cython = false -> exists o, clike_headers b =
      (when (package_version c) (text ("/* Package version: " ++ b_package_version b ++ " */") >> line) >> o)
    /\ exists l, first_paragraphs b = (asked (package_version c) ("/* Package version: " ++ b_package_version b ++ " */") ++ l)%list /\ turns o (fun x => fold_left (below b) l x).
  Proof.
    intro L. eexists. split; [reflexivity|]. eexists. split; [reflexivity|]. fold c. fold le.
    unfold include_guard, includes, sys_includes. rewrite L.
    { refine (turns_and _ _ _ _ (turns_some _) _ _ _ (fun _ => eq_refl) (fun _ => eq_refl)).
      refine (turns_and _ _ _ _ (_ : turns _ (fun x => fold_left (below b) (match include_guard_ c with Some g => ["#ifndef " ++ g ++ le ++ "#define " ++ g] | None => [] end) x)) _ _ _ (fun _ => eq_refl) (fun _ => eq_refl)).
      { destruct (include_guard_ c) as [g|]; [|exact turns_nothing]. cbn [if_some fold_left]. apply turns_paragraph.
        refine (appends_eq b _ _ _ (appends_seq b _ _ _ _ (appends_text b _) (appends_seq b _ _ _ _ (appends_line b) (appends_text b _))) _).
        fold c. fold le. rewrite !sapp_assoc. reflexivity. }
      refine (turns_and _ _ _ _ (turns_when _ _ _ (appends_text b _)) _ _ _ (fun _ => eq_refl) (fun _ => eq_refl)).
      refine (turns_and _ _ _ _ (turns_when _ _ _ (appends_text b _)) _ _ _ (fun _ => eq_refl) (fun _ => eq_refl)).
      refine (turns_and _ _ _ _ (turns_some _) _ _ _ (fun _ => eq_refl) (fun _ => eq_refl)).
      apply turns_block.
      + unfold include_lines. fold c. destruct (no_includes c) eqn:NI.
        * cbn [andb app map]. destruct (sys_includes_ c), (includes_ c), (after_includes c); reflexivity.
        * cbn [andb]. unfold standard_headers. fold c. destruct (language c); [reflexivity|reflexivity|discriminate].
      + unfold include_lines. fold c. refine (turns_lines _ _ _ _ _ (turns_lines _ _ _ _ (turns_each _ (fun h => "#include <" ++ h ++ ">") _ (fun h => turns_include _)) (turns_lines _ _ _ _ (turns_each _ (fun h => "#include " ++ dquote ++ h ++ dquote) _ (fun h => turns_include _)) (turns_given _)))).
        destruct (no_includes c); [refine (turns_ext _ _ _ turns_nothing _); intro; cbn; rewrite sapp_nil_r; reflexivity|exact (standard_turns L)]. }
  Qed.

  Lemma run_first p w : Language_eqb (language c) Cython = false -> clike_headers b = Done p -> run p writer_new = Some w ->
    w_out w = paragraphs b (first_paragraphs b) /\ here w.
  Proof.
    intros L E R. destruct (clike_rest L) as (o & EO & l & EL & T). rewrite EO in E. parts E as x y E1 E2. apply run_parts in R as (w1 & R1 & R2).
    assert (N : here writer_new) by (split; [split; reflexivity|split; [exact (new_counted b)|reflexivity]]).
    assert (F : w_out w1 = fold_left (below b) (asked (package_version c) ("/* Package version: " ++ b_package_version b ++ " */")) "" /\ here w1).
    { destruct (package_version c).
      - destruct (turns_line _ _ _ _ E1 N R1) as [O Z]. split; [|exact Z]. rewrite O. cbn. rewrite sapp_nil_r. reflexivity.
      - destruct (turns_nothing _ _ _ E1 N R1) as [O Z]. split; [exact O|exact Z]. }
    destruct F as [O1 Z1]. destruct (T _ _ _ E2 Z1 R2) as [O2 Z2]. split; [|exact Z2]. rewrite O2, O1. unfold paragraphs. rewrite EL, fold_left_app. reflexivity.
  Qed.

  (** ** Namespaces *)
  Lemma not_cython : Language_eqb (language c) Cython = false -> language c <> Cython.
  Proof. intros L X. rewrite X in L. discriminate. Qed.
  Lemma namespaces_turn (opens : bool) : Language_eqb (language c) Cython = false ->
    turns (open_close_namespaces b opens) (fun x => x ++ if opens then namespaces_open b x else namespaces_close b x).
  Proof.
    intro L. unfold open_close_namespaces, all_namespaces, namespaces_open, namespaces_close, for_cxx, cpp_compatible_c. fold c. fold le.
    set (f := fun n => if opens then "namespace " ++ n ++ " {" else "}  // namespace " ++ n).
    assert (EA : forall l, appends b (each (fun n => line >> text (f n)) l) (sconcat (map (fun n => le ++ f n) l))).
    { intro l. apply appends_each. intro n. apply appends_seq; [apply appends_line|apply appends_text]. }
    assert (ZX : forall l, turns (nothing >> (each (fun n => line >> text (f n)) l >> (line >> nothing))) (fun x => x ++ sconcat (map (fun n => le ++ f n) l) ++ le)).
    { intro l. apply turns_end.
      - refine (appends_eq b _ _ _ (appends_seq b _ _ _ _ (appends_nothing b) (appends_seq b _ _ _ _ (EA l) (appends_seq b _ _ _ _ (appends_line b) (appends_nothing b)))) _). cbn [append]. rewrite sapp_nil_r. reflexivity.
      - apply ends_seq, ends_seq, ends_seq'; [apply ends_line|apply keeps_nothing]. }
    assert (ZC : forall l, turns ((Done newline_if_not_start >> text "#ifdef __cplusplus") >> (each (fun n => line >> text (f n)) l >> (line >> (text "#endif  // __cplusplus" >> line))))
        (fun x => x ++ gap b x ++ "#ifdef __cplusplus" ++ (sconcat (map (fun n => le ++ f n) l) ++ le) ++ "#endif  // __cplusplus" ++ le)).
    { intros l p w w' E Z R. parts E as x y E1 E2. parts E1 as x1 x2 E3 E4. apply run_parts in R as (w1 & R1 & R2). apply run_parts in R1 as (w0 & R0 & R1).
      destruct (turns_gap _ _ _ E3 Z R0) as [O0 (S0 & C0 & Z0)].
      destruct (appends_text b _ _ _ _ E4 Z0 R1) as [O1 Z1].
      destruct (appends_seq b _ _ _ _ (EA l) (appends_seq b _ _ _ _ (appends_line b) (appends_seq b _ _ _ _ (appends_text b _) (appends_line b))) _ _ _ E2 Z1 R2) as [O2 Z2].
      split; [rewrite O2, O1, O0; fold c; fold le; rewrite !sapp_assoc; reflexivity|]. split.
      - refine (ends_seq _ _ _ _ _ _ _ _ E2 R2). apply ends_seq, ends_seq, ends_line.
      - split; [|exact Z2]. pose proof (proj1 (run_counted _ _ le_some _ _ _ C0 R1)) as C1. exact (proj1 (run_counted _ _ le_some _ _ _ C1 R2)). }
    assert (NM : (match namespace c with Some n => [n] | None => [] end ++ match namespaces c with Some l => l | None => [] end)%list = names b).
    { unfold names, given. fold c. destruct (namespace c); reflexivity. }
    rewrite NM. destruct (names b) as [|n ns] eqn:EN.
    { refine (turns_ext _ _ _ (_ : turns _ (fun x => x)) _).
      - destruct (negb (Language_eqb (language c) Cxx) && _); destruct opens; exact turns_nothing.
      - intro x. destruct opens; rewrite sapp_nil_r; reflexivity. }
    assert (RN : is_nil (rev (n :: ns)) = false).
    { destruct (rev (n :: ns)) eqn:RV; [|reflexivity]. apply (f_equal (@length _)) in RV. rewrite rev_length in RV. discriminate. }
    destruct (language c) eqn:LC; [| |discriminate].
    - cbn [Language_eqb negb andb]. destruct opens.
      + exact (ZX (n :: ns)).
      + rewrite RN. exact (ZX (rev (n :: ns))).
    - cbn [Language_eqb negb andb]. destruct (cpp_compat c); cbn [negb].
      + destruct opens; [exact (ZC (n :: ns))|]. rewrite RN. exact (ZC (rev (n :: ns))).
      + destruct opens; (refine (turns_ext _ _ _ turns_nothing _); intro; rewrite sapp_nil_r; reflexivity).
  Qed.

  (** ** Cython *)
  Lemma cython_block : language c = Cython ->
    turns (text "from libc.stdint cimport int8_t, int16_t, int32_t, int64_t, intptr_t" >> line >>
          text "from libc.stdint cimport uint8_t, uint16_t, uint32_t, uint64_t, uintptr_t" >> line >>
          text "cdef extern from *" >> opened b >>
          text "ctypedef bint bool" >> line >> text "ctypedef struct va_list" >> line >> closed b false)
      (fun x => x ++ each_line ["from libc.stdint cimport int8_t, int16_t, int32_t, int64_t, intptr_t";
            "from libc.stdint cimport uint8_t, uint16_t, uint32_t, uint64_t, uintptr_t";
            "cdef extern from *:"; srepeat " " (tab_width c) ++ "ctypedef bint bool"; srepeat " " (tab_width c) ++ "ctypedef struct va_list"]).
  Proof.
    intros L p w w' E ((S0 & S1) & C & Z) R. pose proof (proj1 (run_counted _ _ le_some _ _ _ C R)) as C'.
    unfold opened, closed, open_brace, close_brace in E. fold c in E. rewrite L in E. injection E as <-.
    destruct w as [out sp st len no mx]. cbn in S0, S1, Z. subst st len sp.
    cbn [M_Writer.run seq write newline push_tab_ pop] in R.
    unfold inner_write in R. cbn [M_Writer.run seq write newline push_tab_ pop String.eqb w_started w_spaces w_out w_len w_lineno w_max new_line] in R.
    unfold push_tab in R. cbn [w_spaces] in R. destruct (Nat.eqb_spec tabw 0) as [T|T]; [discriminate|]. cbn [M_Writer.run push_set w_spaces w_out w_started w_len w_lineno w_max pop_tab new_line] in R.
    injection R as <-. cbn [w_out]. replace (0 - 0 mod tabw + tabw) with tabw by (rewrite Nat.mod_0_l by exact T; reflexivity).
    split; [|split; [split; reflexivity|split; [exact C'|reflexivity]]]. cbn [each_line]. fold tabw. cbn [srepeat append]. rewrite !sapp_assoc, ?sapp_nil_r. reflexivity.
  Qed.
  Lemma cython_rest : language c = Cython -> exists o, cython_headers b =
      (when (package_version c) (text ("''' Package version: " ++ b_package_version b ++ " '''") >> line) >> o)
    /\ exists l, cython_paragraphs b = (asked (package_version c) ("''' Package version: " ++ b_package_version b ++ " '''") ++ l)%list /\ turns o (fun x => fold_left (below b) l x).
  Proof.
    intro L. eexists. split; [reflexivity|]. eexists. split; [reflexivity|]. fold c. fold le.
    unfold includes, sys_includes. fold c. rewrite L. cbn [Language_eqb is_nil].
    refine (turns_and _ _ _ _ (turns_some _) _ _ _ (fun _ => eq_refl) (fun _ => eq_refl)).
    refine (turns_and _ _ _ _ (turns_when _ _ _ (appends_text b _)) _ _ _ (fun _ => eq_refl) (fun _ => eq_refl)).
    refine (turns_and _ _ _ _ (turns_some _) _ _ _ (fun _ => eq_refl) (fun _ => eq_refl)).
    apply turns_block.
    - unfold cython_lines. fold c. destruct (no_includes c); [|reflexivity]. cbn [andb app]. destruct (cy_cimports (cython c)); [|reflexivity]. destruct (after_includes c); reflexivity.
    - unfold cython_lines. fold c. refine (turns_lines _ _ _ _ _ (turns_lines _ _ _ _ (turns_each _ (fun m => "from " ++ fst m ++ " cimport " ++ join ", " (snd m)) _ (fun h => turns_line _)) (turns_given _))).
      destruct (no_includes c); [refine (turns_ext _ _ _ turns_nothing _); intro; cbn; rewrite sapp_nil_r; reflexivity|exact (cython_block L)].
  Qed.
  Lemma cython_run p1 p2 w : language c = Cython -> write_headers b = Done p1 -> open_namespaces b = Done p2 -> run (seq p1 p2) writer_new = Some w -> w_out w = head_text b.
  Proof.
    intros L E E' R. unfold write_headers in E. unfold open_namespaces in E'. fold c in E, E'. unfold head_text. fold c. rewrite L in E, E' |- *. cbn [Language_eqb] in E, E'.
    apply run_parts in R as (w1 & R1 & R2). destruct (cython_rest L) as (o & EO & l & EL & T). rewrite EO in E. parts E as x y E1 E2. apply run_parts in R1 as (w0 & R0 & R1).
    assert (N : here writer_new) by (split; [split; reflexivity|split; [exact (new_counted b)|reflexivity]]).
    assert (F : w_out w0 = fold_left (below b) (asked (package_version c) ("''' Package version: " ++ b_package_version b ++ " '''")) "" /\ here w0).
    { destruct (package_version c).
      - destruct (turns_line _ _ _ _ E1 N R0) as [O Z]. split; [|exact Z]. rewrite O. cbn. rewrite sapp_nil_r. reflexivity.
      - destruct (turns_nothing _ _ _ E1 N R0) as [O Z]. split; [exact O|exact Z]. }
    destruct F as [O1 Z1]. destruct (T _ _ _ E2 Z1 R1) as [O2 (S2 & C2 & Z2)].
    assert (O : w_out w1 = paragraphs b (cython_paragraphs b)) by (rewrite O2, O1; unfold paragraphs; rewrite EL, fold_left_app; reflexivity).
    rewrite <- O. unfold cython_open. fold c. fold le. unfold opened, open_brace in E'. fold c in E'. rewrite L in E'.
    destruct S2 as [S2 S3]. injection E' as <-. destruct w1 as [out sp st len no mx]. cbn in S2, S3, Z2. subst st len sp.
    cbn [M_Writer.run seq write newline push_tab_ new_line] in R2.
    unfold inner_write in R2. cbn [M_Writer.run String.eqb append w_started w_spaces w_out w_len w_lineno w_max] in R2.
    unfold push_tab in R2. cbn [new_line w_spaces w_out w_lineno] in R2.
    destruct (Nat.eqb tabw 0); [discriminate|]. injection R2 as <-. generalize (match cy_header (cython c) with Some h => h | None => "*" end). intro h.
    cbn [push_set new_line w_out srepeat append]. rewrite !sapp_assoc. cbn [append]. rewrite ?sapp_assoc. reflexivity.
  Qed.

  Lemma head_written p1 p2 w : write_headers b = Done p1 -> open_namespaces b = Done p2 -> run (seq p1 p2) writer_new = Some w -> w_out w = head_text b.
  Proof.
    intros E1 E2 R. destruct (Language_eqb (language c) Cython) eqn:L.
    - apply (cython_run p1 p2); [destruct (language c); [discriminate|discriminate|reflexivity]|exact E1|exact E2|exact R].
    - unfold write_headers in E1. unfold open_namespaces in E2. fold c in E1, E2. rewrite L in E1, E2. apply run_parts in R as (w1 & R1 & R2).
      destruct (run_first p1 w1 L E1 R1) as [O1 Z1]. destruct (namespaces_turn true L _ _ _ E2 Z1 R2) as [O2 _]. rewrite O2, O1. unfold head_text. fold c.
      destruct (language c); [reflexivity|reflexivity|discriminate].
  Qed.

  (** ** Below *)
  Lemma ended_spec s : ends_with_newline s = true <-> ended s.
  Proof.
    unfold ends_with_newline, ended. split.
    - destruct (srev s) as [|a r] eqn:E; [discriminate|]. intro A. apply Ascii.eqb_eq in A. subst a. exists (srev r).
      rewrite <- (P_Cfg.srev_invol s), E. apply P_Cfg.srev_cons.
    - intros (r & ->). rewrite P_Cfg.srev_app. reflexivity.
  Qed.
  Lemma trailer_written o p w w' : o = write_trailer b -> o = Done p -> run p w = Some w' -> counted w -> w_spaces w = [0] ->
    (language c = Cython -> 2 <= w_lineno w) -> (Language_eqb (language c) Cython = false -> at_start w) -> exists t, w_out w' = w_out w ++ t /\ trailer_text b (w_out w) t.
  Proof.
    intros -> E R C Z LN ST. unfold write_trailer in E. unfold trailer_text. fold c in E |- *. fold le. destruct (trailer c) as [f|]; cbn [if_some] in E.
    2: { injection E as <-. injection R as <-. exists "". rewrite sapp_nil_r. auto. }
    parts E as p1 p2 E1 E2. apply run_parts in R as (w1 & R1 & R2). injection E1 as <-. cbn in R1. injection R1 as <-.
    assert (G : w_out (new_line_if_not_start le w) = w_out w ++ gap b (w_out w) /\ w_spaces (new_line_if_not_start le w) = [0]).
    { unfold new_line_if_not_start, gap. fold c. fold le.
      assert (TL : Nat.eqb (w_lineno w) 1 = is_top (w_out w)).
      { destruct (Language_eqb (language c) Cython) eqn:L.
        - assert (LC : language c = Cython) by (destruct (language c); [discriminate|discriminate|reflexivity]). specialize (LN LC). destruct C as (_ & _ & C). specialize (C LN).
          destruct (Nat.eqb_spec (w_lineno w) 1); [lia|]. symmetry. apply String.eqb_neq, C.
        - exact (top_line b w (ST eq_refl) C). }
      rewrite TL. destruct (is_top (w_out w)); [rewrite sapp_nil_r; auto|split; [reflexivity|exact Z]]. }
    destruct G as [G1 G2]. parts E2 as q1 q2 E3 E4. apply run_parts in R2 as (w2 & R2 & R3). destruct (appends_text b f _ _ _ E3 G2 R2) as [O2 Z2].
    destruct (ends_with_newline f) eqn:EW; cbn [negb when] in E4.
    - destruct (appends_nothing b _ _ _ E4 Z2 R3) as [O3 _]. exists (gap b (w_out w) ++ f). split; [rewrite O3, O2, G1, !sapp_assoc, sapp_nil_r; reflexivity|]. left. split; [apply ended_spec, EW|reflexivity].
    - destruct (appends_line b _ _ _ E4 Z2 R3) as [O3 _]. exists (gap b (w_out w) ++ f ++ le). split; [rewrite O3, O2, G1; fold c; fold le; rewrite !sapp_assoc; reflexivity|].
      right. split; [intro X; apply ended_spec in X; congruence|reflexivity].
  Qed.
  Lemma footers_turn : Language_eqb (language c) Cython = false -> turns (write_footers b) (fun x => x ++ guard_end b x).
  Proof.
    intro L. unfold write_footers, guard_end, include_guard. fold c. rewrite L. destruct (include_guard_ c) as [g|]; [|refine (turns_ext _ _ _ turns_nothing _); intro; rewrite sapp_nil_r; reflexivity].
    cbn [if_some]. refine (turns_ext _ _ _ (turns_paragraph _ _ (appends_text b _)) _). intro x. unfold below. fold c. fold le.
    destruct (language c); [| |discriminate]; cbn [Language_eqb]; f_equal; f_equal; rewrite !sapp_assoc; reflexivity.
  Qed.
  Lemma tail_written p w w' : tail_of b = Done p -> run p w = Some w' -> counted w -> w_spaces w = w_spaces (place b true) ->
    (language c = Cython -> 2 <= w_lineno w) -> (Language_eqb (language c) Cython = false -> at_start w) -> exists t, w_out w' = w_out w ++ t /\ tail_text b (w_out w) t.
  Proof.
    intros E R C Z LN ST. unfold tail_of in E. parts E as p1 r E1 E2. parts E2 as p2 p3 E2 E3. apply run_parts in R as (w1 & R1 & R). apply run_parts in R as (w2 & R2 & R3).
    unfold close_namespaces in E1. fold c in E1. unfold tail_text. fold c. cbn [place w_spaces] in Z. fold c in Z. destruct (Language_eqb (language c) Cython) eqn:L.
    - assert (LC : language c = Cython) by (destruct (language c); [discriminate|discriminate|reflexivity]).
      unfold write_footers in E2. fold c in E2. rewrite L in E2. injection E2 as <-. injection R2 as <-.
      unfold closed, close_brace in E1. fold c in E1. rewrite LC in E1 |- *. injection E1 as <-. cbn [seq pop M_Writer.run] in R1. unfold pop_tab in R1. rewrite Z in R1. injection R1 as <-.
      refine (trailer_written _ p3 _ w' eq_refl E3 R3 C eq_refl _ _); [intros _; exact (LN LC)|rewrite L; discriminate].
    - assert (HW : here w) by (split; [exact (ST eq_refl)|split; [exact C|exact Z]]).
      destruct (namespaces_turn false L _ _ _ E1 HW R1) as [O1 H1]. destruct (footers_turn L _ _ _ E2 H1 R2) as [O2 (S2 & C2 & Z2)].
      destruct (trailer_written _ p3 w2 w' eq_refl E3 R3 C2 Z2) as (t & O3 & T3); [intro X; rewrite X in L; discriminate|intros _; exact S2|].
      exists (namespaces_close b (w_out w) ++ guard_end b (w_out w ++ namespaces_close b (w_out w)) ++ t).
      split; [rewrite O3, O2, O1, !sapp_assoc; reflexivity|]. rewrite O2, O1, sapp_assoc in T3. destruct (language c); [| |discriminate]; exists t; auto.
  Qed.

  (** ** The file *)
  Theorem whole_file t : b_noop b = false -> bindings_text fuel b = Done t ->
    exists defs syms tail, file fuel b (head_text b) defs syms tail t /\ exists above, t = above ++ tail /\ tail_text b above tail.
  Proof.
    intros N E. unfold bindings_text in E. rewrite N in E. destruct (write_bindings fuel b) as [p| |] eqn:P; try discriminate.
    unfold run_config in E. fold c in E. fold tabw in E. fold le in E. destruct (run p writer_new) as [w'|] eqn:R; [|discriminate]. cbn [of_option] in E. injection E as <-.
    clear N. rename P into E. unfold write_bindings in E.
    parts E as p1 r1 E1 E. parts E as p2 r2 E2 E. parts E as p3 r3 E3 E. parts E as p4 r4 E4 E. parts E as p5 r5 E5 E.
    parts E as p6 r6 E6 E. parts E as p7 p8 E7 E8.
    apply run_parts in R as (w1 & R1 & R). apply run_parts in R as (w2 & R2 & R). apply run_parts in R as (w3 & R3 & R). apply run_parts in R as (w4 & R4 & R).
    apply run_parts in R as (w5 & R5 & R). apply run_parts in R as (w6 & R6 & R). apply run_parts in R as (w7 & R7 & R8).
    pose proof (head_body b _ _ _ _ E1 E2 R1 R2) as B2.
    assert (HD : w_out w2 = head_text b) by (apply (head_written p1 p2 w2 E1 E2); rewrite run_seq, R1; exact R2).
    destruct (constants_laid fuel b true _ _ _ E3 R3 B2) as (t1 & L1 & B3). destruct (items_laid fuel b _ _ _ E4 R4 B3) as (t2 & L2 & B4).
    destruct (constants_laid fuel b false _ _ _ E5 R5 B4) as (t3 & L3 & B5).
    assert (R67 : run (seq p6 p7) w5 = Some w7) by (rewrite run_seq, R6; exact R7).
    destruct (symbols_laid fuel b _ _ _ _ E6 E7 R67 B5) as (t4 & lower & L4 & O7 & P7 & S7).
    assert (C7 : counted w7) by (destruct B5 as (_ & _ & C5); apply (run_counted _ _ le_some _ _ _ C5 R67)).
    assert (N7 : language c = Cython -> 2 <= w_lineno w7).
    { intro LC. unfold open_namespaces in E2. fold c in E2. rewrite LC in E2. cbn [Language_eqb] in E2. parts E2 as q1 q2 A1 A2. injection A1 as <-.
      pose proof (run_counted _ _ le_some _ _ _ (new_counted b) R1) as [C1 _]. apply run_parts in R2 as (w1' & R2a & R2b). injection R2a as <-.
      pose proof (run_counted _ _ le_some _ _ _ (counted_newline _ le_some _ C1) R2b) as [C2 K]. cbn [w_lineno new_line] in K.
      assert (R27 : run (seq p3 (seq p4 (seq p5 (seq p6 p7)))) w2 = Some w7) by (rewrite run_seq, R3, run_seq, R4, run_seq, R5, run_seq, R6; exact R7).
      pose proof (run_counted _ _ le_some _ _ _ C2 R27) as [_ K']. destruct C1 as (C1 & _). lia. }
    destruct (tail_written p8 w7 w' E8 R8 C7 P7 N7 S7) as (tail & TL & TT).
    exists (t1 ++ t2 ++ t3)%list, t4, tail. split.
    - exists (w_out w5), lower. split; [|split; [exact L4|]].
      + rewrite <- HD. unfold definitions. exact (laid_app fuel b _ _ _ _ _ _ _ L1 (laid_app fuel b _ _ _ _ _ _ _ L2 L3)).
      + rewrite TL, O7, !sapp_assoc. reflexivity.
    - exists (w_out w7). auto.
  Qed.

  (** ** Lines of the head *)
  Definition full (x : string) : Prop := x = "" \/ exists x', x = x' ++ le.
  Lemma full_app x y : full x -> full y -> full (x ++ y).
  Proof. intros [->|(x' & ->)] [->|(y' & ->)]; [left; reflexivity|right; exists y'; reflexivity|right; exists x'; apply sapp_nil_r|right; exists ((x' ++ le) ++ y'); rewrite !sapp_assoc; reflexivity]. Qed.
  Lemma full_gap x : full (gap b x).
  Proof. unfold gap. destruct (is_top x); [left; reflexivity|right; exists ""; reflexivity]. Qed.
  Lemma full_below x y : full (below b x y).
  Proof. right. exists (x ++ gap b x ++ y). unfold below. fold c. fold le. rewrite !sapp_assoc. reflexivity. Qed.
  Lemma full_fold l : forall x, full x -> full (fold_left (below b) l x).
  Proof. induction l as [|y l IH]; intros x F; [exact F|]. cbn [fold_left]. apply IH, full_below. Qed.
  Lemma fold_prefix l : forall x, exists y, fold_left (below b) l x = x ++ y.
  Proof.
    induction l as [|p l IH]; intro x; [exists ""; rewrite sapp_nil_r; reflexivity|]. cbn [fold_left]. destruct (IH (below b x p)) as (y & ->). unfold below. rewrite !sapp_assoc. eauto.
  Qed.
  Lemma full_lines l : full (each_line l).
  Proof. induction l as [|x l IH]; [left; reflexivity|]. cbn [each_line]. rewrite <- sapp_assoc. apply full_app; [right; exists x; reflexivity|exact IH]. Qed.
  Lemma block_line l ps line : In line l -> (exists qs, ps = (qs ++ block b l)%list) -> exists x y, paragraphs b ps = x ++ line ++ le ++ y /\ full x.
  Proof.
    intros I (qs & ->). apply in_split in I as (l1 & l2 & E). assert (NE : l <> []) by (rewrite E; destruct l1; discriminate).
    unfold paragraphs. rewrite fold_left_app. assert (B : block b l = [join le l]) by (destruct l; [congruence|reflexivity]). rewrite B. cbn [fold_left]. unfold below. fold c. fold le.
    rewrite <- (each_line_join l NE), E, each_line_app. cbn [each_line]. set (a := fold_left (below b) qs "").
    exists ((a ++ gap b a) ++ each_line l1), (each_line l2). split; [rewrite !sapp_assoc; reflexivity|].
    apply full_app; [apply full_app; [apply full_fold; left; reflexivity|apply full_gap]|apply full_lines].
  Qed.
  Lemma laid_prefix before ds ts after : laid fuel b before ds ts after -> exists y, after = before ++ y.
  Proof. intro L. induction L as [|before d ds t ts after A L (y & ->)]; [exists ""; rewrite sapp_nil_r; reflexivity|]. rewrite !sapp_assoc. eauto. Qed.
  Theorem include_written t line : b_noop b = false -> language c <> Cython -> bindings_text fuel b = Done t -> In line (include_lines b) -> has_line b t line.
  Proof.
    intros N L E I. destruct (whole_file t N E) as (defs & syms & tail & (upper & lower & L1 & L2 & ->) & _).
    destruct (laid_prefix _ _ _ _ L2) as (y2 & ->). destruct (laid_prefix _ _ _ _ L1) as (y1 & ->).
    destruct (block_line (include_lines b) (first_paragraphs b) line I) as (x & y & P & F).
    { unfold first_paragraphs. eexists. rewrite !app_assoc. reflexivity. }
    assert (HD : exists z, head_text b = (x ++ line ++ le ++ y) ++ z).
    { unfold head_text. fold c. rewrite P. destruct (language c); [eauto|eauto|congruence]. }
    destruct HD as (z & ->). unfold has_line. fold c. fold le. eexists x, _. split; [rewrite !sapp_assoc; reflexivity|exact F].
  Qed.
  Theorem cython_written t line : b_noop b = false -> language c = Cython -> bindings_text fuel b = Done t -> In line (cython_lines b) -> has_line b t line.
  Proof.
    intros N L E I. destruct (whole_file t N E) as (defs & syms & tail & (upper & lower & L1 & L2 & ->) & _).
    destruct (laid_prefix _ _ _ _ L2) as (y2 & ->). destruct (laid_prefix _ _ _ _ L1) as (y1 & ->).
    destruct (block_line (cython_lines b) (cython_paragraphs b) line I) as (x & y & P & F).
    { unfold cython_paragraphs. eexists. rewrite !app_assoc. reflexivity. }
    assert (HD : exists z, head_text b = (x ++ line ++ le ++ y) ++ z).
    { unfold head_text. fold c. rewrite L, P. eauto. }
    destruct HD as (z & ->). unfold has_line. fold c. fold le. eexists x, _. split; [rewrite !sapp_assoc; reflexivity|exact F].
  Qed.
End Head.

(** ** What the headers declare *)
Lemma types_declared : forall b p, let c := b_config b in language c <> Cython ->
  (forall z, p <> PInteger z true KSizeT) -> (p = PPtrDiffT -> usize_is_size_t c = true) ->
  In (to_repr_c c p) (built_in b) \/ exists h, In h (standard_headers b) /\ In (to_repr_c c p) (declares h).
Proof.
  intros b p c L NS PD. unfold built_in, standard_headers. fold c.
  assert (TRY : forall h, In h (standard_headers b) -> In (to_repr_c c p) (declares h) -> exists h, In h (standard_headers b) /\ In (to_repr_c c p) (declares h)) by eauto.
  unfold standard_headers in TRY. fold c in TRY.
  destruct (language c) eqn:LC; [| |congruence].
  - destruct p as [| | | | | | | | | |z s k]; try (left; vm_compute; tauto).
    + right. apply (TRY "cstdint"); [destruct (usize_is_size_t c); cbn; tauto|vm_compute; tauto].
    + right. apply (TRY "cstddef"); [rewrite (PD eq_refl); cbn; tauto|vm_compute; tauto].
    + destruct k, s; cbn [to_repr_c] in TRY |- *; try (left; vm_compute; tauto); try (destruct (NS z eq_refl));
        try (right; apply (TRY "cstdint"); [destruct (usize_is_size_t c); cbn; tauto|vm_compute; tauto]);
        try (right; apply (TRY "cstdlib"); [destruct (usize_is_size_t c); cbn; tauto|vm_compute; tauto]);
        (right; destruct (usize_is_size_t c); [apply (TRY "cstddef")|apply (TRY "cstdint")]; [cbn; tauto|vm_compute; tauto|cbn; tauto|vm_compute; tauto]).
  - destruct p as [| | | | | | | | | |z s k]; try (left; vm_compute; tauto).
    + right. apply (TRY "stdbool.h"); [destruct (usize_is_size_t c); cbn; tauto|vm_compute; tauto].
    + right. apply (TRY "stdint.h"); [destruct (usize_is_size_t c); cbn; tauto|vm_compute; tauto].
    + right. apply (TRY "stddef.h"); [rewrite (PD eq_refl); cbn; tauto|vm_compute; tauto].
    + destruct k, s; cbn [to_repr_c] in TRY |- *; try (left; vm_compute; tauto); try (destruct (NS z eq_refl));
        try (right; apply (TRY "stdint.h"); [destruct (usize_is_size_t c); cbn; tauto|vm_compute; tauto]);
        try (right; apply (TRY "stdlib.h"); [destruct (usize_is_size_t c); cbn; tauto|vm_compute; tauto]);
        (right; destruct (usize_is_size_t c); [apply (TRY "stddef.h")|apply (TRY "stdint.h")]; [cbn; tauto|vm_compute; tauto|cbn; tauto|vm_compute; tauto]).
Qed.
