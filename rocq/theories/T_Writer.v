(** C20 and C21: the source writer. *)
Require Import Coq.Strings.String Coq.Lists.List Coq.Arith.Arith.
From Verif Require Import Base M_Config M_Writer S_Writer P_Writer.
Import ListNotations.
Open Scope string_scope.

(** Whatever was written before (any program [p0] that ends lines only with
    [new_line]), trying a layout [f] within width [m] either continues from
    the very same writer state as if it had not been tried, or has appended
    exactly the text [t] that writing [f] directly would append, without
    touching the indentation, and no line of it is wider than [m]. *)
Theorem C20_try_write_transparent : forall c p0 w f m k r, clean p0 ->
  run (tab_width c) (LineEndingStyle_as_str (line_endings c)) p0 writer_new = Some w ->
  clean f ->
  run (tab_width c) (LineEndingStyle_as_str (line_endings c)) (PTry f m k) w = Some r ->
  run (tab_width c) (LineEndingStyle_as_str (line_endings c)) (k false) w = Some r
  \/ exists t wt w',
       run (tab_width c) (LineEndingStyle_as_str (line_endings c)) f w = Some w' /\
       w_out w' = w_out w ++ t /\
       w_out wt = w_out w ++ t /\ w_spaces wt = w_spaces w /\
       widest (last_col 0 (w_out w)) t <= m /\
       run (tab_width c) (LineEndingStyle_as_str (line_endings c)) (k true) wt = Some r.
Proof. exact try_write_full. Qed.
Print Assumptions C20_try_write_transparent.

(** A layout without nested trials that fits is accepted. *)
Theorem C20_fitting_layout_is_used : forall c f m k w w' t r, clean f -> tryfree f ->
  run (tab_width c) (LineEndingStyle_as_str (line_endings c)) f w = Some w' ->
  w_out w' = w_out w ++ t -> widest (w_len w) t <= m ->
  run (tab_width c) (LineEndingStyle_as_str (line_endings c)) (PTry f m k) w = Some r ->
  exists wt, w_out wt = w_out w ++ t /\
       run (tab_width c) (LineEndingStyle_as_str (line_endings c)) (k true) wt = Some r.
Proof. exact try_write_too_wide. Qed.
Print Assumptions C20_fitting_layout_is_used.

(** The internal column counter, used to align later lines, is not always the
    real column: after a multi-line trial it counts all its lines. *)
Theorem C20_column_counter_refuted : exists p w,
  clean p /\ run 2 (LineEndingStyle_as_str LF) p writer_new = Some w /\
  w_len w <> last_col 0 (w_out w).
Proof. exact column_counter_wrong. Qed.
Print Assumptions C20_column_counter_refuted.

Example C20_fits : exists r,
  run 2 (LineEndingStyle_as_str LF)
    (seq (write "void f(") (PTry (seq (write "int a, ") (write "int b")) 20
       (fun b => if b then write ");" else write "...);"))) writer_new = Some r
  /\ w_out r = "void f(int a, int b);".
Proof. eexists; split; vm_compute; reflexivity. Qed.
Example C20_does_not_fit : exists r,
  run 2 (LineEndingStyle_as_str LF)
    (seq (write "void f(") (PTry (seq (write "int a, ") (write "int b")) 18
       (fun b => if b then write ");" else write "...);"))) writer_new = Some r
  /\ w_out r = "void f(...);".
Proof. eexists; split; vm_compute; reflexivity. Qed.

(** Well-bracketed code restores the indentation and does not panic, for any
    non-zero tab width. *)
Theorem C21_indentation_restored : forall tabw le p w,
  tabw <> 0 -> w_spaces w <> [] -> well_bracketed p ->
  exists w', run tabw le p w = Some w' /\ w_spaces w' = w_spaces w.
Proof. exact well_bracketed_restores. Qed.
Print Assumptions C21_indentation_restored.

(** A brace opened and closed around well-bracketed code is well-bracketed. *)
Theorem C21_braces_bracket : forall c p b, well_bracketed p ->
  well_bracketed (seq (open_brace c) (seq p (close_brace c b))).
Proof. exact wb_braced. Qed.
Print Assumptions C21_braces_bracket.

(** So are the lists of items, when each item is, and they restore the
    indentation whatever the column they start at. *)
Theorem C21_lists_bracket : forall (A : Type) (l : list A) lt wr, (forall x, In x l -> well_bracketed (wr x)) ->
  well_bracketed (write_vertical_source_list l lt wr) /\ well_bracketed (write_horizontal_source_list l lt wr).
Proof. exact wb_lists. Qed.
Print Assumptions C21_lists_bracket.

(** Opening a brace starts the next line at the first tab stop to the right of
    the current indentation: the next multiple of the tab width. *)
Theorem C21_next_tab_stop : forall tabw le c sp rest out len n mx started w',
  language c <> Cython -> tabw <> 0 ->
  run tabw le (open_brace c) {| w_out := out; w_spaces := sp :: rest; w_started := started;
                                w_len := len; w_lineno := n; w_max := mx |} = Some w' ->
  exists k, w_spaces w' = (k * tabw) :: sp :: rest /\ sp < k * tabw /\ k * tabw <= sp + tabw
            /\ w_started w' = false.
Proof. exact open_brace_tab_stop. Qed.
Print Assumptions C21_next_tab_stop.

(** A zero tab width panics as soon as anything is indented. *)
Theorem C21_zero_tab_width_refuted : exists p,
  well_bracketed p /\ forall le, run 0 le p writer_new = None.
Proof. exact zero_tab_panics. Qed.
Print Assumptions C21_zero_tab_width_refuted.

Example C21_nested : well_bracketed
  (seq (write "struct A")
    (seq (open_brace default_config)
       (seq (write_vertical_source_list ["int x"; "int y"] (Cap ";") write)
          (close_brace default_config true)))).
Proof. cbn. repeat split; auto. Qed.
