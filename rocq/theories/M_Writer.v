(** Model of src/bindgen/writer.rs.

    A piece of code that writes through a [SourceWriter] is a [prog]: the
    sequence of calls it makes on the writer, where the calls that return
    something ([line_length_for_align], [try_write]) take a continuation.
    [run] executes a [prog] on the writer state; [None] is a panic. *)
Require Import Coq.Strings.String Coq.Strings.Ascii Coq.Lists.List Coq.Bool.Bool Coq.Arith.Arith.
From Verif Require Import Base M_Config.
Import ListNotations.
Open Scope string_scope.

Inductive prog :=
| PRet
| PWrite (text : string) (k : prog)          (* write, write!, write_fmt *)
| PRaw (k : prog)                            (* the [line_started = true] of write_raw_block *)
| PPushSet (n : nat) (k : prog)              (* push_set_spaces *)
| PPushTab (k : prog)                        (* push_tab *)
| PPop (k : prog)                            (* pop_tab, pop_set_spaces *)
| PNewLine (k : prog)                        (* new_line *)
| PNewLineIf (k : prog)                      (* new_line_if_not_start *)
| PAlign (k : nat -> prog)                   (* line_length_for_align *)
| PTry (f : prog) (max : nat) (k : bool -> prog).  (* try_write *)

Fixpoint seq (p q : prog) : prog :=
  match p with
  | PRet => q
  | PWrite s k => PWrite s (seq k q)
  | PRaw k => PRaw (seq k q)
  | PPushSet n k => PPushSet n (seq k q)
  | PPushTab k => PPushTab (seq k q)
  | PPop k => PPop (seq k q)
  | PNewLine k => PNewLine (seq k q)
  | PNewLineIf k => PNewLineIf (seq k q)
  | PAlign k => PAlign (fun n => seq (k n) q)
  | PTry f m k => PTry f m (fun b => seq (k b) q)
  end.

Declare Scope prog_scope.
Delimit Scope prog_scope with prog.
Notation "p ;; q" := (seq p q) (at level 60, right associativity) : prog_scope.

(** writer.rs:48-56.  [w_spaces] has the top of the stack first. *)
Record writer := {
  w_out : string;
  w_spaces : list nat;
  w_started : bool;
  w_len : nat;
  w_lineno : nat;
  w_max : nat
}.

(** writer.rs:61-71 *)
Definition writer_new : writer :=
  {| w_out := ""; w_spaces := [0]; w_started := false; w_len := 0; w_lineno := 1; w_max := 0 |}.

(** writer.rs:24-40, called through [write_fmt]/[write_all]: an empty buffer
    never reaches [InnerWriter::write].  [spaces()] panics on an empty stack. *)
Definition inner_write (buf : string) (w : writer) : option writer :=
  if String.eqb buf "" then Some w else
  if w_started w then
    let len := w_len w + String.length buf in
    Some {| w_out := w_out w ++ buf; w_spaces := w_spaces w; w_started := true;
            w_len := len; w_lineno := w_lineno w; w_max := Nat.max (w_max w) len |}
  else
    match w_spaces w with
    | [] => None
    | sp :: _ =>
        let len := w_len w + sp + String.length buf in
        Some {| w_out := w_out w ++ (srepeat " " sp ++ buf); w_spaces := w_spaces w; w_started := true;
                w_len := len; w_lineno := w_lineno w; w_max := Nat.max (w_max w) len |}
    end.

(** writer.rs:118-120 *)
Definition push_set (n : nat) (w : writer) : writer :=
  {| w_out := w_out w; w_spaces := n :: w_spaces w; w_started := w_started w;
     w_len := w_len w; w_lineno := w_lineno w; w_max := w_max w |}.

(** writer.rs:134-138; the remainder by a zero tab width panics. *)
Definition push_tab (tabw : nat) (w : writer) : option writer :=
  match w_spaces w with
  | [] => None
  | sp :: _ =>
      if Nat.eqb tabw 0 then None
      else Some (push_set (sp - sp mod tabw + tabw) w)
  end.

(** writer.rs:140-143 *)
Definition pop_tab (w : writer) : option writer :=
  match w_spaces w with
  | [] => None
  | _ :: r => Some {| w_out := w_out w; w_spaces := r; w_started := w_started w;
                      w_len := w_len w; w_lineno := w_lineno w; w_max := w_max w |}
  end.

(** writer.rs:145-152 *)
Definition new_line (le : string) (w : writer) : writer :=
  {| w_out := w_out w ++ le; w_spaces := w_spaces w; w_started := false;
     w_len := 0; w_lineno := S (w_lineno w); w_max := w_max w |}.

(** writer.rs:154-158 *)
Definition new_line_if_not_start (le : string) (w : writer) : writer :=
  if Nat.eqb (w_lineno w) 1 then w else new_line le w.

(** writer.rs:126-132 *)
Definition align (w : writer) : option nat :=
  if w_started w then Some (w_len w)
  else match w_spaces w with [] => None | sp :: _ => Some (w_len w + sp) end.

(** writer.rs:88-97, the measuring writer *)
Definition measurer (w : writer) : writer :=
  {| w_out := ""; w_spaces := w_spaces w; w_started := w_started w;
     w_len := w_len w; w_lineno := w_lineno w; w_max := w_len w |}.

Definition set_started (w : writer) : writer :=
  {| w_out := w_out w; w_spaces := w_spaces w; w_started := true;
     w_len := w_len w; w_lineno := w_lineno w; w_max := w_max w |}.

Section Run.
  (** From the configuration: tab width and line ending. *)
  Variables (tabw : nat) (le : string).

  (** Execution.  The [PTry] case is writer.rs:79-112. *)
  Fixpoint run (p : prog) (w : writer) : option writer :=
    match p with
    | PRet => Some w
    | PWrite s k => match inner_write s w with None => None | Some w' => run k w' end
    | PRaw k => run k (set_started w)
    | PPushSet n k => run k (push_set n w)
    | PPushTab k => match push_tab tabw w with None => None | Some w' => run k w' end
    | PPop k => match pop_tab w with None => None | Some w' => run k w' end
    | PNewLine k => run k (new_line le w)
    | PNewLineIf k => run k (new_line_if_not_start le w)
    | PAlign k => match align w with None => None | Some n => run (k n) w end
    | PTry f m k =>
        if Nat.ltb m (w_len w) then run (k false) w
        else match run f (measurer w) with
             | None => None
             | Some mw =>
                 if Nat.ltb m (w_max mw) then run (k false) w
                 else match inner_write (w_out mw) (set_started w) with
                      | None => None
                      | Some w' => run (k true) w'
                      end
             end
    end.
End Run.

Definition write (s : string) : prog := PWrite s PRet.
(** writer.rs:202-205 *)
Definition write_raw_block (s : string) : prog := PRaw (PWrite s PRet).
Definition newline : prog := PNewLine PRet.
Definition newline_if_not_start : prog := PNewLineIf PRet.
Definition push_set_spaces (n : nat) : prog := PPushSet n PRet.
Definition push_tab_ : prog := PPushTab PRet.
Definition pop : prog := PPop PRet.

Local Open Scope prog_scope.

(** writer.rs:160-181 *)
Definition open_brace (c : Config) : prog :=
  match language c with
  | Cxx | M_Config.C =>
      match braces c with
      | SameLine => write " {" ;; push_tab_ ;; newline
      | NextLine => newline ;; write "{" ;; push_tab_ ;; newline
      end
  | Cython => write ":" ;; newline ;; push_tab_
  end.

(** writer.rs:183-196 *)
Definition close_brace (c : Config) (semicolon : bool) : prog :=
  pop ;;
  match language c with
  | Cxx | M_Config.C => newline ;; (if semicolon then write "};" else write "}")
  | Cython => PRet
  end.

(** writer.rs:14-19 *)
Inductive ListType := Join (text : string) | Cap (text : string).

(** writer.rs:211-236 *)
Fixpoint write_horizontal_source_list {A} (items : list A) (lt : ListType) (wr : A -> prog) : prog :=
  match items with
  | [] => PRet
  | [x] => wr x ;; (match lt with Join _ => PRet | Cap t => write t end)
  | x :: r => wr x ;; (match lt with Join t | Cap t => write t end) ;;
              write_horizontal_source_list r lt wr
  end.

Fixpoint vertical_items {A} (items : list A) (lt : ListType) (wr : A -> prog) : prog :=
  match items with
  | [] => PRet
  | [x] => wr x ;; (match lt with Join _ => PRet | Cap t => write t end)
  | x :: r => wr x ;; (match lt with Join t | Cap t => write t end) ;; newline ;;
              vertical_items r lt wr
  end.

(** writer.rs:238-270 *)
Definition write_vertical_source_list {A} (items : list A) (lt : ListType) (wr : A -> prog) : prog :=
  PAlign (fun n => push_set_spaces n ;; vertical_items items lt wr ;; pop).

(** Sequencing a list of writers. *)
Fixpoint seqs (l : list prog) : prog :=
  match l with [] => PRet | p :: r => p ;; seqs r end.

(** Running a whole program from a fresh writer with a configuration. *)
Definition run_config (c : Config) (p : prog) : option string :=
  match run (tab_width c) (LineEndingStyle_as_str (line_endings c)) p writer_new with
  | None => None
  | Some w => Some (w_out w)
  end.
