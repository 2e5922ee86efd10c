(** What is said about files: crash points, and what a write may touch. *)
Require Import Coq.Strings.String Coq.Lists.List.
From Verif Require Import Base M_Bindings M_Files.
Import ListNotations.
Open Scope string_scope.

(** The states a process can leave behind when it stops at any point of a
    list of operations, even within a write. *)
Inductive crash : list effect -> fsys -> fsys -> Prop :=
| crash_here : forall es s, crash es s s
| crash_within : forall p t u es s c, s p = Some (NFile c) -> crash (EAppend p (t ++ u) :: es) s (put p (NFile (c ++ t)) s)
| crash_later : forall e es s s1 s2, apply_effect e s = Some s1 -> crash es s1 s2 -> crash (e :: es) s s2.

(** A directory above [p]. *)
Definition above (q p : cpath) : Prop := q <> [] /\ exists r, r <> [] /\ p = (q ++ r)%list.
(** Nothing but [p] changed, except that missing directories above it were created. *)
Definition only_touches (p : cpath) (s s' : fsys) : Prop :=
  forall q, q <> p -> s' q = s q \/ (s q = None /\ s' q = Some NDir /\ above q p).
Definition is_prefix (t text : string) : Prop := exists u, text = t ++ u.

(** A file system: the root is a directory, and so is the parent of whatever exists. *)
Definition tree (s : fsys) : Prop :=
  s [] = Some NDir /\ forall q, q <> [] -> s q <> None -> s (removelast q) = Some NDir.
(** A place where a file can be written: not the root nor a directory, and no file stands in its way. *)
Definition writable (s : fsys) (p : cpath) : Prop :=
  p <> [] /\ s p <> Some NDir /\ forall q c, above q p -> s q <> Some (NFile c).

(** All operations succeed. *)
Definition no_failures : nat -> bool := fun _ => true.

(** Writes one after the other, each of them possibly stopped midway.  The
    list has the latest first: where it went, what it should have written, and
    whether it ended (with what answer). *)
Record event := { ev_path : cpath; ev_text : string; ev_answer : option bool }.
Inductive history : list event -> fsys -> fsys -> Prop :=
| no_writes : forall s, history [] s s
| ended : forall h s0 s1 ok g p s2 a,
    history h s0 s1 -> run_write ok false g s1 p = (s2, M_Library.Done a) ->
    history ({| ev_path := p; ev_text := sconcat (chunks g); ev_answer := Some a |} :: h) s0 s2
| stopped : forall h s0 s1 g p s2,
    history h s0 s1 -> crash (fst (write_to_file false g s1 p)) s1 s2 ->
    history ({| ev_path := p; ev_text := sconcat (chunks g); ev_answer := None |} :: h) s0 s2.
