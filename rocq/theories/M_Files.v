(** Model of the file effects of src/bindgen/bindings.rs (186-269) and of the
    end of src/main.rs (346-366).

    Simplified: paths are absolute and free of symbolic links; permissions and
    time stamps are left to the oracle that makes operations fail; only
    operations that change the file system appear as effects. *)
Require Import Coq.Strings.String Coq.Lists.List Coq.Bool.Bool Coq.Arith.Arith.
From Verif Require Import Base M_Config M_Type M_Ir M_Item M_Library M_Bindings.
Import ListNotations.
Open Scope string_scope.

Inductive node := NFile (content : string) | NDir.
Definition fsys := cpath -> option node.
Fixpoint cpath_eqb (a b : cpath) : bool :=
  match a, b with
  | [], [] => true
  | x :: r, y :: s => String.eqb x y && cpath_eqb r s
  | _, _ => false
  end.
Definition put (p : cpath) (n : node) (s : fsys) : fsys := fun q => if cpath_eqb q p then Some n else s q.
Definition is_dir (s : fsys) (p : cpath) : bool := match s p with Some NDir => true | _ => false end.

(** The operations of std::fs used: [create_dir], [File::create] (creates or
    empties the file) and [write_all] on the file just created. *)
Inductive effect := EMkDir (p : cpath) | ECreate (p : cpath) | EAppend (p : cpath) (text : string).
Definition parent (p : cpath) : cpath := removelast p.
Definition apply_effect (e : effect) (s : fsys) : option fsys :=
  match e with
  | EMkDir p => match s p with None => if is_dir s (parent p) then Some (put p NDir s) else None | Some _ => None end
  | ECreate p =>
      match s p with
      | Some NDir => None
      | Some (NFile _) => Some (put p (NFile "") s)
      | None => if is_dir s (parent p) then Some (put p (NFile "") s) else None
      end
  | EAppend p t => match s p with Some (NFile c) => Some (put p (NFile (c ++ t)) s) | _ => None end
  end.

(** Run operations until one fails: because it is impossible, or because the
    operating system says so ([ok n] for the n-th).  All failures are
    unwrapped, so a failed operation is a panic. *)
Fixpoint exec (ok : nat -> bool) (n : nat) (es : list effect) (s : fsys) : fsys * bool :=
  match es with
  | [] => (s, true)
  | e :: r => match apply_effect e s with
              | Some s' => if ok n then exec ok (S n) r s' else (s, false)
              | None => (s, false)
              end
  end.

(** [fs::create_dir_all]: creates the missing directories, outermost first;
    fails at a prefix that is a file. *)
Fixpoint prefixes (base p : cpath) : list cpath :=
  match p with [] => [] | x :: r => ((base ++ [x]) :: prefixes (base ++ [x]) r)%list end.
Definition create_dir_all (s : fsys) (p : cpath) : list effect :=
  map EMkDir (filter (fun q => negb (is_dir s q)) (prefixes [] p)).

(** What [Bindings::write] sends to the file: the pieces written, and whether
    it came to its end (or panicked after them). *)
Record generation := { chunks : list string; finished : bool }.

(** bindings.rs:239-269: the changing operations and the answer given if they all succeed *)
Definition write_to_file (noop : bool) (g : generation) (s : fsys) (p : cpath) : list effect * outcome bool :=
  if noop then ([], Done false)
  else match s p with
       | Some (NFile old) =>
           if finished g
           then if String.eqb old (sconcat (chunks g)) then ([], Done false)
                else ([ECreate p; EAppend p (sconcat (chunks g))], Done true)
           else ([], Panic)
       | _ => ((create_dir_all s (parent p) ++ ECreate p :: map (EAppend p) (chunks g))%list,
               if finished g then Done true else Panic)
       end.
Definition answered {A} (r : fsys * bool) (a : outcome A) : fsys * outcome A :=
  (fst r, if snd r then a else Panic).
Definition run_write (ok : nat -> bool) (noop : bool) (g : generation) (s : fsys) (p : cpath) : fsys * outcome bool :=
  let (es, a) := write_to_file noop g s p in answered (exec ok 0 es s) a.

(** bindings.rs:186-196.  The text goes through a BufWriter: [early] bytes are
    written while it runs, the rest when it is dropped, and an error there is
    ignored. *)
Definition generate_symfile (ok : nat -> bool) (early : nat) (text : string) (s : fsys) (p : cpath) : fsys * outcome unit :=
  let checked := (create_dir_all s (parent p) ++ [ECreate p; EAppend p (stake early text)])%list in
  let (s1, done_) := exec ok 0 checked s in
  if done_ then (fst (exec ok (length checked) [EAppend p (sdrop early text)] s1), Done tt) else (s1, Panic).

(** bindings.rs:198-237.  [pieces]: what is written, one by one; [None] if a
    path cannot be canonicalised. *)
Definition generate_depfile (ok : nat -> bool) (pieces : option (list string)) (s : fsys) (p : cpath) : fsys * outcome unit :=
  let dirs := match s (parent p) with Some _ => [] | None => create_dir_all s (parent p) end in
  match pieces with
  | Some l => answered (exec ok 0 (dirs ++ ECreate p :: map (EAppend p) l) s) (Done tt)
  | None => answered (exec ok 0 dirs s) Panic
  end.

(** main.rs:346-366 with an output file: the exit code.  (A panic is exit code
    101.)  The oracles of the three writers are separate. *)
Record Options := { op_out : cpath; op_verify : bool; op_depfile : option cpath; op_symfile : option cpath }.
Record World := { ok_out : nat -> bool; ok_dep : nat -> bool; ok_sym : nat -> bool; sym_early : nat;
                  dep_pieces : fsys -> option (list string) }.
Definition exit_code {A} (r : fsys * outcome A) (k : fsys -> A -> fsys * nat) : fsys * nat :=
  match snd r with Done a => k (fst r) a | _ => (fst r, 101) end.
Definition main_out (w : World) (noop : bool) (g : generation) (symbols : string) (o : Options) (s : fsys) : fsys * nat :=
  exit_code (run_write (ok_out w) noop g s (op_out o)) (fun s1 changed =>
    if op_verify o && changed then (s1, 2)
    else exit_code match op_depfile o with
                   | Some d => generate_depfile (ok_dep w) (dep_pieces w s1) s1 d
                   | None => (s1, Done tt)
                   end (fun s2 _ =>
         exit_code match op_symfile o with
                   | Some f => generate_symfile (ok_sym w) (sym_early w) symbols s2 f
                   | None => (s2, Done tt)
                   end (fun s3 _ => (s3, 0)))).
