(** What is read for a run of the program: the given source files one after the
    other, then the crate and the crates it depends on. *)
Require Import Coq.Strings.String Coq.Strings.Ascii Coq.Lists.List Coq.Bool.Bool Coq.Arith.Arith.
From Verif Require Import Base  M_Config M_Cfg S_Cfg M_Type M_Ir M_Item M_Attr M_Syn M_Library M_Bindings M_Loader M_Parser
  S_Parse.
Import ListNotations.
Open Scope string_scope.
Open Scope list_scope.

(** The modules of each given file, then the crates *)
Record sources_read (d : disk) (pc : ParseConfig) (srcs : list cpath) (lib : option Cargo) (vss : list (list visit)) (rs : list reading) : Prop := {
  sr_files : Forall2 (fun file vs => crate_visits d file [] vs) srcs vss;
  sr_library : match lib with
               | None => rs = []
               | Some cargo => exists p, binding_crate_ref cargo = Some p /\ crates_read d cargo pc [] [] p rs
               end
}.
Definition modules_read (vss : list (list visit)) (rs : list reading) : list visit := (concat vss ++ concat (map rd_visits rs))%list.
(** A module whose functions are bound: one of a given file, of the crate, or of
    a crate whose bindings are asked for too *)
Definition module_bound (pc : ParseConfig) (lib : option Cargo) (vss : list (list visit)) (rs : list reading) (v : visit) : Prop :=
  In v (concat vss)
  \/ exists cargo r, lib = Some cargo /\ In r rs /\ has_bindings cargo pc (rd_name r) /\ In v (rd_visits r).
(** The functions of the crates *)
Definition library_functions (pc : ParseConfig) (lib : option Cargo) (rs : list reading) (fs : list Function) : Prop :=
  match lib with
  | None => fs = []
  | Some cargo => exists fsss, Forall2 (crate_functions cargo pc) rs fsss /\ fs = concat (concat fsss)
  end.
(** The items of a library as they were loaded *)
Definition items_of (l : Library) : Parse :=
  {| pr_constants := l_constants l; pr_globals := l_globals l; pr_enums := l_enums l; pr_structs := l_structs l; pr_unions := l_unions l;
     pr_opaque_items := l_opaque_items l; pr_typedefs := l_typedefs l; pr_functions := l_functions l |}.
(** The types of the standard library known from the start: opaque and always there *)
Definition from_std (e : entry) : Prop := en_kind e = KOpaque /\ en_cfg e = None /\ In (en_name e) (map fst std_types).
