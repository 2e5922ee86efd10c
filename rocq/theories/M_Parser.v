(** Finding the modules of a crate and the crates it depends on: the [Parser]
    half of src/bindgen/parser.rs, src/bindgen/cargo/cargo.rs and the merging in
    src/bindgen/builder.rs.

    Files are given with the items [syn] reads from them.  The caches of parsed
    files and expanded crates are left out, since files do not change while they
    are read; the keys of the first are kept, because they become the list of
    source files. *)
Require Import Coq.Strings.String Coq.Strings.Ascii Coq.Lists.List Coq.Bool.Bool Coq.Arith.Arith.
From Verif Require Import Base M_Config M_Cfg M_Type M_Ir M_Item M_Attr M_Syn M_Library M_Bindings M_Loader.
Import ListNotations.
Open Scope string_scope.

(** ** Paths: lists of components *)

Definition is_component (s : string) : bool := negb (String.eqb s "") && negb (String.eqb s ".").
(** [Path::join] with a text: an absolute one replaces the path.  The leading
    slash of an absolute path is not represented. *)
Definition join_text (base : cpath) (text : string) : cpath :=
  let parts := filter is_component (split_on "/" text) in
  if starts_with "/" text then parts else (base ++ parts)%list.
Definition parent_dir (p : cpath) : cpath := removelast p.
Definition file_name (p : cpath) : string := last p "".
(** [Path::file_stem]: without the last dot and what follows, unless the dot comes first. *)
Definition file_stem (p : cpath) : string :=
  let n := file_name p in
  match rev (split_on "." n) with
  | _ :: ((_ :: _) as before) => let s := join "." (rev before) in if String.eqb s "" then n else s
  | _ => n
  end.

(** What is on the disk: which paths exist, and the items of those that can be
    opened and parsed. *)
Record disk := { dk_exists : cpath -> bool; dk_items : cpath -> option (list sitem) }.

(** ** The parser's state and results *)

(** parser.rs:95-106 *)
Record state := { ps_crates : list string; ps_sources : list cpath; ps_cfgs : list Cfg; ps_out : Parse }.
Definition state_new : state := {| ps_crates := []; ps_sources := []; ps_cfgs := []; ps_out := Parse_new |}.
Definition set_out (p : Parse) (s : state) : state :=
  {| ps_crates := ps_crates s; ps_sources := ps_sources s; ps_cfgs := ps_cfgs s; ps_out := p |}.
Definition set_cfgs (l : list Cfg) (s : state) : state :=
  {| ps_crates := ps_crates s; ps_sources := ps_sources s; ps_cfgs := l; ps_out := ps_out s |}.
Definition add_crate (n : string) (s : state) : state :=
  {| ps_crates := n :: ps_crates s; ps_sources := ps_sources s; ps_cfgs := ps_cfgs s; ps_out := ps_out s |}.
Fixpoint mem_path (p : cpath) (l : list cpath) : bool :=
  match l with [] => false | q :: r => (if list_eq_dec string_dec p q then true else false) || mem_path p r end.
Definition add_source (p : cpath) (s : state) : state :=
  if mem_path p (ps_sources s) then s
  else {| ps_crates := ps_crates s; ps_sources := (ps_sources s ++ [p])%list; ps_cfgs := ps_cfgs s; ps_out := ps_out s |}.
(** parser.rs:315-317, 397-399 and the like *)
Definition push_cfg (c : option Cfg) (s : state) : state :=
  match c with Some x => set_cfgs (ps_cfgs s ++ [x]) s | None => s end.
Definition pop_cfg (c : option Cfg) (s : state) : state :=
  match c with Some _ => set_cfgs (removelast (ps_cfgs s)) s | None => s end.

(** [Failed]: an error is returned and nothing is generated; [Endless]: the
    recursion goes deeper than the given fuel. *)
Inductive parsing (A : Type) := Parsed (a : A) | Failed | Panicked | Endless.
Arguments Parsed {A} a.
Arguments Failed {A}.
Arguments Panicked {A}.
Arguments Endless {A}.
Notation "'parse?' x := e 'in' k" :=
  (match e with Parsed x => k | Failed => Failed | Panicked => Panicked | Endless => Endless end)
  (at level 200, x pattern, right associativity).

(** ** Modules *)

(** parser.rs:352-386: the first attribute [path = "..."] with a string *)
Definition path_attr (attrs : attributes) : option string := attr_name_value_lookup attrs "path".

Section Modules.
  Context {H : Heck}.
  Variables (d : disk) (ld : loading).

  Definition processor := option (cpath * cpath) -> list sitem -> nat -> bool -> bool -> state -> parsing state.
  Definition module := (attributes * string * option (list sitem))%type.

  (** parser.rs:233-290; [process] is [process_mod] below. *)
  Definition parse_mod_with (process : processor) (path : cpath) (depth : nat) (s : state) : parsing state :=
    match dk_items d path with
    | None => Failed
    | Some items =>
        let mod_dir := parent_dir path in
        let is_mod_rs := Nat.eqb depth 0 || String.eqb (file_name path) "mod.rs" in
        let submod_dir := if is_mod_rs then mod_dir else (mod_dir ++ [file_stem path])%list in
        process (Some (mod_dir, submod_dir)) items depth false is_mod_rs (add_source path s)
    end.

  (** parser.rs:319-399: entering one nested module.  [dirs]: the directory of
      the module around it and the directory of that module's submodules. *)
  Definition enter_module (process : processor) (dirs : option (cpath * cpath)) (depth : nat) (is_inline is_in_mod_rs : bool)
    (m : module) (s : state) : parsing state :=
    let '(attrs, ident, content) := m in
    let name := unraw ident in
    match content with
    | Some inline =>
        process (option_map (fun dd => ((fst dd ++ [name])%list, (snd dd ++ [name])%list)) dirs) inline depth true is_in_mod_rs s
    | None =>
        match dirs with
        | None => Parsed s
        | Some (mod_dir, submod_dir) =>
            let path1 := (submod_dir ++ [append name ".rs"])%list in
            let path2 := (submod_dir ++ [name; "mod.rs"])%list in
            if dk_exists d path1 then parse_mod_with process path1 (S depth) s
            else if dk_exists d path2 then parse_mod_with process path2 (S depth) s
            else match path_attr attrs with
                 | Some text =>
                     let base := if is_inline && negb is_in_mod_rs then submod_dir else mod_dir in
                     parse_mod_with process (join_text base text) (S depth) s
                 | None => Parsed s
                 end
        end
    end.
  (** parser.rs:313-318, 400-405 *)
  Fixpoint each_module (enter : module -> state -> parsing state) (mods : list module) (s : state) : parsing state :=
    match mods with
    | [] => Parsed s
    | m :: r =>
        let cfg := Cfg_of_attrs (fst (fst m)) in
        parse? s' := enter m (push_cfg cfg s) in
        each_module enter r (pop_cfg cfg s')
    end.

  (** parser.rs:294-408 *)
  Fixpoint process_mod (fuel : nat) (dirs : option (cpath * cpath)) (items : list sitem) (depth : nat)
    (is_inline is_in_mod_rs : bool) (s : state) : parsing state :=
    match fuel with
    | O => Endless
    | S n =>
        match load_syn_crate_mod ld (Cfg_join (ps_cfgs s)) items (ps_out s) with
        | None => Panicked
        | Some out =>
            each_module (enter_module (process_mod n) dirs depth is_inline is_in_mod_rs) (nested_modules items) (set_out out s)
        end
    end.
  Definition parse_mod (fuel : nat) (path : cpath) (depth : nat) (s : state) : parsing state :=
    parse_mod_with (process_mod fuel) path depth s.
End Modules.

(** ** Crates *)

(** cargo_metadata.rs:34-38 *)
Record PackageRef := { pk_name : string; pk_version : option string }.
(** cargo_lock.rs:34-46 *)
Record lock_package := { lp_name : string; lp_version : string; lp_dependencies : option (list string) }.
Record Lock := { lk_root : option lock_package; lk_package : option (list lock_package) }.
(** cargo_metadata.rs:24-92.  The two hash sets are lists in iteration order;
    dependencies are distinct by name only.  A dependency has its name and
    target (with the result of parsing it). *)
Record metadata_package := {
  mp_ref : PackageRef;
  mp_dependencies : list (string * option (string * option meta));
  mp_targets : list (list string * cpath);
  mp_manifest_path : string
}.
(** cargo.rs:25-31; [cg_expand] is the outcome of [cargo expand], parsed. *)
Record Cargo := {
  cg_manifest_path : string;
  cg_binding_crate_name : string;
  cg_lock : option Lock;
  cg_packages : list metadata_package;
  cg_expand : PackageRef -> option (list sitem)
}.

Definition option_string_eqb (a b : option string) : bool :=
  match a, b with Some x, Some y => String.eqb x y | None, None => true | _, _ => false end.
Definition PackageRef_eqb (a b : PackageRef) : bool :=
  String.eqb (pk_name a) (pk_name b) && option_string_eqb (pk_version a) (pk_version b).
(** [HashSet::get] *)
Definition get_package (c : Cargo) (p : PackageRef) : option metadata_package :=
  find (fun m => PackageRef_eqb (mp_ref m) p) (cg_packages c).
(** [str::split_whitespace] *)
Fixpoint split_white (s : string) (word : string) : list string :=
  match s with
  | "" => if String.eqb word "" then [] else [srev word]
  | String a r => if is_white a then (if String.eqb word "" then split_white r "" else srev word :: split_white r "")
                  else split_white r (String a word)
  end.
(** cargo.rs:17-21; the index panics on a blank text. *)
Definition parse_dep_string (s : string) : option (string * option string) :=
  match split_white s "" with [] => None | n :: r => Some (n, hd_error r) end.
(** cargo.rs:111-116 and 123-128 *)
Definition lock_matches (p : PackageRef) (l : lock_package) : bool :=
  String.eqb (lp_name l) (pk_name p) && match pk_version p with None => true | Some v => String.eqb v (lp_version l) end.
(** cargo.rs:99-137 *)
Definition lock_dependencies (c : Cargo) (p : PackageRef) : list string :=
  match cg_lock c with
  | None => []
  | Some lock =>
      let in_root := match lk_root lock with Some r => if lock_matches p r then lp_dependencies r else None | None => None end in
      let found := match in_root with
                   | Some l => Some l
                   | None => match lk_package lock with
                             | Some ps => match find (lock_matches p) ps with Some l => lp_dependencies l | None => None end
                             | None => None
                             end
                   end in
      match found with Some l => l | None => [] end
  end.
(** cargo.rs:146-163: the version, if the name has only one *)
Definition only_version (c : Cargo) (name : string) : option string :=
  match filter_map (fun m => if String.eqb (pk_name (mp_ref m)) name then pk_version (mp_ref m) else None) (cg_packages c) with
  | [v] => Some v
  | _ => None
  end.
(** cargo.rs:139-180 *)
Definition dependency (c : Cargo) (p : PackageRef) (dep : string) : option (PackageRef * option Cfg) :=
  let? nv := parse_dep_string dep in
  let version := match snd nv with Some v => Some v | None => only_version c (fst nv) end in
  let cfg := match get_package c p with
             | Some m => match lookup (fst nv) (mp_dependencies m) with Some t => Cfg_load_metadata t | None => None end
             | None => None
             end in
  Some ({| pk_name := fst nv; pk_version := version |}, cfg).
Definition dependencies (c : Cargo) (p : PackageRef) : option (list (PackageRef * option Cfg)) :=
  map_opt (dependency c p) (lock_dependencies c p).
(** cargo.rs:186-205; the panic of [binding_crate_ref] (89-97) is [None]. *)
Definition binding_crate_ref (c : Cargo) : option PackageRef :=
  let candidates := filter (fun m => String.eqb (pk_name (mp_ref m)) (cg_binding_crate_name c)) (cg_packages c) in
  match find (fun m => String.eqb (mp_manifest_path m) (cg_manifest_path c)) candidates with
  | Some m => Some (mp_ref m)
  | None => option_map mp_ref (hd_error candidates)
  end.
(** cargo.rs:221-244 *)
Definition lib_kinds : list string := ["lib"; "staticlib"; "rlib"; "cdylib"; "dylib"].
Definition find_crate_src (c : Cargo) (p : PackageRef) : option cpath :=
  let? m := get_package c p in
  option_map snd (find (fun t => existsb (fun k => mem_str k (fst t)) lib_kinds) (mp_targets m)).

(** parser.rs:23-30 *)
Definition STD_CRATES : list string := ["std"; "std_unicode"; "alloc"; "collections"; "core"; "proc_macro"].
(** parser.rs:110-147 *)
Definition should_parse_dependency (pc : ParseConfig) (parsed : list string) (name : string) : bool :=
  if mem_str name parsed then false
  else if negb (pa_parse_deps pc) then false
  else if mem_str name (pa_expand_crates pc) then true
  else if match pa_include pc with Some l => negb (mem_str name l) | None => false end then false
  else negb (mem_str name STD_CRATES) && negb (mem_str name (pa_exclude pc)).

Section Crates.
  Context {H : Heck}.
  Variables (d : disk) (cargo : Cargo) (config : Config) (bitflags : bool).
  Definition loading_of (crate : string) : loading :=
    {| ld_config := config; ld_bitflags := bitflags; ld_binding := cg_binding_crate_name cargo; ld_crate := crate |}.

  (** parser.rs:155-176, 196-231 *)
  Definition parse_crate_source (mfuel : nat) (p : PackageRef) (s : state) : parsing state :=
    let ld := loading_of (pk_name p) in
    if mem_str (pk_name p) (pa_expand_crates (parse config)) then
      match cg_expand cargo p with
      | None => Failed
      | Some items => process_mod d ld mfuel None items 0 true false s
      end
    else match find_crate_src cargo p with
         | Some path => parse_mod d ld mfuel path 0 s
         | None => Parsed s
         end.

  (** parser.rs:178-191 *)
  Fixpoint each_dependency (enter : PackageRef -> state -> parsing state) (deps : list (PackageRef * option Cfg)) (s : state) :
    parsing state :=
    match deps with
    | [] => Parsed s
    | (q, cfg) :: r =>
        if should_parse_dependency (parse config) (ps_crates s) (pk_name q)
        then parse? s' := enter q (push_cfg cfg s) in each_dependency enter r (pop_cfg cfg s')
        else each_dependency enter r s
    end.
  (** parser.rs:149-194.  [mfuel] bounds the nesting of modules, [fuel] that of crates. *)
  Fixpoint parse_crate (mfuel fuel : nat) (p : PackageRef) (s : state) : parsing state :=
    match fuel with
    | O => Endless
    | S n =>
        parse? s := parse_crate_source mfuel p (add_crate (pk_name p) s) in
        match dependencies cargo p with
        | None => Panicked
        | Some deps => each_dependency (parse_crate mfuel n) deps s
        end
    end.
  (** parser.rs:69-92: the result, the source files and the package's version *)
  Definition parse_lib (mfuel fuel : nat) : parsing (Parse * list cpath * string) :=
    match binding_crate_ref cargo with
    | None => Panicked
    | Some p =>
        parse? s := parse_crate mfuel fuel p state_new in
        match pk_version p with
        | Some v => Parsed (ps_out s, ps_sources s, v)
        | None => Panicked
        end
    end.
End Crates.

(** parser.rs:33-62: the settings about crates are the default ones. *)
Definition src_parse_config : ParseConfig :=
  {| pa_parse_deps := true; pa_include := None; pa_exclude := []; pa_expand_crates := []; pa_extra_bindings := [] |}.
Definition with_parse_config (pc : ParseConfig) (c : Config) : Config :=
  {| header := header c; includes_ := includes_ c; sys_includes_ := sys_includes_ c; after_includes := after_includes c;
     trailer := trailer c; include_guard_ := include_guard_ c; pragma_once := pragma_once c; no_includes := no_includes c;
     package_version := package_version c; autogen_warning := autogen_warning c; include_version := include_version c;
     namespace := namespace c; namespaces := namespaces c; using_namespaces := using_namespaces c; braces := braces c;
     line_length := line_length c; tab_width := tab_width c; line_endings := line_endings c; language := language c;
     cpp_compat := cpp_compat c; style := style c; sort_by := sort_by c; usize_is_size_t := usize_is_size_t c; parse := pc;
     export := export c; layout := layout c; function := function c; structure := structure c;
     enumeration := enumeration c; constant := constant c; defines := defines c; documentation := documentation c;
     documentation_style := documentation_style c; documentation_length := documentation_length c; pointer := pointer c;
     cython := cython c; config_path := config_path c |}.
Definition parse_src {H : Heck} (d : disk) (bitflags : bool) (mfuel : nat) (file : cpath) (c : Config) : parsing (Parse * list cpath) :=
  let name := file_stem file in
  let ld := {| ld_config := with_parse_config src_parse_config c; ld_bitflags := bitflags; ld_binding := name; ld_crate := name |} in
  parse? s := parse_mod d ld mfuel file 0 state_new in
  Parsed (ps_out s, ps_sources s).

(** builder.rs:352-418 up to [Library::new]: the given source files, then the
    crate.  The package's version is that of the crate, if there is one. *)
Section Builder.
  Context {H : Heck}.
  Variables (d : disk) (c : Config) (bitflags : bool) (mfuel fuel : nat).
  Fixpoint parse_srcs (files : list cpath) (r : Parse * list cpath) : parsing (Parse * list cpath) :=
    match files with
    | [] => Parsed r
    | f :: rest =>
        parse? o := parse_src d bitflags mfuel f c in
        parse_srcs rest (Parse_extend_with (fst o) (fst r), (snd r ++ snd o)%list)
    end.
  Definition parse_all (std : bool) (srcs : list cpath) (lib : option Cargo) : parsing Library :=
    let start := if std then add_std_types Parse_new else Parse_new in
    parse? r := parse_srcs srcs (start, []) in
    parse? rv := match lib with
                 | None => Parsed (r, "")
                 | Some cargo =>
                     parse? o := parse_lib d cargo c bitflags mfuel fuel in
                     let '(p, sources, v) := o in
                     Parsed ((Parse_extend_with p (fst r), (snd r ++ sources)%list), v)
                 end in
    let '((p, sources), v) := rv in
    Parsed {| l_config := c; l_constants := pr_constants p; l_globals := pr_globals p; l_enums := pr_enums p;
              l_structs := pr_structs p; l_unions := pr_unions p; l_opaque_items := pr_opaque_items p;
              l_typedefs := pr_typedefs p; l_functions := pr_functions p;
              l_source_files := map cpath_text (sources ++ srcs); l_package_version := v |}.
End Builder.
