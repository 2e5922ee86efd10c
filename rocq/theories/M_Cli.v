(** Model of src/main.rs, of [Cargo::load] (src/bindgen/cargo/cargo.rs), of the
    cargo command of src/bindgen/cargo/cargo_expand.rs and of
    [Builder::generate] (src/bindgen/builder.rs) as the command calls it.

    Outside, and given as [Outside]: the file system that is read, cargo, TOML
    syntax, the Rust syntax.  clap's reading of the command line is outside
    too, except for the words it lets an option take.  Logging is left out. *)
Require Import Coq.Strings.String Coq.Lists.List Coq.Bool.Bool Coq.Arith.Arith.
From Verif Require Import Base M_Config M_Type M_Ir M_Item M_Library M_Bindings M_Files M_Attr M_Syn M_Loader M_Parser M_Settings.
Import ListNotations.
Open Scope string_scope.

(** main.rs:136-311: what clap found *)
Record Matches := {
  m_verify : bool;
  m_config : option cpath;
  m_lang : option string;
  m_package_version : bool;
  m_cpp_compat : bool;
  m_only_target : bool;
  m_style : option string;
  m_d : bool;
  m_clean : bool;
  m_input : option cpath;
  m_crate : option string;
  m_out : option cpath;
  m_lockfile : option cpath;
  m_metadata : option cpath;
  m_profile : option string;
  m_depfile : option cpath;
  m_symfile : option cpath
}.
(** main.rs:163, 191, 274: [value_parser] with the words allowed *)
Definition lang_words : list string := ["c++"; "C++"; "c"; "C"; "cython"; "Cython"].
Definition style_words : list string := ["Both"; "both"; "Tag"; "tag"; "Type"; "type"].
Definition profile_words : list string := ["Debug"; "debug"; "Release"; "release"].
Definition allowed_word (words : list string) (o : option string) : bool :=
  match o with Some s => mem_str s words | None => true end.
Definition clap_accepts (m : Matches) : bool :=
  allowed_word lang_words (m_lang m) && allowed_word style_words (m_style m) && allowed_word profile_words (m_profile m).

(** main.rs:31-82.  [None]: an [unwrap] panics.  The two [return]s after an
    error of [try_get_one] are left out: it only fails for a name or type that
    [main] did not declare. *)
Definition override {A} (from_str : string -> option A) (o : option string) (dflt : A) : option A :=
  match o with Some s => from_str s | None => Some dflt end.
Definition apply_config_overrides (m : Matches) (s : Settings) : option Settings :=
  let c := se_config s in
  let? lang := override Language_from_str (m_lang m) (language c) in
  let? st := override Style_from_str (m_style m) (style c) in
  let? profile := override Profile_from_str (m_profile m) (xp_profile (se_expand s)) in
  let pa := parse c in
  let x := se_expand s in
  Some
    {| se_config :=
         {| header := header c; includes_ := includes_ c; sys_includes_ := sys_includes_ c; after_includes := after_includes c;
            trailer := trailer c; include_guard_ := include_guard_ c; pragma_once := pragma_once c; no_includes := no_includes c;
            package_version := if m_package_version m then true else package_version c; autogen_warning := autogen_warning c;
            include_version := include_version c; namespace := namespace c; namespaces := namespaces c;
            using_namespaces := using_namespaces c; braces := braces c; line_length := line_length c; tab_width := tab_width c;
            line_endings := line_endings c; language := lang; cpp_compat := if m_cpp_compat m then true else cpp_compat c;
            style := st; sort_by := sort_by c; usize_is_size_t := usize_is_size_t c;
            parse := {| pa_parse_deps := if m_d m then true else pa_parse_deps pa; pa_include := pa_include pa;
                        pa_exclude := pa_exclude pa; pa_expand_crates := pa_expand_crates pa;
                        pa_extra_bindings := pa_extra_bindings pa |};
            export := export c; layout := layout c; function := function c; structure := structure c;
            enumeration := enumeration c; constant := constant c; defines := defines c; documentation := documentation c;
            documentation_style := documentation_style c; documentation_length := documentation_length c;
            pointer := pointer c; cython := cython c; config_path := config_path c |};
       se_bitflags := se_bitflags s;
       se_only_target := if m_only_target m then true else se_only_target s;
       se_clean := se_clean s;
       se_expand := {| xp_all_features := xp_all_features x; xp_default_features := xp_default_features x;
                       xp_features := xp_features x; xp_profile := profile |} |}.

(** What cargo answers to [cargo metadata]: the packages and the workspace's root *)
Record metadata := { md_packages : list metadata_package; md_root : cpath }.
(** What the command asks of the outside world.
    [ou_toml]: the configuration file there, if there is one, and what TOML
    makes of it, if anything.
    [ou_metadata]: manifest, existing file, whether to filter for the target.
    [ou_cargo]: the expansion of a crate printed by cargo with these
    arguments, in a new target directory or not, parsed. *)
Record Outside := {
  ou_here : cpath;
  ou_text : cpath -> string;
  ou_is_dir : cpath -> bool;
  ou_toml : cpath -> option (option toml);
  ou_metadata : cpath -> option cpath -> bool -> option metadata;
  ou_lock : cpath -> option Lock;
  ou_manifest : cpath -> option string;
  ou_cargo : bool -> list string -> option (list sitem);
  ou_disk : disk;
  ou_running : bool
}.

(** A run ends with a value, with the error exit (status 1), with a panic
    (status 101), or not at all. *)
Inductive ran (A : Type) := Ran (a : A) | Refused | Crashed | Unending.
Arguments Ran {A}. Arguments Refused {A}. Arguments Crashed {A}. Arguments Unending {A}.
Definition bind_ran {A B} (r : ran A) (k : A -> ran B) : ran B :=
  match r with Ran a => k a | Refused => Refused | Crashed => Crashed | Unending => Unending end.
Definition or_crash {A} (o : option A) : ran A := match o with Some a => Ran a | None => Crashed end.

Section Command.
  Context {H : Heck}.
  Variable w : Outside.

  (** config.rs:1112-1125 *)
  Definition with_path (p : string) (s : Settings) : Settings :=
    let c := se_config s in
    {| se_config :=
         {| header := header c; includes_ := includes_ c; sys_includes_ := sys_includes_ c; after_includes := after_includes c;
            trailer := trailer c; include_guard_ := include_guard_ c; pragma_once := pragma_once c; no_includes := no_includes c;
            package_version := package_version c; autogen_warning := autogen_warning c; include_version := include_version c;
            namespace := namespace c; namespaces := namespaces c; using_namespaces := using_namespaces c; braces := braces c;
            line_length := line_length c; tab_width := tab_width c; line_endings := line_endings c; language := language c;
            cpp_compat := cpp_compat c; style := style c; sort_by := sort_by c; usize_is_size_t := usize_is_size_t c;
            parse := parse c; export := export c; layout := layout c; function := function c; structure := structure c;
            enumeration := enumeration c; constant := constant c; defines := defines c; documentation := documentation c;
            documentation_style := documentation_style c; documentation_length := documentation_length c;
            pointer := pointer c; cython := cython c; config_path := Some p |};
       se_bitflags := se_bitflags s; se_only_target := se_only_target s; se_clean := se_clean s; se_expand := se_expand s |}.
  Definition from_file (p : cpath) : option Settings :=
    let? text := ou_toml w p in
    let? t := text in
    option_map (with_path (ou_text w p)) (as_settings t).
  (** config.rs:1127-1135 *)
  Definition from_root_or_default (root : cpath) : option Settings :=
    let p := (root ++ ["cbindgen.toml"])%list in
    match ou_toml w p with Some _ => from_file p | None => Some default_settings end.

  (** cargo_expand.rs:83-140: the arguments of cargo *)
  Definition expand_arguments (manifest : string) (p : PackageRef) (x : ExpandConfig) : list string :=
    (["rustc"; "--lib"] ++
     match xp_profile x with Release => [] | Debug => ["--profile=check"] end ++
     ["--manifest-path"; manifest] ++
     match xp_features x with Some l => ["--features"; String.concat " " l] | None => [] end ++
     (if xp_all_features x then ["--all-features"] else []) ++
     (if xp_default_features x then [] else ["--no-default-features"]) ++
     match xp_profile x with Debug => [] | Release => ["--release"] end ++
     ["-p"; (pk_name p ++ match pk_version p with Some v => ":" ++ v | None => "" end)%string;
      "--verbose"; "--"; "-Zunpretty=expanded"])%list.

  (** cargo.rs:34-83.  [use_cargo_lock] is true in main.rs and [parse.parse_deps]
      in builder.rs; a lock file that cannot be read is no lock file. *)
  Definition Cargo_load (dir : cpath) (lock_file : option cpath) (crate : option string) (use_cargo_lock clean only_target : bool)
    (existing : option cpath) (x : ExpandConfig) : option Cargo :=
    let manifest := (dir ++ ["Cargo.toml"])%list in
    let? md := ou_metadata w manifest existing only_target in
    let lock_path := match lock_file with Some p => p | None => (md_root md ++ ["Cargo.lock"])%list end in
    let lock := if use_cargo_lock then ou_lock w lock_path else None in
    let? name := match crate with Some n => Some n | None => ou_manifest w manifest end in
    Some {| cg_manifest_path := ou_text w manifest; cg_binding_crate_name := name; cg_lock := lock;
            cg_packages := md_packages md;
            cg_expand := fun p => ou_cargo w clean (expand_arguments (ou_text w manifest) p x) |}.
  (** cargo.rs:207-219 *)
  Definition find_crate_dir (c : Cargo) (p : PackageRef) : option cpath :=
    option_map (fun m => parent_dir (join_text [] (mp_manifest_path m))) (get_package c p).

  (** main.rs:84-134, up to [generate]: the settings, the source files and the crate.

      The settings of [parse.expand] reach [expand_crate] after the crate is
      loaded, so that [Cargo_load] is given them here a second time. *)
  Definition settings_of (m : Matches) (root : cpath) : ran Settings :=
    bind_ran (or_crash (match m_config m with Some p => from_file p | None => from_root_or_default root end)) (fun s =>
    or_crash (apply_config_overrides m s)).
  Definition plan (m : Matches) : ran (Settings * list cpath * option Cargo) :=
    let input := match m_input m with Some p => p | None => ou_here w end in
    if negb (ou_is_dir w input) then
      bind_ran (settings_of m (parent_dir input)) (fun s => Ran (s, [input], None))
    else
      let load x := Cargo_load input (m_lockfile m) (m_crate m) true (m_clean m) (m_only_target m) (m_metadata m) x in
      match load default_expand with
      | None => Refused
      | Some lib =>
          bind_ran (match m_config m with
                    | Some _ => Ran input
                    | None => bind_ran (or_crash (binding_crate_ref lib)) (fun p =>
                              Ran match find_crate_dir lib p with Some dir => dir | None => input end)
                    end) (fun root =>
          bind_ran (settings_of m root) (fun s => Ran (s, [], load (se_expand s))))
      end.

  (** builder.rs:352-418.  [fuel]s as in [parse_all] and [generate]; [visit]:
      the order of a hash map. *)
  Variables (mfuel fuel gfuel : nat) (visit : list (string * AnnotationSet) -> list (string * AnnotationSet)).
  Definition noop_bindings (c : Config) : Bindings :=
    {| b_config := c; b_struct_map := []; b_enum_map := []; b_typedef_map := []; b_constants := []; b_globals := [];
       b_items := []; b_functions := []; b_source_files := []; b_noop := true; b_package_version := "" |}.
  Definition build (s : Settings) (srcs : list cpath) (lib : option Cargo) : ran Bindings :=
    if ou_running w then Ran (noop_bindings (se_config s))
    else match parse_all (ou_disk w) (se_config s) (se_bitflags s) mfuel fuel true srcs lib with
         | Failed => Refused
         | Panicked => Crashed
         | Endless => Unending
         | Parsed l => match generate gfuel visit l with Done b => Ran b | Panic => Crashed | Diverge => Unending end
         end.
  Definition load_bindings (m : Matches) : ran Bindings :=
    bind_ran (plan m) (fun p => build (fst (fst p)) (snd (fst p)) (snd p)).

  (** builder.rs:385-400: what the library does with [with_crate] instead *)
  Definition builder_cargo (dir : cpath) (crate : option string) (lock_file : option cpath) (s : Settings) : option Cargo :=
    Cargo_load dir lock_file crate (pa_parse_deps (parse (se_config s))) (se_clean s) (se_only_target s) None (se_expand s).

  (** main.rs:136-366: the files, what is printed, and the exit status ([None]:
      no end).  [emit] is [Bindings::write]; [world] answers for the operating
      system as in [main_out].  clap's own error has status 2. *)
  Variables (emit : Bindings -> generation) (world : Bindings -> World).
  Definition main (m : Matches) (s : fsys) : fsys * string * option nat :=
    if negb (clap_accepts m) then (s, "", Some 2)
    else if m_verify m && match m_out m with None => true | Some _ => false end then (s, "", Some 2)
    else match load_bindings m with
         | Refused => (s, "", Some 1)
         | Crashed => (s, "", Some 101)
         | Unending => (s, "", None)
         | Ran b =>
             match m_out m with
             | Some p =>
                 let (s', code) := main_out (world b) (b_noop b) (emit b) (symfile_text b)
                   {| op_out := p; op_verify := m_verify m; op_depfile := m_depfile m; op_symfile := m_symfile m |} s in
                 (s', "", Some code)
             | None =>
                 if b_noop b then (s, "", Some 0)
                 else (s, sconcat (chunks (emit b)), Some (if finished (emit b) then 0 else 101))
             end
         end.
End Command.
