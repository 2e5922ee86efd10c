(** What the options of the command do to the settings, where the settings
    come from and what cargo is asked. *)
Require Import Coq.Strings.String Coq.Lists.List Coq.Bool.Bool.
From Verif Require Import Base M_Config M_Bindings M_Files M_Parser M_Settings M_Cli S_Settings.
Import ListNotations.
Open Scope string_scope.

(** ** The options and the settings *)

(** An option with a word wins over the file; a flag only turns something on. *)
Definition wins {A} (words : list (string * A)) (o : option string) (before after : A) : Prop :=
  match o with Some s => In (s, after) words | None => after = before end.
Definition turns_on (f : bool) (before after : bool) : Prop := after = true <-> f = true \/ before = true.
(** The settings of a table are as before, but for some. *)
Definition kept_but {R} (except : list string) (entries : list (entry R)) (before after : R) : Prop :=
  Forall (fun e => In (key e) except \/ decides e after = decides e before) entries.

Record overridden {H : Heck} (m : Matches) (before after : Settings) : Prop := {
  ov_language : wins languages (m_lang m) (language (se_config before)) (language (se_config after));
  ov_style : wins styles (m_style m) (style (se_config before)) (style (se_config after));
  ov_profile : wins profiles (m_profile m) (xp_profile (se_expand before)) (xp_profile (se_expand after));
  ov_cpp_compat : turns_on (m_cpp_compat m) (cpp_compat (se_config before)) (cpp_compat (se_config after));
  ov_package_version : turns_on (m_package_version m) (package_version (se_config before)) (package_version (se_config after));
  ov_parse_deps : turns_on (m_d m) (pa_parse_deps (parse (se_config before))) (pa_parse_deps (parse (se_config after)));
  ov_only_target : turns_on (m_only_target m) (se_only_target before) (se_only_target after);
  ov_rest : kept_but ["language"; "style"; "cpp_compat"; "package_version"; "only_target_dependencies"; "parse"]
              file_table before after;
  ov_parse : kept_but ["parse_deps"; "expand"] parse_table
               (parse (se_config before), se_clean before, se_expand before)
               (parse (se_config after), se_clean after, se_expand after);
  ov_expand : kept_but ["profile"] expand_table
                (pa_expand_crates (parse (se_config before)), se_expand before)
                (pa_expand_crates (parse (se_config after)), se_expand after);
  ov_path : config_path (se_config after) = config_path (se_config before)
}.

(** ** Where the settings come from *)

Definition in_dir (dir : cpath) (file : string) : cpath := (dir ++ [file])%list.
(** A configuration file that can be read says this. *)
Definition says {H : Heck} (w : Outside) (file : cpath) (s : Settings) : Prop :=
  exists t, ou_toml w file = Some (Some t) /\ table file_table t s /\ config_path (se_config s) = Some (ou_text w file).
(** What holds without one: what an empty file says *)
Definition defaults {H : Heck} (s : Settings) : Prop := table file_table (TmTable []) s /\ config_path (se_config s) = None.
(** The file named, or [cbindgen.toml] in the directory, or the defaults *)
Definition configured {H : Heck} (w : Outside) (m : Matches) (dir : cpath) (s : Settings) : Prop :=
  match m_config m with
  | Some file => says w file s
  | None => says w (in_dir dir "cbindgen.toml") s \/ ou_toml w (in_dir dir "cbindgen.toml") = None /\ defaults s
  end.

(** ** What cargo is asked *)

Definition the_input (w : Outside) (m : Matches) : cpath := match m_input m with Some p => p | None => ou_here w end.
Definition the_lock (m : Matches) (md : metadata) : cpath :=
  match m_lockfile m with Some p => p | None => in_dir (md_root md) "Cargo.lock" end.
(** the arguments of the cargo that expands a crate *)
Definition asks_if (b : bool) (l : list string) : list string := if b then l else [].
Definition package_id (p : PackageRef) : string :=
  match pk_version p with Some v => pk_name p ++ ":" ++ v | None => pk_name p end.
Definition expansion (manifest : string) (p : PackageRef) (x : ExpandConfig) : list string :=
  let release := match xp_profile x with Release => true | Debug => false end in
  (["rustc"; "--lib"] ++ asks_if (negb release) ["--profile=check"] ++ ["--manifest-path"; manifest]
   ++ match xp_features x with Some l => ["--features"; String.concat " " l] | None => [] end
   ++ asks_if (xp_all_features x) ["--all-features"] ++ asks_if (negb (xp_default_features x)) ["--no-default-features"]
   ++ asks_if release ["--release"] ++ ["-p"; package_id p; "--verbose"; "--"; "-Zunpretty=expanded"])%list.
(** cargo's answers, for a crate in [dir], asked with or without the filter
    for the target platform and with or without a new target directory *)
Record answered (w : Outside) (m : Matches) (dir : cpath) (only_target clean : bool) (x : ExpandConfig) (c : Cargo) : Prop := {
  an_metadata : exists md, ou_metadata w (in_dir dir "Cargo.toml") (m_metadata m) only_target = Some md
    /\ cg_packages c = md_packages md /\ cg_lock c = ou_lock w (the_lock m md);
  an_crate : Some (cg_binding_crate_name c) = match m_crate m with Some n => Some n | None => ou_manifest w (in_dir dir "Cargo.toml") end;
  an_manifest : cg_manifest_path c = ou_text w (in_dir dir "Cargo.toml");
  an_expand : forall p, cg_expand c p = ou_cargo w clean (expansion (ou_text w (in_dir dir "Cargo.toml")) p x)
}.
(** The directory of the package that bindings are made for: one of that name,
    the one of this manifest if it is listed *)
Definition home (c : Cargo) (dir : cpath) : Prop :=
  exists p, In p (cg_packages c) /\ pk_name (mp_ref p) = cg_binding_crate_name c
    /\ ((exists q, In q (cg_packages c) /\ pk_name (mp_ref q) = cg_binding_crate_name c /\ mp_manifest_path q = cg_manifest_path c)
        -> mp_manifest_path p = cg_manifest_path c)
    /\ exists q, In q (cg_packages c) /\ mp_ref q = mp_ref p /\ dir = removelast (join_text [] (mp_manifest_path q)).
