(** What the calls of a build script mean: the setting each one is about, the
    value it has afterwards, and that nothing else changes. *)
Require Import Coq.Strings.String Coq.Lists.List Coq.Bool.Bool.
From Verif Require Import Base M_Config M_Bindings M_Files M_Parser M_Settings M_Cli M_Builder S_Settings S_Cli.
Import ListNotations.
Open Scope string_scope.

(** A setting is named by its key in a configuration file. *)
Inductive subject := Setting (keys : list string) | AllSettings | StandardTypes | SourceFiles | TheCrate | TheLockFile.
Definition about (c : call) : subject :=
  match c with
  | WithHeader _ => Setting ["header"]
  | WithNoIncludes => Setting ["no_includes"]
  | WithInclude _ => Setting ["includes"]
  | WithSysInclude _ => Setting ["sys_includes"]
  | WithAfterInclude _ => Setting ["after_includes"]
  | WithTrailer _ => Setting ["trailer"]
  | WithIncludeGuard _ => Setting ["include_guard"]
  | WithPragmaOnce _ => Setting ["pragma_once"]
  | WithAutogenWarning _ => Setting ["autogen_warning"]
  | WithIncludeVersion _ => Setting ["include_version"]
  | WithNamespace _ => Setting ["namespace"]
  | WithNamespaces _ => Setting ["namespaces"]
  | WithUsingNamespaces _ => Setting ["using_namespaces"]
  | WithBraces _ => Setting ["braces"]
  | WithLineLength _ => Setting ["line_length"]
  | WithTabWidth _ => Setting ["tab_width"]
  | WithLanguage _ => Setting ["language"]
  | WithCppCompat _ => Setting ["cpp_compat"]
  | WithStyle _ => Setting ["style"]
  | IncludeItem _ => Setting ["export"; "include"]
  | ExcludeItem _ => Setting ["export"; "exclude"]
  | RenameItem _ _ => Setting ["export"; "rename"]
  | WithItemPrefix _ => Setting ["export"; "prefix"]
  | WithParseDeps _ => Setting ["parse"; "parse_deps"]
  | WithParseInclude _ => Setting ["parse"; "include"]
  | WithParseExclude _ => Setting ["parse"; "exclude"]
  | WithParseExpand _ => Setting ["parse"; "expand"; "crates"]
  | WithParseExpandAllFeatures _ => Setting ["parse"; "expand"; "all_features"]
  | WithParseExpandDefaultFeatures _ => Setting ["parse"; "expand"; "default_features"]
  | WithParseExpandFeatures _ => Setting ["parse"; "expand"; "features"]
  | WithParseExpandProfile _ => Setting ["parse"; "expand"; "profile"]
  | WithParseExtraBindings _ => Setting ["parse"; "extra_bindings"]
  | WithOnlyTargetDependencies _ => Setting ["only_target_dependencies"]
  | WithDocumentation _ => Setting ["documentation"]
  | WithTargetOsDefine _ _ | WithDefine _ _ _ => Setting ["defines"]
  | WithConfig _ => AllSettings
  | WithStdTypes _ => StandardTypes
  | WithSrc _ => SourceFiles
  | WithCrate _ | WithCrateAndName _ _ => TheCrate
  | WithLockfile _ => TheLockFile
  | WithLineEndings _ => Setting ["line_endings"]
  end.

(** A list gets one more element at its end, a map a new value for one key. *)
Definition longer {A} (before : list A) (x : A) (after : list A) : Prop := after = (before ++ [x])%list.
Definition maps (before : list (string * string)) (k v : string) (after : list (string * string)) : Prop :=
  forall n, lookup n after = if String.eqb n k then Some v else lookup n before.
(** The value there is after the call, given that of before. *)
Definition value_now (c : call) (before after : Builder) : Prop :=
  let a := bu_settings after in
  let b := bu_settings before in
  let c0 := se_config b in
  let c1 := se_config a in
  match c with
  | WithHeader s => header c1 = Some s
  | WithNoIncludes => no_includes c1 = true
  | WithInclude s => longer (includes_ c0) s (includes_ c1)
  | WithSysInclude s => longer (sys_includes_ c0) s (sys_includes_ c1)
  | WithAfterInclude s => after_includes c1 = Some s
  | WithTrailer s => trailer c1 = Some s
  | WithIncludeGuard s => include_guard_ c1 = Some s
  | WithPragmaOnce f => pragma_once c1 = f
  | WithAutogenWarning s => autogen_warning c1 = Some s
  | WithIncludeVersion f => include_version c1 = f
  | WithNamespace s => namespace c1 = Some s
  | WithNamespaces l => namespaces c1 = Some l
  | WithUsingNamespaces l => using_namespaces c1 = Some l
  | WithBraces x => braces c1 = x
  | WithLineLength n => line_length c1 = n
  | WithTabWidth n => tab_width c1 = n
  | WithLanguage x => language c1 = x
  | WithCppCompat f => cpp_compat c1 = f
  | WithStyle x => style c1 = x
  | IncludeItem s => longer (ex_include (export c0)) s (ex_include (export c1))
  | ExcludeItem s => longer (ex_exclude (export c0)) s (ex_exclude (export c1))
  | RenameItem from to => maps (ex_rename (export c0)) from to (ex_rename (export c1))
  | WithItemPrefix s => ex_prefix (export c1) = Some s
  | WithParseDeps f => pa_parse_deps (parse c1) = f
  | WithParseInclude l => pa_include (parse c1) = Some l
  | WithParseExclude l => pa_exclude (parse c1) = l
  | WithParseExpand l => pa_expand_crates (parse c1) = l
  | WithParseExpandAllFeatures f => xp_all_features (se_expand a) = f
  | WithParseExpandDefaultFeatures f => xp_default_features (se_expand a) = f
  | WithParseExpandFeatures l => xp_features (se_expand a) = Some l
  | WithParseExpandProfile x => xp_profile (se_expand a) = x
  | WithParseExtraBindings l => pa_extra_bindings (parse c1) = l
  | WithOnlyTargetDependencies f => se_only_target a = f
  | WithDocumentation f => documentation c1 = f
  | WithTargetOsDefine platform define => maps (defines c0) ("target_os = " ++ platform) define (defines c1)
  | WithDefine k v define => maps (defines c0) (k ++ " = " ++ v) define (defines c1)
  | WithConfig s => a = s
  | WithStdTypes f => bu_std_types after = f
  | WithSrc p => longer (bu_srcs before) p (bu_srcs after)
  | WithCrate dir => bu_lib after = Some (dir, None)
  | WithCrateAndName dir name => bu_lib after = Some (dir, Some name)
  | WithLockfile p => bu_lockfile after = Some p
  | WithLineEndings x => line_endings c1 = x
  end.

(** Every setting but the one with these keys is as before. *)
Definition only {H : Heck} (keys : list string) (b a : Settings) : Prop :=
  config_path (se_config a) = config_path (se_config b) /\
  match keys with
  | [k] => kept_but [k] file_table b a
  | ["export"; k] => kept_but ["export"] file_table b a /\ kept_but [k] export_table (export (se_config b)) (export (se_config a))
  | "parse" :: r =>
      let parsing s := (parse (se_config s), se_clean s, se_expand s) in
      kept_but ["parse"] file_table b a /\
      match r with
      | [k] => kept_but [k] parse_table (parsing b) (parsing a)
      | ["expand"; k] => kept_but ["expand"] parse_table (parsing b) (parsing a)
          /\ kept_but [k] expand_table (pa_expand_crates (parse (se_config b)), se_expand b) (pa_expand_crates (parse (se_config a)), se_expand a)
      | _ => False
      end
  | _ => False
  end.
Record did {H : Heck} (c : call) (before after : Builder) : Prop := {
  di_value : value_now c before after;
  di_settings : match about c with
                | Setting keys => only keys (bu_settings before) (bu_settings after)
                | AllSettings => True
                | _ => bu_settings after = bu_settings before
                end;
  di_std : about c <> StandardTypes -> bu_std_types after = bu_std_types before;
  di_srcs : about c <> SourceFiles -> bu_srcs after = bu_srcs before;
  di_crate : about c <> TheCrate -> bu_lib after = bu_lib before;
  di_lock : about c <> TheLockFile -> bu_lockfile after = bu_lockfile before
}.
(** A second crate or lock file: only an assertion of debug builds forbids it. *)
Definition twice (c : call) (b : Builder) : Prop :=
  about c = TheCrate /\ bu_lib b <> None \/ about c = TheLockFile /\ bu_lockfile b <> None.

(** Two calls are about one thing, or one is about all settings. *)
Definition touches (d c : call) : Prop :=
  about d = about c \/ match about d, about c with Setting _, AllSettings | AllSettings, Setting _ => True | _, _ => False end.

(** ** What cargo is asked by a build script *)
(** Unlike the command, which takes the options for it: whether dependencies of
    other platforms count and whether a crate is expanded in a new directory is
    in the settings, and the lock file is read only if dependencies are wanted. *)
Record script_answered (w : Outside) (b : Builder) (dir : cpath) (name : option string) (c : Cargo) : Prop := {
  sa_metadata : exists md, ou_metadata w (in_dir dir "Cargo.toml") None (se_only_target (bu_settings b)) = Some md
    /\ cg_packages c = md_packages md
    /\ cg_lock c = if pa_parse_deps (parse (se_config (bu_settings b)))
                   then ou_lock w match bu_lockfile b with Some p => p | None => in_dir (md_root md) "Cargo.lock" end
                   else None;
  sa_crate : Some (cg_binding_crate_name c) = match name with Some n => Some n | None => ou_manifest w (in_dir dir "Cargo.toml") end;
  sa_manifest : cg_manifest_path c = ou_text w (in_dir dir "Cargo.toml");
  sa_expand : forall p, cg_expand c p =
    ou_cargo w (se_clean (bu_settings b)) (expansion (ou_text w (in_dir dir "Cargo.toml")) p (se_expand (bu_settings b)))
}.
(** The crate, if one is given *)
Definition script_library (w : Outside) (b : Builder) (lib : option Cargo) : Prop :=
  match bu_lib b with
  | None => lib = None
  | Some (dir, name) => exists c, lib = Some c /\ script_answered w b dir name c
  end.
