(** C51: where the command takes its settings and sources from, and how it ends. *)
Require Import Coq.Strings.String Coq.Lists.List Coq.Bool.Bool Coq.ZArith.ZArith.
From Verif Require Import Base M_Config M_Type M_Ir M_Item M_Library M_Bindings M_Files M_Attr M_Syn M_Loader M_Parser M_Settings M_Cli.
From Verif Require Import S_Settings P_Settings S_Cli P_Cli S_Heck.
From Verif Require T_Parse T_Signature M_Backend T_Method.
Import ListNotations.
Open Scope string_scope.

(** C51.  An option on the command line wins over the configuration, and
    every setting no option is about stays as it was. *)
Theorem C51_options : forall (H : Heck) m before after, apply_config_overrides m before = Some after <-> overridden m before after.
Proof. exact @overrides_exact. Qed.
Print Assumptions C51_options.
(** … and it never fails on a word that the command accepts. *)
Theorem C51_options_accepted : forall m before, clap_accepts m = true -> exists after, apply_config_overrides m before = Some after.
Proof. exact overrides_defined. Qed.
Print Assumptions C51_options_accepted.

(** C51.  For a source file: it alone is read, with the settings of the file
    named by [--config], else of [cbindgen.toml] beside it, else the defaults,
    and then the options. *)
Theorem C51_source_file : forall (H : Heck) w m s srcs lib, ou_is_dir w (the_input w m) = false ->
  plan w m = Ran (s, srcs, lib) <->
  srcs = [the_input w m] /\ lib = None /\ exists s0, configured w m (removelast (the_input w m)) s0 /\ overridden m s0 s.
Proof. exact @plan_file. Qed.
Print Assumptions C51_source_file.
(** C51.  For a crate: cargo is asked about that crate, with the files and
    features given, and the settings are those beside the manifest of the
    package that bindings are made for. *)
Theorem C51_crate : forall (H : Heck) w m s srcs lib, ou_is_dir w (the_input w m) = true -> plan w m = Ran (s, srcs, lib) ->
  srcs = [] /\ exists c dir s0, lib = Some c
    /\ answered w m (the_input w m) (m_only_target m) (m_clean m) (se_expand s) c
    /\ (m_config m = None -> home c dir) /\ configured w m dir s0 /\ overridden m s0 s.
Proof. exact @plan_crate. Qed.
Print Assumptions C51_crate.
(** C51.  It only fails before reading sources when cargo has no answer, there
    is no such package, or the configuration cannot be read. *)
Theorem C51_fails : forall (H : Heck) w m, clap_accepts m = true ->
  (exists s srcs lib, plan w m = Ran (s, srcs, lib))
  \/ plan w m = Refused /\ ou_is_dir w (the_input w m) = true
     /\ (ou_metadata w (in_dir (the_input w m) "Cargo.toml") (m_metadata m) (m_only_target m) = None
         \/ m_crate m = None /\ ou_manifest w (in_dir (the_input w m) "Cargo.toml") = None)
  \/ plan w m = Crashed
     /\ ((exists dir, forall s, ~ configured w m dir s)
         \/ m_config m = None /\ exists c, answered w m (the_input w m) (m_only_target m) (m_clean m) default_expand c
            /\ forall p, In p (cg_packages c) -> pk_name (mp_ref p) <> cg_binding_crate_name c).
Proof. exact @plan_ends. Qed.
Print Assumptions C51_fails.

(** C51.  No file changes unless there are bindings and [-o] is given. *)
Theorem C51_changes : forall (H : Heck) w mfuel fuel gfuel visit emit world m s,
  (m_out m = None \/ (forall b, load_bindings w mfuel fuel gfuel visit m <> Ran b) \/ clap_accepts m = false) ->
  fst (fst (main w mfuel fuel gfuel visit emit world m s)) = s.
Proof. exact @main_changes. Qed.
Print Assumptions C51_changes.
(** C51.  Nothing is printed but bindings without [-o]. *)
Theorem C51_prints : forall (H : Heck) w mfuel fuel gfuel visit emit world m s,
  (forall b, load_bindings w mfuel fuel gfuel visit m = Ran b -> m_out m <> None \/ b_noop b = true) ->
  snd (fst (main w mfuel fuel gfuel visit emit world m s)) = "".
Proof. exact @main_prints. Qed.
Print Assumptions C51_prints.
(** C51.  Status 0 means that the sources and settings of the theorems above
    have bindings, and that their header is in the file or was printed. *)
Theorem C51_success : forall (H : Heck) w mfuel fuel gfuel visit emit world m s,
  let r := main w mfuel fuel gfuel visit emit world m s in
  snd r = Some 0 -> clap_accepts m = true /\ exists b, load_bindings w mfuel fuel gfuel visit m = Ran b
    /\ match m_out m with
       | None => m_verify m = false /\ (b_noop b = false -> snd (fst r) = sconcat (chunks (emit b)) /\ finished (emit b) = true)
       | Some p => (forall d, m_depfile m = Some d -> d <> p) -> (forall f, m_symfile m = Some f -> f <> p) -> b_noop b = false ->
           fst (fst r) p = Some (NFile (sconcat (chunks (emit b))))
           /\ (m_verify m = true -> s p = Some (NFile (sconcat (chunks (emit b)))))
       end.
Proof. exact @main_succeeds. Qed.
Print Assumptions C51_success.
Theorem C51_bindings : forall (H : Heck) w mfuel fuel gfuel visit m b, load_bindings w mfuel fuel gfuel visit m = Ran b <->
  exists s srcs lib, plan w m = Ran (s, srcs, lib) /\ build w mfuel fuel gfuel visit s srcs lib = Ran b.
Proof. exact @loaded_bindings. Qed.
Print Assumptions C51_bindings.
(** C51.  So what is written is the header of the bindings that come from these
    sources: C13, C32, C33 and C43 to C49 say what it declares. *)
Theorem C51_whole : forall (H : Heck) w mfuel fuel gfuel visit emit world m s, ou_running w = false ->
  let r := main w mfuel fuel gfuel visit emit world m s in
  snd r = Some 0 ->
  exists st srcs lib l l' b, plan w m = Ran (st, srcs, lib)
    /\ parse_all (ou_disk w) (se_config st) (se_bitflags st) mfuel fuel true srcs lib = Parsed l
    /\ prepare gfuel visit l = Done l' /\ finish l' = Done b
    /\ match m_out m with
       | None => snd (fst r) = sconcat (chunks (emit b))
       | Some p => (forall d, m_depfile m = Some d -> d <> p) -> (forall f, m_symfile m = Some f -> f <> p) ->
           fst (fst r) p = Some (NFile (sconcat (chunks (emit b))))
       end.
Proof. exact @main_whole. Qed.
Print Assumptions C51_whole.
(** C51.  A word that is none, or [--verify] without a file, is a usage error. *)
Theorem C51_usage : forall (H : Heck) w mfuel fuel gfuel visit emit world m s,
  clap_accepts m = false \/ m_verify m = true /\ m_out m = None ->
  main w mfuel fuel gfuel visit emit world m s = (s, "", Some 2).
Proof. exact @main_usage. Qed.
Print Assumptions C51_usage.

(** ** Examples *)

Definition no_options : Matches :=
  {| m_verify := false; m_config := None; m_lang := None; m_package_version := false; m_cpp_compat := false; m_only_target := false;
     m_style := None; m_d := false; m_clean := false; m_input := None; m_crate := None; m_out := None; m_lockfile := None;
     m_metadata := None; m_profile := None; m_depfile := None; m_symfile := None |}.
(** [cbindgen --lang c --cpp-compat -d --profile release demo.rs] *)
Definition some_options : Matches :=
  {| m_verify := false; m_config := None; m_lang := Some "c"; m_package_version := false; m_cpp_compat := true; m_only_target := false;
     m_style := None; m_d := true; m_clean := false; m_input := Some ["work"; "demo.rs"]; m_crate := None; m_out := None;
     m_lockfile := None; m_metadata := None; m_profile := Some "release"; m_depfile := None; m_symfile := None |}.
Definition slashes (p : cpath) : string := sconcat (map (fun x => "/" ++ x) p).
(** In [/work] there are a source file, a crate [a] with the dependency [b] on
    other targets, and a configuration. *)
Definition package_ (name dir : string) : metadata_package :=
  {| mp_ref := {| pk_name := name; pk_version := Some "1" |}; mp_dependencies := []; mp_targets := [(["lib"], [dir; "lib.rs"])];
     mp_manifest_path := "/" ++ dir ++ "/Cargo.toml" |}.
Definition outside (config : toml) : Outside :=
  {| ou_here := ["work"]; ou_text := slashes; ou_is_dir := fun p => Nat.ltb (List.length p) 2;
     ou_toml := fun p => if cpath_eqb p ["work"; "cbindgen.toml"] then Some (Some config) else None;
     ou_metadata := fun p _ only => if cpath_eqb p ["work"; "Cargo.toml"]
       then Some {| md_packages := if only then [package_ "a" "work"] else [package_ "a" "work"; package_ "b" "b"]; md_root := ["work"] |}
       else None;
     ou_lock := fun _ => None; ou_manifest := fun _ => Some "a";
     ou_cargo := fun clean args => if clean then Some [] else None;
     ou_disk := {| dk_exists := fun _ => false; dk_items := fun _ => Some T_Signature.signature_items |}; ou_running := false |}.
Definition tag_style : toml := TmTable [("style", TmString "tag"); ("language", TmString "C++"); ("tab_width", TmInteger 4%Z)].

Example C51_file_example : forall H : Heck, exists s, plan (outside tag_style) some_options = Ran (s, [["work"; "demo.rs"]], None)
  /\ ou_is_dir (outside tag_style) (the_input (outside tag_style) some_options) = false
  /\ language (se_config s) = M_Config.C /\ cpp_compat (se_config s) = true /\ style (se_config s) = Tag /\ tab_width (se_config s) = 4
  /\ pa_parse_deps (parse (se_config s)) = true /\ xp_profile (se_expand s) = Release /\ line_length (se_config s) = 100
  /\ config_path (se_config s) = Some "/work/cbindgen.toml".
Proof. intros H. eexists. vm_compute. repeat split. Qed.
Example C51_crate_example : forall H : Heck, exists s c, plan (outside tag_style) no_options = Ran (s, [], Some c)
  /\ ou_is_dir (outside tag_style) (the_input (outside tag_style) no_options) = true
  /\ cg_binding_crate_name c = "a" /\ map mp_ref (cg_packages c) = [{| pk_name := "a"; pk_version := Some "1" |}; {| pk_name := "b"; pk_version := Some "1" |}]
  /\ home c ["work"] /\ style (se_config s) = Tag /\ config_path (se_config s) = Some "/work/cbindgen.toml".
Proof.
  intros H. eexists _, _. split; [vm_compute; reflexivity|]. split; [reflexivity|]. split; [reflexivity|]. split; [reflexivity|].
  split; [|split; reflexivity].
  exists (package_ "a" "work"). cbn. split; [left; reflexivity|]. split; [reflexivity|]. split; [intros _; reflexivity|].
  exists (package_ "a" "work"). split; [left; reflexivity|]. split; reflexivity.
Qed.
Example C51_arguments : forall v,
  expansion "/work/Cargo.toml" {| pk_name := "a"; pk_version := v |}
    {| xp_all_features := false; xp_default_features := false; xp_features := Some ["x"; "y"]; xp_profile := Release |} =
  ["rustc"; "--lib"; "--manifest-path"; "/work/Cargo.toml"; "--features"; "x y"; "--no-default-features"; "--release";
   "-p"; match v with Some v => "a:" ++ v | None => "a" end; "--verbose"; "--"; "-Zunpretty=expanded"].
Proof. intros [v|]; reflexivity. Qed.
(** The whole run prints the header. *)
Definition header_text {H : Heck} (b : Bindings) : generation :=
  match M_Backend.bindings_text 20 b with Done t => {| chunks := [t]; finished := true |} | _ => {| chunks := []; finished := false |} end.
Definition calm (b : Bindings) : World :=
  {| ok_out := fun _ => true; ok_dep := fun _ => true; ok_sym := fun _ => true; sym_early := 0; dep_pieces := fun _ => None |}.
Example C51_run : forall (H : Heck) s,
  main (outside (TmTable [("style", TmString "tag"); ("no_includes", TmBoolean true)])) 9 9 9 (fun l => l) header_text calm
    {| m_verify := false; m_config := None; m_lang := Some "c"; m_package_version := false; m_cpp_compat := false; m_only_target := false;
       m_style := None; m_d := false; m_clean := false; m_input := Some ["work"; "demo.rs"]; m_crate := None; m_out := None;
       m_lockfile := None; m_metadata := None; m_profile := None; m_depfile := None; m_symfile := None |} s =
  (s, T_Method.printed ["struct Foo {"; "  uint8_t x;"; "};"; "";
     "struct Foo *make(const uint8_t *p, struct Foo *int_, bool (*cb)(const int (*in)[3]));"; "";
     "uintptr_t foo_len(const struct Foo *self);"; ""; "void stop(const char *fmt, ...);"], Some 0).
Proof. intros. vm_compute. reflexivity. Qed.
(** A configuration that cannot be read is a panic, not an error message. *)
Example C51_bad_configuration : forall H : Heck,
  plan (outside (TmTable [("langauge", TmString "C")])) no_options = Crashed.
Proof. intros. vm_compute. reflexivity. Qed.

(** ** Where it fails *)

(** [only_target_dependencies = true] in the file changes nothing: cargo is
    asked for the dependencies on all targets.  The library asks as the file says. *)
Theorem C51_only_target_refuted : forall H : Heck,
  let w := outside (TmTable [("only_target_dependencies", TmBoolean true)]) in
  exists s c d md, plan w no_options = Ran (s, [], Some c) /\ se_only_target s = true
    /\ ou_metadata w ["work"; "Cargo.toml"] None true = Some md /\ List.length (md_packages md) = 1 /\ List.length (cg_packages c) = 2
    /\ builder_cargo w ["work"] None None s = Some d /\ cg_packages d = md_packages md.
Proof. intros H w. eexists _, _, _, _. vm_compute. repeat split. Qed.
Print Assumptions C51_only_target_refuted.
(** [parse.clean = true] neither: crates are expanded in the usual target
    directory. *)
Theorem C51_clean_refuted : forall H : Heck,
  let w := outside (TmTable [("parse", TmTable [("clean", TmBoolean true)])]) in
  exists s c d, plan w no_options = Ran (s, [], Some c) /\ se_clean s = true
    /\ (forall p, cg_expand c p = ou_cargo w false (expansion "/work/Cargo.toml" p (se_expand s)))
    /\ builder_cargo w ["work"] None None s = Some d
    /\ (forall p, cg_expand d p = ou_cargo w true (expansion "/work/Cargo.toml" p (se_expand s)))
    /\ forall p, cg_expand c p <> cg_expand d p.
Proof. intros H w. eexists _, _, _. split; [vm_compute; reflexivity|]. split; [reflexivity|]. repeat split. discriminate. Qed.
Print Assumptions C51_clean_refuted.
(** [all_features] is documented as ignored when [features] is set. *)
Theorem C51_features_refuted : forall H : Heck,
  let w := outside (TmTable [("parse", TmTable [("expand", TmTable [("all_features", TmBoolean true); ("features", TmArray [TmString "x"])])])]) in
  exists s c, plan w no_options = Ran (s, [], Some c) /\ xp_features (se_expand s) = Some ["x"]
    /\ forall p, In "--all-features" (expansion (cg_manifest_path c) p (se_expand s)).
Proof.
  intros H w. eexists _, _. split; [vm_compute; reflexivity|]. split; [reflexivity|]. intros p. cbn. tauto.
Qed.
Print Assumptions C51_features_refuted.
