(** C53: the interface for build scripts. *)
Require Import Coq.Strings.String Coq.Lists.List Coq.Bool.Bool Coq.ZArith.ZArith.
From Verif Require Import Base M_Config M_Type M_Ir M_Item M_Library M_Bindings M_Files M_Attr M_Syn M_Loader M_Parser M_Settings M_Cli M_Builder.
From Verif Require Import S_Settings S_Cli S_Builder P_Builder T_Cli.
From Verif Require T_Parse T_Signature M_Backend T_Method.
Import ListNotations.
Open Scope string_scope.

(** C53.  Each call of the builder gives its setting the value it is called
    with, or adds it to a list or map, and changes nothing else. *)
Theorem C53_call : forall (H : Heck) debug c before after, apply_call debug c before = Some after -> did c before after.
Proof. exact @call_did. Qed.
Print Assumptions C53_call.
(** C53.  A call fails only where debug assertions are on and a crate or lock
    file has been given before. *)
Theorem C53_refused : forall debug c b, apply_call debug c b = None <-> debug = true /\ twice c b.
Proof. exact call_refused. Qed.
Print Assumptions C53_refused.
(** C53.  Of the calls about one thing the last one counts. *)
Theorem C53_last : forall (H : Heck) debug before c after b b', apply_calls debug (before ++ c :: after) b = Some b' ->
  Forall (fun d => ~ touches d c) after -> exists b1, apply_calls debug before b = Some b1 /\ value_now c b1 b'.
Proof. exact @last_counts. Qed.
Print Assumptions C53_last.
(** C53.  The order of two calls about different things does not matter. *)
Theorem C53_order : forall debug c d b b', ~ touches d c ->
  apply_calls debug [c; d] b = Some b' -> apply_calls debug [d; c] b = Some b'.
Proof. exact order_free. Qed.
Print Assumptions C53_order.
(** C53.  A new builder has the defaults of an empty configuration, no sources
    and no crate, and knows the standard types. *)
Theorem C53_new : forall H : Heck, defaults (bu_settings Builder_new) /\ bu_srcs Builder_new = [] /\ bu_lib Builder_new = None
  /\ bu_std_types Builder_new = true /\ bu_lockfile Builder_new = None.
Proof. exact @new_defaults. Qed.
Print Assumptions C53_new.

(** C53.  The bindings come from the files and the crate that were given, read
    with the settings there are, and cargo is asked with them too. *)
Theorem C53_generate : forall (H : Heck) w mfuel fuel gfuel visit b x, ou_running w = false ->
  Builder_generate w mfuel fuel gfuel visit b = Ran x ->
  exists lib l l', script_library w b lib
    /\ parse_all (ou_disk w) (se_config (bu_settings b)) (se_bitflags (bu_settings b)) mfuel fuel (bu_std_types b) (bu_srcs b) lib = Parsed l
    /\ prepare gfuel visit l = Done l' /\ finish l' = Done x.
Proof. exact @generated. Qed.
Print Assumptions C53_generate.
(** C53.  [generate(dir)] is the builder for that crate with the settings of its
    [cbindgen.toml], or the defaults if there is none; it fails if the file
    cannot be read. *)
Theorem C53_crate : forall (H : Heck) w mfuel fuel gfuel visit debug dir x,
  generate_crate w mfuel fuel gfuel visit debug dir = Ran x <->
  exists s, (says w (in_dir dir "cbindgen.toml") s \/ ou_toml w (in_dir dir "cbindgen.toml") = None /\ defaults s)
    /\ Builder_generate w mfuel fuel gfuel visit
         {| bu_settings := s; bu_srcs := []; bu_lib := Some (dir, None); bu_std_types := true; bu_lockfile := None |} = Ran x.
Proof. exact @crate_generated. Qed.
Print Assumptions C53_crate.
(** C53.  Inside another run, whatever the sources are, there is no error,
    nothing is written and no header is called changed. *)
Theorem C53_recursive : forall (H : Heck) w mfuel fuel gfuel visit b, ou_running w = true ->
  exists x, Builder_generate w mfuel fuel gfuel visit b = Ran x
    /\ forall ok g s p, run_write ok (b_noop x) g s p = (s, Done false).
Proof. exact @generated_inside. Qed.
Print Assumptions C53_recursive.

(** ** Examples *)

(** [Builder::new().with_config(…).with_language(C).with_style(Tag)…] *)
Definition script : list call :=
  [WithStyle Both; WithLanguage M_Config.C; WithNoIncludes; WithInclude "a.h"; WithDefine "feature" "x" "HAVE_X"; WithHeader "// old";
   RenameItem "Foo" "Bar"; WithInclude "b.h"; WithStyle Tag; WithHeader "// new"; WithSrc ["work"; "demo.rs"]; RenameItem "Foo" "Baz"].
Example C53_script : exists b, apply_calls true script Builder_new = Some b
  /\ includes_ (se_config (bu_settings b)) = ["a.h"; "b.h"] /\ style (se_config (bu_settings b)) = Tag
  /\ header (se_config (bu_settings b)) = Some "// new" /\ bu_srcs b = [["work"; "demo.rs"]]
  /\ lookup "Foo" (ex_rename (export (se_config (bu_settings b)))) = Some "Baz"
  /\ defines (se_config (bu_settings b)) = [("feature = x", "HAVE_X")].
Proof. eexists. vm_compute. repeat split. Qed.
Example C53_last_example : exists before after, script = (before ++ WithStyle Tag :: after)%list
  /\ Forall (fun d => ~ touches d (WithStyle Tag)) after /\ In (WithStyle Both) before.
Proof.
  exists (firstn 8 script), (skipn 9 script). split; [reflexivity|]. split; [|left; reflexivity].
  repeat (apply Forall_cons; [intros [T|T]; [discriminate T|exact T]|]). apply Forall_nil.
Qed.
(** The header a script gets *)
Definition script_header {H : Heck} (w : Outside) (debug : bool) (l : list call) : option string :=
  match apply_calls debug l Builder_new with
  | Some b => match Builder_generate w 9 9 9 (fun l => l) b with
              | Ran x => match M_Backend.bindings_text 20 x with Done t => Some t | _ => None end
              | _ => None
              end
  | None => None
  end.
Example C53_header : forall H : Heck, script_header (outside tag_style) true script =
  Some (T_Method.printed ["// new"; ""; "#include ""a.h"""; "#include ""b.h"""; "";
     "struct Baz {"; "  uint8_t x;"; "};"; "";
     "struct Baz *make(const uint8_t *p, struct Baz *int_, bool (*cb)(const int (*in)[3]));"; "";
     "uintptr_t foo_len(const struct Baz *self);"; ""; "void stop(const char *fmt, ...);"]).
Proof. intros. vm_compute. reflexivity. Qed.
(** [generate] reads the configuration beside the manifest. *)
Example C53_crate_example : forall H : Heck,
  match generate_crate (outside (TmTable [("style", TmString "tag"); ("language", TmString "C"); ("no_includes", TmBoolean true)])) 9 9 9 (fun l => l) true ["work"] with
  | Ran x => Some (style (b_config x), language (b_config x), map f_path (b_functions x))
  | _ => None
  end = Some (Tag, M_Config.C, ["make"; "foo_len"; "stop"]).
Proof. intros. vm_compute. reflexivity. Qed.
(** The second crate: with debug assertions a panic, without them it replaces
    the first. *)
Example C53_two_crates : apply_calls true [WithCrate ["a"]; WithCrate ["b"]] Builder_new = None
  /\ exists b, apply_calls false [WithCrate ["a"]; WithCrate ["b"]] Builder_new = Some b /\ bu_lib b = Some (["b"], None).
Proof. split; [reflexivity|]. eexists. split; reflexivity. Qed.
(** A configuration given late undoes the calls before it: [touches] is needed
    in [C53_last] and [C53_order]. *)
Example C53_config_last : forall s, exists b, apply_calls true [WithHeader "// lost"; WithConfig s] Builder_new = Some b
  /\ bu_settings b = s /\ touches (WithConfig s) (WithHeader "// lost").
Proof. intros s. eexists. split; [reflexivity|]. split; [destruct s; reflexivity|right; exact Logic.I]. Qed.
