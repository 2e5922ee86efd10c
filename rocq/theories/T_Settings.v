(** C50: a configuration file means what the documentation says. *)
Require Import Coq.Strings.String Coq.Lists.List Coq.Bool.Bool Coq.ZArith.ZArith.
From Verif Require Import Base M_Config M_Settings S_Settings P_Settings S_Heck.
Import ListNotations.
Open Scope string_scope.

(** C50.  A file is accepted exactly if it has only the keys of the tables and
    every key has a value it takes.  Then every setting is what its key says,
    and one without a key has its default. *)
Theorem C50_file : forall (H : Heck) t s, as_settings t = Some s <-> table file_table t s /\ config_path (se_config s) = None.
Proof. exact @settings_exact. Qed.
Print Assumptions C50_file.

(** C50.  A key that is not in the table is an error: no misspelt key is ignored. *)
Theorem C50_unknown_key : forall (H : Heck) l k v, In (k, v) l -> ~ In k (map key file_table) -> as_settings (TmTable l) = None.
Proof. exact @unknown_key. Qed.
Print Assumptions C50_unknown_key.
(** C50.  Nor is a key with a value it does not take: among these, a section
    with an unknown key. *)
Theorem C50_wrong_value : forall (H : Heck) l e v, In e file_table -> lookup (key e) l = Some v -> (forall a, ~ takes e v a) ->
  as_settings (TmTable l) = None.
Proof. exact @wrong_value. Qed.
Print Assumptions C50_wrong_value.
Theorem C50_unknown_key_in_section : forall R (entries : list (entry R)) l k v r, In (k, v) l -> ~ In k (map key entries) ->
  ~ table entries (TmTable l) r.
Proof. exact @unknown_in_section. Qed.
Print Assumptions C50_unknown_key_in_section.

(** C50.  An empty file, or none, means the defaults. *)
Theorem C50_defaults : forall (H : Heck), as_settings (TmTable []) = Some default_settings.
Proof. exact (fun H => eq_refl). Qed.
Print Assumptions C50_defaults.

(** A file with sections of every depth, words in several cases, the shorthand
    for crates to expand, and a map. *)
Definition file : toml := TmTable
  [("language", TmString "cxx"); ("line_length", TmInteger 80); ("documentation_style", TmString "Doxy"); ("line_endings", TmString "CRLF");
   ("include_guard", TmString "A_H"); ("sys_includes", TmArray [TmString "stdio.h"]);
   ("defines", TmTable [("unix", TmString "UNIX"); ("feature = x", TmString "X")]);
   ("export", TmTable [("item_types", TmArray [TmString "Enums"; TmString "functions"]); ("rename", TmTable [("A", TmString "B")]);
                       ("mangle", TmTable [("rename_types", TmString "prefix:m_")])]);
   ("enum", TmTable [("rename_variants", TmString "SCREAMING_SNAKE_CASE"); ("add_sentinel", TmBoolean true)]);
   ("parse", TmTable [("parse_deps", TmBoolean true); ("include", TmArray []); ("expand", TmArray [TmString "euclid"])]);
   ("cython", TmTable [("cimports", TmTable [("b", TmArray [TmString "y"]); ("a", TmArray [])])])].
Example C50_example : exists s, as_settings (H := ascii_heck) file = Some s /\ table (file_table (H := ascii_heck)) file s
  /\ language (se_config s) = Cxx /\ line_length (se_config s) = 80 /\ tab_width (se_config s) = 2
  /\ documentation_style (se_config s) = DocDoxy /\ line_endings (se_config s) = CRLF /\ documentation (se_config s) = true
  /\ include_guard_ (se_config s) = Some "A_H" /\ header (se_config s) = None
  /\ defines (se_config s) = [("unix", "UNIX"); ("feature = x", "X")]
  /\ ex_item_types (export (se_config s)) = [Enums; Functions]
  /\ rename_types (ex_mangle (export (se_config s))) = RPrefix "m_"
  /\ en_rename_variants (enumeration (se_config s)) = ScreamingSnakeCase /\ en_enum_class (enumeration (se_config s)) = true
  /\ parse (se_config s) = {| pa_parse_deps := true; pa_include := Some []; pa_exclude := []; pa_expand_crates := ["euclid"]; pa_extra_bindings := [] |}
  /\ se_expand s = {| xp_all_features := true; xp_default_features := true; xp_features := None; xp_profile := Debug |}
  /\ cy_cimports (cython (se_config s)) = [("a", []); ("b", ["y"])].
Proof.
  destruct (as_settings (H := ascii_heck) file) as [s|] eqn:E; [|vm_compute in E; discriminate].
  exists s. split; [reflexivity|]. split; [exact (proj1 (proj1 (C50_file ascii_heck file s) E))|].
  vm_compute in E. injection E as <-. vm_compute. repeat split.
Qed.
(** A misspelt key, one in a section, a word that is not one, a negative length. *)
Example C50_rejected : forall v, In v
  [TmTable [("langauge", TmString "C")]; TmTable [("enum", TmTable [("add_sentinal", TmBoolean true)])];
   TmTable [("language", TmString "Rust")]; TmTable [("line_length", TmInteger (-1))]; TmTable [("header", TmBoolean false)]] ->
  as_settings (H := ascii_heck) v = None.
Proof. intros v I. repeat (destruct I as [<- |I]; [vm_compute; reflexivity|]). contradiction. Qed.
