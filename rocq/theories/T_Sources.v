(** C13, C18, C32, C33, C34, C36 and C41 for a whole run: whatever source files
    and crates are read. *)
Require Import Coq.Strings.String Coq.Strings.Ascii Coq.Lists.List Coq.Bool.Bool Coq.Arith.Arith.
From Verif Require Import Base M_Config M_Cfg S_Cfg M_Type M_Ir M_Item M_Attr M_Syn M_Library M_Bindings M_Literal M_Loader M_Parser S_Parse S_Item S_Library S_Names
  S_Mono S_Keywords S_Suite S_Sources S_Style P_Loaded P_NamesLib P_MonoPipe P_Modules P_Fresh P_Sources P_SigSources T_Names T_Mono T_Members T_Parse.
Import ListNotations.
Open Scope string_scope.

(** ** C32, C33, C34: what comes from the sources *)

(** The functions bound are those of the given files, in the order given, then
    those of the crates; of each module exactly the callable functions that can
    be bound, in order. *)
Theorem C32_sources : forall (H : Heck) d c bitflags mfuel fuel std srcs lib l, parse_all d c bitflags mfuel fuel std srcs lib = Parsed l ->
  exists vss rs, sources_read d (parse c) srcs lib vss rs
    /\ ((forall v, In v (modules_read vss rs) -> Forall item_ok (vi_items v)) ->
        exists fss gs, Forall2 S_Parse.functions_of (concat vss) fss /\ library_functions (parse c) lib rs gs
          /\ l_functions l = (concat fss ++ gs)%list).
Proof. intros H d c bitflags mfuel fuel. exact (all_functions d c bitflags mfuel fuel). Qed.
Print Assumptions C32_sources.

(** Everything loaded is an item of a module that is read and exists when the
    item and the modules around it do (or it is one of the types of the standard
    library), and every type of every module is there. *)
Theorem C33_sources : forall (H : Heck) d c bitflags mfuel fuel std srcs lib l, parse_all d c bitflags mfuel fuel std srcs lib = Parsed l ->
  exists vss rs, sources_read d (parse c) srcs lib vss rs
    /\ ((forall v, In v (modules_read vss rs) -> plain_blocks v /\ exports_ok v) ->
        forall e, In e (entries (items_of l)) -> std = true /\ from_std e \/ exists v, In v (modules_read vss rs) /\ from_module v e)
    /\ forall v i k n, In v (modules_read vss rs) -> In i (vi_items v) -> should_skip_parsing (item_attrs i) = false -> defines_type i k n ->
         has_type k n (items_of l).
Proof. intros H d c bitflags mfuel fuel. exact (all_entries d c bitflags mfuel fuel). Qed.
Print Assumptions C33_sources.

(** The files recorded as read are those that were read, and the version is
    that of the crate. *)
Theorem C34_sources : forall (H : Heck) d c bitflags mfuel fuel std srcs lib l, parse_all d c bitflags mfuel fuel std srcs lib = Parsed l ->
  exists vss rs, sources_read d (parse c) srcs lib vss rs /\ l_config l = c
    /\ l_source_files l = map cpath_text (concat (map (fun vs => firsts [] (files_of vs)) vss)
         ++ firsts [] (concat (map (fun r => files_of (rd_visits r)) rs)) ++ srcs)%list
    /\ match lib with
       | None => l_package_version l = ""
       | Some cargo => exists p, binding_crate_ref cargo = Some p /\ pk_version p = Some (l_package_version l)
       end.
Proof.
  intros H d c bitflags mfuel fuel std srcs lib l Q.
  destruct (all_sound d c bitflags mfuel fuel std srcs lib l Q) as (vss & rs & _ & _ & R & _ & _ & _ & C & F & V). exists vss, rs. auto.
Qed.
Print Assumptions C34_sources.

(** The given files [x.rs] and [y.rs], then the crate [a] of [T_Parse] *)
Definition two_files : disk :=
  let files := [(["x.rs"], [ItemFn [no_mangle] true (sig_ "xf" [] None); ItemMod [cfg_ "unix"] "inside" (Some [ItemFn [no_mangle] true (sig_ "xg" [] None)]);
                            ItemStruct [repr_c_] "X" [] (FieldsNamed [fld_ "x" "u8"])]);
                (["y.rs"], [ItemStruct [repr_c_] "X" [] (FieldsNamed [fld_ "y" "u16"]); ItemFn [no_mangle] true (sig_ "yf" [] None)])] in
  let find_ p := find (fun f => if list_eq_dec string_dec (fst f) p then true else false) files in
  {| dk_exists := fun p => match find_ p with Some _ => true | None => dk_exists demo_disk p end;
     dk_items := fun p => match find_ p with Some f => Some (snd f) | None => dk_items demo_disk p end |}.
Example C32_C33_C34_sources_example : forall H : Heck,
  match parse_all two_files (deps_config ["c"]) false 9 9 false [["x.rs"]; ["y.rs"]] (Some demo_cargo) with
  | Parsed l => (map f_path (l_functions l), map (fun e => en_name e) (entries (items_of l)), l_source_files l, l_package_version l)
  | _ => ([], [], [], "")
  end
  = (["xf"; "xg"; "yf"; "mf"], ["D"; "X"; "S"; "M"; "N"; "B"; "O"; "xf"; "xg"; "yf"; "mf"],
     ["/x.rs"; "/y.rs"; "/a/src/lib.rs"; "/a/src/m.rs"; "/a/src/m/o/mod.rs"; "/a/src/n/deep.rs"; "/b/lib.rs"; "/x.rs"; "/y.rs"], "1").
Proof. intros. vm_compute. reflexivity. Qed.
Example C32_C33_sources_example_meets : exists vss, sources_read two_files src_parse_config [["x.rs"]; ["y.rs"]] None vss []
  /\ forall v, In v (modules_read vss []) -> Forall item_ok (vi_items v) /\ plain_blocks v /\ exports_ok v.
Proof.
  eexists. split.
  - constructor; [|reflexivity]. constructor; [|constructor; [|constructor]]; (eexists; split; [reflexivity|]).
    + apply vi_module. eapply (su_inline _ _ _ _ _ _ [] _ []); [apply vi_module; apply su_nil|apply su_nil].
    + apply vi_module. apply su_nil.
  - assert (N : attributes_ok [no_mangle]).
    { split; [intros a args [<- |[]]; discriminate|]. intros a b m n [<- |[]] _ [Q|Q]; discriminate. }
    intros v I. cbn in I. destruct I as [<- |[<- |[<- |[]]]]; cbn [vi_items]; (split; [repeat constructor; solve [exact N | constructor | apply N]|split]);
      intros i J; cbn in J; decompose [or] J; subst; try contradiction; try exact Logic.I; exact N.
Qed.

(** ** C13, C36, C18, C41 *)

Theorem C13_sources : forall (H : Heck) d c bitflags mfuel pfuel std srcs lib l fuel visit b,
  parse_all d c bitflags mfuel pfuel std srcs lib = Parsed l -> generate fuel visit l = Done b ->
  (forall ps r, In (ps, r) (written_refs b) ->
     r_name r = if is_generic_param ps (r_path r) then r_path r else export_rename (export (l_config l)) (r_path r))
  /\ (forall i, In i (b_items b) -> ic_export_name i = export_rename (export (l_config l)) (ic_path i))
  /\ Forall (fun c => exists c0, In c0 (to_vec (l_constants l)) /\ c_path c = c_path c0
       /\ lit_constants (c_value c) = map (export_rename (export (l_config l))) (lit_constants (c_value c0))
       /\ (c_associated_to c0 = None -> c_export_name c = export_rename (export (l_config l)) (c_path c0))) (b_constants b).
Proof.
  intros H d c bitflags mfuel pfuel std srcs lib l fuel visit b Q G. destruct (parsed_fresh d c bitflags mfuel pfuel std srcs lib l Q) as [A _].
  destruct (C13_references H fuel visit l b A G) as [R1 R2]. split; [exact R1|]. split; [exact R2|exact (C13_constants H fuel visit l b A G)].
Qed.
Print Assumptions C13_sources.
Theorem C36_sources : forall (H : Heck) d c bitflags mfuel pfuel std srcs lib l fuel visit l',
  parse_all d c bitflags mfuel pfuel std srcs lib = Parsed l -> prepare fuel visit l = Done l' ->
  Forall (fun r => r_kind r = if Language_eqb (language (l_config l)) M_Config.C && has_tag (style (l_config l)) then keyword_of l' (r_path r) else None)
    (lib_outer l').
Proof.
  intros H d c bitflags mfuel pfuel std srcs lib l fuel visit l' Q G. destruct (parsed_fresh d c bitflags mfuel pfuel std srcs lib l Q) as [A _].
  destruct (Language_eqb (language (l_config l)) M_Config.C) eqn:E1; [|apply (C36_no_keyword H fuel visit l l' A G); left; intro Z; rewrite Z in E1; discriminate].
  destruct (has_tag (style (l_config l))) eqn:E2; [|apply (C36_no_keyword H fuel visit l l' A G); right; exact E2].
  apply (C36_references H fuel visit l l' A G); [|exact E2]. destruct (language (l_config l)); try discriminate; reflexivity.
Qed.
Print Assumptions C36_sources.
Theorem C18_sources : forall (H : Heck) d c bitflags mfuel pfuel std srcs lib l fuel visit b,
  parse_all d c bitflags mfuel pfuel std srcs lib = Parsed l -> language (l_config l) <> Cxx -> generate fuel visit l = Done b ->
  (forall i, In i (b_items b) -> ic_generic_params i = [])
  /\ (forall i t g, In i (b_items b) -> In t (written_types i) -> uses g t -> ~ known l (gp_path g))
  /\ (forall f g, In f (b_functions b) -> function_uses f g -> ~ known l (gp_path g)).
Proof.
  intros H d c bitflags mfuel pfuel std srcs lib l fuel visit b Q. destruct (parsed_fresh d c bitflags mfuel pfuel std srcs lib l Q) as [A B].
  exact (C18_bindings H fuel visit l b A B).
Qed.
Print Assumptions C18_sources.
Theorem C41_sources : forall (H : Heck) d c bitflags mfuel pfuel std srcs lib l fuel visit b p n x,
  parse_all d c bitflags mfuel pfuel std srcs lib = Parsed l ->
  (language (l_config l) = Cxx \/ forall e0, In e0 (to_vec (l_enums l)) -> e_generic_params e0 = []) ->
  generate fuel visit l = Done b ->
  (forall e0, In e0 (to_vec (l_enums l)) -> e_path e0 = p -> In n (map v_name (e_variants e0))) ->
  (forall e, In e (to_vec (b_enum_map b)) -> e_path e = p -> variants_keep_names (l_config l) e) ->
  enum_exists b p = true -> to_known_assoc_constant p n = None ->
  exists e v, In e (to_vec (b_enum_map b)) /\ e_path e = p /\ In v (e_variants e) /\ v_name v = n
    /\ write_literal fuel b (LPath (Some (p, x)) n) = Done (M_Writer.write (seen_from_outside (l_config l) e v)).
Proof.
  intros H d c bitflags mfuel pfuel std srcs lib l fuel visit b p n x Q. destruct (parsed_fresh d c bitflags mfuel pfuel std srcs lib l Q) as [A B].
  exact (C41_variants H fuel visit l b p n x A B).
Qed.
Print Assumptions C41_sources.
(** A generic struct and a function that uses an instance of it *)
Definition generic_file : disk :=
  {| dk_exists := fun _ => false;
     dk_items := fun _ => Some [ItemStruct [repr_c_] "P" [SGType "T" None] (FieldsNamed [fld_ "a" "T"]);
       ItemFn [no_mangle] true (sig_ "f" [FnTyped (PatIdent "p") (SPtr true (SPath (SegPath [] "P" (AngleArgs [ArgType (T_Parse.named "u8")]))))] None)] |}.
Definition c_tags (c : Config) : Config := S_Suite.with_run (S_Suite.RunC false Tag) c.
Example C13_C18_C36_sources_example : forall H : Heck,
  match parse_all generic_file (c_tags (deps_config [])) false 9 9 true [["x.rs"]] None with
  | Parsed l => match generate 9 (fun x => x) l with
                | Done b => (map ic_path (b_items b), map (fun f => map a_ty (f_args f)) (b_functions b))
                | _ => ([], [])
                end
  | _ => ([], [])
  end
  = (["P_u8"], [[TPtr (TPath (GPath "P_u8" "P_u8" [] (Some DStruct))) false true false]]).
Proof. intros. vm_compute. reflexivity. Qed.
