(** C32 (exported functions), C33 (conditions of items), C34 (crates), C40 (files of modules). *)
Require Import Coq.Strings.String Coq.Strings.Ascii Coq.Lists.List Coq.Bool.Bool Coq.Arith.Arith Coq.NArith.NArith Coq.micromega.Lia.
From Verif Require Import Base M_Config M_Cfg S_Cfg M_Type M_Ir M_Item M_Attr M_Syn M_Library M_Bindings M_Loader M_Parser S_Parse
  P_Exports P_Modules P_Entries P_Crates S_Hints P_Hints.
Import ListNotations.
Open Scope string_scope.

(** ** C32 *)

(** The functions found in a module are those other languages can call, in
    order, each with its symbol, its parameters, its result and the conditions of
    the modules around it, of its block and its own.  Only functions that
    cannot be bound are missing, and there are no others. *)
Theorem C32_module : forall (H : Heck) ld mod_cfg items p q, top_level ld = true -> Forall item_ok items ->
  load_syn_crate_mod ld mod_cfg items p = Some q ->
  exists ds fs, callables items ds /\ bound (fun rho => cfg_eval_opt rho mod_cfg) ds fs
    /\ pr_functions q = (pr_functions p ++ fs)%list.
Proof.
  intros H ld mod_cfg items p q T O Q. destruct (module_functions ld mod_cfg items p q T O Q) as [ds [C [fs F]]]. exists ds, fs. tauto.
Qed.
(** What can be called is determined, and so is what cannot be bound. *)
Theorem C32_callable_unique : forall items, Forall item_ok items -> forall d1 d2, callables items d1 -> callables items d2 -> d1 = d2.
Proof. exact callables_unique. Qed.
Theorem C32_bound_or_unsupported : forall here d f, binds here d f -> ~ unsupported d.
Proof. exact bound_not_unsupported. Qed.
(** The items left out are those that say so: tests, and what is marked with
    the doc line [cbindgen:ignore]. *)
Theorem C32_left_out : forall attrs, should_skip_parsing attrs = true <-> left_out attrs.
Proof. exact skip_left_out. Qed.
Print Assumptions C32_left_out.
(** In other crates than the one asked for and the extra ones nothing is bound. *)
Theorem C32_other_crates : forall (H : Heck) ld mod_cfg items p q, top_level ld = false ->
  load_syn_crate_mod ld mod_cfg items p = Some q -> pr_functions q = pr_functions p.
Proof. intros H ld mod_cfg items p q. exact (module_none ld mod_cfg items p q). Qed.
(** The same for a whole library: module by module, crate by crate. *)
Theorem C32_library : forall (H : Heck) d cargo config bitflags mfuel fuel out sources v,
  parse_lib d cargo config bitflags mfuel fuel = Parsed (out, sources, v) ->
  exists p rs, binding_crate_ref cargo = Some p /\ crates_read d cargo (parse config) [] [] p rs
    /\ ((forall r w, In r rs -> In w (rd_visits r) -> Forall item_ok (vi_items w)) ->
        exists fsss, Forall2 (crate_functions cargo (parse config)) rs fsss /\ pr_functions out = concat (concat fsss)).
Proof.
  intros H d cargo config bitflags mfuel fuel out sources v Q. unfold parse_lib in Q.
  destruct (binding_crate_ref cargo) as [p|]; [|discriminate].
  destruct (parse_crate d cargo config bitflags mfuel fuel p state_new) as [s| | |] eqn:E; try discriminate.
  destruct (pk_version p); inversion Q; subst.
  destruct (crate_sound d cargo config bitflags mfuel fuel p state_new s E ltac:(intros [])) as [rs [o [R [L ->]]]].
  exists p, rs. split; [reflexivity|]. split; [exact R|]. intro X.
  exact (crates_functions cargo config bitflags rs _ _ X L).
Qed.

(** ** C33 *)

(** Reading a crate visits each of its modules once with the conditions of the
    modules around it; what is found comes from an item of a module, and is there
    exactly when these modules, the block the item is in and the item itself
    are.  Nothing found before is lost, and the conditions and crates that were
    current before are current again. *)
Theorem C33_conditions : forall (H : Heck) d ld fuel path s s', parse_mod d ld fuel path 0 s = Parsed s' ->
  exists vs, crate_visits d path (ps_cfgs s) vs
    /\ ((forall v, In v vs -> plain_blocks v /\ exports_ok v) ->
        forall e, In e (entries (ps_out s')) -> In e (entries (ps_out s)) \/ exists v, In v vs /\ from_module v e)
    /\ (forall e, In e (entries (ps_out s)) -> In e (entries (ps_out s')))
    /\ ps_cfgs s' = ps_cfgs s /\ ps_crates s' = ps_crates s.
Proof.
  intros H d ld fuel path s s' Q. destruct (parse_mod_sound d ld fuel path s s' Q) as [vs [out [V [L ->]]]]. exists vs.
  split; [exact V|]. split; [intro X; exact (proj1 (visits_grow ld vs _ _ X L))|]. split; [|split; reflexivity].
  intros e I. assert (G : kept (ps_out s) out).
  { eapply all_kept; [|exact L]. intros v p q E. unfold load_syn_crate_mod in E.
    destruct (load_all (load_item ld (Cfg_join (vi_guards v))) (vi_items v) p) as [p1|] eqn:E1; [|discriminate].
    eapply grows_trans; (eapply all_kept; [|eassumption]); intros x a b; [apply item_kept|apply impl_kept]. }
  exact (proj2 G e I).
Qed.
(** The modules visited are determined by the files. *)
Theorem C33_visits_unique : forall d path gs vs ws, crate_visits d path gs vs -> crate_visits d path gs ws -> vs = ws.
Proof.
  intros d path gs vs ws [i [D V]] [j [E W]]. rewrite D in E. inversion E; subst. exact (proj1 (visits_unique d) _ _ _ _ _ V _ W).
Qed.
(** The same for a whole library; the conditions of dependencies count too. *)
Theorem C33_library : forall (H : Heck) d cargo config bitflags mfuel fuel out sources v,
  parse_lib d cargo config bitflags mfuel fuel = Parsed (out, sources, v) ->
  exists p rs, binding_crate_ref cargo = Some p /\ crates_read d cargo (parse config) [] [] p rs
    /\ ((forall r w, In r rs -> In w (rd_visits r) -> plain_blocks w /\ exports_ok w) ->
        forall e, In e (entries out) -> from_crates rs e).
Proof.
  intros H d cargo config bitflags mfuel fuel out sources v Q. unfold parse_lib in Q.
  destruct (binding_crate_ref cargo) as [p|]; [|discriminate].
  destruct (parse_crate d cargo config bitflags mfuel fuel p state_new) as [s| | |] eqn:E; try discriminate.
  destruct (pk_version p); inversion Q; subst.
  destruct (crate_sound d cargo config bitflags mfuel fuel p state_new s E ltac:(intros [])) as [rs [o [R [L ->]]]].
  exists p, rs. split; [reflexivity|]. split; [exact R|]. intros X e I.
  destruct (proj1 (crates_grow cargo config bitflags rs _ _ X L) e I) as [[]|F]. exact F.
Qed.
(** Every struct, union, enum and type alias of every module of every crate is
    found, as such or as an opaque type. *)
Theorem C33_types_found : forall (H : Heck) d cargo config bitflags mfuel fuel out sources v,
  parse_lib d cargo config bitflags mfuel fuel = Parsed (out, sources, v) ->
  exists p rs, binding_crate_ref cargo = Some p /\ crates_read d cargo (parse config) [] [] p rs
    /\ forall r w i k n, In r rs -> In w (rd_visits r) -> In i (vi_items w) -> should_skip_parsing (item_attrs i) = false ->
         defines_type i k n -> has_type k n out.
Proof.
  intros H d cargo config bitflags mfuel fuel out sources v Q. unfold parse_lib in Q.
  destruct (binding_crate_ref cargo) as [p|]; [|discriminate].
  destruct (parse_crate d cargo config bitflags mfuel fuel p state_new) as [s| | |] eqn:E; try discriminate.
  destruct (pk_version p); inversion Q; subst.
  destruct (crate_sound d cargo config bitflags mfuel fuel p state_new s E ltac:(intros [])) as [rs [o [R [L ->]]]].
  exists p, rs. split; [reflexivity|]. split; [exact R|].
  exact (proj2 (proj2 (crates_present cargo config bitflags rs _ _ keyed_new L))).
Qed.

(** ** C34 *)

(** The crates read are the one asked for and what it depends on: each name
    once, only allowed ones, reached through allowed ones, with everything they
    depend on that is allowed; and the source files listed are theirs, each once. *)
Theorem C34_crates : forall (H : Heck) d cargo config bitflags mfuel fuel out sources v,
  parse_lib d cargo config bitflags mfuel fuel = Parsed (out, sources, v) ->
  exists p rs, binding_crate_ref cargo = Some p /\ pk_version p = Some v /\ crates_read d cargo (parse config) [] [] p rs
    /\ sources = firsts [] (concat (map (fun r => files_of (rd_visits r)) rs)).
Proof.
  intros H d cargo config bitflags mfuel fuel out sources v Q. unfold parse_lib in Q.
  destruct (binding_crate_ref cargo) as [p|]; [|discriminate].
  destruct (parse_crate d cargo config bitflags mfuel fuel p state_new) as [s| | |] eqn:E; try discriminate.
  destruct (pk_version p) as [w|] eqn:V; inversion Q; subst.
  destruct (crate_sound d cargo config bitflags mfuel fuel p state_new s E ltac:(intros [])) as [rs [o [R [L ->]]]].
  exists p, rs. repeat split; try assumption; apply R.
Qed.
(** Which crates are allowed *)
Theorem C34_allowed : forall pc seen n, should_parse_dependency pc seen n = true <-> (~ In n seen /\ allowed pc n).
Proof. exact allowed_iff. Qed.
(** No crate but the first is read that is not allowed. *)
Theorem C34_only_allowed : forall d cargo pc p rs r, crates_read d cargo pc [] [] p rs -> In r rs -> rd_package r = p \/ allowed pc (rd_name r).
Proof.
  intros d cargo pc p rs r R I. destruct (cr_reached _ _ _ _ _ _ _ R r I) as [more [C _]]. inversion C; subst; [left; congruence|right; assumption].
Qed.
(** Every reachable package is read, unless two versions of one are reachable. *)
Theorem C34_all_reached : forall d cargo pc p rs, crates_read d cargo pc [] [] p rs -> one_version cargo pc p ->
  forall q gs, chain cargo pc p q gs -> In q (map rd_package rs).
Proof.
  intros d cargo pc p rs R U q gs C. apply (all_reached d cargo (with_parse_config pc default_config) p rs) with (gs := gs); assumption.
Qed.
(** Reading ends, also if crates depend on each other in a circle, if there are
    finitely many files and no module has a path attribute. *)
Theorem C34_ends : forall (H : Heck) d cargo config bitflags longest,
  (forall path, dk_exists d path = true -> length path <= longest) -> (forall path items, dk_items d path = Some items -> usual items) ->
  forall p, exists n, forall mfuel fuel, n <= mfuel -> n <= fuel -> parse_crate d cargo config bitflags mfuel fuel p state_new <> Endless.
Proof. intros H d cargo config bitflags. exact (crates_end d cargo config bitflags). Qed.

(** ** C40 *)

(** The modules read are those of the compiler, from the same files and in the
    same order, if no path attribute is used. *)
Theorem C40_files : forall d path gs vs, (forall f items, dk_items d f = Some items -> usual items) -> crate_visits d path gs vs ->
  exists items, dk_items d path = Some items
    /\ rust_visits d (Some path) {| ru_dir := removelast path; ru_relative := None |} items (map (fun v => (vi_file v, vi_items v)) vs).
Proof. intros d path gs vs U. exact (crate_rust d U path gs vs). Qed.
(** One module, with a path attribute: the file is the compiler's if none of
    the usual files is there. *)
Theorem C40_path_attribute : forall d pl r attrs name file, same_place pl r ->
  (path_attr attrs = None \/ (dk_exists d (default_dir r ++ [append name ".rs"])%list = false
                              /\ dk_exists d (default_dir r ++ [name; "mod.rs"])%list = false)) ->
  module_file d pl attrs name = Some file -> exists r', rust_file d r attrs name file r'.
Proof. exact module_file_rust. Qed.
(** Every module that the files say is there is read, given enough fuel. *)
Theorem C40_all_read : forall (H : Heck) d ld path gs vs, crate_visits d path gs vs ->
  exists n, forall fuel s, n <= fuel -> ps_cfgs s = gs ->
    match load_visits ld vs (ps_out s) with
    | Some out => parse_mod d ld fuel path 0 s = Parsed (shift (files_of vs) out s)
    | None => parse_mod d ld fuel path 0 s = Panicked
    end.
Proof. intros H d ld path gs vs V. exact (parse_mod_complete d ld path gs vs V). Qed.
Theorem C40_ends : forall (H : Heck) d ld longest,
  (forall path, dk_exists d path = true -> length path <= longest) -> (forall path items, dk_items d path = Some items -> usual items) ->
  forall path, exists n, forall fuel s, n <= fuel -> parse_mod d ld fuel path 0 s <> Endless.
Proof. intros H d ld. exact (P_Modules.crate_ends d ld). Qed.

(** ** Examples *)

Definition att (m : arg) : attribute := {| at_meta := m; at_outer := true |}.
Definition no_mangle : attribute := att (APath (Some "no_mangle")).
Definition cfg_ (w : string) : attribute := att (AList (Some "cfg") [APath (Some w)]).
Definition path_ (s : string) : attribute := att (ANameValue (Some "path") (Some s)).
Definition doc_ (s : string) : attribute := att (ANameValue (Some "doc") (Some s)).
Definition repr_c_ : attribute := att (AList (Some "repr") [APath (Some "C")]).
Definition named (n : string) : sty := SPath (SegPath [] n NoArgs).
Definition sig_ (n : string) (inputs : list sfnarg) (o : option sty) : ssig :=
  {| sg_ident := n; sg_abi := Some (Some "C"); sg_inputs := inputs; sg_variadic := false; sg_output := o |}.
Definition one (n : string) : sexpr := XLit (LitInt 1 "").
Definition fld_ (n t : string) : sfield := {| sf_attrs := []; sf_ident := Some n; sf_ty := named t |}.
Definition here_ld : loading := {| ld_config := default_config; ld_bitflags := true; ld_binding := "a"; ld_crate := "a" |}.
Definition load_items {H : Heck} (items : list sitem) : option Parse := load_syn_crate_mod here_ld None items Parse_new.
Definition exported_items : list sitem :=
  [ItemFn [no_mangle] true (sig_ "f" [FnTyped (PatIdent "x") (named "u8")] (Some (named "bool")));
   ItemFn [] true (sig_ "g" [] None);
   ItemFn [no_mangle] false {| sg_ident := "h"; sg_abi := None; sg_inputs := []; sg_variadic := false; sg_output := None |};
   ItemFn [att (AList (Some "unsafe") [ANameValue (Some "export_name") (Some "k2")]); cfg_ "unix"] false (sig_ "k" [] (Some SNever));
   ItemFn [no_mangle] true (sig_ "bad" [FnTyped (PatIdent "x") SOtherType] None);
   ItemForeignMod [cfg_ "windows"] (Some "C") [Some ([cfg_ "x"], sig_ "r#type" [] None); None];
   ItemForeignMod [] (Some "system") [Some ([], sig_ "sys" [] None)];
   ItemImpl [] (named "T") [ImplFn [no_mangle] true (sig_ "T_get" [FnReceiver (RecvRef true)] (Some (named "Self")))]].
Example C32_example : forall H : Heck, option_map (fun p => map (fun f => (f_path f, f_self_type_path f, f_extern_decl f, f_never_return f, f_cfg f))
    (pr_functions p)) (load_items exported_items)
  = Some [("f", None, false, false, None); ("k2", None, false, true, Some (CBoolean "unix"));
          ("type", None, true, false, Some (CAll [CBoolean "windows"; CBoolean "x"])); ("T_get", Some "T", false, false, None)].
Proof. intros. vm_compute. reflexivity. Qed.
Example C32_example_meets : Forall item_ok exported_items.
Proof.
  assert (N : attributes_ok [no_mangle]).
  { split; [intros a args [<- |[]]; discriminate|]. intros a b m n [<- |[]] _ [Q|Q]; discriminate. }
  assert (R : forall l, (forall x, In x l -> ~ typed_reference x) -> Forall (fun a => ~ typed_reference a) l) by (intros l X; apply Forall_forall; exact X).
  assert (F : forall p t, ~ typed_reference (FnTyped p t)) by (intros p t [m [u Q]]; discriminate).
  constructor; [split; [exact N|apply R; intros x [<- |[]]; apply F]|].
  constructor; [split; [split; [intros a args []|intros a b m n []]|constructor]|].
  constructor; [split; [exact N|constructor]|].
  constructor; [split; [split|constructor]|].
  { intros a args [<- |[<- |[]]] Q; inversion Q. eauto. }
  { intros a b m n [<- |[<- |[]]] [<- |[<- |[]]] [Q|Q] [T|T]; cbn in Q, T; congruence. }
  constructor; [split; [exact N|apply R; intros x [<- |[]]; apply F]|].
  constructor; [intros a s [Q|[Q|[]]]; inversion Q; constructor|].
  constructor; [intros a s [Q|[]]; inversion Q; constructor|].
  constructor; [|constructor]. intros a p s [Q|[]]. inversion Q; subst. split; [exact N|].
  apply R. intros x [<- |[]] [m [u T]]. discriminate.
Qed.
(** A crate of four files with a condition on a module, and one it depends on *)
Definition demo_disk : disk :=
  let files := [(["a"; "src"; "lib.rs"],
                 [ItemMod [cfg_ "unix"] "m" None; ItemMod [] "n" (Some [ItemMod [] "deep" None; ItemStruct [repr_c_] "N" [] FieldsUnit]);
                  ItemStruct [repr_c_] "S" [] (FieldsNamed [fld_ "x" "u8"]); ItemMod [] "gone" None]);
                (["a"; "src"; "m.rs"],
                 [ItemStruct [repr_c_; cfg_ "big"] "M" [] (FieldsNamed [fld_ "x" "u8"]); ItemMod [cfg_ "sub"] "o" None;
                  ItemFn [no_mangle] true (sig_ "mf" [] None)]);
                (["a"; "src"; "m"; "o"; "mod.rs"], [ItemType [] "O" [] (named "u32")]);
                (["a"; "src"; "n"; "deep.rs"], [ItemConst [] true "D" (named "u8") (one "")]);
                (["b"; "lib.rs"], [ItemStruct [repr_c_] "B" [] (FieldsNamed [fld_ "x" "u8"]); ItemFn [no_mangle] true (sig_ "bf" [] None)])] in
  let find_ p := find (fun f => if list_eq_dec string_dec (fst f) p then true else false) files in
  {| dk_exists := fun p => match find_ p with Some _ => true | None => false end; dk_items := fun p => option_map snd (find_ p) |}.
Definition pkg (n v : string) : PackageRef := {| pk_name := n; pk_version := Some v |}.
Definition meta_pkg (n v : string) (deps : list (string * option (string * option meta))) (src : cpath) : metadata_package :=
  {| mp_ref := pkg n v; mp_dependencies := deps; mp_targets := [(["lib"], src)]; mp_manifest_path := append n "/Cargo.toml" |}.
Definition lock_pkg (n v : string) (deps : list string) : lock_package := {| lp_name := n; lp_version := v; lp_dependencies := Some deps |}.
Definition cargo_of (packages : list lock_package) (metas : list metadata_package) : Cargo :=
  {| cg_manifest_path := "a/Cargo.toml"; cg_binding_crate_name := "a"; cg_lock := Some {| lk_root := None; lk_package := Some packages |};
     cg_packages := metas; cg_expand := fun _ => None |}.
(** [b] depends on [a] again, and on [std] and [c]. *)
Definition demo_cargo : Cargo :=
  cargo_of [lock_pkg "a" "1" ["b"]; lock_pkg "b" "2" ["a 1"; "std"; "c"]; lock_pkg "c" "1" []]
    [meta_pkg "a" "1" [("b", Some ("cfg(windows)", Some (MList (Some "cfg") (Some [MPath (Some "windows")]))))] ["a"; "src"; "lib.rs"];
     meta_pkg "b" "2" [] ["b"; "lib.rs"]; meta_pkg "c" "1" [] ["c"; "lib.rs"]].
Definition deps_config (exclude : list string) : Config :=
  with_parse_config {| pa_parse_deps := true; pa_include := None; pa_exclude := exclude; pa_expand_crates := []; pa_extra_bindings := [] |}
    default_config.
Example C33_C34_C40_example : forall H : Heck,
  match parse_lib demo_disk demo_cargo (deps_config ["c"]) false 9 9 with
  | Parsed (out, sources, v) => (map (fun e => (en_name e, en_cfg e)) (entries out), sources, v)
  | _ => ([], [], "")
  end
  = ([("D", None); ("S", None); ("M", Some (CAll [CAll [CBoolean "unix"]; CBoolean "big"])); ("N", None); ("B", Some (CAll [CBoolean "windows"]));
      ("O", Some (CAll [CBoolean "unix"; CBoolean "sub"])); ("mf", Some (CAll [CBoolean "unix"]))],
     [["a"; "src"; "lib.rs"]; ["a"; "src"; "m.rs"]; ["a"; "src"; "m"; "o"; "mod.rs"]; ["a"; "src"; "n"; "deep.rs"]; ["b"; "lib.rs"]], "1").
Proof. intros. vm_compute. reflexivity. Qed.
Example C34_C40_example_meets : (forall path, dk_exists demo_disk path = true -> length path <= 5)
  /\ (forall path items, dk_items demo_disk path = Some items -> usual items).
Proof.
  assert (U : forall items, (forall i, In i items -> match i with ItemMod _ _ _ => False | _ => True end) -> usual items).
  { intros items X. constructor; intros; exfalso; exact (X _ H). }
  split.
  - intros path Q. unfold demo_disk in Q. cbn [dk_exists] in Q.
    match type of Q with (match ?f with _ => _ end) = true => destruct f as [x|] eqn:E; [|discriminate] end.
    apply find_some in E as [I E]. destruct (list_eq_dec string_dec (fst x) path) as [<- |]; [|discriminate].
    cbn in I. decompose [or] I; subst; cbn; lia || contradiction.
  - intros path items Q. unfold demo_disk in Q. cbn [dk_items] in Q.
    match type of Q with option_map snd ?f = _ => destruct f as [x|] eqn:E; [|discriminate] end.
    apply find_some in E as [I _]. injection Q as <-.
    cbn in I. destruct I as [<- |[<- |[<- |[<- |[<- |[]]]]]]; cbn [snd].
    + constructor.
      * intros attrs ident content I. cbn in I. decompose [or] I; try discriminate; try contradiction;
          match goal with E : ItemMod _ _ _ = ItemMod _ _ _ |- _ => inversion E; subst end; (split; [reflexivity|split; discriminate]).
      * intros attrs ident inside I. cbn in I. decompose [or] I; try discriminate; try contradiction.
        match goal with E : ItemMod _ _ _ = ItemMod _ _ _ |- _ => inversion E; subst end. constructor.
        -- intros a i c [J|[J|[]]]; inversion J; subst. split; [reflexivity|split; discriminate].
        -- intros a i c [J|[J|[]]]; inversion J.
    + constructor.
      * intros attrs ident content I. cbn in I. decompose [or] I; try discriminate; try contradiction;
          match goal with E : ItemMod _ _ _ = ItemMod _ _ _ |- _ => inversion E; subst end; (split; [reflexivity|split; discriminate]).
      * intros attrs ident inside I. cbn in I. decompose [or] I; try discriminate; contradiction.
    + apply U. intros i [<- |[]]; exact Logic.I.
    + apply U. intros i [<- |[]]; exact Logic.I.
    + apply U. intros i [<- |[<- |[]]]; exact Logic.I.
Qed.

Example C34_one_version_example : one_version demo_cargo (parse (deps_config ["c"])) (pkg "a" "1").
Proof.
  assert (G : forall q gs, chain demo_cargo (parse (deps_config ["c"])) (pkg "a" "1") q gs -> q = pkg "a" "1" \/ q = pkg "b" "2").
  { intros q gs C. induction C as [|q r gs l g C IH D I A]; [auto|]. destruct IH as [-> | ->]; vm_compute in D; injection D as <-.
    - destruct I as [I|[]]. injection I as <- <-. auto.
    - destruct I as [I|[I|[I|[]]]]; injection I as <- <-; [auto| |].
      + destruct A as [_ [[]|[_ [_ A]]]]. exfalso. apply A. cbn. auto.
      + destruct A as [_ [[]|[_ [A _]]]]. exfalso. apply A. cbn. auto. }
  intros q1 q2 g1 g2 C1 C2 N. apply G in C1, C2. destruct C1 as [-> | ->], C2 as [-> | ->]; cbn in N; try reflexivity; discriminate.
Qed.

(** ** Where the properties fail *)

(** A condition on an impl block is lost. *)
Theorem C33_impl_block_refuted : forall H : Heck,
  option_map (fun p => map (fun f => (f_path f, f_cfg f)) (pr_functions p))
    (load_items [ItemImpl [cfg_ "unix"] (named "T") [ImplFn [no_mangle] true (sig_ "f" [] None)]]) = Some [("f", None)].
Proof. intros. vm_compute. reflexivity. Qed.
(** So is one on an invocation of [bitflags!]. *)
Theorem C33_bitflags_refuted : forall H : Heck,
  option_map (fun p => map (fun e => (en_kind e, en_name e, en_cfg e)) (entries p))
    (load_items [ItemMacro [cfg_ "unix"] "bitflags"
       (Some {| bf_attrs := Some [repr_c_]; bf_name := "F"; bf_repr := named "u8"; bf_flags := [([], "A", one "")] |})])
  = Some [(KConstant, "AF", None); (KStruct, "F", None)].
Proof. intros. vm_compute. reflexivity. Qed.
(** A static's [unsafe(export_name = ..)] is not seen: its symbol is missing,
    or another one is bound. *)
Theorem C33_static_name_refuted : forall H : Heck,
  option_map (fun p => map (fun e => (en_kind e, en_name e)) (entries p))
    (load_items [ItemStatic [att (AList (Some "unsafe") [ANameValue (Some "export_name") (Some "x")])] "A" false (named "u8");
                 ItemStatic [att (AList (Some "unsafe") [ANameValue (Some "export_name") (Some "y")]); no_mangle] "B" false (named "u8")])
  = Some [(KStatic, "B")].
Proof. intros. vm_compute. reflexivity. Qed.
(** After a private constant of an impl block its public ones are not found. *)
Theorem C33_private_constant_refuted : forall H : Heck,
  option_map (fun p => map en_name (entries p))
    (load_items [ItemImpl [] (named "T") [ImplConst [] true "A" (named "u8") (one ""); ImplConst [] false "B" (named "u8") (one "");
                                          ImplConst [] true "C" (named "u8") (one "")]]) = Some ["AT"].
Proof. intros. vm_compute. reflexivity. Qed.
(** A constant of a struct belongs to it only if the struct was found before. *)
Theorem C33_constant_order_refuted : forall H : Heck,
  let st := ItemStruct [repr_c_] "T" [] (FieldsNamed [fld_ "x" "u8"]) in
  let im := ItemImpl [] (named "T") [ImplConst [] true "A" (named "u8") (one "")] in
  let members := option_map (fun p => map (fun s => length (s_associated_constants s)) (to_vec (pr_structs p))) in
  members (match load_items [im] with Some p => load_syn_crate_mod here_ld None [st] p | None => None end) = Some [0]
  /\ members (match load_items [st] with Some p => load_syn_crate_mod here_ld None [im] p | None => None end) = Some [1].
Proof. intros. split; vm_compute; reflexivity. Qed.
(** A type whose generic parameters cannot be translated ends everything. *)
Theorem C33_generics_panic_refuted : forall H : Heck,
  load_items [ItemStruct [] "S" [SGType "T" (Some (STuple [named "u8"; named "u8"]))] FieldsUnit] = None.
Proof. intros. vm_compute. reflexivity. Qed.
(** In a block of foreign functions [cbindgen:ignore] is not heeded, ... *)
Theorem C32_foreign_ignore_refuted : forall H : Heck,
  option_map (fun p => map f_path (pr_functions p))
    (load_items [ItemForeignMod [] (Some "C") [Some ([doc_ " cbindgen:ignore"], sig_ "f" [] None)]]) = Some ["f"]
  /\ should_skip_parsing [doc_ " cbindgen:ignore"] = true.
Proof. intros. split; vm_compute; reflexivity. Qed.
(** ... and neither is [link_name], which says the symbol to be called. *)
Theorem C32_link_name_refuted : forall H : Heck,
  option_map (fun p => map f_path (pr_functions p))
    (load_items [ItemForeignMod [] (Some "C") [Some ([att (ANameValue (Some "link_name") (Some "g"))], sig_ "f" [] None)]]) = Some ["f"].
Proof. intros. vm_compute. reflexivity. Qed.
(** [self: &Self] becomes a pointer to a pointer, whereas [&self] becomes a pointer. *)
Definition method_arguments {H : Heck} (r : sreceiver) : option (list (list Ty)) :=
  option_map (fun p => map (fun f => map a_ty (f_args f)) (pr_functions p))
    (load_items [ItemImpl [] (named "T") [ImplFn [no_mangle] true (sig_ "f" [FnReceiver r] None)]]).
Theorem C32_self_reference_refuted : forall H : Heck, exists t,
  method_arguments (RecvRef false) = Some [[TPtr t true false false]]
  /\ method_arguments (RecvTyped (SRef false (named "Self"))) = Some [[TPtr (TPtr t true false false) true false false]].
Proof. intros. eexists. split; vm_compute; reflexivity. Qed.

(** Of two versions of a crate the first met is read, the other is not. *)
Definition two_versions : Cargo :=
  cargo_of [lock_pkg "a" "1" ["b 1"; "b 2"]; lock_pkg "b" "1" []; lock_pkg "b" "2" []]
    [meta_pkg "a" "1" [] ["a"; "lib.rs"]; meta_pkg "b" "1" [] ["b1"; "lib.rs"]; meta_pkg "b" "2" [] ["b2"; "lib.rs"]].
Definition two_disk : disk :=
  {| dk_exists := fun _ => false;
     dk_items := fun p => match p with
                          | ["a"; "lib.rs"] => Some []
                          | ["b1"; "lib.rs"] => Some [ItemStruct [repr_c_] "One" [] (FieldsNamed [fld_ "x" "u8"])]
                          | ["b2"; "lib.rs"] => Some [ItemStruct [repr_c_] "Two" [] (FieldsNamed [fld_ "x" "u8"])]
                          | _ => None
                          end |}.
Theorem C34_two_versions_refuted : forall H : Heck,
  match parse_lib two_disk two_versions (deps_config []) false 9 9 with
  | Parsed (out, sources, _) => map en_name (entries out) = ["One"] /\ sources = [["a"; "lib.rs"]; ["b1"; "lib.rs"]]
  | _ => False
  end
  /\ exists gs, chain two_versions (parse (deps_config [])) (pkg "a" "1") (pkg "b" "2") gs.
Proof.
  intros. split; [vm_compute; split; reflexivity|]. eexists. eapply ch_step with (g := None); [apply ch_here|vm_compute; reflexivity| |].
  - right. left. reflexivity.
  - split; [reflexivity|]. right. split; [exact Logic.I|]. split; [intros []|]. cbn. intuition discriminate.
Qed.
(** A crate that two others depend on, one of them only on some targets, gets
    that condition if it is met first, although it is needed everywhere. *)
Definition diamond : Cargo :=
  cargo_of [lock_pkg "a" "1" ["b"; "c"]; lock_pkg "b" "1" ["c"]; lock_pkg "c" "1" []]
    [meta_pkg "a" "1" [("b", Some ("cfg(unix)", Some (MList (Some "cfg") (Some [MPath (Some "unix")])))); ("c", None)] ["a"; "lib.rs"];
     meta_pkg "b" "1" [("c", None)] ["b1"; "lib.rs"]; meta_pkg "c" "1" [] ["b2"; "lib.rs"]].
Theorem C34_diamond_refuted : forall H : Heck,
  match parse_lib two_disk diamond (deps_config []) false 9 9 with
  | Parsed (out, _, _) => map (fun e => (en_name e, en_cfg e)) (entries out)
  | _ => []
  end = [("One", Some (CAll [CBoolean "unix"])); ("Two", Some (CAll [CBoolean "unix"]))]
  /\ chain diamond (parse (deps_config [])) (pkg "a" "1") (pkg "c" "1") [].
Proof.
  intros. split; [vm_compute; reflexivity|]. eapply (ch_step _ _ _ (pkg "a" "1") _ [] _ None); [apply ch_here|vm_compute; reflexivity| |].
  - right. left. reflexivity.
  - split; [reflexivity|]. right. split; [exact Logic.I|]. split; [intros []|]. cbn. intuition discriminate.
Qed.

(** Files of modules: a path attribute is not looked at if the usual file is there, ... *)
Definition disk_of (files : list (cpath * list sitem)) : disk :=
  let find_ p := find (fun f => if list_eq_dec string_dec (fst f) p then true else false) files in
  {| dk_exists := fun p => match find_ p with Some _ => true | None => false end; dk_items := fun p => option_map snd (find_ p) |}.
Definition sources_of {H : Heck} (d : disk) : option (list cpath) :=
  match parse_mod d here_ld 9 ["src"; "lib.rs"] 0 state_new with Parsed s => Some (ps_sources s) | _ => None end.
Definition shadowed : disk :=
  disk_of [(["src"; "lib.rs"], [ItemMod [path_ "other.rs"] "m" None]); (["src"; "m.rs"], []); (["src"; "other.rs"], [])].
Theorem C40_path_shadowed_refuted : forall H : Heck, sources_of shadowed = Some [["src"; "lib.rs"]; ["src"; "m.rs"]]
  /\ rust_file shadowed {| ru_dir := ["src"]; ru_relative := None |} [path_ "other.rs"] "m" ["src"; "other.rs"]
       {| ru_dir := ["src"]; ru_relative := None |}.
Proof. intros. split; [vm_compute; reflexivity|]. exact (rf_path shadowed {| ru_dir := ["src"]; ru_relative := None |} [path_ "other.rs"] "m" "other.rs" eq_refl). Qed.
(** ... the modules of a file so named are looked for in a directory of its name, ... *)
Definition beside : disk :=
  disk_of [(["src"; "lib.rs"], [ItemMod [path_ "x/other.rs"] "m" None]); (["src"; "x"; "other.rs"], [ItemMod [] "k" None]);
           (["src"; "x"; "k.rs"], [])].
Theorem C40_path_directory_refuted : forall H : Heck, sources_of beside = Some [["src"; "lib.rs"]; ["src"; "x"; "other.rs"]]
  /\ rust_file beside {| ru_dir := ["src"; "x"]; ru_relative := None |} [] "k" ["src"; "x"; "k.rs"]
       {| ru_dir := ["src"; "x"]; ru_relative := Some "k" |}.
Proof.
  intros. split; [vm_compute; reflexivity|].
  exact (rf_file beside {| ru_dir := ["src"; "x"]; ru_relative := None |} [] "k" eq_refl eq_refl).
Qed.
(** ... and one on an inline module is not looked at. *)
Definition inline_path : disk :=
  disk_of [(["src"; "lib.rs"], [ItemMod [path_ "y"] "m" (Some [ItemMod [] "k" None])]); (["src"; "y"; "k.rs"], []); (["src"; "m"; "k.rs"], [])].
Theorem C40_inline_path_refuted : forall H : Heck, sources_of inline_path = Some [["src"; "lib.rs"]; ["src"; "m"; "k.rs"]]
  /\ rust_submodules inline_path {| ru_dir := ["src"]; ru_relative := None |}
       [([path_ "y"], "m", Some [ItemMod [] "k" None])] [(None, [ItemMod [] "k" None]); (Some ["src"; "y"; "k.rs"], [])].
Proof.
  intros. split; [vm_compute; reflexivity|].
  refine (rs_inline_path inline_path _ [path_ "y"] "m" [ItemMod [] "k" None] [] [(None, [ItemMod [] "k" None]); (Some ["src"; "y"; "k.rs"], [])] [] "y" eq_refl _ (rs_nil _ _)).
  constructor.
  refine (rs_file inline_path _ [] "k" ["src"; "y"; "k.rs"] _ [] [] [(Some ["src"; "y"; "k.rs"], [])] [] _ _ _ (rs_nil _ _)).
  - exact (rf_file inline_path {| ru_dir := ["src"; "y"]; ru_relative := None |} [] "k" eq_refl eq_refl).
  - reflexivity.
  - constructor. constructor.
Qed.
(** A file that names itself is read without end; the compiler reports it. *)
Definition circle : disk := disk_of [(["src"; "lib.rs"], [ItemMod [path_ "lib.rs"] "m" None])].
Theorem C40_circle_refuted : forall (H : Heck) fuel, parse_mod circle here_ld fuel ["src"; "lib.rs"] 0 state_new = Endless.
Proof.
  intros H.
  assert (G : forall fuel pl s, pl = file_place ["src"; "lib.rs"] 0 \/ pl_depth pl <> 0 /\ pl = file_place ["src"; "lib.rs"] (pl_depth pl) ->
            process_at circle here_ld fuel pl [ItemMod [path_ "lib.rs"] "m" None] s = Endless).
  { induction fuel as [|n IH]; intros pl s P; [reflexivity|]. rewrite process_step.
    change (load_syn_crate_mod here_ld (Cfg_join (ps_cfgs s)) [ItemMod [path_ "lib.rs"] "m" None] (ps_out s)) with (Some (ps_out s)).
    change (nested_modules [ItemMod [path_ "lib.rs"] "m" None]) with [([path_ "lib.rs"], "m", @None (list sitem))].
    cbn [each_module fst]. rewrite enter_file.
    assert (M : module_file circle pl [path_ "lib.rs"] (unraw "m") = Some ["src"; "lib.rs"]).
    { destruct P as [-> |[N ->]]; [vm_compute; reflexivity|]. destruct (pl_depth pl) as [|k]; [contradiction|]. vm_compute. reflexivity. }
    rewrite M, parse_mod_file. change (dk_items circle ["src"; "lib.rs"]) with (Some [ItemMod [path_ "lib.rs"] "m" None]). cbv iota.
    rewrite IH; [reflexivity|]. right. split; [discriminate|reflexivity]. }
  intro fuel. unfold parse_mod. rewrite parse_mod_file. change (dk_items circle ["src"; "lib.rs"]) with (Some [ItemMod [path_ "lib.rs"] "m" None]).
  apply G. auto.
Qed.

Print Assumptions C32_module.
Print Assumptions C32_callable_unique.
Print Assumptions C32_bound_or_unsupported.
Print Assumptions C32_other_crates.
Print Assumptions C32_library.
Print Assumptions C33_conditions.
Print Assumptions C33_visits_unique.
Print Assumptions C33_library.
Print Assumptions C33_types_found.
Print Assumptions C34_crates.
Print Assumptions C34_allowed.
Print Assumptions C34_only_allowed.
Print Assumptions C34_all_reached.
Print Assumptions C34_ends.
Print Assumptions C40_files.
Print Assumptions C40_path_attribute.
Print Assumptions C40_all_read.
Print Assumptions C40_ends.
Print Assumptions C40_circle_refuted.
