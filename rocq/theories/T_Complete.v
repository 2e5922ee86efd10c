(** C52: no constant and no static of the sources is lost. *)
Require Import Coq.Strings.String Coq.Strings.Ascii Coq.Lists.List Coq.Bool.Bool Coq.Arith.Arith Coq.NArith.NArith Coq.ZArith.ZArith.
From Verif Require Import Base S_Lex M_Config M_Cfg S_Cfg M_Type M_Ir M_Item M_Attr M_Syn M_Library M_Bindings M_Backend S_Decl M_Loader M_Parser S_Parse S_Library S_Names S_Expr S_Literal S_Value S_File S_Heck S_Suite
  S_Sources S_Signature S_Shown S_Datatypes S_Enums S_Constants S_Complete P_Complete P_CompText T_Value T_Parse T_Signature T_Datatypes T_Enums T_Constants.
Import ListNotations.
Open Scope string_scope.

(** Constants.  The bindings have a constant with the name of each public constant
    of a module whose items are bound, if its type and value can be said in a
    header and the configuration asks for it.  If no other has its name, or all that
    have it are conditional, it is this very constant. *)
Theorem C52_constants : forall (H : Heck) d c bitflags mfuel fuel std srcs lib l, parse_all d c bitflags mfuel fuel std srcs lib = Parsed l ->
  exists vss rs, sources_read d (parse c) srcs lib vss rs
    /\ forall pfuel visit l' b, prepare pfuel visit l = Done l' -> finish l' = Done b ->
       forall v attrs ident ty value, module_bound (parse c) lib vss rs v -> In (ItemConst attrs true ident ty value) (vi_items v) -> bindable_constant c attrs ident ty value ->
         (exists k, In k (b_constants b) /\ c_path k = unraw ident)
         /\ (constant_alone vss rs v (ItemConst attrs true ident ty value) (unraw ident) ->
             exists k, In k (b_constants b) /\ constant_for c (module_holds v) None attrs ident ty value k).
Proof. exact constants_bound. Qed.
Print Assumptions C52_constants.

(** In the text of a C or C++ header it is declared with its name and an
    expression that C reads as its value, under its condition. *)
Theorem C52_constants_text : forall (H : Heck) d c bitflags mfuel fuel std srcs lib l, parse_all d c bitflags mfuel fuel std srcs lib = Parsed l ->
  exists vss rs, sources_read d (parse c) srcs lib vss rs
    /\ forall pfuel visit l' b wfuel t types names c_names, prepare pfuel visit l = Done l' -> finish l' = Done b -> bindings_text wfuel b = Done t ->
         proper_attributes c = true -> tab_width c <> 0 -> language c <> Cython ->
         (forall k m, In (k, m) (defines c) -> macro_name false m = true) ->
         standard_types types -> Forall (fun a => S_Lex.is_ident a = true /\ S_Value.named_type a = None) (pointer_words (dialect_of c)) ->
         constants_known c names c_names ->
         forall v attrs ident ty value, module_bound (parse c) lib vss rs v -> In (ItemConst attrs true ident ty value) (vi_items v) -> bindable_constant c attrs ident ty value ->
           constant_alone vss rs v (ItemConst attrs true ident ty value) (unraw ident) ->
           number_written b c types names c_names (vi_guards v) None (Some (free_constant_name c None ident)) false attrs ty value t.
Proof. exact constants_complete_text. Qed.
Print Assumptions C52_constants_text.

(** Statics, by the names under which they are exported *)
Theorem C52_statics : forall (H : Heck) d c bitflags mfuel fuel std srcs lib l, parse_all d c bitflags mfuel fuel std srcs lib = Parsed l ->
  exists vss rs, sources_read d (parse c) srcs lib vss rs
    /\ forall pfuel visit l' b, prepare pfuel visit l = Done l' -> finish l' = Done b -> (forall v, In v (modules_read vss rs) -> exports_ok v) ->
       forall v attrs ident mutable ty n, module_bound (parse c) lib vss rs v -> In (ItemStatic attrs ident mutable ty) (vi_items v) -> symbol attrs (unraw ident) n -> bindable_static c attrs n ty ->
         (exists g, In g (b_globals b) /\ g_path g = n)
         /\ (static_alone vss rs v (ItemStatic attrs ident mutable ty) n ->
             exists g, In g (b_globals b) /\ static_for c (keyword_in l') (module_holds v) n attrs mutable ty g).
Proof. exact statics_complete. Qed.
Print Assumptions C52_statics.

(** In the text: unless it is marked [no-export], it is declared [extern] with the
    C type of its Rust type. *)
Theorem C52_statics_text : forall (H : Heck) d c bitflags mfuel fuel std srcs lib l, parse_all d c bitflags mfuel fuel std srcs lib = Parsed l ->
  exists vss rs, sources_read d (parse c) srcs lib vss rs
    /\ forall pfuel visit l' b wfuel t, prepare pfuel visit l = Done l' -> finish l' = Done b -> bindings_text wfuel b = Done t ->
         proper_attributes c = true -> tab_width c <> 0 -> (forall v, In v (modules_read vss rs) -> exports_ok v) ->
         forall v attrs ident mutable ty n, module_bound (parse c) lib vss rs v -> In (ItemStatic attrs ident mutable ty) (vi_items v) -> symbol attrs (unraw ident) n -> bindable_static c attrs n ty ->
           (forall a, AnnotationSet_load attrs = Some a -> S_File.kept a = true) -> static_alone vss rs v (ItemStatic attrs ident mutable ty) n ->
           says_static c (keyword_in l') n mutable ty t.
Proof. exact statics_complete_text. Qed.
Print Assumptions C52_statics_text.

(** ** An example *)
Definition inner_items : list sitem := [ItemConst [] true "K" (named "u8") (syntax (lit 2))].
Definition complete_items : list sitem :=
  [ItemConst [cfg_ "unix"] true "N" (named "u32") (syntax (lit 4));
   ItemConst [cfg_ "windows"] true "N" (named "u32") (syntax (lit 5));
   ItemStatic [no_mangle] "S" false (SArray (named "u16") (XLit (LitInt 3 "")));
   ItemMod [cfg_ "unix"] "deep" (Some inner_items)].
Definition complete_config : Config := with_defines [("unix", "UNIX"); ("windows", "WIN")] c_types.
Example C52_example : run_items (H := ascii_heck) complete_config complete_items = c_headed
  ["#if defined(UNIX)"; "#define N 4"; "#endif"; ""; "#if defined(WIN)"; "#define N 5"; "#endif"; ""; "#if defined(UNIX)"; "#define K 2"; "#endif"; ""; "extern const uint16_t S[3];"].
Proof. vm_compute. reflexivity. Qed.
Definition outer_visit : visit := {| vi_file := Some ["x.rs"]; vi_guards := []; vi_items := complete_items |}.
Definition inner_visit : visit := {| vi_file := None; vi_guards := [CBoolean "unix"]; vi_items := inner_items |}.
Example C52_example_meets :
  let vss := [[outer_visit; inner_visit]] in
  let n := ItemConst [cfg_ "windows"] true "N" (named "u32") (syntax (lit 5)) in
  let k := ItemConst [] true "K" (named "u8") (syntax (lit 2)) in
  let s := ItemStatic [no_mangle] "S" false (SArray (named "u16") (XLit (LitInt 3 ""))) in
  sources_read {| dk_exists := fun _ => false; dk_items := fun _ => Some complete_items |} (parse complete_config) [["x.rs"]] None vss []
  /\ module_bound (parse complete_config) None vss [] outer_visit /\ module_bound (parse complete_config) None vss [] inner_visit
  /\ bindable_constant complete_config [cfg_ "windows"] "N" (named "u32") (syntax (lit 5)) /\ constant_alone vss [] outer_visit n "N"
  /\ bindable_constant complete_config [] "K" (named "u8") (syntax (lit 2)) /\ constant_alone vss [] inner_visit k "K"
  /\ symbol [no_mangle] "S" "S" /\ bindable_static complete_config [no_mangle] "S" (SArray (named "u16") (XLit (LitInt 3 ""))) /\ static_alone vss [] outer_visit s "S"
  /\ forall v, In v (modules_read vss []) -> exports_ok v.
Proof.
  cbn zeta. split; [|split; [|split; [|split; [|split; [|split; [|split; [|split; [|split; [|split]]]]]]]]].
  - constructor; [|reflexivity]. constructor; [|constructor]. eexists. split; [reflexivity|].
    apply vi_module. refine (su_inline _ _ _ _ _ inner_items [] [inner_visit] [] _ _); [apply vi_module; apply su_nil|apply su_nil].
  - left. cbn. auto.
  - left. cbn. auto.
  - constructor; try reflexivity; try discriminate; [intros []|left; reflexivity].
  - left. intros v i self attrs ident ty value (Iv & Ii & _) SC P. cbn in Iv. destruct Iv as [<-|[<- |[]]]; cbn in Ii; decompose [or] Ii; subst; try contradiction; inversion SC; subst; try discriminate.
  - constructor; try reflexivity; try discriminate; [intros []|left; reflexivity].
  - right. intros v i self attrs ident ty value (Iv & Ii & _) SC P. cbn in Iv. destruct Iv as [<-|[<- |[]]]; cbn in Ii; decompose [or] Ii; subst; try contradiction; inversion SC; subst; try discriminate P.
    split; reflexivity.
  - right. split; [intros a m [<-|[]] [Q|Q]; discriminate Q|]. split; [|reflexivity]. exists no_mangle. split; [left; reflexivity|left; reflexivity].
  - constructor; try reflexivity; try discriminate; [intros []|left; reflexivity].
  - right. intros v attrs ident mutable ty (Iv & Ii & _) SY. cbn in Iv. destruct Iv as [<-|[<- |[]]]; cbn in Ii; decompose [or] Ii; subst; try contradiction; try discriminate.
    match goal with X : _ = ItemStatic _ _ _ _ |- _ => injection X as <- <- <- <- end. split; reflexivity.
  - assert (N : attributes_ok [no_mangle]).
    { split; [intros a args [<- |[]]; discriminate|]. intros a b m n [<- |[]] _ [Q|Q]; discriminate. }
    intros v I. cbn in I. destruct I as [<- |[<- |[]]]; intros i J; cbn in J; decompose [or] J; subst; try contradiction; try exact Logic.I. split; [exact N|]. intros a n [<-|[]]; discriminate.
Qed.

(** ** Where constants are lost *)
(** A name is used for one unconditional constant only.  The constant [MAX] of
    [Level] is kept under the name [MAXLevel], and lost if there is a constant of
    that name. *)
Definition level_items : list sitem :=
  [ItemEnum [repr_c_] "Level" [] [variant_ [] "Low" FieldsUnit None]; ItemImpl [] (named "Level") [ImplConst [] true "MAX" (named "u8") (syntax (lit 9))]].
Theorem C52_associated_refuted :
  run_items (H := ascii_heck) c_types level_items = c_headed ["#define Level_MAX 9"]
  /\ run_items (H := ascii_heck) c_types (ItemConst [] true "MAXLevel" (named "u32") (syntax (lit 5)) :: level_items) = c_headed ["#define MAXLevel 5"].
Proof. split; vm_compute; reflexivity. Qed.
Print Assumptions C52_associated_refuted.
(** Of two constants in different modules, one conditional, only the first is
    declared: where its condition fails there is none at all. *)
Theorem C52_conditional_refuted :
  run_items (H := ascii_heck) c_types [ItemMod [] "a" (Some [ItemConst [cfg_ "unix"] true "N" (named "u32") (syntax (lit 4))]); ItemMod [] "b" (Some [ItemConst [] true "N" (named "u32") (syntax (lit 5))])]
    = c_headed ["#if defined(UNIX)"; "#define N 4"; "#endif"]
  /\ run_items (H := ascii_heck) c_types [ItemMod [] "b" (Some [ItemConst [] true "N" (named "u32") (syntax (lit 5))]); ItemMod [] "a" (Some [ItemConst [cfg_ "unix"] true "N" (named "u32") (syntax (lit 4))])]
    = c_headed ["#define N 5"].
Proof. split; vm_compute; reflexivity. Qed.
Print Assumptions C52_conditional_refuted.
