(** C52 for the constants of impl blocks for types that are no structs *)
Require Import Coq.Strings.String Coq.Strings.Ascii Coq.Lists.List Coq.Bool.Bool Coq.Arith.Arith Coq.NArith.NArith Coq.ZArith.ZArith.
From Verif Require Import Base S_Lex M_Config M_Cfg S_Cfg M_Type M_Ir M_Item M_Attr M_Syn M_Library M_Bindings M_Backend S_Decl M_Loader M_Parser S_Parse S_Library S_Names S_Expr S_Literal S_Value S_File S_Heck S_Suite
  S_Sources S_Signature S_Shown S_Datatypes S_Enums S_Constants S_Complete P_Complete P_CompText P_AssocText T_Value T_Parse T_Signature T_Datatypes T_Enums T_Constants T_Complete.
Import ListNotations.
Open Scope string_scope.

(** The bindings have a constant for each public constant of an impl block for an
    enum, a union or another type that is no struct, if its type and value can be
    said in a header and the configuration asks for it.  This holds for every crate
    read, not only for those whose items are bound.  If no other constant is kept
    under its name, or all that are have conditions, it is this very constant. *)
Theorem C52_associated : forall (H : Heck) d c bitflags mfuel fuel std srcs lib l, parse_all d c bitflags mfuel fuel std srcs lib = Parsed l ->
  exists vss rs, sources_read d (parse c) srcs lib vss rs
    /\ forall pfuel visit l' b, prepare pfuel visit l = Done l' -> finish l' = Done b ->
       forall v own path T before attrs ident ty value after, let i := impl_block own path T before (ImplConst attrs true ident ty value) after in
         item_read vss rs v i -> no_struct_called vss rs (unraw T) -> none_private before -> bindable_associated c T attrs ident ty value ->
         (exists k, In k (b_constants b) /\ c_path k = unraw ident ++ unraw T)
         /\ (associated_alone vss rs v i attrs ident ty value (unraw ident ++ unraw T) ->
             exists k, In k (b_constants b) /\ constant_for c (module_holds v) (Some (unraw T)) attrs ident ty value k).
Proof. exact associated_bound. Qed.
Print Assumptions C52_associated.

(** In the text of a C or C++ header it is declared with the name of its type, an
    underscore and its own name, and with an expression that C reads as its value. *)
Theorem C52_associated_text : forall (H : Heck) d c bitflags mfuel fuel std srcs lib l, parse_all d c bitflags mfuel fuel std srcs lib = Parsed l ->
  exists vss rs, sources_read d (parse c) srcs lib vss rs
    /\ forall pfuel visit l' b wfuel t types names c_names, prepare pfuel visit l = Done l' -> finish l' = Done b -> bindings_text wfuel b = Done t ->
         proper_attributes c = true -> tab_width c <> 0 -> language c <> Cython ->
         (forall k m, In (k, m) (defines c) -> macro_name false m = true) ->
         standard_types types -> Forall (fun a => S_Lex.is_ident a = true /\ S_Value.named_type a = None) (pointer_words (dialect_of c)) ->
         constants_known c names c_names ->
         forall v own path T before attrs ident ty value after, let i := impl_block own path T before (ImplConst attrs true ident ty value) after in
           item_read vss rs v i -> no_struct_called vss rs (unraw T) -> none_private before -> bindable_associated c T attrs ident ty value ->
           associated_alone vss rs v i attrs ident ty value (unraw ident ++ unraw T) ->
           number_written b c types names c_names (vi_guards v) (Some (unraw T)) (Some (free_constant_name c (Some (unraw T)) ident)) false attrs ty value t.
Proof. exact associated_text. Qed.
Print Assumptions C52_associated_text.

(** ** An example *)
Definition shape_attrs : attributes := [cfg_ "unix"].
Definition shape_before : list simpl_item := [ImplConst [] true "MIN" (named "u8") (syntax (lit 1))].
Definition shape_items : list sitem :=
  [ItemEnum [repr_c_] "Shape" [] [variant_ [] "Low" FieldsUnit None];
   impl_block [] [] "Shape" shape_before (ImplConst shape_attrs true "MAX" (named "u32") (syntax (lit 9))) [];
   ItemStruct [repr_c_] "Other" [] FieldsUnit].
Example C52_associated_example : run_items (H := ascii_heck) complete_config shape_items = c_headed
  ["#define Shape_MIN 1"; ""; "#if defined(UNIX)"; "#define Shape_MAX 9"; "#endif"].
Proof. vm_compute. reflexivity. Qed.
Definition shape_visit : visit := {| vi_file := Some ["x.rs"]; vi_guards := []; vi_items := shape_items |}.
Example C52_associated_meets :
  let vss := [[shape_visit]] in
  let i := impl_block [] [] "Shape" shape_before (ImplConst shape_attrs true "MAX" (named "u32") (syntax (lit 9))) [] in
  sources_read {| dk_exists := fun _ => false; dk_items := fun _ => Some shape_items |} (parse complete_config) [["x.rs"]] None vss []
  /\ item_read vss [] shape_visit i /\ no_struct_called vss [] "Shape" /\ none_private shape_before
  /\ bindable_associated complete_config "Shape" shape_attrs "MAX" (named "u32") (syntax (lit 9))
  /\ associated_alone vss [] shape_visit i shape_attrs "MAX" (named "u32") (syntax (lit 9)) "MAXShape".
Proof.
  cbn zeta. split; [|split; [|split; [|split; [|split]]]].
  - constructor; [|reflexivity]. constructor; [|constructor]. eexists. split; [reflexivity|]. apply vi_module. apply su_nil.
  - split; [left; reflexivity|]. split; [right; left; reflexivity|reflexivity].
  - intros v i (Iv & Ii & _). cbn in Iv. destruct Iv as [<- |[]]. cbn in Ii. decompose [or] Ii; subst; try contradiction; try exact I. discriminate.
  - repeat constructor.
  - constructor; try reflexivity; try discriminate; [split; reflexivity|intros []|left; reflexivity].
  - right. intros v i self attrs ident ty value (Iv & Ii & _) SC P. cbn in Iv. destruct Iv as [<- |[]]. cbn in Ii.
    decompose [or] Ii; subst; try contradiction; inversion SC; subst.
    match goal with X : In _ _ |- _ => cbn in X; destruct X as [X|[X|[]]]; injection X; intros; subst end; [discriminate P|]. repeat split; reflexivity.
Qed.
