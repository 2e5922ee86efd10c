(** C43: a function is declared with the C type its Rust signature stands for. *)
Require Import Coq.Strings.String Coq.Strings.Ascii Coq.Lists.List Coq.Bool.Bool Coq.Arith.Arith Coq.NArith.NArith.
From Verif Require Import Base M_Config M_Cfg S_Cfg M_Type M_Ir M_Item M_Attr M_Syn M_Library M_Bindings M_Backend M_Loader M_Parser S_Parse S_Library S_Names S_Decl S_File S_Suite
  S_Sources S_Signature P_Loaded P_SigLib P_SigSources T_Parse.
Import ListNotations.
Open Scope string_scope.

(** From the sources to the text.  Take any run: source files and crates are
    read, the bindings are made and written.  Every callable function of every
    module whose functions are bound, whose signature stands for the C type
    [ct], is declared in the text with that type and under its symbol, unless it
    is excluded. *)
Theorem C43_sources : forall (H : Heck) d c bitflags mfuel fuel std srcs lib l, parse_all d c bitflags mfuel fuel std srcs lib = Parsed l ->
  exists vss rs, sources_read d (parse c) srcs lib vss rs
    /\ ((forall v, In v (modules_read vss rs) -> Forall item_ok (vi_items v)) ->
        forall v ds dc, module_bound (parse c) lib vss rs v -> callables (vi_items v) ds -> In dc ds ->
        forall pfuel visit l' b wfuel t, prepare pfuel visit l = Done l' -> finish l' = Done b -> bindings_text wfuel b = Done t ->
        should_generate (export c) Functions = true -> mem_str (dc_symbol dc) (ex_exclude (export c)) = false ->
        proper_attributes c = true -> tab_width c <> 0 ->
        forall ann rules ct, AnnotationSet_load (dc_attrs dc) = Some ann -> kept ann = true -> an_list ann "ptrs-as-arrays" = None ->
        rule_or ann "rename-all" (fn_rename_args (function c)) = Some rules ->
        usable c (dc_symbol dc) = true ->
        rust_function c (keyword_in l') (dc_self dc) (argument_name_in rules) (dc_sig dc) = Some ct ->
        exists before s after, t = (before ++ s ++ after)%string /\ declares (dialect_of c) s (Some (dc_symbol dc)) ct).
Proof. exact sources_text. Qed.
Print Assumptions C43_sources.

(** In the bindings the function is there with that type, its condition and its
    annotations. *)
Theorem C43_bindings : forall (H : Heck) fuel visit l l' b here d f rules ct, as_loaded l ->
  prepare fuel visit l = Done l' -> finish l' = Done b ->
  let c := l_config l in
  should_generate (export c) Functions = true -> mem_str (dc_symbol d) (ex_exclude (export c)) = false ->
  binds here d f -> In f (l_functions l) ->
  rule_or (f_annotations f) "rename-all" (fn_rename_args (function c)) = Some rules -> an_list (f_annotations f) "ptrs-as-arrays" = None ->
  usable c (dc_symbol d) = true ->
  rust_function c (keyword_in l') (dc_self d) (argument_name_in rules) (dc_sig d) = Some ct ->
  exists f', In f' (b_functions b) /\ f_path f' = dc_symbol d /\ f_cfg f' = f_cfg f /\ f_annotations f' = f_annotations f
    /\ c_function c f' = ct /\ declarable_function c f' = true.
Proof. exact signature_bindings. Qed.
Print Assumptions C43_bindings.

(** ** An example *)
Definition of_ (n : string) (t : sty) : sty := SPath (SegPath [] n (AngleArgs [ArgType t])).
Definition arg_ (n : string) (t : sty) : sfnarg := FnTyped (PatIdent n) t.
Definition signature_items : list sitem :=
  [ItemStruct [repr_c_] "Foo" [] (FieldsNamed [fld_ "x" "u8"]);
   ItemFn [no_mangle] true (sig_ "make" [arg_ "p" (SPtr false (named "u8")); arg_ "int" (of_ "Option" (SRef true (named "Foo")));
     arg_ "cb" (of_ "Option" (SFnPtr [(Some "r#in", SRef false (SArray (named "c_int") (XLit (LitInt 3 ""))))] false (Some (named "bool"))));
     arg_ "gone" (STuple [])] (Some (of_ "Box" (named "Foo"))));
   ItemImpl [] (named "Foo") [ImplFn [no_mangle] true (sig_ "foo_len" [FnReceiver (RecvRef false)] (Some (named "usize")))];
   ItemFn [no_mangle] true {| sg_ident := "stop"; sg_abi := Some (Some "C"); sg_inputs := [arg_ "fmt" (SPtr false (named "c_char"))];
                              sg_variadic := true; sg_output := Some SNever |}].
Definition signature_disk : disk := {| dk_exists := fun _ => false; dk_items := fun _ => Some signature_items |}.
Definition c_tags : Config := with_run (RunC false Tag) (deps_config []).
Definition signature_run {H : Heck} (c : Config) : option (list (option ctype) * string) :=
  match parse_all signature_disk c false 9 9 true [["x.rs"]] None with
  | Parsed l => match prepare 9 (fun x => x) l with
                | Done l' => match finish l' with
                             | Done b => match bindings_text 20 b with
                                         | Done t => Some (map (fun d => rust_function c (keyword_in l') (dc_self d) (argument_name_in RNone) (dc_sig d))
                                             (filter_map (fun i => match i with
                                               | ItemFn a _ s => Some {| dc_symbol := sg_ident s; dc_self := None; dc_sig := s; dc_attrs := a; dc_block := []; dc_foreign := false |}
                                               | ItemImpl _ _ [ImplFn a _ s] => Some {| dc_symbol := sg_ident s; dc_self := Some "Foo"; dc_sig := s; dc_attrs := a; dc_block := []; dc_foreign := false |}
                                               | _ => None
                                               end) signature_items), t)
                                         | _ => None
                                         end
                             | _ => None
                             end
                | _ => None
                end
  | _ => None
  end.
Definition written (l : list string) : string := String.concat "" (map (fun x => x ++ String "010"%char "") l).
Example C43_example : forall H : Heck, signature_run c_tags =
  Some ([Some (CFun [(Some "p", CPtr false [] (CName true None ["uint8_t"] []));
                     (Some "int_", CPtr false [] (CName false (Some "struct") ["Foo"] []));
                     (Some "cb", CPtr false [] (CFun [(Some "in", CPtr false [] (CArr (Some "3") (CName true None ["int"] [])))] []
                                                  (CName false None ["bool"] [])))] []
                 (CPtr false [] (CName false (Some "struct") ["Foo"] [])));
         Some (CFun [(Some "self", CPtr false [] (CName true (Some "struct") ["Foo"] []))] [] (CName false None ["uintptr_t"] []));
         Some (CFun [(Some "fmt", CPtr false [] (CName true None ["char"] [])); (None, CDots)] [] (CName false None ["void"] []))],
        written ["#include <stdarg.h>"; "#include <stdbool.h>"; "#include <stdint.h>"; "#include <stdlib.h>"; "";
                 "struct Foo {"; "  uint8_t x;"; "};"; "";
                 "struct Foo *make(const uint8_t *p, struct Foo *int_, bool (*cb)(const int (*in)[3]));"; "";
                 "uintptr_t foo_len(const struct Foo *self);"; "";
                 "void stop(const char *fmt, ...);"]).
Proof. intros. vm_compute. reflexivity. Qed.
Example C43_example_meets : sources_read signature_disk (parse c_tags) [["x.rs"]] None
    [[{| vi_file := Some ["x.rs"]; vi_guards := []; vi_items := signature_items |}]] []
  /\ Forall item_ok signature_items
  /\ exists ds, callables signature_items ds /\ map dc_symbol ds = ["make"; "foo_len"; "stop"]
  /\ forall dc, In dc ds -> exists ann, AnnotationSet_load (dc_attrs dc) = Some ann /\ kept ann = true /\ an_list ann "ptrs-as-arrays" = None
       /\ rule_or ann "rename-all" (fn_rename_args (function c_tags)) = Some RNone /\ usable c_tags (dc_symbol dc) = true.
Proof.
  assert (N : attributes_ok [no_mangle]).
  { split; [intros a args [<- |[]]; discriminate|]. intros a b m n [<- |[]] _ [Q|Q]; discriminate. }
  assert (S0 : forall n, symbol [no_mangle] n n).
  { intro n. right. split; [intros a m [<- |[]] [Q|Q]; discriminate|]. split; [|reflexivity]. exists no_mangle. split; [left; reflexivity|left; reflexivity]. }
  assert (A0 : c_abi (Some (Some "C"))) by (eexists; split; [reflexivity|cbn; auto]).
  split; [|split].
  - constructor; [|reflexivity]. constructor; [|constructor]. exists signature_items. split; [reflexivity|]. apply vi_module. apply su_nil.
  - repeat constructor; try (intros [m [u Q]]; discriminate); try apply N; match goal with J : In _ _ |- _ => destruct J as [Q|[]]; injection Q as <- <- <- end;
      try exact N; try apply N. repeat constructor. intros [m [u Q]]; discriminate.
  - eexists. split.
    + eapply (cs_cons _ _ []); [apply ca_other; exact Logic.I|].
      eapply (cs_cons _ _ [_]); [apply ca_fn; [reflexivity|exact A0|apply S0]|].
      eapply cs_cons; [apply ca_impl; [reflexivity|eapply mo_take; [reflexivity|exact A0|apply S0|apply mo_nil]]|].
      eapply (cs_cons _ _ [_]); [apply ca_fn; [reflexivity|exact A0|apply S0]|apply cs_nil].
    + split; [reflexivity|]. intros dc J. cbn in J. destruct J as [<- |[<- |[<- |[]]]]; eexists; (split; [vm_compute; reflexivity|]); repeat split.
Qed.

(** ** Where the property fails *)
Definition one_function {H : Heck} (i : sitem) : option string :=
  match parse_all {| dk_exists := fun _ => false; dk_items := fun _ => Some [i] |} c_tags false 9 9 true [["x.rs"]] None with
  | Parsed l => match generate 9 (fun x => x) l with
                | Done b => match bindings_text 20 b with Done t => Some t | _ => None end
                | _ => None
                end
  | _ => None
  end.
Definition headed (s : string) : option string :=
  Some (written ["#include <stdarg.h>"; "#include <stdbool.h>"; "#include <stdint.h>"; "#include <stdlib.h>"; ""; s]).
(** A [Cell] (an [UnsafeCell], a [MaybeUninit]) hides that what is inside is
    never null, so [Option<Cell<&T>>] is larger than a pointer; it is declared as
    a pointer. *)
Theorem C43_niche_refuted : forall H : Heck,
  Forall (fun w => one_function (ItemFn [no_mangle] true (sig_ "f" [arg_ "x" (of_ "Option" (of_ w (SRef false (named "u8"))))] None))
                   = headed "void f(const uint8_t *x);"
                   /\ rust_type c_tags (fun _ => None) None false false (of_ "Option" (of_ w (SRef false (named "u8")))) = None)
    ["Cell"; "UnsafeCell"; "SyncUnsafeCell"; "MaybeUninit"].
Proof. intros. repeat constructor; vm_compute; reflexivity. Qed.
Print Assumptions C43_niche_refuted.
(** A static that is a pointer and cannot be changed, [static X: *mut u8], is
    declared as a pointer that can be changed to bytes that cannot. *)
Theorem C43_static_pointer_refuted : forall H : Heck,
  one_function (ItemStatic [no_mangle] "X" false (SPtr true (named "u8"))) = headed "extern const uint8_t *X;".
Proof. intros. vm_compute. reflexivity. Qed.
Print Assumptions C43_static_pointer_refuted.

(** Types that are not recognised: the table has [NonZeroUSize] and
    [NonZeroISize], which do not exist, and a wrapper loses the argument [()]. *)
Theorem C43_not_recognised_refuted : forall H : Heck,
  Forall (fun x => one_function (ItemFn [no_mangle] true (sig_ "f" [arg_ "x" (fst x)] None)) = headed (snd x))
    [(named "NonZeroUsize", "void f(NonZeroUsize x);"); (named "NonZeroIsize", "void f(NonZeroIsize x);");
     (named "NonZeroUSize", "void f(uintptr_t x);"); (of_ "NonNull" (STuple []), "void f(NonNull x);");
     (of_ "Box" (STuple []), "void f(Box x);")].
Proof. intros. repeat constructor; vm_compute; reflexivity. Qed.
Print Assumptions C43_not_recognised_refuted.
