(** C47: data has the same layout in C as in Rust. *)
Require Import Coq.Strings.String Coq.Strings.Ascii Coq.Lists.List Coq.Bool.Bool Coq.Arith.Arith Coq.NArith.NArith.
From Verif Require Import Base M_Config M_Cfg S_Cfg M_Type M_Ir M_Item M_Attr M_Syn M_Library M_Bindings M_Backend S_Decl M_Loader M_Parser S_Parse S_Library S_Names S_File S_Heck S_Suite
  S_Sources S_Signature S_Datatypes S_Enums S_Layout S_Type P_Base P_Cfg P_Mangle P_Layout T_Parse T_Signature T_Datatypes T_Enums T_Constants.
Import ListNotations.
Open Scope string_scope.

(** Whenever both are known, the size and the alignment of a C type are those of
    the Rust type it stands for, and a type the header declares has the size, the
    alignment and the offsets of its definition in the sources: on any machine
    and platform, if the configuration has a macro for each condition. *)
Theorem C47_layouts : forall (H : Heck) d c bitflags mfuel fuel std srcs lib l, parse_all d c bitflags mfuel fuel std srcs lib = Parsed l ->
  exists vss rs, sources_read d (parse c) srcs lib vss rs
    /\ forall pfuel visit l' b m rho mu value c_value, prepare pfuel visit l = Done l' -> finish l' = Done b ->
         comparable (keyword_in l') m rho mu value c_value vss rs b -> same_layouts c (keyword_in l') m rho mu value c_value vss rs b.
Proof. exact layouts_sources. Qed.
Print Assumptions C47_layouts.

(** ** An example *)
Definition repr_ (n : string) : attribute := att (AList (Some "repr") [APath (Some n)]).
Definition layout_items : list sitem :=
  [ItemStruct [repr_c_] "Foo" [] (FieldsNamed
     [fld_ "a" "u8"; of_type "gone" (of_ "PhantomData" (named "u8"));
      {| sf_attrs := [cfg_ "unix"]; sf_ident := Some "b"; sf_ty := named "u64" |};
      of_type "c" (SArray (named "u16") (XPath (SegPath [] "N" NoArgs)));
      of_type "p" (SPtr false (named "Self"));
      fld_ "e" "Shape"; fld_ "h" "Handle"]);
   ItemEnum [repr_ "u8"] "Shape" []
     [variant_ [] "Nothing" FieldsUnit None; variant_ [] "Circle" (FieldsNamed [fld_ "r" "u32"]) None; variant_ [] "Pair" (FieldsUnnamed [bare (named "u8"); bare (named "u16")]) None];
   ItemStruct [transparent_] "Handle" [] (FieldsUnnamed [bare (of_ "PhantomData" (named "Foo")); bare (of_ "NonNull" (named "Foo"))]);
   ItemConst [] true "N" (named "usize") (XLit (LitInt 3 ""));
   ItemFn [no_mangle] true (sig_ "go" [arg_ "x" (named "Foo")] None)].
Definition layout_disk : disk := {| dk_exists := fun _ => false; dk_items := fun _ => Some layout_items |}.
Example C47_example : run_items (H := ascii_heck) c_defines layout_items = c_headed
  ["#define N 3"; "";
   "enum Shape_Tag"; "#if __STDC_VERSION__ >= 202311L"; "  : uint8_t"; "#endif // __STDC_VERSION__ >= 202311L"; " {"; "  Nothing,"; "  Circle,"; "  Pair,"; "};";
   "#if __STDC_VERSION__ >= 202311L"; "typedef enum Shape_Tag Shape_Tag;"; "#else"; "typedef uint8_t Shape_Tag;"; "#endif // __STDC_VERSION__ >= 202311L"; "";
   "struct Circle_Body {"; "  Shape_Tag tag;"; "  uint32_t r;"; "};"; "";
   "struct Pair_Body {"; "  Shape_Tag tag;"; "  uint8_t _0;"; "  uint16_t _1;"; "};"; "";
   "union Shape {"; "  Shape_Tag tag;"; "  struct Circle_Body circle;"; "  struct Pair_Body pair;"; "};"; "";
   "typedef struct Foo *Handle;"; "";
   "struct Foo {"; "  uint8_t a;"; "#if defined(UNIX)"; "  uint64_t b"; "#endif"; "  ;"; "  uint16_t c[N];"; "  const struct Foo *p;"; "  union Shape e;"; "  Handle h;"; "};"; "";
   "void go(struct Foo x);"].
Proof. vm_compute. reflexivity. Qed.
(** It meets the hypotheses, on a machine of 64 bits: *)
Definition in_64_bits : machine := {| pointer_bytes := 8; long_bytes := 8; wide_alignment := 8; enumeration_layout := (4, 4) |}%N.
Definition layout_visits : list (list visit) := [[{| vi_file := Some ["x.rs"]; vi_guards := []; vi_items := layout_items |}]].
Definition run_library (c : Config) (items : list sitem) : option (Library * Bindings) :=
  match parse_all (H := ascii_heck) {| dk_exists := fun _ => false; dk_items := fun _ => Some items |} c false 9 9 true [["x.rs"]] None with
  | Parsed l => match prepare (H := ascii_heck) 9 (fun x => x) l with Done l' => match finish l' with Done b => Some (l', b) | _ => None end | _ => None end
  | _ => None
  end.
Definition layout_run : option (Library * Bindings) := run_library c_defines layout_items.
Definition unix_only : string -> bool := String.eqb "UNIX".
Definition n_is_3 (n : string) : option N := if String.eqb n "N" then Some 3%N else None.
Definition foo_fields : sfields := match nth 0 layout_items (ItemOther []) with ItemStruct _ _ _ f => f | _ => FieldsUnit end.
Definition shape_variants : list svariant := match nth 1 layout_items (ItemOther []) with ItemEnum _ _ _ f => f | _ => [] end.
Definition handle_fields : sfields := match nth 2 layout_items (ItemOther []) with ItemStruct _ _ _ f => f | _ => FieldsUnit end.
Lemma layout_defined : forall rho attrs ident x, defined rho layout_visits [] attrs ident x ->
  In (attrs, ident, x) [([repr_c_], "Foo", BStruct foo_fields); ([repr_ "u8"], "Shape", BEnum shape_variants); ([transparent_], "Handle", BStruct handle_fields)].
Proof.
  intros rho attrs ident x (v & i & (V & I & _) & D & _). destruct V as [<-|[]]. cbn [vi_items] in I.
  repeat (destruct I as [<-|I]; [inversion D as [? ? ? ? ? DS| | |]; subst; try (inversion DS; subst); cbn; tauto|]). destruct I.
Qed.
Lemma instances_underscored : forall (H : Heck) m p args, remove_underscores m = false -> args <> [] -> no_underscore (mangle_path p args m) = false.
Proof.
  intros H m p [|a args] R N; [contradiction|]. unfold mangle_path, mangle_name. rewrite mangle_gpath_eq. cbn [mangle_push]. unfold mangle_push. rewrite R.
  induction p as [|x p IH]; [reflexivity|]. cbn [append no_underscore]. rewrite IH. apply andb_false_r.
Qed.
Example C47_example_meets : exists l' b, layout_run = Some (l', b) /\ sources_read layout_disk (parse c_defines) [["x.rs"]] None layout_visits []
  /\ comparable (H := ascii_heck) (keyword_in l') in_64_bits (on "unix") unix_only n_is_3 n_is_3 layout_visits [] b.
Proof.
  eexists _, _. split; [vm_compute; reflexivity|]. split.
  - constructor; [|reflexivity]. constructor; [|constructor]. exists layout_items. split; [reflexivity|]. constructor. constructor.
  - constructor.
    + repeat split; discriminate.
    + intros k m a J D. apply denotes_load in D. destruct J as [J|[J|[]]]; injection J as <- <-; destruct a as [w|w x]; try discriminate D; injection D as <-; reflexivity.
    + intros x g J G. repeat (destruct J as [<-|J]; [repeat (destruct G as [<-|G]; [first [exact Logic.I|split; [intros a [<-|[]]; exists "unix", "UNIX"; split; [left; reflexivity|constructor; reflexivity]|reflexivity]]|]); destruct G|]). destruct J.
    + intros n k E. unfold n_is_3 in *. destruct (String.eqb_spec n "N") as [->|]; [|discriminate E]. exact E.
    + intros attrs ident x attrs' ident' x' D D' E. apply layout_defined in D. apply layout_defined in D'.
      repeat (destruct D as [D|D]; [injection D as <- <- <-; repeat (destruct D' as [D'|D']; [injection D' as <- <- <-; first [split; reflexivity|discriminate E]|]); destruct D'|]). destruct D.
    + intros attrs ident x attrs' ident' x' D D' E. apply layout_defined in D. apply layout_defined in D'.
      repeat (destruct D as [D|D]; [injection D as <- <- <-; repeat (destruct D' as [D'|D']; [injection D' as <- <- <-; first [reflexivity|vm_compute in E; discriminate E]|]); destruct D'|]). destruct D.
    + intros attrs ident x D. apply layout_defined in D. repeat (destruct D as [D|D]; [injection D as <- <- <-; reflexivity|]). destruct D.
    + intros x J (_ & p & args & NE & E). exfalso. apply (f_equal no_underscore) in E. rewrite instances_underscored in E by (exact NE || reflexivity).
      repeat (destruct J as [<-|J]; [discriminate E|]). destruct J.
    + intros e t J E. assert (T : t = "Shape_Tag") by (repeat (destruct J as [J|J]; [discriminate J || (injection J as <-; cbn in E; congruence)|]); destruct J). subst t.
      split; [reflexivity|]. intros attrs ident x D. apply layout_defined in D. repeat (destruct D as [D|D]; [injection D as <- <- <-; vm_compute; discriminate|]). destruct D.
    + intros attrs ident x i D _ _. apply layout_defined in D.
      repeat (destruct D as [D|D]; [injection D as <- <- <-; repeat (apply Forall_cons; [vm_compute; discriminate|]); apply Forall_nil|]). destruct D.
    + intros v attrs ident generics fields (V & J & _). destruct V as [<-|[]]. cbn [vi_items] in J. repeat (destruct J as [J|J]; [discriminate J|]). destruct J.
    + intros attrs ident fields r D R ST. apply layout_defined in D. repeat (destruct D as [D|D]; [first [discriminate D|injection D as <- <- <-; vm_compute in R; injection R as <-; first [discriminate ST|eexists; split; reflexivity]]|]). destruct D.
Qed.
(** and the layouts are known on both sides, with gaps and with a marker. *)
Definition layout_module : visit := {| vi_file := Some ["x.rs"]; vi_guards := []; vi_items := layout_items |}.
Lemma layout_read : forall i, In i layout_items -> should_skip_parsing (item_attrs i) = false -> item_read layout_visits [] layout_module i.
Proof. intros i I S. split; [left; reflexivity|split; assumption]. Qed.
Lemma shape_defined : defined (on "unix") layout_visits [] [repr_ "u8"] "Shape" (BEnum shape_variants).
Proof. exists layout_module, (nth 1 layout_items (ItemOther [])). split; [apply layout_read; [right; left; reflexivity|reflexivity]|]. split; [apply (dt_enum _ _ []); reflexivity|split; reflexivity]. Qed.
Lemma handle_defined : defined (on "unix") layout_visits [] [transparent_] "Handle" (BStruct handle_fields).
Proof. exists layout_module, (nth 2 layout_items (ItemOther [])). split; [apply layout_read; [right; right; left; reflexivity|reflexivity]|]. split; [apply (dt_struct _ _ _ []); [constructor|reflexivity]|split; reflexivity]. Qed.
Lemma foo_sized : forall self n, self_name self (unraw n) = "Foo" -> n <> "str" -> ~ variable_size (on "unix") layout_visits [] self (named n).
Proof.
  assert (LAST : forall A (x y : A) l r, (l ++ [x])%list = (r ++ [y])%list -> x = y) by (intros A x y l r E; apply app_inj_tail in E; apply E).
  assert (Q : forall self, ~ variable_size (on "unix") layout_visits [] self (of_ "NonNull" (named "Foo"))).
  { intros self V. inversion V as [| |? ? ? ? N|? ? ? ? ? ? ? ? ? D U|? ? ? ? ? ? ? D U]; subst; [apply N; left; reflexivity|..]; apply layout_defined in D;
      repeat (destruct D as [D|D]; [first [discriminate D|injection D as <- <- <-; destruct self; discriminate U]|]); destruct D. }
  assert (R : ~ variable_size (on "unix") layout_visits [] (Some "Foo") (named "Handle")).
  { intro V. inversion V as [| | |? ? ? ? ? ? ? ? ? D U S V'|? ? ? ? ? ? ? D U]; subst; apply layout_defined in D;
      repeat (destruct D as [D|D]; [first [discriminate D|injection D as <- <- <-; first [discriminate U|idtac]]|]); try destruct D.
    apply (LAST _ _ _ [_]) in S. subst. exact (Q _ V'). }
  intros self n SN NS V. inversion V as [| | |? ? ? ? ? ? ? ? ? D U S V'|? ? ? ? ? ? ? D U]; subst; [exact (NS eq_refl)|..]; apply layout_defined in D;
    repeat (destruct D as [D|D]; [first [discriminate D|injection D as <- <- <-; first [rewrite SN in U; discriminate U|idtac]]|]); try destruct D.
  apply (LAST _ _ _ [_; _; _; _; _; _]) in S. subst. exact (R V').
Qed.
Example C47_example_layouts : exists l' b i, layout_run = Some (l', b) /\ In i (b_items b) /\ item_name i = "Foo"
  /\ type_layout in_64_bits (on "unix") n_is_3 layout_visits [] "Foo" [repr_c_] (BStruct foo_fields) ([0; 1; 8; 16; 24; 32; 40]%N, (48, 8)%N)
  /\ item_layout in_64_bits unix_only n_is_3 b i ([0; 8; 16; 24; 32; 40]%N, (48, 8)%N).
Proof.
  eexists _, _, _. split; [vm_compute; reflexivity|]. split; [right; right; left; reflexivity|]. split; [reflexivity|].
  assert (SC : forall self n l, lookup (unraw n) (rust_scalars in_64_bits) = Some l -> rust_layout in_64_bits (on "unix") n_is_3 layout_visits [] self (named n) l) by (intros; constructor; assumption).
  split.
  - change ([0; 1; 8; 16; 24; 32; 40]%N, (48, 8)%N) with (struct_layout None [(1, 1); (0, 1); (8, 8); (6, 2); (8, 8); (8, 4); (8, 8)]%N).
    refine (rt_struct _ _ _ _ _ _ [repr_c_] _ {| rp_style := ReprC; rp_ty := None; rp_align := None |} _ eq_refl eq_refl _).
    apply rf_cons; [apply SC; reflexivity|]. apply rf_cons; [apply rl_nothing; reflexivity|]. apply rf_cons; [apply SC; reflexivity|].
    apply rf_cons; [apply (rl_array _ _ _ _ _ _ _ _ 2%N 2%N 3%N); [apply SC; reflexivity|reflexivity]|].
    apply rf_cons; [apply rl_pointer, foo_sized; [reflexivity|discriminate]|].
    apply rf_cons; [|apply rf_cons; [|apply rf_nil]].
    + refine (rl_named _ _ _ _ _ (Some "Foo") [] "Shape" NoArgs [repr_ "u8"] "Shape" (BEnum shape_variants) ([], (8, 4)%N) eq_refl eq_refl _ shape_defined eq_refl _);
        [apply mem_str_false; reflexivity|].
      change ([] : list N, (8, 4)%N) with ([] : list N, union_layout None [(1, 1); (8, 4); (4, 2)]%N).
      refine (rt_variants _ _ _ _ _ _ [repr_ "u8"] _ {| rp_style := ReprRust; rp_ty := Some {| rt_kind := B8; rt_signed := false |}; rp_align := None |} _ _ eq_refl eq_refl eq_refl _ _).
      * intro F. apply Forall_inv_tail, Forall_inv in F. discriminate F.
      * refine (rv_cons _ (on "unix") _ _ _ _ (Some (1, 1)%N) (nth 0 shape_variants (variant_ [] "" FieldsUnit None)) [] (tl shape_variants) [(8, 4); (4, 2)]%N _ _); [apply rf_nil|].
        refine (rv_cons _ (on "unix") _ _ _ _ (Some (1, 1)%N) (nth 1 shape_variants (variant_ [] "" FieldsUnit None)) [(4, 4)%N] (tl (tl shape_variants)) [(4, 2)]%N _ _); [apply rf_cons; [apply SC; reflexivity|apply rf_nil]|].
        refine (rv_cons _ (on "unix") _ _ _ _ (Some (1, 1)%N) (nth 2 shape_variants (variant_ [] "" FieldsUnit None)) [(1, 1); (2, 2)]%N [] [] _ _); [repeat (apply rf_cons; [apply SC; reflexivity|]); apply rf_nil|]. apply rv_nil.
    + refine (rl_named _ _ _ _ _ (Some "Foo") [] "Handle" NoArgs [transparent_] "Handle" (BStruct handle_fields) ([], (8, 8)%N) eq_refl eq_refl _ handle_defined eq_refl _);
        [apply mem_str_false; reflexivity|].
      refine (rt_transparent _ _ _ _ _ _ [transparent_] _ {| rp_style := ReprTransparent; rp_ty := None; rp_align := None |} [(0, 1)%N] _ [] eq_refl eq_refl _ _); [|apply Forall_cons; [reflexivity|apply Forall_nil]].
      apply rf_cons; [apply rl_nothing; reflexivity|]. apply rf_cons; [|apply rf_nil]. apply rl_owning; [left; reflexivity|apply foo_sized; [reflexivity|discriminate]].
  - change ([0; 8; 16; 24; 32; 40]%N, (48, 8)%N) with (struct_layout None [(1, 1); (8, 8); (6, 2); (8, 8); (8, 4); (8, 8)]%N).
    apply ci_struct; [reflexivity|reflexivity| |discriminate].
    apply cf_cons; [apply cl_scalar; reflexivity|]. apply cf_cons; [apply cl_scalar; reflexivity|].
    apply cf_cons; [apply (cl_array _ _ _ _ _ "N" _ 2%N 2%N 3%N); [apply cl_scalar; reflexivity|reflexivity]|].
    apply cf_cons; [apply cl_pointer|]. apply cf_cons; [|apply cf_cons; [|apply cf_nil]].
    + match goal with |- c_layout ?m ?mu ?v ?b _ _ _ =>
        let y := eval cbv in (nth_error (b_items b) 0) in
        match y with Some ?y => refine (cl_named m mu v b None false _ y ([], (8, 4)%N) Logic.I (or_introl eq_refl) eq_refl _) end end.
      change ([] : list N, (8, 4)%N) with ([] : list N, union_layout None [(1, 1); (8, 4); (4, 2)]%N).
      match goal with |- item_layout ?m ?mu ?v ?b (ICEnum ?e) _ => refine (ci_variants m mu v b e "Shape_Tag" [(8, 4); (4, 2)]%N eq_refl eq_refl _ _); [discriminate|] end.
      match goal with |- bodies_layout ?m ?mu ?v ?b ?own ?l _ =>
        let l' := eval cbv in l in
        match l' with ?x :: ?r => refine (cb_cons m mu v b own x [(1, 1); (4, 4)]%N r [(4, 2)%N] _ _ _); [|discriminate|] end end.
      * apply cf_cons; [apply cl_own; reflexivity|]. apply cf_cons; [apply cl_scalar; reflexivity|apply cf_nil].
      * match goal with |- bodies_layout ?m ?mu ?v ?b ?own (?x :: _) _ => refine (cb_cons m mu v b own x [(1, 1); (1, 1); (2, 2)]%N [] [] _ _ _); [|discriminate|apply cb_nil] end.
        apply cf_cons; [apply cl_own; reflexivity|]. repeat (apply cf_cons; [apply cl_scalar; reflexivity|]). apply cf_nil.
    + match goal with |- c_layout ?m ?mu ?v ?b _ _ _ =>
        let y := eval cbv in (nth_error (b_items b) 1) in
        match y with Some ?y => refine (cl_named m mu v b None false _ y ([], (8, 8)%N) Logic.I (or_intror (or_introl eq_refl)) eq_refl _) end end.
      eapply ci_transparent; [vm_compute; reflexivity|reflexivity|apply cl_pointer].
Qed.

(** ** Where the layouts differ *)
(** The header declares a type [ident] of the sources with another layout. *)
Definition module_of (items : list sitem) : visit := {| vi_file := Some ["x.rs"]; vi_guards := []; vi_items := items |}.
Definition differs (c : Config) (system : string) (items : list sitem) (attrs : attributes) (ident : string) (x : body) (rust in_c : N * N) : Prop :=
  exists l' b i o o', run_library c items = Some (l', b) /\ defined (on system) [[module_of items]] [] attrs ident x
    /\ type_layout in_64_bits (on system) n_is_3 [[module_of items]] [] ident attrs x (o, rust)
    /\ In i (b_items b) /\ item_name i = ident /\ item_cfg_of i = None /\ item_layout in_64_bits (fun _ => false) n_is_3 b i (o', in_c) /\ rust <> in_c.
Lemma defined_here : forall rho items i attrs ident x, In i items -> should_skip_parsing (item_attrs i) = false -> defines_type i attrs ident x -> attrs_hold rho attrs = true ->
  defined rho [[module_of items]] [] attrs ident x.
Proof. intros rho items i attrs ident x I S D A. exists (module_of items), i. split; [split; [left; reflexivity|split; assumption]|]. split; [exact D|split; [reflexivity|exact A]]. Qed.
(** A transparent struct is its first field, even if that is empty, *)
Definition empty_first : sfields := FieldsUnnamed [bare (SArray (named "u8") (XLit (LitInt 0 ""))); bare (named "u32")].
Definition empty_items : list sitem := [ItemStruct [transparent_] "W" [] empty_first; ItemFn [no_mangle] true (sig_ "go" [arg_ "x" (SPtr false (named "W"))] None)].
Theorem C47_transparent_refuted : differs c_defines "unix" empty_items [transparent_] "W" (BStruct empty_first) (4, 4)%N (0, 1)%N.
Proof.
  eexists _, _, _, _, _. split; [vm_compute; reflexivity|]. split; [eapply defined_here; [left; reflexivity|reflexivity|apply (dt_struct _ _ _ []); [constructor|reflexivity]|reflexivity]|]. split.
  - refine (rt_transparent in_64_bits _ _ _ _ _ [transparent_] _ {| rp_style := ReprTransparent; rp_ty := None; rp_align := None |} [(0, 1)%N] _ [] eq_refl eq_refl _ _);
      [|apply Forall_cons; [reflexivity|apply Forall_nil]].
    apply rf_cons; [apply (rl_array _ _ _ _ _ _ _ _ 1%N 1%N 0%N); [constructor; reflexivity|reflexivity]|]. apply rf_cons; [constructor; reflexivity|apply rf_nil].
  - split; [left; reflexivity|]. split; [reflexivity|]. split; [reflexivity|]. split; [|discriminate].
    eapply ci_transparent; [vm_compute; reflexivity|reflexivity|apply (cl_array _ _ _ _ _ "0" _ 1%N 1%N 0%N); [apply cl_scalar; reflexivity|reflexivity]].
Qed.
Print Assumptions C47_transparent_refuted.
(** or not there on this platform. *)
Definition either_field : sfields :=
  FieldsUnnamed [{| sf_attrs := [cfg_ "unix"]; sf_ident := None; sf_ty := named "u32" |}; {| sf_attrs := [cfg_ "windows"]; sf_ident := None; sf_ty := named "u64" |}].
Definition either_items : list sitem := [ItemStruct [transparent_] "W" [] either_field; ItemFn [no_mangle] true (sig_ "go" [arg_ "x" (named "W")] None)].
Theorem C47_conditional_refuted : differs c_defines "windows" either_items [transparent_] "W" (BStruct either_field) (8, 8)%N (4, 4)%N.
Proof.
  eexists _, _, _, _, _. split; [vm_compute; reflexivity|]. split; [eapply defined_here; [left; reflexivity|reflexivity|apply (dt_struct _ _ _ []); [constructor|reflexivity]|reflexivity]|]. split.
  - refine (rt_transparent in_64_bits _ _ _ _ _ [transparent_] _ {| rp_style := ReprTransparent; rp_ty := None; rp_align := None |} [] _ [] eq_refl eq_refl _ _); [|apply Forall_nil].
    apply rf_cons; [constructor; reflexivity|apply rf_nil].
  - split; [left; reflexivity|]. split; [reflexivity|]. split; [reflexivity|]. split; [|discriminate]. eapply ci_transparent; [vm_compute; reflexivity|reflexivity|apply cl_scalar; reflexivity].
Qed.
Print Assumptions C47_conditional_refuted.
(** In C++ the tag of an enum hides a type of the same name in the fields of its variants. *)
Definition tag_fields : sfields := FieldsNamed [fld_ "x" "u64"].
Definition hiding : list svariant := [variant_ [] "A" (FieldsNamed [fld_ "y" "Tag"; fld_ "z" "u8"]) None].
Definition hiding_items : list sitem :=
  [ItemStruct [repr_c_] "Tag" [] tag_fields; ItemEnum [repr_ "u8"] "E" [] hiding; ItemFn [no_mangle] true (sig_ "go" [arg_ "x" (named "E")] None)].
Theorem C47_tag_refuted : differs in_cxx_defines "unix" hiding_items [repr_ "u8"] "E" (BEnum hiding) (24, 8)%N (3, 1)%N.
Proof.
  eexists _, _, _, _, _. split; [vm_compute; reflexivity|]. split; [eapply defined_here; [right; left; reflexivity|reflexivity|apply (dt_enum _ _ []); reflexivity|reflexivity]|]. split.
  - refine (rt_variants in_64_bits _ _ _ _ _ [repr_ "u8"] _ {| rp_style := ReprRust; rp_ty := Some {| rt_kind := B8; rt_signed := false |}; rp_align := None |} _ [(24, 8)%N] eq_refl eq_refl eq_refl _ _).
    + intro F. apply Forall_inv in F. discriminate F.
    + refine (rv_cons _ (on "unix") _ _ _ _ (Some (1, 1)%N) (nth 0 hiding (variant_ [] "" FieldsUnit None)) [(8, 8); (1, 1)]%N [] [] _ _); [|apply rv_nil].
      apply rf_cons; [|apply rf_cons; [constructor; reflexivity|apply rf_nil]].
      refine (rl_named _ _ _ _ _ (Some "E") [] "Tag" NoArgs [repr_c_] "Tag" (BStruct tag_fields) ([0%N], (8, 8)%N) eq_refl eq_refl _ _ eq_refl _);
        [apply mem_str_false; reflexivity|eapply defined_here; [left; reflexivity|reflexivity|apply (dt_struct _ _ _ []); [constructor|reflexivity]|reflexivity]|].
      refine (rt_struct in_64_bits _ _ _ _ _ [repr_c_] _ {| rp_style := ReprC; rp_ty := None; rp_align := None |} [(8, 8)%N] eq_refl eq_refl _).
      apply rf_cons; [constructor; reflexivity|apply rf_nil].
  - split; [right; left; reflexivity|]. split; [reflexivity|]. split; [reflexivity|]. split; [|discriminate].
    match goal with |- item_layout ?m ?mu ?v ?b (ICEnum ?e) _ => refine (ci_variants m mu v b e "Tag" [(3, 1)]%N eq_refl eq_refl _ _); [discriminate|] end.
    match goal with |- bodies_layout ?m ?mu ?v ?b ?own ?l _ =>
      let l' := eval cbv in l in
      match l' with ?x :: ?r => refine (cb_cons m mu v b own x [(1, 1); (1, 1); (1, 1)]%N r [] _ _ _); [|discriminate|apply cb_nil] end end.
    apply cf_cons; [apply cl_own; reflexivity|]. apply cf_cons; [apply cl_own; reflexivity|]. apply cf_cons; [apply cl_scalar; reflexivity|apply cf_nil].
Qed.
Print Assumptions C47_tag_refuted.
(** Pointers to types of variable size (of two words in Rust) are pointers of one word in C. *)
Definition sliced : sfields := FieldsNamed [fld_ "n" "u8"; of_type "data" SOtherType].
Definition sliced_items : list sitem := [ItemStruct [repr_c_] "Foo" [] sliced; ItemFn [no_mangle] true (sig_ "go" [arg_ "x" (SRef false (named "Foo"))] None)].
Theorem C47_variable_size_refuted :
  run_items (H := ascii_heck) c_defines sliced_items = c_headed ["struct Foo;"; ""; "void go(const struct Foo *x);"]
  /\ variable_size (on "unix") [[module_of sliced_items]] [] None (named "Foo").
Proof.
  split; [vm_compute; reflexivity|].
  refine (vs_struct _ _ _ None [] "Foo" NoArgs [repr_c_] "Foo" sliced [fld_ "n" "u8"] _ _ eq_refl eq_refl (vs_other _ _ _ _)).
  eapply defined_here; [left; reflexivity|reflexivity|apply (dt_struct _ _ _ []); [constructor|reflexivity]|reflexivity].
Qed.
Print Assumptions C47_variable_size_refuted.
