(** C52 in the text of the header *)
Require Import Coq.Strings.String Coq.Strings.Ascii Coq.Lists.List Coq.Bool.Bool Coq.Arith.Arith Coq.NArith.NArith Coq.ZArith.ZArith Coq.micromega.Lia.
From Verif Require Import Base P_Base S_Lex P_Lex M_Reserved M_Config M_Writer S_Writer M_Cfg S_Cfg P_Cfg M_Type M_Ir M_Item S_Decl M_Attr M_Docs M_Library M_Literal M_Cdecl M_Bindings M_Backend M_Syn M_Loader M_Parser S_Library S_Names
  S_Parse P_Triples P_Library S_File P_File S_Signature P_SigLib S_Sources S_Expr S_Literal P_Literal S_Value P_Value S_Datatypes S_Shown P_Shown P_Datatypes P_DataText S_Enums P_Enums P_EnumText S_Constants P_Constants P_ConstText P_Sources S_Complete P_Complete.
Import ListNotations.
Open Scope string_scope.

Lemma bindings_config : forall (H : Heck) d c bitflags mfuel fuel std srcs lib l pfuel visit l' b, parse_all d c bitflags mfuel fuel std srcs lib = Parsed l ->
  prepare pfuel visit l = Done l' -> finish l' = Done b -> b_config b = c /\ b_noop b = false.
Proof.
  intros H d c bitflags mfuel fuel std srcs lib l pfuel visit l' b Q Hp Hf.
  assert (LC : l_config l = c). { destruct (all_sound _ _ _ _ _ _ _ _ _ Q) as (? & ? & ? & ? & _ & _ & _ & _ & Z & _). exact Z. }
  unfold finish in Hf. destruct (library_dependencies l') as [dd| |]; try discriminate.
  apply (f_equal (fun o => match o with Done x => Some x | _ => None end)) in Hf. injection Hf as <-. cbn [b_config b_noop]. split; [|reflexivity].
  apply prepare_stages in Hp as (l1 & l2 & l3 & l4 & St). rewrite <- LC. apply (stages_config _ _ _ _ _ _ _ _ _ St).
Qed.
Theorem constants_complete_text : forall (H : Heck) d c bitflags mfuel fuel std srcs lib l, parse_all d c bitflags mfuel fuel std srcs lib = Parsed l ->
  exists vss rs, sources_read d (parse c) srcs lib vss rs
    /\ forall pfuel visit l' b wfuel t types names c_names, prepare pfuel visit l = Done l' -> finish l' = Done b -> bindings_text wfuel b = Done t ->
         proper_attributes c = true -> tab_width c <> 0 -> language c <> Cython ->
         (forall k m, In (k, m) (defines c) -> macro_name false m = true) ->
         standard_types types -> Forall (fun a => S_Lex.is_ident a = true /\ S_Value.named_type a = None) (pointer_words (dialect_of c)) ->
         constants_known c names c_names ->
         forall v attrs ident ty value, module_bound (parse c) lib vss rs v -> In (ItemConst attrs true ident ty value) (vi_items v) -> bindable_constant c attrs ident ty value ->
           constant_alone vss rs v (ItemConst attrs true ident ty value) (unraw ident) ->
           number_written b c types names c_names (vi_guards v) None (Some (free_constant_name c None ident)) false attrs ty value t.
Proof.
  intros H d c bitflags mfuel fuel std srcs lib l Q. destruct (constants_complete H d c bitflags mfuel fuel std srcs lib l Q) as (vss & rs & R & G).
  exists vss, rs. split; [exact R|]. intros pfuel visit l' b wfuel t types names c_names Hp Hf W PA TW NC MN ST PW CK v attrs ident ty value MB Ii BI AL.
  destruct (G _ _ _ _ Hp Hf v attrs ident ty value MB Ii BI) as [_ G1]. destruct (G1 AL) as (k & I & KF & RC).
  destruct (bindings_config H _ _ _ _ _ _ _ _ _ _ _ _ _ Q Hp Hf) as [BC BN].
  assert (CY : Language_eqb (language c) Cython = false) by (destruct (language c); try reflexivity; exfalso; exact (NC eq_refl)).
  clear Q G Hp Hf l' l R G1 MB Ii BI AL. subst c.
  exact (free_number_said H wfuel b types t names c_names W BN PA CY TW MN ST PW CK (vi_guards v) _ None attrs ident ty value k I KF RC).
Qed.

Theorem statics_complete_text : forall (H : Heck) d c bitflags mfuel fuel std srcs lib l, parse_all d c bitflags mfuel fuel std srcs lib = Parsed l ->
  exists vss rs, sources_read d (parse c) srcs lib vss rs
    /\ forall pfuel visit l' b wfuel t, prepare pfuel visit l = Done l' -> finish l' = Done b -> bindings_text wfuel b = Done t ->
         proper_attributes c = true -> tab_width c <> 0 -> (forall v, In v (modules_read vss rs) -> exports_ok v) ->
         forall v attrs ident mutable ty n, module_bound (parse c) lib vss rs v -> In (ItemStatic attrs ident mutable ty) (vi_items v) -> symbol attrs (unraw ident) n -> bindable_static c attrs n ty ->
           (forall a, AnnotationSet_load attrs = Some a -> S_File.kept a = true) -> static_alone vss rs v (ItemStatic attrs ident mutable ty) n ->
           says_static c (keyword_in l') n mutable ty t.
Proof.
  intros H d c bitflags mfuel fuel std srcs lib l Q. destruct (statics_complete H d c bitflags mfuel fuel std srcs lib l Q) as (vss & rs & R & G).
  exists vss, rs. split; [exact R|]. intros pfuel visit l' b wfuel t Hp Hf W PA TW EO v attrs ident mutable ty n MB Ii SY BI KE AL.
  destruct (G _ _ _ _ Hp Hf EO v attrs ident mutable ty n MB Ii SY BI) as [_ G1]. destruct (G1 AL) as (g & I & GF).
  destruct (bindings_config H _ _ _ _ _ _ _ _ _ _ _ _ _ Q Hp Hf) as [BC BN]. rewrite <- BC in PA, TW.
  assert (IG : In (AGlobal g) (definitions b ++ symbols b)).
  { apply in_or_app; right; unfold symbols; apply in_or_app; left; apply in_map, filter_In. split; [exact I|]. exact (KE _ (gf_annotations _ _ _ _ _ _ _ _ GF)). }
  destruct (declaration_text H wfuel b t _ PA TW BN W IG) as (s & ps & WS & IP & MO). destruct IP as [<-|[]].
  rewrite <- (gf_name _ _ _ _ _ _ _ _ GF). exact (static_says H b c (keyword_in l') mutable ty g s t BC (gf_mutable _ _ _ _ _ _ _ _ GF) WS MO (gf_type _ _ _ _ _ _ _ _ GF)).
Qed.
