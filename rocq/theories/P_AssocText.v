(** C52 for the constants of impl blocks, in the bindings and in the text *)
Require Import Coq.Strings.String Coq.Strings.Ascii Coq.Lists.List Coq.Bool.Bool Coq.Arith.Arith Coq.NArith.NArith Coq.ZArith.ZArith Coq.micromega.Lia.
From Verif Require Import Base P_Base S_Lex P_Lex M_Reserved M_Config M_Writer S_Writer M_Cfg S_Cfg P_Cfg M_Type M_Ir M_Item S_Decl M_Attr M_Docs M_Library M_Literal M_Cdecl M_Bindings M_Backend M_Syn M_Loader M_Parser S_Library S_Names
  S_Parse P_Triples P_Library S_File P_File S_Signature P_SigLib S_Sources S_Expr S_Literal P_Literal S_Value P_Value S_Datatypes S_Shown P_Shown P_Datatypes P_DataText S_Enums P_Enums P_EnumText S_Constants P_Constants P_ConstText P_Sources S_Complete P_Complete P_CompText P_Assoc.
Import ListNotations.
Open Scope string_scope.

Theorem associated_bound : forall (H : Heck) d c bitflags mfuel fuel std srcs lib l, parse_all d c bitflags mfuel fuel std srcs lib = Parsed l ->
  exists vss rs, sources_read d (parse c) srcs lib vss rs
    /\ forall pfuel visit l' b, prepare pfuel visit l = Done l' -> finish l' = Done b ->
       forall v own path T before attrs ident ty value after, let i := impl_block own path T before (ImplConst attrs true ident ty value) after in
         item_read vss rs v i -> no_struct_called vss rs (unraw T) -> none_private before -> bindable_associated c T attrs ident ty value ->
         (exists k, In k (b_constants b) /\ c_path k = unraw ident ++ unraw T)
         /\ (associated_alone vss rs v i attrs ident ty value (unraw ident ++ unraw T) ->
             exists k, In k (b_constants b) /\ constant_for c (module_holds v) (Some (unraw T)) attrs ident ty value k).
Proof.
  intros H d c bitflags mfuel fuel std srcs lib l Q. destruct (associated_complete H d c bitflags mfuel fuel std srcs lib l Q) as (vss & rs & R & G).
  exists vss, rs. split; [exact R|]. intros pfuel visit l' b Hp Hf v own path T before attrs ident ty value after i IR NS PR BI.
  destruct (G _ _ _ _ Hp Hf v own path T before attrs ident ty value after IR NS PR BI) as [G0 G1]. split; [exact G0|]. intro AL. destruct (G1 AL) as (k & I & KF & _). eauto.
Qed.
Theorem associated_text : forall (H : Heck) d c bitflags mfuel fuel std srcs lib l, parse_all d c bitflags mfuel fuel std srcs lib = Parsed l ->
  exists vss rs, sources_read d (parse c) srcs lib vss rs
    /\ forall pfuel visit l' b wfuel t types names c_names, prepare pfuel visit l = Done l' -> finish l' = Done b -> bindings_text wfuel b = Done t ->
         proper_attributes c = true -> tab_width c <> 0 -> language c <> Cython ->
         (forall k m, In (k, m) (defines c) -> macro_name false m = true) ->
         standard_types types -> Forall (fun a => S_Lex.is_ident a = true /\ S_Value.named_type a = None) (pointer_words (dialect_of c)) ->
         constants_known c names c_names ->
         forall v own path T before attrs ident ty value after, let i := impl_block own path T before (ImplConst attrs true ident ty value) after in
           item_read vss rs v i -> no_struct_called vss rs (unraw T) -> none_private before -> bindable_associated c T attrs ident ty value ->
           associated_alone vss rs v i attrs ident ty value (unraw ident ++ unraw T) ->
           number_written b c types names c_names (vi_guards v) (Some (unraw T)) (Some (free_constant_name c (Some (unraw T)) ident)) false attrs ty value t.
Proof.
  intros H d c bitflags mfuel fuel std srcs lib l Q. destruct (associated_complete H d c bitflags mfuel fuel std srcs lib l Q) as (vss & rs & R & G).
  exists vss, rs. split; [exact R|]. intros pfuel visit l' b wfuel t types names c_names Hp Hf W PA TW NC MN ST PW CK v own path T before attrs ident ty value after i IR NS PR BI AL.
  destruct (G _ _ _ _ Hp Hf v own path T before attrs ident ty value after IR NS PR BI) as [_ G1]. destruct (G1 AL) as (k & I & KF & RC).
  destruct (bindings_config H _ _ _ _ _ _ _ _ _ _ _ _ _ Q Hp Hf) as [BC BN].
  assert (CY : Language_eqb (language c) Cython = false) by (destruct (language c); try reflexivity; exfalso; exact (NC eq_refl)).
  clear Q G Hp Hf l' l R G1 IR NS PR BI AL. subst c.
  exact (free_number_said H wfuel b types t names c_names W BN PA CY TW MN ST PW CK (vi_guards v) _ (Some (unraw T)) attrs ident ty value k I KF RC).
Qed.
