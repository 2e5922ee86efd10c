(** Proofs for C19, concluded: fields, types and functions. *)
Require Import Coq.Strings.String Coq.Strings.Ascii Coq.Lists.List Coq.Bool.Bool Coq.Arith.Arith Coq.micromega.Lia.
From Verif Require Import Base P_Base S_Lex M_Config M_Writer S_Writer P_Writer M_Type M_Ir P_Type M_Cdecl S_Decl P_Tokens P_Cdecl P_Declared.
Import ListNotations.
Open Scope string_scope.

Section Config.
  Variable c : Config.

  (** ** The indentation is restored *)
  Lemma wb_write : forall s, well_bracketed (write s).
  Proof. reflexivity. Qed.
  Lemma wb_left : forall ds, well_bracketed (write_left c ds).
  Proof.
    induction ds as [|d ds IH]; [reflexivity|]. cbn [write_left]. apply wb_seq; [|exact IH].
    destruct d as [k n r|len|args lay nv]; cbn [write_left1].
    - unfold write_pointer. apply wb_seq; [reflexivity|]. apply wb_seq; [destruct k; reflexivity|].
      destruct (negb (Language_eqb (language c) Cython)); [|reflexivity]. destruct (negb n && negb r).
      + destruct (pt_non_null_attribute (pointer c)); reflexivity.
      + destruct n; [destruct (pt_nullable_attribute (pointer c)); reflexivity|reflexivity].
    - destruct (match ds with [] => false | x :: _ => declarator_is_ptr x end); reflexivity.
    - destruct (match ds with [] => false | x :: _ => declarator_is_ptr x end); reflexivity.
  Qed.
  Lemma wb_separated : forall sep l, well_bracketed sep -> Forall well_bracketed l -> well_bracketed (separated sep l).
  Proof.
    intros sep l Hs Hl. induction Hl as [|p l Hp Hl IH]; [reflexivity|]. destruct l; [exact Hp|].
    cbn [separated]. apply wb_seq; [exact Hp|]. apply wb_seq; [exact Hs|exact IH].
  Qed.
  Lemma wb_args : forall lay l, Forall well_bracketed l -> well_bracketed (write_args c lay l).
  Proof.
    intros lay l Hl.
    assert (Hh : well_bracketed (write_args_horizontal l)) by (apply wb_separated; [reflexivity|exact Hl]).
    assert (Hv : well_bracketed (write_args_vertical l)).
    { unfold write_args_vertical, well_bracketed. cbn [brackets]. intros n. change (brackets 1 (seq (separated (seq (write ",") newline) l) pop) 0).
      eapply brackets_seq with (e := 1); [|reflexivity]. apply wb_at, wb_separated; [reflexivity|exact Hl]. }
    destruct lay; [exact Hh|exact Hv|]. split; [exact Hh|]. intros []; [reflexivity|exact Hv].
  Qed.
  Lemma wb_cdecl : forall d x, well_bracketed (CDecl_write c d x).
  Proof.
    fix IH 1. intros [q n gs ds ct dep] x. rewrite CDecl_write_eq.
    assert (Hgs : Forall well_bracketed (map (fun g => match g with CType a => CDecl_write c a None | CConst s => write s end) gs)).
    { induction gs as [|[a|s] gs IHgs]; cbn [map]; constructor; try exact IHgs; [apply IH|reflexivity]. }
    assert (Hds : forall b, well_bracketed (write_right c ds b)).
    { induction ds as [|[k m r|len|args lay nv] ds IHds]; intros b; cbn [write_right].
      - reflexivity.
      - apply IHds.
      - apply wb_seq; [destruct b; reflexivity|]. apply wb_seq; [reflexivity|apply IHds].
      - apply wb_seq; [destruct b; reflexivity|]. apply wb_seq; [reflexivity|]. apply wb_seq; [destruct (is_nil args && _); reflexivity|].
        apply wb_seq.
        + apply wb_args. clear - IH. induction args as [|[y a] args IHargs]; cbn [map]; constructor; [apply IH|exact IHargs].
        + apply wb_seq; [reflexivity|]. apply wb_seq; [destruct (nv && _); [destruct (fn_no_return (function c))|]; reflexivity|apply IHds]. }
    apply wb_seq; [destruct (negb (q =? "")); reflexivity|].
    apply wb_seq; [destruct (negb (Language_eqb (language c) Cython)); [destruct ct|]; reflexivity|].
    apply wb_seq; [reflexivity|]. apply wb_seq.
    - destruct (negb (is_nil gs)); [|reflexivity]. apply wb_seq; [reflexivity|]. apply wb_seq; [|reflexivity].
      apply wb_horizontal. apply Forall_forall. exact Hgs.
    - apply wb_seq; [destruct x; reflexivity|]. apply wb_seq; [apply wb_left|]. apply wb_seq; [destruct x; reflexivity|apply Hds].
  Qed.

  (** ** What is written *)
  Hypothesis attributes_ok : proper_attributes c = true.
  Variables (tabw : nat) (e : LineEndingStyle).
  Hypothesis tab : tabw <> 0.
  Notation run := (run tabw (LineEndingStyle_as_str e)).
  Lemma described_written : forall d t x w, described c tabw e d t -> usable_name c x = true -> w_spaces w <> [] ->
    exists w' s, run (CDecl_write c d x) w = Some w' /\ w_out w' = w_out w ++ s /\ w_spaces w' = w_spaces w
      /\ declares (dialect_of c) s x t.
  Proof.
    intros d t x w Hd Hx Hw. destruct (described_good c attributes_ok tabw e d t x Hd Hx) as (us & Hl & _ & Hr).
    destruct (well_bracketed_restores tabw (LineEndingStyle_as_str e) _ w tab Hw (wb_cdecl d x)) as (w' & R & Hs).
    destruct (Hl w w' R ltac:(reflexivity)) as (s & ts & b & O & Hscan & _ & ->). exists w', s.
    split; [exact R|]. split; [exact O|]. split; [exact Hs|].
    assert (E : tokens s = (ts ++ flush b)%list). { unfold tokens. specialize (Hscan ""). rewrite sapp_nil_r in Hscan. exact Hscan. }
    destruct (Hr [] st_nil) as (N & HN). exists N. intros m Hm. rewrite E. specialize (HN m N Hm (le_n N)). rewrite app_nil_r in HN. exact HN.
  Qed.
  Lemma field_written : forall t x w, declarable c t = true -> usable c x = true -> w_spaces w <> [] ->
    exists p w' s, write_field c t x = Some p /\ run p w = Some w' /\ w_out w' = w_out w ++ s /\ w_spaces w' = w_spaces w
      /\ declares (dialect_of c) s (Some x) (c_type c false t).
  Proof.
    intros t x w Hd Hx Hw. unfold write_field, from_type. rewrite from_type_decl.
    destruct (all_done c attributes_ok tabw e t false Hd ltac:(discriminate)) as [Ht _].
    destruct (described_written _ _ (Some x) w Ht Hx Hw) as (w' & s & H1 & H2 & H3 & H4).
    eexists. exists w', s. split; [reflexivity|]. repeat split; assumption.
  Qed.
  Lemma type_written : forall t w, declarable c t = true -> w_spaces w <> [] ->
    exists p w' s, write_type c t = Some p /\ run p w = Some w' /\ w_out w' = w_out w ++ s /\ w_spaces w' = w_spaces w
      /\ declares (dialect_of c) s None (c_type c false t).
  Proof.
    intros t w Hd Hw. unfold write_type, from_type. rewrite from_type_decl.
    destruct (all_done c attributes_ok tabw e t false Hd ltac:(discriminate)) as [Ht _].
    destruct (described_written _ _ None w Ht eq_refl Hw) as (w' & s & H1 & H2 & H3 & H4).
    eexists. exists w', s. split; [reflexivity|]. repeat split; assumption.
  Qed.

  (** ** Functions *)
  Definition arg_decl_of (a : FunctionArgument) : CDecl :=
    match a_array_length a, a_ty a with
    | Some l, TPtr u k _ _ => prefix [CdArray l] (decl_of c k u)
    | _, t => decl_of c false t
    end.
  Definition arg_fits (a : FunctionArgument) : Prop :=
    match a_array_length a with
    | Some l => solid l && match a_ty a with TPtr _ _ _ _ => true | _ => false end
    | None => true
    end = true.
  Lemma from_func_arg_decl : forall a, arg_fits a -> from_func_arg c (a_ty a) (a_array_length a) = Some (arg_decl_of a).
  Proof.
    intros [n t [l|]] Hf; unfold arg_fits, from_func_arg, arg_decl_of in *; cbn [a_array_length a_ty] in *.
    - destruct t as [u k nl r|g|p|u len|ret args nl nv]; try (rewrite andb_false_r in Hf; discriminate). apply from_type_decl.
    - unfold from_type. rewrite from_type_decl. destruct t; reflexivity.
  Qed.
  Lemma described_dep : forall d dep t, described c tabw e (with_deprecated dep d) t <-> described c tabw e d t.
  Proof. intros [q n gs ds ct d0] dep t. split; intros Hd; exact Hd. Qed.
  Lemma function_params : forall args,
    declarable_params c (declarable c) (map (fun a => (a_name a, a_ty a)) args) = true ->
    Forall arg_fits args -> params c tabw e (map (fun a => (a_name a, arg_decl_of a)) args) (map (c_param c) args).
  Proof.
    induction args as [|a args IH]; intros Hd Hf; [constructor|]. inversion Hf as [|y l Ha Hl]; subst. cbn [map].
    assert (Normal : usable_name c (a_name a) && declarable c (a_ty a) && negb (is_void (a_ty a))
        && declarable_params c (declarable c) (map (fun a => (a_name a, a_ty a)) args) = true ->
      params c tabw e ((a_name a, arg_decl_of a) :: map (fun a => (a_name a, arg_decl_of a)) args) (c_param c a :: map (c_param c) args)).
    { intros Hn. apply andb_prop in Hn as [Hn H4]. apply andb_prop in Hn as [Hn H3]. apply andb_prop in Hn as [H1 H2]. apply negb_true_iff in H3.
      unfold c_param, arg_decl_of. specialize (IH H4 Hl). unfold arg_fits in Ha.
      destruct (all_done c attributes_ok tabw e (a_ty a) false H2 ltac:(discriminate)) as [Ht _].
      destruct (a_array_length a) as [len|]; [|constructor; [exact H1|exact Ht|apply c_type_void; assumption|exact IH]].
      apply andb_prop in Ha as [Hs Ha]. destruct (a_ty a) as [u k nl r|g|p|u len'|ret args' nl nv]; try discriminate.
      cbn [declarable] in H2. apply andb_prop in H2 as [H2 Hk].
      destruct (all_done c attributes_ok tabw e u k H2) as [Hu _]. { intros ->. exact Hk. }
      constructor; [exact H1| |discriminate|exact IH]. apply described_array; [exact Hu|exact Hs|apply c_type_not_function]. }
    cbn [map declarable_params] in Hd. destruct a as [[x|] t al]; cbn [a_name a_ty] in *; [apply Normal, Hd|].
    destruct t as [u k n r|g|p|u len|ret args' n nv]; try (apply Normal, Hd). destruct p; try (apply Normal, Hd).
    destruct args as [|a2 args]; [|apply Normal, Hd]. cbn [map] in *. unfold c_param, arg_decl_of, arg_fits in *. cbn [a_array_length a_ty a_name] in *.
    destruct al; [rewrite andb_false_r in Ha; discriminate|]. apply ps_dots.
  Qed.
  Lemma function_written : forall f layout w, declarable_function c f = true -> w_spaces w <> [] ->
    exists p w' s, write_func c f layout = Some p /\ run p w = Some w' /\ w_out w' = w_out w ++ s /\ w_spaces w' = w_spaces w
      /\ declares (dialect_of c) s (Some (f_path f)) (c_function c f).
  Proof.
    intros f layout w Hf Hw. unfold declarable_function in Hf. apply andb_prop in Hf as [Hf H5]. apply andb_prop in Hf as [Hf H4].
    apply andb_prop in Hf as [Hf H3]. apply andb_prop in Hf as [H1 H2]. apply negb_true_iff in H3.
    assert (Hfit : Forall arg_fits (f_args f)). { apply Forall_forall. rewrite forallb_forall in H5. exact H5. }
    unfold write_func, from_func. rewrite map_opt_total with (g := fun a => (a_name a, arg_decl_of a)).
    2: { eapply Forall_impl; [|exact Hfit]. intros a Ha. rewrite from_func_arg_decl by exact Ha. reflexivity. }
    cbn [CDecl_new push_declarator set_deprecated app]. rewrite build_decl.
    destruct (all_done c attributes_ok tabw e (f_ret f) false H2 ltac:(discriminate)) as [Ht Ha].
    assert (Hd : described c tabw e (prefix [CdFunc (map (fun a => (a_name a, arg_decl_of a)) (f_args f)) layout (f_never_return f)] (decl_of c false (f_ret f)))
                   (c_function c f)).
    { apply described_function; [exact attributes_ok|exact Ht|apply function_params; assumption|apply Ha, H3|apply c_type_plain, H3]. }
    apply (described_dep _ (an_deprecated (f_annotations f))) in Hd.
    destruct (described_written _ _ (Some (f_path f)) w Hd H1 Hw) as (w' & s & K1 & K2 & K3 & K4).
    eexists. exists w', s. split; [reflexivity|]. repeat split; assumption.
  Qed.
End Config.

(** ** Building never fails *)
Definition lengths_on_pointers (args : list FunctionArgument) : Prop :=
  Forall (fun a => a_array_length a = None \/ exists u k n r, a_ty a = TPtr u k n r) args.
Lemma field_builds : forall c t x, exists p, write_field c t x = Some p.
Proof. intros c t x. unfold write_field, from_type. rewrite from_type_decl. eexists. reflexivity. Qed.
Lemma type_builds : forall c t, exists p, write_type c t = Some p.
Proof. intros c t. unfold write_type, from_type. rewrite from_type_decl. eexists. reflexivity. Qed.
Lemma func_builds : forall c f layout, lengths_on_pointers (f_args f) -> exists p, write_func c f layout = Some p.
Proof.
  intros c f layout Hl. unfold write_func, from_func. rewrite map_opt_total with (g := fun a => (a_name a, arg_decl_of c a)).
  - cbn [CDecl_new push_declarator set_deprecated app]. rewrite build_decl. eexists. reflexivity.
  - eapply Forall_impl; [|exact Hl]. intros a Ha. unfold from_func_arg, arg_decl_of, from_type.
    destruct Ha as [->|(u & k & n & r & ->)]; [rewrite from_type_decl; destruct (a_ty a); reflexivity|].
    destruct (a_array_length a); rewrite from_type_decl; reflexivity.
Qed.
Lemma renamed_lengths : forall {H : Heck} c f g, Function_rename_for_config c f = Some g ->
  Forall (fun a => a_array_length a = None) (f_args f) -> lengths_on_pointers (f_args g).
Proof.
  intros H c f g R Hf. unfold Function_rename_for_config in R.
  destruct (rule_or (f_annotations f) "rename-all" (fn_rename_args (function c))) as [rules|]; [|discriminate].
  set (args1 := match not_none rules with Some r => _ | None => f_args f end) in R.
  assert (H1 : Forall (fun a => a_array_length a = None) args1).
  { unfold args1. destruct (not_none rules); [|exact Hf]. apply Forall_forall. intros a Ha. apply in_map_iff in Ha as (b & <- & _). reflexivity. }
  set (args2 := map _ args1) in R.
  assert (H2 : Forall (fun a => a_array_length a = None) args2).
  { unfold args2. apply Forall_forall. intros a Ha. apply in_map_iff in Ha as (b & <- & Hb). rewrite Forall_forall in H1. exact (H1 b Hb). }
  destruct (an_list (f_annotations f) "ptrs-as-arrays") as [tuples|].
  - destruct (ptrs_as_arrays tuples) as [m|]; [|discriminate]. inversion R; subst. cbn [set_f_types f_args].
    apply Forall_forall. intros a Ha. apply in_map_iff in Ha as (b & <- & Hb). rewrite Forall_forall in H2. specialize (H2 b Hb).
    unfold set_array_length. destruct (a_ty b) as [u k n r| | | |] eqn:Et; try (left; exact H2). right. destruct (a_name b); cbn [a_ty]; rewrite ?Et; do 4 eexists; reflexivity.
  - inversion R; subst. cbn [set_f_types f_args]. eapply Forall_impl; [|exact H2]. intros a Ha. left. exact Ha.
Qed.
Lemma renamed_builds : forall {H : Heck} c f g layout, Function_rename_for_config c f = Some g ->
  Forall (fun a => a_array_length a = None) (f_args f) -> exists p, write_func c g layout = Some p.
Proof. intros H c f g layout R Hf. apply func_builds. eapply renamed_lengths; eassumption. Qed.

(** ** A text declares one thing *)
Lemma declares_once : forall d s x t y u, declares d s x t -> declares d s y u -> x = y /\ t = u.
Proof.
  intros d s x t y u (n & Hn) (m & Hm). specialize (Hn (n + m) ltac:(lia)). specialize (Hm (n + m) ltac:(lia)).
  rewrite Hn in Hm. inversion Hm; subst. split; reflexivity.
Qed.
(** Two fields written alike have the same name and type. *)
Lemma same_text : forall c t u x y e p, proper_attributes c = true ->
  declarable c t = true -> declarable c u = true -> usable c x = true -> usable c y = true -> tab_width c <> 0 ->
  forall q w' w'', write_field c t x = Some p -> write_field c u y = Some q ->
  run (tab_width c) (LineEndingStyle_as_str e) p writer_new = Some w' -> run (tab_width c) (LineEndingStyle_as_str e) q writer_new = Some w'' ->
  w_out w' = w_out w'' -> x = y /\ c_type c false t = c_type c false u.
Proof.
  intros c t u x y e p Ha Ht Hu Hx Hy Htab q w' w'' Ep Eq Rp Rq E.
  destruct (field_written c Ha (tab_width c) e Htab t x writer_new Ht Hx ltac:(discriminate)) as (p' & v1 & s1 & E1 & R1 & O1 & _ & D1).
  destruct (field_written c Ha (tab_width c) e Htab u y writer_new Hu Hy ltac:(discriminate)) as (q' & v2 & s2 & E2 & R2 & O2 & _ & D2).
  rewrite Ep in E1. rewrite Eq in E2. inversion E1; subst p'. inversion E2; subst q'. rewrite Rp in R1. rewrite Rq in R2. inversion R1; subst v1. inversion R2; subst v2.
  rewrite O1, O2 in E. cbn in E. subst s2. destruct (declares_once _ _ _ _ _ _ D1 D2) as [K1 K2]. split; [congruence|exact K2].
Qed.

(** ** Constant function pointers *)
Lemma function_pointer_const : forall c ret args n nv n2 r x,
  write_field c (TPtr (TFuncPtr ret args n nv) true n2 r) x = write_field c (TPtr (TFuncPtr ret args n nv) false n2 r) x
  /\ c_type c false (TPtr (TFuncPtr ret args n nv) true n2 r) <> c_type c false (TPtr (TFuncPtr ret args n nv) false n2 r).
Proof.
  intros c ret args n nv n2 r x. split; [reflexivity|]. cbn [c_type]. unfold qualifiers. intros E. inversion E as [E'].
  apply (f_equal (@List.length string)) in E'. cbn in E'. lia.
Qed.
