(** Proofs about which functions are bound (C32). *)
Require Import Coq.Strings.String Coq.Strings.Ascii Coq.Lists.List Coq.Bool.Bool Coq.Arith.Arith.
From Verif Require Import Base P_Base M_Config M_Cfg S_Cfg P_Cfg M_Type M_Ir M_Item M_Attr M_Syn M_Library M_Bindings M_Loader M_Parser S_Parse.
Import ListNotations.
Open Scope string_scope.

Ltac inv H := inversion H; subst; clear H.

(** ** Symbols *)

Lemma is_ident_iff : forall i n, is_ident i n = true <-> i = Some n.
Proof.
  intros [x|] n; cbn; [rewrite String.eqb_eq|]; split; intro E; try congruence; try discriminate; inv E; reflexivity.
Qed.
Lemma hd_filter_map_Some : forall A B (f : A -> option B) l b, hd_error (filter_map f l) = Some b -> exists a, In a l /\ f a = Some b.
Proof.
  intros A B f l b. induction l as [|a r IH]; cbn; [discriminate|]. destruct (f a) eqn:E.
  - cbn. intro Q. inv Q. eauto.
  - intro Q. destruct (IH Q) as [x [Hx Fx]]. eauto.
Qed.
Lemma hd_filter_map_None : forall A B (f : A -> option B) l, hd_error (filter_map f l) = None -> forall a, In a l -> f a = None.
Proof.
  intros A B f l. induction l as [|a r IH]; cbn; [contradiction|]. destruct (f a) eqn:E; [discriminate|].
  intros Q x [-> | Hx]; auto.
Qed.

Lemma plain_name : forall attrs n, attr_name_value_lookup attrs "export_name" = Some n ->
  exists a, In a attrs /\ at_meta a = ANameValue (Some "export_name") (Some n).
Proof.
  intros attrs n Q. apply hd_filter_map_Some in Q as [a [Ha Fa]]. exists a. split; [exact Ha|].
  destruct (at_meta a) as [|i [v|]| | |]; try discriminate. destruct (is_ident i "export_name") eqn:E; [|discriminate].
  apply is_ident_iff in E as ->. inv Fa. reflexivity.
Qed.
Lemma no_plain_name : forall attrs, attr_name_value_lookup attrs "export_name" = None ->
  forall a n, In a attrs -> at_meta a <> ANameValue (Some "export_name") (Some n).
Proof.
  intros attrs Q a n Ha E. pose proof (hd_filter_map_None _ _ _ _ Q a Ha) as F. cbn beta in F. rewrite E in F. discriminate.
Qed.
Lemma unsafe_name : forall attrs n, attributes_ok attrs -> unsafe_attr_name_value_lookup attrs "export_name" = Some n ->
  exists a, In a attrs /\ at_meta a = AList (Some "unsafe") [ANameValue (Some "export_name") (Some n)].
Proof.
  intros attrs n [Ok _] Q. apply hd_filter_map_Some in Q as [a [Ha Fa]]. exists a. split; [exact Ha|].
  destruct (at_meta a) as [| |i args| |] eqn:M; try discriminate.
  destruct (is_ident i "unsafe") eqn:E; [|discriminate]. apply is_ident_iff in E as ->.
  destruct (Ok a args Ha M) as [x ->]. cbn in Fa. destruct x as [|j [v|]| | |]; try discriminate; cbn in Fa;
    destruct (is_ident j "export_name") eqn:F; cbn in Fa; try discriminate.
  apply is_ident_iff in F as ->. inv Fa. reflexivity.
Qed.
Lemma no_unsafe_name : forall attrs, unsafe_attr_name_value_lookup attrs "export_name" = None ->
  forall a n, In a attrs -> at_meta a <> AList (Some "unsafe") [ANameValue (Some "export_name") (Some n)].
Proof.
  intros attrs Q a n Ha E. pose proof (hd_filter_map_None _ _ _ _ Q a Ha) as F. cbn beta in F. rewrite E in F. discriminate.
Qed.
Lemma no_mangle_iff : forall attrs, attributes_ok attrs -> (is_no_mangle attrs = true <-> exists a, In a attrs /\ keeps_name a).
Proof.
  intros attrs [Ok _]. unfold is_no_mangle, has_attr_word, has_unsafe_attr_word. rewrite orb_true_iff, !existsb_exists. split.
  - intros [[a [Ha Q]]|[a [Ha Q]]]; exists a; (split; [exact Ha|]); destruct (at_meta a) as [i| |i args| |] eqn:M; try discriminate.
    + left. apply is_ident_iff in Q as ->. exact M.
    + right. rewrite !andb_true_iff in Q. destruct Q as [[U _] W]. apply is_ident_iff in U as ->.
      destruct (Ok a args Ha M) as [x ->]. cbn in W. rewrite orb_false_r in W. destruct x; try discriminate.
      apply is_ident_iff in W as ->. exact M.
  - intros [a [Ha [M|M]]]; [left|right]; exists a; (split; [exact Ha|]); rewrite M; reflexivity.
Qed.

Lemma exported_name : forall attrs ident n, attributes_ok attrs -> (fn_exported_name attrs ident = Some n <-> symbol attrs ident n).
Proof.
  intros attrs ident n Ok. unfold fn_exported_name.
  destruct (attr_name_value_lookup attrs "export_name") as [m|] eqn:P;
    [|destruct (unsafe_attr_name_value_lookup attrs "export_name") as [m|] eqn:U].
  - apply plain_name in P as [a [Ha M]]. assert (G : gives_name a m) by (left; exact M). split.
    + intro Q. inv Q. left. eauto.
    + intros [[b [Hb Gb]]|[No _]]; [|exfalso; exact (No a m Ha G)]. f_equal. exact (proj2 Ok a b m n Ha Hb G Gb).
  - apply (unsafe_name _ _ Ok) in U as [a [Ha M]]. assert (G : gives_name a m) by (right; exact M). split.
    + intro Q. inv Q. left. eauto.
    + intros [[b [Hb Gb]]|[No _]]; [|exfalso; exact (No a m Ha G)]. f_equal. exact (proj2 Ok a b m n Ha Hb G Gb).
  - assert (No : forall a m, In a attrs -> ~ gives_name a m).
    { intros a m Ha [M|M]; [exact (no_plain_name _ P a m Ha M)|exact (no_unsafe_name _ U a m Ha M)]. }
    destruct (is_no_mangle attrs) eqn:W.
    + apply (no_mangle_iff _ Ok) in W. split.
      * intro Q. inv Q. right. auto.
      * intros [[b [Hb Gb]]|[_ [_ ->]]]; [exfalso; exact (No b n Hb Gb)|reflexivity].
    + split; [discriminate|]. intros [[b [Hb Gb]]|[_ [K _]]]; [exfalso; exact (No b n Hb Gb)|].
      apply (no_mangle_iff _ Ok) in K. congruence.
Qed.

Lemma c_abi_iff : forall abi, abi_is_omitted abi || abi_is_c abi || abi_is_cmse abi = true <-> c_abi abi.
Proof.
  intros [[n|]|]; cbn; unfold c_abi.
  - rewrite !orb_true_iff, !String.eqb_eq. split.
    + intro Q. exists (Some n). split; [reflexivity|]. cbn.
      destruct Q as [[-> | ->]|[-> | ->]]; auto 10.
    + intros [m [E Q]]. inv E. cbn in Q. repeat destruct Q as [Q|Q]; inv Q; auto; discriminate.
  - split; [|reflexivity]. intros _. exists None. cbn. auto.
  - split; [discriminate|]. intros [n [E _]]. discriminate.
Qed.
Lemma c_block_iff : forall abi, negb (abi_is_c (Some abi)) && negb (abi_is_omitted (Some abi)) = false <-> c_block abi.
Proof.
  intros [n|]; cbn; unfold c_block.
  - rewrite andb_true_r, negb_false_iff, orb_true_iff, !String.eqb_eq. cbn. split.
    + intros [-> | ->]; auto.
    + intros [Q|[Q|[Q|[]]]]; inv Q; auto; discriminate.
  - cbn. tauto.
Qed.

(** ** Parameters *)

Definition not_reference (a : sfnarg) : Prop := ~ typed_reference a.

Lemma as_argument_parameter : forall a o, not_reference a ->
  (as_argument a = Some o <-> exists x, parameter a x /\ o = option_map (fun g => argument (fst g) (snd g)) x).
Proof.
  intros a o NR. destruct a as [p t|r]; cbn.
  - destruct (Type_load t) as [[ty|]|] eqn:T.
    + destruct p as [|i|].
      * destruct (is_array ty) eqn:A; cbn; [|].
        -- split; [discriminate|]. intros [x [Q _]]. inv Q; congruence.
        -- split; [intro Q; inv Q; exists (Some (None, ty)); split; [constructor; assumption|reflexivity]|].
           intros [x [Q ->]]. inv Q; try congruence. cbn. congruence.
      * destruct (is_array ty) eqn:A; cbn.
        -- split; [discriminate|]. intros [x [Q _]]. inv Q; try congruence.
           match goal with E : Type_load t = Some (Some (TPrim PVaList)) |- _ => rewrite T in E; inv E; discriminate end.
        -- destruct (is_va_list ty) eqn:V.
           ++ assert (ty = TPrim PVaList) as -> by (destruct ty as [| |[]| |]; try discriminate; reflexivity).
              split; [intro Q; inv Q; eexists; split; [apply pa_rest; exact T|reflexivity]|].
              intros [x [Q ->]]. inv Q; try congruence. reflexivity.
           ++ assert (N : ty <> TPrim PVaList) by (intros ->; discriminate).
              split; [intro Q; inv Q; eexists; split; [apply pa_named; eassumption|reflexivity]|].
              intros [x [Q ->]]. inv Q; try congruence. cbn. congruence.
      * split; [discriminate|]. intros [x [Q _]]. inv Q; congruence.
    + split; [intro Q; inv Q; exists None; split; [constructor; assumption|reflexivity]|].
      intros [x [Q ->]]. inv Q; try congruence. reflexivity.
    + split; [discriminate|]. intros [x [Q _]]. inv Q; congruence.
  - destruct r as [m|t| |]; cbn.
    + split; [intro Q; inv Q; eexists; split; [constructor|reflexivity]|]. intros [x [Q ->]]. inv Q. reflexivity.
    + destruct (Type_load t) as [c|] eqn:T.
      * assert (E : match t with SRef mutable _ => Some (TPtr match c with Some x => x | None => TPath self_path end (negb mutable) false false)
                                | _ => Some match c with Some x => x | None => TPath self_path end end
                    = Some match c with Some x => x | None => TPath self_path end).
        { destruct t; try reflexivity. exfalso. apply NR. unfold typed_reference. eauto. }
        rewrite E. destruct c as [ty|].
        -- split; [intro Q; inv Q; eexists; split; [apply pa_typed; exact T|reflexivity]|].
           intros [x [Q ->]]. inv Q; try congruence. cbn. congruence.
        -- split; [intro Q; inv Q; eexists; split; [apply pa_typed_none; exact T|reflexivity]|].
           intros [x [Q ->]]. inv Q; try congruence. reflexivity.
      * split; [discriminate|]. intros [x [Q _]]. inv Q; congruence.
    + split; [intro Q; inv Q; eexists; split; [constructor|reflexivity]|]. intros [x [Q ->]]. inv Q. reflexivity.
    + split; [discriminate|]. intros [x [Q _]]. inv Q.
Qed.

Lemma all_parameters : forall l, Forall not_reference l ->
  match try_skip_map as_argument l with
  | Some args => exists given, Forall2 parameter l given
                   /\ args = map (fun g => argument (fst g) (snd g)) (filter_map (fun x => x) given)
  | None => exists a, In a l /\ forall x, ~ parameter a x
  end.
Proof.
  induction l as [|a r IH]; intro F.
  - cbn. exists []. split; [constructor|reflexivity].
  - inv F. specialize (IH H2). cbn. destruct (as_argument a) as [o|] eqn:A.
    + apply (as_argument_parameter _ _ H1) in A as [x [Px ->]].
      match goal with |- context [match ?e with Some ys => Some _ | None => None end] => change e with (try_skip_map as_argument r) end.
      destruct (try_skip_map as_argument r) as [ys|].
      * destruct IH as [given [G ->]]. exists (x :: given). split; [constructor; assumption|]. destruct x; reflexivity.
      * destruct IH as [b [Hb Nb]]. exists b. split; [right; exact Hb|exact Nb].
    + exists a. split; [left; reflexivity|]. intros x Px.
      assert (E : as_argument a = Some (option_map (fun g => argument (fst g) (snd g)) x))
        by (apply (as_argument_parameter _ _ H1); eauto). congruence.
Qed.

Lemma output_returned : forall o,
  match Type_load_from_output o with
  | Some (t, n) => returned o t n
  | None => forall t n, ~ returned o t n
  end.
Proof.
  intros [u|]; [|cbn; auto]. unfold Type_load_from_output, returned.
  assert (G : forall u, match (let? c := Type_load u in Some (match c with Some x => x | None => TPrim PVoid end, false)) with
                        | Some (t, n) => n = false /\ (Type_load u = Some (Some t) \/ Type_load u = Some None /\ t = TPrim PVoid)
                        | None => forall (t : Ty) (n : bool), ~ (n = false /\ (Type_load u = Some (Some t) \/ Type_load u = Some None /\ t = TPrim PVoid))
                        end).
  { clear u. intro u. destruct (Type_load u) as [[x|]|]; auto. intros t n [_ [Q|[Q _]]]; discriminate. }
  destruct u; first [split; reflexivity | match goal with |- context [Type_load ?v] => exact (G v) end].
Qed.

Lemma map_args : forall self given, map (map_a_ty (in_self self)) (map (fun g : option string * Ty => argument (fst g) (snd g)) given)
  = map (fun g => argument (fst g) (in_self self (snd g))) given.
Proof. intros. rewrite map_map. reflexivity. Qed.
Lemma in_self_prim : forall self p, in_self self (TPrim p) = TPrim p.
Proof. intros [s|] p; reflexivity. Qed.

(** One function: it is bound as the specification says, or unsupported. *)
Lemma function_bound : forall d here mod_cfg block,
  Forall not_reference (sg_inputs (dc_sig d)) ->
  (forall rho, cfg_eval_opt rho mod_cfg = here rho && attrs_hold rho block) -> dc_block d = block ->
  match Function_load (dc_symbol d) (dc_self d) (dc_sig d) (dc_foreign d) (dc_attrs d) mod_cfg with
  | Some f => binds here d f
  | None => unsupported d
  end.
Proof.
  intros d here mod_cfg block NR Cf Eb. unfold Function_load. pose proof (all_parameters _ NR) as P.
  destruct (try_skip_map as_argument (sg_inputs (dc_sig d))) as [args|]; [|left; exact P].
  destruct P as [given [G ->]]. pose proof (output_returned (sg_output (dc_sig d))) as R.
  destruct (Type_load_from_output (sg_output (dc_sig d))) as [[t n]|]; [|right; left; exact R].
  destruct (AnnotationSet_load (dc_attrs d)) as [ann|] eqn:A; [|right; right; exact A].
  change (fun t0 : Ty => match dc_self d with Some p => replace_self_with p t0 | None => t0 end) with (in_self (dc_self d)).
  constructor; cbn; try reflexivity.
  - exists given. split; [exact G|]. rewrite map_app, map_args. f_equal.
    destruct (sg_variadic (dc_sig d)); [|reflexivity]. cbn. unfold map_a_ty, argument. cbn. rewrite in_self_prim. reflexivity.
  - exists t. split; [exact R|reflexivity].
  - intro rho. rewrite append_meaning, Cf, Eb. reflexivity.
  - exact A.
Qed.
Lemma bound_not_unsupported : forall here d f, binds here d f -> ~ unsupported d.
Proof.
  intros here d f [_ _ [given [G _]] [t [R _]] _ _ A _] [[a [Ha Na]]|[N|N]].
  - revert Ha. induction G as [|b x l g Pb G IH]; [contradiction|]. intros [-> | Hb]; [exact (Na x Pb)|auto].
  - exact (N _ _ R).
  - congruence.
Qed.

(** ** Items *)

Definition good_declaration (d : declaration) : Prop := Forall not_reference (sg_inputs (dc_sig d)).
Definition here_of (mod_cfg : option Cfg) (rho : atom -> bool) : bool := cfg_eval_opt rho mod_cfg.
Section Bound.
  Context {H : Heck}.
  Variables (ld : loading) (mod_cfg : option Cfg).
  Hypothesis Top : top_level ld = true.
  Let here := here_of mod_cfg.

  Definition adds (p q : Parse) (ds : list declaration) : Prop :=
    exists fs, bound here ds fs /\ pr_functions q = (pr_functions p ++ fs)%list.
  Lemma adds_nil : forall p q, pr_functions q = pr_functions p -> adds p q [].
  Proof. intros p q E. exists []. split; [constructor|rewrite app_nil_r; exact E]. Qed.
  Lemma bound_app : forall d1 f1 d2 f2, bound here d1 f1 -> bound here d2 f2 -> bound here (d1 ++ d2) (f1 ++ f2).
  Proof. intros d1 f1 d2 f2 B1 B2. induction B1; cbn; [exact B2| |]; constructor; assumption. Qed.
  Lemma adds_app : forall p q r d1 d2, adds p q d1 -> adds q r d2 -> adds p r (d1 ++ d2).
  Proof.
    intros p q r d1 d2 [f1 [B1 E1]] [f2 [B2 E2]]. exists (f1 ++ f2)%list. split; [apply bound_app; assumption|].
    rewrite E2, E1, app_assoc. reflexivity.
  Qed.

  Lemma declaration_adds : forall self sig attrs p ds, attributes_ok attrs -> sig_ok sig ->
    (forall n, c_abi (sg_abi sig) -> symbol attrs (unraw (sg_ident sig)) n ->
       ds = [{| dc_symbol := n; dc_self := self; dc_sig := sig; dc_attrs := attrs; dc_block := []; dc_foreign := false |}]) ->
    (~ c_abi (sg_abi sig) \/ (forall n, ~ symbol attrs (unraw (sg_ident sig)) n) -> ds = []) ->
    adds p (load_fn_declaration ld mod_cfg self sig attrs p) ds.
  Proof.
    intros self sig attrs p ds Oa Os D1 D2. unfold load_fn_declaration. rewrite Top. cbn [negb].
    destruct (abi_is_omitted (sg_abi sig) || abi_is_c (sg_abi sig) || abi_is_cmse (sg_abi sig)) eqn:A.
    - apply c_abi_iff in A. destruct (fn_exported_name attrs (unraw (sg_ident sig))) as [n|] eqn:N.
      + apply (exported_name _ _ _ Oa) in N. rewrite (D1 n A N).
        set (d := {| dc_symbol := n; dc_self := self; dc_sig := sig; dc_attrs := attrs; dc_block := []; dc_foreign := false |}).
        assert (Cf : forall rho, cfg_eval_opt rho mod_cfg = here rho && attrs_hold rho [])
          by (intro rho; unfold here, here_of, attrs_hold; cbn; rewrite andb_true_r; reflexivity).
        pose proof (function_bound d here mod_cfg [] Os Cf eq_refl) as F.
        cbn [dc_symbol dc_self dc_sig dc_attrs dc_foreign d] in F. fold d in F.
        destruct (Function_load n self sig false attrs mod_cfg) as [f|].
        * exists [f]. split; [constructor; [exact F|constructor]|reflexivity].
        * exists []. split; [constructor; [exact F|constructor]|rewrite app_nil_r; reflexivity].
      + rewrite D2; [apply adds_nil; reflexivity|]. right. intros n Q. apply (exported_name _ _ _ Oa) in Q. congruence.
    - rewrite D2; [apply adds_nil; reflexivity|]. left. intro Q. apply c_abi_iff in Q. congruence.
  Qed.

  Lemma symbol_dec : forall attrs i, attributes_ok attrs -> (exists n, symbol attrs i n) \/ forall n, ~ symbol attrs i n.
  Proof.
    intros attrs i Ok. destruct (fn_exported_name attrs i) as [n|] eqn:E.
    - left. exists n. apply exported_name; assumption.
    - right. intros n Q. apply (exported_name _ _ _ Ok) in Q. congruence.
  Qed.
  Lemma c_abi_dec : forall abi, c_abi abi \/ ~ c_abi abi.
  Proof.
    intro abi. destruct (abi_is_omitted abi || abi_is_c abi || abi_is_cmse abi) eqn:A; [left|right].
    - apply c_abi_iff. exact A.
    - intro Q. apply c_abi_iff in Q. congruence.
  Qed.
  Lemma symbol_unique : forall attrs i m n, attributes_ok attrs -> symbol attrs i m -> symbol attrs i n -> m = n.
  Proof. intros attrs i m n Ok Qm Qn. apply (exported_name _ _ _ Ok) in Qm, Qn. congruence. Qed.

  Lemma fn_adds : forall self sig attrs p, attributes_ok attrs -> sig_ok sig ->
    (exists n, c_abi (sg_abi sig) /\ symbol attrs (unraw (sg_ident sig)) n
       /\ adds p (load_fn_declaration ld mod_cfg self sig attrs p)
            [{| dc_symbol := n; dc_self := self; dc_sig := sig; dc_attrs := attrs; dc_block := []; dc_foreign := false |}])
    \/ ((~ c_abi (sg_abi sig) \/ (forall n, ~ symbol attrs (unraw (sg_ident sig)) n))
        /\ adds p (load_fn_declaration ld mod_cfg self sig attrs p) []).
  Proof.
    intros self sig attrs p Oa Os. destruct (c_abi_dec (sg_abi sig)) as [A|A].
    - destruct (symbol_dec attrs (unraw (sg_ident sig)) Oa) as [[n N]|N].
      + left. exists n. repeat split; try assumption. apply declaration_adds; try assumption.
        * intros m _ M. rewrite (symbol_unique _ _ _ _ Oa M N). reflexivity.
        * intros [Q|Q]; [contradiction|exfalso; exact (Q n N)].
      + right. split; [auto|]. apply declaration_adds; try assumption; [|reflexivity]. intros m _ M. exfalso. exact (N m M).
    - right. split; [auto|]. apply declaration_adds; try assumption; [|reflexivity]. intros m Q. contradiction.
  Qed.

  Lemma methods_adds : forall ty items p,
    (forall a v s, In (ImplFn a v s) items -> attributes_ok a /\ sig_ok s) ->
    exists ds, methods_of ty items ds
      /\ adds p (fold_left (fun p x => match x with
                            | ImplFn attrs _ sig =>
                                if should_skip_parsing attrs then p else load_fn_declaration ld mod_cfg (Some ty) sig attrs p
                            | _ => p
                            end) items p) ds.
  Proof.
    intros ty. induction items as [|x r IH]; intros p F.
    - exists []. split; [constructor|apply adds_nil; reflexivity].
    - assert (F' : forall a v s, In (ImplFn a v s) r -> attributes_ok a /\ sig_ok s) by (intros; eapply F; right; eassumption).
      destruct x as [attrs pub i t v|attrs pub sig|].
      + destruct (IH p F') as [ds [M A]]. exists ds. split; [apply mo_other; [discriminate|exact M]|exact A].
      + destruct (F attrs pub sig (or_introl eq_refl)) as [Oa Os]. cbn [fold_left].
        destruct (should_skip_parsing attrs) eqn:K.
        * destruct (IH p F') as [ds [M A]]. exists ds. split; [apply mo_hidden; auto|exact A].
        * destruct (fn_adds (Some ty) sig attrs p Oa Os) as [[n [C [N A1]]]|[N A1]].
          -- destruct (IH (load_fn_declaration ld mod_cfg (Some ty) sig attrs p) F') as [ds [M A]].
             eexists. split; [apply mo_take; eassumption|]. exact (adds_app _ _ _ _ _ A1 A).
          -- destruct (IH (load_fn_declaration ld mod_cfg (Some ty) sig attrs p) F') as [ds [M A]].
             exists ds. split; [apply mo_hidden; auto|]. exact (adds_app _ _ _ _ _ A1 A).
      + destruct (IH p F') as [ds [M A]]. exists ds. split; [apply mo_other; [discriminate|exact M]|exact A].
  Qed.

  Lemma foreign_adds : forall block items p, (forall a s, In (Some (a, s)) items -> sig_ok s) ->
    adds p (load_foreign_items ld (Cfg_append mod_cfg (Cfg_of_attrs block)) items p) (foreign_of block items).
  Proof.
    intros block. induction items as [|[[attrs sig]|] r IH]; intros p F.
    - apply adds_nil. reflexivity.
    - cbn [load_foreign_items foreign_of]. rewrite Top. cbn [negb].
      set (d := {| dc_symbol := unraw (sg_ident sig); dc_self := None; dc_sig := sig; dc_attrs := attrs; dc_block := block;
                   dc_foreign := true |}).
      assert (Cf : forall rho, cfg_eval_opt rho (Cfg_append mod_cfg (Cfg_of_attrs block)) = here rho && attrs_hold rho block)
        by (intro rho; apply append_meaning).
      pose proof (function_bound d here _ block (F attrs sig (or_introl eq_refl)) Cf eq_refl) as B.
      cbn [dc_symbol dc_self dc_sig dc_attrs dc_foreign d] in B. fold d in B.
      assert (F' : forall a s, In (Some (a, s)) r -> sig_ok s) by (intros; eapply F; right; eassumption).
      change (d :: foreign_of block r) with ([d] ++ foreign_of block r)%list.
      eapply adds_app; [|apply IH; exact F'].
      destruct (Function_load (unraw (sg_ident sig)) None sig true attrs (Cfg_append mod_cfg (Cfg_of_attrs block))) as [f|].
      + exists [f]. split; [constructor; [exact B|constructor]|reflexivity].
      + exists []. split; [constructor; [exact B|constructor]|rewrite app_nil_r; reflexivity].
    - apply IH. intros a s Q. eapply F. right. exact Q.
  Qed.
End Bound.

(** What does not touch the functions *)
Lemma opaque_functions : forall i g a m p q, load_opaque i g a m p = Some q -> pr_functions q = pr_functions p.
Proof. intros i g a m p q. unfold load_opaque. destruct (OpaqueItem_load _ _ _ _); [|discriminate]. intro Q. inv Q. reflexivity. Qed.
Lemma assoc_functions : forall m path items p q, load_assoc_consts m path items p = Some q -> pr_functions q = pr_functions p.
Proof.
  intros m path. induction items as [|x r IH]; intros p q Q; cbn in Q; [inv Q; reflexivity|].
  destruct x as [attrs pub i t v| |]; try (apply IH; exact Q).
  destruct (should_skip_parsing attrs); [apply IH; exact Q|]. destruct pub; cbn in Q; [|inv Q; reflexivity].
  destruct (Constant_load _ _ _ _ _ _) as [[c|]|]; [|discriminate|apply IH; exact Q].
  rewrite (IH _ _ Q). destruct (get_items path (pr_structs p)) as [[|]|]; reflexivity.
Qed.
Lemma assoc_impl_functions : forall m t items p q, load_syn_assoc_consts_from_impl m t items p = Some q -> pr_functions q = pr_functions p.
Proof.
  intros m t items p q. unfold load_syn_assoc_consts_from_impl.
  destruct (Type_load t) as [[ty|]|]; try (intro Q; inv Q; reflexivity).
  destruct (get_root_path ty); [apply assoc_functions|intro Q; inv Q; reflexivity].
Qed.
Lemma struct_functions : forall ld m a i g f p q, load_syn_struct ld m a i g f p = Some q -> pr_functions q = pr_functions p.
Proof.
  intros ld m a i g f p q. unfold load_syn_struct. destruct (Struct_load _ _ _ _ _ _); [intro Q; inv Q; reflexivity|apply opaque_functions].
Qed.
Lemma macro_functions : forall ld m n b p q, load_builtin_macro ld m n b p = Some q -> pr_functions q = pr_functions p.
Proof.
  intros ld m n b p q. unfold load_builtin_macro. destruct (negb _ || negb _); [intro Q; inv Q; reflexivity|].
  destruct b as [b|]; [|intro Q; inv Q; reflexivity]. destruct (expand b _) as [str consts].
  destruct str as [[attrs fields]|].
  - destruct (load_syn_struct _ _ _ _ _ _ p) as [p1|] eqn:E; [|discriminate].
    intro Q. rewrite (assoc_impl_functions _ _ _ _ _ Q). cbn. exact (struct_functions _ _ _ _ _ _ _ _ E).
  - intro Q. rewrite (assoc_impl_functions _ _ _ _ _ Q). reflexivity.
Qed.
Lemma const_functions : forall ld m a pub i t v p q, load_syn_const ld m a pub i t v p = Some q -> pr_functions q = pr_functions p.
Proof.
  intros ld m a pub i t v p q. unfold load_syn_const. destruct (negb (top_level ld)); [intro Q; inv Q; reflexivity|].
  destruct (negb pub); [intro Q; inv Q; reflexivity|]. destruct (Constant_load _ _ _ _ _ _) as [[c|]|]; intro Q; inv Q; reflexivity.
Qed.
Lemma static_functions : forall ld m a i mu t p, pr_functions (load_syn_static ld m a i mu t p) = pr_functions p.
Proof.
  intros. unfold load_syn_static. destruct (negb (top_level ld)); [reflexivity|].
  destruct (static_exported_name a (unraw i)); [|reflexivity]. destruct (Static_load _ _ _ _ _); reflexivity.
Qed.

Section Items.
  Context {H : Heck}.
  Variables (ld : loading) (mod_cfg : option Cfg).

  Lemma bare_ident_iff : forall t i, bare_ident t = Some i <-> t = SPath (SegPath [] i NoArgs).
  Proof.
    intros t i. split; [|intros ->; reflexivity]. destruct t; try discriminate. cbn. destruct p as [q l a]; try discriminate.
    destruct q; try discriminate. destruct a; try discriminate. intro Q. inv Q. reflexivity.
  Qed.

  Lemma item_adds : forall i p q, top_level ld = true -> item_ok i -> load_item ld mod_cfg p i = Some q ->
    exists ds, callable i ds /\ adds mod_cfg p q ds.
  Proof.
    intros i p q Top Ok Q. unfold load_item in Q. destruct (should_skip_parsing (item_attrs i)) eqn:K.
    { inv Q. exists []. split; [apply ca_skip; exact K|apply adds_nil; reflexivity]. }
    destruct i; cbn [item_attrs] in K; try (exists []; split; [apply ca_other; exact Logic.I|apply adds_nil]).
    - inv Q. unfold load_syn_foreign_mod. destruct (negb (abi_is_c (Some abi)) && negb (abi_is_omitted (Some abi))) eqn:B.
      + exists []. split; [|apply adds_nil; reflexivity]. apply ca_other_block. intro C. apply c_block_iff in C. congruence.
      + exists (foreign_of attrs items). split; [apply ca_foreign; [exact K|apply c_block_iff; exact B]|].
        apply foreign_adds; assumption.
    - inv Q. destruct Ok as [Oa Os]. destruct (fn_adds ld mod_cfg Top None sig attrs p Oa Os) as [[n [C [N A]]]|[N A]].
      + eexists. split; [apply ca_fn; eassumption|exact A].
      + exists []. split; [apply ca_hidden; exact N|exact A].
    - exact (const_functions _ _ _ _ _ _ _ _ _ Q).
    - inv Q. apply static_functions.
    - exact (struct_functions _ _ _ _ _ _ _ _ Q).
    - revert Q. unfold load_syn_union. destruct (Union_load _ _ _ _ _ _); [intro Q; inv Q; reflexivity|apply opaque_functions].
    - revert Q. unfold load_syn_enum. destruct (Enum_load _ _ _ _ _ _); [intro Q; inv Q; reflexivity|apply opaque_functions|discriminate].
    - revert Q. unfold load_syn_ty. destruct (Typedef_load _ _ _ _ _); [intro Q; inv Q; reflexivity|apply opaque_functions].
    - inv Q. unfold load_methods. destruct (bare_ident self_ty) as [ty|] eqn:B.
      + apply bare_ident_iff in B as ->. destruct (methods_adds ld mod_cfg Top (unraw ty) items p Ok) as [ds [M A]].
        exists ds. split; [apply ca_impl; assumption|exact A].
      + exists []. split; [|apply adds_nil; reflexivity]. apply ca_other_impl. intros ty E. apply bare_ident_iff in E. congruence.
    - exact (macro_functions _ _ _ _ _ _ Q).
    - inv Q. reflexivity.
    - inv Q. reflexivity.
  Qed.

  Lemma items_add : forall items p q, top_level ld = true -> Forall item_ok items ->
    load_all (load_item ld mod_cfg) items p = Some q -> exists ds, callables items ds /\ adds mod_cfg p q ds.
  Proof.
    induction items as [|i r IH]; intros p q Top F Q.
    - inv Q. exists []. split; [constructor|apply adds_nil; reflexivity].
    - inv F. cbn in Q. destruct (load_item ld mod_cfg p i) as [p1|] eqn:E; [|discriminate].
      destruct (item_adds _ _ _ Top H2 E) as [ds [C A]]. destruct (IH _ _ Top H3 Q) as [es [Cs As]].
      exists (ds ++ es)%list. split; [constructor; assumption|exact (adds_app _ _ _ _ _ _ A As)].
  Qed.
  Lemma late_consts_functions : forall l p q,
    load_all (fun p x => load_syn_assoc_consts_from_impl mod_cfg (fst x) (snd x) p) l p = Some q -> pr_functions q = pr_functions p.
  Proof.
    induction l as [|x r IH]; intros p q Q; cbn in Q; [inv Q; reflexivity|].
    destruct (load_syn_assoc_consts_from_impl mod_cfg (fst x) (snd x) p) as [p1|] eqn:E; [|discriminate].
    rewrite (IH _ _ Q). exact (assoc_impl_functions _ _ _ _ _ E).
  Qed.

  (** The functions of one module *)
  Lemma module_functions : forall items p q, top_level ld = true -> Forall item_ok items ->
    load_syn_crate_mod ld mod_cfg items p = Some q -> exists ds, callables items ds /\ adds mod_cfg p q ds.
  Proof.
    intros items p q Top F Q. unfold load_syn_crate_mod in Q.
    destruct (load_all (load_item ld mod_cfg) items p) as [p1|] eqn:E; [|discriminate].
    destruct (items_add _ _ _ Top F E) as [ds [C [fs [B A]]]]. exists ds. split; [exact C|]. exists fs. split; [exact B|].
    rewrite (late_consts_functions _ _ _ Q). exact A.
  Qed.

  (** Outside the crates whose functions are wanted, none is added. *)
  Lemma fn_none : forall self sig attrs p, top_level ld = false -> load_fn_declaration ld mod_cfg self sig attrs p = p.
  Proof. intros self sig attrs p Top. unfold load_fn_declaration. rewrite Top. reflexivity. Qed.
  Lemma methods_none : forall ty items p, top_level ld = false ->
    fold_left (fun p x => match x with
                          | ImplFn attrs _ sig =>
                              if should_skip_parsing attrs then p else load_fn_declaration ld mod_cfg (Some ty) sig attrs p
                          | _ => p
                          end) items p = p.
  Proof.
    intros ty items p Top. induction items as [|x r IH]; [reflexivity|]. cbn. destruct x; try exact IH.
    rewrite fn_none by exact Top. destruct (should_skip_parsing attrs); exact IH.
  Qed.
  Lemma foreign_none : forall c items p, top_level ld = false -> load_foreign_items ld c items p = p.
  Proof.
    intros c items p Top. induction items as [|[[a s]|] r IH]; [reflexivity| |exact IH]. cbn. rewrite Top. reflexivity.
  Qed.
  Lemma item_none : forall i p q, top_level ld = false -> load_item ld mod_cfg p i = Some q -> pr_functions q = pr_functions p.
  Proof.
    intros i p q Top Q. unfold load_item in Q. destruct (should_skip_parsing (item_attrs i)); [inv Q; reflexivity|].
    destruct i.
    - inv Q. unfold load_syn_foreign_mod. destruct (_ && _); [reflexivity|]. rewrite foreign_none by exact Top. reflexivity.
    - inv Q. rewrite fn_none by exact Top. reflexivity.
    - exact (const_functions _ _ _ _ _ _ _ _ _ Q).
    - inv Q. apply static_functions.
    - exact (struct_functions _ _ _ _ _ _ _ _ Q).
    - revert Q. unfold load_syn_union. destruct (Union_load _ _ _ _ _ _); [intro Q; inv Q; reflexivity|apply opaque_functions].
    - revert Q. unfold load_syn_enum. destruct (Enum_load _ _ _ _ _ _); [intro Q; inv Q; reflexivity|apply opaque_functions|discriminate].
    - revert Q. unfold load_syn_ty. destruct (Typedef_load _ _ _ _ _); [intro Q; inv Q; reflexivity|apply opaque_functions].
    - inv Q. unfold load_methods. destruct (bare_ident self_ty); [|reflexivity]. rewrite methods_none by exact Top. reflexivity.
    - exact (macro_functions _ _ _ _ _ _ Q).
    - inv Q. reflexivity.
    - inv Q. reflexivity.
  Qed.
  Lemma module_none : forall items p q, top_level ld = false -> load_syn_crate_mod ld mod_cfg items p = Some q ->
    pr_functions q = pr_functions p.
  Proof.
    intros items p q Top Q. unfold load_syn_crate_mod in Q.
    destruct (load_all (load_item ld mod_cfg) items p) as [p1|] eqn:E; [|discriminate].
    rewrite (late_consts_functions _ _ _ Q). clear Q. revert p E. induction items as [|i r IH]; intros p E; cbn in E; [inv E; reflexivity|].
    destruct (load_item ld mod_cfg p i) as [p2|] eqn:E2; [|discriminate]. rewrite (IH _ E). exact (item_none _ _ _ Top E2).
  Qed.
End Items.

(** The list of callable functions is determined. *)
Lemma methods_unique : forall ty items, (forall a v s, In (ImplFn a v s) items -> attributes_ok a) ->
  forall d1 d2, methods_of ty items d1 -> methods_of ty items d2 -> d1 = d2.
Proof.
  intros ty. induction items as [|x r IH]; intros F d1 d2 M1 M2; [inv M1; inv M2; reflexivity|].
  assert (F' : forall a v s, In (ImplFn a v s) r -> attributes_ok a) by (intros; eapply F; right; eassumption).
  inv M1; inv M2; try (exfalso; congruence); try (exfalso; match goal with N : forall a p s, ImplFn _ _ _ <> _ |- _ => eapply N; reflexivity end).
  - f_equal; [|apply IH; assumption].
    match goal with A : symbol _ _ n, B : symbol _ _ ?m |- _ =>
      rewrite (symbol_unique _ _ _ _ (F _ _ _ (or_introl eq_refl)) A B) end. reflexivity.
  - exfalso. match goal with O : _ \/ _ |- _ => destruct O as [O|[O|O]] end; [congruence|contradiction|].
    match goal with S : symbol _ _ ?m, O : forall n, ~ symbol _ _ n |- _ => exact (O _ S) end.
  - exfalso. match goal with O : _ \/ _ |- _ => destruct O as [O|[O|O]] end; [congruence|contradiction|].
    match goal with S : symbol _ _ ?m, O : forall n, ~ symbol _ _ n |- _ => exact (O _ S) end.
  - apply IH; assumption.
  - apply IH; assumption.
Qed.
Lemma callable_unique : forall i, item_ok i -> forall d1 d2, callable i d1 -> callable i d2 -> d1 = d2.
Proof.
  intros i Ok d1 d2 C1 C2.
  assert (Hid : forall attrs sig n, ~ c_abi (sg_abi sig) \/ (forall n, ~ symbol attrs (unraw (sg_ident sig)) n) -> c_abi (sg_abi sig) ->
                  symbol attrs (unraw (sg_ident sig)) n -> False)
    by (intros attrs sig n [Q|Q] A N; [contradiction|exact (Q n N)]).
  inv C1; inv C2; try reflexivity; cbn [item_attrs] in *; try (exfalso; congruence); try contradiction;
    try (exfalso; eapply Hid; eassumption).
  - match goal with A : symbol _ _ n, B : symbol _ _ ?m |- _ => rewrite (symbol_unique _ _ _ _ (proj1 Ok) A B) end. reflexivity.
  - eapply methods_unique; [|eassumption|eassumption]. intros a v s Q. exact (proj1 (Ok a v s Q)).
Qed.
Lemma callables_unique : forall items, Forall item_ok items -> forall d1 d2, callables items d1 -> callables items d2 -> d1 = d2.
Proof.
  induction items as [|i r IH]; intros F d1 d2 C1 C2; inv C1; inv C2; [reflexivity|]. inv F.
  f_equal; [eapply callable_unique; eassumption|apply IH; assumption].
Qed.
