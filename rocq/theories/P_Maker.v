(** The C++ functions that make an object of a variant. *)
Require Import Coq.Strings.String Coq.Strings.Ascii Coq.Lists.List Coq.Bool.Bool Coq.Arith.Arith Coq.micromega.Lia.
From Verif Require Import Base P_Base S_Lex M_Config S_Decl M_Type M_Ir M_Item M_Library M_Literal M_Bindings M_Backend S_File S_Shown S_Literal S_Expr S_Method S_Derived S_Maker
  P_SigLib P_DataText P_ConstText P_MethodLex P_Method P_Derived.
From Verif Require P_Expr P_CastType P_EnumText.
Import ListNotations.
Open Scope string_scope.

(** ** Tokens *)
Definition starts_well (t : string) (ts : list etok) : Prop := Lexes t ts /\ P_Expr.first_in quote t = false.
Lemma blanks_well : forall a t ts, all_blank a = true -> starts_well t ts -> starts_well (a ++ t) ts.
Proof.
  intros a t ts A [L Q]. split; [exact (blanks_skip _ _ _ A L)|]. destruct a as [|x a]; [exact Q|]. cbn in A. apply andb_prop in A as [X _].
  exact (proj1 (proj2 (blank_calm x X))).
Qed.
Lemma say_well : forall cs ps t ts, closed cs = true -> made_of t (say (text cs) :: ps) -> (forall t', made_of t' ps -> starts_well t' ts) ->
  starts_well t (toks cs ++ ts).
Proof.
  intros cs ps t ts C (a & s & r & -> & A & -> & AP & M) K. apply blanks_well; [exact A|]. destruct (K _ M) as [L Q]. unfold closed in C.
  apply andb_prop in C as [C O]. apply andb_prop in C as [C G]. split.
  - apply reads_text; [exact G| |exact Q| |exact L].
    + intro E. unfold apart in AP. rewrite (text_ends _ G E) in AP. cbn in AP. apply negb_true_iff in AP. exact AP.
    + intro E. apply negb_true_iff in O. congruence.
  - destruct cs as [|x cs]; [discriminate|]. destruct (start_of _ _ r G) as (y & z & -> & Y & _). exact Y.
Qed.
Lemma word_no_quote : forall s w ts, Lexes s (Id w :: ts) -> P_Expr.first_in quote s = false.
Proof.
  intros s w ts L. destruct s as [|a s]; [reflexivity|]. cbn. destruct (quote a) eqn:Q; [|reflexivity]. unfold quote in Q. apply Ascii.eqb_eq in Q. subst a.
  exfalso. inversion L as [|? ? ? E _|? ? ? ? E _]; subst; cbn in E; destruct (S_Expr.quoted false s) as [[q z]|]; discriminate.
Qed.

Section Types.
  Variables (b : Bindings).
  Let c : Config := b_config b.
  Hypothesis CXX : language c = Cxx.
  Notation pw := (pointer_words (dialect_of c)).
  Hypothesis PW : Forall (fun w => S_Lex.is_ident w = true) pw.
  (** [type )] is read as the type. *)
  Lemma type_well : forall ty, cast_type b (fun _ => true) ty = true -> exists us, (forall rest, exists n, forall m, n <= m ->
      type_name (fun _ => true) pw m (us ++ Op ")" :: rest) = Some (c_type c false ty, Op ")" :: rest))
    /\ forall ps t ts, made_of t (named_type b ty :: ps) ->
       (forall t', made_of t' ps -> Lexes t' ts /\ P_CastType.after_type t') -> starts_well t (us ++ ts).
  Proof.
    intros ty CT. destruct (P_CastType.cast_written (tab_width c) (line_endings c) b (fun _ => true)) with (t := ty) as (p & us & WT & _ & WR & [TS TN]).
    - fold c. rewrite CXX. discriminate.
    - exact PW.
    - exact CT.
    - exists us. split; [exact TN|]. intros ps t ts (a & s & r & -> & A & [(q & w & w' & Q & _ & R & O) _] & AP & M) K. apply blanks_well; [exact A|]. destruct (K _ M) as [L AT].
      rewrite WT in Q. cbn in Q. injection Q as <-. destruct (WR w w' R) as (s' & O' & F). rewrite O in O'. apply sapp_inj_l in O'. subst s'.
      destruct (F r ts AT L) as [L' _]. split; [exact L'|]. specialize (TS []). destruct us as [|[x| | |] us]; try discriminate TS. exact (word_no_quote _ _ _ L').
  Qed.
End Types.

(** ** Reading the actions *)
Section Reading.
  Variable pw : list string.
  Lemma actions_end : actions pw [] [].
  Proof. exists 1. intros [|m] L; [lia|]. reflexivity. Qed.
  Lemma actions_cons : forall us x rest l n, us <> [] -> (forall m, n <= m -> action_read pw m (us ++ rest) = Some (x, rest)) -> actions pw rest l ->
    actions pw (us ++ rest) (x :: l).
  Proof.
    intros us x rest l n N A (k & K). exists (S (n + k)). intros [|m] L; [lia|]. cbn [actions_read]. destruct us as [|u us]; [congruence|]. cbn [app] in *.
    rewrite A by lia. rewrite K by lia. reflexivity.
  Qed.
  Lemma declare_read : forall k x rest l, k <> "return" -> actions pw rest l -> actions pw ([Id k; Id x; Op ";"] ++ rest) (Declares k x :: l).
  Proof.
    intros k x rest l N A. eapply (actions_cons _ _ _ _ 0); [discriminate| |exact A]. intros m _. unfold action_read. cbn [app after etok_eqb].
    rewrite String.eqb_refl, (proj2 (String.eqb_neq _ _) N). reflexivity.
  Qed.
  Lemma return_read : forall x rest l, actions pw rest l -> actions pw ([Id "return"; Id x; Op ";"] ++ rest) (GivesBack x :: l).
  Proof. intros x rest l A. eapply (actions_cons _ _ _ _ 0); [discriminate| |exact A]. intros m _. reflexivity. Qed.
  Lemma assign_read' : forall x f w v rest l, actions pw rest l ->
    actions pw ([Id x; Op "."; Id f; Op "="; Id w; Op "::"; Id v; Op ";"] ++ rest) (Assigns x [f] (w ++ "::" ++ v) :: l).
  Proof. intros x f w v rest l A. eapply (actions_cons _ _ _ _ 0); [discriminate| |exact A]. intros m _. reflexivity. Qed.
  Lemma construct_read : forall x n f ty us a rest l, (forall rest, exists n, forall m, n <= m -> type_name (fun _ => true) pw m (us ++ Op ")" :: rest) = Some (ty, Op ")" :: rest)) ->
    actions pw rest l ->
    actions pw ((([Op "::"; Id "new"; Op "("; Op "&"; Id x; Op "."; Id n; Op "."; Id f; Op ")"; Op "("] ++ us) ++ [Op ")"; Op "("; Id a; Op ")"; Op ";"]) ++ rest)
      (Constructs x [n; f] ty a :: l).
  Proof.
    intros x n f ty us a rest l T A. destruct (T (Op "(" :: Id a :: Op ")" :: Op ";" :: rest)) as (k & K). eapply (actions_cons _ _ _ _ k); [discriminate| |exact A].
    intros m L. rewrite <- !app_assoc. unfold action_read.
    change (after [Op "::"; Id "new"; Op "("; Op "&"] ([Op "::"; Id "new"; Op "("; Op "&"; Id x; Op "."; Id n; Op "."; Id f; Op ")"; Op "("] ++ us ++ [Op ")"; Op "("; Id a; Op ")"; Op ";"] ++ rest))
      with (Some (Id x :: Op "." :: Id n :: Op "." :: Id f :: Op ")" :: Op "(" :: us ++ [Op ")"; Op "("; Id a; Op ")"; Op ";"] ++ rest)).
    cbn [dotted after etok_eqb]. rewrite !String.eqb_refl. cbn [app] in K |- *. rewrite (K m L). cbn [after etok_eqb String.eqb Ascii.eqb Bool.eqb]. reflexivity.
  Qed.
End Reading.

(** ** The text *)
Definition init_chunks (n f : string) : list chunk := [P "::"; W "new"; B; P "("; P "&"; W "result"; P "."; W n; P "."; W f; P ")"; B; P "("].
Definition arg_chunks (a : string) : list chunk := [P ")"; P "("; W a; P ")"; P ";"].
Section Text.
  Context {H : Heck} (b : Bindings).
  Let c : Config := b_config b.
  Hypothesis CXX : language c = Cxx.
  Notation pw := (pointer_words (dialect_of c)).
  Hypothesis PW : Forall (fun w => S_Lex.is_ident w = true) pw.
  Variable n : string.
  Hypothesis IN : S_Lex.is_ident n = true.
  Notation param f := (renamed b (fd_name f)).
  Definition simple_field (f : Field) : Prop := cast_type b (fun _ => true) (fd_ty f) = true /\ S_Lex.is_ident (fd_name f) = true /\ S_Lex.is_ident (param f) = true.
  Definition constructs (f : Field) : action := Constructs "result" [n; fd_name f] (c_type c false (fd_ty f)) (param f).

  Lemma arg_after : forall a ps t, made_of t (say (text (arg_chunks a)) :: ps) -> P_CastType.after_type t.
  Proof.
    intros a ps t (x & s & r & -> & A & -> & _ & _). destruct x as [|y x]; [reflexivity|]. cbn in A. apply andb_prop in A as [Y _].
    unfold P_CastType.after_type. cbn [append P_Expr.first_in]. rewrite Y. reflexivity.
  Qed.
  Lemma simple_init : forall f, simple_field f -> shown_init b n f = [say (text (init_chunks n (fd_name f))); named_type b (fd_ty f); say (text (arg_chunks (param f)))].
  Proof. intros f (T & _ & _). unfold shown_init. destruct (fd_ty f); try discriminate T; reflexivity. Qed.
  Lemma inits_well : forall fs, Forall simple_field fs -> exists us,
    (forall ps ts, (forall t, made_of t ps -> starts_well t ts) -> forall t, made_of t (flat_map (shown_init b n) fs ++ ps) -> starts_well t (us ++ ts))
    /\ forall rest l, actions pw rest l -> actions pw (us ++ rest) (map constructs fs ++ l).
  Proof.
    induction fs as [|f fs IH]; intro F.
    - exists []. split; [intros ps ts K t M; exact (K t M)|intros rest l A; exact A].
    - inversion F as [|? ? Sf F']; subst. destruct (IH F') as (us & K & R). assert (Sf' := Sf). destruct Sf' as (CT & IF & IP).
      destruct (type_well b CXX PW (fd_ty f) CT) as (vs & TR & TW).
      exists ((([Op "::"; Id "new"; Op "("; Op "&"; Id "result"; Op "."; Id n; Op "."; Id (fd_name f); Op ")"; Op "("] ++ vs) ++ [Op ")"; Op "("; Id (param f); Op ")"; Op ";"]) ++ us)%list. split.
      + intros ps ts Kp t M. cbn [flat_map] in M. rewrite (simple_init f Sf) in M. rewrite <- !app_assoc in *. cbn [app] in M.
        change ([Op "::"; Id "new"; Op "("; Op "&"; Id "result"; Op "."; Id n; Op "."; Id (fd_name f); Op ")"; Op "("])%list with (toks (init_chunks n (fd_name f))).
        eapply say_well; [|exact M|].
        * unfold closed, init_chunks. cbn -[S_Lex.is_ident]. rewrite IN, IF. reflexivity.
        * intros t1 M1. eapply TW; [exact M1|]. intros t2 M2. split; [|exact (arg_after _ _ _ M2)].
          change (Op ")" :: Op "(" :: Id (param f) :: Op ")" :: Op ";" :: us ++ ts)%list with (toks (arg_chunks (param f)) ++ (us ++ ts))%list.
          refine (proj1 (say_well (arg_chunks (param f)) _ _ _ _ M2 _)).
          -- unfold closed, arg_chunks. cbn -[S_Lex.is_ident]. rewrite IP. reflexivity.
          -- intros t3 M3. exact (K ps ts Kp t3 M3).
      + intros rest l A. rewrite <- app_assoc. cbn [map app]. apply construct_read; [exact TR|]. exact (R rest l A).
  Qed.
End Text.

(** ** Running them *)
Section Running.
  Context {H : Heck} (W : world) (raw : string -> wo_value W) (c : Config) (n : string) (fields : list Field) (ty : Field -> ctype).
  Notation param := (param_name c).
  Notation names := (map fd_name fields).
  Hypothesis HD : holds_data W n names.
  Variable args : list (string * wo_value W).
  Notation V := (wo_value W).
  Notation present o := (wo_member W o "tag" <> None /\ forall f, In f names -> got W o [n; f] <> None).

  Lemma put_field : forall o f x, In f names -> present o -> exists o', put W o [n; f] x = Some o' /\ got W o' [n; f] = Some x
    /\ (forall g, In g names -> g <> f -> got W o' [n; g] = got W o [n; g]) /\ present o'.
  Proof.
    intros o f x I [T F]. pose proof (F f I) as G. cbn [got] in G. destruct (wo_member W o n) as [d|] eqn:D; [|congruence].
    destruct (wo_member W d f) as [y|] eqn:Y; [|congruence]. cbn [put]. rewrite D, Y.
    destruct (wo_with W d f x) as [d'|] eqn:D'; [|exfalso; apply (hd_open W n names HD d f x); congruence].
    destruct (wo_with W o n d') as [o'|] eqn:O'; [|exfalso; apply (hd_open W n names HD o n d'); congruence].
    pose proof (hd_there W n names HD _ _ _ _ O') as N1. pose proof (hd_there W n names HD _ _ _ _ D') as N2.
    assert (K : forall g, In g names -> g <> f -> got W o' [n; g] = got W o [n; g]).
    { intros g Ig Ne. cbn [got]. rewrite N1, D, (hd_fields W n names HD d f x d' g I Ig (not_eq_sym Ne) D'). reflexivity. }
    assert (N3 : got W o' [n; f] = Some x) by (cbn [got]; rewrite N1, N2; reflexivity).
    exists o'. split; [reflexivity|]. split; [exact N3|]. split; [exact K|]. split; [exact (hd_tag_stays W n names HD _ _ _ O' T)|].
    intros g Ig. destruct (string_dec g f) as [->|Ne]; [rewrite N3; discriminate|]. rewrite (K g Ig Ne). exact (F g Ig).
  Qed.
  Definition fill (f : Field) : action := Constructs "result" [n; fd_name f] (ty f) (param f).
  Lemma fill_runs : forall todo vals o rest, incl todo fields -> NoDup (map fd_name todo) -> present o ->
    Forall2 (fun f x => param f <> "result" /\ lookup (param f) args = Some x) todo vals ->
    exists o', perform W raw args (Some ("result", o)) (map fill todo ++ rest) = perform W raw args (Some ("result", o')) rest /\ present o'
      /\ Forall2 (fun f x => got W o' [n; fd_name f] = Some x) todo vals
      /\ forall g, In g names -> ~ In g (map fd_name todo) -> got W o' [n; g] = got W o [n; g].
  Proof.
    induction todo as [|f todo IH]; intros vals o rest I ND Pr F; inversion F as [|? x ? vals' [Nr L] F']; subst.
    - exists o. split; [reflexivity|]. split; [exact Pr|]. split; [constructor|]. reflexivity.
    - assert (If : In (fd_name f) names) by (apply in_map, I; left; reflexivity). inversion ND as [|? ? Nf ND']; subst.
      destruct (put_field o (fd_name f) x If Pr) as (o1 & P1 & G1 & K1 & Pr1).
      destruct (IH vals' o1 rest (fun z Z => I z (or_intror Z)) ND' Pr1 F') as (o2 & P2 & Pr2 & G2 & K2).
      exists o2. split; [|split; [exact Pr2|split]].
      + cbn [map app]. unfold fill at 1. cbn [perform]. rewrite String.eqb_refl, (proj2 (String.eqb_neq _ _) Nr), L, P1. exact P2.
      + constructor; [|exact G2]. rewrite (K2 _ If Nf). exact G1.
      + intros g Ig Ng. rewrite K2; [|exact Ig|intro Z; apply Ng; right; exact Z]. apply K1; [exact Ig|]. intros ->. apply Ng. left. reflexivity.
  Qed.
  Lemma maker_runs : forall class vals name k, NoDup names -> present (raw class) ->
    Forall2 (fun f x => param f <> "result" /\ lookup (param f) args = Some x) fields vals -> wo_named W name = Some k ->
    exists o, perform W raw args None (Declares class "result" :: map fill fields ++ [Assigns "result" ["tag"] name; GivesBack "result"]) = Some o
      /\ wo_member W o "tag" = Some k /\ Forall2 (fun f x => got W o [n; fd_name f] = Some x) fields vals.
  Proof.
    intros class vals name k ND Pr F K. destruct (fill_runs fields vals (raw class) [Assigns "result" ["tag"] name; GivesBack "result"] (fun z Z => Z) ND Pr F) as (o & P & [T Fo] & G & _).
    destruct (wo_with W o "tag" k) as [o'|] eqn:O'; [|exfalso; exact (hd_open W n names HD o "tag" k T O')].
    exists o'. split; [|split].
    - cbn [perform]. rewrite P. cbn [perform put]. rewrite ?String.eqb_refl, K. destruct (wo_member W o "tag"); [|congruence]. rewrite O'. cbn [perform]. rewrite ?String.eqb_refl. reflexivity.
    - exact (hd_there W n names HD _ _ _ _ O').
    - assert (IA : forall g, In g names -> got W o' [n; g] = got W o [n; g]) by (intros g Ig; exact (hd_data W n names HD o k o' g Ig O')).
      assert (M : forall l, incl l fields -> forall l', Forall2 (fun f x => got W o [n; fd_name f] = Some x) l l' -> Forall2 (fun f x => got W o' [n; fd_name f] = Some x) l l').
      { intros l II l' Gl. induction Gl as [|f x l l' G1 Gl IHl]; [constructor|]. constructor; [|apply IHl; intros z Z; apply II; right; exact Z].
        rewrite IA; [exact G1|]. apply in_map, II. left. reflexivity. }
      exact (M fields (fun z Z => Z) vals G).
  Qed.
End Running.

(** ** From the header to what they do *)
Section Found.
  Context {H : Heck} (fuel : nat) (b : Bindings) (t : string).
  Let c : Config := b_config b.
  Hypothesis CXX : language c = Cxx.
  Hypothesis PA : proper_attributes c = true.
  Hypothesis TW : tab_width c <> 0.
  Hypothesis BN : b_noop b = false.
  Hypothesis WR : bindings_text fuel b = Done t.
  Variable e : Enum.
  Hypothesis IE : In (AnItem (ICEnum e)) (definitions b).
  Hypothesis TE : e_tag e <> None.
  Hypothesis N : enum_named c e.
  Notation pw := (pointer_words (dialect_of c)).

  Theorem maker_found : forall v, In v (e_variants e) -> wanted (e_annotations e) "derive-helper-methods" (en_derive_helper_methods (enumeration c)) = true -> makeable b e v ->
    exists head params rest us l, within (head ++ params ++ rest) t /\ made_of head [say ("static " ++ e_export_name e ++ " " ++ v_export_name v ++ "(")]
      /\ made_of params (maker_parameters b v) /\ Lexes rest (Op ")" :: Op "{" :: us ++ [Op "}"]) /\ actions pw us l
      /\ forall W raw vals k, holds_data W (data_place v) (map fd_name (given_fields v)) -> List.length vals = List.length (given_fields v) ->
         wo_named W (enumerator e v) = Some k -> wo_member W (raw (e_export_name e)) "tag" <> None ->
         Forall (fun f => got W (raw (e_export_name e)) [data_place v; fd_name f] <> None) (given_fields v) ->
         exists o, perform W raw (combine (map (param_name c) (given_fields v)) vals) None l = Some o
           /\ wo_member W o "tag" = Some k /\ Forall2 (fun f x => got W o [data_place v; fd_name f] = Some x) (given_fields v) vals.
  Proof.
    intros v I WA MK. destruct (methods_found fuel b t CXX PA TW BN WR e IE TE (other_name c) (e_export_name e) eq_refl eq_refl) as (z & Wi & M).
    change (b_config b) with c in M. rewrite WA in M. cbn [only] in M. left_ M Wi. member_ I M Wi. unfold shown_helpers in M. cond_ M Wi. left_ M Wi. unfold shown_variant_constructor in M. right_ M Wi.
    destruct MK as [MC MA MT [MF NF] [MP NP]]. destruct N as (IT & IC & _ & _ & _ & FV). rewrite Forall_forall in FV. destruct (FV v I) as [IV BV].
    set (args := match v_body v with VBody _ body _ _ => _ | VEmpty _ => _ end) in M. set (inits := match v_body v with VBody _ _ _ _ => _ | VEmpty _ => _ end) in M.
    assert (EA : args = maker_parameters b v) by (unfold args, maker_parameters, given_fields; destruct (v_body v); reflexivity). clearbody args. subst args.
    assert (IW : exists us, (forall ps ts, (forall t, made_of t ps -> starts_well t ts) -> forall t, made_of t (inits ++ ps) -> starts_well t (us ++ ts))
                 /\ forall rest l, actions pw rest l -> actions pw (us ++ rest) (map (constructs b (data_place v)) (given_fields v) ++ l)).
    { unfold inits, data_place, given_fields in *. destruct (v_body v) as [an|n s i o].
      - exists []. split; [intros ps ts K t' M'; exact (K t' M')|intros rest l A; exact A].
      - apply inits_well; [exact CXX|exact MA|apply plain_ident; apply BV|]. apply Forall_forall. intros f If. rewrite Forall_forall in MT, MF, MP.
        split; [exact (MT f If)|]. split; [exact (MF f If)|apply (MP f If)]. }
    clearbody inits. destruct IW as (us & KU & RU).
    destruct (P_EnumText.made_app _ _ _ M) as (head & r1 & -> & M1 & M2). destruct (P_EnumText.made_app _ _ _ M2) as (params & rest & -> & M3 & M4).
    exists head, params, rest.
    exists ([Id (e_export_name e); Id "result"; Op ";"] ++ us ++ [Id "result"; Op "."; Id "tag"; Op "="; Id (tag_name e); Op "::"; Id (v_export_name v); Op ";"] ++ [Id "return"; Id "result"; Op ";"])%list.
    exists (Declares (e_export_name e) "result" :: map (constructs b (data_place v)) (given_fields v) ++ [Assigns "result" ["tag"] (enumerator e v); GivesBack "result"]).
    split; [exact Wi|]. split; [exact M1|]. split; [exact M3|]. split; [|split].
    - unfold method in M4. cbn [app] in M4.
      assert (G : starts_well rest (toks [P ")"] ++ toks [P "{"] ++ toks [W (e_export_name e); B; W "result"; P ";"] ++ us ++
                    (toks [W "result"; P "."; W "tag"; B; P "="; B; W (tag_name e); P "::"; W (v_export_name v); P ";"] ++ toks [W "return"; B; W "result"; P ";"] ++ toks [P "}"] ++ []))).
      { eapply (say_well [P ")"]); [reflexivity|exact M4|]. intros t1 M5. eapply (say_well [P "{"]); [reflexivity|exact M5|]. intros t2 M6.
        eapply (say_well [W (e_export_name e); B; W "result"; P ";"]); [unfold closed; cbn -[S_Lex.is_ident]; rewrite IC; reflexivity|exact M6|]. intros t3 M7.
        rewrite <- app_assoc in M7. refine (KU _ _ _ t3 M7). clear M7 t3. intros t3 M7. cbn [app] in M7.
        eapply (say_well [W "result"; P "."; W "tag"; B; P "="; B; W (tag_name e); P "::"; W (v_export_name v); P ";"]); [unfold closed; cbn -[S_Lex.is_ident]; rewrite IT, IV; reflexivity|exact M7|].
        intros t4 M8. eapply (say_well [W "return"; B; W "result"; P ";"]); [reflexivity|exact M8|]. intros t5 M9. eapply (say_well [P "}"]); [reflexivity|exact M9|].
        intros t6 M10. cbn in M10. rewrite <- (sapp_nil_r t6). apply blanks_well; [exact M10|]. split; [constructor|reflexivity]. }
      destruct G as [G _]. cbn [toks app] in G |- *. rewrite <- app_assoc. exact G.
    - apply declare_read; [exact MC|]. apply RU. apply assign_read'. rewrite <- (app_nil_r [Id "return"; Id "result"; Op ";"]). apply return_read, actions_end.
    - intros Wo raw vals k HD LV K TG PR. refine (maker_runs Wo raw c (data_place v) (given_fields v) (fun f => c_type c false (fd_ty f)) HD _ (e_export_name e) vals (enumerator e v) k NF _ _ K).
      + split; [exact TG|]. intros f If. apply in_map_iff in If as (g & <- & Ig). rewrite Forall_forall in PR. exact (PR g Ig).
      + clear - LV MP NP. revert vals LV. induction (given_fields v) as [|f fs IH]; intros [|x vals] LV; try discriminate LV; [constructor|].
        inversion MP as [|? ? [_ Pf] MP']; subst. cbn [map combine] in *. inversion NP as [|? ? Nf NP']; subst. constructor.
        * split; [exact Pf|]. cbn [lookup]. rewrite String.eqb_refl. reflexivity.
        * assert (L2 : List.length vals = List.length fs) by (cbn in LV; lia). pose proof (IH MP' NP' vals L2) as F. clear IH.
          assert (Z : forall g, In g fs -> param_name c g <> param_name c f) by (intros g Ig E; apply Nf; change (In (param_name c f) (map (param_name c) fs)); rewrite <- E; apply in_map; exact Ig).
          clear Nf. set (l0 := combine (map (param_name c) fs) vals) in *. clearbody l0. revert Z. clear - F. induction F as [|g y gs ys [G1 G2] F IH]; intro Z; constructor.
          -- split; [exact G1|]. cbn [lookup]. rewrite (proj2 (String.eqb_neq _ _) (Z g (or_introl eq_refl))). exact G2.
          -- apply IH. intros g' Ig. apply Z. right. exact Ig.
  Qed.

  Lemma named_is : forall w p, S_Lex.is_ident w = true -> In p ["Is"; "As"] -> S_Lex.is_ident (p ++ w) = true.
  Proof.
    intros w p K Ip. destruct w as [|ch w]; [discriminate|]. destruct Ip as [<-|[<-|[]]]; cbn -[S_Lex.wordchar] in K |- *; apply andb_prop in K as [_ K]; exact K.
  Qed.
  Theorem cast_found : forall v const_, In v (e_variants e) -> cast_wanted c e const_ = true -> given_fields v <> [] -> S_Lex.is_ident (assertion_name c) = true ->
    exists kind rest us body, within (kind ++ rest) t /\ made_of kind [cast_type_piece b v const_]
      /\ Lexes rest (cast_head v const_ ++ Op "{" :: assertion c v ++ us ++ [Op "}"]) /\ body_of us body
      /\ forall W self d, wo_member W self (data_place v) = Some d ->
         match v_body v with
         | VBody _ _ _ true => forall f x, given_fields v = [f] -> fd_name f = "_0" -> wo_member W d (fd_name f) = Some x -> returns W body self [] self (Value x)
         | _ => returns W body self [] self (Value d)
         end.
  Proof.
    intros v k I WA GF IA. unfold cast_wanted in WA. apply andb_prop in WA as [WA WC].
    destruct (methods_found fuel b t CXX PA TW BN WR e IE TE (other_name c) (e_export_name e) eq_refl eq_refl) as (z & Wi & M).
    change (b_config b) with c in M. rewrite WA in M. cbn [only] in M. left_ M Wi. member_ I M Wi. unfold shown_helpers in M. cond_ M Wi. do 2 right_ M Wi.
    assert (MC : exists y, within y t /\ made_of y (shown_cast b v k)).
    { unfold wanted, asked in *. change (b_config b) with c in M. destruct k; rewrite WC in M; cbn [only] in M; [left_ M Wi|right_ M Wi]; eauto. }
    clear Wi M. destruct MC as (yc & Wi & M). unfold shown_cast in M. destruct N as (_ & _ & _ & _ & _ & FV). rewrite Forall_forall in FV. destruct (FV v I) as [IV BV].
    unfold given_fields, data_place, cast_type_piece in *. destruct (v_body v) as [an|n s i only_field] eqn:EB; [congruence|]. destruct BV as (PN & _ & IS).
    destruct (payload s) as [|p0 ps0] eqn:EP; [congruence|]. destruct (last (map Some (s_fields s)) None) as [f0|] eqn:EL.
    2: { exfalso. unfold payload in EP. destruct (s_fields s) as [|x xs] eqn:EF; [destruct (s_has_tag_field s); discriminate EP|]. clear - EL. revert x EL. induction xs as [|x' xs IH]; intros x EL; [discriminate EL|]. exact (IH x' EL). }
    right_ M Wi. destruct (P_EnumText.made_app _ _ _ M) as (kind & rest & -> & M1 & M2). clear M. cbn [app] in M2. rewrite app_comm_cons in M2.
    exists kind, rest, (Id "return" :: ([Id n] ++ (if only_field then [Op "."; Id "_0"] else [])) ++ [Op ";"])%list.
    exists [SReturn (if only_field then CDot (CLeaf n) "_0" else CLeaf n)]. split; [exact Wi|]. split; [|split; [|split]].
    - destruct only_field; [|exact M1]. destruct M1 as (a & x & r & -> & A & X & AP & R). exists a, x, r. repeat (split; [assumption || reflexivity|]). split; [eauto|auto].
    - set (Is := ("Is" ++ v_export_name v)%string) in *. set (As := ("As" ++ v_export_name v)%string) in *.
      assert (II : S_Lex.is_ident Is = true) by (apply named_is; [exact IV|cbn; tauto]). assert (IAs : S_Lex.is_ident As = true) by (apply named_is; [exact IV|cbn; tauto]).
      fold (assertion_name c) in M2.
      assert (E : Lexes rest (flat_map toks ([[W As; P "("; P ")"]] ++ (if k then [[W "const"]] else []) ++ [[P "{"]; [W (assertion_name c); P "("; W Is; P "("; P ")"; P ")"; P ";"]; [W "return"; B; W n]] ++
                   (if only_field then [[P "."; W "_0"]] else []) ++ [[P ";"]; [P "}"]])%list)).
      { apply pieces_lex.
        - apply linked_closed. pose proof (plain_ident _ PN) as IN. clearbody Is As. revert IA. generalize (assertion_name c). intros an IA. clear - IA II IAs IN. unfold closed. destruct k, only_field; cbn -[S_Lex.is_ident]; rewrite IAs, IA, II, IN; reflexivity.
        - unfold assertion_name, As, Is. destruct k, only_field; exact M2. }
      unfold cast_head, assertion. fold As Is. destruct k, only_field; exact E.
    - apply block_body, block_one, return_reads.
      + destruct only_field; reflexivity.
      + destruct only_field; [apply expr_dot|apply expr_word].
    - intros Wo self d D. destruct only_field.
      + intros f x GE FE X. apply returns_value. rewrite FE in X. eapply eval_dot; [exact (eval_leaf Wo self [] n d PN eq_refl D)|exact X].
      + apply returns_value. exact (eval_leaf Wo self [] n d PN eq_refl D).
  Qed.
End Found.

(** ** The constructors of structs *)
Section Constructor.
  Context {H : Heck} (fuel : nat) (b : Bindings) (t : string).
  Let c : Config := b_config b.
  Hypothesis CXX : language c = Cxx.
  Hypothesis PA : proper_attributes c = true.
  Hypothesis TW : tab_width c <> 0.
  Hypothesis BN : b_noop b = false.
  Hypothesis WR : bindings_text fuel b = Done t.

  Fixpoint init_list (fs : list Field) : list (list chunk) :=
    match fs with
    | [] => []
    | [f] => [[W (fd_name f); P "("; W (param_name c f); P ")"]]
    | f :: r => [W (fd_name f); P "("; W (param_name c f); P ")"] :: [P ","] :: init_list r
    end.
  Lemma init_list_said : forall fs, separated "," (fun f => [say (fd_name f ++ "(" ++ renamed b (fd_name f) ++ ")")]) fs = map (fun cs => say (text cs)) (init_list fs).
  Proof.
    induction fs as [|f [|g r] IH]; [reflexivity|reflexivity|].
    change (separated "," (fun f0 => [say (fd_name f0 ++ "(" ++ renamed b (fd_name f0) ++ ")")]) (f :: g :: r))
      with ([say (fd_name f ++ "(" ++ renamed b (fd_name f) ++ ")")] ++ say "," :: separated "," (fun f0 => [say (fd_name f0 ++ "(" ++ renamed b (fd_name f0) ++ ")")]) (g :: r))%list.
    rewrite IH. reflexivity.
  Qed.
  Lemma init_list_closed : forall fs, Forall (fun f => S_Lex.is_ident (fd_name f) = true /\ S_Lex.is_ident (param_name c f) = true) fs -> forallb closed (init_list fs) = true.
  Proof.
    assert (K : forall f, S_Lex.is_ident (fd_name f) = true /\ S_Lex.is_ident (param_name c f) = true -> closed [W (fd_name f); P "("; W (param_name c f); P ")"] = true).
    { intros f [A B]. revert A B. generalize (fd_name f), (param_name c f). intros n p A B. unfold closed. cbn -[S_Lex.is_ident]. rewrite A, B. reflexivity. }
    induction fs as [|f [|g r] IH]; intro F; [reflexivity| |].
    - inversion F; subst. cbn [init_list forallb]. rewrite K by assumption. reflexivity.
    - inversion F; subst. change (init_list (f :: g :: r)) with ([W (fd_name f); P "("; W (param_name c f); P ")"] :: [P ","] :: init_list (g :: r)). cbn [forallb]. rewrite K, IH by assumption. reflexivity.
  Qed.
  Lemma init_list_read : forall fs, initialisers (flat_map toks (init_list fs)) = Some (map (fun f => (fd_name f, param_name c f)) fs).
  Proof.
    induction fs as [|f [|g r] IH]; [reflexivity|reflexivity|].
    change (initialisers (flat_map toks (init_list (f :: g :: r)))) with (option_map (cons (fd_name f, param_name c f)) (initialisers (flat_map toks (init_list (g :: r))))).
    rewrite IH. reflexivity.
  Qed.
  Lemma given_each {A} : forall fs (vals : list A), NoDup (map (param_name c) fs) -> List.length vals = List.length fs ->
    Forall2 (fun f x => lookup (param_name c f) (combine (map (param_name c) fs) vals) = Some x) fs vals.
  Proof.
    induction fs as [|f fs IH]; intros [|x vals] ND L; try discriminate L; [constructor|]. cbn [map combine] in *. inversion ND as [|? ? Nf ND']; subst.
    constructor; [cbn [lookup]; rewrite String.eqb_refl; reflexivity|]. assert (L2 : List.length vals = List.length fs) by (cbn in L; lia). pose proof (IH vals ND' L2) as F.
    assert (Z : forall g, In g fs -> param_name c g <> param_name c f) by (intros g Ig E; apply Nf; change (In (param_name c f) (map (param_name c) fs)); rewrite <- E; apply in_map; exact Ig).
    set (l0 := combine (map (param_name c) fs) vals) in *. clearbody l0. revert Z. clear - F. induction F as [|g y gs ys G F IHF]; intro Z; constructor.
    - cbn [lookup]. rewrite (proj2 (String.eqb_neq _ _) (Z g (or_introl eq_refl))). exact G.
    - apply IHF. intros g' Ig. apply Z. right. exact Ig.
  Qed.
  Theorem constructor_found : forall s, struct_declared b s -> wanted (s_annotations s) "derive-constructor" (st_derive_constructor (structure c)) = true -> s_fields s <> [] ->
    Forall (fun f => S_Lex.is_ident (fd_name f) = true /\ S_Lex.is_ident (param_name c f) = true) (s_fields s) -> NoDup (map (param_name c) (s_fields s)) ->
    exists head params rest us l, within (head ++ params ++ rest) t /\ made_of head [say (s_export_name s ++ "(")] /\ made_of params (constructor_parameters b s)
      /\ Lexes rest (Op ")" :: Op ":" :: us ++ [Op "{"; Op "}"]) /\ initialisers us = Some l /\ map fst l = map fd_name (s_fields s)
      /\ forall (A : Type) (vals : list A), List.length vals = List.length (s_fields s) ->
         Forall2 (fun i x => lookup (snd i) (combine (map (param_name c) (s_fields s)) vals) = Some x) l vals.
  Proof.
    intros s SD WA NE F ND. destruct (struct_found fuel b t CXX PA TW BN WR s SD) as (z & W1 & M1). destruct (derived_found fuel b t CXX s z W1 M1) as (z2 & Wi & M).
    unfold shown_derived in M. change (b_config b) with c in M. unfold wanted in WA. unfold asked in M. rewrite WA in M.
    assert (NN : is_nil (s_fields s) = false) by (destruct (s_fields s); [congruence|reflexivity]). rewrite NN in M. cbn [andb negb only] in M. left_ M Wi. unfold shown_constructor in M.
    destruct (P_EnumText.made_app _ _ _ M) as (head & r1 & -> & M3 & M2). destruct (P_EnumText.made_app _ _ _ M2) as (params & rest & -> & M4 & M5).
    exists head, params, rest, (flat_map toks (init_list (s_fields s))), (map (fun f => (fd_name f, param_name c f)) (s_fields s)).
    split; [exact Wi|]. split; [exact M3|]. split; [exact M4|]. split; [|split; [apply init_list_read|split]].
    - assert (E : Lexes rest (flat_map toks ([P ")"] :: [P ":"] :: init_list (s_fields s) ++ [[P "{"; P "}"]]))).
      { apply pieces_lex.
        - assert (C : forallb closed (init_list (s_fields s) ++ [[P "{"; P "}"]]) = true) by (rewrite forallb_app, (init_list_closed _ F); reflexivity).
          pose proof (linked_closed _ C) as L. revert L. destruct (s_fields s) as [|f [|g r]]; [congruence| |]; intro L; cbn [linked]; change (linked ?x) with (linked x); exact L.
        - rewrite init_list_said in M5. cbn [map]. rewrite map_app. exact M5. }
      cbn [flat_map] in E. rewrite flat_map_app in E. exact E.
    - rewrite map_map. reflexivity.
    - intros A vals L. pose proof (given_each (s_fields s) vals ND L) as G. revert G. generalize (combine (map (param_name c) (s_fields s)) vals). intros args G. clear - G.
      induction G; constructor; assumption.
  Qed.
End Constructor.
