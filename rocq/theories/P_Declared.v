(** Proofs for C19, continued: the words of the base type, and the text written. *)
Require Import Coq.Strings.String Coq.Strings.Ascii Coq.Lists.List Coq.Bool.Bool Coq.Arith.Arith Coq.micromega.Lia.
From Verif Require Import Base P_Base S_Lex M_Config M_Writer S_Writer P_Writer M_Type M_Ir P_Type M_Cdecl S_Decl P_Tokens P_Cdecl.
Import ListNotations.
Open Scope string_scope.

Section Config.
  Variable c : Config.
  Hypothesis attributes_ok : proper_attributes c = true.
  Notation dial := (dialect_of c).
  Notation decl a := (declaration dial a).

  (** ** Words *)
  Lemma reserved_parts : forall w, reserved dial w = false -> mem_str w tag_words = false /\ mem_str w specifier_words = false /\ w <> "const" /\ w <> "...".
  Proof.
    intros w Hw. unfold reserved in Hw. apply mem_str_false in Hw. rewrite !in_app_iff in Hw. repeat split.
    - apply mem_str_false. tauto.
    - apply mem_str_false. tauto.
    - intros ->. apply Hw. left. left. reflexivity.
    - intros ->. apply Hw. left. right. left. reflexivity.
  Qed.
  Lemma type_word_free : forall w, In w type_words -> reserved dial w = false.
  Proof.
    intros w Hw. unfold reserved. apply mem_str_false. intros Hin. rewrite !app_assoc in Hin. rewrite <- app_assoc in Hin.
    apply in_app_iff in Hin. destruct Hin as [Hin|Hin].
    - assert (E : existsb (fun v => mem_str v ((["const"; "..."] ++ tag_words) ++ specifier_words)) type_words = false) by reflexivity.
      rewrite <- Bool.not_true_iff_false in E. apply E. apply existsb_exists. exists w. split; [exact Hw|]. apply mem_str_In. exact Hin.
    - unfold proper_attributes in attributes_ok. rewrite forallb_forall in attributes_ok. specialize (attributes_ok w Hin).
      apply andb_prop in attributes_ok as [_ Hn]. apply negb_true_iff, mem_str_false in Hn. apply Hn.
      rewrite !in_app_iff. right. right. right. exact Hw.
  Qed.
  Lemma attribute_word : forall w, In w (pointer_words dial ++ function_words dial) -> word w = true.
  Proof.
    intros w Hin. unfold proper_attributes in attributes_ok. rewrite forallb_forall in attributes_ok. specialize (attributes_ok w Hin).
    apply andb_prop in attributes_ok as [Hw _]. exact Hw.
  Qed.
  Lemma usable_parts : forall w, usable c w = true -> word w = true /\ reserved dial w = false.
  Proof. intros w Hw. apply andb_prop in Hw as [H1 H2]. apply negb_true_iff in H2. split; assumption. Qed.

  (** ** The base type *)
  Inductive after_base : list tok -> Prop :=
  | ab_follow : forall r, follow r -> after_base r
  | ab_star : forall r, star r -> after_base r
  | ab_open : forall r, after_base (P "(" :: r)
  | ab_name : forall w r, reserved dial w = false -> after_base (W w :: r).
  Definition based (us : list tok) (t : ctype) : Prop :=
    word_first us /\ forall rest, after_base rest -> ev (fun a b => specifiers dial (decl a) b (us ++ rest)) (t, rest).
  Lemma no_arguments : forall rd n rest, after_base rest -> arguments dial rd n rest = Some ([], rest).
  Proof.
    intros rd n rest [r [r' []|r'|w r'|r']|r []|r|w r Hw]; reflexivity.
  Qed.
  Lemma no_more_words : forall rest, after_base rest -> spec_words rest = ([], rest).
  Proof.
    intros rest [r [r' []|r'|w r'|r']|r []|r|w r Hw]; try reflexivity.
    cbn [spec_words]. destruct (reserved_parts w Hw) as (_ & -> & _). reflexivity.
  Qed.
  Definition const_toks (q : bool) : list tok := if q then [W "const"] else [].
  Lemma specifiers_const : forall rd n q w r, w <> "const" ->
    specifiers dial rd n (const_toks q ++ W w :: r) =
      (if mem_str w tag_words then
            match r with
            | W x :: r' => if reserved dial x then None
                           else match arguments dial rd n r' with Some (args, r2) => Some (CName q (Some w) [x] args, r2) | None => None end
            | _ => None
            end
          else if mem_str w specifier_words then let '(ws, r') := spec_words r in Some (CName q None (w :: ws) [], r')
          else if reserved dial w then None
          else match arguments dial rd n r with Some (args, r2) => Some (CName q None [w] args, r2) | None => None end).
  Proof.
    intros rd n [] w r Hw; unfold specifiers; cbn [const_toks app skip String.eqb]; [reflexivity|].
    destruct (String.eqb_spec w "const"); [contradiction|reflexivity].
  Qed.
  Lemma const_first : forall q us, word_first us -> word_first (const_toks q ++ us).
  Proof. intros [] us (w & r & ->); do 2 eexists; reflexivity. Qed.

  Lemma based_primitive : forall q p, p <> PVaList -> based (const_toks q ++ map W (primitive c p)) (CName q None (primitive c p) []).
  Proof.
    intros q p Hp. split.
    - apply const_first. destruct p as [| | | | | | | | | |z s k]; try (do 2 eexists; reflexivity).
      destruct s, k; cbn [primitive integer sized]; try destruct (usize_is_size_t c); do 2 eexists; reflexivity.
    - intros rest Hr. exists 0. intros a b _ _. rewrite <- app_assoc.
      assert (Named : forall w, In w type_words -> specifiers dial (decl a) b (const_toks q ++ map W [w] ++ rest) = Some (CName q None [w] [], rest)).
      { intros w Hw. cbn [map app]. assert (Hf := type_word_free w Hw). destruct (reserved_parts w Hf) as (H1 & H2 & H3 & _).
        rewrite specifiers_const by exact H3. rewrite H1, H2, Hf, no_arguments by exact Hr. reflexivity. }
      assert (Hs := no_more_words rest Hr).
      assert (Word1 : forall w, In w specifier_words -> specifiers dial (decl a) b (const_toks q ++ map W [w] ++ rest) = Some (CName q None [w] [], rest)).
      { intros w Hw. cbn [map app]. rewrite specifiers_const; [|intros ->; destruct Hw as [Hw|[Hw|[Hw|[Hw|[Hw|[Hw|[Hw|[Hw|[Hw|[]]]]]]]]]]; discriminate].
        replace (mem_str w tag_words) with false by (destruct Hw as [Hw|[Hw|[Hw|[Hw|[Hw|[Hw|[Hw|[Hw|[Hw|[]]]]]]]]]]; subst w; reflexivity).
        replace (mem_str w specifier_words) with true by (symmetry; apply mem_str_In; exact Hw). rewrite Hs. reflexivity. }
      destruct p as [| | | | | | | | | |z s k]; try (apply Word1; cbn; tauto); try (apply Named; cbn; tauto); try contradiction;
        try (cbn [primitive map app]; rewrite specifiers_const by discriminate; cbn [mem_str existsb tag_words specifier_words spec_words String.eqb orb]; cbn; rewrite Hs; reflexivity).
      destruct s, k; cbn [primitive integer sized]; try destruct (usize_is_size_t c); try (apply Word1; cbn; tauto); try (apply Named; cbn; tauto);
        cbn [primitive map app]; rewrite specifiers_const by discriminate; cbn; rewrite Hs; reflexivity.
  Qed.

  Definition tag_toks (k : option DeclarationType) : list tok := map W (some_words (tag_of c k)).
  Lemma tag_cases : forall k, tag_of c k = None \/ exists w, tag_of c k = Some w /\ In w tag_words.
  Proof.
    intros [k|]; [|left; reflexivity]. cbn [tag_of]. destruct (for_cython c); [left; reflexivity|right].
    destruct k; eexists; (split; [reflexivity|]); cbn; tauto.
  Qed.
  (** [gus]: the tokens after the name *)
  Lemma based_path : forall q k name gus args, usable c name = true ->
    (forall rest, after_base rest -> ev (fun a b => arguments dial (decl a) b (gus ++ rest)) (args, rest)) ->
    based (const_toks q ++ tag_toks k ++ W name :: gus) (CName q (tag_of c k) [name] args).
  Proof.
    intros q k name gus args Hn Hg. destruct (usable_parts name Hn) as [_ Hr]. destruct (reserved_parts name Hr) as (H1 & H2 & H3 & _).
    unfold tag_toks. split.
    - apply const_first. destruct (some_words (tag_of c k)); cbn [map app]; do 2 eexists; reflexivity.
    - intros rest Hrest. destruct (Hg rest Hrest) as (N & HN). exists N. intros a b Ha Hb. specialize (HN a b Ha Hb).
      rewrite <- app_assoc. destruct (tag_cases k) as [E|(w & E & Hw)]; rewrite E; cbn [some_words map app].
      + rewrite specifiers_const by exact H3. rewrite H1, H2, Hr, HN. reflexivity.
      + rewrite specifiers_const by (intros ->; destruct Hw as [Hw|[Hw|[Hw|[]]]]; discriminate).
        replace (mem_str w tag_words) with true by (symmetry; apply mem_str_In; exact Hw). rewrite Hr, HN. reflexivity.
  Qed.
  Lemma arguments_none : forall rest, after_base rest -> ev (fun a b => arguments dial (decl a) b ([] ++ rest)) ([], rest).
  Proof. intros rest Hr. exists 0. intros a b _ _. cbn [app]. rewrite no_arguments by exact Hr. reflexivity. Qed.
  Lemma arguments_some : forall uss ts rest, Language_eqb (language c) Cxx = true -> goods c uss (map (fun t => (None, t)) ts) ->
    ev (fun a b => arguments dial (decl a) b ((P "<" :: commas uss ++ [P ">"]) ++ rest)) (ts, rest).
  Proof.
    intros uss ts rest Hl Hg. destruct (several_read c ">" cl_angle uss _ Hg rest) as (N & HN). exists N. intros a b Ha Hb. specialize (HN a b Ha Hb).
    cbn [app arguments]. rewrite <- app_assoc. cbn [app]. cbn [templates dialect_of]. rewrite Hl, HN.
    assert (E : forallb (fun x : option string * ctype => match fst x with None => true | _ => false end) (map (fun t => (None, t)) ts) = true)
      by (clear; induction ts; [reflexivity|assumption]).
    rewrite E, map_map. cbn [snd]. rewrite map_id. reflexivity.
  Qed.

  (** ** A whole declaration *)
  Definition name_toks (x : option string) : list tok := match x with Some n => [W n] | None => [] end.
  Lemma lefts_head : forall ms p, Forall (means c) ms -> lefts p ms = [] \/ forall Z, after_base (lefts p ms ++ Z).
  Proof.
    induction ms as [|m ms IH]; intros p Hms; [left; reflexivity|]. inversion Hms as [|m' ms' Hm Hms']; subst. cbn [lefts].
    destruct (IH (declarator_is_ptr (m_decl m)) Hms') as [->|H]; [|right; intros Z; rewrite <- app_assoc; apply H].
    cbn [app]. unfold before, means in *. destruct (m_decl m) as [k n r|len|args lay nv].
    - right. intros Z. destruct Hm as [-> _]. apply ab_star, ptoks_star.
    - destruct p; [right; intros Z; apply ab_open|left; reflexivity].
    - destruct p; [right; intros Z; apply ab_open|left; reflexivity].
  Qed.
  Lemma marks_after_base : forall ms x rest, Forall (means c) ms -> usable_name c x = true -> stop rest ->
    after_base (lefts false ms ++ name_toks x ++ rights false ms ++ rest).
  Proof.
    intros ms x rest Hms Hx Hr. destruct (lefts_head ms false Hms) as [E|H]; [|apply H]. rewrite E. cbn [app].
    destruct x as [n|]; [apply ab_name, usable_parts, Hx|]. cbn [name_toks app]. apply ab_follow.
    destruct ms as [|m ms]; [apply fo_stop, Hr|]. cbn [lefts rights] in E |- *. apply app_eq_nil in E as [_ E].
    inversion Hms as [|m' ms' Hm Hms']; subst. unfold before, after, means in *. destruct (m_decl m) as [k n r|len|args lay nv].
    - destruct Hm as [Ht _]. rewrite Ht in E. discriminate.
    - rewrite <- !app_assoc. cbn [app]. apply Hm.
    - rewrite <- !app_assoc. cbn [app]. apply Hm.
  Qed.
  Lemma declared : forall us base ms x t, based us base -> Forall (means c) ms -> proper (map m_decl ms) -> usable_name c x = true ->
    derived (map m_piece ms) base = Some t -> good c (us ++ lefts false ms ++ name_toks x ++ rights false ms) x t.
  Proof.
    intros us base ms x t [(w & r & ->) Hb] Hms Hp Hx Hd. split; [do 2 eexists; reflexivity|]. intros rest Hr.
    destruct (Hb _ (marks_after_base ms x rest Hms Hx Hr)) as (N & HN).
    assert (Hn : at_place c AtDirect (name_toks x) x []).
    { destruct x as [n|]; [apply direct_name; apply usable_parts, Hx|apply direct_none]. }
    destruct (marks_read c ms AtDirect (name_toks x) x [] rest Hms Hp ltac:(discriminate) Hn Hr) as (M & HM). cbn [is_ptr_place app] in HM.
    exists (S (N + M)). intros [|a] b Ha _; [lia|]. rewrite <- !app_assoc. cbn [declaration]. rewrite HN by lia. rewrite HM by lia. rewrite Hd. reflexivity.
  Qed.

  (** ** The text *)
  Section Text.
    Variables (tabw : nat) (e : LineEndingStyle).
    Notation lexes := (lexes tabw e).
    Notation lexf := (lexf tabw e).
    Notation starter := (starter tabw e).
    Local Open Scope prog_scope.

    Lemma lexes_words : forall ws b, (forall w, In w ws -> word w = true) ->
      forall p, p = fold_right (fun w q => write (w ++ " ") ;; q) PRet ws -> b = "" -> lexes p b (map W ws) "".
    Proof.
      induction ws as [|w ws IH]; intros b Hws p -> ->; [apply lexes_ret|]. cbn [fold_right map].
      change (W w :: map W ws)%list with ([W w] ++ map W ws)%list. eapply lexes_seq.
      - apply lexes_solid_space, Hws. left. reflexivity.
      - apply IH; try reflexivity. intros v Hv. apply Hws. right. exact Hv.
    Qed.
    Lemma lexes_pointer : forall k n r b, lexes (write_pointer c k n r) b (flush b ++ ptoks c k n r) "".
    Proof.
      intros k n r b. unfold write_pointer, ptoks, qualifiers, for_cython.
      replace (flush b ++ P (if r then "&"%char else "*"%char) :: map W ((if k then ["const"] else []) ++
         (if Language_eqb (language c) Cython then [] else if n then some_words (pt_nullable_attribute (pointer c))
          else if r then [] else some_words (pt_non_null_attribute (pointer c)))))%list
        with ((flush b ++ [P (if r then "&" else "*")%char]) ++ ((if k then [W "const"] else []) ++ map W
         (if Language_eqb (language c) Cython then [] else if n then some_words (pt_nullable_attribute (pointer c))
          else if r then [] else some_words (pt_non_null_attribute (pointer c)))))%list.
      2: { rewrite <- app_assoc. cbn [app]. f_equal. f_equal. rewrite map_app. destruct k; reflexivity. }
      eapply lexes_seq; [destruct r; apply lexes_punct; reflexivity|].
      eapply lexes_seq; [destruct k; [apply (lexes_solid_space tabw e "const"); reflexivity|apply lexes_ret]|].
      assert (Ha : forall o, (forall w, In w (some_words o) -> In w (pointer_words dial)) ->
        lexes match o with Some a => write (a ++ " ") | None => PRet end "" (map W (some_words o)) "").
      { intros [a|] Ho; [|apply lexes_ret]. apply lexes_solid_space, attribute_word, in_or_app. left. apply Ho. left. reflexivity. }
      destruct (Language_eqb (language c) Cython); cbn [negb]; [apply lexes_ret|].
      destruct n, r; cbn [negb andb]; try apply lexes_ret; apply Ha; intros w Hw; cbn [pointer_words dialect_of]; apply in_or_app; tauto.
    Qed.
    Lemma left1_lexes : forall m p, means c m -> lexes (write_left1 c (m_decl m) p) "" (before p m) "".
    Proof.
      intros m p Hm. unfold write_left1, before, means in *. destruct (m_decl m) as [k n r|len|args lay nv].
      - destruct Hm as [-> _]. apply (lexes_pointer k n r "").
      - destruct p; [apply (lexes_punct tabw e "(" ""); reflexivity|apply lexes_ret].
      - destruct p; [apply (lexes_punct tabw e "(" ""); reflexivity|apply lexes_ret].
    Qed.
    Lemma left1_starter : forall m p, means c m -> starter (write_left1 c (m_decl m) p) (before p m).
    Proof.
      intros m p Hm. unfold write_left1, before, means in *. destruct (m_decl m) as [k n r|len|args lay nv].
      - destruct Hm as [-> _]. apply starter_lexes. intros b. apply lexes_pointer.
      - destruct p; [apply starter_punct; reflexivity|apply starter_ret].
      - destruct p; [apply starter_punct; reflexivity|apply starter_ret].
    Qed.
    Definition head_is_ptr (ds : list CDeclarator) : bool := match ds with x :: _ => declarator_is_ptr x | [] => false end.
    Lemma left_lexes : forall ms pre L, Forall (means c) ms -> lexes (write_left c pre) "" L "" ->
      lexes (write_left c (rev (map m_decl ms) ++ pre)) "" (lefts (head_is_ptr pre) ms ++ L) "".
    Proof.
      induction ms as [|m ms IH]; intros pre L Hms Hpre; [exact Hpre|]. inversion Hms as [|m' ms' Hm Hms']; subst.
      cbn [map rev lefts]. rewrite <- !app_assoc. cbn [app]. apply (IH (m_decl m :: pre) _ Hms'). cbn [write_left].
      eapply lexes_seq; [apply left1_lexes, Hm|exact Hpre].
    Qed.
    Lemma left_starter : forall ms pre L, Forall (means c) ms -> starter (write_left c pre) L ->
      starter (write_left c (rev (map m_decl ms) ++ pre)) (lefts (head_is_ptr pre) ms ++ L).
    Proof.
      induction ms as [|m ms IH]; intros pre L Hms Hpre; [exact Hpre|]. inversion Hms as [|m' ms' Hm Hms']; subst.
      cbn [map rev lefts]. rewrite <- !app_assoc. cbn [app]. apply (IH (m_decl m :: pre) _ Hms'). cbn [write_left].
      apply starter_seq; [apply left1_starter, Hm|exact Hpre].
    Qed.

    (** ** After the name *)
    Fixpoint write_right (ds : list CDeclarator) (last_was_pointer : bool) : prog :=
      match ds with
      | [] => PRet
      | CdPtr _ _ _ :: r => write_right r true
      | CdArray len :: r =>
          (if last_was_pointer then write ")" else PRet) ;; write ("[" ++ len ++ "]") ;; write_right r false
      | CdFunc args layout never_return :: r =>
          (if last_was_pointer then write ")" else PRet) ;;
          write "(" ;;
          (if is_nil args && Language_eqb (language c) M_Config.C then write "void" else PRet) ;;
          write_args c layout (map (fun a => CDecl_write c (snd a) (fst a)) args) ;;
          write ")" ;;
          (if never_return && negb (Language_eqb (language c) Cython) then
             match fn_no_return (function c) with Some a => write (" " ++ a) | None => PRet end
           else PRet) ;;
          write_right r true
      end.
    Lemma CDecl_write_eq : forall q n gs ds ct dep x, CDecl_write c (Decl q n gs ds ct dep) x =
        ((if negb (String.eqb q "") then write (q ++ " ") else PRet) ;;
        (if negb (Language_eqb (language c) Cython) then
           match ct with Some t => write (DeclarationType_to_str t ++ " ") | None => PRet end
         else PRet) ;;
        write n ;;
        (if negb (is_nil gs) then
           write "<" ;;
           write_horizontal_source_list (map (fun g => match g with CType a => CDecl_write c a None | CConst s => write s end) gs)
             (Join ", ") (fun p => p) ;;
           write ">"
         else PRet) ;;
        match x with Some _ => write " " | None => PRet end ;;
        write_left c (rev ds) ;;
        match x with Some n => write n | None => PRet end ;;
        write_right ds false).
    Proof. reflexivity. Qed.

    (** The text of a function's parameters *)
    Definition texts (args : list (option string * CDecl)) (us : list tok) : Prop :=
      match args with
      | [] => us = (if Language_eqb (language c) M_Config.C then [W "void"] else [])
      | _ => exists uss, us = commas uss /\ Forall2 (fun a u => lexf (CDecl_write c (snd a) (fst a)) "" u) args uss
      end.
    Definition printed (m : mark) : Prop :=
      match m_decl m with
      | CdPtr _ _ _ => True
      | CdArray len => solid len = true /\ m_toks m = (P "[" :: flush len ++ [P "]"])%list
      | CdFunc args lay nv => exists us, texts args us /\ m_toks m = (P "(" :: us ++ P ")" :: map W (fun_attributes c nv))%list
      end.
    Lemma separated_lexf : forall sep, (forall b, lexes sep b (flush b ++ [P ","]) "") -> forall ps uss,
      Forall2 (fun p u => lexf p "" u) ps uss -> lexf (separated sep ps) "" (commas uss).
    Proof.
      intros sep Hsep ps uss Hps. induction Hps as [|p u ps uss Hp Hps IH]; [apply (starter_ret tabw e "")|].
      destruct Hps as [|p2 u2 ps uss Hp2 Hps]; [exact Hp|].
      change (commas (u :: u2 :: uss)) with (u ++ ([P ","] ++ commas (u2 :: uss)))%list.
      change (separated sep (p :: p2 :: ps)) with (p ;; sep ;; separated sep (p2 :: ps)).
      apply lexf_starter; [exact Hp|]. intros b. rewrite app_assoc. eapply lexes_then; [apply Hsep|exact IH].
    Qed.
    Lemma comma_space : forall b, lexes (write ", ") b (flush b ++ [P ","]) "".
    Proof. intros b. apply lexes_write; [|discriminate]. intros r. rewrite <- app_assoc. reflexivity. Qed.
    Lemma comma_newline : forall b, lexes (write "," ;; newline) b (flush b ++ [P ","]) "".
    Proof.
      intros b. rewrite <- (app_nil_r (flush b ++ [P ","])). eapply lexes_seq; [apply lexes_punct; reflexivity|apply (lexes_newline tabw e "")].
    Qed.
    Lemma vertical_lexf : forall ps uss, Forall2 (fun p u => lexf p "" u) ps uss -> lexf (write_args_vertical ps) "" (commas uss).
    Proof.
      intros ps uss Hps. unfold write_args_vertical. apply lexf_align. intros n. change (commas uss) with ([] ++ commas uss)%list.
      eapply lexes_then; [apply lexes_push|]. rewrite <- (app_nil_r (commas uss)). apply lexf_starter; [|apply starter_pop].
      apply separated_lexf; [apply comma_newline|exact Hps].
    Qed.
    Lemma args_lexf : forall lay ps uss, Forall2 (fun p u => lexf p "" u) ps uss -> lexf (write_args c lay ps) "" (commas uss).
    Proof.
      intros lay ps uss Hps. assert (Hh : lexf (write_args_horizontal ps) "" (commas uss)) by (apply separated_lexf; [apply comma_space|exact Hps]).
      destruct lay; cbn [write_args]; [exact Hh|apply vertical_lexf, Hps|]. apply lexf_try; [exact Hh|apply vertical_lexf, Hps].
    Qed.
    Lemma texts_lexf : forall args us lay tail vs, texts args us -> starter tail vs ->
      lexf ((if is_nil args && Language_eqb (language c) M_Config.C then write "void" else PRet) ;;
            write_args c lay (map (fun a => CDecl_write c (snd a) (fst a)) args) ;; tail) "" (us ++ vs).
    Proof.
      intros args us lay tail vs Hus Ht. destruct args as [|a args]; cbn [texts is_nil andb] in *.
      - rewrite Hus. cbn [map].
        assert (Hs : forall b, lexf (write_args c lay []) b (flush b)).
        { assert (Hv : forall b, lexf (write_args_vertical []) b (flush b)).
          { intros b. unfold write_args_vertical. apply lexf_align. intros n. change (flush b) with ([] ++ flush b)%list.
            eapply lexes_then; [apply lexes_push|]. cbn [separated seq]. rewrite <- (app_nil_r (flush b)). apply starter_pop. }
          assert (Hh : forall b, lexf (write_args_horizontal []) b (flush b)).
          { intros b. rewrite <- (app_nil_r (flush b)). apply starter_ret. }
          intros b. destruct lay; cbn [write_args]; [apply Hh|apply Hv|]. apply lexf_try; [apply Hh|apply Hv]. }
        destruct (Language_eqb (language c) M_Config.C).
        + change ([W "void"] ++ vs)%list with ([] ++ ([W "void"] ++ vs))%list. eapply lexes_then; [apply (lexes_solid tabw e "void" ""); reflexivity|].
          change ([W "void"]) with (flush ("" ++ "void")). apply lexf_starter; [apply Hs|exact Ht].
        + change ([] ++ vs)%list with (@nil tok ++ (flush "" ++ vs))%list. eapply lexes_then; [apply lexes_ret|]. apply lexf_starter; [apply Hs|exact Ht].
      - destruct Hus as (uss & -> & Hf). change (commas uss ++ vs)%list with (@nil tok ++ (commas uss ++ vs))%list.
        eapply lexes_then; [apply lexes_ret|]. apply lexf_starter; [|exact Ht]. apply args_lexf.
        clear -Hf. induction Hf as [|x u l us Hx Hf IH]; cbn [map]; constructor; assumption.
    Qed.
    Lemma right_starter : forall ms p, Forall printed ms -> starter (write_right (map m_decl ms) p) (rights p ms).
    Proof.
      induction ms as [|m ms IH]; intros p Hms; [apply starter_ret|]. inversion Hms as [|m' ms' Hm Hms']; subst.
      cbn [map rights write_right]. unfold after, printed in *. destruct (m_decl m) as [k n r|len|args lay nv]; cbn [declarator_is_ptr].
      - apply IH, Hms'.
      - destruct Hm as [Hs ->]. rewrite <- app_assoc. apply starter_seq; [destruct p; [apply starter_punct; reflexivity|apply starter_ret]|].
        apply starter_seq; [|apply IH, Hms']. apply starter_lexes. intros b. apply lexes_write; [|discriminate]. intros r.
        rewrite !sapp_assoc. cbn [append scan blank punct]. change (scan "" (len ++ "]" ++ r)) with (scan "" (len ++ ("]" ++ r))).
        cbn. rewrite scan_solid by exact Hs. cbn. rewrite <- !app_assoc. cbn [app]. rewrite <- app_assoc. reflexivity.
      - destruct Hm as (us & Hus & ->). rewrite <- app_assoc. apply starter_seq; [destruct p; [apply starter_punct; reflexivity|apply starter_ret]|].
        intros b. cbn [app]. rewrite <- app_assoc. cbn [app].
        change (flush b ++ P "(" :: us ++ P ")" :: map W (fun_attributes c nv) ++ rights true ms)%list
          with (flush b ++ [P "("] ++ (us ++ P ")" :: map W (fun_attributes c nv) ++ rights true ms))%list.
        rewrite app_assoc. eapply lexes_then; [apply lexes_punct; reflexivity|]. apply texts_lexf; [exact Hus|].
        change (P ")" :: map W (fun_attributes c nv) ++ rights true ms)%list with ([P ")"] ++ (map W (fun_attributes c nv) ++ rights true ms))%list.
        apply starter_seq; [apply starter_punct; reflexivity|]. apply starter_seq; [|apply IH, Hms'].
        unfold fun_attributes, for_cython. destruct (nv && negb (Language_eqb (language c) Cython)); [|apply starter_ret].
        destruct (fn_no_return (function c)) as [a|] eqn:Ea; [|apply starter_ret]. cbn [some_words map]. intros b'.
        assert (Hw : word a = true). { apply attribute_word, in_or_app. right. cbn [function_words dialect_of]. rewrite Ea. left. reflexivity. }
        destruct (word_solid a Hw) as [Hsol Hne]. rewrite <- (flush_word a Hw). apply lexes_lexf. apply lexes_write; [|discriminate].
        intros r. rewrite sapp_assoc. change (scan b' (String " " (a ++ r)) = flush b' ++ scan a r)%list.
        rewrite scan_blank by reflexivity. rewrite scan_solid by exact Hsol. reflexivity.
    Qed.

    (** ** The text of the base type *)
    Lemma words_scan : forall ws w r, (forall v, In v (w :: ws) -> word v = true) ->
      scan "" (join " " (w :: ws) ++ r) = (map W (removelast (w :: ws)) ++ scan (last (w :: ws) "") r)%list.
    Proof.
      induction ws as [|v ws IH]; intros w r Hws.
      - cbn [join removelast last map app]. destruct (word_solid w (Hws w (or_introl eq_refl))) as [Hs _]. apply (scan_solid w "" r Hs).
      - destruct (word_solid w (Hws w (or_introl eq_refl))) as [Hs _]. assert (Hw := flush_word w (Hws w (or_introl eq_refl))).
        change (join " " (w :: v :: ws)) with (w ++ " " ++ join " " (v :: ws)). rewrite !sapp_assoc, scan_solid by exact Hs.
        change (scan ("" ++ w) (String " " (join " " (v :: ws) ++ r)) = map W (removelast (w :: v :: ws)) ++ scan (last (w :: v :: ws) "") r)%list.
        rewrite scan_blank by reflexivity. cbn [append]. rewrite Hw, IH by (intros u Hu; apply Hws; right; exact Hu). reflexivity.
    Qed.
    Lemma words_lexf : forall ws, ws <> [] -> (forall v, In v ws -> word v = true) -> lexf (write (join " " ws)) "" (map W ws).
    Proof.
      intros [|w ws] Hne Hws; [contradiction|]. eapply lexf_eq; [apply lexes_lexf, lexes_write|].
      - intros r. apply words_scan, Hws.
      - intros E. exfalso. destruct (word_solid w (Hws w (or_introl eq_refl))) as [_ Hw]. destruct ws as [|v ws]; [exact (Hw E)|].
        change (join " " (w :: v :: ws)) with (w ++ " " ++ join " " (v :: ws)) in E. apply sapp_eq_nil in E as [E _]. exact (Hw E).
      - assert (Hl : In (last (w :: ws) "") (w :: ws)).
        { destruct (exists_last (l := w :: ws)) as (l & x & E); [discriminate|]. rewrite E, last_last. apply in_or_app. right. left. reflexivity. }
        rewrite flush_word by (apply Hws, Hl).
        rewrite (app_removelast_last "" (l := w :: ws)) at 3 by discriminate. rewrite map_app. reflexivity.
    Qed.
    Lemma primitive_join : forall p, to_repr_c c p = join " " (primitive c p).
    Proof. intros [| | | | | | | | | |z s k]; try reflexivity. destruct s, k; cbn [to_repr_c primitive]; try destruct (usize_is_size_t c); reflexivity. Qed.
    Lemma primitive_words : forall p, primitive c p <> [] /\ forall w, In w (primitive c p) -> word w = true.
    Proof.
      assert (K : forall ws, ws <> [] /\ forallb word ws = true -> ws <> [] /\ forall w, In w ws -> word w = true).
      { intros ws [Hne Hf]. split; [exact Hne|]. apply forallb_forall, Hf. }
      intros p. apply K. destruct p as [| | | | | | | | | |z s k]; try (split; [discriminate|reflexivity]).
      destruct s, k; cbn [primitive]; try destruct (usize_is_size_t c); split; try discriminate; reflexivity.
    Qed.

    Definition base_prog (q n : string) (gs : list CArg) (ct : option DeclarationType) (tail : prog) : prog :=
      (if negb (String.eqb q "") then write (q ++ " ") else PRet) ;;
      (if negb (Language_eqb (language c) Cython) then
         match ct with Some t => write (DeclarationType_to_str t ++ " ") | None => PRet end
       else PRet) ;;
      write n ;;
      (if negb (is_nil gs) then
         write "<" ;;
         write_horizontal_source_list (map (fun g => match g with CType a => CDecl_write c a None | CConst s => write s end) gs)
           (Join ", ") (fun p => p) ;;
         write ">"
       else PRet) ;;
      tail.
    Definition base_text (q n : string) (gs : list CArg) (ct : option DeclarationType) (us : list tok) : Prop :=
      forall tail vs, starter tail vs -> lexf (base_prog q n gs ct tail) "" (us ++ vs).
    Lemma base_lexf : forall q n gs ct nus gus,
      lexf (write n) "" nus ->
      starter (if negb (is_nil gs) then
         write "<" ;;
         write_horizontal_source_list (map (fun g => match g with CType a => CDecl_write c a None | CConst s => write s end) gs)
           (Join ", ") (fun p => p) ;;
         write ">"
       else PRet) gus -> base_text (const_word q) n gs ct (const_toks q ++ tag_toks ct ++ nus ++ gus).
    Proof.
      intros q n gs ct nus gus Hn Hg tail vs Ht. unfold base_prog. rewrite <- !app_assoc.
      eapply lexes_then with (b1 := "").
      { destruct q; cbn [const_word String.eqb negb const_toks]; [apply (lexes_solid_space tabw e "const"); reflexivity|apply lexes_ret]. }
      eapply lexes_then with (b1 := "").
      { unfold tag_toks, tag_of, for_cython. destruct (Language_eqb (language c) Cython); cbn [negb].
        - destruct ct; cbn [some_words map]; apply lexes_ret.
        - destruct ct as [[| |]|]; cbn [some_words map]; try apply lexes_ret;
            [apply (lexes_solid_space tabw e "struct")|apply (lexes_solid_space tabw e "enum")|apply (lexes_solid_space tabw e "union")]; reflexivity. }
      apply lexf_starter; [exact Hn|]. apply starter_seq; [exact Hg|exact Ht].
    Qed.
    Lemma primitive_text : forall q p, base_text (const_word q) (to_repr_c c p) [] None (const_toks q ++ map W (primitive c p)).
    Proof.
      intros q p. destruct (primitive_words p) as [Hne Hw].
      assert (K := base_lexf q (to_repr_c c p) [] None (map W (primitive c p)) []). unfold tag_toks in K. cbn [tag_of some_words map app] in K.
      rewrite app_nil_r in K. apply K; [|apply starter_ret]. rewrite primitive_join. apply words_lexf; assumption.
    Qed.
    Lemma horizontal_lexf : forall ps uss, Forall2 (fun p u => lexf p "" u) ps uss ->
      lexf (write_horizontal_source_list ps (Join ", ") (fun p => p)) "" (commas uss).
    Proof.
      intros ps uss Hps. induction Hps as [|p u ps uss Hp Hps IH]; [apply (starter_ret tabw e "")|].
      destruct Hps as [|p2 u2 ps uss Hp2 Hps]; [cbn; rewrite <- (app_nil_r u); apply lexf_starter; [exact Hp|apply starter_ret]|].
      change (commas (u :: u2 :: uss)) with (u ++ ([P ","] ++ commas (u2 :: uss)))%list.
      change (write_horizontal_source_list (p :: p2 :: ps) (Join ", ") (fun p => p))
        with (p ;; write ", " ;; write_horizontal_source_list (p2 :: ps) (Join ", ") (fun p => p)).
      apply lexf_starter; [exact Hp|]. intros b. rewrite app_assoc. eapply lexes_then; [apply comma_space|exact IH].
    Qed.
    Lemma arguments_text : forall gs uss, gs <> [] ->
      Forall2 (fun g u => lexf (match g with CType a => CDecl_write c a None | CConst s => write s end) "" u) gs uss ->
      starter (if negb (is_nil gs) then
         write "<" ;;
         write_horizontal_source_list (map (fun g => match g with CType a => CDecl_write c a None | CConst s => write s end) gs)
           (Join ", ") (fun p => p) ;;
         write ">"
       else PRet) (P "<" :: commas uss ++ [P ">"]).
    Proof.
      intros gs uss Hne Hf. destruct gs as [|g gs]; [contradiction|]. cbn [is_nil negb]. intros b.
      change (flush b ++ P "<" :: commas uss ++ [P ">"])%list with (flush b ++ [P "<"] ++ (commas uss ++ [P ">"]))%list.
      rewrite app_assoc. eapply lexes_then; [apply lexes_punct; reflexivity|]. apply lexf_starter; [|apply starter_punct; reflexivity].
      apply horizontal_lexf. clear -Hf. induction Hf as [|x u l us Hx Hf IH]; cbn [map]; constructor; assumption.
    Qed.

    (** ** Declarations that say what they should *)
    Definition described (d : CDecl) (t : ctype) : Prop :=
      match d with
      | Decl q n gs ds ct _ =>
          exists us base ms, ds = map m_decl ms /\ Forall (means c) ms /\ Forall printed ms /\ proper ds
            /\ based us base /\ derived (map m_piece ms) base = Some t /\ base_text q n gs ct us
      end.
    Definition declarators (d : CDecl) : list CDeclarator := match d with Decl _ _ _ ds _ _ => ds end.
    Lemma described_good : forall d t x, described d t -> usable_name c x = true ->
      exists us, lexf (CDecl_write c d x) "" us /\ good c us x t.
    Proof.
      intros [q n gs ds ct dep] t x (us & base & ms & -> & Hm & Hpr & Hp & Hb & Hd & Ht) Hx.
      exists (us ++ lefts false ms ++ name_toks x ++ rights false ms)%list. split; [|eapply declared; eassumption].
      rewrite CDecl_write_eq. apply Ht. destruct x as [name|]; cbn [name_toks app].
      - destruct (usable_parts name Hx) as [Hw _]. destruct (word_solid name Hw) as [Hs _]. intros b.
        eapply lexes_then with (b1 := ""). { rewrite <- (app_nil_r (flush b)). apply lexes_write; [intros r; rewrite app_nil_r; reflexivity|discriminate]. }
        eapply lexes_then with (b1 := "").
        { assert (K := left_lexes ms [] [] Hm (lexes_ret tabw e "")). rewrite !app_nil_r in K. exact K. }
        change (W name :: rights false ms)%list with ([] ++ ([W name] ++ rights false ms))%list.
        eapply lexes_then; [apply (lexes_solid tabw e name "" Hs)|]. cbn [append].
        rewrite <- (flush_word name Hw). apply right_starter, Hpr.
      - assert (K := left_starter ms [] [] Hm (starter_ret tabw e)). rewrite !app_nil_r in K.
        apply (starter_seq tabw e _ _ [] _ (starter_ret tabw e)). apply starter_seq; [exact K|].
        apply (starter_seq tabw e _ _ [] _ (starter_ret tabw e)). apply right_starter, Hpr.
    Qed.
    Lemma described_prefix : forall d t m t', described d t -> means c m -> printed m -> derive (m_piece m) t = Some t' ->
      match m_decl m with CdFunc _ _ _ => after_function (declarators d) | _ => True end -> described (prefix [m_decl m] d) t'.
    Proof.
      intros [q n gs ds ct dep] t m t' (us & base & ms & -> & Hm & Hpr & Hp & Hb & Hd & Ht) Hm1 Hp1 Hd1 Ha.
      exists us, base, (m :: ms). split; [reflexivity|]. split; [constructor; assumption|]. split; [constructor; assumption|].
      split; [|split; [exact Hb|split; [|exact Ht]]].
      - cbn [app proper]. destruct (m_decl m); [exact Hp|exact Hp|split; assumption].
      - cbn [map derived fold_right]. change (match derived (map m_piece ms) base with Some u => derive (m_piece m) u | None => None end = Some t').
        rewrite Hd. exact Hd1.
    Qed.
    Lemma described_array : forall d t len, described d t -> solid len = true -> (forall ps a r, t <> CFun ps a r) ->
      described (prefix [CdArray len] d) (CArr (array_length len) t).
    Proof.
      intros d t len Hd Hs Ht. apply (described_prefix d t (CdArray len, P "[" :: flush len ++ [P "]"], DArr (array_length len))%list _ Hd).
      - apply suffix_array.
      - split; [exact Hs|reflexivity].
      - cbn [m_piece snd derive]. destruct t as [| | |ps a r|]; try reflexivity. destruct (Ht ps a r eq_refl).
      - exact Logic.I.
    Qed.
    Lemma described_pointer : forall d t k n r, described d t -> described (prefix [CdPtr k n r] d) (CPtr r (qualifiers c k n r) t).
    Proof.
      intros d t k n r Hd. apply (described_prefix d t (CdPtr k n r, ptoks c k n r, DPtr r (qualifiers c k n r)) _ Hd); try exact Logic.I; try reflexivity.
      split; reflexivity.
    Qed.

    Inductive params : list (option string * CDecl) -> list (option string * ctype) -> Prop :=
    | ps_nil : params [] []
    | ps_dots : params [(None, Decl "" "..." [] [] None None)] [(None, CDots)]
    | ps_cons : forall x d t args xts, usable_name c x = true -> described d t -> t <> CName false None ["void"] [] -> params args xts ->
        params ((x, d) :: args) ((x, t) :: xts).
    Lemma params_goods : forall args xts, params args xts -> args <> [] ->
      exists uss, goods c uss xts /\ Forall2 (fun a u => lexf (CDecl_write c (snd a) (fst a)) "" u) args uss.
    Proof.
      intros args xts H. induction H as [| |x d t args xts Hx Hd Hv H IH]; intros Hne; [contradiction|..].
      - exists [[W "..."]]. split; [constructor|]. constructor; [|constructor]. cbn [fst snd]. rewrite CDecl_write_eq.
        assert (K := primitive_text false PVaList). apply (K _ []). apply (starter_seq tabw e _ _ [] [] (starter_ret tabw e)).
        apply (starter_seq tabw e _ _ [] [] (starter_ret tabw e)). apply (starter_seq tabw e _ _ [] [] (starter_ret tabw e)). apply starter_ret.
      - destruct (described_good d t x Hd Hx) as (us & Hl & Hg). destruct args as [|a args].
        + inversion H; subst. exists [us]. split; [constructor; exact Hg|]. constructor; [exact Hl|constructor].
        + destruct IH as (uss & Hgs & Hls); [discriminate|]. exists (us :: uss). split; [constructor; assumption|constructor; assumption].
    Qed.
    Lemma params_not_void : forall args xts, params args xts -> Forall not_void xts.
    Proof.
      intros args xts H. induction H as [| |x d t args xts Hx Hd Hv H IH]; repeat constructor; try exact IH; intros E; inversion E. contradiction.
    Qed.
    Lemma params_mark : forall args xts lay nv, params args xts ->
      exists m, m_decl m = CdFunc args lay nv /\ m_piece m = DFun xts (fun_attributes c nv) /\ means c m /\ printed m.
    Proof.
      intros args xts lay nv H.
      assert (K : exists us, texts args us /\ pars c us xts).
      { destruct args as [|a args].
        - inversion H; subst. eexists. split; [reflexivity|apply pars_none].
        - destruct (params_goods _ _ H) as (uss & Hg & Hl); [discriminate|]. exists (commas uss).
          split; [exists uss; split; [reflexivity|exact Hl]|]. apply pars_goods; [exact Hg|eapply params_not_void, H]. }
      destruct K as (us & Ht & Hp). exists (CdFunc args lay nv, P "(" :: us ++ P ")" :: map W (fun_attributes c nv), DFun xts (fun_attributes c nv))%list.
      split; [reflexivity|]. split; [reflexivity|]. split; [apply suffix_function, Hp|]. exists us. split; [exact Ht|reflexivity].
    Qed.
    Lemma described_function : forall d t args xts lay nv, described d t -> params args xts -> after_function (declarators d) ->
      match t with CFun _ _ _ | CArr _ _ => False | _ => True end ->
      described (prefix [CdFunc args lay nv] d) (CFun xts (fun_attributes c nv) t).
    Proof.
      intros d t args xts lay nv Hd Hp Ha Ht. destruct (params_mark args xts lay nv Hp) as (m & E1 & E2 & Hm & Hpr).
      rewrite <- E1. apply (described_prefix d t m); try assumption.
      - rewrite E2. destruct t; try contradiction; reflexivity.
      - rewrite E1. exact Ha.
    Qed.

    (** ** Every type that can be declared *)
    Lemma c_type_not_function : forall t q ps a r, c_type c q t <> CFun ps a r.
    Proof. intros [u k n r|[p e' gs ct]|p|u len|ret args n nv] q ps a rt; cbn [c_type]; try discriminate. destruct p; discriminate. Qed.
    Lemma c_type_plain : forall t q, is_array t = false -> match c_type c q t with CFun _ _ _ | CArr _ _ => False | _ => True end.
    Proof. intros [u k n r|[p e' gs ct]|p|u len|ret args n nv] q; cbn [is_array c_type]; try (intros; exact Logic.I); [|discriminate]. intros _. destruct p; exact Logic.I. Qed.
    Lemma c_type_void : forall t, declarable c t = true -> is_void t = false -> c_type c false t <> CName false None ["void"] [].
    Proof.
      intros [u k n r|[p e' gs ct]|p|u len|ret args n nv] Hd Hv; cbn [c_type]; try discriminate.
      - intros E. inversion E; subst. cbn [declarable] in Hd. apply andb_prop in Hd as [Hd _]. apply andb_prop in Hd as [Hd _].
        apply usable_parts in Hd as [_ Hd]. cbv in Hd. discriminate.
      - destruct p as [| | | | | | | | | |z s k]; try discriminate. destruct s, k; cbn [primitive integer sized]; try destruct (usize_is_size_t c); discriminate.
    Qed.

    Definition done (t : Ty) : Prop := forall q, declarable c t = true -> (q = true -> no_function_pointer t = true) ->
      described (decl_of c q t) (c_type c q t) /\ (is_array t = false -> after_function (declarators (decl_of c q t))).
    Lemma declarable_params_params : forall args, Forall (fun a => done (snd a)) args -> declarable_params c (declarable c) args = true ->
      params (map (fun a => (fst a, decl_of c false (snd a))) args) (map (fun a => (fst a, c_type c false (snd a))) args).
    Proof.
      induction args as [|[x t] args IH]; intros Hd Hp; [constructor|]. inversion Hd as [|y l Hx Hl]; subst. cbn [map fst snd] in *.
      assert (Normal : usable_name c x && declarable c t && negb (is_void t) && declarable_params c (declarable c) args = true ->
        params ((x, decl_of c false t) :: map (fun a => (fst a, decl_of c false (snd a))) args)
               ((x, c_type c false t) :: map (fun a => (fst a, c_type c false (snd a))) args)).
      { intros Hn. apply andb_prop in Hn as [Hn H4]. apply andb_prop in Hn as [Hn H3]. apply andb_prop in Hn as [H1 H2].
        apply negb_true_iff in H3. constructor; [exact H1|apply Hx; [exact H2|discriminate]|apply c_type_void; assumption|apply IH; assumption]. }
      cbn [declarable_params] in Hp. destruct x as [x|]; [apply Normal, Hp|].
      destruct t as [u k n r|g|p|u len|ret args' n nv]; try (apply Normal, Hp).
      destruct p; try (apply Normal, Hp). destruct args; [apply ps_dots|apply Normal, Hp].
    Qed.
    Lemma qualifiers_plain : forall n, n || plain_function_pointers c = true -> qualifiers c false true false = qualifiers c false n false.
    Proof.
      intros [|] Hn; [reflexivity|]. cbn [orb] in Hn. unfold plain_function_pointers, qualifiers in *. destruct (for_cython c); [reflexivity|].
      cbn [orb] in Hn. destruct (pt_non_null_attribute (pointer c)); [discriminate|]. destruct (pt_nullable_attribute (pointer c)); [discriminate|reflexivity].
    Qed.
    Definition arg_decl (g : GenericArgument) : CArg := match g with GType u => CType (decl_of c false u) | GConst x => CConst (ConstExpr_as_str x) end.
    Definition arg_ctype (g : GenericArgument) : ctype := match g with GType u => c_type c false u | GConst x => CName false None [ConstExpr_as_str x] [] end.
    Lemma argument_good : forall g, arg_ty done g ->
      match g with GType u => declarable c u | GConst x => usable c (ConstExpr_as_str x) end = true ->
      exists us, lexf (match arg_decl g with CType a => CDecl_write c a None | CConst s => write s end) "" us /\ good c us None (arg_ctype g).
    Proof.
      intros [u|x] Hg Hd; cbn [arg_decl arg_ctype arg_ty] in *.
      - apply described_good; [apply Hg; [exact Hd|discriminate]|reflexivity].
      - destruct (usable_parts _ Hd) as [Hw _]. destruct (word_solid _ Hw) as [Hs _]. exists [W (ConstExpr_as_str x)]. split.
        + rewrite <- (flush_word _ Hw). apply (lexes_lexf tabw e _ _ [] (ConstExpr_as_str x)). apply (lexes_solid tabw e _ "" Hs).
        + assert (K := declared [W (ConstExpr_as_str x)] (CName false None [ConstExpr_as_str x] []) [] None (CName false None [ConstExpr_as_str x] [])).
          cbn [lefts rights name_toks app map] in K. apply K; try reflexivity; try constructor.
          * do 2 eexists. reflexivity.
          * apply (based_path false None (ConstExpr_as_str x) [] [] Hd arguments_none).
    Qed.
    Lemma arguments_good : forall gs, Forall (arg_ty done) gs ->
      forallb (fun a => match a with GType u => declarable c u | GConst x => usable c (ConstExpr_as_str x) end) gs = true -> gs <> [] ->
      exists uss, Forall2 (fun g u => lexf (match g with CType a => CDecl_write c a None | CConst s => write s end) "" u) (map arg_decl gs) uss
        /\ goods c uss (map (fun t => (None, t)) (map arg_ctype gs)).
    Proof.
      induction gs as [|g gs IH]; intros Hg Hd Hne; [contradiction|]. inversion Hg as [|y l H1 H2]; subst. cbn [forallb] in Hd. apply andb_prop in Hd as [Hd1 Hd2].
      destruct (argument_good g H1 Hd1) as (us & Hl & Hgood). destruct gs as [|g2 gs].
      - exists [us]. split; [constructor; [exact Hl|constructor]|constructor; exact Hgood].
      - destruct (IH H2 Hd2) as (uss & Hls & Hgs); [discriminate|]. exists (us :: uss). split; [constructor; assumption|constructor; assumption].
    Qed.
    Theorem all_done : forall t, done t.
    Proof.
      apply Ty_only_ind.
      - intros u k n r IH q Hd Hq. cbn [declarable] in Hd. apply andb_prop in Hd as [Hd Hk]. cbn [decl_of c_type].
        destruct (IH k Hd) as [Hu _]. { intros ->. exact Hk. }
        split; [apply described_pointer, Hu|]. intros _. destruct (decl_of c k u). exact Logic.I.
      - intros p name gs ct IH q Hd Hq. cbn [declarable] in Hd. apply andb_prop in Hd as [Hd Hgs]. apply andb_prop in Hd as [Hn Hl].
        split; [|intros _; exact Logic.I]. cbn [decl_of c_type]. destruct (usable_parts name Hn) as [Hw _]. destruct (word_solid name Hw) as [Hs _].
        assert (Hname : lexf (write name) "" [W name]).
        { rewrite <- (flush_word name Hw). apply (lexes_lexf tabw e _ _ [] name). apply (lexes_solid tabw e name "" Hs). }
        assert (K : exists gus,
          (forall rest, after_base rest -> ev (fun a b => arguments dial (decl a) b (gus ++ rest))
            (map (fun a => match a with GType u => c_type c false u | GConst x => CName false None [ConstExpr_as_str x] [] end) gs, rest))
          /\ starter (if negb (is_nil (map (fun g => match g with GType u => CType (decl_of c false u) | GConst x => CConst (ConstExpr_as_str x) end) gs)) then
               write "<" ;;
               write_horizontal_source_list (map (fun g => match g with CType a => CDecl_write c a None | CConst s => write s end)
                 (map (fun g => match g with GType u => CType (decl_of c false u) | GConst x => CConst (ConstExpr_as_str x) end) gs))
                 (Join ", ") (fun p => p) ;;
               write ">"
             else PRet) gus).
        { destruct gs as [|g gs]; [exists []; split; [intros rest Hr; apply arguments_none, Hr|apply starter_ret]|]. cbn [is_nil orb] in Hl.
          destruct (arguments_good (g :: gs) IH Hgs) as (uss & Hls & Hg); [discriminate|]. exists (P "<" :: commas uss ++ [P ">"])%list. split.
          - intros rest Hr. apply arguments_some; [exact Hl|exact Hg].
          - apply (arguments_text (map arg_decl (g :: gs)) uss); [discriminate|exact Hls]. }
        destruct K as (gus & Hr & Hst). exists (const_toks q ++ tag_toks ct ++ W name :: gus)%list. eexists. exists [].
        split; [reflexivity|]. split; [constructor|]. split; [constructor|]. split; [exact Logic.I|].
        split; [apply based_path; [exact Hn|exact Hr]|]. split; [reflexivity|].
        exact (base_lexf q name _ ct [W name] gus Hname Hst).
      - intros p q Hd Hq. split; [|intros _; exact Logic.I]. assert (Hv : p <> PVaList) by (intros ->; discriminate).
        cbn [decl_of]. replace (c_type c q (TPrim p)) with (CName q None (primitive c p) []) by (destruct p; try reflexivity; contradiction).
        eexists. eexists. exists []. split; [reflexivity|]. split; [constructor|]. split; [constructor|]. split; [exact Logic.I|].
        split; [apply based_primitive, Hv|]. split; [reflexivity|]. apply primitive_text.
      - intros u len IH q Hd Hq. cbn [declarable] in Hd. apply andb_prop in Hd as [Hd Hs]. cbn [decl_of c_type].
        destruct (IH q Hd) as [Hu _]. { intros E. exact (Hq E). }
        split; [apply described_array; [exact Hu|exact Hs|apply c_type_not_function]|discriminate].
      - intros ret args n nv IH Hargs q Hd Hq. cbn [declarable] in Hd. apply andb_prop in Hd as [Hd Hps]. apply andb_prop in Hd as [Hd Hn].
        apply andb_prop in Hd as [Hd Hr]. apply negb_true_iff in Hr.
        assert (Eq : q = false) by (destruct q; [discriminate (Hq eq_refl)|reflexivity]). subst q.
        destruct (IH false Hd ltac:(discriminate)) as [Hret Ha]. cbn [decl_of c_type].
        split; [|intros _; destruct (decl_of c false ret); exact Logic.I].
        rewrite <- (qualifiers_plain n Hn).
        change [CdPtr false true false; CdFunc (map (fun a => (fst a, decl_of c false (snd a))) args) (fn_args (function c)) nv]
          with ([CdPtr false true false] ++ [CdFunc (map (fun a => (fst a, decl_of c false (snd a))) args) (fn_args (function c)) nv])%list.
        rewrite <- prefix_prefix. apply described_pointer. apply described_function; [exact Hret| |apply Ha, Hr|apply c_type_plain, Hr].
        apply declarable_params_params; [exact Hargs|exact Hps].
    Qed.
  End Text.
End Config.
