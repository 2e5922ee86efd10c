(** Proofs for C24: written literals read back as the expression they stand for. *)
Require Import Coq.Strings.String Coq.Strings.Ascii Coq.Lists.List Coq.Bool.Bool Coq.Arith.Arith Coq.micromega.Lia.
From Verif Require Import Base P_Base S_Lex M_Config M_Writer S_Writer P_Writer M_Type M_Ir M_Cfg M_Library M_Bindings M_Cdecl M_Literal P_Deps S_Decl P_DeclWritten S_Expr S_Literal P_Expr P_CastType.
Import ListNotations.
Open Scope string_scope.

Ltac wb := repeat first [assumption | reflexivity | apply wb_seq].

Section Config.
  Variables (tabw : nat) (e : LineEndingStyle).
  Notation Writes := (Writes tabw e).
  Variables (fuel : nat) (b : Bindings).
  Let c : Config := b_config b.
  Variable types : string -> bool.
  Hypothesis Hlang : language c <> Cython.
  Hypothesis Hattrs : Forall (fun w => is_ident w = true) (pointer_words (dialect_of c)).
  Local Open Scope prog_scope.
  Let pw := pointer_words (dialect_of c).
  Let cxx := Language_eqb (language c) Cxx.
  Notation PUnary := (operand types pw cxx).
  Notation PInit := (PInit types pw cxx).
  Notation PItems := (PItems types pw cxx).
  Notation write_lit := (clike_write_literal fuel b).

  (** *** Fixed texts *)
  Lemma w_open : Writes (write "(") any calm [Op "("].
  Proof. apply writes_text; [apply spaced_calm|]. intros r ts _ L. split; [apply lex_ops, L|reflexivity]. Qed.
  Lemma w_close : Writes (write ")") any (fun s => follows s /\ after_type s) [Op ")"].
  Proof.
    apply writes_text.
    - intros n s [H1 H2]. split; [apply spaced_follows, H1|apply spaced_after_type, H2].
    - intros r ts _ L. split; [apply lex_ops, L|split; [right; reflexivity|reflexivity]].
  Qed.
  Lemma w_brace : Writes (write "{") any calm [Op "{"].
  Proof. apply writes_text; [apply spaced_calm|]. intros r ts _ L. split; [apply lex_ops, L|reflexivity]. Qed.
  Lemma w_brace_space : Writes (write "{ ") any calm [Op "{"].
  Proof.
    apply writes_text; [apply spaced_calm|]. intros r ts _ L. change ("{ " ++ r) with ("{" ++ (" " ++ r)). split; [apply lex_ops, lex_ops, L|reflexivity].
  Qed.
  Lemma w_end : Writes (write "}") any follows [Op "}"].
  Proof. apply writes_text; [apply spaced_follows|]. intros r ts _ L. split; [apply lex_ops, L|right; reflexivity]. Qed.
  Lemma w_comma : Writes (write ",") any follows [Op ","].
  Proof. apply writes_text; [apply spaced_follows|]. intros r ts _ L. split; [apply lex_ops, L|right; reflexivity]. Qed.
  Lemma w_comma_space : Writes (write ", ") any follows [Op ","].
  Proof.
    apply writes_text; [apply spaced_follows|]. intros r ts _ L. change (", " ++ r) with ("," ++ (" " ++ r)). split; [apply lex_ops, lex_ops, L|right; reflexivity].
  Qed.
  Lemma w_space : Writes (write " ") any follows [].
  Proof. apply writes_text; [apply spaced_follows|]. intros r ts _ L. split; [apply lex_ops, L|right; reflexivity]. Qed.
  Lemma w_tilde : Writes (write "~") any calm [Op "~"].
  Proof. apply writes_text; [apply spaced_calm|]. intros r ts _ L. split; [apply lex_ops, L|reflexivity]. Qed.
  Lemma w_minus : Writes (write "-") calm any [Op "-"].
  Proof. apply writes_text; [apply spaced_any|]. intros r ts Fr L. split; [apply lex_minus; assumption|exact Logic.I]. Qed.
  Lemma w_operator : forall o, level o <> None -> Writes (write (" " ++ o ++ " ")) any follows [Op o].
  Proof.
    intros o Ho. apply writes_text; [apply spaced_follows|]. intros r ts _ L. split; [|right; reflexivity].
    rewrite !sapp_assoc. apply lex_ops. apply level_cases in Ho. cbn in Ho.
    repeat (destruct Ho as [<- | Ho]; [eapply lex_token; [reflexivity|apply lex_ops, L]|]). contradiction.
  Qed.
  Lemma follows_word : forall r, follows r -> first_in wordchar r = false /\ first_in (fun a => Ascii.eqb a "'") r = false.
  Proof. intros r Fr. destruct (follows_not r Fr) as (F1 & F2 & _). split; assumption. Qed.
  Lemma lex_dot_word : forall f r ts, is_ident f = true -> first_in wordchar r = false -> first_in (fun a => Ascii.eqb a "'") r = false ->
    Lexes r ts -> Lexes ("." ++ f ++ r) (Op "." :: Id f :: ts).
  Proof.
    intros f r ts Hf H1 H2 L. eapply lex_token; [|apply next_word_prefix; [exact Hf|exact H1|exact H2|exact L]].
    destruct f as [|a f]; [discriminate|]. cbn [is_ident] in Hf. apply andb_prop in Hf as [_ Hf]. cbn in Hf. apply andb_prop in Hf as [Ha _].
    destruct a as [[|] [|] [|] [|] [|] [|] [|] [|]]; try discriminate Ha; reflexivity.
  Qed.
  Lemma w_member : forall f, is_ident f = true -> Writes (write (")." ++ f)) follows follows [Op ")"; Op "."; Id f].
  Proof.
    intros f Hf. apply writes_text; [apply spaced_follows|]. intros r ts Fr L. destruct (follows_word r Fr) as [F1 F2]. split; [|right; reflexivity].
    rewrite sapp_assoc. change (").." ++ r) with (")" ++ (".." ++ r)). cbn [app]. change (")." ++ (f ++ r)) with (")" ++ ("." ++ f ++ r)). apply lex_ops. apply lex_dot_word; assumption.
  Qed.
  Lemma w_designator : forall f, is_ident f = true -> Writes (write ("." ++ f ++ " = ")) any any [Op "."; Id f; Op "="].
  Proof.
    intros f Hf. apply writes_text; [apply spaced_any|]. intros r ts _ L. split; [|exact Logic.I]. rewrite !sapp_assoc. cbn [app].
    apply lex_dot_word; [exact Hf|reflexivity|reflexivity|]. change (" = " ++ r) with (" " ++ ("= " ++ r)). apply lex_ops.
    eapply lex_token; [reflexivity|]. eapply lex_skip; [reflexivity|exact L].
  Qed.
  Lemma after_comment_word : forall f star r, all_wordchars f = true -> after_comment star (f ++ " = */ " ++ r) = Some (" " ++ r).
  Proof.
    induction f as [|a f IH]; intros star r Hf.
    - destruct star; reflexivity.
    - cbn [all_wordchars] in Hf. apply andb_prop in Hf as [Ha Hf]. cbn [append after_comment].
      assert (E : Ascii.eqb a "/" = false) by (destruct a as [[|] [|] [|] [|] [|] [|] [|] [|]]; try discriminate Ha; reflexivity).
      rewrite E, andb_false_r. apply (IH _ r Hf).
  Qed.
  Lemma w_comment : forall f, is_ident f = true -> Writes (write ("/* ." ++ f ++ " = */ ")) any any [].
  Proof.
    intros f Hf. apply writes_text; [apply spaced_any|]. intros r ts _ L. split; [|exact Logic.I]. cbn [app]. eapply lex_skip; [|apply lex_ops, L].
    rewrite !sapp_assoc. unfold next. cbn [append]. change (blank "/") with false. cbv beta iota.
    change (starts_with "/*" (String "/" (String "*" (String " " (String "." (f ++ String " " (String "=" (String " " (String "*" (String "/" (String " " r)))))))))))
      with true. cbv beta iota. change (sdrop 2 (String "/" (String "*" ?x))) with x.
    assert (W : all_wordchars f = true) by (destruct f; [discriminate|]; cbn [is_ident] in Hf; apply andb_prop in Hf as [_ Hf]; exact Hf).
    pose proof (after_comment_word f false r W) as A. cbn [append] in A. 
    change (sdrop 2 (String "/" (String "*" (String " " (String "." (f ++ String " " (String "=" (String " " (String "*" (String "/" (String " " r))))))))))) with
      (String " " (String "." (f ++ String " " (String "=" (String " " (String "*" (String "/" (String " " r)))))))).
    cbn [after_comment Ascii.eqb Bool.eqb andb]. rewrite A. reflexivity.
  Qed.

  (** *** Names *)
  Lemma word_chars : forall w, is_ident w = true -> all_wordchars w = true.
  Proof. intros [|a w] Hw; [discriminate|]. cbn [is_ident] in Hw. apply andb_prop in Hw as [_ Hw]. exact Hw. Qed.
  Lemma lex_more_words : forall ws w r ts, Forall (fun x => is_ident x = true) (w :: ws) -> follows r -> Lexes r ts ->
    Lexes (qualified_name (w :: ws) ++ r) (Id w :: more_words ws ++ ts).
  Proof.
    induction ws as [|x ws IH]; intros w r ts Hw Fr L; inversion Hw as [|? ? H1 H2]; subst.
    - destruct (follows_word r Fr) as [F1 F2]. cbn [qualified_name more_words app]. apply next_word_prefix; assumption.
    - change (qualified_name (w :: x :: ws)) with (w ++ "::" ++ qualified_name (x :: ws)). rewrite !sapp_assoc. cbn [more_words].
      apply next_word_prefix; [exact H1|reflexivity|reflexivity|]. apply lex_scope; [|apply IH; assumption].
      inversion H2; subst. destruct ws; cbn [qualified_name]; rewrite ?sapp_assoc; apply ident_first; assumption.
  Qed.
  Lemma w_name : forall w ws, Forall (fun x => is_ident x = true) (w :: ws) -> Writes (write (qualified_name (w :: ws))) follows calm (Id w :: more_words ws).
  Proof.
    intros w ws Hw. apply writes_text; [apply spaced_calm|]. intros r ts Fr L. split; [apply lex_more_words; assumption|].
    inversion Hw; subst. destruct ws; cbn [qualified_name]; rewrite ?sapp_assoc; apply ident_first; assumption.
  Qed.
  Lemma w_number : forall s, is_number s = true -> Writes (write s) follows calm [Num s].
  Proof.
    intros s Hs. apply writes_text; [apply spaced_calm|]. intros r ts Fr L. split.
    - eapply lex_token; [apply next_number; assumption|exact L].
    - destruct s as [|a s]; [discriminate|]. apply andb_prop in Hs as [Ha _]. unfold calm. cbn [append first_in].
      destruct a as [[|] [|] [|] [|] [|] [|] [|] [|]]; try discriminate Ha; reflexivity.
  Qed.
  Lemma w_character : forall s, is_character s = true -> Writes (write s) follows calm [Chr s].
  Proof.
    intros s Hs. apply writes_text; [apply spaced_calm|]. intros r ts Fr L. split.
    - eapply lex_token; [apply next_character; assumption|exact L].
    - unfold is_character in Hs. destruct s as [|a s]; [discriminate|]. unfold calm. cbn [append first_in].
      cbn [span] in Hs. destruct (wordchar a) eqn:Ea.
      + destruct a as [[|] [|] [|] [|] [|] [|] [|] [|]]; try discriminate Ea; reflexivity.
      + destruct a as [[|] [|] [|] [|] [|] [|] [|] [|]]; try discriminate Hs; reflexivity.
  Qed.
  (** a struct's name before its values *)
  Definition before_brace (s : string) : Prop := first_in (fun a => blank a || Ascii.eqb a "{") s = true.
  Lemma w_brace_after : Writes (write "{") any before_brace [Op "{"].
  Proof.
    apply writes_text.
    - intros [|n] s Hs; [exact Hs|reflexivity].
    - intros r ts _ L. split; [apply lex_ops, L|reflexivity].
  Qed.
  Lemma w_head : forall n, is_ident n = true -> Writes (write n) before_brace calm [Id n].
  Proof.
    intros n Hn. apply writes_text; [apply spaced_calm|]. intros r ts Fr L.
    assert (Q : first_in wordchar r = false /\ first_in (fun a => Ascii.eqb a "'") r = false).
    { unfold before_brace in Fr. destruct r as [|a r]; [discriminate|]. cbn in *.
      destruct a as [[|] [|] [|] [|] [|] [|] [|] [|]]; try discriminate Fr; split; reflexivity. }
    destruct Q as [Q1 Q2]. split; [apply next_word_prefix; assumption|apply ident_first; exact Hn].
  Qed.
  Lemma w_paren_head : forall n, is_ident n = true -> Writes (write ("(" ++ n ++ ")")) any calm [Op "("; Id n; Op ")"].
  Proof.
    intros n Hn. apply writes_text; [apply spaced_calm|]. intros r ts _ L. split; [|reflexivity]. rewrite !sapp_assoc. cbn [app]. apply lex_ops.
    apply next_word_prefix; [exact Hn|reflexivity|reflexivity|]. apply lex_ops, L.
  Qed.
  Lemma named_type : forall n, type_word b n = true -> types n = true -> PType types pw [Id n] (CName false None [n] []).
  Proof.
    intros n Hn Ht. unfold type_word in Hn. apply andb_prop in Hn as [Hi Hn]. apply negb_true_iff in Hn. rewrite <- not_true_iff_false, mem_str_In in Hn.
    assert (N1 : String.eqb n "const" = false) by (apply String.eqb_neq; intros ->; apply Hn; left; reflexivity).
    assert (N2 : mem_str n tag_words = false) by (rewrite <- not_true_iff_false, mem_str_In; intros G; apply Hn; right; apply in_or_app; left; apply in_or_app; left; exact G).
    assert (N3 : mem_str n specifier_words = false) by (rewrite <- not_true_iff_false, mem_str_In; intros G; apply Hn; right; apply in_or_app; left; apply in_or_app; right; exact G).
    split.
    - intros rest. cbn [app type_starts]. rewrite Ht, orb_true_r. reflexivity.
    - intros rest. exists 1. intros m L. step m L. cbn [app]. unfold type_name. rewrite N1, N2, N3, Ht. reflexivity.
  Qed.

  Lemma writes_eq : forall p (F G : string -> Prop) us vs, Writes p F G us -> us = vs -> Writes p F G vs.
  Proof. intros p F G us vs Hp <-. exact Hp. Qed.

  (** *** Items *)
  Definition item_written (l : Literal) : Prop :=
    exists p us, write_lit l = Done p /\ well_bracketed p /\ Writes p follows any us /\ item_start us /\ PInit us (tree fuel b l).
  Definition operand_written (l : Literal) : Prop :=
    exists p us, write_lit l = Done p /\ well_bracketed p /\ Writes p follows (if starts_with_minus l then any else calm) us
      /\ item_start us /\ PUnary us (tree fuel b l) /\ not_type types us /\ not_brace us.
  Lemma operand_item : forall l, operand_written l -> item_written l.
  Proof.
    intros l (p & us & E1 & E2 & E3 & E4 & E5 & E6 & E7). exists p, us. repeat (split; [first [assumption|exact (writes_weaken _ _ _ _ _ _ _ _ E3 (fun _ H => H) (fun _ _ => Logic.I))]|]).
    apply init_of_unary; assumption.
  Qed.

  Lemma lookup_map : forall A B (f : A -> B) k l, lookup k (map (fun x => (fst x, f (snd x))) l) = option_map f (lookup k l).
  Proof. intros A B f k l. induction l as [|[q x] l IH]; [reflexivity|]. cbn. destruct (String.eqb _ _); [reflexivity|exact IH]. Qed.

  Section Fields.
    Variable fields : list (string * (Literal * option Cfg)).
    Let values := map (fun f => (fst f, (write_lit (fst (snd f)), snd (snd f)))) fields.
    Let trees := map (fun f => (fst f, tree fuel b (fst (snd f)))) fields.
    Definition field_fine (constexpr : bool) (k : string) : Prop :=
      is_ident k = true /\ exists v cfg, lookup k fields = Some (v, cfg) /\ item_written v /\ (constexpr = true -> to_condition_opt (defines c) cfg = None).

    Lemma look_value : forall k v cfg, lookup k fields = Some (v, cfg) -> lookup k values = Some (write_lit v, cfg) /\ lookup k trees = Some (tree fuel b v).
    Proof.
      intros k v cfg E. split.
      - unfold values. rewrite (lookup_map _ _ (fun x => (write_lit (fst x), snd x))), E. reflexivity.
      - unfold trees. rewrite (lookup_map _ _ (fun x => tree fuel b (fst x))), E. reflexivity.
    Qed.
    Let named k : option string := if Language_eqb (language c) Cxx then None else Some k.
    Lemma in_order_cons : forall k r v cfg, lookup k fields = Some (v, cfg) ->
      in_order b (k :: r) trees = (named k, tree fuel b v) :: in_order b r trees.
    Proof. intros k r v cfg E. unfold in_order. cbn [filter_map]. destruct (look_value k v cfg E) as [_ ->]. reflexivity. Qed.

    Lemma fields_constexpr : Language_eqb (language c) Cxx = true -> forall order i n, n = i + length order -> Forall (field_fine true) order ->
      exists p us, clike_fields b true values order i n = Done p /\ well_bracketed p /\ Writes p follows follows us
        /\ PItems (us ++ [Op "}"])%list (in_order b order trees).
    Proof.
      intros Hcxx. induction order as [|k order IH]; intros i n En Ho.
      - exists PRet, []. split; [reflexivity|]. split; [reflexivity|]. split; [apply writes_ret|apply items_nil].
      - inversion Ho as [|? ? (Hk & v & cfg & El & (pv & uv & V1 & V2 & V3 & V4 & V5) & Hc) Ho']; subst x l.
        destruct (IH (S i) n ltac:(cbn in En; lia) Ho') as (pr & ur & R1 & R2 & R3 & R4).
        destruct (look_value k v cfg El) as [L1 L2]. cbn [clike_fields]. rewrite L1, V1, R1, (in_order_cons k order v cfg El). change (b_config b) with c. rewrite (Hc eq_refl). cbn [write_before write_after].
        assert (Nm : named k = None) by (unfold named; rewrite Hcxx; reflexivity). rewrite Nm.
        assert (B : forall q, well_bracketed q -> well_bracketed ((newline ;; PRet ;; write ("/* ." ++ k ++ " = */ ") ;; pv ;; q ;; PRet) ;; pr)).
        { intros q Hq. wb. }
        assert (W : forall q (F : string -> Prop) uq, Writes q F follows uq -> (forall s, follows s -> F s) -> Writes ((newline ;; PRet ;; write ("/* ." ++ k ++ " = */ ") ;; pv ;; q ;; PRet) ;; pr) follows follows ((uv ++ uq) ++ ur)%list).
        { intros q F uq Hq HF. eapply writes_seq; [|exact R3].
          eapply writes_eq; [eapply writes_seq; [apply (writes_newline tabw e any); apply follows_newline|];
            eapply writes_seq; [apply writes_ret|]; eapply writes_seq; [apply (w_comment k Hk)|]; eapply writes_seq; [exact V3|];
            eapply writes_seq; [exact Hq|apply (writes_weaken tabw e _ _ _ _ _ _ (writes_ret tabw e follows)); [auto|exact HF]]|].
          cbn [app]. rewrite app_nil_r. reflexivity. }
        destruct order as [|k2 order].
        + assert (E : Nat.eqb (i + 1) n = true) by (apply Nat.eqb_eq; cbn in En; lia). rewrite E. cbn [clike_fields] in R1. inversion R1; subst pr.
          eexists. exists ((uv ++ []) ++ [])%list. split; [reflexivity|]. split; [apply B; reflexivity|]. split.
          * eapply writes_seq; [|apply writes_ret]. eapply writes_eq; [eapply writes_seq; [apply (writes_newline tabw e any); apply follows_newline|];
            eapply writes_seq; [apply writes_ret|]; eapply writes_seq; [apply (w_comment k Hk)|]; eapply writes_seq; [exact V3|];
            eapply writes_seq; [apply writes_ret|apply writes_ret]|reflexivity].
          * rewrite !app_nil_r. apply (items_last types pw cxx None); assumption.
        + assert (E : Nat.eqb (i + 1) n = false) by (apply Nat.eqb_neq; cbn in En; lia). rewrite E.
          eexists. exists ((uv ++ [Op ","]) ++ ur)%list. split; [reflexivity|]. split; [apply B; reflexivity|]. split.
          * apply (W _ any); [apply w_comma|]. intros s _. exact Logic.I.
          * rewrite <- !app_assoc. apply (items_more types pw cxx None); assumption.
    Qed.

    (** the fields after the first *)
    Lemma fields_more : forall order i n, Forall (field_fine false) order ->
      exists p us, clike_fields b false values order (S i) n = Done p /\ well_bracketed p /\ Writes p follows follows us
        /\ forall f uv x, PInit uv x -> item_start uv -> PItems (designator f ++ uv ++ us ++ [Op "}"])%list ((f, x) :: in_order b order trees).
    Proof.
      induction order as [|k order IH]; intros i n Ho.
      - exists PRet, []. split; [reflexivity|]. split; [reflexivity|]. split; [apply writes_ret|]. intros f uv x H1 H2. apply items_last; assumption.
      - inversion Ho as [|? ? (Hk & v & cfg & El & (pv & uv & V1 & V2 & V3 & V4 & V5) & _) Ho']; subst x l.
        destruct (IH (S i) n Ho') as (pr & ur & R1 & R2 & R3 & R4).
        destruct (look_value k v cfg El) as [L1 L2]. cbn [clike_fields]. rewrite L1, V1, R1, (in_order_cons k order v cfg El). change (b_config b) with c.
        change (Nat.ltb 0 (S i)) with true. eexists. exists (([Op ","] ++ designator (named k) ++ uv) ++ ur)%list. split; [reflexivity|]. split; [|split].
        + case (Language_eqb (language c) Cxx); wb.
        + eapply writes_seq; [|exact R3]. eapply writes_seq; [apply w_comma_space|]. unfold named. case (Language_eqb (language c) Cxx).
          * eapply writes_seq; [apply w_comment, Hk|exact V3].
          * eapply writes_seq; [apply w_designator, Hk|exact V3].
        + intros f uv0 x H1 H2. rewrite <- !app_assoc. cbn [app]. apply items_more; [assumption..|]. apply R4; assumption.
    Qed.
    Lemma fields_all : forall order n, Forall (field_fine false) order ->
      exists p us, clike_fields b false values order 0 n = Done p /\ well_bracketed p /\ Writes p follows any us
        /\ PItems (us ++ [Op "}"])%list (in_order b order trees).
    Proof.
      intros [|k order] n Ho.
      - exists PRet, []. split; [reflexivity|]. split; [reflexivity|]. split; [|apply items_nil].
        apply (writes_weaken tabw e _ _ _ _ _ _ (writes_ret tabw e any)); auto. intros s _. exact Logic.I.
      - inversion Ho as [|? ? (Hk & v & cfg & El & (pv & uv & V1 & V2 & V3 & V4 & V5) & _) Ho']; subst x l.
        destruct (fields_more order 0 n Ho') as (pr & ur & R1 & R2 & R3 & R4).
        destruct (look_value k v cfg El) as [L1 L2]. cbn [clike_fields]. rewrite L1, V1, R1, (in_order_cons k order v cfg El). change (b_config b) with c.
        change (Nat.ltb 0 0) with false. eexists. exists (([] ++ designator (named k) ++ uv) ++ ur)%list. split; [reflexivity|]. split; [|split].
        + case (Language_eqb (language c) Cxx); wb.
        + eapply writes_seq; [|exact R3]. eapply writes_seq; [apply writes_ret|]. unfold named. case (Language_eqb (language c) Cxx).
          * eapply writes_seq; [apply w_comment, Hk|exact V3].
          * eapply writes_seq; [apply w_designator, Hk|exact V3].
        + cbn [app]. rewrite <- !app_assoc. apply R4; assumption.
    Qed.
  End Fields.

  Lemma array_written : forall l, Forall item_written l ->
    exists p us, array_items write_lit l = Done p /\ well_bracketed p /\ Writes p any any us
      /\ PItems (us ++ [Op "}"])%list (map (fun x => (None, tree fuel b x)) l).
  Proof.
    induction l as [|x l IH]; intros Hl.
    - exists PRet, []. split; [reflexivity|]. split; [reflexivity|]. split; [apply writes_ret|apply items_nil].
    - inversion Hl as [|? ? (pv & uv & V1 & V2 & V3 & V4 & V5) Hl']; subst. destruct (IH Hl') as (pr & ur & R1 & R2 & R3 & R4).
      change (array_items write_lit (x :: l)) with (do p := write_lit x in do q := array_items write_lit l in Done (p ;; write ", " ;; q)). rewrite V1, R1.
      eexists. exists (uv ++ [Op ","] ++ ur)%list. split; [reflexivity|]. split; [|split].
      + apply wb_seq; [assumption|]. apply wb_seq; [reflexivity|assumption].
      + eapply writes_seq; [exact V3|]. eapply writes_seq; [|exact R3]. apply w_comma_space.
      + cbn [map]. rewrite <- !app_assoc. cbn [app]. apply (items_more types pw cxx None); assumption.
  Qed.

  Lemma start_cons : forall t us, match t with Op o => o <> "}" /\ o <> "." | _ => True end -> item_start (t :: us).
  Proof. intros t us Ht. split; [discriminate|]. intros rest. exact Ht. Qed.
  Lemma value_start : forall w us, value_word types w = true -> not_type types (Id w :: us).
  Proof.
    intros w us Hw. unfold value_word in Hw. apply andb_prop in Hw as [Hw H2]. apply andb_prop in Hw as [_ H1]. apply negb_true_iff in H1, H2.
    split; [discriminate|]. intros rest. cbn [app type_starts]. rewrite H1, H2. reflexivity.
  Qed.
  Lemma name_operand : forall l s p, value_name types s -> write_lit l = Done p ->
    (forall tabw' le w, run tabw' le p w = run tabw' le (write s) w) -> well_bracketed p -> starts_with_minus l = false -> tree fuel b l = CLeaf s -> operand_written l.
  Proof.
    intros l s p Hs E Ep Hb Hm Et. destruct Hs as [Hw | (w & ws & Hne & Hws & ->)].
    - assert (Hi : is_ident s = true) by (apply andb_prop in Hw as [Hw _]; apply andb_prop in Hw as [Hw _]; exact Hw).
      exists p, [Id s]. rewrite Hm, Et. split; [exact E|]. split; [exact Hb|]. split.
      { intros w w' R. rewrite Ep in R. revert w w' R. apply (w_name s []). constructor; [exact Hi|constructor]. }
      split; [apply start_cons; exact Logic.I|]. split; [apply (unary_name types pw cxx s [])|]. split; [apply value_start, Hw|].
      split; [discriminate|]. intros rest. discriminate.
    - exists p, (Id w :: more_words ws). rewrite Hm, Et. split; [exact E|]. split; [exact Hb|]. split.
      { intros w0 w' R. rewrite Ep in R. revert w0 w' R. apply w_name, Hws. }
      split; [apply start_cons; exact Logic.I|]. split; [apply unary_name|]. split.
      { destruct ws as [|x ws]; [contradiction Hne; reflexivity|]. split; [discriminate|]. intros rest. cbn [app more_words type_starts]. apply andb_false_r. }
      split; [discriminate|]. intros rest. discriminate.
  Qed.

  Lemma inner_write_app : forall x y w, x <> "" -> match inner_write x w with Some w1 => inner_write y w1 | None => None end = inner_write (x ++ y) w.
  Proof.
    intros x y w Hx. unfold inner_write at 1 3. destruct x as [|a x]; [contradiction Hx; reflexivity|]. cbn [append String.eqb].
    destruct (w_started w) eqn:Es.
    - unfold inner_write. cbn [w_started w_out w_len w_spaces w_max w_lineno]. destruct (String.eqb_spec y "") as [->|Hy].
      + rewrite sapp_nil_r. reflexivity.
      + f_equal. change (String a (x ++ y)) with (String a x ++ y). f_equal; rewrite ?sapp_assoc, ?slength_app; try reflexivity; lia.
    - destruct (w_spaces w) as [|sp r]; [reflexivity|]. unfold inner_write. cbn [w_started w_out w_len w_spaces w_max w_lineno]. destruct (String.eqb_spec y "") as [->|Hy].
      + rewrite sapp_nil_r. reflexivity.
      + f_equal. change (String a (x ++ y)) with (String a x ++ y). f_equal; rewrite ?sapp_assoc, ?slength_app; try reflexivity; lia.
  Qed.
  Lemma write_path_run : forall sep a n tabw' le w, sep = (if Language_eqb (language c) Cxx && st_associated_constants_in_body (structure c) then "::" else "_") ->
    run tabw' le (write_path b sep a n) w = run tabw' le (write (written_name b a n)) w.
  Proof.
    intros sep a n tabw' le w Hsep. unfold write_path, written_name. destruct a as [[path ename]|]; [|reflexivity].
    destruct (to_known_assoc_constant path n); [reflexivity|]. destruct (enum_variant_reference b path n); [reflexivity|].
    change (b_config b) with c. rewrite <- Hsep. rewrite <- sapp_assoc. cbn [seq run write].
    assert (N : ename ++ sep <> "").
    { intros E. apply sapp_eq_nil in E as [_ E]. rewrite Hsep in E. revert E. case (_ && _); discriminate. }
    rewrite <- (inner_write_app _ n w N). destruct (inner_write (ename ++ sep) w); reflexivity.
  Qed.
  Lemma wb_path : forall sep a n, well_bracketed (write_path b sep a n).
  Proof.
    intros sep a n. unfold write_path. destruct a as [[path ename]|]; [|reflexivity]. destruct (to_known_assoc_constant path n); [reflexivity|].
    destruct (enum_variant_reference b path n); reflexivity.
  Qed.
  Lemma separator_is : path_separator b = (if Language_eqb (language c) Cxx && st_associated_constants_in_body (structure c) then "::" else "_").
  Proof. unfold path_separator. change (b_config b) with c. destruct (language c); try reflexivity. contradiction Hlang; reflexivity. Qed.

  Lemma fields_ok_In : forall (ok : Literal -> Prop) l k v cfg, fields_ok ok l -> In (k, (v, cfg)) l -> ok v.
  Proof.
    intros ok l k v cfg. induction l as [|[k' [v' cfg']] l IH]; intros Hl Hi; [contradiction|]. destruct Hl as [H1 H2].
    destruct Hi as [Hi | Hi]; [inversion Hi; subst; exact H1|exact (IH H2 Hi)].
  Qed.
  Lemma all_ok_Forall : forall (ok : Literal -> Prop) l, all_ok ok l <-> Forall ok l.
  Proof.
    intros ok l. induction l as [|x l IH]; [split; [constructor|reflexivity]|]. cbn. rewrite IH. split; [intros [H1 H2]; constructor; assumption|].
    intros Hf; inversion Hf; auto.
  Qed.
  Definition is_array (l : Literal) : bool := match l with LArray _ => true | _ => false end.
  Lemma expressible_false : forall l, expressible fuel b types false l -> is_array l = false.
  Proof. intros [ | | | | | | |items] Hl; try reflexivity. destruct Hl as [Hl _]. discriminate. Qed.
  Lemma type_word_ident : forall w, type_word b w = true -> is_ident w = true.
  Proof. intros w Hw. apply andb_prop in Hw as [Hw _]. exact Hw. Qed.

  Theorem literal_written : forall l braces, expressible fuel b types braces l -> item_written l /\ (is_array l = false -> operand_written l).
  Proof.
    assert (Q : forall l, (is_array l = false -> operand_written l) -> (is_array l = true -> item_written l) -> item_written l /\ (is_array l = false -> operand_written l)).
    { intros l H1 H2. split; [|exact H1]. destruct (is_array l); [apply H2; reflexivity|apply operand_item, H1; reflexivity]. }
    apply (Literal_ind' (fun l => forall braces, expressible fuel b types braces l -> item_written l /\ (is_array l = false -> operand_written l))).
    - (* leaves *)
      intros s braces Hs. apply Q; [|discriminate]. intros _. destruct Hs as [Hs | [Hs | Hs]].
      + exists (write s), [Num s]. split; [reflexivity|]. split; [reflexivity|]. split; [apply w_number, Hs|]. split; [apply start_cons; exact Logic.I|].
        split; [apply unary_number|]. split; [split; [discriminate|reflexivity]|]. split; discriminate.
      + exists (write s), [Chr s]. split; [reflexivity|]. split; [reflexivity|]. split; [apply w_character, Hs|]. split; [apply start_cons; exact Logic.I|].
        split; [apply unary_character|]. split; [split; [discriminate|reflexivity]|]. split; discriminate.
      + apply (name_operand (LExpr s) s (write s)); try reflexivity. left. exact Hs.
    - (* names *)
      intros a n braces Hn. apply Q; [|discriminate]. intros _. apply (name_operand (LPath a n) (written_name b a n) (write_path b (path_separator b) a n)); try reflexivity.
      + exact Hn.
      + intros tabw' le w. apply write_path_run, separator_is.
      + apply wb_path.
    - (* unary operators *)
      intros op v IH braces (Hop & Hv & Hm). apply Q; [|discriminate]. intros _.
      destruct (IH false Hv) as [_ IH']. destruct (IH' (expressible_false v Hv)) as (p & us & E1 & E2 & E3 & E4 & E5 & E6 & E7).
      exists (write op ;; p), (Op op :: us). cbn [clike_write_literal]. rewrite E1. split; [reflexivity|]. split; [wb|]. split; [|split; [|split; [|split]]].
      + change (Op op :: us) with ([Op op] ++ us)%list. destruct Hop as [-> | ->].
        * rewrite (Hm eq_refl) in E3. eapply writes_seq; [apply w_minus|exact E3].
        * eapply writes_seq; [apply w_tilde|]. apply (writes_weaken tabw e _ _ _ _ _ _ E3); [auto|]. intros s _. exact Logic.I.
      + apply start_cons. destruct Hop as [-> | ->]; split; discriminate.
      + apply unary_operator; [|exact E5]. destruct Hop as [-> | ->]; cbn; auto.
      + split; [discriminate|]. reflexivity.
      + split; [discriminate|]. intros rest. destruct Hop as [-> | ->]; discriminate.
    - (* binary operators *)
      intros x op y IHx IHy braces (Hop & Hx & Hy). apply Q; [|discriminate]. intros _.
      destruct (IHx false Hx) as [_ X]. destruct (X (expressible_false x Hx)) as (p & us & E1 & E2 & E3 & E4 & E5 & E6 & E7).
      destruct (IHy false Hy) as [_ Y]. destruct (Y (expressible_false y Hy)) as (q & vs & F1 & F2 & F3 & F4 & F5 & F6 & F7).
      eexists. exists (Op "(" :: us ++ Op op :: vs ++ [Op ")"])%list. cbn [clike_write_literal]. rewrite E1, F1. split; [reflexivity|]. split; [wb|]. split; [|split; [|split; [|split]]].
      + eapply writes_eq; [eapply writes_seq; [apply w_open|]; eapply writes_seq; [apply (writes_weaken tabw e _ _ _ _ any _ E3); [intros s Fs; exact Fs|intros s _; exact Logic.I]|];
          eapply writes_seq; [apply w_operator, Hop|]; eapply writes_seq; [apply (writes_weaken tabw e _ _ follows _ any _ F3); [auto|intros s _; exact Logic.I]|];
          apply (writes_weaken tabw e _ _ follows _ follows _ w_close); [intros s _; exact Logic.I|intros s [Fs _]; exact Fs]|reflexivity].
      + apply start_cons. split; discriminate.
      + apply unary_binary; assumption.
      + split; [discriminate|]. reflexivity.
      + split; [discriminate|]. discriminate.
    - (* fields *)
      intros v f IH braces (Hf & Hv). apply Q; [|discriminate]. intros _.
      destruct (IH false Hv) as [_ IH']. destruct (IH' (expressible_false v Hv)) as (p & us & E1 & E2 & E3 & E4 & E5 & E6 & E7).
      eexists. exists (Op "(" :: us ++ [Op ")"; Op "."; Id f])%list. cbn [clike_write_literal]. rewrite E1. split; [reflexivity|]. split; [wb|]. split; [|split; [|split; [|split]]].
      + eapply writes_eq; [eapply writes_seq; [apply w_open|]; eapply writes_seq; [apply (writes_weaken tabw e _ _ follows _ any _ E3); [auto|intros s _; exact Logic.I]|];
          apply w_member, Hf|reflexivity].
      + apply start_cons. split; discriminate.
      + apply unary_member; assumption.
      + split; [discriminate|]. reflexivity.
      + split; discriminate.
    - (* structs *)
      intros path ename fields IH braces (Hn & Htypes & (order & Ho & Hall) & Hfields). apply Q; [|discriminate]. intros _.
      set (k := literal_is_constexpr b (LStruct path ename fields)) in *.
      assert (FF : Forall (field_fine fields k) order).
      { rewrite Forall_forall in Hall |- *. intros x Hx. destruct (Hall x Hx) as (H1 & v & cfg & H2 & H3). split; [exact H1|]. exists v, cfg. split; [exact H2|]. split; [|exact H3].
        apply lookup_In in H2. rewrite Forall_forall in IH. destruct (IH _ H2 true) as [G _]; [|exact G]. cbn [fst snd]. exact (fields_ok_In _ _ _ _ _ Hfields H2). }
      assert (HI : exists p us, clike_fields b k (map (fun f => (fst f, (write_lit (fst (snd f)), snd (snd f)))) fields) order 0 (length order) = Done p
                    /\ well_bracketed p /\ Writes ((if k then push_tab_ else write " ") ;; p ;; (if k then pop ;; newline else write " ") ;; write "}") follows any (us ++ [Op "}"])
                    /\ PItems (us ++ [Op "}"])%list (in_order b order (map (fun f => (fst f, tree fuel b (fst (snd f)))) fields))).
      { destruct k eqn:Ek.
        - assert (Hc : Language_eqb (language c) Cxx = true).
          { unfold k, literal_is_constexpr in Ek. apply andb_prop in Ek as [Ek _]. exact Ek. }
          destruct (fields_constexpr fields Hc order 0 (length order) eq_refl FF) as (p & us & P1 & P2 & P3 & P4). exists p, us.
          split; [exact P1|]. split; [exact P2|]. split; [|exact P4].
          eapply writes_eq; [eapply writes_seq; [apply writes_push|]; eapply writes_seq; [apply (writes_weaken tabw e _ _ follows _ any _ P3); [auto|intros s _; exact Logic.I]|];
            eapply writes_seq; [eapply writes_seq; [apply writes_pop|apply (writes_newline tabw e any); apply follows_newline]|];
            apply (writes_weaken tabw e _ _ follows _ any _ w_end); intros s _; exact Logic.I|reflexivity].
        - destruct (fields_all fields order (length order) FF) as (p & us & P1 & P2 & P3 & P4). exists p, us.
          split; [exact P1|]. split; [exact P2|]. split; [|exact P4].
          eapply writes_eq; [eapply writes_seq; [apply (writes_weaken tabw e _ _ any _ any _ w_space); intros s _; exact Logic.I|]; eapply writes_seq; [exact P3|];
            eapply writes_seq; [apply w_space|];
            apply (writes_weaken tabw e _ _ follows _ any _ w_end); intros s _; exact Logic.I|reflexivity]. }
      destruct HI as (p & us & P1 & P2 & P3 & P4).
      assert (WB : well_bracketed (write "{" ;; (if k then push_tab_ else write " ") ;; p ;; (if k then pop ;; newline else write " ") ;; write "}")).
      { destruct k; [|wb]. apply wb_seq; [reflexivity|]. unfold well_bracketed. eapply brackets_seq with (e := 1); [reflexivity|].
        eapply brackets_seq with (e := 1); [apply wb_at, P2|]. reflexivity. }
      pose proof (type_word_ident ename Hn) as Hid.
      unfold operand_written. cbn [clike_write_literal]. fold k. rewrite Ho, P1. change (b_config b) with c.
      destruct (Language_eqb (language c) M_Config.C) eqn:El.
      + eexists. exists (([Op "("; Id ename; Op ")"] ++ [Op "{"] ++ us ++ [Op "}"]))%list. split; [reflexivity|]. split; [apply wb_seq; [reflexivity|exact WB]|].
        split; [|split; [|split; [|split]]].
        * eapply writes_seq; [apply w_paren_head, Hid|]. eapply writes_seq; [|exact P3]. apply (writes_weaken tabw e _ _ any _ any _ w_brace_after); intros s _; exact Logic.I.
        * apply start_cons. split; discriminate.
        * cbn [tree]. unfold order_of. rewrite Ho. apply (unary_compound types pw cxx [Id ename]); [|exact P4]. apply named_type; [exact Hn|]. apply Htypes. revert El. change (b_config b) with c. case (language c); intros El; try discriminate El; reflexivity.
        * split; [discriminate|]. reflexivity.
        * split; discriminate.
      + assert (Hc : cxx = true) by (unfold cxx; revert El Hlang; case (language c); intros El Hl; [reflexivity|discriminate El|contradiction Hl; reflexivity]).
        eexists. exists (([Id ename] ++ [Op "{"] ++ us ++ [Op "}"]))%list. split; [reflexivity|]. split; [apply wb_seq; [reflexivity|exact WB]|].
        split; [|split; [|split; [|split]]].
        * eapply writes_seq; [apply w_head, Hid|]. eapply writes_seq; [|exact P3]. apply w_brace_after.
        * apply start_cons. exact Logic.I.
        * cbn [tree]. unfold order_of. rewrite Ho. apply (unary_construct types pw cxx ename); [exact Hc|exact P4].
        * split; [discriminate|]. intros rest. cbn [app type_starts]. apply andb_false_r.
        * split; discriminate.
    - (* casts *)
      intros t v IH braces (Ht & Hv). apply Q; [|discriminate]. intros _.
      destruct (IH false Hv) as [_ IH']. destruct (IH' (expressible_false v Hv)) as (p & us & E1 & E2 & E3 & E4 & E5 & E6 & E7).
      destruct (cast_written tabw e b types Hlang Hattrs t Ht) as (q & vs & T1 & T2 & T3 & T4). change (b_config b) with c in T1.
      eexists. exists (Op "(" :: vs ++ Op ")" :: us)%list. cbn [clike_write_literal]. change (b_config b) with c. rewrite T1, E1. cbn [of_option]. split; [reflexivity|]. split; [wb|]. split; [|split; [|split; [|split]]].
      + eapply writes_eq; [eapply writes_seq; [apply w_open|]; eapply writes_seq; [apply (writes_weaken tabw e _ _ after_type _ any _ T3); [auto|intros s _; exact Logic.I]|];
          eapply writes_seq; [apply (writes_weaken tabw e _ _ any _ after_type _ w_close); [auto|intros s [_ Fs]; exact Fs]|];
          apply (writes_weaken tabw e _ _ follows _ any _ E3); [auto|intros s _; exact Logic.I]|reflexivity].
      + apply start_cons. split; discriminate.
      + apply unary_cast; assumption.
      + split; [discriminate|]. reflexivity.
      + split; discriminate.
    - (* arrays *)
      intros items IH braces (_ & Hi). apply Q; [discriminate|]. intros _. apply all_ok_Forall in Hi.
      assert (A : Forall item_written items).
      { rewrite Forall_forall in IH, Hi |- *. intros x Hx. destruct (IH x Hx true (Hi x Hx)) as [G _]. exact G. }
      destruct (array_written items A) as (p & us & P1 & P2 & P3 & P4).
      eexists. exists (Op "{" :: us ++ [Op "}"])%list. cbn [clike_write_literal]. rewrite P1. split; [reflexivity|]. split; [wb|]. split; [|split].
      + eapply writes_eq; [eapply writes_seq; [apply (writes_weaken tabw e _ _ any _ any _ w_brace_space); intros s _; exact Logic.I|]; eapply writes_seq; [exact P3|];
          apply (writes_weaken tabw e _ _ follows _ any _ w_end); intros s _; exact Logic.I|reflexivity].
      + apply start_cons. split; discriminate.
      + apply init_braces, P4.
  Qed.

  Lemma runs : forall p w, well_bracketed p -> tabw <> 0 -> w_spaces w <> [] -> exists w', run tabw (LineEndingStyle_as_str e) p w = Some w'.
  Proof.
    intros p w Hp Ht Hw. destruct (well_bracketed_restores tabw (LineEndingStyle_as_str e) p w Ht Hw Hp) as (w' & R & _). exists w'. exact R.
  Qed.
  Theorem literal_denotes : forall l w, tabw <> 0 -> w_spaces w <> [] -> expressible fuel b types true l ->
    exists p w' s, write_lit l = Done p /\ run tabw (LineEndingStyle_as_str e) p w = Some w' /\ w_out w' = w_out w ++ s
      /\ denotes_expr types pw cxx s (tree fuel b l).
  Proof.
    intros l w Ht Hw Hl. destruct (literal_written l true Hl) as [(p & us & P1 & P2 & P3 & P4 & P5) _].
    destruct (runs p w P2 Ht Hw) as (w' & R). destruct (P3 w w' R) as (s & O & Hs). exists p, w', s. split; [exact P1|]. split; [exact R|]. split; [exact O|].
    destruct (Hs "" [] (or_introl eq_refl) lex_end) as [L _]. rewrite sapp_nil_r in L. rewrite app_nil_r in L. exists us. split; [exact L|].
    destruct (P5 [] Logic.I) as (n & Hn). exists n. intros m Lm. specialize (Hn m Lm). rewrite app_nil_r in Hn. exact Hn.
  Qed.
  Theorem literal_operand : forall l w, tabw <> 0 -> w_spaces w <> [] -> expressible fuel b types false l ->
    exists p w' s us, write_lit l = Done p /\ run tabw (LineEndingStyle_as_str e) p w = Some w' /\ w_out w' = w_out w ++ s
      /\ Lexes s us /\ operand types pw cxx us (tree fuel b l).
  Proof.
    intros l w Ht Hw Hl. destruct (literal_written l false Hl) as [_ G]. destruct (G (expressible_false l Hl)) as (p & us & P1 & P2 & P3 & _ & P5 & _).
    destruct (runs p w P2 Ht Hw) as (w' & R). destruct (P3 w w' R) as (s & O & Hs). exists p, w', s, us. split; [exact P1|]. split; [exact R|]. split; [exact O|].
    split; [|exact P5]. destruct (Hs "" [] (or_introl eq_refl) lex_end) as [L _]. rewrite sapp_nil_r in L. rewrite app_nil_r in L. exact L.
  Qed.
End Config.

Lemma fields_assigned : forall b all order values, Forall (fun k => lookup k values <> None) order ->
  assigned all order (in_order b order values) = Some (filter_map (fun k => option_map (pair k) (lookup k values)) order).
Proof.
  intros b all order values. unfold in_order. destruct (Language_eqb (language (b_config b)) Cxx).
  - induction order as [|k order IH]; intros Ho; [reflexivity|]. inversion Ho as [|? ? Hk Ho']; subst. cbn [filter_map].
    destruct (lookup k values) as [x|]; [|contradiction Hk; reflexivity]. cbn [option_map assigned]. rewrite (IH Ho'). reflexivity.
  - intros Ho. assert (G : forall o, assigned all o (filter_map (fun k => option_map (pair (Some k)) (lookup k values)) order) =
      Some (filter_map (fun k => option_map (pair k) (lookup k values)) order)); [|apply G].
    induction order as [|k order IH]; intros o; [reflexivity|]. inversion Ho as [|? ? Hk Ho']; subst. cbn [filter_map].
    destruct (lookup k values) as [x|]; [|contradiction Hk; reflexivity]. cbn [option_map assigned]. rewrite (IH Ho'). reflexivity.
Qed.

(** Tokens found by computation. *)
Fixpoint lex (n : nat) (s : string) : option (list etok) :=
  match n with
  | O => None
  | S k => if String.eqb s "" then Some [] else
           match next s with
           | Some (None, r) => lex k r
           | Some (Some t, r) => option_map (cons t) (lex k r)
           | None => None
           end
  end.
Lemma lex_lexes : forall n s ts, lex n s = Some ts -> Lexes s ts.
Proof.
  induction n as [|n IH]; intros s ts E; [discriminate|]. cbn [lex] in E. destruct (String.eqb_spec s "") as [Es|Hs].
  - inversion E; subst. constructor.
  - destruct (next s) as [[[t|] r]|] eqn:En; [| |discriminate].
    + destruct (lex n r) as [us|] eqn:Eu; [|discriminate]. inversion E; subst. eapply lex_token; [exact En|apply IH, Eu].
    + eapply lex_skip; [exact En|apply IH, E].
Qed.
Lemma denotes_tokens : forall types pws cxx text e n ts, lex n text = Some ts -> denotes_expr types pws cxx text e ->
  exists k, forall m, initializer types pws cxx (m + k) ts = Some (e, []).
Proof.
  intros types pws cxx text e n ts L (us & Lu & k & Hk). rewrite (lexes_once _ _ _ Lu (lex_lexes _ _ _ L)) in Hk. exists k. intros m. apply Hk. lia.
Qed.

(** one step of the reader *)
Section Steps.
  Variables (types : string -> bool) (pws : list string) (cxx : bool).
  Notation init := (initializer types pws cxx).
  Lemma step_init : forall n o r, o <> "{" -> init (S n) (Op o :: r) = binary types pws cxx n 0 (Op o :: r).
  Proof. intros n o r Ho. apply not_brace_init. intros r0 Er. inversion Er; subst. contradiction Ho; reflexivity. Qed.
  Lemma step_binary : forall n k ts, binary types pws cxx (S n) k ts = match unary types pws cxx n ts with Some (e, r) => climb types pws cxx n k e r | None => None end.
  Proof. reflexivity. Qed.
  Lemma step_paren : forall n r, unary types pws cxx (S n) (Op "(" :: r) =
    if type_starts types r then
      match type_name types pws n r with
      | Some (t, Op ")" :: Op "{" :: r') => match items types pws cxx n r' with Some (l, r3) => members n (CBraces (Some t) l) r3 | None => None end
      | Some (t, Op ")" :: r') => match unary types pws cxx n r' with Some (e, r3) => Some (CCast t e, r3) | None => None end
      | _ => None
      end
    else match binary types pws cxx n 0 r with Some (e, Op ")" :: r') => members n e r' | _ => None end.
  Proof. reflexivity. Qed.
  (** parentheses around a name that is no type *)
  Lemma paren_name : forall n w r, types w = false -> mem_str w ("const" :: tag_words ++ specifier_words)%list = false ->
    unary types pws cxx (S (S (S (S n)))) (Op "(" :: Id w :: Op ")" :: r) = members (S (S (S n))) (CLeaf w) r.
  Proof.
    intros n w r Hw Hm. rewrite step_paren. replace (type_starts types (Id w :: Op ")" :: r)) with false by (unfold type_starts; rewrite Hw, Hm; reflexivity). reflexivity.
  Qed.
  Lemma paren_type : forall n w r, types w = true -> mem_str w ("const" :: tag_words ++ specifier_words)%list = false ->
    unary types pws cxx (S (S n)) (Op "(" :: Id w :: Op ")" :: Op "{" :: r) =
    match items types pws cxx (S n) r with Some (l, r3) => members (S n) (CBraces (Some (CName false None [w] [])) l) r3 | None => None end.
  Proof.
    intros n w r Hw Hm. rewrite step_paren.
    replace (type_starts types (Id w :: Op ")" :: Op "{" :: r)) with true by (unfold type_starts; rewrite Hw, orb_true_r; reflexivity).
    replace (type_name types pws (S n) (Id w :: Op ")" :: Op "{" :: r)) with (Some (CName false None [w] [], Op ")" :: Op "{" :: r)); [reflexivity|].
    rewrite mem_str_false in Hm.
    assert (H1 : String.eqb w "const" = false) by (apply String.eqb_neq; intros ->; apply Hm; left; reflexivity).
    assert (H2 : mem_str w tag_words = false) by (apply mem_str_false; intros G; apply Hm; right; apply in_or_app; left; exact G).
    assert (H3 : mem_str w specifier_words = false) by (apply mem_str_false; intros G; apply Hm; right; apply in_or_app; right; exact G).
    unfold type_name. rewrite H1, H2, H3, Hw. reflexivity.
  Qed.
End Steps.
