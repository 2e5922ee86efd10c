(** Types in casts: what is written reads back as the type. *)
Require Import Coq.Strings.String Coq.Strings.Ascii Coq.Lists.List Coq.Bool.Bool Coq.Arith.Arith Coq.micromega.Lia.
From Verif Require Import Base P_Base S_Lex M_Config M_Writer S_Writer P_Writer M_Type M_Ir M_Library M_Bindings M_Cdecl M_Literal S_Decl P_Declared P_DeclWritten S_Expr S_Literal P_Expr.
Import ListNotations.
Open Scope string_scope.

(** fixed texts *)
Lemma lex_ops : forall r ts, Lexes r ts ->
  Lexes ("(" ++ r) (Op "(" :: ts) /\ Lexes (")" ++ r) (Op ")" :: ts) /\ Lexes ("{" ++ r) (Op "{" :: ts) /\ Lexes ("}" ++ r) (Op "}" :: ts)
  /\ Lexes ("," ++ r) (Op "," :: ts) /\ Lexes ("~" ++ r) (Op "~" :: ts) /\ Lexes (" " ++ r) ts.
Proof. intros r ts L. repeat split; solve [eapply lex_token; [reflexivity|exact L]|eapply lex_skip; [reflexivity|exact L]]. Qed.
Lemma lex_star : forall r ts, first_in (fun a => Ascii.eqb a "=") r = false -> Lexes r ts -> Lexes ("*" ++ r) (Op "*" :: ts).
Proof.
  intros r ts Hr L. eapply lex_token; [|exact L]. destruct r as [|a r]; [reflexivity|].
  destruct a as [[|] [|] [|] [|] [|] [|] [|] [|]]; try discriminate Hr; reflexivity.
Qed.
Lemma lex_minus : forall r ts, calm r -> Lexes r ts -> Lexes ("-" ++ r) (Op "-" :: ts).
Proof.
  intros r ts Hr L. eapply lex_token; [|exact L]. destruct r as [|a r]; [reflexivity|].
  destruct a as [[|] [|] [|] [|] [|] [|] [|] [|]]; try discriminate Hr; reflexivity.
Qed.
(** two colons *)
Lemma lex_scope : forall r ts, first_in (fun a => Ascii.eqb a ":") r = false -> Lexes r ts -> Lexes ("::" ++ r) (Op "::" :: ts).
Proof. intros r ts _ L. eapply lex_token; [|exact L]. reflexivity. Qed.
Lemma lex_words : forall ws r ts, Forall (fun w => is_ident w = true) ws -> first_in wordchar r = false -> first_in (fun a => Ascii.eqb a "'") r = false ->
  Lexes r ts -> ws <> [] -> Lexes (join " " ws ++ r) (map Id ws ++ ts).
Proof.
  induction ws as [|w ws IH]; intros r ts Hw H1 H2 L Hne; [contradiction|]. inversion Hw as [|? ? Hw1 Hw2]; subst. destruct ws as [|x ws].
  - cbn [join map app]. apply next_word_prefix; assumption.
  - change (join " " (w :: x :: ws)) with (w ++ " " ++ join " " (x :: ws)). rewrite !sapp_assoc. cbn [map app]. apply next_word_prefix; [exact Hw1|reflexivity|reflexivity|].
    apply lex_ops. apply (IH r ts Hw2 H1 H2 L). discriminate.
Qed.
Lemma ident_first : forall w r, is_ident w = true -> first_in (fun a => Ascii.eqb a "=") (w ++ r) = false /\ calm (w ++ r) /\ first_in (fun a => Ascii.eqb a ":") (w ++ r) = false.
Proof.
  intros [|a w] r E; [discriminate|]. cbn [is_ident] in E. apply andb_prop in E as [_ E]. cbn in E. apply andb_prop in E as [E _].
  unfold calm. cbn [append first_in]. destruct a as [[|] [|] [|] [|] [|] [|] [|] [|]]; try discriminate E; repeat split.
Qed.

Lemma run_three : forall tabw le p q n r w, run tabw le (seq (seq p (seq q n)) r) w = run tabw le (seq p (seq q (seq n r))) w.
Proof.
  intros tabw le p q n r w. rewrite (run_seq tabw le (seq p (seq q n))), (run_seq tabw le p (seq q n)), (run_seq tabw le p (seq q (seq n r))).
  destruct (run tabw le p w) as [w1|]; [|reflexivity]. rewrite (run_seq tabw le q n), (run_seq tabw le q (seq n r)). destruct (run tabw le q w1) as [w2|]; [|reflexivity].
  rewrite (run_seq tabw le n r). reflexivity.
Qed.

Section Config.
  Variables (tabw : nat) (e : LineEndingStyle).
  Notation Writes := (Writes tabw e).
  Variable b : Bindings.
  Let c : Config := b_config b.
  Variable types : string -> bool.
  Hypothesis Hlang : language c <> Cython.
  Hypothesis Hattrs : Forall (fun w => is_ident w = true) (pointer_words (dialect_of c)).
  Local Open Scope prog_scope.

  (** what follows a word of a type *)
  Definition after_type (s : string) : Prop := first_in (fun a => blank a || Ascii.eqb a "*" || Ascii.eqb a ")") s = true.
  Definition not_eq (s : string) : Prop := first_in (fun a => Ascii.eqb a "=") s = false.
  Lemma after_type_not : forall s, after_type s -> first_in wordchar s = false /\ first_in (fun a => Ascii.eqb a "'") s = false /\ not_eq s.
  Proof. intros [|a s] E; [discriminate|]. unfold after_type, not_eq in *. cbn [first_in] in *. destruct a as [[|] [|] [|] [|] [|] [|] [|] [|]]; try discriminate E; repeat split. Qed.
  Lemma spaced_after_type : spaced after_type.
  Proof. intros [|n] s E; [exact E|reflexivity]. Qed.
  Lemma spaced_not_eq : spaced not_eq.
  Proof. intros [|n] s E; [exact E|reflexivity]. Qed.

  Lemma writes_ident_space : forall a, is_ident a = true -> Writes (write (a ++ " ")) any not_eq [Id a].
  Proof.
    intros a Ha. apply writes_text; [apply spaced_not_eq|]. intros r ts _ L. rewrite sapp_assoc. split; [|apply (ident_first a (" " ++ r) Ha)].
    apply next_word_prefix; [exact Ha|reflexivity|reflexivity|]. apply lex_ops, L.
  Qed.
  Lemma no_cython : negb (Language_eqb (language c) Cython) = true /\ for_cython c = false.
  Proof. unfold for_cython. destruct (language c); try (split; reflexivity). contradiction Hlang; reflexivity. Qed.
  Lemma attr_ident : forall a, pt_non_null_attribute (pointer c) = Some a \/ pt_nullable_attribute (pointer c) = Some a -> is_ident a = true.
  Proof.
    intros a Ea. rewrite Forall_forall in Hattrs. apply Hattrs. cbn [dialect_of pointer_words]. apply in_or_app.
    destruct Ea as [-> | ->]; [left|right]; left; reflexivity.
  Qed.
  Lemma writes_pointer : forall k n, Writes (write_pointer c k n false) after_type after_type (Op "*" :: map Id (qualifiers c k n false)).
  Proof.
    intros k n. unfold write_pointer, qualifiers. destruct no_cython as [-> ->]. rewrite map_app.
    change (Op "*" :: map Id (if k then ["const"] else []) ++ _)%list with ([Op "*"] ++ (map Id (if k then ["const"] else []) ++ map Id (if n then some_words (pt_nullable_attribute (pointer c)) else some_words (pt_non_null_attribute (pointer c)))))%list.
    eapply writes_seq; [|eapply writes_seq].
    - apply writes_text with (F := not_eq) (G := after_type); [apply spaced_after_type|]. intros r ts Fr L. split; [apply lex_star; assumption|reflexivity].
    - instantiate (1 := not_eq). destruct k; [|apply writes_ret]. eapply writes_weaken; [apply (writes_ident_space "const"); reflexivity|intros; exact Logic.I|auto].
    - assert (R : Writes PRet after_type not_eq []) by (eapply writes_weaken; [apply writes_ret with (F := not_eq)|intros s Es; apply (after_type_not s Es)|auto]).
      assert (A : forall a, is_ident a = true -> Writes (write (a ++ " ")) after_type not_eq [Id a]) by (intros a Ha; eapply writes_weaken; [apply writes_ident_space, Ha|intros; exact Logic.I|auto]).
      destruct n; cbn [negb andb].
      + destruct (pt_nullable_attribute (pointer c)) as [a|] eqn:Ea; [|exact R]. apply A, attr_ident. right. exact Ea.
      + destruct (pt_non_null_attribute (pointer c)) as [a|] eqn:Ea; [|exact R]. apply A, attr_ident. left. exact Ea.
  Qed.

  (** the base of a type: the text, its tokens, and how they are read *)
  Definition base_ok (q name : string) (ct : option DeclarationType) (base : ctype) : Prop :=
    exists us, Writes ((if negb (String.eqb q "") then write (q ++ " ") else PRet) ;;
                       (match ct with Some t => write (DeclarationType_to_str t ++ " ") | None => PRet end) ;; write name) after_type not_eq us
      /\ (forall rest, type_starts types (us ++ Op "*" :: rest) = true /\ type_starts types (us ++ Op ")" :: rest) = true)
      /\ forall n o rest, o = "*" \/ o = ")" -> type_name types (pointer_words (dialect_of c)) n (us ++ Op o :: rest) = type_pointers (pointer_words (dialect_of c)) n base (Op o :: rest).

  Definition pointers_of (ptrs : list (bool * bool)) (base : ctype) : ctype :=
    fold_left (fun u p => CPtr false (qualifiers c (fst p) (snd p) false) u) ptrs base.

  Lemma words_written : forall p, p <> PVaList -> to_repr_c c p = join " " (primitive c p) /\ Forall (fun w => is_ident w = true) (primitive c p) /\ primitive c p <> [].
  Proof.
    intros p Hp. destruct p as [| | | | | | | | | |z s k]; try contradiction; try (repeat split; [repeat constructor|discriminate]).
    destruct k, s; cbn; try destruct (usize_is_size_t c); repeat split; repeat constructor; discriminate.
  Qed.
  Lemma type_words_all : forall ws o rest, Forall (fun w => mem_str w specifier_words = true) ws ->
    type_words (map Id ws ++ Op o :: rest) = (ws, Op o :: rest).
  Proof.
    induction ws as [|w ws IH]; intros o rest Hw; [reflexivity|]. inversion Hw; subst. cbn [map app type_words]. rewrite H1, IH by assumption. reflexivity.
  Qed.

  (** the qualifier written in front *)
  Lemma const_first : forall (k : bool) p us, Writes p after_type not_eq us ->
    Writes ((if negb (String.eqb (if k then "const" else "") "") then write ((if k then "const" else "") ++ " ") else PRet) ;; p) after_type not_eq ((if k then [Id "const"] else []) ++ us).
  Proof.
    intros [|] p us Hp; [|exact Hp]. cbn [String.eqb Ascii.eqb negb]. eapply writes_seq; [|exact Hp].
    eapply writes_weaken; [apply (writes_ident_space "const"); reflexivity|intros; exact Logic.I|auto].
  Qed.
  Lemma writes_ident : forall x, is_ident x = true -> Writes (write x) after_type not_eq [Id x].
  Proof.
    intros x Hx. apply writes_text; [apply spaced_not_eq|]. intros r ts Fr L. destruct (after_type_not r Fr) as (F1 & F2 & F3).
    split; [apply next_word_prefix; assumption|apply (ident_first x r Hx)].
  Qed.
  Lemma starts_const : forall us, type_starts types us = true -> forall k : bool, type_starts types ((if k then [Id "const"] else []) ++ us) = true.
  Proof.
    intros us Hu [|]; [|exact Hu]. cbn [app type_starts]. destruct us as [|[w|s|s|o] us]; try discriminate Hu. reflexivity.
  Qed.

  Lemma simple_chain : forall t, cast_type b types t = true -> forall k ds,
    exists q name ct ptrs base,
      build_type c (Decl "" "" [] ds None None) t k = Some (Decl q name [] (ds ++ rev (map (fun p => CdPtr (fst p) (snd p) false) ptrs)) ct None)
      /\ c_type c k t = pointers_of ptrs base /\ base_ok q name ct base.
  Proof.
    induction t as [u IH tk nl r|g|p|u _ len|ret _ args nu nv]; intros Ht k ds; try discriminate Ht.
    - cbn [cast_type] in Ht. apply andb_prop in Ht as [Ht Hr]. destruct r; [discriminate|]. cbn [build_type push_declarator].
      destruct (IH Ht tk (ds ++ [CdPtr k nl false])%list) as (q & name & ct & ptrs & base & E1 & E2 & E3).
      exists q, name, ct, (ptrs ++ [(k, nl)])%list, base. split; [|split; [|exact E3]].
      + rewrite E1. rewrite map_app, rev_app_distr. cbn [map rev app fst snd]. rewrite <- app_assoc. reflexivity.
      + cbn [c_type]. rewrite E2. unfold pointers_of. rewrite fold_left_app. reflexivity.
    - destruct g as [path name args kind]. cbn [cast_type] in Ht. apply andb_prop in Ht as [Ht Hargs]. apply andb_prop in Ht as [Hname Ht]. destruct args as [|]; [|discriminate].
      exists (if k then "const" else ""), name, kind, [], (CName k (tag_of c kind) [name] []). split; [|split; [reflexivity|]].
      + cbn [build_type]. destruct k; cbn; rewrite app_nil_r; reflexivity.
      + unfold type_word in Hname. apply andb_prop in Hname as [Hid Hres]. apply negb_true_iff in Hres. unfold base_ok.
        assert (Hnot : mem_str name ("const" :: tag_words ++ specifier_words) = false).
        { apply mem_str_false. intros Hin. apply (proj1 (mem_str_false _ _) Hres). apply in_or_app. left. exact Hin. }
        assert (Hconst : String.eqb name "const" = false /\ mem_str name tag_words = false /\ mem_str name specifier_words = false).
        { pose proof (proj1 (mem_str_false _ _) Hnot) as N. repeat split.
          - apply String.eqb_neq. intros ->. apply N. left. reflexivity.
          - apply mem_str_false. intros Hin. apply N. right. apply in_or_app. left. exact Hin.
          - apply mem_str_false. intros Hin. apply N. right. apply in_or_app. right. exact Hin. }
        destruct Hconst as (Hc & Htag & Hspec). unfold tag_of in *. destruct no_cython as [_ Hcy]. fold c in Ht. rewrite Hcy in *. destruct kind as [kd|].
        * pose (tw := match kd with DStruct => "struct" | DUnion => "union" | DEnum => "enum" end).
          assert (Htw : DeclarationType_to_str kd = tw /\ is_ident tw = true /\ mem_str tw tag_words = true /\ String.eqb tw "const" = false) by (destruct kd; repeat split).
          destruct Htw as (E1 & E2 & E3 & E4). rewrite E1. exists ((if k then [Id "const"] else []) ++ [Id tw; Id name])%list. split; [|split].
          -- apply const_first. change [Id tw; Id name] with ([Id tw] ++ [Id name])%list. eapply writes_seq; [|apply writes_ident, Hid].
             eapply writes_weaken; [apply writes_ident_space, E2|intros; exact Logic.I|auto].
          -- intros rest. rewrite <- !app_assoc. split; apply starts_const; cbn [app type_starts]; destruct kd; reflexivity.
          -- intros n o rest Ho. rewrite <- app_assoc. cbn [app]. unfold type_name. destruct k; cbn [app]; [change (String.eqb "const" "const") with true|rewrite E4];
               cbv beta iota; rewrite E3; reflexivity.
        * exists ((if k then [Id "const"] else []) ++ [Id name])%list. split; [|split].
          -- apply const_first. apply writes_ident, Hid.
          -- intros rest. rewrite <- !app_assoc. split; apply starts_const; cbn [app S_Expr.type_starts]; rewrite Ht, orb_true_r; reflexivity.
          -- intros n o rest Ho. rewrite <- app_assoc. cbn [app]. unfold type_name. destruct k; cbn [app]; [change (String.eqb "const" "const") with true|rewrite Hc];
               cbv beta iota; rewrite Htag, Hspec, Ht; reflexivity.
    - assert (Hp : p <> PVaList) by (intros ->; discriminate Ht).
      assert (Hw : forallb (fun w => mem_str w specifier_words || (types w && type_word b w)) (primitive c p) = true) by (destruct p; try exact Ht; contradiction).
      destruct (words_written p Hp) as (Ew & Hid & Hne).
      exists (if k then "const" else ""), (to_repr_c c p), None, [], (CName k None (primitive c p) []). split; [|split].
      + cbn [build_type]. destruct k; cbn; rewrite app_nil_r; reflexivity.
      + cbn [c_type]. destruct p; try reflexivity. contradiction.
      + exists ((if k then [Id "const"] else []) ++ map Id (primitive c p))%list. split; [|split].
        * apply const_first. rewrite Ew. change (map Id (primitive c p)) with ([] ++ map Id (primitive c p))%list. apply writes_text; [apply spaced_not_eq|]. intros r ts Fr L.
          destruct (after_type_not r Fr) as (F1 & F2 & F3). split; [apply lex_words; assumption|].
          destruct (primitive c p) as [|w ws]; [contradiction|]. inversion Hid; subst. destruct ws as [|w2 ws]; [apply (ident_first w r); assumption|].
          change (join " " (w :: w2 :: ws)) with (w ++ " " ++ join " " (w2 :: ws)). rewrite sapp_assoc. apply (ident_first w); assumption.
        * assert (S : forall o rest, o = "*" \/ o = ")" -> type_starts types (map Id (primitive c p) ++ Op o :: rest) = true).
          { intros o rest Ho. destruct (primitive c p) as [|w ws]; [contradiction|]. cbn [forallb] in Hw. apply andb_prop in Hw as [Hw _]. cbn [map app S_Expr.type_starts].
            assert (X : (mem_str w ("const" :: tag_words ++ specifier_words) || types w) = true).
            { apply orb_true_iff. apply orb_true_iff in Hw as [Hw | Hw]; [left|right].
              - apply mem_str_In. right. apply in_or_app. right. apply mem_str_In, Hw.
              - apply andb_prop in Hw as [Hw _]. exact Hw. }
            rewrite X. destruct ws as [|w2 ws]; [destruct Ho as [-> | ->]; reflexivity|reflexivity]. }
          intros rest. rewrite <- !app_assoc. split; apply starts_const, S; auto.
        * intros n o rest Ho.
          assert (X : forall qq, match (map Id (primitive c p) ++ Op o :: rest)%list with
                         | Id w :: r => if mem_str w tag_words then match r with Id x :: r' => type_pointers (pointer_words (dialect_of c)) n (CName qq (Some w) [x] []) r' | _ => None end
                                        else if mem_str w specifier_words then let '(ws, r') := type_words r in type_pointers (pointer_words (dialect_of c)) n (CName qq None (w :: ws) []) r'
                                        else if types w then type_pointers (pointer_words (dialect_of c)) n (CName qq None [w] []) r else None
                         | _ => None end = type_pointers (pointer_words (dialect_of c)) n (CName qq None (primitive c p) []) (Op o :: rest)
                        /\ exists w r, (map Id (primitive c p) ++ Op o :: rest)%list = Id w :: r /\ String.eqb w "const" = false).
          { intros qq. clear - Hp Hw Hid. destruct p as [| | | | | | | | | |z s kd]; try contradiction; try (split; [reflexivity|eexists; eexists; split; reflexivity]).
            all: try (cbn in Hw; apply andb_prop in Hw as [Hw _]; apply andb_prop in Hw as [Hw _]; split; [cbn; rewrite Hw; reflexivity|eexists; eexists; split; reflexivity]).
            all: destruct kd, s; try (split; [reflexivity|eexists; eexists; split; reflexivity]); cbn in Hw |- *; try destruct (usize_is_size_t c); cbn in Hw |- *;
                 apply andb_prop in Hw as [Hw _]; apply andb_prop in Hw as [Hw _]; split; try (rewrite Hw; reflexivity); eexists; eexists; split; reflexivity. }
          rewrite <- app_assoc. unfold type_name. destruct k; cbn [app].
          -- change (String.eqb "const" "const") with true. cbv beta iota. apply (X true).
          -- destruct (X false) as (X1 & w & r & X2 & X3). rewrite X2 in *. rewrite X3. exact X1.
  Qed.

  Lemma right_pointers : forall ps lp, Forall (fun d => match d with CdPtr _ _ _ => True | _ => False end) ps ->
    forall w, run tabw (LineEndingStyle_as_str e) (write_right c ps lp) w = Some w.
  Proof. induction ps as [|p ps IH]; intros lp Hp w; [reflexivity|]. inversion Hp; subst. destruct p; try contradiction. cbn. apply IH. assumption. Qed.

  Lemma type_pointers_read : forall ptrs base rest, exists n, forall m, n <= m ->
    type_pointers (pointer_words (dialect_of c)) m base (concat (map (fun p => Op "*" :: map Id (qualifiers c (fst p) (snd p) false)) ptrs) ++ Op ")" :: rest)
    = Some (pointers_of ptrs base, Op ")" :: rest).
  Proof.
    induction ptrs as [|p ptrs IH]; intros base rest.
    - exists 1. intros m L. step m L. reflexivity.
    - destruct (IH (CPtr false (qualifiers c (fst p) (snd p) false) base) rest) as (n & Hn). exists (S n). intros m L. step m L.
      cbn [map concat app type_pointers]. rewrite <- app_assoc.
      assert (Q : forall ws us, (forall w, In w ws -> mem_str w ("const" :: pointer_words (dialect_of c)) = true) -> (match us with Id _ :: _ => False | _ => True end) ->
                  type_qualifiers (pointer_words (dialect_of c)) (map Id ws ++ us) = (ws, us)).
      { induction ws as [|w ws IHw]; intros us Hw Hus; [destruct us as [|[]]; try contradiction; reflexivity|].
        cbn [map app type_qualifiers]. rewrite (Hw w (or_introl eq_refl)), IHw; [reflexivity| |exact Hus]. intros x Hx. apply Hw. right. exact Hx. }
      rewrite Q; [apply Hn; lia| |].
      + intros w Hw. apply mem_str_In. unfold qualifiers in Hw. destruct no_cython as [_ Hcy]. rewrite Hcy in Hw. apply in_app_or in Hw as [Hw | Hw].
        * destruct (fst p); [|contradiction]. destruct Hw as [<- | []]. left. reflexivity.
        * right. cbn [dialect_of pointer_words]. apply in_or_app. destruct (snd p); [right|left]; exact Hw.
      + destruct ptrs as [|? ?]; [exact Logic.I|]. exact Logic.I.
  Qed.

  (** A type in a cast. *)
  Lemma cast_written : forall t, cast_type b types t = true -> exists p us, write_type c t = Some p /\ well_bracketed p
    /\ Writes p after_type not_eq us /\ PType types (pointer_words (dialect_of c)) us (c_type c false t).
  Proof.
    intros t Ht. destruct (simple_chain t Ht false []) as (q & name & ct & ptrs & base & E1 & E2 & us & E3 & E4 & E5).
    unfold write_type, from_type, CDecl_new. rewrite E1. cbn [app]. eexists. exists (us ++ concat (map (fun p => Op "*" :: map Id (qualifiers c (fst p) (snd p) false)) ptrs))%list.
    split; [reflexivity|]. split; [apply wb_cdecl|]. split; [|split].
    - rewrite CDecl_write_eq. destruct no_cython as [Hn _]. rewrite Hn. cbn [is_nil negb]. rewrite rev_involutive.
      assert (PL : Writes (write_left c (map (fun p => CdPtr (fst p) (snd p) false) ptrs)) after_type after_type (concat (map (fun p => Op "*" :: map Id (qualifiers c (fst p) (snd p) false)) ptrs))).
      { clear - Hlang Hattrs. induction ptrs as [|p ptrs IH]; [apply writes_ret|]. cbn [map write_left concat write_left1]. eapply writes_seq; [apply writes_pointer|exact IH]. }
      assert (PR : Writes (write_right c (rev (map (fun p => CdPtr (fst p) (snd p) false) ptrs)) false) after_type after_type []).
      { intros w w' R. rewrite right_pointers in R.
        - inversion R; subst. exists "". rewrite sapp_nil_r. split; [reflexivity|]. intros r ts Fr L. split; assumption.
        - apply Forall_rev, Forall_map, Forall_forall. intros x _. exact Logic.I. }
      assert (LR : Writes (write_left c (map (fun p => CdPtr (fst p) (snd p) false) ptrs) ;; write_right c (rev (map (fun p => CdPtr (fst p) (snd p) false) ptrs)) false)
                     after_type after_type (concat (map (fun p => Op "*" :: map Id (qualifiers c (fst p) (snd p) false)) ptrs))).
      { rewrite <- (app_nil_r (concat _)). eapply writes_seq; [exact PL|exact PR]. }
      pose proof (writes_seq tabw e _ _ _ _ _ _ _ E3 LR) as W. intros w w' R. apply (W w w'). rewrite <- R. clear.
      apply run_three.
    - intros rest. rewrite <- app_assoc. destruct ptrs as [|p ptrs]; [apply (E4 rest)|]. cbn [map concat app]. rewrite <- app_assoc. apply E4.
    - intros rest. rewrite E2. destruct (type_pointers_read ptrs base rest) as (n & Hn). exists n. intros m L. rewrite <- app_assoc.
      rewrite <- (Hn m L). destruct ptrs as [|p ptrs]; [apply E5; auto|]. cbn [map concat app]. rewrite <- !app_assoc. cbn [app]. apply E5. auto.
  Qed.
End Config.
