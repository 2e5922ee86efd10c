(** The tokens of text put together from words and punctuators. *)
Require Import Coq.Strings.String Coq.Strings.Ascii Coq.Lists.List Coq.Bool.Bool Coq.Arith.Arith Coq.micromega.Lia.
From Verif Require Import Base P_Base S_Lex S_Expr S_Shown.
From Verif Require P_Expr.
Import ListNotations.
Open Scope string_scope.

Definition loud (a : ascii) : bool := existsb (Ascii.eqb a) ["-"; "+"; "<"; ">"; "="; "&"; "|"; ":"; "#"; "."]%char.
Definition quote (a : ascii) : bool := Ascii.eqb a "'".
Notation first_in := P_Expr.first_in.

(** Words, punctuators and single spaces. *)
Inductive chunk := W (w : string) | P (p : string) | B.
Definition free (p : string) : bool :=
  mem_str p ["("; ")"; "{"; "}"; "["; "]"; ";"; ","; "~"; "?"; "=="; "!="; "<="; ">="; "&&"; "||"; "::"; "->"; "|="; "&="; "^="].
Definition single (p : string) : bool := mem_str p ["."; "&"; "*"; "+"; "-"; "<"; ">"; "^"; "|"; ":"; "="; "!"; "%"].
Definition str (x : chunk) : string := match x with W w => w | P p => p | B => " " end.
Fixpoint text (cs : list chunk) : string := match cs with [] => "" | [x] => str x | x :: r => str x ++ text r end.
Fixpoint toks (cs : list chunk) : list etok := match cs with [] => [] | W w :: r => Id w :: toks r | P p :: r => Op p :: toks r | B :: r => toks r end.
Definition loud_start (cs : list chunk) : bool := match cs with P p :: _ => first_in loud p | _ => false end.
Fixpoint good (cs : list chunk) : bool :=
  match cs with
  | [] => true
  | W w :: r => is_ident w && (match r with W _ :: _ => false | _ => true end) && good r
  | P p :: r => (free p || single p && negb (loud_start r)) && good r
  | B :: r => good r
  end.
Definition ends_in_word (cs : list chunk) : bool := match last cs B with W _ => true | _ => false end.
Definition ends_in_op (cs : list chunk) : bool := match last cs B with P p => single p | _ => false end.

Lemma lexes_free : forall p s ts, free p = true -> Lexes s ts -> Lexes (p ++ s) (Op p :: ts).
Proof.
  intros p s ts F L. unfold free in F. apply P_Base.mem_str_In in F.
  repeat (destruct F as [<-|F]; [eapply lex_token; [reflexivity|exact L]|]). destruct F.
Qed.
Lemma lexes_single : forall p s ts, single p = true -> first_in loud s = false -> Lexes s ts -> Lexes (p ++ s) (Op p :: ts).
Proof.
  intros p s ts F Q L. eapply lex_token; [|exact L]. clear L. unfold single in F. apply P_Base.mem_str_In in F. destruct s as [|a s].
  - repeat (destruct F as [<-|F]; [reflexivity|]). destruct F.
  - cbn in Q. destruct a as [[|] [|] [|] [|] [|] [|] [|] [|]]; try discriminate Q; clear Q; repeat (destruct F as [<-|F]; [reflexivity|]); destruct F.
Qed.
Lemma lexes_word : forall w s ts, is_ident w = true -> first_in wordchar s = false -> first_in quote s = false -> Lexes s ts -> Lexes (w ++ s) (Id w :: ts).
Proof. intros w s ts I A Q L. apply P_Expr.next_word_prefix; assumption. Qed.

Lemma text_cons : forall x r, text (x :: r) = str x ++ text r.
Proof. intros x [|y r]; [symmetry; apply sapp_nil_r|reflexivity]. Qed.
Lemma ident_start : forall w, is_ident w = true -> exists a r, w = String a r /\ wordchar a = true.
Proof. intros [|a r] I; [discriminate|]. cbn in I. apply andb_prop in I as [_ I]. apply andb_prop in I as [I _]. eauto. Qed.
Lemma wordchar_calm : forall a, wordchar a = true -> loud a = false /\ quote a = false.
Proof. intros a. destruct a as [[|] [|] [|] [|] [|] [|] [|] [|]]; vm_compute; intros; split; congruence. Qed.
Lemma blank_calm : forall a, blank a = true -> loud a = false /\ quote a = false /\ wordchar a = false.
Proof. intros a. destruct a as [[|] [|] [|] [|] [|] [|] [|] [|]]; vm_compute; intros; repeat split; congruence. Qed.
Lemma op_start : forall p, free p || single p = true -> exists a r, p = String a r /\ wordchar a = false /\ quote a = false.
Proof.
  intros p F. apply orb_prop in F as [F|F]; apply P_Base.mem_str_In in F; repeat (destruct F as [<-|F]; [eexists; eexists; repeat split; reflexivity|]); destruct F.
Qed.
Lemma good_head : forall x r, good (x :: r) = true -> match x with W w => is_ident w = true | P p => free p || single p = true | B => True end /\ good r = true.
Proof.
  intros [w|p|] r G; cbn [good] in G; repeat rewrite andb_true_iff in G.
  - tauto.
  - destruct G as [G ?]. split; [|assumption]. destruct (free p); [reflexivity|]. cbn in *. apply andb_prop in G as [-> _]. reflexivity.
  - split; [exact Logic.I|exact G].
Qed.
(** The first character. *)
Lemma start_of : forall x r s, good (x :: r) = true -> exists a z, text (x :: r) ++ s = String a z /\ quote a = false
  /\ (wordchar a = true -> exists w, x = W w) /\ (loud a = true -> loud_start (x :: r) = true).
Proof.
  intros x r s G. apply good_head in G as [G _]. rewrite text_cons, sapp_assoc. destruct x as [w|p|].
  - destruct (ident_start w G) as (a & z & -> & A). destruct (wordchar_calm a A) as [L Q]. exists a, (z ++ text r ++ s)%string. repeat split; [exact Q|eauto|congruence].
  - destruct (op_start p G) as (a & z & -> & A & Q). exists a, (z ++ text r ++ s)%string. repeat split; [exact Q|congruence|intro L; exact L].
  - exists " "%char, (text r ++ s)%string. repeat split; discriminate.
Qed.
Lemma reads_text : forall cs r ts, good cs = true -> (ends_in_word cs = true -> first_in wordchar r = false) -> first_in quote r = false ->
  (ends_in_op cs = true -> first_in loud r = false) -> Lexes r ts -> Lexes (text cs ++ r) (toks cs ++ ts).
Proof.
  induction cs as [|x cs IH]; intros r ts G EW Q EO L; [exact L|]. destruct (good_head _ _ G) as [X G'].
  assert (L' : Lexes (text cs ++ r) (toks cs ++ ts)).
  { apply IH; [exact G'| |exact Q| |exact L]; intro E; [apply EW|apply EO]; destruct cs; [discriminate E|exact E|discriminate E|exact E]. }
  rewrite text_cons, sapp_assoc. destruct x as [w|p|]; cbn [str toks app].
  - apply lexes_word; [exact X| | |exact L'].
    + destruct cs as [|y cs]; [apply EW; reflexivity|]. destruct (start_of _ _ r G') as (a & z & -> & _ & A & _). cbn. destruct (wordchar a); [|reflexivity].
      destruct (A eq_refl) as (w' & ->). cbn in G. rewrite andb_false_r in G. discriminate.
    + destruct cs as [|y cs]; [exact Q|]. destruct (start_of _ _ r G') as (a & z & -> & A & _). exact A.
  - destruct (free p) eqn:F; [exact (lexes_free _ _ _ F L')|]. cbn [good] in G. rewrite F in G. apply andb_true_iff in G as [G _]. apply (andb_true_iff (single p)) in G as [S1 G].
    apply lexes_single; [exact S1| |exact L']. destruct cs as [|y cs]; [apply EO; exact S1|].
    destruct (start_of _ _ r G') as (a & z & -> & _ & _ & A). change (loud a = false). destruct (loud a); [|reflexivity]. rewrite (A eq_refl) in G. discriminate.
  - eapply lex_skip; [reflexivity|exact L'].
Qed.

(** ** Pieces *)
Fixpoint linked (css : list (list chunk)) : bool :=
  match css with
  | [] => true
  | cs :: r => match cs with [] => false | _ => true end && good cs && negb (ends_in_op cs && match r with d :: _ => loud_start d | [] => false end) && linked r
  end.
Lemma blanks_skip : forall a s ts, all_blank a = true -> Lexes s ts -> Lexes (a ++ s) ts.
Proof.
  induction a as [|x a IH]; intros s ts A L; [exact L|]. cbn in A. apply andb_prop in A as [X A]. eapply lex_skip; [|exact (IH _ _ A L)].
  cbn. rewrite X. reflexivity.
Qed.
Lemma ends_word_app : forall s r, r <> "" -> ends_word (s ++ r) = ends_word r.
Proof.
  induction s as [|a s IH]; intros r N; [reflexivity|]. cbn [append]. rewrite <- (IH r N). cbn. destruct (s ++ r)%string eqn:E; [|reflexivity].
  destruct s; [cbn in E; congruence|discriminate].
Qed.
Lemma all_words_end : forall w, w <> "" -> all_wordchars w = true -> ends_word w = true.
Proof.
  induction w as [|a w IH]; intros N A; [congruence|]. cbn in A. apply andb_prop in A as [X A]. destruct w as [|b w]; [exact X|].
  change (ends_word (String b w) = true). apply IH; [discriminate|exact A].
Qed.
Lemma ident_ends : forall w, is_ident w = true -> ends_word w = true.
Proof.
  intros w I. apply all_words_end; [destruct w; [discriminate|discriminate]|]. destruct w as [|a w]; [discriminate|]. cbn [is_ident] in I.
  apply andb_prop in I as [_ I]. exact I.
Qed.
Lemma text_ends : forall cs, good cs = true -> ends_in_word cs = true -> ends_word (text cs) = true.
Proof.
  induction cs as [|x cs IH]; intros G E; [discriminate|]. apply good_head in G as [X G]. destruct cs as [|y cs].
  - destruct x; try discriminate E. exact (ident_ends _ X).
  - rewrite text_cons. assert (T : text (y :: cs) <> "").
    { destruct (start_of _ _ "" G) as (a & z & T & _). rewrite sapp_nil_r in T. rewrite T. discriminate. }
    rewrite (ends_word_app _ _ T). exact (IH G E).
Qed.
Lemma lead : forall cs css t, linked (cs :: css) = true -> made_of t (map (fun x => say (text x)) (cs :: css)) ->
  first_in quote t = false /\ (loud_start cs = false -> first_in loud t = false).
Proof.
  intros cs css t G (a & s & r & -> & A & -> & _). destruct a as [|x a].
  - cbn in G. repeat rewrite andb_true_iff in G. destruct G as (((N & G) & _) & _). destruct cs as [|x cs]; [discriminate|].
    destruct (start_of _ _ r G) as (y & z & T & Q & _ & K). cbn [append]. rewrite T. split; [exact Q|]. intro E. change (loud y = false). destruct (loud y); [rewrite (K eq_refl) in E; discriminate|reflexivity].
  - cbn in A. apply andb_prop in A as [X _]. destruct (blank_calm x X) as (L & Q & _). split; [exact Q|intros _; exact L].
Qed.
Theorem pieces_lex : forall css t, linked css = true -> made_of t (map (fun x => say (text x)) css) -> Lexes t (flat_map toks css).
Proof.
  induction css as [|cs css IH]; intros t G M.
  - cbn in M. rewrite <- (sapp_nil_r t). apply blanks_skip; [exact M|constructor].
  - assert (G0 := G). cbn in G0. repeat rewrite andb_true_iff in G0. destruct G0 as (((N & GC) & K) & GR).
    destruct M as (a & s & r & -> & A & -> & AP & M). apply (blanks_skip _ _ _ A). cbn [flat_map].
    assert (R : first_in quote r = false /\ (ends_in_op cs = true -> first_in loud r = false)).
    { destruct css as [|d css].
      - cbn in M. destruct r as [|x r]; [split; reflexivity|]. cbn in M. apply andb_prop in M as [X _]. destruct (blank_calm x X) as (L & Q & _). split; [exact Q|intros _; exact L].
      - destruct (lead _ _ _ GR M) as [Q L]. split; [exact Q|]. intro E. apply L. rewrite E in K. cbn in K. apply negb_true_iff in K. exact K. }
    destruct R as [Q L]. apply reads_text; [exact GC| |exact Q|exact L|exact (IH _ GR M)].
    intro E. unfold apart in AP. rewrite (text_ends _ GC E) in AP. cbn in AP. apply negb_true_iff in AP. exact AP.
Qed.
