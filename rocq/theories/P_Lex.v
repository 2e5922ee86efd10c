Require Import Coq.Strings.String Coq.Strings.Ascii Coq.Lists.List Coq.Bool.Bool Coq.Arith.Arith Lia.
From Verif Require Import Base P_Base S_Lex.
Import ListNotations.
Open Scope string_scope.

Lemma wordchar_not_blank : forall a, wordchar a = true -> blank a = false.
Proof.
  intros a. unfold wordchar, blank. cbv zeta.
  destruct (blank a) eqn:B; unfold blank in B; cbv zeta in B; auto.
  intro H. exfalso.
  repeat rewrite ?orb_true_iff, ?andb_true_iff, ?Nat.leb_le, ?Nat.eqb_eq in *. lia.
Qed.

Lemma lex_space : forall r, lex (String " " r) = lex r.
Proof. reflexivity. Qed.

Lemma lex_blank : forall a r, blank a = true -> lex (String a r) = lex r.
Proof. intros a r H. cbn. now rewrite H. Qed.

Lemma lex_head_word : forall w r, is_word w = true -> head_wordchar r = false ->
  lex (w ++ r) = Word w :: lex r.
Proof.
  induction w as [|a w IH]; intros r Hw Hr; [discriminate|].
  unfold is_word in Hw. cbn in Hw. apply andb_prop in Hw as [Ha Hw].
  cbn. rewrite (wordchar_not_blank a Ha), Ha.
  destruct w as [|b w].
  - cbn. rewrite Hr. destruct (lex r) as [|[x|x] ts]; reflexivity.
  - rewrite IH; [|unfold is_word; cbn; exact Hw|exact Hr].
    cbn in Hw. apply andb_prop in Hw as [Hb _]. cbn. now rewrite Hb.
Qed.

Definition head_no_op2 (a : ascii) (r : string) : bool :=
  match r with "" => true | String b _ => negb (op2 a b) end.

Lemma lex_sym1 : forall a r, blank a = false -> wordchar a = false -> head_no_op2 a r = true ->
  lex (String a r) = Sym (String a "") :: lex r.
Proof.
  intros a r Hb Hw Ho. destruct r as [|b r]; cbn -[op2]; rewrite Hb, Hw; [reflexivity|].
  unfold head_no_op2 in Ho. destruct (op2 a b); [discriminate|reflexivity].
Qed.

Lemma ident_word : forall s, is_ident s = true -> is_word s = true.
Proof.
  destruct s as [|a s]; [discriminate|]. unfold is_ident, is_word. cbn.
  intro H. apply andb_prop in H as [_ H]. exact H.
Qed.

Lemma is_word_app : forall a b, is_word a = true -> is_word b = true -> is_word (a ++ b) = true.
Proof.
  intros a b Ha Hb. unfold is_word in *. apply andb_prop in Ha as [A1 A2], Hb as [B1 B2].
  destruct a as [|x a]; [discriminate|]. cbn.
  change (all_wordchars (String x a ++ b) = true).
  revert A2. generalize (String x a) as s. induction s as [|y s IH]; cbn; intro H; [exact B2|].
  apply andb_prop in H as [H1 H2]. rewrite H1. cbn. auto.
Qed.

Lemma all_wordchars_app : forall a b, all_wordchars (a ++ b) = all_wordchars a && all_wordchars b.
Proof. induction a as [|x a IH]; intro b; cbn; [reflexivity|]. now rewrite IH, andb_assoc. Qed.

Lemma head_wordchar_word : forall w r, is_word w = true -> head_wordchar (w ++ r) = true.
Proof.
  destruct w as [|a w]; [discriminate|]. unfold is_word. cbn. intros r H.
  now apply andb_prop in H as [H _].
Qed.

(** No two-character operator starts or ends with a word character or blank. *)
Lemma op2_second_plain : forall a b, wordchar b = true \/ blank b = true -> op2 a b = false.
Proof.
  intros a b H. unfold op2. apply not_true_is_false. intro E.
  apply existsb_exists in E as (o & I & E). apply String.eqb_eq in E.
  cbn in I. destruct H as [H|H];
  repeat (destruct I as [I|I]; [rewrite <- I in E; injection E as E1 E2; rewrite <- E2 in H; vm_compute in H; discriminate|]);
  contradiction.
Qed.

Lemma head_no_op2_word : forall a w r, is_word w = true -> head_no_op2 a (w ++ r) = true.
Proof.
  destruct w as [|b w]; [discriminate|]. unfold is_word. cbn. intros r H.
  apply andb_prop in H as [H _]. change (negb (op2 a b) = true). rewrite op2_second_plain; auto.
Qed.
