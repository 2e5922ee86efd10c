(** The tokens a writing program produces, whatever the layout. *)
Require Import Coq.Strings.String Coq.Strings.Ascii Coq.Lists.List Coq.Bool.Bool Coq.Arith.Arith.
From Verif Require Import Base P_Base S_Lex M_Config M_Writer P_Writer S_Decl.
Import ListNotations.
Open Scope string_scope.

Lemma scan_blank : forall a w r, blank a = true -> scan w (String a r) = (flush w ++ scan "" r)%list.
Proof. intros a w r E. cbn [scan]. rewrite E. reflexivity. Qed.
Lemma scan_spaces : forall n s, scan "" (srepeat " " n ++ s) = scan "" s.
Proof. induction n as [|n IH]; intros s; [reflexivity|]. cbn [srepeat]. rewrite sapp_assoc. change (scan "" (" " ++ (srepeat " " n ++ s)) = scan "" s). cbn. apply IH. Qed.
Lemma scan_solid : forall s w r, solid s = true -> scan w (s ++ r) = scan (w ++ s) r.
Proof.
  induction s as [|a s IH]; intros w r Hs; cbn [append]; [rewrite sapp_nil_r; reflexivity|].
  cbn [solid] in Hs. apply andb_prop in Hs as [Ha Hs]. apply andb_prop in Ha as [Hb Hp].
  cbn [scan]. apply negb_true_iff in Hb, Hp. rewrite Hb, Hp, IH by exact Hs. f_equal. rewrite sapp_assoc. reflexivity.
Qed.
Lemma scan_eol : forall e w r, scan w (LineEndingStyle_as_str e ++ r) = (flush w ++ scan "" r)%list.
Proof. intros [| | |] w r; reflexivity. Qed.
Lemma flush_app : forall w, w <> "" -> flush w = [W w].
Proof. intros w Hw. unfold flush. destruct (String.eqb_spec w ""); [contradiction|reflexivity]. Qed.
Lemma word_solid : forall w, word w = true -> solid w = true /\ w <> "".
Proof. intros w Hw. apply andb_prop in Hw as [E ->]. split; [reflexivity|]. intros ->. discriminate. Qed.
Lemma flush_word : forall w, word w = true -> flush w = [W w].
Proof. intros w Hw. apply flush_app, word_solid, Hw. Qed.

Section Lexing.
  Variables (tabw : nat) (e : LineEndingStyle).
  Notation run := (run tabw (LineEndingStyle_as_str e)).
  Local Open Scope prog_scope.

  (** From a position inside the word [b], [p] writes the tokens [ts] and leaves the word [b']. *)
  Definition lexes (p : prog) (b : string) (ts : list tok) (b' : string) : Prop :=
    forall w w', run p w = Some w' -> (w_started w = false -> b = "") ->
    exists s, w_out w' = w_out w ++ s /\ (forall r, scan b (s ++ r) = (ts ++ scan b' r)%list) /\ (w_started w' = false -> b' = "").
  (** The same, when what follows ends the last word. *)
  Definition lexf (p : prog) (b : string) (us : list tok) : Prop :=
    forall w w', run p w = Some w' -> (w_started w = false -> b = "") ->
    exists s ts b', w_out w' = w_out w ++ s /\ (forall r, scan b (s ++ r) = (ts ++ scan b' r)%list) /\ (w_started w' = false -> b' = "")
      /\ us = (ts ++ flush b')%list.
  (** [p] starts with something that ends a word. *)
  Definition starter (p : prog) (us : list tok) : Prop := forall b, lexf p b (flush b ++ us).

  Lemma lexes_lexf : forall p b ts b', lexes p b ts b' -> lexf p b (ts ++ flush b').
  Proof. intros p b ts b' Hp w w' R Hw. destruct (Hp w w' R Hw) as (s & O & Hs & Hb). exists s, ts, b'. repeat split; assumption. Qed.
  Lemma lexf_eq : forall p b us vs, lexf p b us -> us = vs -> lexf p b vs.
  Proof. intros p b us vs Hp <-. exact Hp. Qed.
  Lemma lexes_seq : forall p q b ts b1 us b2, lexes p b ts b1 -> lexes q b1 us b2 -> lexes (p ;; q) b (ts ++ us) b2.
  Proof.
    intros p q b ts b1 us b2 Hp Hq w w' R Hw. rewrite run_seq in R. destruct (run p w) as [w1|] eqn:E; [|discriminate].
    destruct (Hp w w1 E Hw) as (s1 & O1 & H1 & S1). destruct (Hq w1 w' R S1) as (s2 & O2 & H2 & S2).
    exists (s1 ++ s2). split; [rewrite O2, O1, sapp_assoc; reflexivity|]. split; [|exact S2].
    intros r. rewrite sapp_assoc, H1, H2, app_assoc. reflexivity.
  Qed.
  Lemma lexes_then : forall p q b ts b1 us, lexes p b ts b1 -> lexf q b1 us -> lexf (p ;; q) b (ts ++ us).
  Proof.
    intros p q b ts b1 us Hp Hq w w' R Hw. rewrite run_seq in R. destruct (run p w) as [w1|] eqn:E; [|discriminate].
    destruct (Hp w w1 E Hw) as (s1 & O1 & H1 & S1). destruct (Hq w1 w' R S1) as (s2 & ts2 & b2 & O2 & H2 & S2 & ->).
    exists (s1 ++ s2), (ts ++ ts2)%list, b2. split; [rewrite O2, O1, sapp_assoc; reflexivity|]. split; [|split; [exact S2|apply app_assoc]].
    intros r. rewrite sapp_assoc, H1, H2, app_assoc. reflexivity.
  Qed.
  Lemma lexf_starter : forall p q b us vs, lexf p b us -> starter q vs -> lexf (p ;; q) b (us ++ vs).
  Proof.
    intros p q b us vs Hp Hq w w' R Hw. rewrite run_seq in R. destruct (run p w) as [w1|] eqn:E; [|discriminate].
    destruct (Hp w w1 E Hw) as (s1 & ts1 & b1 & O1 & H1 & S1 & ->). destruct (Hq b1 w1 w' R S1) as (s2 & ts2 & b2 & O2 & H2 & S2 & E2).
    exists (s1 ++ s2), (ts1 ++ ts2)%list, b2. split; [rewrite O2, O1, sapp_assoc; reflexivity|].
    split; [|split; [exact S2|rewrite <- !app_assoc, E2; reflexivity]].
    intros r. rewrite sapp_assoc, H1, H2, app_assoc. reflexivity.
  Qed.
  Lemma starter_seq : forall p q us vs, starter p us -> starter q vs -> starter (p ;; q) (us ++ vs).
  Proof. intros p q us vs Hp Hq b. rewrite app_assoc. apply lexf_starter; [apply Hp|exact Hq]. Qed.
  Lemma starter_ret : starter PRet [].
  Proof.
    intros b w w' R Hw. inversion R; subst. exists "", [], b. rewrite sapp_nil_r, app_nil_r. repeat split; assumption.
  Qed.
  Lemma lexes_ret : forall b, lexes PRet b [] b.
  Proof. intros b w w' R Hw. inversion R; subst. exists "". rewrite sapp_nil_r. repeat split; assumption. Qed.

  (** A written text: its tokens are what the scanner says. *)
  Lemma lexes_write : forall s b ts b', (forall r, scan b (s ++ r) = (ts ++ scan b' r)%list) -> (s = "" -> b' = b) -> lexes (write s) b ts b'.
  Proof.
    intros s b ts b' Hs He w w' R Hw. cbn in R. unfold inner_write in R. destruct (String.eqb_spec s "") as [->|Hne].
    - inversion R; subst. exists "". rewrite sapp_nil_r. split; [reflexivity|]. split; [exact Hs|]. rewrite He by reflexivity. exact Hw.
    - destruct (w_started w) eqn:Es.
      + inversion R; subst. cbn. exists s. split; [reflexivity|]. split; [exact Hs|discriminate].
      + destruct (w_spaces w) as [|sp r]; [discriminate|]. inversion R; subst. cbn. rewrite (Hw eq_refl) in *.
        eexists. split; [reflexivity|]. split; [|discriminate]. intros x. rewrite sapp_assoc, scan_spaces. apply Hs.
  Qed.
  Lemma lexes_newline : forall b, lexes newline b (flush b) "".
  Proof.
    intros b w w' R Hw. cbn in R. inversion R; subst. cbn. exists (LineEndingStyle_as_str e). split; [reflexivity|].
    split; [intros r; apply scan_eol|reflexivity].
  Qed.
  Lemma lexes_solid : forall s b, solid s = true -> lexes (write s) b [] (b ++ s).
  Proof. intros s b Hs. apply lexes_write; [intros r; apply scan_solid, Hs|]. intros ->. apply sapp_nil_r. Qed.
  Lemma lexes_solid_space : forall s, word s = true -> lexes (write (s ++ " ")) "" [W s] "".
  Proof.
    intros s Hs. destruct (word_solid s Hs) as [Hs' Hne]. apply lexes_write.
    - intros r. rewrite sapp_assoc, scan_solid by exact Hs'. cbn [append]. rewrite scan_blank by reflexivity. rewrite flush_word by exact Hs. reflexivity.
    - intros E. destruct s; discriminate.
  Qed.
  Lemma lexes_punct : forall a b, blank a = false -> punct a = true -> lexes (write (String a "")) b (flush b ++ [P a]) "".
  Proof.
    intros a b Hb Hp. apply lexes_write; [|discriminate]. intros r. cbn [append scan]. rewrite Hb, Hp, <- app_assoc. reflexivity.
  Qed.
  Lemma starter_lexes : forall p us, (forall b, lexes p b (flush b ++ us) "") -> starter p us.
  Proof. intros p us Hp b. eapply lexf_eq; [apply lexes_lexf, Hp|]. apply app_nil_r. Qed.
  Lemma starter_punct : forall a, blank a = false -> punct a = true -> starter (write (String a "")) [P a].
  Proof. intros a Hb Hp. apply starter_lexes. intros b. apply lexes_punct; assumption. Qed.

  (** Pushing and popping indentation writes nothing. *)
  Lemma lexf_align : forall k b us, (forall n, lexf (k n) b us) -> lexf (PAlign k) b us.
  Proof. intros k b us Hk w w' R Hw. cbn in R. destruct (align w) as [n|]; [|discriminate]. apply (Hk n w w' R Hw). Qed.
  Lemma lexes_push : forall n b, lexes (push_set_spaces n) b [] b.
  Proof. intros n b w w' R Hw. cbn in R. inversion R; subst. exists "". cbn. rewrite sapp_nil_r. repeat split; assumption. Qed.
  Lemma starter_pop : starter pop [].
  Proof.
    intros b w w' R Hw. cbn in R. unfold pop_tab in R. destruct (w_spaces w); [discriminate|]. inversion R; subst. cbn.
    exists "", [], b. rewrite sapp_nil_r, app_nil_r. repeat split; assumption.
  Qed.
  (** A trial layout, when both layouts have the same tokens. *)
  Lemma lexf_try : forall f m g us b, lexf f b us -> lexf g b us -> lexf (PTry f m (fun ok => if ok then PRet else g)) b us.
  Proof.
    intros f m g us b Hf Hg w w' R Hw. cbn [M_Writer.run] in R. destruct (Nat.ltb m (w_len w)); [apply (Hg w w' R Hw)|].
    destruct (run f (measurer w)) as [mw|] eqn:Em; [|discriminate]. destruct (Nat.ltb m (w_max mw)); [apply (Hg w w' R Hw)|].
    destruct (Hf _ _ Em Hw) as (s & ts & b' & O & Hs & S1 & E). cbn in O. rewrite O in R. exists s, ts, b'.
    unfold inner_write in R. destruct (String.eqb_spec s "") as [E0|Hne].
    - inversion R; subst. cbn. rewrite E0, sapp_nil_r. rewrite E0 in Hs. repeat split; try assumption. discriminate.
    - inversion R; subst. cbn. repeat split; try assumption. discriminate.
  Qed.
End Lexing.
