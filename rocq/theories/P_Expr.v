(** Lexing and reading written expressions. *)
Require Import Coq.Strings.String Coq.Strings.Ascii Coq.Lists.List Coq.Bool.Bool Coq.Arith.Arith Coq.micromega.Lia.
From Verif Require Import Base P_Base S_Lex M_Config M_Writer P_Writer S_Decl S_Expr.
Import ListNotations.
Open Scope string_scope.

(** ** Lexing *)
Definition first_in (f : ascii -> bool) (s : string) : bool := match s with "" => false | String a _ => f a end.
Definition ender (a : ascii) : bool := blank a || existsb (Ascii.eqb a) [")"; ","; ";"; "}"]%char.
(** What may follow a value. *)
Definition follows (s : string) : Prop := s = "" \/ first_in ender s = true.
(** What may follow a minus sign. *)
Definition calm (s : string) : Prop := first_in (fun a => existsb (Ascii.eqb a) ["-"; "="; ">"]%char) s = false.

Lemma lexes_once : forall s ts us, Lexes s ts -> Lexes s us -> ts = us.
Proof.
  intros s ts us L. revert us. induction L as [|s r ts E L IH|s t r ts E L IH]; intros us U; inversion U; subst; try discriminate; try congruence.
  - rewrite E in H. inversion H. subst. apply IH. assumption.
  - rewrite E in H. inversion H. subst. f_equal. apply IH. assumption.
Qed.
Lemma lexes_blanks : forall n s ts, Lexes s ts -> Lexes (srepeat " " n ++ s) ts.
Proof. induction n as [|n IH]; intros s ts L; [exact L|]. cbn [srepeat]. rewrite sapp_assoc. eapply lex_skip; [reflexivity|]. apply IH, L. Qed.

Lemma span_app : forall f w r, (forall a, In a (list_ascii_of_string w) -> f a = true) -> first_in f r = false -> span f (w ++ r) = (w, r).
Proof.
  intros f w r Hw Hr. induction w as [|a w IH].
  - cbn [append]. destruct r as [|x r]; [reflexivity|]. cbn in *. rewrite Hr. reflexivity.
  - cbn. rewrite (Hw a) by (left; reflexivity). rewrite IH; [reflexivity|]. intros x Hx. apply Hw. right. exact Hx.
Qed.
Lemma all_wordchars_In : forall w, all_wordchars w = true -> forall a, In a (list_ascii_of_string w) -> wordchar a = true.
Proof. induction w as [|x w IH]; intros E a Ha; [destruct Ha|]. cbn in E. apply andb_prop in E as [E1 E2]. destruct Ha as [<-|Ha]; [exact E1|]. apply IH; assumption. Qed.

Ltac ascii_cases a := destruct a as [[|] [|] [|] [|] [|] [|] [|] [|]].
Lemma wordchar_not_blank : forall a, wordchar a = true -> blank a = false.
Proof. intros a. ascii_cases a; vm_compute; intros; congruence. Qed.
Lemma wordchar_not_slash : forall a, wordchar a = true -> a <> "/"%char.
Proof. intros a Ha ->. discriminate. Qed.
Lemma digit_wordchar : forall a, digit a = true -> wordchar a = true.
Proof. intros a. ascii_cases a; vm_compute; intros; congruence. Qed.
Lemma ender_not : forall a, ender a = true -> wordchar a = false /\ Ascii.eqb a "'" = false /\ Ascii.eqb a "." = false /\ sign a = false.
Proof. intros a. ascii_cases a; vm_compute; intros; repeat split; congruence. Qed.
Lemma follows_not : forall r, follows r -> first_in wordchar r = false /\ first_in (fun a => Ascii.eqb a "'") r = false /\ first_in (fun a => Ascii.eqb a ".") r = false /\ first_in sign r = false.
Proof. intros r [-> | E]; [repeat split|]. destruct r as [|a r]; [repeat split|]. apply ender_not, E. Qed.
Lemma starts_comment : forall a s, a <> "/"%char -> starts_with "/*" (String a s) = false.
Proof.
  intros a s Ha. change (starts_with "/*" (String a s)) with (if Ascii.eqb "/" a then starts_with "*" s else false).
  destruct (Ascii.eqb_spec "/" a) as [E|E]; [congruence|]. reflexivity.
Qed.

Lemma next_word : forall w r, is_ident w = true -> first_in wordchar r = false -> first_in (fun a => Ascii.eqb a "'") r = false ->
  next (w ++ r) = Some (Some (Id w), r).
Proof.
  intros w r Hw H1 H2. destruct w as [|a w]; [discriminate|]. cbn [is_ident] in Hw. apply andb_prop in Hw as [Hd Hw]. apply negb_true_iff in Hd.
  pose proof (all_wordchars_In _ Hw) as HI. assert (Ha : wordchar a = true) by (apply HI; left; reflexivity).
  unfold next. cbn [append]. rewrite (wordchar_not_blank a Ha), (starts_comment a _ (wordchar_not_slash a Ha)), Hd, Ha.
  change (String a (w ++ r)) with (String a w ++ r). rewrite span_app by assumption.
  destruct r as [|x r]; [reflexivity|]. cbn in H2. destruct x as [[|] [|] [|] [|] [|] [|] [|] [|]]; try reflexivity. discriminate.
Qed.
Lemma next_word_prefix : forall w r, is_ident w = true -> first_in wordchar r = false -> first_in (fun a => Ascii.eqb a "'") r = false ->
  forall ts, Lexes r ts -> Lexes (w ++ r) (Id w :: ts).
Proof. intros w r Hw H1 H2 ts L. eapply lex_token; [apply next_word; assumption|exact L]. Qed.

Lemma number_app : forall s b r, snd (number b s) = "" -> first_in wordchar r = false -> first_in (fun a => Ascii.eqb a ".") r = false -> first_in sign r = false ->
  number b (s ++ r) = (s, r).
Proof.
  induction s as [|a s IH]; intros b r Hs H1 H2 H3.
  - cbn [append]. destruct r as [|x r]; [reflexivity|]. cbn in *. rewrite H1, H2. cbn in H3. rewrite H3, andb_false_r. reflexivity.
  - cbn [number append] in *. destruct (wordchar a || Ascii.eqb a "." || (b && sign a)); [|discriminate].
    destruct (number (exponent a) s) as [x y] eqn:E. cbn in Hs. rewrite IH; [reflexivity| |assumption..]. rewrite E. exact Hs.
Qed.
Lemma next_number : forall s r, is_number s = true -> follows r -> next (s ++ r) = Some (Some (Num s), r).
Proof.
  intros s r Hs F. destruct (follows_not r F) as (F1 & F2 & F3 & F4). destruct s as [|a s]; [discriminate|].
  cbn [is_number] in Hs. apply andb_prop in Hs as [Hd Hs]. apply String.eqb_eq in Hs. pose proof (digit_wordchar a Hd) as Ha.
  unfold next. cbn [append]. rewrite (wordchar_not_blank a Ha), (starts_comment a _ (wordchar_not_slash a Ha)), Hd.
  change (String a (s ++ r)) with (String a s ++ r). rewrite number_app by assumption. reflexivity.
Qed.

Lemma quoted_app : forall s b r q, quoted b s = Some (q, "") -> quoted b (s ++ r) = Some (q, r) /\ q = s.
Proof.
  induction s as [|a s IH]; intros b r q E; [discriminate|]. cbn [quoted append] in *.
  destruct (negb b && Ascii.eqb a "'") eqn:Eq.
  - inversion E. subst. cbn. split; [reflexivity|]. apply andb_prop in Eq as [_ Eq]. apply Ascii.eqb_eq in Eq. subst. reflexivity.
  - destruct (quoted (negb b && Ascii.eqb a "\") s) as [[x y]|] eqn:E2; [|discriminate]. inversion E; subst.
    destruct (IH _ r _ E2) as [E3 ->]. rewrite E3. split; reflexivity.
Qed.
Lemma span_join : forall f s x y, span f s = (x, y) -> s = x ++ y /\ (forall a, In a (list_ascii_of_string x) -> f a = true).
Proof.
  induction s as [|a s IH]; intros x y E; cbn in E; [inversion E; subst; split; [reflexivity|intros ? []]|].
  destruct (f a) eqn:Ea; [|inversion E; subst; split; [reflexivity|intros ? []]].
  destruct (span f s) as [x' y'] eqn:E2. inversion E; subst. destruct (IH _ _ eq_refl) as [-> Hx]. split; [reflexivity|].
  intros z [<- | Hz]; [exact Ea|apply Hx, Hz].
Qed.
Lemma next_character : forall s r, is_character s = true -> next (s ++ r) = Some (Some (Chr s), r).
Proof.
  intros s r Hs. unfold is_character in Hs. destruct (span wordchar s) as [p y] eqn:Ep. destruct (span_join _ _ _ _ Ep) as [-> Hp].
  destruct y as [|z y]; [discriminate|]. assert (z = "'"%char /\ negb (match p with String a _ => digit a | "" => false end) = true /\ exists q, quoted false y = Some (q, "")) as (-> & Hd & q & Hq).
  { destruct z as [[|] [|] [|] [|] [|] [|] [|] [|]]; try discriminate. apply andb_prop in Hs as [Hd Hq]. split; [reflexivity|]. split; [exact Hd|].
    destruct (quoted false y) as [[q [|]]|]; try discriminate. exists q. reflexivity. }
  destruct (quoted_app y false r q Hq) as [Hq' ->]. rewrite sapp_assoc. destruct p as [|a p].
  - cbn [append next]. unfold next. cbn [blank starts_with]. change (blank "'") with false. change (digit "'") with false. change (wordchar "'") with false.
    cbn. rewrite Hq'. reflexivity.
  - assert (Ha : wordchar a = true) by (apply Hp; left; reflexivity). unfold next. cbn [append]. apply negb_true_iff in Hd.
    rewrite (wordchar_not_blank a Ha), (starts_comment a _ (wordchar_not_slash a Ha)), Hd, Ha.
    change (String a (p ++ String "'" (y ++ r))) with (String a p ++ String "'" (y ++ r)).
    rewrite span_app by (assumption || reflexivity). cbv beta iota. rewrite Hq'. reflexivity.
Qed.

(** ** What a writing program's text reads as *)
Section Lexing.
  Variables (tabw : nat) (e : LineEndingStyle).
  Notation run := (run tabw (LineEndingStyle_as_str e)).
  Local Open Scope prog_scope.

  (** When [F] holds of what follows, [p] writes the tokens [us] and [G] holds of its text. *)
  Definition Writes (p : prog) (F G : string -> Prop) (us : list etok) : Prop :=
    forall w w', run p w = Some w' ->
    exists s, w_out w' = w_out w ++ s /\ forall r ts, F r -> Lexes r ts -> Lexes (s ++ r) (us ++ ts) /\ G (s ++ r).
  Definition any (_ : string) : Prop := True.
  Definition spaced (G : string -> Prop) : Prop := forall n s, G s -> G (srepeat " " n ++ s).

  Lemma spaced_any : spaced any.
  Proof. intros n s _. exact Logic.I. Qed.
  Lemma spaced_calm : spaced calm.
  Proof. intros [|n] s Hs; [exact Hs|reflexivity]. Qed.
  Lemma spaced_follows : spaced follows.
  Proof. intros [|n] s Hs; [exact Hs|right; reflexivity]. Qed.

  Lemma writes_weaken : forall p (F F' G G' : string -> Prop) us, Writes p F G us -> (forall s, F' s -> F s) -> (forall s, G s -> G' s) -> Writes p F' G' us.
  Proof.
    intros p F F' G G' us Hp HF HG w w' R. destruct (Hp w w' R) as (s & O & Hs). exists s. split; [exact O|].
    intros r ts Fr L. destruct (Hs r ts (HF r Fr) L) as [H1 H2]. split; [exact H1|apply HG, H2].
  Qed.
  Lemma writes_seq : forall p q (F G K : string -> Prop) us vs, Writes p F G us -> Writes q K F vs -> Writes (p ;; q) K G (us ++ vs).
  Proof.
    intros p q F G K us vs Hp Hq w w' R. rewrite run_seq in R. destruct (run p w) as [w1|] eqn:E1; [|discriminate].
    destruct (Hp w w1 E1) as (s1 & O1 & H1). destruct (Hq w1 w' R) as (s2 & O2 & H2). exists (s1 ++ s2).
    split; [rewrite O2, O1, sapp_assoc; reflexivity|]. intros r ts Kr L. destruct (H2 r ts Kr L) as [L2 F2]. rewrite sapp_assoc, <- app_assoc.
    apply H1; assumption.
  Qed.
  Lemma writes_ret : forall F, Writes PRet F F [].
  Proof. intros F w w' R. inversion R; subst. exists "". rewrite sapp_nil_r. split; [reflexivity|]. intros r ts Fr L. split; assumption. Qed.
  Lemma writes_text : forall s (F G : string -> Prop) us, spaced G -> (forall r ts, F r -> Lexes r ts -> Lexes (s ++ r) (us ++ ts) /\ G (s ++ r)) -> Writes (write s) F G us.
  Proof.
    intros s F G us HG Hs w w' R. cbn in R. unfold inner_write in R. destruct (String.eqb_spec s "") as [->|Hne].
    - inversion R; subst. exists "". rewrite sapp_nil_r. split; [reflexivity|]. exact Hs.
    - destruct (w_started w).
      + inversion R; subst. cbn. exists s. split; [reflexivity|exact Hs].
      + destruct (w_spaces w) as [|sp r]; [discriminate|]. inversion R; subst. cbn. exists (srepeat " " sp ++ s). split; [reflexivity|].
        intros r0 ts Fr L. rewrite sapp_assoc. destruct (Hs r0 ts Fr L) as [L1 G1]. split; [apply lexes_blanks, L1|apply HG, G1].
  Qed.
  Lemma writes_newline : forall (F G : string -> Prop), (forall s, G (LineEndingStyle_as_str e ++ s)) -> Writes newline F G [].
  Proof.
    intros F G HG w w' R. cbn in R. inversion R; subst. cbn. exists (LineEndingStyle_as_str e). split; [reflexivity|]. intros r ts Fr L. split; [|apply HG].
    destruct e; cbn [LineEndingStyle_as_str append]; repeat (eapply lex_skip; [reflexivity|]); exact L.
  Qed.
  Lemma follows_newline : forall s, follows (LineEndingStyle_as_str e ++ s).
  Proof. intros s. right. destruct e; reflexivity. Qed.
  Lemma writes_push : forall F, Writes push_tab_ F F [].
  Proof.
    intros F w w' R. cbn in R. unfold push_tab in R. destruct (w_spaces w) as [|sp r]; [discriminate|]. destruct (Nat.eqb tabw 0); [discriminate|]. inversion R; subst.
    exists "". cbn. rewrite sapp_nil_r. split; [reflexivity|]. intros r0 ts Fr L. split; assumption.
  Qed.
  Lemma writes_pop : forall F, Writes pop F F [].
  Proof.
    intros F w w' R. cbn in R. unfold pop_tab in R. destruct (w_spaces w) as [|sp r]; [discriminate|]. inversion R; subst.
    exists "". cbn. rewrite sapp_nil_r. split; [reflexivity|]. intros r0 ts Fr L. split; assumption.
  Qed.
End Lexing.

(** ** Reading *)
Lemma le_step : forall n m, S n <= m -> exists k, m = S k /\ n <= k.
Proof. intros n [|k] L; [lia|]. exists k. split; [reflexivity|lia]. Qed.
Ltac step m L := let k := fresh "k" in destruct (le_step _ m L) as (k & -> & ?).

Section Reading.
  Local Open Scope list_scope.
  Variables (types : string -> bool) (pwords : list string) (cxx : bool).
  Notation unary := (unary types pwords cxx).
  Notation binary := (binary types pwords cxx).
  Notation climb := (climb types pwords cxx).
  Notation initializer := (initializer types pwords cxx).
  Notation items := (items types pwords cxx).
  Notation type_starts := (type_starts types).

  (** what may follow a whole expression *)
  Definition ends (ts : list etok) : Prop :=
    match ts with [] => True | Op o :: _ => o = ")" \/ o = "," \/ o = "}" \/ o = ";" | _ => False end.
  Notation PUnary := (operand types pwords cxx).
  Definition PInit (us : list etok) (x : cexpr) : Prop := forall rest, ends rest -> exists n, forall m, n <= m -> initializer m (us ++ rest) = Some (x, rest).
  Definition not_type (us : list etok) : Prop := us <> [] /\ forall rest, type_starts (us ++ rest) = false.
  Definition not_brace (us : list etok) : Prop := us <> [] /\ forall rest, us ++ rest <> Op "{" :: tl (us ++ rest).

  Lemma level_cases : forall o, level o <> None -> In o (concat levels).
  Proof.
    intros o Ho. unfold level in Ho. assert (G : forall l k, find_level o k l <> None -> In o (concat l)).
    { induction l as [|x l IH]; intros k E; [contradiction E; reflexivity|]. cbn in *. destruct (mem_str o x) eqn:Em.
      - apply in_or_app. left. apply mem_str_In. exact Em.
      - apply in_or_app. right. apply (IH (S k)). exact E. }
    exact (G _ _ Ho).
  Qed.
  Lemma ends_stops : forall ts, ends ts -> stops ts.
  Proof. intros [|[w|s|s|o] ts] E; try exact E. cbn in *. tauto. Qed.
  Lemma stops_cases : forall ts, stops ts -> ts = [] \/ exists o r, ts = Op o :: r /\ In o ([")"; ","; "}"; ";"] ++ concat levels)%list.
  Proof.
    intros [|[w|s|s|o] ts] E; try contradiction; [left; reflexivity|]. right. exists o, ts. split; [reflexivity|]. apply in_or_app.
    destruct E as [-> | [-> | [-> | [-> | E]]]]; [left; cbn; tauto..|]. right. apply level_cases, E.
  Qed.
  Lemma members_stop : forall n x ts, stops ts -> members (S n) x ts = Some (x, ts).
  Proof.
    intros n x ts E. destruct (stops_cases ts E) as [-> | (o & r & -> & Ho)]; [reflexivity|]. cbn in Ho.
    repeat (destruct Ho as [<- | Ho]; [reflexivity|]). contradiction.
  Qed.
  Lemma qualified_stop : forall w ts, stops ts -> qualified w ts = (w, ts).
  Proof.
    intros w ts E. destruct (stops_cases ts E) as [-> | (o & r & -> & Ho)]; [reflexivity|]. cbn in Ho.
    repeat (destruct Ho as [<- | Ho]; [reflexivity|]). contradiction.
  Qed.
  Lemma climb_end : forall n k x ts, ends ts -> climb (S n) k x ts = Some (x, ts).
  Proof.
    intros n k x ts E. destruct ts as [|[w|s|s|o] ts]; try contradiction; [reflexivity|].
    destruct E as [-> | [-> | [-> | ->]]]; reflexivity.
  Qed.
  (** operators after the first operand of an expression *)
  Lemma binary_of_unary : forall us x, PUnary us x -> forall k rest, ends rest -> exists n, forall m, n <= m -> binary m k (us ++ rest) = Some (x, rest).
  Proof.
    intros us x Hu k rest E. destruct (Hu rest (ends_stops _ E)) as (n & Hn). exists (S (S n)). intros m L. step m L. cbn [S_Expr.binary].
    rewrite Hn by lia. destruct k0 as [|k0]; [lia|]. apply climb_end, E.
  Qed.
  Lemma not_brace_init : forall n ts, (forall r, ts <> Op "{" :: r) -> initializer (S n) ts = binary n 0 ts.
  Proof.
    intros n ts Ht. destruct ts as [|[w|s|s|o] ts]; try reflexivity. cbn [S_Expr.initializer].
    destruct (String.eqb_spec o "{") as [->|Ho]; [destruct (Ht ts eq_refl)|].
    destruct o as [|a o]; [reflexivity|]. destruct a as [[|] [|] [|] [|] [|] [|] [|] [|]]; try reflexivity. destruct o; [contradiction Ho|]; reflexivity.
  Qed.
  Lemma init_of_unary : forall us x, PUnary us x -> not_brace us -> PInit us x.
  Proof.
    intros us x Hu [Hne Hb] rest E. destruct (binary_of_unary us x Hu 0 rest E) as (n & Hn). exists (S n). intros m L. step m L.
    rewrite not_brace_init; [apply Hn; lia|]. intros r Er. apply (Hb rest). rewrite Er. reflexivity.
  Qed.
  Lemma parenthesised : forall us x, (forall rest, ends rest -> exists n, forall m, n <= m -> binary m 0 (us ++ rest) = Some (x, rest)) ->
    not_type us -> forall rest, exists n, forall m, n <= m -> unary (S m) (Op "(" :: us ++ Op ")" :: rest) = members m x rest.
  Proof.
    intros us x Hu [_ Ht] rest. destruct (Hu (Op ")" :: rest)) as (n & Hn); [left; reflexivity|]. exists n. intros m L. cbn [S_Expr.unary].
    rewrite Ht, Hn by exact L. reflexivity.
  Qed.

  (** the kinds of expressions *)
  Lemma unary_number : forall s, PUnary [Num s] (CLeaf s).
  Proof. intros s rest E. exists 2. intros m L. step m L. destruct k as [|k]; [lia|]. cbn [S_Expr.unary app]. apply members_stop, E. Qed.
  Lemma unary_character : forall s, PUnary [Chr s] (CLeaf s).
  Proof. intros s rest E. exists 2. intros m L. step m L. destruct k as [|k]; [lia|]. cbn [S_Expr.unary app]. apply members_stop, E. Qed.
  (** tokens of a qualified name *)
  Fixpoint more_words (ws : list string) : list etok := match ws with [] => [] | w :: r => Op "::" :: Id w :: more_words r end.
  Lemma qualified_more : forall ws w rest, stops rest ->
    qualified w (more_words ws ++ rest) = (fold_left (fun x y => (x ++ "::" ++ y)%string) ws w, rest).
  Proof.
    induction ws as [|x ws IH]; intros w rest E; [apply qualified_stop, E|]. cbn [more_words app qualified fold_left]. apply IH, E.
  Qed.
  Lemma fold_qualified : forall ws w, fold_left (fun x y => (x ++ "::" ++ y)%string) ws w = qualified_name (w :: ws).
  Proof.
    assert (G : forall ws p w, fold_left (fun x y => (x ++ "::" ++ y)%string) ws (p ++ w)%string = (p ++ qualified_name (w :: ws))%string).
    { induction ws as [|x ws IH]; intros p w; [reflexivity|]. cbn [fold_left]. change (qualified_name (w :: x :: ws)) with (w ++ "::" ++ qualified_name (x :: ws))%string.
      replace ((p ++ w) ++ "::" ++ x)%string with ((p ++ w ++ "::") ++ x)%string by (rewrite !sapp_assoc; reflexivity). rewrite IH, !sapp_assoc. reflexivity. }
    intros ws w. exact (G ws "" w).
  Qed.
  Lemma stops_not_brace : forall ts, stops ts -> forall (A : Type) (x : list etok -> A) (y : A), match ts with Op "{" :: r => x r | _ => y end = y.
  Proof.
    intros ts E A x y. destruct (stops_cases ts E) as [-> | (o & r & -> & Ho)]; [reflexivity|]. cbn in Ho.
    repeat (destruct Ho as [<- | Ho]; [reflexivity|]). contradiction.
  Qed.
  Lemma unary_name : forall w ws, PUnary (Id w :: more_words ws) (CLeaf (qualified_name (w :: ws))).
  Proof.
    intros w ws rest E. exists 2. intros m L. step m L. destruct k as [|k]; [lia|]. cbn [S_Expr.unary app]. rewrite qualified_more by exact E.
    rewrite fold_qualified. rewrite (stops_not_brace rest E _ (fun r'' => if cxx then match items (S k) r'' with Some (l, r3) => members (S k) (CBraces (Some (CName false None [qualified_name (w :: ws)] [])) l) r3 | None => None end else members (S k) (CLeaf (qualified_name (w :: ws))) rest)).
    apply members_stop, E.
  Qed.
  Lemma unary_operator : forall o us x, In o ["-"; "~"] -> PUnary us x -> PUnary (Op o :: us) (CUn o x).
  Proof.
    intros o us x Ho Hu rest E. destruct (Hu rest E) as (n & Hn). exists (S n). intros m L. step m L. cbn [app].
    destruct Ho as [<- | [<- | []]]; cbn [S_Expr.unary]; change (String.eqb "-" "(") with false; change (String.eqb "~" "(") with false;
      [change (mem_str "-" unary_operators) with true|change (mem_str "~" unary_operators) with true]; cbv beta iota; rewrite Hn by lia; reflexivity.
  Qed.
  Lemma unary_binary : forall o us x vs y, level o <> None -> PUnary us x -> PUnary vs y -> not_type us ->
    PUnary (Op "(" :: us ++ Op o :: vs ++ [Op ")"]) (CBin o x y).
  Proof.
    intros o us x vs y Ho Hu Hv Ht rest E.
    assert (B : forall rest, ends rest -> exists n, forall m, n <= m -> binary m 0 ((us ++ Op o :: vs) ++ rest) = Some (CBin o x y, rest)).
    { intros rest' E'. destruct (Hu (Op o :: vs ++ rest')) as (n1 & H1); [cbn; tauto|].
      destruct (level o) as [k|] eqn:Ek; [|contradiction Ho; reflexivity].
      destruct (binary_of_unary vs y Hv (right_level k) rest' E') as (n2 & H2). exists (S (S (S (n1 + n2)))). intros m L. step m L. cbn [S_Expr.binary].
      rewrite <- app_assoc. cbn [app]. rewrite H1 by lia. step k0 H. cbn [S_Expr.climb]. rewrite Ek. change (Nat.leb 0 k) with true. cbv beta iota.
      rewrite H2 by lia. step k1 H0. apply climb_end, E'. }
    destruct (parenthesised (us ++ Op o :: vs) (CBin o x y) B) with (rest := rest) as (n & Hn).
    { destruct Ht as [Hne Ht]. split; [destruct us; discriminate|]. intros r. rewrite <- app_assoc. apply Ht. }
    exists (S (S n)). intros m L. step m L. replace ((Op "(" :: us ++ Op o :: vs ++ [Op ")"]) ++ rest)%list with (Op "(" :: (us ++ Op o :: vs) ++ Op ")" :: rest)%list
      by (cbn [app]; rewrite <- !app_assoc; cbn [app]; rewrite <- app_assoc; reflexivity).
    rewrite Hn by lia. destruct k as [|k]; [lia|]. apply members_stop, E.
  Qed.
  Lemma unary_member : forall us x f, PUnary us x -> not_type us -> PUnary (Op "(" :: us ++ [Op ")"; Op "."; Id f]) (CDot x f).
  Proof.
    intros us x f Hu Ht rest E. destruct (parenthesised us x (binary_of_unary us x Hu 0) Ht (Op "." :: Id f :: rest)) as (n & Hn).
    exists (S (S (S n))). intros m L. step m L. replace ((Op "(" :: us ++ [Op ")"; Op "."; Id f]) ++ rest)%list with (Op "(" :: us ++ Op ")" :: Op "." :: Id f :: rest)%list
      by (cbn [app]; rewrite <- !app_assoc; reflexivity).
    rewrite Hn by lia. step k H. cbn [members]. destruct k0 as [|k0]; [lia|]. apply members_stop, E.
  Qed.
  (** a type in parentheses *)
  Definition PType (us : list etok) (t : ctype) : Prop :=
    (forall rest, type_starts (us ++ Op ")" :: rest) = true) /\ forall rest, exists n, forall m, n <= m -> type_name types pwords m (us ++ Op ")" :: rest) = Some (t, Op ")" :: rest).
  Lemma unary_cast : forall us t vs x, PType us t -> PUnary vs x -> not_brace vs -> PUnary (Op "(" :: us ++ Op ")" :: vs) (CCast t x).
  Proof.
    intros us t vs x [Ht1 Ht2] Hv [_ Hb] rest E. destruct (Ht2 (vs ++ rest)%list) as (n1 & H1). destruct (Hv rest E) as (n2 & H2).
    exists (S (n1 + n2)). intros m L. step m L. cbn [app S_Expr.unary]. rewrite <- app_assoc. cbn [app]. rewrite String.eqb_refl, Ht1, H1 by lia.
    specialize (Hb rest). specialize (H2 k ltac:(lia)). destruct (vs ++ rest)%list as [|[w|s|s|o] r] eqn:Ev; try (rewrite H2; reflexivity).
    destruct o as [|a o]; [rewrite H2; reflexivity|]. destruct a as [[|] [|] [|] [|] [|] [|] [|] [|]]; try (rewrite H2; reflexivity).
    destruct o; [contradiction Hb; reflexivity|rewrite H2; reflexivity].
  Qed.

  (** lists in braces *)
  Definition designator (f : option string) : list etok := match f with Some k => [Op "."; Id k; Op "="] | None => [] end.
  Definition PItems (us : list etok) (l : list (option string * cexpr)) : Prop :=
    forall rest, exists n, forall m, n <= m -> items m (us ++ rest) = Some (l, rest).
  Definition item_start (us : list etok) : Prop := us <> [] /\ forall rest, match (us ++ rest)%list with Op o :: _ => o <> "}" /\ o <> "." | _ => True end.
  Lemma items_nil : PItems [Op "}"] [].
  Proof. intros rest. exists 1. intros m L. step m L. reflexivity. Qed.
  Lemma item_step : forall n ts f us, ts = (designator f ++ us)%list -> (match us with [] => False | Op o :: _ => o <> "}" /\ o <> "." | _ => True end) ->
    items (S n) ts = match initializer n us with
                     | Some (x, Op "," :: r) => match items n r with Some (l, r') => Some ((f, x) :: l, r') | None => None end
                     | Some (x, Op "}" :: r) => Some ([(f, x)], r)
                     | _ => None
                     end.
  Proof.
    intros n ts f us -> Hu. destruct f as [k|]; [reflexivity|]. cbn [designator app]. destruct us as [|[w|s|s|o] us]; try contradiction; try reflexivity.
    cbn [S_Expr.items]. destruct Hu as [H1 H2].
    destruct o as [|a o]; [reflexivity|]. destruct a as [[|] [|] [|] [|] [|] [|] [|] [|]]; try reflexivity; destruct o; try reflexivity; try (contradiction H1; reflexivity); contradiction H2; reflexivity.
  Qed.
  Lemma items_last : forall f us x, PInit us x -> item_start us -> PItems (designator f ++ us ++ [Op "}"]) [(f, x)].
  Proof.
    intros f us x Hu [Hne Hs] rest. destruct (Hu (Op "}" :: rest)) as (n & Hn); [cbn; tauto|]. exists (S n). intros m L. step m L.
    rewrite (item_step k _ f (us ++ Op "}" :: rest)%list); [rewrite Hn by lia; reflexivity|rewrite <- !app_assoc; reflexivity|].
    specialize (Hs (Op "}" :: rest)). destruct us; [contradiction Hne; reflexivity|exact Hs].
  Qed.
  Lemma items_more : forall f us x vs l, PInit us x -> item_start us -> PItems vs l -> PItems (designator f ++ us ++ Op "," :: vs) ((f, x) :: l).
  Proof.
    intros f us x vs l Hu [Hne Hs] Hv rest. destruct (Hu (Op "," :: vs ++ rest)) as (n & Hn); [cbn; tauto|]. destruct (Hv rest) as (n2 & H2).
    exists (S (n + n2)). intros m L. step m L.
    rewrite (item_step k _ f (us ++ Op "," :: vs ++ rest)%list); [rewrite Hn, H2 by lia; reflexivity| |].
    - rewrite <- !app_assoc. cbn [app]. reflexivity.
    - specialize (Hs (Op "," :: vs ++ rest)%list). destruct us; [contradiction Hne; reflexivity|exact Hs].
  Qed.
  Lemma init_braces : forall us l, PItems us l -> PInit (Op "{" :: us) (CBraces None l).
  Proof.
    intros us l Hu rest E. destruct (Hu rest) as (n & Hn). exists (S n). intros m L. step m L. cbn [app S_Expr.initializer]. rewrite Hn by lia. reflexivity.
  Qed.
  (** a compound literal *)
  Lemma unary_compound : forall ts t us l, PType ts t -> PItems us l -> PUnary (Op "(" :: ts ++ Op ")" :: Op "{" :: us) (CBraces (Some t) l).
  Proof.
    intros ts t us l [Ht1 Ht2] Hu rest E. destruct (Ht2 (Op "{" :: us ++ rest)%list) as (n1 & H1). destruct (Hu rest) as (n2 & H2).
    exists (S (S (n1 + n2))). intros m L. step m L. cbn [app S_Expr.unary]. rewrite <- app_assoc. cbn [app]. rewrite String.eqb_refl, Ht1, H1, H2 by lia.
    destruct k as [|k]; [lia|]. apply members_stop, E.
  Qed.
  Lemma unary_construct : forall w us l, cxx = true -> PItems us l -> PUnary (Id w :: Op "{" :: us) (CBraces (Some (CName false None [w] [])) l).
  Proof.
    intros w us l Hc Hu rest E. destruct (Hu rest) as (n & Hn). exists (S (S n)). intros m L. step m L. cbn [app S_Expr.unary qualified]. rewrite Hn by lia. rewrite Hc.
    destruct k as [|k]; [lia|]. apply members_stop, E.
  Qed.
End Reading.
