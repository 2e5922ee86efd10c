(** Reading and running the methods of C++ classes. *)
Require Import Coq.Strings.String Coq.Strings.Ascii Coq.Lists.List Coq.Bool.Bool Coq.Arith.Arith Coq.micromega.Lia.
From Verif Require Import Base P_Base S_Lex M_Ir S_Expr S_Method S_Shown S_Derived P_MethodLex.
From Verif Require P_Expr.
Import ListNotations.
Open Scope string_scope.

Lemma le_plus : forall n m, n <= m -> exists k, m = n + k. Proof. intros n m L. exists (m - n). lia. Qed.
Notation read := (binary (fun _ => false) [] true).
Notation climbs := (climb (fun _ => false) [] true).

(** ** Steps of the reader *)
Notation one := (unary (fun _ => false) [] true).
Lemma read_step : forall m k ts, read (S m) k ts = match one m ts with Some (e, r) => climbs m k e r | None => None end.
Proof. reflexivity. Qed.
(** what may follow an operand *)
Definition after_operand : list string := [";"; ")"; "&&"; "||"; "=="; "!="; "<"; ">"; "<="; ">="; "|"; "&"; "^"; "="].
Lemma members_done : forall m e x r, In x after_operand -> members (S m) e (Op x :: r) = Some (e, Op x :: r).
Proof. intros m e x r I. cbn in I. repeat (destruct I as [<-|I]; [reflexivity|]). destruct I. Qed.
Lemma one_step : forall m f x r, In x ("." :: "->" :: after_operand) -> one (S m) (Id f :: Op x :: r) = members m (CLeaf f) (Op x :: r).
Proof. intros m f x r I. cbn in I. repeat (destruct I as [<-|I]; [reflexivity|]). destruct I. Qed.
Lemma one_word : forall m f x r, In x after_operand -> one (2 + m) (Id f :: Op x :: r) = Some (CLeaf f, Op x :: r).
Proof. intros m f x r I. change (2 + m) with (S (S m)). rewrite one_step by (right; right; exact I). apply members_done, I. Qed.
Lemma one_dot : forall m o f x r, In x after_operand -> one (3 + m) (Id o :: Op "." :: Id f :: Op x :: r) = Some (CDot (CLeaf o) f, Op x :: r).
Proof.
  intros m o f x r I. change (3 + m) with (S (S (S m))). rewrite one_step by (left; reflexivity).
  change (members (S (S m)) (CLeaf o) (Op "." :: Id f :: Op x :: r)) with (members (S m) (CDot (CLeaf o) f) (Op x :: r)). apply members_done, I.
Qed.
Lemma one_arrow : forall m o f x r, In x after_operand -> one (3 + m) (Id o :: Op "->" :: Id f :: Op x :: r) = Some (CDot (CUn "*" (CLeaf o)) f, Op x :: r).
Proof.
  intros m o f x r I. change (3 + m) with (S (S (S m))). rewrite one_step by (right; left; reflexivity).
  change (members (S (S m)) (CLeaf o) (Op "->" :: Id f :: Op x :: r)) with (members (S m) (CDot (CUn "*" (CLeaf o)) f) (Op x :: r)). apply members_done, I.
Qed.
Lemma one_prefix : forall m o us, In o ["!"; "~"; "*"] -> one (S m) (Op o :: us) = match one m us with Some (e, r) => Some (CUn o e, r) | None => None end.
Proof. intros m o us [<-|[<-|[<-|[]]]]; reflexivity. Qed.
Lemma climb_stop : forall m k e x r, level x = None -> climbs (S m) k e (Op x :: r) = Some (e, Op x :: r).
Proof. intros m k e x r L. cbn [climb]. rewrite L. reflexivity. Qed.
Lemma climb_below : forall m k e x j r, level x = Some j -> Nat.leb k j = false -> climbs (S m) k e (Op x :: r) = Some (e, Op x :: r).
Proof. intros m k e x j r L B. cbn [climb]. rewrite L, B. reflexivity. Qed.
Lemma climb_on : forall m k e x j r, level x = Some j -> Nat.leb k j = true ->
  climbs (S m) k e (Op x :: r) = match read m (right_level j) r with Some (e', r') => climbs m k (CBin x e e') r' | None => None end.
Proof. intros m k e x j r L B. cbn [climb]. rewrite L, B. reflexivity. Qed.

(** ** Chains of comparisons *)
Section Chain.
  Variables (op joined other : string).
  Hypothesis OP : In op comparisons.
  Hypothesis JO : In joined ["&&"; "||"].
  Definition cmp (f : string) : list etok := [Id f; Op op; Id other; Op "."; Id f].
  Definition cmpe (f : string) : cexpr := CBin op (CLeaf f) (CDot (CLeaf other) f).
  Definition stop : list string := [";"; ")"; "&&"; "||"].
  Lemma stop_after : forall x, In x stop -> In x after_operand.
  Proof. intros x I. cbn in *. tauto. Qed.
  Lemma op_after : In op after_operand.
  Proof. unfold comparisons in OP. cbn in *. tauto. Qed.
  Lemma op_level : exists j, level op = Some j /\ (forall x m e r, In x stop -> climbs (S m) (right_level j) e (Op x :: r) = Some (e, Op x :: r)) /\ Nat.leb 3 j = true.
  Proof.
    pose proof OP as O. unfold comparisons in O. cbn in O.
    repeat (destruct O as [<-|O]; [eexists; split; [reflexivity|]; split; [|reflexivity]; intros x m e r I; cbn in I;
      repeat (destruct I as [<-|I]; [first [apply climb_stop; reflexivity|eapply climb_below; reflexivity]|]); destruct I|]); destruct O.
  Qed.
  Lemma cmp_reads : forall f k m x r, k <= 3 -> In x stop -> read (10 + m) k (cmp f ++ Op x :: r) = climbs (8 + m) k (cmpe f) (Op x :: r).
  Proof.
    intros f k m x r K I. destruct op_level as (j & L & S0 & J). unfold cmp, cmpe. cbn [app Nat.add].
    rewrite read_step. change (S (S (S (S (S (S (S (S (S m))))))))) with (2 + (7 + m)) at 1. rewrite (one_word _ _ _ _ op_after).
    assert (KJ : Nat.leb k j = true) by (apply Nat.leb_le in J; apply Nat.leb_le; lia).
    rewrite (climb_on _ _ _ _ _ _ L KJ). rewrite read_step. change (S (S (S (S (S (S (S m))))))) with (3 + (4 + m)) at 1.
    rewrite (one_dot _ _ _ _ _ (stop_after _ I)), (S0 _ _ _ _ I). reflexivity.
  Qed.
  Definition inner_level : nat := if String.eqb joined "&&" then 3 else 2.
  Lemma cmp_next : forall f m x r, In x [";"; ")"; joined] -> read (10 + m) inner_level (cmp f ++ Op x :: r) = Some (cmpe f, Op x :: r).
  Proof.
    intros f m x r I. rewrite cmp_reads; [|unfold inner_level; destruct (String.eqb joined "&&"); lia|cbn in *; destruct JO as [<-|[<-|[]]]; tauto].
    cbn [Nat.add]. destruct I as [<-|[<-|[<-|[]]]]; [apply climb_stop; reflexivity|apply climb_stop; reflexivity|].
    unfold inner_level. destruct JO as [<-|[<-|[]]]; eapply climb_below; reflexivity.
  Qed.
  Definition more (fs : list string) : list etok := flat_map (fun f => Op joined :: cmp f) fs.
  Definition joins (left : cexpr) (fs : list string) : cexpr := fold_left (fun l f => CBin joined l (cmpe f)) fs left.
  Lemma climb_joined : forall m left us, climbs (S m) 0 left (Op joined :: us) =
    match read m inner_level us with Some (e, r') => climbs m 0 (CBin joined left e) r' | None => None end.
  Proof. intros m left us. unfold inner_level. destruct JO as [<-|[<-|[]]]; [rewrite (climb_on _ _ _ _ 2)|rewrite (climb_on _ _ _ _ 1)]; reflexivity. Qed.
  Lemma more_head : forall fs x r, In x [";"; ")"] -> exists y z, (more fs ++ Op x :: r)%list = Op y :: z /\ In y [";"; ")"; joined].
  Proof. intros [|f fs] x r I; [exists x, r|exists joined; eexists]; (split; [reflexivity|]); [destruct I as [<-|[<-|[]]]; cbn; auto|cbn; auto]. Qed.
  Lemma chain_reads : forall fs left m x r, In x [";"; ")"] -> 11 * List.length fs + 5 <= m -> climbs m 0 left (more fs ++ Op x :: r) = Some (joins left fs, Op x :: r).
  Proof.
    induction fs as [|f fs IH]; intros left m x r I L.
    - destruct m as [|m]; [cbn in L; lia|]. apply climb_stop. destruct I as [<-|[<-|[]]]; reflexivity.
    - cbn [List.length] in L. destruct m as [|m]; [lia|]. destruct (le_plus 10 m ltac:(lia)) as (k & ->).
      cbn [more flat_map joins fold_left]. rewrite <- app_assoc, <- app_comm_cons, climb_joined.
      fold (more fs). destruct (more_head fs x r I) as (y & z & E & Y). rewrite E, (cmp_next f k y z Y), <- E. apply IH; [exact I|]. lia.
  Qed.
  Definition all_of (f : string) (fs : list string) : list etok := (cmp f ++ more fs)%list.
  Lemma all_reads : forall f fs m x r, In x [";"; ")"] -> 11 * List.length fs + 20 <= m ->
    read m 0 (all_of f fs ++ Op x :: r) = Some (joins (cmpe f) fs, Op x :: r).
  Proof.
    intros f fs m x r I L. destruct (le_plus 10 m ltac:(lia)) as (k & ->). unfold all_of. rewrite <- app_assoc.
    destruct (more_head fs x r I) as (y & z & E & Y). rewrite E, cmp_reads; [|lia|unfold stop; cbn in Y |- *; destruct Y as [<-|[<-|[<-|[]]]]; auto; destruct JO as [<-|[<-|[]]]; auto].
    rewrite <- E. apply chain_reads; [exact I|lia].
  Qed.
  (** [return f == other.f && …;] *)
  Lemma comparison_body : forall f fs, body_of (Id "return" :: all_of f fs ++ [Op ";"]) [SReturn (joins (cmpe f) fs)].
  Proof.
    intros f fs. exists (11 * List.length fs + 30). intros m L. destruct (le_plus 3 m ltac:(lia)) as (k & ->).
    assert (E : statement (2 + k) (Id "return" :: all_of f fs ++ [Op ";"]) = Some (SReturn (joins (cmpe f) fs), [])).
    { cbn [Nat.add statement head_word tl]. rewrite String.eqb_refl. 
      assert (M : made (S k) (all_of f fs ++ [Op ";"]) = None).
      { unfold all_of, cmp. pose proof OP as O. unfold comparisons in O. cbn in O. repeat (destruct O as [<-|O]; [reflexivity|]). destruct O. }
      rewrite M. unfold expression. rewrite (all_reads f fs (S k) ";" []); [reflexivity|cbn; auto|lia]. }
    change (match statement (2 + k) (Id "return" :: all_of f fs ++ [Op ";"]) with
            | Some (x, r) => match statement_list (2 + k) r with Some (l, r') => Some (x :: l, r') | None => None end
            | None => None end = Some ([SReturn (joins (cmpe f) fs)], [])).
    rewrite E. reflexivity.
  Qed.
End Chain.

(** ** Running them *)

Section Running.
  Variable W : world.
  Variables (op other : string).
  Hypothesis OP : In op comparisons.
  Variables (self x : wo_value W).
  Hypothesis PO : plain_name other = true.
  Notation args := [(other, x)].

  Lemma plain_not : forall n, plain_name n = true -> String.eqb n "true" = false /\ String.eqb n "false" = false /\ String.eqb n "this" = false.
  Proof.
    intros n E. unfold plain_name in E. apply andb_prop in E as [_ E]. apply negb_true_iff in E.
    repeat split; apply String.eqb_neq; intros ->; discriminate.
  Qed.
  Lemma eval_member : forall f a, plain_name f = true -> f <> other -> wo_member W self f = Some a -> eval W self args (CLeaf f) = Some (Value a).
  Proof.
    intros f a P N M. destruct (plain_not f P) as (A & B & C). cbn [eval]. rewrite A, B, C. cbn [lookup]. rewrite (proj2 (String.eqb_neq f other) N), M. reflexivity.
  Qed.
  Lemma eval_other : eval W self args (CLeaf other) = Some (Value x).
  Proof. destruct (plain_not other PO) as (A & B & C). cbn [eval]. rewrite A, B, C. cbn [lookup]. rewrite String.eqb_refl. reflexivity. Qed.
  Lemma eval_other_member : forall f b, wo_member W x f = Some b -> eval W self args (CDot (CLeaf other) f) = Some (Value b).
  Proof.
    intros f b M. change (match eval W self args (CLeaf other) with Some (Value v) => option_map Value (wo_member W v f) | _ => None end = Some (Value b)).
    rewrite eval_other, M. reflexivity.
  Qed.
  Lemma op_compares : mem_str op comparisons = true /\ String.eqb op "&&" = false /\ String.eqb op "||" = false.
  Proof. pose proof OP as O. unfold comparisons in *. cbn in O. repeat (destruct O as [<-|O]; [repeat split|]). destruct O. Qed.
  Lemma eval_bin : forall o a b va vb, In o comparisons -> eval W self args a = Some (Value va) -> eval W self args b = Some (Value vb) ->
    eval W self args (CBin o a b) = option_map Truth (wo_compare W o va vb).
  Proof.
    intros o a b va vb O A B. cbn [eval]. rewrite A, B. unfold comparisons in *. cbn in O. repeat (destruct O as [<-|O]; [reflexivity|]). destruct O.
  Qed.
  Notation member_compares := (member_compares W op self x).
  Lemma eval_cmp : forall f r, plain_name f = true -> f <> other -> member_compares f r -> eval W self args (cmpe op other f) = Some (Truth r).
  Proof.
    intros f r P N (a & b & A & B & C). unfold cmpe. rewrite (eval_bin _ _ _ _ _ OP (eval_member _ _ P N A) (eval_other_member _ _ B)), C. reflexivity.
  Qed.
  Lemma eval_and : forall fs rs left l, Forall (fun f => plain_name f = true /\ f <> other) fs -> Forall2 member_compares fs rs ->
    eval W self args left = Some (Truth l) -> eval W self args (joins op "&&" other left fs) = Some (Truth (l && forallb (fun r => r) rs)).
  Proof.
    intros fs rs left l F R. revert left l. induction R as [|f r fs rs C R IH]; intros left l E.
    - cbn. rewrite E, andb_true_r. reflexivity.
    - inversion F as [|? ? [P N] F']; subst. cbn [joins fold_left forallb]. fold (joins op "&&" other (CBin "&&" left (cmpe op other f)) fs). rewrite (IH F' _ (l && r)); [rewrite andb_assoc; reflexivity|].
      cbn [eval String.eqb]. change (String.eqb "&&" "&&") with true. cbv iota. rewrite E, (eval_cmp _ _ P N C). destruct l; reflexivity.
  Qed.
  Lemma eval_or : forall fs rs left l, Forall (fun f => plain_name f = true /\ f <> other) fs -> Forall2 member_compares fs rs ->
    eval W self args left = Some (Truth l) -> eval W self args (joins op "||" other left fs) = Some (Truth (l || existsb (fun r => r) rs)).
  Proof.
    intros fs rs left l F R. revert left l. induction R as [|f r fs rs C R IH]; intros left l E.
    - cbn. rewrite E, orb_false_r. reflexivity.
    - inversion F as [|? ? [P N] F']; subst. cbn [joins fold_left existsb]. fold (joins op "||" other (CBin "||" left (cmpe op other f)) fs). rewrite (IH F' _ (l || r)); [rewrite orb_assoc; reflexivity|].
      cbn [eval]. change (String.eqb "||" "&&") with false. change (String.eqb "||" "||") with true. cbv iota. rewrite E, (eval_cmp _ _ P N C). destruct l; reflexivity.
  Qed.
  Lemma returns_one : forall e r, eval W self args e = Some r -> returns W [SReturn e] self args self r.
  Proof. intros e r E. exists 1. intros [|m] L; [lia|]. cbn. rewrite E. reflexivity. Qed.
  Lemma all_returns : forall f fs rs, Forall (fun f => plain_name f = true /\ f <> other) (f :: fs) -> Forall2 member_compares (f :: fs) rs ->
    returns W [SReturn (joins op "&&" other (cmpe op other f) fs)] self args self (Truth (forallb (fun r => r) rs))
    /\ returns W [SReturn (joins op "||" other (cmpe op other f) fs)] self args self (Truth (existsb (fun r => r) rs)).
  Proof.
    intros f fs rs F R. inversion R as [|? r ? rs' C R']; subst. inversion F as [|? ? [P N] F']; subst. pose proof (eval_cmp _ _ P N C) as E.
    split; apply returns_one; [exact (eval_and _ _ _ _ F' R' E)|exact (eval_or _ _ _ _ F' R' E)].
  Qed.
End Running.

(** ** Blocks of statements *)
Definition opener (ts : list etok) : bool :=
  match ts with
  | Id w :: _ => negb (mem_str w ["case"; "default"])
  | Op o :: _ => negb (String.eqb o "}")
  | _ => false
  end.
Definition block_ends (ts : list etok) : Prop := ts = [] \/ exists r, ts = Op "}" :: r \/ ts = Id "case" :: r \/ ts = Id "default" :: r.
Lemma list_end : forall m ts, block_ends ts -> statement_list (S m) ts = Some ([], ts).
Proof. intros m ts [->|(r & [->|[->| ->]])]; reflexivity. Qed.
Lemma list_step : forall m ts, opener ts = true -> statement_list (S m) ts =
  match statement m ts with
  | Some (x, r) => match statement_list m r with Some (l, r') => Some (x :: l, r') | None => None end
  | None => None
  end.
Proof.
  intros m [|[w|s|s|o] r] O; try discriminate.
  - cbn [opener] in O. apply negb_true_iff in O. cbn [statement_list head_word]. rewrite O. reflexivity.
  - cbn [opener] in O. cbn [statement_list head_word mem_str]. destruct (String.eqb_spec o "}") as [->|N]; [discriminate|].
    assert (K : forall (A : Type) (x y : A), match o with "}" => x | _ => y end = y).
    { intros A x y. destruct o as [|a o]; [reflexivity|]. destruct o as [|a' o].
      - destruct a as [[|] [|] [|] [|] [|] [|] [|] [|]]; try reflexivity. congruence.
      - destruct a as [[|] [|] [|] [|] [|] [|] [|] [|]]; reflexivity. }
    rewrite K. reflexivity.
Qed.
Definition one_reads (us : list etok) (x : stmt) : Prop := opener us = true /\ exists n, forall m rest, n <= m -> statement m (us ++ rest) = Some (x, rest).
Definition block_reads (us : list etok) (l : list stmt) : Prop := exists n, forall m rest, n <= m -> block_ends rest -> statement_list m (us ++ rest) = Some (l, rest).
Lemma opener_app : forall us rest, opener us = true -> opener (us ++ rest) = true.
Proof. intros [|[w|s|s|o] us] rest O; try discriminate; exact O. Qed.
Lemma block_nil : block_reads [] [].
Proof. exists 1. intros [|m] rest L E; [lia|]. apply list_end, E. Qed.
Lemma block_cons : forall us x vs l, one_reads us x -> block_reads vs l -> block_reads (us ++ vs) (x :: l).
Proof.
  intros us x vs l [O (n1 & R1)] (n2 & R2). exists (S (n1 + n2)). intros [|m] rest L E; [lia|]. rewrite <- app_assoc, list_step by (apply opener_app, O).
  rewrite R1 by lia. rewrite R2; [reflexivity|lia|exact E].
Qed.
Lemma block_one : forall us x, one_reads us x -> block_reads us [x].
Proof. intros us x R. rewrite <- (app_nil_r us). apply block_cons; [exact R|apply block_nil]. Qed.
Lemma block_body : forall us l, block_reads us l -> body_of us l.
Proof. intros us l (n & R). exists n. intros m L. rewrite <- (app_nil_r us) at 1. apply R; [exact L|left; reflexivity]. Qed.

(** ** Expressions, whatever follows the closing token *)
Definition expr_reads (us : list etok) (e : cexpr) : Prop :=
  exists n, forall m x r, In x [";"; ")"] -> n <= m -> read m 0 (us ++ Op x :: r) = Some (e, Op x :: r).
Lemma stop_end : forall x, In x [";"; ")"] -> level x = None /\ In x after_operand.
Proof. intros x [<-|[<-|[]]]; split; try reflexivity; cbn; auto. Qed.
Lemma expr_one : forall us e n, (forall m x r, In x after_operand -> n <= m -> one m (us ++ Op x :: r) = Some (e, Op x :: r)) -> expr_reads us e.
Proof.
  intros us e n R. exists (S (S n)). intros m x r I L. destruct (stop_end x I) as [V A]. destruct m as [|m]; [lia|]. rewrite read_step, R by (assumption || lia).
  destruct m as [|m]; [lia|]. apply climb_stop, V.
Qed.
Lemma one_word' : forall f m x r, In x after_operand -> 2 <= m -> one m ([Id f] ++ Op x :: r) = Some (CLeaf f, Op x :: r).
Proof. intros f m x r I L. destruct (le_plus _ _ L) as (k & ->). apply one_word, I. Qed.
Lemma one_prefix' : forall o us e n, In o ["!"; "~"; "*"] -> (forall m x r, In x after_operand -> n <= m -> one m (us ++ Op x :: r) = Some (e, Op x :: r)) ->
  forall m x r, In x after_operand -> S n <= m -> one m ((Op o :: us) ++ Op x :: r) = Some (CUn o e, Op x :: r).
Proof. intros o us e n O R m x r I L. destruct m as [|m]; [lia|]. rewrite <- app_comm_cons, (one_prefix _ _ _ O), R by (assumption || lia). reflexivity. Qed.
Lemma expr_word : forall f, expr_reads [Id f] (CLeaf f).
Proof. intro f. apply (expr_one _ _ 2). exact (one_word' f). Qed.
Lemma expr_dot : forall o f, expr_reads [Id o; Op "."; Id f] (CDot (CLeaf o) f).
Proof. intros o f. apply (expr_one _ _ 3). intros m x r I L. destruct (le_plus _ _ L) as (k & ->). apply one_dot, I. Qed.
Lemma expr_prefix : forall o f, In o ["!"; "~"; "*"] -> expr_reads [Op o; Id f] (CUn o (CLeaf f)).
Proof. intros o f O. apply (expr_one _ _ 3). exact (one_prefix' _ _ _ _ O (one_word' f)). Qed.
Lemma expr_twice : forall f, expr_reads [Op "!"; Op "!"; Id f] (CUn "!" (CUn "!" (CLeaf f))).
Proof. intros f. apply (expr_one _ _ 4). apply one_prefix'; [cbn; auto|]. apply one_prefix'; [cbn; auto|exact (one_word' f)]. Qed.
Lemma expr_cmp : forall op other f, In op comparisons -> expr_reads (cmp op other f) (cmpe op other f).
Proof.
  intros op other f O. exists 20. intros m x r I L. change (cmp op other f ++ Op x :: r)%list with (all_of op "&&" other f [] ++ Op x :: r)%list.
  apply (all_reads op "&&" other O (or_introl eq_refl) f [] m x r I). cbn. lia.
Qed.
(** [a op b] for two operands *)
Lemma expr_bin : forall op us a vs e n k, level op = Some k -> Nat.leb 1 k = true -> In op after_operand ->
  (forall m x r, In x after_operand -> n <= m -> one m (us ++ Op x :: r) = Some (a, Op x :: r)) ->
  (forall m x r, In x after_operand -> n <= m -> one m (vs ++ Op x :: r) = Some (e, Op x :: r)) ->
  expr_reads (us ++ Op op :: vs) (CBin op a e).
Proof.
  intros op us a vs e n k V K A R1 R2. exists (n + 5). intros m x r I L. destruct (stop_end x I) as [X B]. destruct (le_plus 4 m ltac:(lia)) as (j & ->). rewrite <- app_assoc, <- app_comm_cons. cbn [Nat.add].
  rewrite read_step, R1 by (assumption || lia). rewrite (climb_on _ 0 _ _ _ _ V eq_refl), read_step, R2 by (assumption || lia).
  destruct j as [|j]; [lia|]. rewrite (climb_stop _ _ _ _ _ X). apply climb_stop, X.
Qed.
Lemma one_dot' : forall o f m x r, In x after_operand -> 3 <= m -> one m ([Id o; Op "."; Id f] ++ Op x :: r) = Some (CDot (CLeaf o) f, Op x :: r).
Proof. intros o f m x r I L. destruct (le_plus _ _ L) as (k & ->). apply one_dot, I. Qed.
Lemma one_arrow' : forall o f m x r, In x after_operand -> 3 <= m -> one m ([Id o; Op "->"; Id f] ++ Op x :: r) = Some (CDot (CUn "*" (CLeaf o)) f, Op x :: r).
Proof. intros o f m x r I L. destruct (le_plus _ _ L) as (k & ->). apply one_arrow, I. Qed.
Lemma one_paren : forall us e, type_starts (fun _ => false) us = false -> us <> [] -> expr_reads us e -> exists n, forall m x r, In x after_operand -> n <= m ->
  one m ((Op "(" :: us ++ [Op ")"]) ++ Op x :: r) = Some (e, Op x :: r).
Proof.
  intros us e T N (n & R). exists (n + 3). intros m x r I L. destruct m as [|m]; [lia|]. rewrite <- app_comm_cons, <- app_assoc. cbn [app].
  assert (TS : type_starts (fun _ => false) (us ++ Op ")" :: Op x :: r) = false).
  { destruct us as [|[w|s|s|o] us]; [congruence| |reflexivity..]. cbn [type_starts app] in *. destruct us as [|y us]; [|exact T]. cbn [app]. rewrite andb_true_r in T. rewrite T. reflexivity. }
  change (one (S m) (Op "(" :: us ++ Op ")" :: Op x :: r)) with
    (if type_starts (fun _ => false) (us ++ Op ")" :: Op x :: r) then
       match type_name (fun _ => false) [] m (us ++ Op ")" :: Op x :: r) with
       | Some (t, Op ")" :: Op "{" :: r') => match items (fun _ => false) [] true m r' with Some (l, r3) => members m (CBraces (Some t) l) r3 | None => None end
       | Some (t, Op ")" :: r') => match one m r' with Some (e, r3) => Some (CCast t e, r3) | None => None end
       | _ => None
       end
     else match read m 0 (us ++ Op ")" :: Op x :: r) with Some (e, Op ")" :: r') => members m e r' | _ => None end).
  rewrite TS, R by (cbn; auto || lia). destruct m as [|m]; [lia|]. apply members_done, I.
Qed.

(** ** Statements *)
Lemma return_reads : forall us e, (forall m r, made m (us ++ Op ";" :: r) = None) -> expr_reads us e -> one_reads (Id "return" :: us ++ [Op ";"]) (SReturn e).
Proof.
  intros us e M (n & R). split; [reflexivity|]. exists (S n). intros [|m] rest L; [lia|]. cbn [statement head_word tl app]. rewrite String.eqb_refl, <- app_assoc. cbn [app]. rewrite M.
  unfold expression. rewrite R by (cbn; auto || lia). reflexivity.
Qed.
Lemma make_reads : forall class bits us e, expr_reads us e ->
  one_reads (Id "return" :: ([Id class; Op "{"; Id "static_cast"; Op "<"; Id "decltype"; Op "("; Id bits; Op ")"; Op ">"; Op "("] ++ us ++ [Op ")"; Op "}"; Op ";"])) (SMake class bits e).
Proof.
  intros class bits us e (n & R). split; [reflexivity|]. exists (S n). intros [|m] rest L; [lia|]. cbn [statement head_word tl app]. rewrite String.eqb_refl, <- app_assoc. cbn [app].
  assert (M : made m (Id class :: Op "{" :: Id "static_cast" :: Op "<" :: Id "decltype" :: Op "(" :: Id bits :: Op ")" :: Op ">" :: Op "(" :: us ++ Op ")" :: Op "}" :: Op ";" :: rest)
              = Some (SMake class bits e, rest)).
  { unfold made. cbn [after etok_eqb]. rewrite ?String.eqb_refl. cbn [after etok_eqb]. rewrite ?String.eqb_refl. unfold expression. rewrite R by (cbn; auto || lia). reflexivity. }
  rewrite M. reflexivity.
Qed.
Lemma break_reads : one_reads [Id "break"; Op ";"] SBreak.
Proof. split; [reflexivity|]. exists 1. intros [|m] rest L; [lia|]. reflexivity. Qed.
Lemma destroy_reads : forall m k, plain_name m = true -> one_reads [Id m; Op "."; Op "~"; Id k; Op "("; Op ")"; Op ";"] (SDestroy m k).
Proof.
  intros x k P. unfold plain_name in P. apply andb_prop in P as [_ P]. apply negb_true_iff in P.
  assert (N : forall w, In w reserved -> String.eqb x w = false).
  { intros w I. apply String.eqb_neq. intros ->. exact (proj1 (P_Base.mem_str_false _ _) P I). }
  split; [cbn [opener mem_str]; rewrite !N by (cbn; auto 10); reflexivity|]. exists 1. intros [|m] rest L; [lia|]. cbn [statement head_word]. rewrite !N by (cbn; auto 10). reflexivity.
Qed.
Lemma new_reads : forall m k us e, expr_reads us e ->
  one_reads ([Op "::"; Id "new"; Op "("; Op "&"; Id m; Op ")"; Op "("; Id k; Op ")"; Op "("] ++ us ++ [Op ")"; Op ";"])%list (SNew m k e).
Proof.
  intros x k us e (n & R). split; [reflexivity|]. exists (S n). intros [|m] rest L; [lia|]. rewrite <- !app_assoc. cbn [statement head_word app].
  assert (M : placed m (Op "::" :: Id "new" :: Op "(" :: Op "&" :: Id x :: Op ")" :: Op "(" :: Id k :: Op ")" :: Op "(" :: us ++ Op ")" :: Op ";" :: rest) = Some (SNew x k e, rest)).
  { unfold placed. cbn [after etok_eqb]. rewrite ?String.eqb_refl. cbn [after etok_eqb]. rewrite ?String.eqb_refl. unfold expression. rewrite R by (cbn; auto || lia). reflexivity. }
  rewrite M. reflexivity.
Qed.
Lemma do_reads : forall us e, match us with Op o :: _ => o <> "::" /\ o <> "}" | _ => False end -> expr_reads us e -> one_reads (us ++ [Op ";"]) (SDo e).
Proof.
  intros [|[w|s|s|o] us] e O (n & R); try (destruct O; fail). destruct O as [O1 O2]. apply String.eqb_neq in O1, O2. split; [cbn; rewrite O2; reflexivity|].
  exists (S n). intros [|m] rest L; [lia|]. rewrite <- app_assoc. cbn [statement head_word app].
  assert (M : placed m (Op o :: us ++ Op ";" :: rest) = None).
  { unfold placed. cbn [after etok_eqb]. rewrite String.eqb_sym, O1. reflexivity. }
  rewrite M. cbn [String.eqb orb destroyed]. unfold expression. change (Op o :: us ++ Op ";" :: rest)%list with ((Op o :: us) ++ Op ";" :: rest)%list. rewrite R by (cbn; auto || lia). reflexivity.
Qed.
Lemma if_reads : forall us e vs l, expr_reads us e -> block_reads vs l -> one_reads (Id "if" :: Op "(" :: us ++ Op ")" :: Op "{" :: vs ++ [Op "}"]) (SIf e l).
Proof.
  intros us e vs l (n1 & R1) (n2 & R2). split; [reflexivity|]. exists (S (n1 + n2)). intros [|m] rest L; [lia|]. cbn [app].
  rewrite <- app_assoc. cbn [app]. rewrite <- app_assoc. cbn [app]. 
  change (statement (S m) (Id "if" :: Op "(" :: us ++ Op ")" :: Op "{" :: vs ++ Op "}" :: rest)) with
    (match expression m (us ++ Op ")" :: Op "{" :: vs ++ Op "}" :: rest) with
     | Some (e, r2) => match after [Op ")"; Op "{"] r2 with
                       | Some r3 => match statement_list m r3 with Some (l, Op "}" :: r4) => Some (SIf e l, r4) | _ => None end
                       | None => None end
     | None => None end).
  unfold expression. rewrite R1 by (cbn; auto || lia). cbn [after etok_eqb]. rewrite ?String.eqb_refl, R2; [reflexivity|lia|right; eauto].
Qed.
(** the labels of a switch with their statements *)
Definition case_toks (c : option (string * string) * list etok) : list etok :=
  match fst c with Some (w, x) => Id "case" :: Id w :: Op "::" :: Id x :: Op ":" :: snd c | None => Id "default" :: Op ":" :: snd c end.
Definition case_label (o : option (string * string)) : option string := match o with Some (w, x) => Some (w ++ "::" ++ x) | None => None end.
Lemma cases_read : forall cs ls, Forall2 (fun c l => block_reads (snd c) (snd l) /\ fst l = case_label (fst c)) cs ls ->
  exists n, forall m rest, n <= m -> cases m (flat_map case_toks cs ++ Op "}" :: rest) = Some (ls, Op "}" :: rest).
Proof.
  intros cs ls F. induction F as [|[o us] [o' l] cs ls [(n1 & R1) E] F (n2 & R2)]; cbn [fst snd] in *.
  - exists 1. intros [|m] rest L; [lia|]. reflexivity.
  - subst o'. exists (S (n1 + n2)). intros [|m] rest L; [lia|]. cbn [flat_map]. rewrite <- app_assoc.
    assert (BE : block_ends (flat_map case_toks cs ++ Op "}" :: rest)).
    { right. destruct cs as [|[[[w x]|] vs] cs]; [eexists; left; reflexivity|eexists; right; left; reflexivity|eexists; right; right; reflexivity]. }
    assert (K : cases (S m) (case_toks (o, us) ++ flat_map case_toks cs ++ Op "}" :: rest) =
                match statement_list m (us ++ flat_map case_toks cs ++ Op "}" :: rest) with
                | Some (l, r') => match cases m r' with Some (cs, r'') => Some ((case_label o, l) :: cs, r'') | None => None end
                | None => None end).
    { destruct o as [[w x]|]; reflexivity. }
    rewrite K, R1 by (assumption || lia). rewrite R2 by lia. reflexivity.
Qed.
Lemma switch_reads : forall us e cs ls, expr_reads us e -> Forall2 (fun c l => block_reads (snd c) (snd l) /\ fst l = case_label (fst c)) cs ls ->
  one_reads (Id "switch" :: Op "(" :: us ++ Op ")" :: Op "{" :: flat_map case_toks cs ++ [Op "}"]) (SSwitch e ls).
Proof.
  intros us e cs ls (n1 & R1) F. destruct (cases_read cs ls F) as (n2 & R2). split; [reflexivity|]. exists (S (n1 + n2)). intros [|m] rest L; [lia|]. cbn [app].
  rewrite <- app_assoc. cbn [app]. rewrite <- app_assoc. cbn [app]. 
  change (statement (S m) (Id "switch" :: Op "(" :: us ++ Op ")" :: Op "{" :: flat_map case_toks cs ++ Op "}" :: rest)) with
    (match expression m (us ++ Op ")" :: Op "{" :: flat_map case_toks cs ++ Op "}" :: rest) with
     | Some (e, r2) => match after [Op ")"; Op "{"] r2 with
                       | Some r3 => match cases m r3 with Some (l, Op "}" :: r4) => Some (SSwitch e l, r4) | _ => None end
                       | None => None end
     | None => None end).
  unfold expression. rewrite R1 by (cbn; auto || lia). cbn [after etok_eqb]. rewrite ?String.eqb_refl, R2 by lia. reflexivity.
Qed.

(** ** Running statements *)
Section Steps.
  Variable W : world.
  Notation exec := (exec W).
  Notation eval := (eval W).
  Lemma eval_leaf : forall self args f a, plain_name f = true -> lookup f args = None -> wo_member W self f = Some a -> eval self args (CLeaf f) = Some (Value a).
  Proof. intros self args f a P N M. destruct (plain_not f P) as (A & B & C). cbn [S_Method.eval]. rewrite A, B, C, N, M. reflexivity. Qed.
  Lemma eval_named : forall self args f a, String.eqb f "true" = false -> String.eqb f "false" = false -> String.eqb f "this" = false -> lookup f args = None -> wo_member W self f = None ->
    wo_named W f = Some a -> eval self args (CLeaf f) = Some (Value a).
  Proof. intros self args f a A B C N M K. cbn [S_Method.eval]. rewrite A, B, C, N, M, K. reflexivity. Qed.
  Lemma eval_this : forall self args, eval self args (CUn "*" (CLeaf "this")) = Some (Value self). Proof. reflexivity. Qed.
  Lemma eval_dot : forall self args e v f a, eval self args e = Some (Value v) -> wo_member W v f = Some a -> eval self args (CDot e f) = Some (Value a).
  Proof. intros self args e v f a E M. cbn [S_Method.eval]. rewrite E, M. reflexivity. Qed.
  Lemma eval_operate : forall self args o a b va vb v, In o ["|"; "&"; "^"] -> eval self args a = Some (Value va) -> eval self args b = Some (Value vb) ->
    wo_operate W o va vb = Some v -> eval self args (CBin o a b) = Some (Value v).
  Proof. intros self args o a b va vb v O A B V. cbn [S_Method.eval]. rewrite A, B. destruct O as [<-|[<-|[<-|[]]]]; cbn; rewrite V; reflexivity. Qed.
  Lemma eval_compare : forall self args o a b va vb, In o comparisons -> eval self args a = Some (Value va) -> eval self args b = Some (Value vb) ->
    eval self args (CBin o a b) = option_map Truth (wo_compare W o va vb).
  Proof.
    intros self args o a b va vb O A B. cbn [S_Method.eval]. rewrite A, B. unfold comparisons in *. cbn in O. repeat (destruct O as [<-|O]; [reflexivity|]). destruct O.
  Qed.
  Lemma returns_value : forall self args e r, eval self args e = Some r -> returns W [SReturn e] self args self r.
  Proof. intros self args e r E. exists 1. intros [|m] L; [lia|]. cbn. rewrite E. reflexivity. Qed.

  Lemma exec_return : forall m self args c l r, eval self args c = Some r -> exec (S m) self args (SReturn c :: l) = Some (self, Returned W r).
  Proof. intros m self args c l r E. cbn [S_Method.exec]. rewrite E. reflexivity. Qed.
  Lemma exec_break : forall m self args l, exec (S m) self args (SBreak :: l) = Some (self, Broken W).
  Proof. reflexivity. Qed.
  Lemma exec_end : forall m self args, exec (S m) self args [] = Some (self, Next W).
  Proof. reflexivity. Qed.
  Lemma exec_if_no : forall m self args c body l, as_truth W (eval self args c) = Some false -> exec (S m) self args (SIf c body :: l) = exec m self args l.
  Proof. intros m self args c body l E. cbn [S_Method.exec]. rewrite E. reflexivity. Qed.
  Lemma exec_if_returns : forall m self args c body l s r, as_truth W (eval self args c) = Some true -> exec m self args body = Some (s, Returned W r) ->
    exec (S m) self args (SIf c body :: l) = Some (s, Returned W r).
  Proof. intros m self args c body l s r E R. cbn [S_Method.exec]. rewrite E, R. reflexivity. Qed.
  Definition taken (o : option (list stmt)) (cs : list (option string * list stmt)) : list stmt := match o with Some b => b | None => from_default cs end.
  Lemma exec_switch_returns : forall m self args c cs l v o s r, eval self args c = Some (Value v) -> from_label W v cs = Some o ->
    exec m self args (taken o cs) = Some (s, Returned W r) -> exec (S m) self args (SSwitch c cs :: l) = Some (s, Returned W r).
  Proof. intros m self args c cs l v o s r E F R. cbn [S_Method.exec]. rewrite E, F. fold (taken o cs). rewrite R. reflexivity. Qed.
  Lemma exec_switch_breaks : forall m self args c cs l v o s, eval self args c = Some (Value v) -> from_label W v cs = Some o ->
    exec m self args (taken o cs) = Some (s, Broken W) -> exec (S m) self args (SSwitch c cs :: l) = exec m s args l.
  Proof. intros m self args c cs l v o s E F R. cbn [S_Method.exec]. rewrite E, F. fold (taken o cs). rewrite R. reflexivity. Qed.

  (** *** The cases of an enum *)
  Variable e : Enum.
  Variable what : string -> Struct -> list stmt.
  Definition data_case (v : EnumVariant) : list (option string * list stmt) :=
    match v_body v with VBody n s _ _ => [(Some (enumerator e v), what n s)] | VEmpty _ => [] end.
  Definition some_empty (vs : list EnumVariant) : bool := existsb (fun v => VariantBody_is_empty (v_body v)) vs.
  Definition default_case : list (option string * list stmt) := if some_empty (e_variants e) then [(None, [SBreak])] else [].
  Definition enum_cases : list (option string * list stmt) := (flat_map data_case (e_variants e) ++ default_case)%list.
  Variable t : wo_value W.
  Definition tags (vs : list EnumVariant) (v : EnumVariant) : Prop :=
    forall w, In w vs -> exists k, wo_named W (enumerator e w) = Some k /\ wo_compare W "==" t k = Some (String.eqb (v_export_name w) (v_export_name v)).
  Lemma label_data : forall v n s i o rest vs, NoDup (map v_export_name vs) -> In v vs -> v_body v = VBody n s i o -> tags vs v ->
    exists tail, from_label W t (flat_map data_case vs ++ rest) = Some (Some (what n s ++ tail)%list).
  Proof.
    intros v n s i o rest. induction vs as [|w vs IH]; intros ND I B T; [destruct I|]. cbn [map] in ND. inversion ND as [|? ? NI ND']; subst.
    destruct (T w (or_introl eq_refl)) as (k & N & C). cbn [flat_map]. destruct I as [->|I].
    - unfold data_case at 1. rewrite B. cbn [app from_label]. rewrite N, C, String.eqb_refl. eexists. cbn [flat_map snd]. reflexivity.
    - assert (D : String.eqb (v_export_name w) (v_export_name v) = false).
      { apply String.eqb_neq. intro E. apply NI. rewrite E. apply in_map, I. }
      destruct (IH ND' I B (fun w' I' => T w' (or_intror I'))) as (tail & E). exists tail.
      unfold data_case at 1. destruct (v_body w); [exact E|]. cbn [app from_label]. rewrite N, C, D. exact E.
  Qed.
  Lemma label_none : forall v a vs, NoDup (map v_export_name vs) -> In v vs -> v_body v = VEmpty a -> tags vs v ->
    from_label W t (flat_map data_case vs ++ default_case) = Some None.
  Proof.
    intros v a.
    assert (Z : from_label W t default_case = Some None) by (unfold default_case; destruct (some_empty _); reflexivity).
    assert (K : forall vs, (forall w, In w vs -> w = v \/ v_export_name w <> v_export_name v) -> v_body v = VEmpty a -> tags vs v -> from_label W t (flat_map data_case vs ++ default_case) = Some None).
    { induction vs as [|w vs IH]; intros D B T; [exact Z|]. cbn [flat_map]. pose proof (IH (fun w' I' => D w' (or_intror I')) B (fun w' I' => T w' (or_intror I'))) as E.
      unfold data_case at 1. destruct (v_body w) as [a'|n s i o] eqn:BW; [exact E|]. destruct (T w (or_introl eq_refl)) as (k & N & C). cbn [app from_label]. rewrite N, C.
      destruct (D w (or_introl eq_refl)) as [->|NE]; [congruence|]. rewrite (proj2 (String.eqb_neq _ _) NE). exact E. }
    intros vs ND I B T. apply K; [|exact B|exact T]. intros w IW.
    clear - ND I IW. induction vs as [|x vs IH]; [destruct IW|]. cbn [map] in ND. inversion ND as [|? ? NI ND']; subst. destruct I as [->|I], IW as [->|IW].
    - left. reflexivity.
    - right. intro E. apply NI. rewrite <- E. apply in_map, IW.
    - right. intro E. apply NI. rewrite E. apply in_map, I.
    - exact (IH ND' I IW).
  Qed.
  Lemma default_runs : forall v a, In v (e_variants e) -> v_body v = VEmpty a -> from_default enum_cases = [SBreak].
  Proof.
    intros v a I B. unfold enum_cases, default_case. assert (S0 : some_empty (e_variants e) = true).
    { unfold some_empty. apply existsb_exists. exists v. split; [exact I|]. rewrite B. reflexivity. }
    rewrite S0. clear. induction (e_variants e) as [|w vs IH]; [reflexivity|]. cbn [flat_map]. unfold data_case at 1. destruct (v_body w); exact IH.
  Qed.
End Steps.

(** *** [if (tag != other.tag) { return false; } switch (tag) { … } return true;] *)
Section Equal.
  Variable W : world.
  Variables (e : Enum) (other : string) (self x : wo_value W).
  Notation args := [(other, x)].
  Hypothesis PO : plain_name other = true.
  Hypothesis OT : other <> "tag".
  Hypothesis ND : NoDup (map v_export_name (e_variants e)).
  Definition equal_body : list stmt :=
    [SIf (cmpe "!=" other "tag") [SReturn (CLeaf "false")];
     SSwitch (CLeaf "tag") (enum_cases e (fun m _ => [SReturn (cmpe "==" other m)])); SReturn (CLeaf "true")].
  Variables (t u : wo_value W).
  Hypothesis T1 : wo_member W self "tag" = Some t.
  Hypothesis T2 : wo_member W x "tag" = Some u.
  Lemma tag_leaf : eval W self args (CLeaf "tag") = Some (Value t).
  Proof. apply eval_leaf; [reflexivity| |exact T1]. cbn [lookup]. rewrite (proj2 (String.eqb_neq "tag" other)); [reflexivity|congruence]. Qed.
  Lemma tag_cmp : forall r, wo_compare W "!=" t u = Some r -> eval W self args (cmpe "!=" other "tag") = Some (Truth r).
  Proof.
    intros r C. apply eval_cmp; [cbn; auto|exact PO|reflexivity|congruence|]. exists t, u. auto.
  Qed.
  Lemma equal_differs : wo_compare W "!=" t u = Some true -> returns W equal_body self args self (Truth false).
  Proof.
    intro C. exists 3. intros m L. destruct (le_plus _ _ L) as (k & ->). unfold equal_body. cbn [Nat.add]. apply exec_if_returns; [rewrite (tag_cmp _ C); reflexivity|].
    apply exec_return. reflexivity.
  Qed.
  Lemma equal_data : forall v n s i o a b r, wo_compare W "!=" t u = Some false -> In v (e_variants e) -> tag_of W e t v -> v_body v = VBody n s i o ->
    plain_name n = true -> n <> other -> wo_member W self n = Some a -> wo_member W x n = Some b -> wo_compare W "==" a b = Some r ->
    returns W equal_body self args self (Truth r).
  Proof.
    intros v n s i o a b r C I T B PN NO MA MB CM. exists 5. intros m L. destruct (le_plus _ _ L) as (k & ->). unfold equal_body. cbn [Nat.add].
    rewrite exec_if_no by (rewrite (tag_cmp _ C); reflexivity).
    destruct (label_data W e (fun m _ => [SReturn (cmpe "==" other m)]) t v n s i o (default_case e) (e_variants e) ND I B T) as (tail & E).
    eapply exec_switch_returns; [apply tag_leaf|exact E|]. cbn [taken app]. apply exec_return. apply eval_cmp; [cbn; auto|exact PO|exact PN|exact NO|]. exists a, b. auto.
  Qed.
  Lemma equal_empty : forall v an, wo_compare W "!=" t u = Some false -> In v (e_variants e) -> tag_of W e t v -> v_body v = VEmpty an ->
    returns W equal_body self args self (Truth true).
  Proof.
    intros v an C I T B. exists 5. intros m L. destruct (le_plus _ _ L) as (k & ->). unfold equal_body. cbn [Nat.add].
    rewrite exec_if_no by (rewrite (tag_cmp _ C); reflexivity).
    pose proof (label_none W e (fun m _ => [SReturn (cmpe "==" other m)]) t v an (e_variants e) ND I B T) as E.
    erewrite exec_switch_breaks; [|apply tag_leaf|exact E|]; [apply exec_return; reflexivity|]. unfold taken. rewrite (default_runs _ _ _ _ I B). apply exec_break.
  Qed.
End Equal.

(** *** [switch (tag) { case …: …; break; … }] *)
Section Switch.
  Variable W : world.
  Variables (e : Enum) (what : string -> Struct -> stmt) (self : wo_value W) (args : list (string * wo_value W)) (t : wo_value W).
  Hypothesis ND : NoDup (map v_export_name (e_variants e)).
  Hypothesis T1 : wo_member W self "tag" = Some t.
  Hypothesis NT : lookup "tag" args = None.
  Definition switch_body : list stmt := [SSwitch (CLeaf "tag") (enum_cases e (fun m s => [what m s; SBreak]))].
  Lemma switch_empty : forall v an, In v (e_variants e) -> tag_of W e t v -> v_body v = VEmpty an -> leaves W switch_body self args self.
  Proof.
    intros v an I T B. exists 5. intros m L. destruct (le_plus _ _ L) as (k & ->). unfold switch_body. cbn [Nat.add].
    pose proof (label_none W e (fun m s => [what m s; SBreak]) t v an (e_variants e) ND I B T) as E.
    erewrite exec_switch_breaks; [|exact (eval_leaf W self args "tag" t eq_refl NT T1)|exact E|]; [apply exec_end|]. unfold taken. rewrite (default_runs _ _ _ _ I B). apply exec_break.
  Qed.
  Lemma switch_data : forall v n s i o self', In v (e_variants e) -> tag_of W e t v -> v_body v = VBody n s i o ->
    (forall k l, exec W (S k) self args (what n s :: l) = exec W k self' args l) -> leaves W switch_body self args self'.
  Proof.
    intros v n s i o self' I T B R. exists 5. intros m L. destruct (le_plus _ _ L) as (k & ->). unfold switch_body. cbn [Nat.add].
    destruct (label_data W e (fun m s => [what m s; SBreak]) t v n s i o (default_case e) (e_variants e) ND I B T) as (tail & E).
    erewrite exec_switch_breaks; [|exact (eval_leaf W self args "tag" t eq_refl NT T1)|exact E|]; [apply exec_end|]. cbn [taken app]. rewrite R. apply exec_break.
  Qed.
End Switch.
