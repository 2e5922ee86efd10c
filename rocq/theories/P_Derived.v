(** From the text of a class to its methods. *)
Require Import Coq.Strings.String Coq.Strings.Ascii Coq.Lists.List Coq.Bool.Bool Coq.Arith.Arith Coq.micromega.Lia.
From Verif Require Import Base P_Base S_Lex M_Config S_Decl M_Type M_Ir M_Item M_Library M_Literal M_Bindings M_Backend S_File S_Shown S_Expr S_Method S_Derived P_SigLib P_DataText P_ConstText P_MethodLex P_Method.
Import ListNotations.
Open Scope string_scope.

Definition saying (css : list (list chunk)) : list piece := map (fun x => say (text x)) css.
Lemma say_all : forall css l, Forall2 (fun cs x => text cs = x) css l -> saying css = map say l.
Proof. intros css l F. induction F as [|cs x css l E F IH]; [reflexivity|]. cbn. rewrite E. f_equal. exact IH. Qed.

(** ** Comparisons *)
Section Comparison.
  Variables (op joined other class : string).
  Hypothesis OP : In op comparisons.
  Hypothesis JO : In joined ["&&"; "||"].
  Hypothesis IO : S_Lex.is_ident other = true.
  Hypothesis IC : S_Lex.is_ident class = true.
  Definition cmp_chunks (f : string) : list chunk := [W f; B; P op; B; W other; P "."; W f].
  Fixpoint sep_chunks (l : list string) : list (list chunk) :=
    match l with [] => [] | [x] => [cmp_chunks x] | x :: r => cmp_chunks x :: [P joined] :: sep_chunks r end.
  Lemma cmp_good : forall f, S_Lex.is_ident f = true -> good (cmp_chunks f) = true.
  Proof.
    intros f I. pose proof OP as O. unfold comparisons in O. cbn in O. unfold cmp_chunks.
    repeat (destruct O as [<-|O]; [cbn [good free single mem_str loud_start]; rewrite I, IO; reflexivity|]). destruct O.
  Qed.
  Lemma sep_said : forall l, saying (sep_chunks l) = separated joined (fun f => [say (f ++ " " ++ op ++ " " ++ other ++ "." ++ f)]) l.
  Proof. induction l as [|x [|y l] IH]; [reflexivity|reflexivity|]. cbn [sep_chunks saying map separated app]. do 2 f_equal. exact IH. Qed.
  Lemma sep_linked : forall l, Forall (fun f => S_Lex.is_ident f = true) l -> linked (sep_chunks l ++ [[P ";"]; [P "}"]]) = true.
  Proof.
    intros l F. induction F as [|x l I F IH]; [reflexivity|]. destruct l as [|y l].
    - cbn [sep_chunks app linked]. rewrite (cmp_good _ I). reflexivity.
    - change (sep_chunks (x :: y :: l)) with (cmp_chunks x :: [P joined] :: sep_chunks (y :: l)). 
      revert IH. generalize (sep_chunks (y :: l)). intros q IH. pose proof (cmp_good _ I) as GC. rewrite <- !app_comm_cons.
      destruct JO as [<-|[<-|[]]]; cbn [linked app]; rewrite GC; cbn [app] in IH; rewrite IH; reflexivity.
  Qed.
  Lemma sep_toks : forall f fs, flat_map toks (sep_chunks (f :: fs)) = all_of op joined other f fs.
  Proof.
    intros f fs. revert f. induction fs as [|g fs IH]; intro f; [reflexivity|].
    change (sep_chunks (f :: g :: fs)) with (cmp_chunks f :: [P joined] :: sep_chunks (g :: fs)). cbn [flat_map]. rewrite IH. reflexivity.
  Qed.
  Definition head_chunks : list chunk := [W "bool"; B; W "operator"; P op; P "("; W "const"; B; W class; P "&"; B; W other; P ")"; B; W "const"].
  Lemma head_good : good head_chunks = true.
  Proof.
    pose proof OP as O. unfold comparisons in O. cbn in O. unfold head_chunks.
    repeat (destruct O as [<-|O]; [cbn [good free single mem_str loud_start]; rewrite IC, IO; reflexivity|]). destruct O.
  Qed.
  Lemma head_text : text head_chunks = "bool operator" ++ op ++ "(const " ++ class ++ "& " ++ other ++ ") const".
  Proof. unfold head_chunks. pose proof OP as O. unfold comparisons in O. cbn in O. repeat (destruct O as [<-|O]; [reflexivity|]). destruct O. Qed.
  Lemma comparison_read : forall f fs t, Forall (fun f => S_Lex.is_ident f = true) (f :: fs) ->
    made_of t (method ("bool operator" ++ op ++ "(const " ++ class ++ "& " ++ other ++ ") const")
      ([say "return"] ++ separated joined (fun f => [say (f ++ " " ++ op ++ " " ++ other ++ "." ++ f)]) (f :: fs) ++ [say ";"])) ->
    is_method t (operator_head op class other) [SReturn (joins op joined other (cmpe op other f) fs)].
  Proof.
    intros f fs t F M. exists (Id "return" :: all_of op joined other f fs ++ [Op ";"])%list. split; [|apply comparison_body; assumption].
    rewrite <- sep_said, <- head_text in M. unfold method in M.
    assert (E : ([say (text head_chunks); say "{"] ++ ([say "return"] ++ saying (sep_chunks (f :: fs)) ++ [say ";"]) ++ [say "}"])%list
                = saying (head_chunks :: [P "{"] :: [W "return"] :: sep_chunks (f :: fs) ++ [[P ";"]; [P "}"]])).
    { unfold saying. cbn [map app]. rewrite map_app. rewrite <- app_assoc. reflexivity. }
    rewrite E in M. apply pieces_lex in M.
    - cbn [flat_map] in M. rewrite flat_map_app, sep_toks in M. 
      replace (operator_head op class other ++ Op "{" :: (Id "return" :: all_of op joined other f fs ++ [Op ";"]) ++ [Op "}"])%list
        with (toks head_chunks ++ toks [P "{"] ++ toks [W "return"] ++ all_of op joined other f fs ++ flat_map toks [[P ";"]; [P "}"]])%list; [exact M|].
      cbn. rewrite <- app_assoc. reflexivity.
    - pose proof (sep_linked _ F) as L. change (linked (head_chunks :: [P "{"] :: [W "return"] :: sep_chunks (f :: fs) ++ [[P ";"]; [P "}"]])) with
        (true && good head_chunks && true && (true && (true && linked (sep_chunks (f :: fs) ++ [[P ";"]; [P "}"]]))))%bool.
      rewrite head_good, L. reflexivity.
  Qed.
End Comparison.

(** ** Finding the methods in the text *)
Lemma ordered_can : forall t, can_cmp_order t = true <-> ordered t.
Proof. intros [u c n [|]|p|p|t n|r a n v]; cbn; try destruct p; split; intros; try exact Logic.I; try congruence; try tauto; try discriminate. Qed.
Lemma equated_can : forall t, can_cmp_eq t = true <-> equated t.
Proof.
  fix IH 1. intros [u c n [|]|p|p|t n|r a n v]; cbn; try (split; [intros _; exact Logic.I|reflexivity]); [apply IH|split; [discriminate|intros []]].
Qed.
Lemma derive_eq_can : forall s, Struct_can_derive_eq s = true <-> s_fields s <> [] /\ Forall (fun f => equated (fd_ty f)) (s_fields s).
Proof.
  intro s. unfold Struct_can_derive_eq. rewrite andb_true_iff, forallb_forall, Forall_forall. destruct (s_fields s) as [|f fs].
  - split; [intros [E _]; discriminate|intros [E _]; congruence].
  - split; (intros [_ A]; split; [try discriminate; reflexivity|]; intros x I; apply equated_can; apply A; exact I).
Qed.
Ltac right_ M W := let y := fresh "y" in let Y := fresh "Y" in let W' := fresh "W" in
  apply made_right in M as (y & Y & M); pose proof (within_trans _ _ _ Y W) as W'; clear Y W; rename W' into W.
Ltac left_ M W := let y := fresh "y" in let Y := fresh "Y" in let W' := fresh "W" in
  apply made_left in M as (y & Y & M); pose proof (within_trans _ _ _ Y W) as W'; clear Y W; rename W' into W.
Ltac cond_ M W := let y := fresh "y" in let Y := fresh "Y" in let W' := fresh "W" in
  apply made_conditional in M as (y & Y & M); pose proof (within_trans _ _ _ Y W) as W'; clear Y W; rename W' into W.
Ltac member_ I M W := let y := fresh "y" in let Y := fresh "Y" in let W' := fresh "W" in
  destruct (made_member _ _ _ _ _ I M) as (y & Y & M'); clear M; rename M' into M; pose proof (within_trans _ _ _ Y W) as W'; clear Y W; rename W' into W.

Section Found.
  Context {H : Heck} (fuel : nat) (b : Bindings) (t : string).
  Let c : Config := b_config b.
  Hypothesis CXX : language c = Cxx.
  Hypothesis PA : proper_attributes c = true.
  Hypothesis TW : tab_width c <> 0.
  Hypothesis BN : b_noop b = false.
  Hypothesis WR : bindings_text fuel b = Done t.
  Lemma cxx_yes : Language_eqb (language (b_config b)) Cxx = true. Proof. fold c. rewrite CXX. reflexivity. Qed.
  Lemma cxx_no : Language_eqb (language (b_config b)) Cython = false. Proof. fold c. rewrite CXX. reflexivity. Qed.

  Lemma struct_found : forall s, struct_declared b s -> exists z, within z t /\ made_of z (shown_struct fuel b s).
  Proof.
    intros s [[I A]|(e & v & n & o & I & T & V & B)].
    - destruct (declaration_text H fuel b t _ PA TW BN WR (in_or_app _ _ _ (or_introl I))) as (z & ps & W & IP & M). exists z. split; [exact W|].
      cbn [shown] in IP. rewrite A in IP. destruct IP as [<-|[]]. exact M.
    - destruct (declaration_text H fuel b t _ PA TW BN WR (in_or_app _ _ _ (or_introl I))) as (z & ps & W & [<-|[]] & M).
      unfold shown_enum in M. destruct (e_tag e) as [tag|] eqn:ET; [|congruence]. cond_ M W. do 4 right_ M W. cbn [only is_some] in M. left_ M W. member_ V M W.
      unfold shown_body in M. rewrite B in M. unfold unless_cython in M. rewrite cxx_no in M. cond_ M W. eauto.
  Qed.
  Lemma derived_found : forall s z, within z t -> made_of z (shown_struct fuel b s) -> exists z, within z t /\ made_of z (shown_derived b s).
  Proof.
    intros s z W M. unfold shown_struct in M. rewrite cxx_no, cxx_yes in M. cond_ M W. do 10 right_ M W. left_ M W. eauto.
  Qed.
  Definition join_of (d : derived) : string := if de_every d then "&&" else "||".
  Lemma operator_found : forall s d z, In d derived_operators -> operator_for c s d -> within z t -> made_of z (shown_derived b s) ->
    exists z name, within z t /\ made_of z (shown_comparison b name (de_op d) (join_of d) s).
  Proof.
    intros s d z I [A C] W M. unfold shown_derived in M. fold c in M. cbn zeta in M.
    assert (EQ : de_ordered d = false -> Struct_can_derive_eq s = true) by (intro E; rewrite E in C; apply derive_eq_can; exact C).
    assert (OR : de_ordered d = true -> match s_fields s with [f] => can_cmp_order (fd_ty f) | _ => false end = true).
    { intro E. rewrite E in C. destruct C as (f & -> & O). destruct (fd_ty f) as [u c' n [|]|p|p|u n|r a n v]; cbn in O |- *; try tauto; try reflexivity. destruct p; try reflexivity. congruence. }
    cbn in I. destruct I as [<-|[<-|[<-|[<-|[<-|[<-|[]]]]]]]; cbn [de_name de_default de_ordered de_every de_op join_of] in *;
      unfold wanted in A; unfold asked in M; rewrite ?A in M; try rewrite (EQ eq_refl) in M; try rewrite (OR eq_refl) in M; cbn [andb only] in M.
    - do 3 right_ M W. left_ M W. eexists; eexists; split; [exact W|exact M].
    - do 4 right_ M W. left_ M W. eexists; eexists; split; [exact W|exact M].
    - do 5 right_ M W. left_ M W. eexists; eexists; split; [exact W|exact M].
    - do 6 right_ M W. left_ M W. eexists; eexists; split; [exact W|exact M].
    - do 7 right_ M W. left_ M W. eexists; eexists; split; [exact W|exact M].
    - do 8 right_ M W. eexists; eexists; split; [exact W|exact M].
  Qed.
  Theorem comparisons_found : forall s d, struct_declared b s -> In d derived_operators -> operator_for c s d ->
    let other := other_name c in
    let fs := compared_fields s in
    S_Lex.is_ident (s_export_name s) = true -> plain_name other = true -> Forall (fun f => plain_name f = true /\ f <> other) fs -> fs <> [] ->
    exists m body, within m t /\ is_method m (operator_head (de_op d) (s_export_name s) other) body
      /\ forall W self x rs, Forall2 (member_compares W (de_op d) self x) fs rs ->
         returns W body self [(other, x)] self (Truth (if de_every d then forallb (fun r => r) rs else existsb (fun r => r) rs)).
  Proof.
    intros s d SD I O other fs IN PO F NE. destruct (struct_found s SD) as (z & W1 & M1). destruct (derived_found s z W1 M1) as (z2 & W2 & M2).
    destruct (operator_found s d z2 I O W2 M2) as (z3 & name & W & M). unfold shown_comparison in M. right_ M W.
    assert (OP : In (de_op d) comparisons) by (cbn in I; repeat (destruct I as [<-|I]; [cbn; tauto|]); destruct I).
    assert (JO : In (join_of d) ["&&"; "||"]) by (unfold join_of; destruct (de_every d); cbn; auto).
    assert (IO : S_Lex.is_ident other = true) by (unfold plain_name in PO; apply andb_prop in PO as [PO _]; exact PO).
    change (renamed b "other") with other in M.
    assert (E : separated (join_of d) (fun f => [say (fd_name f ++ " " ++ de_op d ++ " " ++ other ++ "." ++ fd_name f)]) (compared s)
                = separated (join_of d) (fun f => [say (f ++ " " ++ de_op d ++ " " ++ other ++ "." ++ f)]) fs).
    { unfold fs, compared_fields, compared. generalize (if s_has_tag_field s then tl (s_fields s) else s_fields s). induction l as [|f [|g l] IH]; [reflexivity|reflexivity|].
      cbn [map separated app]. do 2 f_equal. exact IH. }
    rewrite E in M. clear E. destruct fs as [|f fs']; [congruence|]. eexists. eexists. split; [exact W|]. split.
    - apply (comparison_read _ _ _ _ OP JO IO IN f fs'); [|exact M]. eapply Forall_impl; [|exact F]. intros g [P _]. unfold plain_name in P. apply andb_prop in P as [P _]. exact P.
    - intros Wo self x rs R. destruct (all_returns Wo (de_op d) other OP self x PO f fs' rs F R) as [R1 R2]. unfold join_of. destruct (de_every d); assumption.
  Qed.
End Found.

(** ** Any method *)
Lemma method_read : forall css t head us body, made_of t (saying css) -> linked css = true -> flat_map toks css = (head ++ Op "{" :: us ++ [Op "}"])%list ->
  block_reads us body -> is_method t head body.
Proof. intros css t head us body M L E R. exists us. split; [rewrite <- E; exact (pieces_lex _ _ L M)|exact (block_body _ _ R)]. Qed.
Definition closed (cs : list chunk) : bool := match cs with [] => false | _ => true end && good cs && negb (ends_in_op cs).
Lemma linked_closed : forall css, forallb closed css = true -> linked css = true.
Proof.
  induction css as [|cs css IH]; intro A; [reflexivity|]. cbn [forallb] in A. apply andb_prop in A as [A B]. cbn [linked]. rewrite (IH B), andb_true_r.
  unfold closed in A. apply andb_prop in A as [A C]. rewrite A. apply negb_true_iff in C. rewrite C. reflexivity.
Qed.
Lemma plain_ident : forall n, plain_name n = true -> S_Lex.is_ident n = true.
Proof. intros n P. unfold plain_name in P. apply andb_prop in P as [P _]. exact P. Qed.
Lemma plain_unlike : forall n w, plain_name n = true -> In w reserved -> n <> w.
Proof. intros n w P I ->. unfold plain_name in P. apply andb_prop in P as [_ P]. apply negb_true_iff in P. exact (proj1 (P_Base.mem_str_false _ _) P I). Qed.

(** ** Flags *)
Section Flags.
  Variables (ce : bool) (class bits other : string).
  Hypothesis IC : S_Lex.is_ident class = true.
  Hypothesis PB : plain_name bits = true.
  Hypothesis PO : plain_name other = true.
  Hypothesis BO : bits <> other.
  Let IB : S_Lex.is_ident bits = true := plain_ident _ PB.
  Let IO : S_Lex.is_ident other = true := plain_ident _ PO.
  Let cw : list etok := if ce then [Id "constexpr"] else [].
  Let cs : string := if ce then "constexpr " else "".
  Let cc : list chunk := if ce then [W "constexpr"; B] else [].
  Ltac tidy := unfold cc, cs, cw; destruct ce; cbn -[S_Lex.is_ident]; rewrite ?IC, ?IB, ?IO; reflexivity.

  Lemma bool_read : forall t, made_of t (method (cs ++ "explicit operator bool() const") [say ("return !!" ++ bits ++ ";")]) ->
    is_method t (cw ++ [Id "explicit"; Id "operator"; Id "bool"; Op "("; Op ")"; Id "const"]) [SReturn (CUn "!" (CUn "!" (CLeaf bits)))].
  Proof.
    intros t M. apply (method_read [(cc ++ [W "explicit"; B; W "operator"; B; W "bool"; P "("; P ")"; B; W "const"])%list; [P "{"]; [W "return"; B; P "!"; P "!"; W bits; P ";"]; [P "}"]]
      t _ (Id "return" :: [Op "!"; Op "!"; Id bits] ++ [Op ";"])).
    - revert M. unfold cc, cs. destruct ce; exact (fun M => M).
    - tidy.
    - tidy.
    - apply block_one, return_reads; [reflexivity|apply expr_twice].
  Qed.
  Definition make_text (e : string) : string := "return " ++ (class ++ " { static_cast<decltype(" ++ bits ++ ")>(" ++ e ++ ") }") ++ ";".
  Definition make_chunks (e : list chunk) : list chunk :=
    ([W "return"; B; W class; B; P "{"; B; W "static_cast"; P "<"; W "decltype"; P "("; W bits; P ")"; P ">"; P "("] ++ e ++ [P ")"; B; P "}"; P ";"])%list.
  Lemma complement_read : forall t, made_of t (method (cs ++ class ++ " operator~() const") [say (make_text ("~" ++ bits))]) ->
    is_method t (cw ++ [Id class; Id "operator"; Op "~"; Op "("; Op ")"; Id "const"]) [SMake class bits (CUn "~" (CLeaf bits))].
  Proof.
    intros t M. apply (method_read [(cc ++ [W class; B; W "operator"; P "~"; P "("; P ")"; B; W "const"])%list; [P "{"]; make_chunks [P "~"; W bits]; [P "}"]]
      t _ (Id "return" :: ([Id class; Op "{"; Id "static_cast"; Op "<"; Id "decltype"; Op "("; Id bits; Op ")"; Op ">"; Op "("] ++ [Op "~"; Id bits] ++ [Op ")"; Op "}"; Op ";"]))).
    - revert M. unfold cc, cs, make_text. rewrite !sapp_assoc. destruct ce; exact (fun M => M).
    - tidy.
    - tidy.
    - apply block_one, make_reads, expr_prefix. cbn. auto.
  Qed.
  Variable op : string.
  Hypothesis OP : In op ["|"; "&"; "^"].
  Definition this_bits : cexpr := CDot (CUn "*" (CLeaf "this")) bits.
  Lemma op_facts : exists k, level op = Some k /\ Nat.leb 1 k = true /\ In op after_operand.
  Proof. destruct OP as [<-|[<-|[<-|[]]]]; eexists; (split; [reflexivity|]; split; [reflexivity|cbn; tauto]). Qed.
  Lemma flag_read : forall t, made_of t (method (cs ++ class ++ " operator" ++ op ++ "(const " ++ class ++ "& " ++ other ++ ") const")
      [say (make_text ("this->" ++ bits ++ " " ++ op ++ " " ++ other ++ "." ++ bits))]) ->
    is_method t (cw ++ binary_head op class other) [SMake class bits (CBin op this_bits (CDot (CLeaf other) bits))].
  Proof.
    intros t M. apply (method_read [(cc ++ [W class; B; W "operator"; P op; P "("; W "const"; B; W class; P "&"; B; W other; P ")"; B; W "const"])%list; [P "{"];
        make_chunks [W "this"; P "->"; W bits; B; P op; B; W other; P "."; W bits]; [P "}"]]
      t _ (Id "return" :: ([Id class; Op "{"; Id "static_cast"; Op "<"; Id "decltype"; Op "("; Id bits; Op ")"; Op ">"; Op "("]
             ++ ([Id "this"; Op "->"; Id bits] ++ Op op :: [Id other; Op "."; Id bits]) ++ [Op ")"; Op "}"; Op ";"]))).
    - revert M. unfold cc, cs, make_text. rewrite !sapp_assoc. destruct OP as [<-|[<-|[<-|[]]]]; destruct ce; exact (fun M => M).
    - unfold binary_head. destruct OP as [<-|[<-|[<-|[]]]]; tidy.
    - unfold binary_head. destruct OP as [<-|[<-|[<-|[]]]]; tidy.
    - destruct op_facts as (k & V & K & A). apply block_one, make_reads. apply (expr_bin op _ _ _ _ 3 k V K A); [apply one_arrow'|apply one_dot'].
  Qed.
  Definition assign_body : list stmt := [SDo (CBin "=" (CUn "*" (CLeaf "this")) (CBin op (CUn "*" (CLeaf "this")) (CLeaf other))); SReturn (CUn "*" (CLeaf "this"))].
  Lemma star_this : forall m x r, In x after_operand -> 3 <= m -> one m ([Op "*"; Id "this"] ++ Op x :: r) = Some (CUn "*" (CLeaf "this"), Op x :: r).
  Proof. apply one_prefix'; [cbn; auto|apply one_word']. Qed.
  Lemma assign_read : forall t, made_of t (method (class ++ "& operator" ++ op ++ "=(const " ++ class ++ "& " ++ other ++ ")")
      [say ("*this = (*this " ++ op ++ " " ++ other ++ ");"); say "return *this;"]) ->
    is_method t (assign_head op class other) assign_body.
  Proof.
    intros t M. apply (method_read [[W class; P "&"; B; W "operator"; P (op ++ "="); P "("; W "const"; B; W class; P "&"; B; W other; P ")"]; [P "{"];
        [P "*"; W "this"; B; P "="; B; P "("; P "*"; W "this"; B; P op; B; W other; P ")"; P ";"]; [W "return"; B; P "*"; W "this"; P ";"]; [P "}"]]
      t _ (([Op "*"; Id "this"] ++ Op "=" :: (Op "(" :: ([Op "*"; Id "this"] ++ Op op :: [Id other]) ++ [Op ")"])) ++ [Op ";"] ++ (Id "return" :: [Op "*"; Id "this"] ++ [Op ";"]))%list).
    - revert M. destruct OP as [<-|[<-|[<-|[]]]]; exact (fun M => M).
    - destruct OP as [<-|[<-|[<-|[]]]]; tidy.
    - unfold assign_head. destruct OP as [<-|[<-|[<-|[]]]]; reflexivity.
    - destruct op_facts as (k & V & K & A). rewrite app_assoc. apply block_cons; [|apply block_one, return_reads; [reflexivity|apply expr_prefix; cbn; auto]].
      apply do_reads; [cbn; split; discriminate|].
      assert (E : expr_reads ([Op "*"; Id "this"] ++ Op op :: [Id other]) (CBin op (CUn "*" (CLeaf "this")) (CLeaf other))).
      { apply (expr_bin op _ _ _ _ 3 k V K A); [apply star_this|]. intros m x r I L. apply one_word'; [exact I|lia]. }
      destruct (one_paren ([Op "*"; Id "this"] ++ Op op :: [Id other]) _ eq_refl ltac:(discriminate) E) as (n & R).
      exists (n + 8). intros m x r I L. destruct (stop_end x I) as [X Y]. destruct (le_plus 5 m ltac:(lia)) as (j & ->).
      change (read (S (S (S (S (S j))))) 0 ([Op "*"; Id "this"] ++ Op "=" :: ((Op "(" :: ([Op "*"; Id "this"] ++ Op op :: [Id other]) ++ [Op ")"]) ++ Op x :: r)) = Some (CBin "=" (CUn "*" (CLeaf "this")) (CBin op (CUn "*" (CLeaf "this")) (CLeaf other)), Op x :: r)).
      rewrite read_step, star_this by (cbn; tauto || lia). rewrite (climb_on _ 0 _ _ 0) by reflexivity. rewrite read_step, R by (assumption || lia).
      rewrite (climb_stop _ _ _ _ _ X). apply climb_stop, X.
  Qed.
  Section Runs.
    Variable Wo : world.
    Variables (self x : wo_value Wo).
    Lemma bool_runs : forall a r, wo_member Wo self bits = Some a -> wo_truth Wo a = Some r ->
      returns Wo [SReturn (CUn "!" (CUn "!" (CLeaf bits)))] self [] self (Truth r).
    Proof.
      intros a r M T. apply returns_value. pose proof (eval_leaf Wo self [] bits a PB eq_refl M) as E.
      change (eval Wo self [] (CUn "!" (CUn "!" (CLeaf bits)))) with
        (option_map (fun x => @Truth Wo (negb x)) (as_truth Wo (option_map (fun x => @Truth Wo (negb x)) (as_truth Wo (eval Wo self [] (CLeaf bits)))))).
      rewrite E. cbn [as_truth]. rewrite T. cbn. rewrite negb_involutive. reflexivity.
    Qed.
    Lemma make_runs : forall args e v o, eval Wo self args e = Some (Value v) -> wo_make Wo class bits v = Some o ->
      returns Wo [SMake class bits e] self args self (Value o).
    Proof. intros args e v o E K. exists 1. intros [|m] L; [lia|]. cbn [S_Method.exec]. rewrite E, K. reflexivity. Qed.
    Lemma complement_runs : forall a v o, wo_member Wo self bits = Some a -> wo_complement Wo a = Some v -> wo_make Wo class bits v = Some o ->
      returns Wo [SMake class bits (CUn "~" (CLeaf bits))] self [] self (Value o).
    Proof.
      intros a v o M C K. apply (make_runs _ _ v); [|exact K]. pose proof (eval_leaf Wo self [] bits a PB eq_refl M) as E.
      change (eval Wo self [] (CUn "~" (CLeaf bits))) with (match eval Wo self [] (CLeaf bits) with Some (Value v) => option_map (@Value Wo) (wo_complement Wo v) | _ => None end).
      rewrite E, C. reflexivity.
    Qed.
    Lemma flag_runs : forall a b v o, wo_member Wo self bits = Some a -> wo_member Wo x bits = Some b -> wo_operate Wo op a b = Some v -> wo_make Wo class bits v = Some o ->
      returns Wo [SMake class bits (CBin op this_bits (CDot (CLeaf other) bits))] self [(other, x)] self (Value o).
    Proof.
      intros a b v o MA MB C K. apply (make_runs _ _ v); [|exact K]. eapply eval_operate; [exact OP| | |exact C].
      - eapply eval_dot; [apply eval_this|exact MA].
      - eapply eval_dot; [|exact MB]. apply eval_other, PO.
    Qed.
    Lemma assign_runs : forall o, wo_operate Wo op self x = Some o -> returns Wo assign_body self [(other, x)] o (Value o).
    Proof.
      intros o C. exists 3. intros m L. destruct (le_plus _ _ L) as (k & ->). unfold assign_body. cbn [Nat.add].
      assert (E : eval Wo self [(other, x)] (CBin op (CUn "*" (CLeaf "this")) (CLeaf other)) = Some (Value o)).
      { eapply eval_operate; [exact OP|apply eval_this|apply eval_other, PO|exact C]. }
      cbn [S_Method.exec]. rewrite E. reflexivity.
    Qed.
  End Runs.
End Flags.

(** ** Enums with data *)
Section Enum.
  Variables (tag class other : string) (vs : list EnumVariant) (e : Enum).
  Hypothesis TN : tag = tag_name e.
  Hypothesis VS : vs = e_variants e.
  Hypothesis IT : S_Lex.is_ident tag = true.
  Hypothesis IC : S_Lex.is_ident class = true.
  Hypothesis PO : plain_name other = true.
  Hypothesis IV : Forall (fun v => S_Lex.is_ident (v_export_name v) = true /\ forall n s i o, v_body v = VBody n s i o -> plain_name n = true /\ S_Lex.is_ident (s_export_name s) = true) vs.
  Let IO : S_Lex.is_ident other = true := plain_ident _ PO.

  Variables (ctext : string -> Struct -> string) (cchunks : string -> Struct -> list chunk) (stmts : string -> Struct -> list stmt).
  Hypothesis CT : forall n s, plain_name n = true -> S_Lex.is_ident (s_export_name s) = true ->
    text (cchunks n s) = ctext n s /\ cchunks n s <> [] /\ good (cchunks n s) = true /\ last (cchunks n s) B = P ";"
    /\ block_reads (toks (cchunks n s)) (stmts n s).
  Definition label_chunks (v : EnumVariant) : list chunk := [W "case"; B; W tag; P "::"; W (v_export_name v); P ":"; B].
  Definition variant_chunks (v : EnumVariant) : list (list chunk) :=
    match v_body v with VBody n s _ _ => [(label_chunks v ++ cchunks n s)%list] | VEmpty _ => [] end.
  Definition default_chunks : list (list chunk) :=
    if some_empty vs then [[W "default"; P ":"; B; W "break"; P ";"]] else [].
  Definition switch_chunks : list (list chunk) :=
    ([W "switch"; B; P "("; W "tag"; P ")"] :: [P "{"] :: flat_map variant_chunks vs ++ default_chunks ++ [[P "}"]])%list.
  Lemma last_app : forall (l l' : list chunk) d, l' <> [] -> last (l ++ l') d = last l' d.
  Proof.
    induction l as [|x l IH]; intros l' d N; [reflexivity|]. cbn [app]. rewrite <- (IH l' d N). destruct (l ++ l')%list eqn:E; [|reflexivity].
    apply app_eq_nil in E as [_ E]. congruence.
  Qed.
  Lemma text_app : forall l l', l' <> [] -> text (l ++ l') = (text l ++ text l')%string.
  Proof.
    induction l as [|x l IH]; intros l' N; [reflexivity|]. rewrite <- app_comm_cons, !text_cons, (IH l' N), sapp_assoc. reflexivity.
  Qed.
  Lemma toks_app : forall l l', toks (l ++ l') = (toks l ++ toks l')%list.
  Proof. induction l as [|[w|p|] l IH]; intro l'; cbn; rewrite ?IH; reflexivity. Qed.
  Lemma variant_closed : forallb closed (flat_map variant_chunks vs) = true.
  Proof.
    clear VS. induction IV as [|v vs' [IN IB] F IH]; [reflexivity|]. cbn [flat_map]. rewrite forallb_app. rewrite IH by exact F. rewrite andb_true_r.
    unfold variant_chunks. destruct (v_body v) as [|n s i o]; [reflexivity|]. destruct (IB n s i o eq_refl) as [PN IS]. destruct (CT n s PN IS) as (_ & NE & G & L & _).
    cbn [forallb]. rewrite andb_true_r. unfold closed, ends_in_op. rewrite (last_app _ _ _ NE), L. cbn [label_chunks app good]. rewrite IT, IN, G. reflexivity.
  Qed.
  Lemma switch_closed : forallb closed switch_chunks = true.
  Proof.
    unfold switch_chunks. cbn [forallb]. rewrite !forallb_app, variant_closed. unfold default_chunks. destruct (some_empty vs); reflexivity.
  Qed.
  Lemma default_eq : default_case e = if some_empty vs then [(None, [SBreak])] else []. Proof. unfold default_case. rewrite VS. reflexivity. Qed.
  Lemma switch_block : exists us, flat_map toks switch_chunks = us /\ one_reads us (SSwitch (CLeaf "tag") (enum_cases e stmts)).
  Proof.
    set (vcase := fun v => match v_body v with VBody n s _ _ => [(Some (tag, v_export_name v), toks (cchunks n s))] | VEmpty _ => [] end).
    set (dcase := if some_empty vs then [(@None (string * string), [Id "break"; Op ";"])] else []).
    set (cs := (flat_map vcase vs ++ dcase)%list).
    exists (Id "switch" :: Op "(" :: [Id "tag"] ++ Op ")" :: Op "{" :: flat_map case_toks cs ++ [Op "}"])%list. split.
    - unfold switch_chunks, cs. cbn [flat_map toks app]. do 5 f_equal. rewrite !flat_map_app. rewrite <- app_assoc. f_equal; [|].
      + clear. induction vs as [|v l IH]; [reflexivity|]. cbn [flat_map]. rewrite !flat_map_app, IH. f_equal. unfold variant_chunks, vcase. destruct (v_body v) as [|n s i o]; [reflexivity|].
        cbn [flat_map]. rewrite !app_nil_r, toks_app. reflexivity.
      + unfold default_chunks, dcase. destruct (some_empty vs); reflexivity.
    - apply switch_reads; [apply expr_word|]. unfold cs, enum_cases. rewrite <- VS, default_eq. apply Forall2_app.
      + clear VS cs dcase. induction IV as [|v vs' [IN IB] F IH]; [constructor|]. cbn [flat_map]. apply Forall2_app; [|exact (IH F)]. unfold vcase, data_case.
        destruct (v_body v) as [|n s i o] eqn:BV; [constructor|]. destruct (IB n s i o eq_refl) as [PN IS]. destruct (CT n s PN IS) as (_ & _ & _ & _ & R).
        constructor; [|constructor]. cbn [fst snd]. split; [exact R|]. cbn [case_label]. unfold enumerator. rewrite TN. reflexivity.
      + unfold dcase. destruct (some_empty vs); [|constructor]. constructor; [|constructor]. cbn [fst snd]. split; [apply block_one, break_reads|reflexivity].
  Qed.
  Lemma switch_said : forall b, unconditional (b_config b) e -> shown_switch b e ctext = saying switch_chunks.
  Proof.
    intros b U. unfold shown_switch, switch_chunks, saying. cbn [map app]. rewrite !map_app. f_equal. f_equal. rewrite <- VS. unfold unconditional in U. rewrite <- VS in U. f_equal.
    - clear VS. revert U. induction IV as [|v vs' [IN IB] F IH]; intro U; [reflexivity|]. inversion U as [|? ? U1 U2]; subst. cbn [flat_map]. rewrite map_app. rewrite (IH F U2). f_equal.
      unfold variant_chunks. destruct (v_body v) as [|n s i o]; [reflexivity|]. destruct (IB n s i o eq_refl) as [PN IS]. destruct (CT n s PN IS) as (T & NE & _).
      unfold conditional. rewrite U1. cbn [map]. rewrite (text_app _ _ NE), T. unfold label_chunks. cbn [text str]. rewrite TN, !sapp_assoc. reflexivity.
    - unfold default_chunks, some_empty. destruct (existsb _ vs); reflexivity.
  Qed.
End Enum.
Lemma one_qualified' : forall w f m x r, In x after_operand -> 2 <= m -> one m ([Id w; Op "::"; Id f] ++ Op x :: r) = Some (CLeaf (w ++ "::" ++ f), Op x :: r).
Proof.
  intros w f m x r I L. destruct (le_plus _ _ L) as (k & ->). cbn [Nat.add app].
  transitivity (members (S k) (CLeaf (w ++ "::" ++ f)) (Op x :: r)); [|apply members_done, I].
  cbn in I. repeat (destruct I as [<-|I]; [reflexivity|]). destruct I.
Qed.
Lemma saying_app : forall l l', saying (l ++ l') = (saying l ++ saying l')%list. Proof. intros. apply map_app. Qed.

Section Data.
  Context {H : Heck} (fuel : nat) (b : Bindings) (t : string).
  Let c : Config := b_config b.
  Hypothesis CXX : language c = Cxx.
  Hypothesis PA : proper_attributes c = true.
  Hypothesis TW : tab_width c <> 0.
  Hypothesis BN : b_noop b = false.
  Hypothesis WR : bindings_text fuel b = Done t.
  Variable e : Enum.
  Hypothesis IE : In (AnItem (ICEnum e)) (definitions b).
  Hypothesis TE : e_tag e <> None.
  Variables other class : string.
  Hypothesis OE : other = other_name c.
  Hypothesis KE : class = e_export_name e.
  Hypothesis U : unconditional c e.
  Hypothesis N : enum_named c e.
  Let IT : S_Lex.is_ident (tag_name e) = true. Proof. rewrite ?OE, ?KE. apply N. Qed.
  Let IC : S_Lex.is_ident class = true. Proof. rewrite ?OE, ?KE. apply N. Qed.
  Let ND : NoDup (map v_export_name (e_variants e)). Proof. rewrite ?OE, ?KE. apply N. Qed.
  Let PO : plain_name other = true. Proof. rewrite ?OE, ?KE. apply N. Qed.
  Let OT : other <> "tag". Proof. rewrite ?OE, ?KE. apply N. Qed.
  Let IV : Forall (fun v => S_Lex.is_ident (v_export_name v) = true /\ forall n s i o, v_body v = VBody n s i o -> plain_name n = true /\ S_Lex.is_ident (s_export_name s) = true) (e_variants e).
  Proof. destruct N as (_ & _ & _ & _ & _ & F). eapply Forall_impl; [|exact F]. intros v [A B]. split; [exact A|]. intros n s i o E. rewrite E in B. rewrite ?OE. tauto. Qed.
  Let NO : forall v n s i o, In v (e_variants e) -> v_body v = VBody n s i o -> plain_name n = true /\ n <> other.
  Proof. intros v n s i o I E. destruct N as (_ & _ & _ & _ & _ & F). rewrite Forall_forall in F. destruct (F v I) as [_ B]. rewrite E in B. rewrite ?OE. tauto. Qed.
  Let IO : S_Lex.is_ident other = true := plain_ident _ PO.

  Lemma functions_found : exists z, within z t /\ made_of z (shown_data_functions b e).
  Proof.
    destruct (declaration_text H fuel b t _ PA TW BN WR (in_or_app _ _ _ (or_introl IE))) as (z & ps & Wi & [<-|[]] & M).
    unfold shown_enum in M. destruct (e_tag e) as [tag|] eqn:ET; [|congruence]. cond_ M Wi. do 4 right_ M Wi. cbn [only is_some] in M. do 6 right_ M Wi. left_ M Wi. eauto.
  Qed.
  Lemma methods_found : exists z, within z t /\ made_of z (
      only (wanted (e_annotations e) "derive-helper-methods" (en_derive_helper_methods (enumeration c))) (flat_map (shown_helpers b e) (e_variants e)) ++
      only (Enum_can_derive_eq e && wanted (e_annotations e) "derive-eq" (st_derive_eq (structure c)))
         (own_attributes (e_annotations e) "eq" ++
          method ("bool operator==(const " ++ class ++ "& " ++ other ++ ") const")
            ([say ("if (tag != " ++ other ++ ".tag)"); say "{"; say "return false;"; say "}"] ++
             shown_switch b e (fun m _ => "return " ++ m ++ " == " ++ other ++ "." ++ m ++ ";")%string ++ [say "return true;"]) ++
          only (wanted (e_annotations e) "derive-neq" (st_derive_neq (structure c)))
            (own_attributes (e_annotations e) "neq" ++ method ("bool operator!=(const " ++ class ++ "& " ++ other ++ ") const") [say ("return !(*this == " ++ other ++ ");")])) ++
      only (wanted (e_annotations e) "private-default-tagged-enum-constructor" (en_private_default_tagged_enum_constructor (enumeration c)))
         ([say "private:"] ++ method (class ++ "()") [] ++ [say "public:"]) ++
      only (wanted (e_annotations e) "derive-tagged-enum-destructor" (en_derive_tagged_enum_destructor (enumeration c)))
         (own_attributes (e_annotations e) "destructor" ++ method ("~" ++ class ++ "()") (shown_switch b e (fun m s => m ++ ".~" ++ s_export_name s ++ "(); break;")%string)) ++
      only (wanted (e_annotations e) "derive-tagged-enum-copy-constructor" (en_derive_tagged_enum_copy_constructor (enumeration c)))
         (own_attributes (e_annotations e) "copy-constructor" ++ [say (class ++ "(const " ++ class ++ "& " ++ other ++ ")")] ++
          method (": tag(" ++ other ++ ".tag)")
            (shown_switch b e (fun m s => "::new (&" ++ m ++ ") (" ++ s_export_name s ++ ")(" ++ other ++ "." ++ m ++ "); break;")%string) ++
          only (wanted (e_annotations e) "derive-tagged-enum-copy-assignment" (en_derive_tagged_enum_copy_assignment (enumeration c)))
            (own_attributes (e_annotations e) "copy-assignment" ++
             method (class ++ "& operator=(const " ++ class ++ "& " ++ other ++ ")")
               (method ("if (this != &" ++ other ++ ")") [say ("this->~" ++ class ++ "();"); say ("new (this) " ++ class ++ "(" ++ other ++ ");")] ++ [say "return *this;"]))))%list.
  Proof.
    destruct functions_found as (z & Wi & M). exists z. split; [exact Wi|]. unfold shown_data_functions in M. rewrite (cxx_yes b CXX) in M. rewrite OE, KE. exact M.
  Qed.

  (** *** [operator==] *)
  Definition equal_chunks (n : string) (s : Struct) : list chunk := [W "return"; B; W n; B; P "=="; B; W other; P "."; W n; P ";"].
  Definition equal_text (n : string) (s : Struct) : string := "return " ++ n ++ " == " ++ other ++ "." ++ n ++ ";".
  Lemma equal_ct : forall n s, plain_name n = true -> S_Lex.is_ident (s_export_name s) = true ->
    text (equal_chunks n s) = equal_text n s /\ equal_chunks n s <> [] /\ good (equal_chunks n s) = true /\ last (equal_chunks n s) B = P ";"
    /\ block_reads (toks (equal_chunks n s)) [SReturn (cmpe "==" other n)].
  Proof.
    intros n s PN IS. split; [reflexivity|]. split; [discriminate|]. split; [|split; [reflexivity|]].
    - unfold equal_chunks. cbn [good]. rewrite (plain_ident _ PN), IO. reflexivity.
    - change (toks (equal_chunks n s)) with (Id "return" :: cmp "==" other n ++ [Op ";"])%list. apply block_one, return_reads; [reflexivity|apply expr_cmp; cbn; auto].
  Qed.
  Theorem data_equal : Enum_can_derive_eq e = true -> wanted (e_annotations e) "derive-eq" (st_derive_eq (structure c)) = true ->
    exists m, within m t /\ is_method m (operator_head "==" class other) (equal_body e other).
  Proof.
    intros CE WA. destruct methods_found as (z & Wi & M). rewrite CE, WA in M. cbn [andb only] in M. right_ M Wi. left_ M Wi. right_ M Wi. left_ M Wi. 
    eexists. split; [exact Wi|]. pose proof (switch_block (tag_name e) (e_variants e) e eq_refl eq_refl IV equal_text equal_chunks (fun n _ => [SReturn (cmpe "==" other n)]) equal_ct) as (us & EU & R).
    change (fun m _ => "return " ++ m ++ " == " ++ other ++ "." ++ m ++ ";")%string with equal_text in M.
    rewrite (switch_said (tag_name e) (e_variants e) e eq_refl eq_refl IV equal_text equal_chunks (fun n _ => [SReturn (cmpe "==" other n)]) equal_ct b U) in M.
    set (sc := switch_chunks (tag_name e) (e_variants e) equal_chunks) in *.
    apply (method_read (head_chunks "==" other class :: [P "{"] :: [W "if"; B; P "("; W "tag"; B; P "!="; B; W other; P "."; W "tag"; P ")"] :: [P "{"] :: [W "return"; B; W "false"; P ";"] :: [P "}"]
        :: sc ++ [[W "return"; B; W "true"; P ";"]; [P "}"]]) _ _
      ((Id "if" :: Op "(" :: cmp "!=" other "tag" ++ Op ")" :: Op "{" :: (Id "return" :: [Id "false"] ++ [Op ";"]) ++ [Op "}"]) ++ us ++ (Id "return" :: [Id "true"] ++ [Op ";"]))%list).
    - unfold method in M. revert M. unfold saying. cbn [map app]. rewrite map_app. rewrite <- !app_assoc. cbn [map app]. exact (fun M => M).
    - apply linked_closed. cbn [forallb]. rewrite forallb_app. unfold sc. rewrite (switch_closed (tag_name e) (e_variants e) IT IV equal_text equal_chunks (fun n _ => [SReturn (cmpe "==" other n)]) equal_ct).
      unfold closed. cbn -[S_Lex.is_ident]. rewrite IC, IO. reflexivity.
    - cbn [flat_map]. rewrite flat_map_app, EU. cbn. rewrite <- !app_assoc. reflexivity.
    - apply block_cons; [apply if_reads; [apply expr_cmp; cbn; auto|apply block_one, return_reads; [reflexivity|apply expr_word]]|].
      apply block_cons; [exact R|apply block_one, return_reads; [reflexivity|apply expr_word]].
  Qed.
  Lemma enum_can : enum_equated e -> Enum_can_derive_eq e = true.
  Proof.
    intro F. unfold Enum_can_derive_eq. destruct (e_tag e); [|congruence]. apply forallb_forall. unfold enum_equated in F. rewrite Forall_forall in F. intros v I. pose proof (F v I) as A.
    destruct (v_body v); [reflexivity|]. apply derive_eq_can, A.
  Qed.
  Theorem equality_found : enum_equated e -> wanted (e_annotations e) "derive-eq" (st_derive_eq (structure c)) = true ->
    exists m body, within m t /\ is_method m (operator_head "==" class other) body
      /\ forall W self x a u, wo_member W self "tag" = Some a -> wo_member W x "tag" = Some u ->
         (wo_compare W "!=" a u = Some true -> returns W body self [(other, x)] self (Truth false))
         /\ (wo_compare W "!=" a u = Some false -> forall v, In v (e_variants e) -> tag_of W e a v ->
              match data_name v with
              | Some n => forall r, member_compares W "==" self x n r -> returns W body self [(other, x)] self (Truth r)
              | None => returns W body self [(other, x)] self (Truth true)
              end).
  Proof.
    intros CE WA. destruct (data_equal (enum_can CE) WA) as (m & Wi & M). exists m, (equal_body e other). split; [exact Wi|]. split; [exact M|].
    intros Wo self x a u T1 T2. split; [exact (equal_differs Wo e other self x PO OT a u T1 T2)|]. intros C v I T. unfold data_name. destruct (v_body v) as [an|n s i o] eqn:BV.
    - exact (equal_empty Wo e other self x PO OT ND a u T1 T2 v an C I T BV).
    - intros r (a1 & b1 & A1 & B1 & R). destruct (NO v n s i o I BV) as [PN NN]. exact (equal_data Wo e other self x PO OT ND a u T1 T2 v n s i o a1 b1 r C I T BV PN NN A1 B1 R).
  Qed.

  (** *** [operator!=] *)
  Theorem inequality_found : enum_equated e -> wanted (e_annotations e) "derive-eq" (st_derive_eq (structure c)) = true ->
    wanted (e_annotations e) "derive-neq" (st_derive_neq (structure c)) = true ->
    exists m body, within m t /\ is_method m (operator_head "!=" class other) body
      /\ forall W self x r, wo_compare W "==" self x = Some r -> returns W body self [(other, x)] self (Truth (negb r)).
  Proof.
    intros CE WA WN. destruct methods_found as (z & Wi & M). rewrite (enum_can CE), WA, WN in M. cbn [andb only] in M. right_ M Wi. left_ M Wi. right_ M Wi. right_ M Wi. right_ M Wi.
    eexists. exists [SReturn (CUn "!" (CBin "==" (CUn "*" (CLeaf "this")) (CLeaf other)))]. split; [exact Wi|]. split.
    - apply (method_read [head_chunks "!=" other class; [P "{"]; [W "return"; B; P "!"; P "("; P "*"; W "this"; B; P "=="; B; W other; P ")"; P ";"]; [P "}"]] _ _
        (Id "return" :: (Op "!" :: (Op "(" :: ([Op "*"; Id "this"] ++ Op "==" :: [Id other]) ++ [Op ")"])) ++ [Op ";"])%list).
      + exact M.
      + apply linked_closed. unfold closed. cbn -[S_Lex.is_ident]. rewrite IC, IO. reflexivity.
      + reflexivity.
      + apply block_one, return_reads; [reflexivity|].
        assert (X : expr_reads ([Op "*"; Id "this"] ++ Op "==" :: [Id other]) (CBin "==" (CUn "*" (CLeaf "this")) (CLeaf other))).
        { eapply (expr_bin "==" _ _ _ _ 3); [reflexivity|reflexivity|cbn; tauto|apply one_prefix'; [cbn; auto|apply one_word']|]. intros m x r I L. apply one_word'; [exact I|lia]. }
        destruct (one_paren ([Op "*"; Id "this"] ++ Op "==" :: [Id other]) _ eq_refl ltac:(discriminate) X) as (n & R).
        eapply expr_one. apply one_prefix'; [cbn; auto|exact R].
    - intros Wo self x r C. apply returns_value. 
      pose proof (eval_compare Wo self [(other, x)] "==" (CUn "*" (CLeaf "this")) (CLeaf other) self x (or_introl eq_refl) (eval_this Wo self _) (eval_other Wo other self x PO)) as E.
      rewrite C in E. change (eval Wo self [(other, x)] (CUn "!" (CBin "==" (CUn "*" (CLeaf "this")) (CLeaf other))))
        with (option_map (fun x => @Truth Wo (negb x)) (as_truth Wo (eval Wo self [(other, x)] (CBin "==" (CUn "*" (CLeaf "this")) (CLeaf other))))).
      rewrite E. reflexivity.
  Qed.

  (** *** [IsV] *)
  Theorem is_found : forall v, In v (e_variants e) -> wanted (e_annotations e) "derive-helper-methods" (en_derive_helper_methods (enumeration c)) = true ->
    exists m body, within m t /\ is_method m (is_head v) body
      /\ forall W self a v0, wo_member W self "tag" = Some a -> wo_member W self (enumerator e v) = None -> In v0 (e_variants e) -> tag_of W e a v0 ->
         returns W body self [] self (Truth (String.eqb (v_export_name v) (v_export_name v0))).
  Proof.
    intros v I WA. destruct methods_found as (z & Wi & M). rewrite WA in M. cbn [only] in M. left_ M Wi. member_ I M Wi. unfold shown_helpers in M. cond_ M Wi. right_ M Wi. left_ M Wi.
    unfold shown_is in M. right_ M Wi. 
    assert (IN : S_Lex.is_ident (v_export_name v) = true) by (rewrite Forall_forall in IV; apply IV, I).
    assert (II : S_Lex.is_ident ("Is" ++ v_export_name v) = true).
    { revert IN. generalize (v_export_name v). intros w K. destruct w as [|ch w]; [discriminate|]. cbn -[S_Lex.wordchar] in K |- *. apply andb_prop in K as [_ K]. exact K. }
    eexists. exists [SReturn (CBin "==" (CLeaf "tag") (CLeaf (enumerator e v)))]. split; [exact Wi|]. split.
    - apply (method_read [[W "bool"; B; W ("Is" ++ v_export_name v); P "("; P ")"; B; W "const"]; [P "{"]; [W "return"; B; W "tag"; B; P "=="; B; W (tag_name e); P "::"; W (v_export_name v); P ";"]; [P "}"]] _ _
        (Id "return" :: ([Id "tag"] ++ Op "==" :: [Id (tag_name e); Op "::"; Id (v_export_name v)]) ++ [Op ";"])%list).
      + exact M.
      + apply linked_closed. revert II. generalize ("Is" ++ v_export_name v)%string. intros w IW. unfold closed. cbn -[S_Lex.is_ident]. rewrite IW, IT, IN. reflexivity.
      + reflexivity.
      + apply block_one, return_reads; [reflexivity|]. eapply (expr_bin "==" _ _ _ _ 2); [reflexivity|reflexivity|cbn; tauto|apply one_word'|apply one_qualified'].
    - intros Wo self a v0 T1 NM I0 T. apply returns_value. destruct (T v I) as (k & K & C).
      rewrite (eval_compare Wo self [] "==" (CLeaf "tag") (CLeaf (enumerator e v)) a k (or_introl eq_refl)); [rewrite C; reflexivity|exact (eval_leaf Wo self [] "tag" a eq_refl eq_refl T1)|].
      apply eval_named; [| | |reflexivity|exact NM|exact K].
      all: unfold enumerator; apply String.eqb_neq; intro Q.
      all: assert (Z : exists p q : string, (tag_name e ++ "::" ++ v_export_name v = p ++ "::" ++ q)%string) by (eexists; eexists; reflexivity); rewrite Q in Z; destruct Z as (p & q & Z).
      all: repeat (destruct p as [|? p]; [discriminate Z|]; injection Z as _ Z); destruct p; discriminate Z.
  Qed.

  (** *** The destructor *)
  Definition end_chunks (n : string) (s : Struct) : list chunk := [W n; P "."; P "~"; W (s_export_name s); P "("; P ")"; P ";"; B; W "break"; P ";"].
  Definition end_text (n : string) (s : Struct) : string := n ++ ".~" ++ s_export_name s ++ "(); break;".
  Lemma end_ct : forall n s, plain_name n = true -> S_Lex.is_ident (s_export_name s) = true ->
    text (end_chunks n s) = end_text n s /\ end_chunks n s <> [] /\ good (end_chunks n s) = true /\ last (end_chunks n s) B = P ";"
    /\ block_reads (toks (end_chunks n s)) [SDestroy n (s_export_name s); SBreak].
  Proof.
    intros n s PN IS. split; [reflexivity|]. split; [discriminate|]. split; [|split; [reflexivity|]].
    - unfold end_chunks. cbn -[S_Lex.is_ident]. rewrite (plain_ident _ PN), IS. reflexivity.
    - change (toks (end_chunks n s)) with ([Id n; Op "."; Op "~"; Id (s_export_name s); Op "("; Op ")"; Op ";"] ++ [Id "break"; Op ";"])%list.
      apply block_cons; [apply destroy_reads, PN|apply block_one, break_reads].
  Qed.
  Theorem destructor_found : wanted (e_annotations e) "derive-tagged-enum-destructor" (en_derive_tagged_enum_destructor (enumeration c)) = true ->
    exists m body, within m t /\ is_method m (destructor_head class) body
      /\ forall W self a v, wo_member W self "tag" = Some a -> In v (e_variants e) -> tag_of W e a v ->
         match data_name v with
         | Some n => forall self', wo_without W self n = Some self' -> leaves W body self [] self'
         | None => leaves W body self [] self
         end.
  Proof.
    intros WA. destruct methods_found as (z & Wi & M). rewrite WA in M. cbn [only] in M. do 3 right_ M Wi. left_ M Wi. right_ M Wi.
    eexists. exists (switch_body e (fun n s => SDestroy n (s_export_name s))). split; [exact Wi|]. split.
    - change (fun m s => m ++ ".~" ++ s_export_name s ++ "(); break;")%string with end_text in M.
      pose proof (switch_block (tag_name e) (e_variants e) e eq_refl eq_refl IV end_text end_chunks (fun n s => [SDestroy n (s_export_name s); SBreak]) end_ct) as (us & EU & R).
      rewrite (switch_said (tag_name e) (e_variants e) e eq_refl eq_refl IV end_text end_chunks (fun n s => [SDestroy n (s_export_name s); SBreak]) end_ct b U) in M.
      set (sc := switch_chunks (tag_name e) (e_variants e) end_chunks) in *.
      apply (method_read ([P "~"; W class; P "("; P ")"] :: [P "{"] :: sc ++ [[P "}"]]) _ _ us).
      + unfold method in M. revert M. unfold saying. cbn [map app]. rewrite map_app. exact (fun M => M).
      + apply linked_closed. cbn [forallb]. rewrite forallb_app. unfold sc. rewrite (switch_closed (tag_name e) (e_variants e) IT IV end_text end_chunks (fun n s => [SDestroy n (s_export_name s); SBreak]) end_ct).
        unfold closed. cbn -[S_Lex.is_ident]. rewrite IC. reflexivity.
      + cbn [flat_map]. rewrite flat_map_app, EU. reflexivity.
      + apply block_one, R.
    - intros Wo self a v T1 I T. unfold data_name. destruct (v_body v) as [an|n s i o] eqn:BV.
      + exact (switch_empty Wo e _ self [] a ND T1 eq_refl v an I T BV).
      + intros self' K. apply (switch_data Wo e _ self [] a ND T1 eq_refl v n s i o self' I T BV). intros k l. cbn [S_Method.exec]. rewrite K. reflexivity.
  Qed.

  (** *** The copy constructor *)
  Definition copy_chunks (n : string) (s : Struct) : list chunk :=
    [P "::"; W "new"; B; P "("; P "&"; W n; P ")"; B; P "("; W (s_export_name s); P ")"; P "("; W other; P "."; W n; P ")"; P ";"; B; W "break"; P ";"].
  Definition copy_text (n : string) (s : Struct) : string := "::new (&" ++ n ++ ") (" ++ s_export_name s ++ ")(" ++ other ++ "." ++ n ++ "); break;".
  Lemma copy_ct : forall n s, plain_name n = true -> S_Lex.is_ident (s_export_name s) = true ->
    text (copy_chunks n s) = copy_text n s /\ copy_chunks n s <> [] /\ good (copy_chunks n s) = true /\ last (copy_chunks n s) B = P ";"
    /\ block_reads (toks (copy_chunks n s)) [SNew n (s_export_name s) (CDot (CLeaf other) n); SBreak].
  Proof.
    intros n s PN IS. split; [reflexivity|]. split; [discriminate|]. split; [|split; [reflexivity|]].
    - unfold copy_chunks. cbn -[S_Lex.is_ident]. rewrite (plain_ident _ PN), IS, IO. reflexivity.
    - change (toks (copy_chunks n s)) with (([Op "::"; Id "new"; Op "("; Op "&"; Id n; Op ")"; Op "("; Id (s_export_name s); Op ")"; Op "("] ++ [Id other; Op "."; Id n] ++ [Op ")"; Op ";"]) ++ [Id "break"; Op ";"])%list.
      apply block_cons; [apply new_reads, expr_dot|apply block_one, break_reads].
  Qed.
  Theorem copy_found : wanted (e_annotations e) "derive-tagged-enum-copy-constructor" (en_derive_tagged_enum_copy_constructor (enumeration c)) = true ->
    exists m body, within m t /\ is_method m (copy_head class other) body
      /\ forall W self x a v, wo_member W self "tag" = Some a -> In v (e_variants e) -> tag_of W e a v ->
         match data_name v with
         | Some n => forall d self', wo_member W x n = Some d -> wo_with W self n d = Some self' -> leaves W body self [(other, x)] self'
         | None => leaves W body self [(other, x)] self
         end.
  Proof.
    intros WA. destruct methods_found as (z & Wi & M). rewrite WA in M. cbn [only] in M. do 5 right_ M Wi. rewrite app_assoc in M. left_ M Wi.
    eexists. exists (switch_body e (fun n s => SNew n (s_export_name s) (CDot (CLeaf other) n))). split; [exact Wi|]. split.
    - change (fun m s => "::new (&" ++ m ++ ") (" ++ s_export_name s ++ ")(" ++ other ++ "." ++ m ++ "); break;")%string with copy_text in M.
      pose proof (switch_block (tag_name e) (e_variants e) e eq_refl eq_refl IV copy_text copy_chunks (fun n s => [SNew n (s_export_name s) (CDot (CLeaf other) n); SBreak]) copy_ct) as (us & EU & R).
      rewrite (switch_said (tag_name e) (e_variants e) e eq_refl eq_refl IV copy_text copy_chunks (fun n s => [SNew n (s_export_name s) (CDot (CLeaf other) n); SBreak]) copy_ct b U) in M.
      set (sc := switch_chunks (tag_name e) (e_variants e) copy_chunks) in *.
      apply (method_read ([W class; P "("; W "const"; B; W class; P "&"; B; W other; P ")"] :: [P ":"; B; W "tag"; P "("; W other; P "."; W "tag"; P ")"] :: [P "{"] :: sc ++ [[P "}"]]) _ _ us).
      + unfold method in M. revert M. unfold saying. cbn [map app]. rewrite map_app. exact (fun M => M).
      + apply linked_closed. cbn [forallb]. rewrite forallb_app. unfold sc. rewrite (switch_closed (tag_name e) (e_variants e) IT IV copy_text copy_chunks (fun n s => [SNew n (s_export_name s) (CDot (CLeaf other) n); SBreak]) copy_ct).
        unfold closed. cbn -[S_Lex.is_ident]. rewrite IC, IO. reflexivity.
      + cbn [flat_map]. rewrite flat_map_app, EU. reflexivity.
      + apply block_one, R.
    - intros Wo self x a v T1 I T. assert (NT : lookup "tag" [(other, x)] = None).
      { cbn [lookup]. rewrite (proj2 (String.eqb_neq "tag" other)); [reflexivity|congruence]. }
      unfold data_name. destruct (v_body v) as [an|n s i o] eqn:BV.
      + exact (switch_empty Wo e _ self _ a ND T1 NT v an I T BV).
      + intros d self' D K. apply (switch_data Wo e _ self _ a ND T1 NT v n s i o self' I T BV). intros k l. cbn [S_Method.exec].
        assert (E : eval Wo self [(other, x)] (CDot (CLeaf other) n) = Some (Value d)) by (eapply eval_dot; [apply eval_other, PO|exact D]).
        rewrite E, K. reflexivity.
  Qed.
End Data.

(** ** Flags, found *)
Section FlagsFound.
  Context {H : Heck} (fuel : nat) (b : Bindings) (t : string).
  Let c : Config := b_config b.
  Hypothesis CXX : language c = Cxx.
  Hypothesis PA : proper_attributes c = true.
  Hypothesis TW : tab_width c <> 0.
  Hypothesis BN : b_noop b = false.
  Hypothesis WR : bindings_text fuel b = Done t.
  Variables (s : Struct) (f : Field).
  Hypothesis SD : struct_declared b s.
  Hypothesis WA : wanted (s_annotations s) "internal-derive-bitflags" false = true.
  Hypothesis SF : s_fields s = [f].
  Let class : string := s_export_name s.
  Let bits : string := fd_name f.
  Let other : string := other_name c.
  Let ce : bool := co_allow_constexpr (constant c).
  Hypothesis IC : S_Lex.is_ident class = true.
  Hypothesis PB : plain_name bits = true.
  Hypothesis PO : plain_name other = true.
  Hypothesis BO : bits <> other.
  Let cs : string := if ce then "constexpr " else "".
  Lemma flags_found : exists z, within z t /\ made_of z
    (method (cs ++ "explicit operator bool() const") [say ("return !!" ++ bits ++ ";")] ++
     method (cs ++ class ++ " operator~() const") [say (make_text class bits ("~" ++ bits))] ++
     flat_map (fun op =>
       method (cs ++ class ++ " operator" ++ op ++ "(const " ++ class ++ "& " ++ other ++ ") const") [say (make_text class bits ("this->" ++ bits ++ " " ++ op ++ " " ++ other ++ "." ++ bits))] ++
       method (class ++ "& operator" ++ op ++ "=(const " ++ class ++ "& " ++ other ++ ")") [say ("*this = (*this " ++ op ++ " " ++ other ++ ");"); say "return *this;"]) ["|"; "&"; "^"])%list.
  Proof.
    destruct (struct_found fuel b t CXX PA TW BN WR s SD) as (z & Wi & M). destruct (derived_found fuel b t CXX s z Wi M) as (z2 & W2 & M2). clear z Wi M. rename W2 into Wi, M2 into M.
    unfold shown_derived in M. cbn zeta in M. unfold asked at 2 in M. unfold wanted in WA. rewrite WA in M. cbn [only] in M. right_ M Wi. left_ M Wi.
    unfold shown_bitflags in M. rewrite SF in M. eexists. split; [exact Wi|exact M].
  Qed.
  Theorem bool_found : exists m body, within m t /\ is_method m (const_words c ++ [Id "explicit"; Id "operator"; Id "bool"; Op "("; Op ")"; Id "const"]) body
    /\ forall W self a r, wo_member W self bits = Some a -> wo_truth W a = Some r -> returns W body self [] self (Truth r).
  Proof.
    destruct flags_found as (z & Wi & M). left_ M Wi. eexists; eexists. split; [exact Wi|]. split; [exact (bool_read ce bits PB _ M)|]. intros Wo self a r. exact (bool_runs bits PB Wo self a r).
  Qed.
  Theorem complement_found : exists m body, within m t /\ is_method m (const_words c ++ [Id class; Id "operator"; Op "~"; Op "("; Op ")"; Id "const"]) body
    /\ forall W self a v o, wo_member W self bits = Some a -> wo_complement W a = Some v -> wo_make W class bits v = Some o -> returns W body self [] self (Value o).
  Proof.
    destruct flags_found as (z & Wi & M). right_ M Wi. left_ M Wi. eexists; eexists. split; [exact Wi|]. split; [exact (complement_read ce class bits IC PB _ M)|].
    intros Wo self a v o. exact (complement_runs class bits PB Wo self a v o).
  Qed.
  Theorem flag_found : forall op, In op ["|"; "&"; "^"] ->
    exists m body, within m t /\ is_method m (const_words c ++ binary_head op class other) body
    /\ forall W self x a d v o, wo_member W self bits = Some a -> wo_member W x bits = Some d -> wo_operate W op a d = Some v -> wo_make W class bits v = Some o ->
       returns W body self [(other, x)] self (Value o).
  Proof.
    intros op O. destruct flags_found as (z & Wi & M). do 2 right_ M Wi. member_ O M Wi. left_ M Wi. eexists; eexists. split; [exact Wi|].
    split; [exact (flag_read ce class bits other IC PB PO op O _ M)|]. intros Wo self x a d v o. exact (flag_runs class bits other PO op O Wo self x a d v o).
  Qed.
  Theorem assign_found : forall op, In op ["|"; "&"; "^"] ->
    exists m body, within m t /\ is_method m (assign_head op class other) body
    /\ forall W self x o, wo_operate W op self x = Some o -> returns W body self [(other, x)] o (Value o).
  Proof.
    intros op O. destruct flags_found as (z & Wi & M). do 2 right_ M Wi. member_ O M Wi. right_ M Wi. eexists; eexists. split; [exact Wi|].
    split; [exact (assign_read ce class other IC PO op O _ M)|]. intros Wo self x o. exact (assign_runs other PO op O Wo self x o).
  Qed.
End FlagsFound.
