(** Proofs for C19: what is written for a type reads back as that type. *)
Require Import Coq.Strings.String Coq.Strings.Ascii Coq.Lists.List Coq.Bool.Bool Coq.Arith.Arith Coq.micromega.Lia.
From Verif Require Import Base P_Base S_Lex M_Config M_Writer S_Writer P_Writer M_Type M_Ir P_Type M_Cdecl S_Decl P_Tokens.
Import ListNotations.
Open Scope string_scope.

(** ** The declaration built for a type *)
Definition prefix (ds : list CDeclarator) (d : CDecl) : CDecl :=
  match d with Decl q n gs ds2 ct dep => Decl q n gs (ds ++ ds2) ct dep end.
Definition with_deprecated (x : option string) (d : CDecl) : CDecl :=
  match d with Decl q n gs ds ct _ => Decl q n gs ds ct x end.

Section Config.
  Variable c : Config.

  Definition const_word (q : bool) : string := if q then "const" else "".
  Fixpoint decl_of (q : bool) (t : Ty) : CDecl :=
    match t with
    | TPath (GPath _ e gs ct) =>
        Decl (const_word q) e (map (fun g => match g with GType u => CType (decl_of false u) | GConst x => CConst (ConstExpr_as_str x) end) gs) [] ct None
    | TPrim p => Decl (const_word q) (to_repr_c c p) [] [] None None
    | TPtr u k n r => prefix [CdPtr q n r] (decl_of k u)
    | TArray u len => prefix [CdArray (ConstExpr_as_str len)] (decl_of q u)
    | TFuncPtr ret args _ nv =>
        prefix [CdPtr false true false; CdFunc (map (fun a => (fst a, decl_of false (snd a))) args) (fn_args (function c)) nv] (decl_of false ret)
    end.

  Lemma prefix_prefix : forall a b d, prefix a (prefix b d) = prefix (a ++ b) d.
  Proof. intros a b [q n gs ds ct dep]. cbn. rewrite app_assoc. reflexivity. Qed.
  Lemma map_opt_total : forall {A B} (f : A -> option B) (g : A -> B) l, Forall (fun x => f x = Some (g x)) l -> map_opt f l = Some (map g l).
  Proof. intros A B f g l Hl. induction Hl as [|x l Hx Hl IH]; [reflexivity|]. cbn. rewrite Hx, IH. reflexivity. Qed.

  Lemma undeprecated : forall u b, with_deprecated None (decl_of b u) = decl_of b u.
  Proof.
    induction u as [u IH k n r|[p e gs ct]|p|u IH e|ret IH args n nv]; intros b; cbn [decl_of]; try reflexivity.
    - specialize (IH k). destruct (decl_of k u). cbn in *. inversion IH. reflexivity.
    - specialize (IH b). destruct (decl_of b u). cbn in *. inversion IH. reflexivity.
    - specialize (IH false). destruct (decl_of false ret). cbn in *. inversion IH. reflexivity.
  Qed.
  Lemma prefix_nil : forall d, prefix [] d = d.
  Proof. intros []. reflexivity. Qed.

  Lemma build_decl : forall t q ds dep,
    build_type c (Decl "" "" [] ds None dep) t q = Some (with_deprecated dep (prefix ds (decl_of q t))).
  Proof.
    apply (Ty_only_ind (fun t => forall q ds dep, build_type c (Decl "" "" [] ds None dep) t q = Some (with_deprecated dep (prefix ds (decl_of q t))))).
    - intros t k n r IH q ds dep. cbn [build_type decl_of push_declarator]. rewrite IH, prefix_prefix. reflexivity.
    - intros p e gs ct Hgs q ds dep. cbn [build_type decl_of].
      assert (E : qualify q (Decl "" "" [] ds None dep) = Some (Decl (const_word q) "" [] ds None dep)) by (destruct q; reflexivity).
      rewrite E. cbn [String.eqb negb is_nil].
      rewrite map_opt_total with (g := fun g => match g with GType u => CType (decl_of false u) | GConst x => CConst (ConstExpr_as_str x) end).
      + cbn [prefix with_deprecated]. rewrite app_nil_r. reflexivity.
      + eapply Forall_impl; [|exact Hgs]. intros [u|x] Hu; [|reflexivity]. unfold CDecl_new. cbn [arg_ty] in Hu.
        rewrite Hu, prefix_nil, undeprecated. reflexivity.
    - intros p q ds dep. cbn [build_type decl_of].
      assert (E : qualify q (Decl "" "" [] ds None dep) = Some (Decl (const_word q) "" [] ds None dep)) by (destruct q; reflexivity).
      rewrite E. cbn [String.eqb negb prefix with_deprecated]. rewrite app_nil_r. reflexivity.
    - intros t e IH q ds dep. cbn [build_type decl_of push_declarator]. rewrite IH, prefix_prefix. reflexivity.
    - intros r args n nv IH Hargs q ds dep. cbn [build_type decl_of push_declarator].
      rewrite map_opt_total with (g := fun a => (fst a, decl_of false (snd a))).
      + rewrite <- app_assoc. cbn [app]. rewrite IH, prefix_prefix. reflexivity.
      + eapply Forall_impl; [|exact Hargs]. intros [x u] Hu. cbn [fst snd] in *. unfold CDecl_new.
        rewrite Hu, prefix_nil, undeprecated. reflexivity.
  Qed.
  Lemma from_type_decl : forall t q, build_type c CDecl_new t q = Some (decl_of q t).
  Proof. intros t q. unfold CDecl_new. rewrite build_decl, prefix_nil, undeprecated. reflexivity. Qed.

  (** ** Reading: results that hold for enough steps *)
  Definition ev {A} (f : nat -> nat -> option A) (r : A) : Prop := exists n, forall a b, n <= a -> n <= b -> f a b = Some r.
  Notation dial := (dialect_of c).
  Notation decl a := (declaration dial a).
  Definition reads (us : list tok) (x : option string) (t : ctype) (rest : list tok) : Prop :=
    ev (fun a _ => decl a (us ++ rest)) (x, t, rest).
  Definition suf (ts : list tok) := ev (fun a b => suffixes dial (decl a) b ts).
  Definition dec (ts : list tok) := ev (fun a b => declarator dial (decl a) b ts).

  Inductive stop : list tok -> Prop :=
  | st_nil : stop [] | st_close : forall r, stop (P ")" :: r) | st_comma : forall r, stop (P "," :: r) | st_gt : forall r, stop (P ">" :: r).
  Inductive follow : list tok -> Prop :=
  | fo_stop : forall r, stop r -> follow r
  | fo_bracket : forall r, follow (P "[" :: r)
  | fo_word : forall w r, follow (P "(" :: W w :: r)
  | fo_empty : forall r, follow (P "(" :: P ")" :: r).

  Lemma suf_stop : forall r, stop r -> suf r ([], r).
  Proof. intros r Hr. exists 1. intros a [|b] _ Hb; [lia|]. destruct Hr; reflexivity. Qed.
  Lemma pointers_follow : forall Y acc, follow Y -> pointers dial acc Y = (acc, Y).
  Proof. intros Y acc []; try reflexivity. destruct H; reflexivity. Qed.

  (** [X]: a name, or a parenthesised declarator, with suffixes *)
  Definition direct (X : list tok) (x : option string) (ps : list piece) : Prop :=
    forall Y l r, follow Y -> suf Y (l, r) ->
      (forall acc, pointers dial acc (X ++ Y) = (acc, X ++ Y)%list)
      /\ forall Q qs, pointers dial [] (Q ++ X ++ Y) = (qs, X ++ Y)%list -> dec (Q ++ X ++ Y) (x, (ps ++ l ++ qs)%list, r).
  (** [X]: pointers before such *)
  Inductive star : list tok -> Prop := star_ptr : forall r, star (P "*" :: r) | star_ref : forall r, star (P "&" :: r).
  Definition pointing (X : list tok) (x : option string) (ps : list piece) : Prop :=
    exists Q X0 ps0 qs, X = (Q ++ X0)%list /\ ps = (ps0 ++ qs)%list /\ star Q /\ direct X0 x ps0
      /\ forall acc Y l r, follow Y -> suf Y (l, r) -> pointers dial acc (Q ++ X0 ++ Y) = ((qs ++ acc)%list, (X0 ++ Y)%list).

  Lemma direct_name : forall n, reserved dial n = false -> direct [W n] (Some n) [].
  Proof.
    intros n Hn Y l r HY (N & HN). split.
    - intros acc. cbn [app pointers]. destruct acc as [|[b q| |] acc]; try reflexivity.
      assert (E : mem_str n ("const" :: pointer_words dial) = false).
      { unfold reserved in Hn. apply mem_str_false. intros Hin. apply mem_str_false in Hn. apply Hn. cbn [app tag_words specifier_words].
        destruct Hin as [<-|Hin]; [left; reflexivity|]. do 14 right. apply in_or_app. left. exact Hin. }
      rewrite E. reflexivity.
    - intros Q qs E. exists (S N). intros a [|b] Ha Hb; [lia|]. cbn [declarator]. rewrite E. cbn [app]. rewrite Hn, HN by lia. reflexivity.
  Qed.
  Lemma direct_none : direct [] None [].
  Proof.
    intros Y l r HY (N & HN). split; [intros acc; apply pointers_follow, HY|].
    intros Q qs E. exists (S N). intros a [|b] Ha Hb; [lia|]. cbn [declarator]. rewrite E. cbn [app].
    destruct HY as [Y Hs|Y|w Y|Y]; [destruct Hs|..]; rewrite HN by lia; reflexivity.
  Qed.

  (** A suffix and what it means *)
  Definition suffix (us : list tok) (p : piece) : Prop :=
    (forall Y, follow (us ++ Y)) /\ forall Y l r, follow Y -> suf Y (l, r) -> suf (us ++ Y) (p :: l, r).
  Lemma direct_suffix : forall X x ps us p, direct X x ps -> suffix us p -> direct (X ++ us) x (ps ++ [p]).
  Proof.
    intros X x ps us p HX [Hf Hs] Y l r HY HL. destruct (HX (us ++ Y)%list (p :: l) r (Hf Y) (Hs Y l r HY HL)) as [H1 H2].
    rewrite <- (app_assoc X). split; [exact H1|]. intros Q qs E. rewrite <- (app_assoc ps). exact (H2 Q qs E).
  Qed.
  Lemma pointing_dec : forall X x ps rest l r, pointing X x ps -> follow rest -> suf rest (l, r) -> l = [] -> dec (X ++ rest) (x, ps, r).
  Proof.
    intros X x ps rest l r (Q & X0 & ps0 & qs & -> & -> & _ & Hd & Hp) Hf HL ->. destruct (Hd rest [] r Hf HL) as [_ H2].
    specialize (Hp [] rest [] r Hf HL). rewrite app_nil_r in Hp. rewrite <- app_assoc. specialize (H2 Q qs Hp). cbn [app] in H2. exact H2.
  Qed.
  Lemma direct_dec : forall X x ps rest l r, direct X x ps -> follow rest -> suf rest (l, r) -> l = [] -> dec (X ++ rest) (x, ps, r).
  Proof.
    intros X x ps rest l r Hd Hf HL ->. destruct (Hd rest [] r Hf HL) as [H1 H2]. specialize (H2 [] [] (H1 [])). cbn [app] in H2.
    rewrite app_nil_r in H2. exact H2.
  Qed.
  Lemma group_suffix : forall X x ps us p, pointing X x ps -> suffix us p -> direct (P "(" :: X ++ P ")" :: us) x (ps ++ [p]).
  Proof.
    intros X x ps us p HX [Hf Hs] Y l r HY HL. split; [reflexivity|]. intros Q qs E.
    destruct (pointing_dec X x ps (P ")" :: us ++ Y) [] (P ")" :: us ++ Y) HX (fo_stop _ (st_close _)) (suf_stop _ (st_close _)) eq_refl) as (N1 & H1).
    destruct (Hs Y l r HY HL) as (N2 & H2). exists (S (N1 + N2)). intros a [|b] Ha Hb; [lia|]. cbn [declarator]. rewrite E.
    cbn [app]. rewrite <- app_assoc. cbn [app].
    specialize (H1 a b ltac:(lia) ltac:(lia)). specialize (H2 a b ltac:(lia) ltac:(lia)).
    assert (Hstar : exists r0, (X ++ P ")" :: us ++ Y = P "*" :: r0)%list \/ (X ++ P ")" :: us ++ Y = P "&" :: r0)%list)
      by (destruct HX as (Q0 & X0 & ps0 & qs0 & -> & _ & [] & _); eexists; [left|right]; reflexivity).
    destruct Hstar as (r0 & [Hr|Hr]); rewrite Hr in H1 |- *; cbv beta iota; rewrite H1, H2, <- app_assoc; reflexivity.
  Qed.

  Definition ptoks (k n r : bool) : list tok := P (if r then "&" else "*") :: map W (qualifiers c k n r).
  Lemma qualifiers_words : forall k n r w, In w (qualifiers c k n r) -> mem_str w ("const" :: pointer_words dial) = true.
  Proof.
    intros k n r w Hw. apply mem_str_In. unfold qualifiers in Hw. apply in_app_iff in Hw. destruct Hw as [Hw|Hw].
    - destruct k; [|destruct Hw]. destruct Hw as [<-|[]]. left. reflexivity.
    - right. cbn [pointer_words dialect_of]. apply in_or_app. destruct (for_cython c); [destruct Hw|].
      destruct n; [right; exact Hw|]. destruct r; [destruct Hw|]. left. exact Hw.
  Qed.
  Lemma pointers_quals : forall ws b q a Y, (forall w, In w ws -> mem_str w ("const" :: pointer_words dial) = true) ->
    pointers dial (DPtr b q :: a) (map W ws ++ Y) = pointers dial (DPtr b (q ++ ws) :: a) Y.
  Proof.
    induction ws as [|w ws IH]; intros b q a Y Hws; [rewrite app_nil_r; reflexivity|]. cbn [map app pointers].
    rewrite (Hws w (or_introl eq_refl)), IH by (intros v Hv; apply Hws; right; exact Hv). rewrite <- app_assoc. reflexivity.
  Qed.
  Lemma pointers_ptoks : forall k n r acc Y, pointers dial acc (ptoks k n r ++ Y) = pointers dial (DPtr r (qualifiers c k n r) :: acc) Y.
  Proof.
    intros k n r acc Y. unfold ptoks. destruct r; cbn [app pointers]; rewrite pointers_quals by (intros w; apply qualifiers_words); reflexivity.
  Qed.
  Lemma ptoks_star : forall k n r X, star (ptoks k n r ++ X).
  Proof. intros k n [] X; constructor. Qed.
  Lemma direct_pointer : forall X x ps k n r, direct X x ps -> pointing (ptoks k n r ++ X) x (ps ++ [DPtr r (qualifiers c k n r)]).
  Proof.
    intros X x ps k n r Hd. exists (ptoks k n r), X, ps, [DPtr r (qualifiers c k n r)].
    split; [reflexivity|]. split; [reflexivity|]. split; [rewrite <- (app_nil_r (ptoks k n r)); apply ptoks_star|]. split; [exact Hd|].
    intros acc Y l rest HY HL. rewrite pointers_ptoks. destruct (Hd Y l rest HY HL) as [H1 _]. apply H1.
  Qed.
  Lemma pointing_pointer : forall X x ps k n r, pointing X x ps -> pointing (ptoks k n r ++ X) x (ps ++ [DPtr r (qualifiers c k n r)]).
  Proof.
    intros X x ps k n r (Q & X0 & ps0 & qs & -> & -> & _ & Hd & Hp).
    exists (ptoks k n r ++ Q)%list, X0, ps0, (qs ++ [DPtr r (qualifiers c k n r)])%list.
    split; [apply app_assoc|]. split; [symmetry; apply app_assoc|]. split; [apply ptoks_star|]. split; [exact Hd|].
    intros acc Y l rest HY HL. rewrite <- app_assoc, pointers_ptoks, (Hp _ Y l rest HY HL), <- app_assoc. reflexivity.
  Qed.

  (** ** Declarators from the name outwards *)
  (** A declarator, its tokens (before the name for a pointer, after it otherwise), and its piece. *)
  Definition mark := (CDeclarator * list tok * piece)%type.
  Definition m_decl (m : mark) : CDeclarator := fst (fst m).
  Definition m_toks (m : mark) : list tok := snd (fst m).
  Definition m_piece (m : mark) : piece := snd m.
  Definition means (m : mark) : Prop :=
    match m_decl m with
    | CdPtr k n r => m_toks m = ptoks k n r /\ m_piece m = DPtr r (qualifiers c k n r)
    | _ => suffix (m_toks m) (m_piece m)
    end.
  (** [p]: is the declarator before a pointer or a function? *)
  Definition before (p : bool) (m : mark) : list tok :=
    match m_decl m with CdPtr _ _ _ => m_toks m | _ => if p then [P "("] else [] end.
  Definition after (p : bool) (m : mark) : list tok :=
    match m_decl m with CdPtr _ _ _ => [] | _ => ((if p then [P ")"] else []) ++ m_toks m)%list end.
  Fixpoint lefts (p : bool) (ms : list mark) : list tok :=
    match ms with [] => [] | m :: r => (lefts (declarator_is_ptr (m_decl m)) r ++ before p m)%list end.
  Fixpoint rights (p : bool) (ms : list mark) : list tok :=
    match ms with [] => [] | m :: r => (after p m ++ rights (declarator_is_ptr (m_decl m)) r)%list end.
  (** Only pointers follow a function. *)
  Definition after_function (ds : list CDeclarator) : Prop := match ds with [] | CdPtr _ _ _ :: _ => True | _ => False end.
  Fixpoint proper (ds : list CDeclarator) : Prop :=
    match ds with [] => True | CdFunc _ _ _ :: r => after_function r /\ proper r | _ :: r => proper r end.

  Inductive place := AtDirect | AtPointer | AtFunction.
  Definition at_place (k : place) (X : list tok) (x : option string) (ps : list piece) : Prop :=
    match k with AtPointer => pointing X x ps | _ => direct X x ps end.
  Definition is_ptr_place (k : place) : bool := match k with AtDirect => false | _ => true end.
  Lemma place_dec : forall k X x ps rest, at_place k X x ps -> stop rest -> dec (X ++ rest) (x, ps, rest).
  Proof.
    intros k X x ps rest HX Hr. destruct k; [eapply direct_dec|eapply pointing_dec|eapply direct_dec];
      try exact HX; try apply fo_stop, Hr; try apply suf_stop, Hr; reflexivity.
  Qed.
  Ltac regroup D :=
    match type of D with
    | _ -> _ -> _ -> _ -> dec ?a _ =>
        match goal with |- dec ?b _ => replace b with a by (repeat (rewrite <- ?app_assoc; cbn [app]); reflexivity) end
    end.
  Lemma marks_read : forall ms k X x ps rest, Forall means ms -> proper (map m_decl ms) ->
    (k = AtFunction -> after_function (map m_decl ms)) -> at_place k X x ps -> stop rest ->
    dec (lefts (is_ptr_place k) ms ++ X ++ rights (is_ptr_place k) ms ++ rest) (x, (ps ++ map m_piece ms)%list, rest).
  Proof.
    induction ms as [|m ms IH]; intros k X x ps rest Hms Hp Hk HX Hr.
    - cbn [lefts rights map app]. rewrite app_nil_r. apply (place_dec k); assumption.
    - inversion Hms as [|m' ms' Hm Hms']; subst. destruct m as [[d us] p]. cbn [map m_decl fst] in Hp, Hk.
      cbn [lefts rights map m_piece snd]. unfold before, after, means in *. cbn [m_decl m_toks m_piece fst snd] in *.
      assert (Done : forall k' X', at_place k' X' x (ps ++ [p]) -> is_ptr_place k' = declarator_is_ptr d ->
        proper (map m_decl ms) -> (k' = AtFunction -> after_function (map m_decl ms)) ->
        dec (lefts (declarator_is_ptr d) ms ++ X' ++ rights (declarator_is_ptr d) ms ++ rest) (x, (ps ++ p :: map m_piece ms)%list, rest)).
      { intros k' X' HX' E Hp' Hk'. specialize (IH k' X' x (ps ++ [p])%list rest Hms' Hp' Hk' HX' Hr).
        rewrite E, <- app_assoc in IH. exact IH. }
      destruct d as [kc n r|len|args lay nv].
      + destruct Hm as [-> ->]. cbn [app]. rewrite <- app_assoc.
        specialize (Done AtPointer (ptoks kc n r ++ X)%list). rewrite <- app_assoc in Done. apply Done; try reflexivity.
        * destruct k; [apply direct_pointer|apply pointing_pointer|apply direct_pointer]; exact HX.
        * exact Hp.
        * discriminate.
      + destruct k; cbn [is_ptr_place app]; [| |destruct (Hk eq_refl)].
        * rewrite app_nil_r. specialize (Done AtDirect (X ++ us)%list). rewrite <- app_assoc in Done. rewrite <- app_assoc. apply Done; try reflexivity; try exact Hp; try discriminate.
          apply direct_suffix; assumption.
        * specialize (Done AtDirect (P "(" :: X ++ P ")" :: us)%list).
          regroup Done.
          apply Done; try reflexivity; try exact Hp; try discriminate. apply group_suffix; assumption.
      + destruct Hp as [Hf Hp]. destruct k; cbn [is_ptr_place app]; [| |destruct (Hk eq_refl)].
        * rewrite app_nil_r. specialize (Done AtFunction (X ++ us)%list). rewrite <- app_assoc in Done. rewrite <- app_assoc. apply Done; try reflexivity; try exact Hp; try (intros _; exact Hf).
          apply direct_suffix; assumption.
        * specialize (Done AtFunction (P "(" :: X ++ P ")" :: us)%list).
          regroup Done.
          apply Done; try reflexivity; try exact Hp; try (intros _; exact Hf). apply group_suffix; assumption.
  Qed.

  (** ** Suffixes *)
  Lemma suffix_array : forall len, suffix (P "[" :: flush len ++ [P "]"]) (DArr (array_length len)).
  Proof.
    intros len. split.
    - intros Y. cbn [app]. apply fo_bracket.
    - intros Y l r HY (N & HN). exists (S N). intros a [|b] Ha Hb; [lia|]. unfold flush, array_length.
      destruct (String.eqb len ""); cbn [app suffixes]; rewrite HN by lia; reflexivity.
  Qed.
  Lemma attributes_words : forall ws Y, (forall w, In w ws -> mem_str w (function_words dial) = true) -> follow Y ->
    attributes dial (map W ws ++ Y) = (ws, Y).
  Proof.
    induction ws as [|w ws IH]; intros Y Hws HY.
    - cbn [map app]. destruct HY as [Y Hs|Y|w Y|Y]; [destruct Hs|..]; reflexivity.
    - cbn [map app attributes]. rewrite (Hws w (or_introl eq_refl)), IH by (try assumption; intros v Hv; apply Hws; right; exact Hv). reflexivity.
  Qed.
  Lemma fun_attributes_words : forall nv w, In w (fun_attributes c nv) -> mem_str w (function_words dial) = true.
  Proof. intros nv w Hw. apply mem_str_In. unfold fun_attributes in Hw. destruct (nv && negb (for_cython c)); [exact Hw|destruct Hw]. Qed.
  Definition word_first (us : list tok) : Prop := exists w r, us = W w :: r.
  Definition pars (us : list tok) (ps : list (option string * ctype)) : Prop :=
    (us = [] \/ word_first us) /\ forall rest, ev (fun a b => parameters dial (decl a) b (us ++ P ")" :: rest)) (ps, rest).
  Lemma suffix_function : forall us ps nv, pars us ps ->
    suffix (P "(" :: us ++ P ")" :: map W (fun_attributes c nv)) (DFun ps (fun_attributes c nv)).
  Proof.
    intros us ps nv [Hus Hps]. split.
    - intros Y. destruct Hus as [->|(w & r & ->)]; cbn [app]; [apply fo_empty|apply fo_word].
    - intros Y l r HY (N & HN). destruct (Hps (map W (fun_attributes c nv) ++ Y)%list) as (M & HM).
      exists (S (N + M)). intros a [|b] Ha Hb; [lia|]. cbn [app suffixes]. rewrite <- app_assoc. cbn [app].
      rewrite HM by lia. rewrite attributes_words by (try assumption; apply fun_attributes_words). rewrite HN by lia. reflexivity.
  Qed.

  (** ** Lists of parameters and arguments *)
  Definition good (us : list tok) (x : option string) (t : ctype) : Prop := word_first us /\ forall rest, stop rest -> reads us x t rest.
  Inductive goods : list (list tok) -> list (option string * ctype) -> Prop :=
  | gs_dots : goods [[W "..."]] [(None, CDots)]
  | gs_one : forall us x t, good us x t -> goods [us] [(x, t)]
  | gs_more : forall us x t uss xts, good us x t -> goods uss xts -> goods (us :: uss) ((x, t) :: xts).
  Fixpoint commas (uss : list (list tok)) : list tok :=
    match uss with [] => [] | [us] => us | us :: r => (us ++ P "," :: commas r)%list end.
  Lemma goods_cons : forall uss xts, goods uss xts -> uss <> [].
  Proof. intros uss xts []; discriminate. Qed.

  Lemma dots_specifiers : forall rd n r, specifiers dial rd n (W "..." :: r) = None.
  Proof. intros rd n r. reflexivity. Qed.
  Lemma dots_declaration : forall n r, decl n (W "..." :: r) = None.
  Proof. intros [|n] r; [reflexivity|]. cbn [declaration]. rewrite dots_specifiers. reflexivity. Qed.
  Lemma several_other : forall rd n w r, w <> "..." ->
    several rd (S n) (W w :: r) = match rd (W w :: r) with
                 | Some (x, P "," :: r) => match several rd n r with Some (xs, r') => Some (x :: xs, r') | None => None end
                 | Some (x, r) => Some ([x], r)
                 | None => None
                 end.
  Proof. intros rd n w r Hw. cbn [several skip]. destruct (String.eqb_spec w "..."); [contradiction|reflexivity]. Qed.
  Inductive closing : ascii -> Prop := cl_paren : closing ")" | cl_angle : closing ">".
  Lemma several_read : forall cl, closing cl -> forall uss xts, goods uss xts -> forall rest,
    ev (fun a b => several (decl a) b (commas uss ++ P cl :: rest)) (xts, P cl :: rest).
  Proof.
    intros cl Hcl uss xts H. induction H as [|us x t [(w & r & ->) Hr]|us x t uss xts [(w & r & ->) Hr] H IH]; intros rest.
    - exists 1. intros a [|b] _ Hb; [lia|]. destruct Hcl; reflexivity.
    - destruct (Hr (P cl :: rest)) as (N & HN); [destruct Hcl; constructor|]. exists (S N). intros a [|b] Ha Hb; [lia|]. cbn [commas].
      assert (Hw : w <> "..."). { intros ->. specialize (HN a b ltac:(lia) ltac:(lia)). cbn [app] in HN. rewrite dots_declaration in HN. discriminate. }
      specialize (HN a b ltac:(lia) ltac:(lia)). cbn [app] in HN |- *. rewrite several_other, HN by exact Hw. destruct Hcl; reflexivity.
    - destruct (IH rest) as (M & HM). destruct (Hr (P "," :: commas uss ++ P cl :: rest)%list) as (N & HN); [constructor|].
      exists (S (N + M)). intros a [|b] Ha Hb; [lia|].
      assert (E : (commas ((W w :: r) :: uss) ++ P cl :: rest = W w :: r ++ P "," :: commas uss ++ P cl :: rest)%list).
      { assert (Hne := goods_cons _ _ H). destruct uss; [contradiction|]. cbn [commas]. rewrite <- app_assoc. reflexivity. }
      rewrite E.
      assert (Hw : w <> "..."). { intros ->. specialize (HN a b ltac:(lia) ltac:(lia)). cbn [app] in HN. rewrite dots_declaration in HN. discriminate. }
      specialize (HN a b ltac:(lia) ltac:(lia)). cbn [app] in HN. rewrite several_other, HN by exact Hw. rewrite HM by lia. reflexivity.
  Qed.

  Lemma void_declaration : forall n r, decl (S (S (S n))) (W "void" :: P ")" :: r) = Some (None, CName false None ["void"] [], P ")" :: r).
  Proof. reflexivity. Qed.
  Lemma parameters_other : forall rd n w ts, (w = "void" -> match ts with P ")" :: _ => False | _ => True end) ->
    parameters dial rd n (W w :: ts) = match several rd n (W w :: ts) with Some (xs, P ")" :: r) => Some (xs, r) | _ => None end.
  Proof.
    intros rd n w ts Hw. unfold parameters. cbn [skip]. destruct (String.eqb_spec w "void") as [E|_]; [|reflexivity]. specialize (Hw E).
    destruct ts as [|[v|a] ts]; try reflexivity. destruct a as [[] [] [] [] [] [] [] []]; try reflexivity. destruct Hw.
  Qed.
  Definition not_void (xt : option string * ctype) : Prop := xt <> (None, CName false None ["void"] []).
  Lemma goods_first : forall uss xts, goods uss xts -> word_first (commas uss).
  Proof.
    intros uss xts [|us x t [Hf _]|us x t uss' xts' [(w & r & ->) _] Hr]; [exists "...", []; reflexivity|exact Hf|].
    assert (Hne := goods_cons _ _ Hr). destruct uss'; [contradiction|]. cbn [commas app]. do 2 eexists. reflexivity.
  Qed.
  Lemma pars_goods : forall uss xts, goods uss xts -> Forall not_void xts -> pars (commas uss) xts.
  Proof.
    intros uss xts H Hv. split; [right; eapply goods_first, H|]. intros rest.
    destruct (several_read ")" cl_paren uss xts H rest) as (N & HN). destruct (goods_first uss xts H) as (w & r & E).
    assert (Hsafe : w = "void" -> match (r ++ P ")" :: rest)%list with P ")" :: _ => False | _ => True end).
    { intros ->. specialize (HN (S (S (S N))) (S N) ltac:(lia) ltac:(lia)).
      rewrite E in HN. cbn [app] in HN. rewrite several_other in HN by discriminate.
      destruct (r ++ P ")" :: rest)%list as [|[v|a] ts]; try exact Logic.I. destruct a as [[] [] [] [] [] [] [] []]; try exact Logic.I.
      rewrite void_declaration in HN. inversion HN; subst. inversion Hv as [|y l Hy _]; subst. exact (Hy eq_refl). }
    exists N. intros a b Ha Hb. specialize (HN a b Ha Hb). rewrite E in HN |- *. cbn [app] in HN |- *.
    rewrite parameters_other, HN by exact Hsafe. reflexivity.
  Qed.
  Lemma pars_none : pars (if Language_eqb (language c) M_Config.C then [W "void"] else []) [].
  Proof.
    split; [destruct (Language_eqb (language c) M_Config.C); [right; exists "void", []|left]; reflexivity|].
    intros rest. exists 0. intros a b _ _. destruct (Language_eqb (language c) M_Config.C) eqn:E; [reflexivity|].
    cbn [app parameters no_params dialect_of]. rewrite E. reflexivity.
  Qed.
End Config.
