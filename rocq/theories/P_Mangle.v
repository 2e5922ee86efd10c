(** Proofs about mangling: C16 (injectivity) and C17 (identifiers). *)
Require Import Coq.Strings.String Coq.Strings.Ascii Coq.Lists.List Coq.Bool.Bool Coq.Arith.Arith Coq.micromega.Lia.
From Verif Require Import Base P_Base S_Lex M_Config M_Type S_Type P_Type.
Import ListNotations.
Open Scope string_scope.

(** Mangling of a view, with the default configuration. *)
Fixpoint chain_sum (ps : list bool) : nat :=
  match ps with [] => 0 | c :: r => (if c then 5 else 4) + chain_sum r end.
Definition mnode_with (f : bool -> marg -> string) :=
  fix go (last first : bool) (l : list marg) : string :=
    match l with
    | [] => ""
    | a :: r => (if first then "" else "__")
                ++ f (last && match r with [] => true | _ => false end) a ++ go last false r
    end.
Fixpoint mstr (last : bool) (a : marg) : string :=
  let node last n l :=
    match l with
    | [] => n
    | _ => n ++ "_" ++ mnode_with mstr last true l ++ (if last then "" else "___")
    end in
  match a with
  | MNode ps n l => srepeat "_" (chain_sum ps) ++ node last n l
  | MArray n l s => "_________" ++ node false n l ++ "__________" ++ s
  | MVal s => s
  end.
Definition node (last : bool) (n : string) (l : list marg) : string :=
  match l with
  | [] => n
  | _ => n ++ "_" ++ mnode_with mstr last true l ++ (if last then "" else "___")
  end.

Section MargInd.
Variable P : marg -> Prop.
Hypothesis H1 : forall ps n l, Forall P l -> P (MNode ps n l).
Hypothesis H2 : forall n l s, Forall P l -> P (MArray n l s).
Hypothesis H3 : forall s, P (MVal s).
Fixpoint marg_ind' (a : marg) : P a :=
  let go := fix go l : Forall P l := match l with [] => Forall_nil _ | x :: r => Forall_cons x (marg_ind' x) (go r) end in
  match a with
  | MNode ps n l => H1 ps n l (go l)
  | MArray n l s => H2 n l s (go l)
  | MVal s => H3 s
  end.
End MargInd.

Definition plain_config := {| remove_underscores := false; rename_types := RNone |}.

Definition m_args {H : Heck} (m : MangleConfig) (last : bool) :=
  fix go (first : bool) (l : list GenericArgument) : string :=
    match l with
    | [] => ""
    | a :: r =>
        (if first then "" else mangle_push m SepComma)
        ++ mangle_arg m last (last && match r with [] => true | _ => false end) a
        ++ go false r
    end.
Lemma mangle_gpath_eq : forall (H : Heck) m last p e gs ct,
  mangle_gpath m last (GPath p e gs ct) =
  match gs with
  | [] => e
  | _ => e ++ mangle_push m SepOpeningAngleBracket ++ m_args m last true gs
         ++ (if last then "" else mangle_push m SepClosingAngleBracket)
  end.
Proof. reflexivity. Qed.

Lemma view_args_eq : forall p e gs ct,
  view_gpath (GPath p e gs ct) = option_map (fun l => (e, l)) (view_args gs).
Proof. reflexivity. Qed.

Lemma rename_none : forall (H : Heck) s ty, RenameRule_apply RNone s ty = s.
Proof. intros. unfold RenameRule_apply. destruct (String.eqb s ""); reflexivity. Qed.

Lemma mangle_view : forall (H : Heck),
  (forall t last mlast x, view_ty t = Some x -> mangle_type plain_config mlast last t = mstr last x)
  /\ (forall g last n l, view_gpath g = Some (n, l) -> mangle_gpath plain_config last g = node last n l)
  /\ (forall a last mlast x, view_arg a = Some x -> mangle_arg plain_config mlast last a = mstr last x)
  /\ (forall e last mlast x, view_arg (GConst e) = Some x -> mangle_const plain_config mlast last e = mstr last x).
Proof.
  intro H. apply Ty_mut_ind.
  - intros t c n r IH last mlast x. cbn [view_ty]. destruct (view_ty t) as [[ps m l|m l s|s]|] eqn:E; try discriminate.
    intro X; inversion X; subst; clear X. cbn [mangle_type]. rewrite (IH last mlast _ eq_refl).
    destruct c; cbn; rewrite ?sapp_assoc; reflexivity.
  - intros g IH last mlast x. cbn [view_ty]. destruct (view_gpath g) as [[m l]|] eqn:E; [|discriminate].
    intro X; inversion X; subst; clear X. cbn [mangle_type]. rewrite (IH last _ _ eq_refl). apply rename_none.
  - intros p last mlast x X. inversion X; subst; clear X. apply rename_none.
  - intros t e IH IHe last mlast x. cbn [view_ty].
    destruct (view_ty t) as [[[|b ps] m l|m l s|s]|] eqn:E; try discriminate.
    intro X. cbn [mangle_type]. rewrite (IH false mlast _ eq_refl).
    destruct e as [[p pe [|g gs] ct]|s]; inversion X; subst; clear X; cbn -[node mstr RenameRule_apply]; rewrite ?rename_none; reflexivity.
  - intros. discriminate.
  - intros p e gs ct HF last n l. rewrite view_args_eq, mangle_gpath_eq.
    destruct (view_args gs) as [xs|] eqn:E; [|discriminate]. cbn. intro X; inversion X; subst; clear X.
    assert (G : forall first, m_args plain_config last first gs = mnode_with mstr last first l).
    { revert l E. induction HF as [|a r Ha HF IH]; intros l E first; cbn in E; [inversion E; reflexivity|].
      destruct (view_arg a) as [x|] eqn:Ea; [|discriminate]. destruct (view_args r) as [xr|] eqn:Er; [|discriminate].
      inversion E; subst; clear E. cbn [m_args mnode_with].
      assert (Hr : match r with [] => true | _ => false end = match xr with [] => true | _ => false end).
      { destruct r as [|b r']; cbn in Er; [inversion Er; reflexivity|].
        destruct (view_arg b); [|discriminate]. destruct (view_args r'); inversion Er; reflexivity. }
      rewrite Hr, (Ha _ _ _ eq_refl). rewrite (IH xr eq_refl). reflexivity. }
    destruct gs as [|a r].
    + inversion E; reflexivity.
    + rewrite G. unfold node. destruct l as [|y l].
      * cbn in E. destruct (view_arg a); [|discriminate]. destruct (view_args r); discriminate.
      * reflexivity.
  - intros t IH last mlast x X. apply IH. exact X.
  - intros e IH last mlast x X. apply IH. exact X.
  - intros g IH last mlast x. cbn [view_arg]. destruct (view_gpath g) as [[m l]|] eqn:E; [|discriminate].
    intro X; inversion X; subst; clear X. cbn [mangle_const]. rewrite (IH last _ _ eq_refl). apply rename_none.
  - intros s last mlast x X. inversion X; subst. reflexivity.
Qed.

(** Decoding. *)
Definition tail (s : string) : Prop := s = "" \/ exists r, s = String "_" r.
Lemma tail_app : forall r s, tail (String "_" r ++ s).
Proof. intros. right. eexists. reflexivity. Qed.

Lemma name_split : forall n n' s s', no_underscore n = true -> no_underscore n' = true -> tail s -> tail s' ->
  n ++ s = n' ++ s' -> n = n' /\ s = s'.
Proof.
  induction n as [|a n IH]; intros [|b n'] s s' Hn Hn' Hs Hs' E; cbn in *.
  - auto.
  - apply andb_prop in Hn' as [Hb _]. destruct Hs as [->|[r ->]]; [discriminate|].
    inversion E; subst. discriminate.
  - apply andb_prop in Hn as [Ha _]. destruct Hs' as [->|[r ->]]; [discriminate|].
    inversion E; subst. discriminate.
  - apply andb_prop in Hn as [_ Hn]. apply andb_prop in Hn' as [_ Hn']. inversion E; subst.
    destruct (IH n' s s') as [-> ->]; auto.
Qed.

Lemma plain_head : forall n, plain_name n = true -> exists a r, n = String a r /\ a <> "_"%char /\ no_underscore n = true.
Proof.
  intros [|a r] Hn; [discriminate|]. unfold plain_name in Hn. cbn in Hn. exists a, r. repeat split; auto.
  apply andb_prop in Hn as [Hn _]. intros ->. discriminate.
Qed.

Lemma underscores_split : forall k k' a a' r r', a <> "_"%char -> a' <> "_"%char ->
  srepeat "_" k ++ String a r = srepeat "_" k' ++ String a' r' -> k = k' /\ String a r = String a' r'.
Proof.
  induction k as [|k IH]; intros [|k'] a a' r r' Ha Ha' E; cbn in E.
  - auto.
  - inversion E; subst. tauto.
  - inversion E; subst. tauto.
  - inversion E as [E']. destruct (IH k' a a' r r') as [-> ->]; auto.
Qed.

Lemma chain_inj : forall ps ps', plain_chain ps = true -> plain_chain ps' = true ->
  chain_sum ps = chain_sum ps' -> ps = ps'.
Proof.
  assert (G : forall ps, plain_chain ps = true ->
    In ps [[]; [true]; [true;true]; [true;true;true]; [true;true;true;true];
           [false]; [false;false]; [false;false;false]; [false;false;false;false]]).
  { intros ps Hp. unfold plain_chain in Hp. apply andb_prop in Hp as [Hl Hp]. apply Nat.leb_le in Hl.
    destruct ps as [|[] [|[] [|[] [|[] [|b5 r]]]]]; cbn in Hp, Hl; try discriminate; try lia; cbn; tauto. }
  intros ps ps' Hp Hp' E. apply G in Hp. apply G in Hp'.
  cbn [In] in Hp, Hp'.
  repeat (destruct Hp as [<-|Hp]); try contradiction;
  repeat (destruct Hp' as [<-|Hp']); try contradiction; try reflexivity; discriminate E.
Qed.
Lemma chain_not_nine : forall ps, plain_chain ps = true -> chain_sum ps <> 9.
Proof.
  intros ps Hp. unfold plain_chain in Hp. apply andb_prop in Hp as [Hl Hp]. apply Nat.leb_le in Hl.
  destruct ps as [|[] [|[] [|[] [|[] [|b5 r]]]]]; cbn in Hp, Hl; try discriminate; try lia; cbn; lia.
Qed.

Section Inj.
Variable arity : string -> nat.
Notation ok := (well_named arity).

Definition inj_at (x : marg) : Prop := forall y last s s', ok x = true -> ok y = true -> tail s -> tail s' ->
  mstr last x ++ s = mstr last y ++ s' -> erase x = erase y /\ s = s'.

Lemma args_inj : forall l, Forall inj_at l -> forall l' last first s s',
  forallb ok l = true -> forallb ok l' = true -> length l = length l' -> tail s -> tail s' ->
  mnode_with mstr last first l ++ s = mnode_with mstr last first l' ++ s' ->
  map erase l = map erase l' /\ s = s'.
Proof.
  intros l HF. induction HF as [|a l Ha HF IH]; intros [|b l'] last first s s' Hl Hl' Hlen Hs Hs' E; try discriminate.
  - cbn in E. auto.
  - cbn [forallb] in Hl, Hl'. apply andb_prop in Hl as [Hl1 Hl2]. apply andb_prop in Hl' as [Hl1' Hl2'].
    cbn in Hlen. inversion Hlen as [Hlen']. cbn [mnode_with] in E. rewrite !sapp_assoc in E.
    apply sapp_inj_l in E.
    assert (Hlast : match l with [] => true | _ => false end = match l' with [] => true | _ => false end)
      by (destruct l, l'; try discriminate; reflexivity).
    rewrite Hlast in E.
    assert (Ht : forall (z : list marg) q, tail q -> tail (mnode_with mstr last false z ++ q)).
    { intros [|w z] q Hq; [exact Hq|]. cbn [mnode_with]. rewrite sapp_assoc. apply tail_app. }
    destruct (Ha b _ _ _ Hl1 Hl1' (Ht _ _ Hs) (Ht _ _ Hs') E) as [Eab E'].
    destruct (IH l' last false s s') as [El Es]; auto.
    cbn. rewrite Eab, El. auto.
Qed.

Lemma node_inj : forall n l n' l' last s s', Forall inj_at l ->
  plain_name n = true -> plain_name n' = true -> length l = arity n -> length l' = arity n' ->
  forallb ok l = true -> forallb ok l' = true -> tail s -> tail s' ->
  node last n l ++ s = node last n' l' ++ s' -> n = n' /\ map erase l = map erase l' /\ s = s'.
Proof.
  intros n l n' l' last s s' HF Hn Hn' Hlen Hlen' Hl Hl' Hs Hs' E.
  destruct (plain_head n Hn) as (c & r & _ & _ & Hu). destruct (plain_head n' Hn') as (c' & r' & _ & _ & Hu').
  assert (G : forall m k q, tail q -> exists q', node last m k ++ q = m ++ q' /\ tail q'
    /\ q' = match k with [] => q | _ => String "_" (mnode_with mstr last true k ++ (if last then "" else "___") ++ q) end).
  { intros m k q Hq. destruct k as [|x k].
    - exists q. auto.
    - eexists. split; [|split; [|reflexivity]].
      + cbn [node]. rewrite !sapp_assoc. reflexivity.
      + right. eexists. reflexivity. }
  destruct (G n l s Hs) as (q & Eq & Hq & Dq). destruct (G n' l' s' Hs') as (q' & Eq' & Hq' & Dq').
  rewrite Eq, Eq' in E. destruct (name_split _ _ _ _ Hu Hu' Hq Hq' E) as [<- Eqq]. split; [reflexivity|].
  rewrite <- Hlen' in Hlen.
  destruct l as [|x l], l' as [|x' l']; try discriminate.
  - subst. auto.
  - rewrite Dq, Dq' in Eqq. inversion Eqq as [E'].
    assert (T : forall q0, tail q0 -> tail ((if last then "" else "___") ++ q0))
      by (intros q0 Hq0; destruct last; [exact Hq0|apply tail_app]).
    destruct (args_inj _ HF (x' :: l') last true _ _ Hl Hl' Hlen (T _ Hs) (T _ Hs') E') as [Ea Es'].
    split; [exact Ea|]. destruct last; [exact Es'|]. inversion Es'. reflexivity.
Qed.

Lemma node_head : forall last n l, plain_name n = true ->
  exists a r, node last n l = String a r /\ a <> "_"%char.
Proof.
  intros last n l Hn. destruct (plain_head n Hn) as (a & r & -> & Ha & _). destruct l; [exists a, r; auto|].
  cbn. eexists. eexists. split; [reflexivity|exact Ha].
Qed.

(** Every mangled argument is some underscores followed by a node. *)
Definition parts (x : marg) : nat * (bool * (string * list marg) * string) :=
  match x with
  | MNode ps n l => (chain_sum ps, (true, (n, l), ""))
  | MArray n l s => (9, (false, (n, l), "__________" ++ s))
  | MVal s => (0, (true, (s, []), ""))
  end.
Lemma parts_mstr : forall last x,
  let '(k, (b, (n, l), suf)) := parts x in mstr last x = srepeat "_" k ++ node (last && b) n l ++ suf.
Proof.
  intros last [ps n l|n l s|s]; cbn -[node srepeat].
  - rewrite andb_true_r, sapp_nil_r. reflexivity.
  - rewrite andb_false_r. reflexivity.
  - rewrite sapp_nil_r. reflexivity.
Qed.

Ltac arities := repeat match goal with X : Nat.eqb _ _ = true |- _ => apply Nat.eqb_eq in X end.

Local Opaque plain_chain plain_name.
Lemma all_inj : forall x, inj_at x.
Proof.
  apply marg_ind'.
  - intros ps n l HF y last s s' Hx Hy Hs Hs' E.
    cbn [well_named] in Hx. repeat (apply andb_prop in Hx as [Hx ?]).
    arities.
    assert (Px := parts_mstr last (MNode ps n l)). assert (Py := parts_mstr last y).
    cbn [parts] in Px. rewrite andb_true_r, sapp_nil_r in Px. rewrite Px in E.
    destruct (node_head last n l H1) as (a & r & Ea & Ha).
    destruct y as [ps' n' l'|n' l' s0|s0]; cbn [parts] in Py; cbn [well_named] in Hy;
      repeat (apply andb_prop in Hy as [Hy ?]).
    + rewrite andb_true_r, sapp_nil_r in Py. rewrite Py in E.
      destruct (node_head last n' l') as (a' & r' & Ea' & Ha'); [assumption|].
      rewrite !sapp_assoc in E.
      assert (E2 := E). rewrite Ea, Ea' in E2. cbn [append] in E2.
      destruct (underscores_split _ _ _ _ _ _ Ha Ha' E2) as [Ek _].
      rewrite Ek in E. apply sapp_inj_l in E.
      apply chain_inj in Ek; auto. subst ps'.
      arities.
      destruct (node_inj n l n' l' last s s') as (-> & El & Es); auto.
      cbn. rewrite El. auto.
    + rewrite andb_false_r in Py. rewrite Py in E.
      destruct (node_head false n' l') as (a' & r' & Ea' & Ha'); [assumption|].
      rewrite !sapp_assoc in E. rewrite Ea, Ea' in E. cbn [append] in E.
      destruct (underscores_split _ _ _ _ _ _ Ha Ha' E) as [Ek _].
      elim (chain_not_nine ps); auto.
    + rewrite andb_true_r, sapp_nil_r in Py. rewrite Py in E.
      destruct (node_head last s0 []) as (a' & r' & Ea' & Ha'); [assumption|].
      rewrite !sapp_assoc in E.
      assert (E2 := E). rewrite Ea, Ea' in E2. cbn [append] in E2.
      destruct (underscores_split _ _ _ _ _ _ Ha Ha' E2) as [Ek _].
      rewrite Ek in E. apply sapp_inj_l in E.
      assert (Hp0 : ps = []) by (destruct ps as [|[] ?]; [reflexivity|cbn in Ek; lia|cbn in Ek; lia]). subst ps.
      arities.
      destruct (node_inj n l s0 [] last s s') as (-> & El & Es); auto.
      cbn. rewrite El. auto.
  - intros n l s1 HF y last s s' Hx Hy Hs Hs' E.
    cbn [well_named] in Hx. repeat (apply andb_prop in Hx as [Hx ?]).
    arities.
    assert (Px := parts_mstr last (MArray n l s1)). assert (Py := parts_mstr last y).
    cbn [parts] in Px. rewrite andb_false_r in Px. rewrite Px in E.
    destruct (node_head false n l Hx) as (a & r & Ea & Ha).
    destruct y as [ps' n' l'|n' l' s0|s0]; cbn [parts] in Py; cbn [well_named] in Hy;
      repeat (apply andb_prop in Hy as [Hy ?]).
    + rewrite andb_true_r, sapp_nil_r in Py. rewrite Py in E.
      destruct (node_head last n' l') as (a' & r' & Ea' & Ha'); [assumption|].
      rewrite !sapp_assoc in E. rewrite Ea, Ea' in E. cbn [append] in E.
      destruct (underscores_split _ _ _ _ _ _ Ha Ha' E) as [Ek _].
      elim (chain_not_nine ps'); auto.
    + rewrite andb_false_r in Py. rewrite Py in E. rewrite !sapp_assoc in E. apply sapp_inj_l in E.
      arities.
      destruct (node_inj n l n' l' false (("__________" ++ s1) ++ s) (("__________" ++ s0) ++ s')) as (-> & El & Es); auto.
      * apply tail_app.
      * apply tail_app.
      * rewrite !sapp_assoc in Es. apply sapp_inj_l in Es.
        assert (K1 : plain_name s1 = true) by assumption. assert (K0 : plain_name s0 = true) by assumption.
        destruct (plain_head s1 K1) as (? & ? & _ & _ & U1). destruct (plain_head s0 K0) as (? & ? & _ & _ & U0).
        destruct (name_split _ _ _ _ U1 U0 Hs Hs' Es) as [-> ->]. cbn. rewrite El. auto.
    + rewrite andb_true_r, sapp_nil_r in Py. rewrite Py in E.
      destruct (node_head last s0 []) as (a' & r' & Ea' & Ha'); [assumption|].
      rewrite !sapp_assoc in E. rewrite Ea, Ea' in E. cbn [append] in E.
      destruct (underscores_split _ _ _ _ _ _ Ha Ha' E) as [Ek _]. discriminate.
  - intros s1 y last s s' Hx Hy Hs Hs' E.
    cbn [well_named] in Hx. apply andb_prop in Hx as [Hx Hax]. apply Nat.eqb_eq in Hax.
    assert (Px := parts_mstr last (MVal s1)). assert (Py := parts_mstr last y).
    cbn [parts] in Px. rewrite andb_true_r, sapp_nil_r in Px. rewrite Px in E.
    destruct (node_head last s1 [] Hx) as (a & r & Ea & Ha).
    destruct y as [ps' n' l'|n' l' s0|s0]; cbn [parts] in Py; cbn [well_named] in Hy;
      repeat (apply andb_prop in Hy as [Hy ?]).
    + rewrite andb_true_r, sapp_nil_r in Py. rewrite Py in E.
      destruct (node_head last n' l') as (a' & r' & Ea' & Ha'); [assumption|].
      rewrite !sapp_assoc in E.
      assert (E2 := E). rewrite Ea, Ea' in E2. cbn [append] in E2.
      destruct (underscores_split _ _ _ _ _ _ Ha Ha' E2) as [Ek _].
      rewrite <- Ek in E. apply sapp_inj_l in E.
      assert (Hp0 : ps' = []) by (destruct ps' as [|[] ?]; [reflexivity|cbn in Ek; lia|cbn in Ek; lia]). subst ps'.
      arities.
      destruct (node_inj s1 [] n' l' last s s') as (-> & El & Es); auto.
      cbn. rewrite <- El. auto.
    + rewrite andb_false_r in Py. rewrite Py in E.
      destruct (node_head false n' l') as (a' & r' & Ea' & Ha'); [assumption|].
      rewrite !sapp_assoc in E. rewrite Ea, Ea' in E. cbn [append] in E.
      destruct (underscores_split _ _ _ _ _ _ Ha Ha' E) as [Ek _]. discriminate.
    + rewrite andb_true_r, sapp_nil_r in Py. rewrite Py in E. cbn in E.
      destruct (plain_head s1 Hx) as (? & ? & _ & _ & U1).
      assert (K0 : plain_name s0 = true) by assumption.
      destruct (plain_head s0 K0) as (? & ? & _ & _ & U0).
      destruct (name_split _ _ _ _ U1 U0 Hs Hs' E) as [-> ->]. auto.
Qed.

Lemma mangle_injective : forall (H : Heck) n gs n' gs' l l',
  view_args gs = Some l -> view_args gs' = Some l' ->
  well_named arity (MNode [] n l) = true -> well_named arity (MNode [] n' l') = true ->
  mangle_name n gs plain_config = mangle_name n' gs' plain_config ->
  n = n' /\ map erase l = map erase l'.
Proof.
  intros H n gs n' gs' l l' Hv Hv' Hw Hw' E. unfold mangle_name in E.
  destruct (mangle_view H) as (_ & G & _).
  rewrite (G (GPath n n gs None) true n l) in E by (rewrite view_args_eq, Hv; reflexivity).
  rewrite (G (GPath n' n' gs' None) true n' l') in E by (rewrite view_args_eq, Hv'; reflexivity).
  assert (E' : mstr true (MNode [] n l) ++ "" = mstr true (MNode [] n' l') ++ "") by (rewrite !sapp_nil_r; exact E).
  destruct (all_inj _ _ _ _ _ Hw Hw' (or_introl eq_refl) (or_introl eq_refl) E') as [Ex _].
  inversion Ex. auto.
Qed.
End Inj.

(** ** C17 *)
Lemma words_app : forall a b, all_wordchars (a ++ b) = all_wordchars a && all_wordchars b.
Proof. induction a as [|c a IH]; intro b; [reflexivity|]. cbn. rewrite IH, andb_assoc. reflexivity. Qed.
Lemma push_words : forall m k, all_wordchars (mangle_push m k) = true.
Proof.
  intros m k. unfold mangle_push. destruct (remove_underscores m); [reflexivity|].
  induction k; [reflexivity|]. exact IHk.
Qed.
Lemma repr_words : forall p, all_wordchars (to_repr_rust p) = true.
Proof. destruct p as [| | | | | | | | | |z [] []]; reflexivity. Qed.

Lemma mangle_words : forall (H : Heck) m, words_to_words (rename_types m) ->
  (forall t, mangle_ok t = true -> forall mlast last, all_wordchars (mangle_type m mlast last t) = true)
  /\ (forall g, mangle_ok_gpath g = true -> forall last, all_wordchars (mangle_gpath m last g) = true)
  /\ (forall a, mangle_ok_arg a = true -> forall mlast last, all_wordchars (mangle_arg m mlast last a) = true)
  /\ (forall e, mangle_ok_const e = true -> forall mlast last, all_wordchars (mangle_const m mlast last e) = true).
Proof.
  intros H m Hr. apply Ty_mut_ind.
  - intros t c n r IH Ho mlast last. cbn [mangle_type]. rewrite words_app, push_words, IH by exact Ho. reflexivity.
  - intros g IH Ho mlast last. cbn [mangle_type]. apply Hr. apply IH. exact Ho.
  - intros p Ho mlast last. cbn [mangle_type]. apply Hr, repr_words.
  - intros t e IH IHe Ho mlast last. cbn [mangle_ok] in Ho. apply andb_prop in Ho as [H1 H2].
    cbn [mangle_type]. rewrite !words_app, !push_words, IH, IHe by assumption. reflexivity.
  - intros r args n nr IH HF Ho mlast last. cbn [mangle_ok] in Ho. apply andb_prop in Ho as [H1 H2].
    cbn [mangle_type]. rewrite !words_app, push_words, IH by exact H1.
    assert (Hend : all_wordchars (if mlast then "" else mangle_push m SepEndFn) = true)
      by (destruct mlast; [reflexivity|apply push_words]).
    rewrite Hend, andb_true_r. cbn [andb].
    induction HF as [|a l Ha HF IHl]; [reflexivity|]. cbn [forallb] in H2. apply andb_prop in H2 as [H2 H3].
    rewrite !words_app, push_words, Ha by exact H2. rewrite IHl by exact H3. reflexivity.
  - intros p e gs ct HF Ho last. cbn [mangle_ok_gpath] in Ho. apply andb_prop in Ho as [H1 H2].
    rewrite mangle_gpath_eq.
    assert (G : forall first, all_wordchars (m_args m last first gs) = true).
    { induction HF as [|a l Ha HF IHl]; intro first; [reflexivity|]. cbn [forallb] in H2. apply andb_prop in H2 as [H2 H3].
      cbn [m_args]. rewrite !words_app, Ha by exact H2. rewrite IHl by exact H3.
      destruct first; [reflexivity|rewrite push_words; reflexivity]. }
    destruct gs as [|a l]; [exact H1|].
    rewrite !words_app, H1, push_words, G. destruct last; [reflexivity|apply push_words].
  - intros t IH Ho mlast last. apply IH. exact Ho.
  - intros e IH Ho mlast last. apply IH. exact Ho.
  - intros g IH Ho mlast last. cbn [mangle_const]. apply Hr, IH. exact Ho.
  - intros s Ho mlast last. exact Ho.
Qed.

Lemma mangled_ident : forall (H : Heck) m name gs, words_to_words (rename_types m) ->
  is_ident name = true -> forallb mangle_ok_arg gs = true -> is_ident (mangle_name name gs m) = true.
Proof.
  intros H m name gs Hr Hn Hg. unfold mangle_name.
  destruct (mangle_words H m Hr) as (_ & G & _).
  assert (Hw : all_wordchars name = true) by (destruct name; [discriminate|]; apply andb_prop in Hn; tauto).
  assert (Ho : mangle_ok_gpath (GPath name name gs None) = true) by (cbn; rewrite Hw; exact Hg).
  specialize (G _ Ho true).
  rewrite mangle_gpath_eq in *. destruct gs as [|a l]; [exact Hn|].
  destruct name as [|c name]; [discriminate|]. cbn [append] in *. unfold is_ident in *.
  apply andb_prop in Hn as [Hd _]. rewrite Hd. exact G.
Qed.
