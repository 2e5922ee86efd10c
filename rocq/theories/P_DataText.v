(** From the data types of the sources to the text. *)
Require Import Coq.Strings.String Coq.Strings.Ascii Coq.Lists.List Coq.Bool.Bool Coq.Arith.Arith Coq.NArith.NArith Coq.micromega.Lia.
From Verif Require Import Base P_Base M_Reserved M_Config M_Cfg S_Cfg P_Cfg M_Type M_Ir M_Item S_Decl M_Attr M_Docs M_Library M_Literal M_Bindings M_Backend M_Syn M_Loader M_Parser S_Library S_Names
  S_Parse P_Library S_File S_Signature P_SigLib S_Sources S_Datatypes S_Shown P_Datatypes.
From Verif Require P_Shown.
Import ListNotations.
Open Scope string_scope.

(** [picked qs ps]: the pieces [qs] are among [ps], in this order. *)
Inductive picked : list piece -> list piece -> Prop :=
| pk_none : forall ps, picked [] ps
| pk_skip : forall qs (p : piece) ps, picked qs ps -> picked qs (p :: ps)
| pk_take : forall (q : piece) qs (p : piece) ps, (forall s, p s -> q s) -> picked qs ps -> picked (q :: qs) (p :: ps).
Lemma picked_found : forall qs ps t, picked qs ps -> made_of t ps -> found_in t qs.
Proof.
  intros qs ps t P. revert t. induction P as [ps|qs p ps P IH|q qs p ps Q P IH]; intros t M; [exact Logic.I| |].
  - destruct M as (a & s & r & -> & _ & _ & _ & M). specialize (IH _ M). destruct qs as [|q qs]; [exact Logic.I|].
    destruct IH as (a' & s' & r' & -> & Q' & F). exists (a ++ s ++ a')%string, s', r'. rewrite !sapp_assoc. auto.
  - destruct M as (a & s & r & -> & _ & Ps & _ & M). exists a, s, r. auto 8.
Qed.
Lemma picked_right : forall qs ps ps', picked qs ps -> picked qs (ps' ++ ps).
Proof. intros qs ps ps' P. induction ps' as [|p ps' IH]; [exact P|]. apply pk_skip. exact IH. Qed.
Lemma picked_app : forall qs qs' ps ps', picked qs ps -> picked qs' ps' -> picked (qs ++ qs') (ps ++ ps').
Proof.
  intros qs qs' ps ps' P P'. induction P as [ps|qs p ps P IH|q qs p ps Q P IH]; [exact (picked_right _ _ _ P')|apply pk_skip; exact IH|apply pk_take; assumption].
Qed.
Lemma picked_left : forall qs ps ps', picked qs ps -> picked qs (ps ++ ps').
Proof. intros qs ps ps' P. rewrite <- (app_nil_r qs). apply picked_app; [exact P|constructor]. Qed.
Lemma picked_take : forall (q p : piece) qs ps ps', (forall s, p s -> q s) -> picked qs ps' -> picked (q :: qs) ((ps ++ [p]) ++ ps').
Proof. intros q p qs ps ps' Q P. rewrite <- app_assoc. apply picked_right. apply pk_take; assumption. Qed.
Lemma picked_conditional : forall b k qs ps, picked qs ps -> picked qs (conditional b k ps).
Proof.
  intros b k qs ps P. unfold conditional. destruct (to_condition_opt _ _); [|exact P].
  match goal with |- picked _ (if ?x then _ else _) => destruct x end; apply picked_right; [exact P|apply picked_left; exact P].
Qed.
Lemma found_within : forall qs s t, within s t -> found_in s qs -> found_in t qs.
Proof.
  intros [|q qs] s t (a & r & ->) F; [exact Logic.I|]. destruct F as (x & y & z & -> & Q & F). exists (a ++ x)%string, y, (z ++ r)%string.
  rewrite !sapp_assoc. split; [reflexivity|]. split; [exact Q|]. clear - F. revert z F. induction qs as [|q qs IH]; intros z F; [exact Logic.I|].
  destruct F as (x & y & w & -> & Q & F). exists x, y, (w ++ r)%string. rewrite !sapp_assoc. auto.
Qed.

Section Fields.
  Context {H : Heck} (b : Bindings) (c : Config) (kw : string -> option DeclarationType) (self : string).
  Hypothesis BC : b_config b = c.
  Lemma field_picked : forall n m f, field_for c kw self n m f -> picked [says c kw (Some self) n (sf_ty m)] (shown_field b f).
  Proof.
    intros n m f [N T _ _ _]. assert (D : forall s, declared b (fd_name f) (fd_ty f) s -> says c kw (Some self) n (sf_ty m) s).
    { intros s [_ D] x E U. destruct (T x E) as [T1 T2]. rewrite BC, N, T2 in D. exact (D T1 U). }
    unfold shown_field. destruct (Language_eqb _ _).
    - apply picked_right. apply pk_take; [exact D|constructor].
    - apply picked_conditional, picked_right. apply pk_take; [exact D|constructor].
  Qed.
  Lemma fields_picked : forall ns ms fs, fields_for c kw self ns ms fs -> picked (says_members c kw self ns ms) (shown_fields b fs).
  Proof.
    intros ns ms fs F. induction F as [|n m f ns ms fs A F IH]; [constructor|].
    cbn [says_members shown_fields capped flat_map]. apply (picked_app [_]); [apply picked_left; exact (field_picked _ _ _ A)|exact IH].
  Qed.
  Lemma before_picked : forall n, Language_eqb (language c) Cython = false -> picked (name_before c n) (tag_shown b n).
  Proof.
    intros n L. unfold name_before, tag_shown. rewrite BC. destruct (language c); [|destruct (style c)|discriminate];
      try constructor; auto; constructor.
  Qed.
  Lemma after_picked : forall n, Language_eqb (language c) Cython = false -> picked (name_after c n) (ending b n).
  Proof.
    intros n L. unfold name_after, ending, typedefs. rewrite BC. destruct (language c); [|destruct (style c)|discriminate]; try constructor; apply pk_take; auto; constructor.
  Qed.
  Lemma cython_before : forall n, Language_eqb (language c) Cython = true -> name_before c n = [say n] /\ name_after c n = [].
  Proof. intros n L. unfold name_before, name_after. destruct (language c); try discriminate. auto. Qed.
  Lemma one_picked : forall p : piece, picked [p] [p]. Proof. intro p. apply pk_take; [auto|constructor]. Qed.
  Lemma struct_picked : forall (fuel : nat) ns ms s, fields_for c kw self ns ms (s_fields s) ->
    picked (says_body c kw "struct" (s_export_name s) self ns ms) (shown_struct fuel b s).
  Proof.
    intros fuel ns ms s F. apply fields_picked in F. unfold says_body, shown_struct. rewrite BC. apply picked_conditional, picked_right.
    destruct (Language_eqb (language c) Cython) eqn:L.
    - destruct (cython_before (s_export_name s) L) as [-> ->]. rewrite app_nil_r. do 2 apply picked_right. apply (picked_app [_]); [apply one_picked|].
      apply picked_right. apply (picked_app [_]); [apply one_picked|]. do 2 apply picked_right. apply picked_left. exact F.
    - do 2 apply picked_right. apply (picked_app [_]); [apply one_picked|]. do 2 apply picked_right.
      apply picked_app; [exact (before_picked _ L)|]. do 2 apply picked_right. apply picked_app; [exact F|]. do 3 apply picked_right. apply picked_left. exact (after_picked _ L).
  Qed.
  Lemma union_picked : forall ns ms u, fields_for c kw self ns ms (u_fields u) -> picked (says_body c kw "union" (u_export_name u) self ns ms) (shown_union b u).
  Proof.
    intros ns ms u F. apply fields_picked in F. unfold says_body, shown_union. rewrite BC. apply picked_conditional, picked_right.
    destruct (Language_eqb (language c) Cython) eqn:L.
    - destruct (cython_before (u_export_name u) L) as [-> ->]. rewrite app_nil_r. apply pk_skip. apply pk_take; [auto|]. apply pk_take; [auto|].
      do 2 apply picked_right. apply picked_left. exact F.
    - do 2 apply picked_right. apply (picked_app [_]); [apply one_picked|]. apply picked_right.
      apply picked_app; [exact (before_picked _ L)|]. do 2 apply picked_right. apply picked_app; [exact F|]. apply picked_right. exact (after_picked _ L).
  Qed.
End Fields.

Lemma typedef_picked : forall (H : Heck) b c kw self ty t, b_config b = c ->
  (forall x, rust_type c kw self false false ty = Some x -> declarable c (t_aliased t) = true /\ c_type c false (t_aliased t) = x) ->
  picked (says_alias c kw self (t_export_name t) ty) (shown_typedef b t).
Proof.
  intros H b c kw self ty t BC T. unfold says_alias, shown_typedef. rewrite BC.
  assert (D : forall n s, declared b n (t_aliased t) s -> says c kw self n ty s).
  { intros n s [_ D] x E U. destruct (T x E) as [T1 T2]. rewrite BC, T2 in D. exact (D T1 U). }
  apply picked_conditional. do 2 apply picked_right. apply picked_left. destruct (language c) eqn:L; cbn [Language_eqb].
  - apply pk_take; [auto|]. apply pk_take; [|constructor]. intros s [_ N] x E. destruct (T x E) as [T1 T2]. rewrite BC, T2 in N. exact (N T1).
  - apply pk_take; [auto|]. apply picked_right. apply pk_take; [auto|constructor].
  - apply pk_take; [auto|]. apply picked_right. apply pk_take; [auto|constructor].
Qed.
Lemma blank_app : forall a b, all_blank a = true -> all_blank b = true -> all_blank (a ++ b) = true.
Proof. intros a b A B. induction a as [|x a IH]; [exact B|]. cbn in A |- *. apply andb_prop in A as [A1 A2]. rewrite A1. exact (IH A2). Qed.
Lemma made_right : forall ps qs t, made_of t (ps ++ qs) -> exists s, within s t /\ made_of s qs.
Proof.
  induction ps as [|p ps IH]; intros qs t M; [exists t; split; [apply within_refl|exact M]|].
  destruct M as (a & s & r & -> & _ & _ & _ & M). destruct (IH _ _ M) as (z & W & Z). exists z. split; [apply within_r, within_r; exact W|exact Z].
Qed.
Lemma made_left : forall ps qs t, made_of t (ps ++ qs) -> exists s, within s t /\ made_of s ps.
Proof.
  assert (K : forall ps qs t, made_of t (ps ++ qs) -> exists s r, t = s ++ r /\ made_of s ps).
  { induction ps as [|p ps IH]; intros qs t M; [exists "", t; split; reflexivity|].
    destruct M as (a & s & r & -> & A & Ps & B & M). destruct (IH _ _ M) as (z & r' & -> & Z). apply P_Shown.apart_less in B. exists (a ++ s ++ z), r'. rewrite !sapp_assoc.
    split; [reflexivity|]. exists a, s, z. auto 8. }
  intros ps qs t M. destruct (K _ _ _ M) as (s & r & -> & Z). exists s. split; [apply within_l, within_refl|exact Z].
Qed.
Lemma made_conditional : forall b k ps t, made_of t (conditional b k ps) -> exists s, within s t /\ made_of s ps.
Proof.
  intros b k ps t M. unfold conditional in M. destruct (to_condition_opt _ _); [|exists t; split; [apply within_refl|exact M]].
  match type of M with made_of _ (if ?x then _ else _) => destruct x end; apply made_right in M as (s & W & M); [exists s; auto|].
  apply made_left in M as (z & Z & M). exists z. split; [eapply within_trans; eassumption|exact M].
Qed.
Lemma made_weaker : forall ps qs t, Forall2 (fun p q : piece => forall s, p s -> q s) ps qs -> made_of t ps -> made_of t qs.
Proof.
  intros ps qs t F. revert t. induction F as [|p q ps qs P F IH]; intros t M; [exact M|]. destruct M as (a & s & r & -> & A & Ps & B & M). exists a, s, r. auto 8.
Qed.
Lemma static_says : forall (H : Heck) b c kw mutable ty g t u, b_config b = c -> g_mutable g = mutable -> within t u -> made_of t (shown_static b g) ->
  (forall x, rust_type c kw None false false ty = Some x -> declarable c (g_ty g) = true /\ c_type c false (g_ty g) = x) ->
  says_static c kw (g_export_name g) mutable ty u.
Proof.
  intros H b c kw mutable ty g t u BC GM W M T. unfold shown_static in M. apply made_conditional in M as (s & W1 & M). apply made_right in M as (z & W2 & M).
  destruct (within_trans _ _ _ (within_trans _ _ _ W2 W1) W) as (x & y & ->).
  exists (negb (M_Literal.is_const_ptr (g_ty g)) && negb (g_mutable g)), x, z, y. split; [reflexivity|]. split.
  - revert M. apply made_weaker. repeat (apply Forall2_app || constructor); auto.
    + destruct (_ && _); cbn; repeat constructor; auto.
    + intros w [_ D] v E U. destruct (T v E) as [T1 T2]. rewrite BC, T2 in D. exact (D T1 U).
  - intros v E NP. destruct (T v E) as [_ <-]. rewrite GM. destruct (g_ty g); try reflexivity. discriminate.
Qed.

Lemma members_for : forall c kw self ns ms fs, fields_for c kw self ns ms fs -> length fs = length ms.
Proof. intros c kw self ns ms fs F. induction F; cbn; congruence. Qed.

Theorem datatypes_text : forall (H : Heck) d c bitflags mfuel fuel std srcs lib l, parse_all d c bitflags mfuel fuel std srcs lib = Parsed l ->
  exists vss rs, sources_read d (parse c) srcs lib vss rs
    /\ forall pfuel visit l' b wfuel t, prepare pfuel visit l = Done l' -> finish l' = Done b -> bindings_text wfuel b = Done t ->
         proper_attributes c = true -> tab_width c <> 0 -> written_from_sources c (keyword_in l') vss rs b t.
Proof.
  intros H d c bitflags mfuel fuel std srcs lib l Q. destruct (datatypes_sources H d c bitflags mfuel fuel std srcs lib l Q) as (vss & rs & R & G).
  exists vss, rs. split; [exact R|]. intros pfuel visit l' b wfuel t Hp Hf W PA TW. specialize (G _ _ _ _ Hp Hf).
  assert (LC : l_config l = c). { destruct (P_Sources.all_sound _ _ _ _ _ _ _ _ _ Q) as (? & ? & ? & ? & _ & _ & _ & _ & Z & _). exact Z. }
  assert (BC : b_config b = c /\ b_noop b = false).
  { unfold finish in Hf. destruct (library_dependencies l') as [dd| |]; try discriminate.
    apply (f_equal (fun o => match o with Done x => Some x | _ => None end)) in Hf. injection Hf as <-. cbn [b_config b_noop]. split; [|reflexivity].
    apply prepare_stages in Hp as (l1 & l2 & l3 & l4 & St). rewrite <- LC. apply (stages_config _ _ _ _ _ _ _ _ _ St). }
  destruct BC as [BC BN]. rewrite <- BC in PA, TW.
  assert (FOUND : forall dc qs, In dc (definitions b ++ symbols b) -> (forall ps, In ps (shown wfuel b dc) -> picked qs ps) -> found_in t qs).
  { intros dc qs I P. destruct (declaration_text H wfuel b t _ PA TW BN W I) as (s & ps & WS & IP & MO). apply (found_within _ _ _ WS). exact (picked_found _ _ _ (P _ IP) MO). }
  assert (DEF : forall i, In i (b_items b) -> kept (item_annotations i) = true -> In (AnItem i) (definitions b ++ symbols b)).
  { intros i I K. apply in_or_app. left. unfold definitions. apply in_or_app. right. apply in_or_app. left. apply in_map. apply filter_In. auto. }
  constructor.
  - intros s I K P. destruct (df_structs _ _ _ _ _ G s I) as [IP|(v & i & attrs & ident & generics & fields & IR & DS & SF)]; [left; exact IP|right].
    destruct (sf_fields _ _ _ _ _ _ _ _ SF P) as (names & FN & FF). exists v, i, attrs, ident, generics, fields, names.
    split; [exact IR|]. split; [exact DS|]. split; [exact FN|]. apply (FOUND (AnItem (ICStruct s))); [apply DEF; assumption|].
    cbn [shown]. intros ps [<-|[]]. rewrite <- (sf_name _ _ _ _ _ _ _ _ SF). destruct (sf_layout _ _ _ _ _ _ _ _ SF) as (r & RL & _ & LY). rewrite RL. cbn [option_map].
    assert (BODY : as_typedef s = None -> picked (says_body c (keyword_in l') "struct" (s_export_name s) (unraw ident) (map escape_str names) (struct_members fields))
      match as_typedef s with Some t => shown_typedef b t ++ flat_map (fun k => shown_constant wfuel b k (Some s)) (s_associated_constants s) | None => shown_struct wfuel b s end).
    { intros ->. exact (struct_picked b c (keyword_in l') (unraw ident) BC wfuel _ _ s FF). }
    destruct LY as [[RS TR]|[RS TR]]; rewrite RS.
    + assert (Z : as_typedef s = None) by (unfold as_typedef; rewrite TR; destruct (s_fields s); reflexivity).
      specialize (BODY Z). destruct (struct_members fields); exact BODY.
    + inversion FF as [E1 E2 E3|n m f ns ms fs A F E1 E2 E3].
      * rewrite <- E2, <- E1 in BODY. apply BODY. unfold as_typedef. rewrite <- E3. reflexivity.
      * unfold as_typedef. rewrite <- E3 in TR |- *. cbn in TR. rewrite TR. apply picked_left. destruct A as [_ T _ _ _].
        exact (typedef_picked H b c (keyword_in l') (Some (unraw ident)) _ (new_from_struct_field s f) BC T).
  - intros u I K P. destruct (df_unions _ _ _ _ _ G u I) as [IP|(v & attrs & ident & generics & fields & IR & UF)]; [left; exact IP|right].
    exists v, attrs, ident, generics, fields. split; [exact IR|]. intro ND. destruct (uf_fields _ _ _ _ _ _ _ _ UF P ND) as (names & FN & FF).
    exists names. split; [exact FN|]. apply (FOUND (AnItem (ICUnion u))); [apply DEF; assumption|]. cbn [shown]. intros ps [<-|[]].
    rewrite <- (uf_name _ _ _ _ _ _ _ _ UF). exact (union_picked b c (keyword_in l') (unraw ident) BC _ _ u FF).
  - intros x I K P. destruct (df_typedefs _ _ _ _ _ G x I) as [IP|(v & attrs & ident & generics & ty & IR & TF)]; [left; exact IP|right].
    exists v, attrs, ident, generics, ty. split; [exact IR|]. apply (FOUND (AnItem (ICTypedef x))); [apply DEF; assumption|]. cbn [shown]. intros ps [<-|[]].
    rewrite <- (tf_name _ _ _ _ _ _ _ _ TF). apply typedef_picked; [exact H|exact BC|]. exact (tf_type _ _ _ _ _ _ _ _ TF P).
  - intros g I K. destruct (df_globals _ _ _ _ _ G g I) as (v & attrs & ident & mutable & ty & name & IR & SY & GF).
    exists v, attrs, ident, mutable, ty, name. split; [exact IR|]. split; [exact SY|].
    assert (IG : In (AGlobal g) (definitions b ++ symbols b)) by (apply in_or_app; right; unfold symbols; apply in_or_app; left; apply in_map, filter_In; auto).
    destruct (declaration_text H wfuel b t _ PA TW BN W IG) as (s & ps & WS & IP & MO). destruct IP as [<-|[]].
    rewrite <- (gf_name _ _ _ _ _ _ _ _ GF). exact (static_says H b c (keyword_in l') mutable ty g s t BC (gf_mutable _ _ _ _ _ _ _ _ GF) WS MO (gf_type _ _ _ _ _ _ _ _ GF)).
Qed.
