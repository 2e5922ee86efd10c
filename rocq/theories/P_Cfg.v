Require Import Coq.Strings.String Coq.Strings.Ascii Coq.Lists.List Coq.Bool.Bool Coq.Arith.Arith Lia
  Coq.Sorting.Permutation.
From Verif Require Import Base P_Base M_Config M_Writer S_Writer P_Writer M_Cfg S_Lex P_Lex S_Cfg.
Import ListNotations.
Open Scope string_scope.

(** ** Induction principles through lists *)
Lemma Cfg_ind' : forall P : Cfg -> Prop,
  (forall n, P (CBoolean n)) -> (forall k v, P (CNamed k v)) ->
  (forall l, Forall P l -> P (CAny l)) -> (forall l, Forall P l -> P (CAll l)) ->
  (forall c, P c -> P (CNot c)) -> forall c, P c.
Proof.
  intros P H1 H2 H3 H4 H5. fix IH 1. intros [n|k v|l|l|c].
  - apply H1.
  - apply H2.
  - apply H3. induction l; constructor; auto.
  - apply H4. induction l; constructor; auto.
  - apply H5. apply IH.
Qed.

Lemma Condition_ind' : forall P : Condition -> Prop,
  (forall d, P (Define d)) ->
  (forall l, Forall P l -> P (Any l)) -> (forall l, Forall P l -> P (All l)) ->
  (forall c, P c -> P (Not c)) -> forall c, P c.
Proof.
  intros P H1 H3 H4 H5. fix IH 1. intros [d|l|l|c].
  - apply H1.
  - apply H3. induction l; constructor; auto.
  - apply H4. induction l; constructor; auto.
  - apply H5. apply IH.
Qed.

Lemma meta_ind' : forall P : meta -> Prop,
  (forall i, P (MPath i)) -> (forall i v, P (MNameValue i v)) ->
  (forall i, P (MList i None)) ->
  (forall i l, Forall P l -> P (MList i (Some l))) -> forall m, P m.
Proof.
  intros P H1 H2 H3 H4. fix IH 1. intros [i|i v|i [l|]].
  - apply H1.
  - apply H2.
  - apply H4. induction l; constructor; auto.
  - apply H3.
Qed.

(** ** Trimming and splitting *)
Lemma srev_append_spec : forall s acc, srev_append s acc = srev s ++ acc.
Proof.
  unfold srev. induction s as [|a s IH]; intro acc; cbn; [reflexivity|].
  rewrite IH, (IH (String a "")). now rewrite sapp_assoc.
Qed.

Lemma srev_cons : forall a s, srev (String a s) = srev s ++ String a "".
Proof. intros. unfold srev at 1. cbn. apply srev_append_spec. Qed.

Lemma srev_app : forall s t, srev (s ++ t) = srev t ++ srev s.
Proof.
  induction s as [|a s IH]; intro t.
  - change (srev "") with "". now rewrite sapp_nil_r.
  - change (String a s ++ t) with (String a (s ++ t)). rewrite !srev_cons, IH, sapp_assoc. reflexivity.
Qed.

Lemma srev_invol : forall s, srev (srev s) = s.
Proof. induction s as [|a s IH]; [reflexivity|]. rewrite srev_cons, srev_app, IH. reflexivity. Qed.

Lemma blanks_app : forall a b, blanks (a ++ b) <-> blanks a /\ blanks b.
Proof. induction a as [|x a IH]; intro b; cbn; [tauto|]. rewrite IH. tauto. Qed.

Lemma blanks_rev : forall s, blanks s -> blanks (srev s).
Proof.
  induction s as [|a s IH]; intro H; [exact I|]. rewrite srev_cons. apply blanks_app.
  cbn in *. tauto.
Qed.

Lemma trim_start_spec : forall s, exists b, blanks b /\ s = b ++ trim_start s.
Proof.
  induction s as [|a s (b & B & E)]; cbn; [exists ""; cbn; auto|].
  destruct (is_white a) eqn:W.
  - exists (String a b). cbn. split; [auto|]. now f_equal.
  - exists "". cbn. auto.
Qed.

Lemma trim_end_spec : forall s, exists b, blanks b /\ s = trim_end s ++ b.
Proof.
  intro s. destruct (trim_start_spec (srev s)) as (b & B & E). exists (srev b).
  split; [now apply blanks_rev|]. unfold trim_end. rewrite <- srev_app, <- E. symmetry. apply srev_invol.
Qed.

Lemma trim_start_blanks : forall b s, blanks b -> trim_start (b ++ s) = trim_start s.
Proof. induction b as [|a b IH]; intros s H; cbn in *; [reflexivity|]. destruct H as [-> H]. auto. Qed.

Lemma trim_end_blanks : forall b s, blanks b -> trim_end (s ++ b) = trim_end s.
Proof.
  intros b s H. unfold trim_end. rewrite srev_app, trim_start_blanks; [reflexivity|now apply blanks_rev].
Qed.

(** A non-blank character stops trimming. *)
Lemma trim_start_stop : forall x c y, is_white c = false ->
  trim_start (x ++ String c y) = trim_start x ++ String c y.
Proof.
  induction x as [|a x IH]; intros c y W; cbn; [now rewrite W|].
  destruct (is_white a); [auto|reflexivity].
Qed.

Lemma trim_end_stop : forall x c y, is_white c = false ->
  trim_end (x ++ String c y) = x ++ String c (trim_end y).
Proof.
  intros x c y W. unfold trim_end.
  rewrite srev_app, srev_cons, sapp_assoc. cbn.
  rewrite trim_start_stop by exact W.
  rewrite srev_app, srev_cons, srev_invol, sapp_assoc. reflexivity.
Qed.

Lemma trim_start_idem : forall s, trim_start (trim_start s) = trim_start s.
Proof.
  induction s as [|a s IH]; [reflexivity|]. cbn. destruct (is_white a) eqn:W; [exact IH|].
  cbn. now rewrite W.
Qed.

Lemma trim_end_idem : forall s, trim_end (trim_end s) = trim_end s.
Proof. intro s. unfold trim_end. rewrite srev_invol, trim_start_idem. reflexivity. Qed.

(** Either nothing but blanks, or some first non-blank character. *)
Lemma blanks_or_char : forall s, blanks s \/ exists b c r, blanks b /\ is_white c = false /\ s = b ++ String c r.
Proof.
  induction s as [|a s [B|(b & c & r & B & W & E)]]; cbn; [auto| |].
  - destruct (is_white a) eqn:W; [auto|]. right. exists "", a, s. cbn. auto.
  - destruct (is_white a) eqn:Wa.
    + right. exists (String a b), c, r. cbn. subst. auto.
    + right. exists "", a, s. cbn. auto.
Qed.

Lemma trim_start_all_blank : forall s, blanks s -> trim_start s = "".
Proof. induction s as [|a s IH]; intro H; cbn in *; [reflexivity|]. destruct H as [-> H]. auto. Qed.

Lemma trim_blanks : forall s, blanks s -> trim s = "".
Proof. intros s H. unfold trim. rewrite trim_start_all_blank by exact H. reflexivity. Qed.

Lemma trim_trim_start : forall s, trim (trim_start s) = trim s.
Proof. intro s. unfold trim. now rewrite trim_start_idem. Qed.

Lemma trim_swap : forall s, trim s = trim_start (trim_end s).
Proof.
  intro s. unfold trim. destruct (blanks_or_char s) as [B|(b & c & r & B & W & E)].
  - rewrite trim_start_all_blank by exact B.
    destruct (trim_end_spec s) as (b & Bb & E).
    assert (Bs : blanks (trim_end s)).
    { rewrite E in B. now apply blanks_app in B as [B _]. }
    rewrite trim_start_all_blank by exact Bs. reflexivity.
  - subst s. rewrite trim_start_blanks by exact B.
    replace (trim_start (String c r)) with (String c r) by (cbn; now rewrite W).
    rewrite trim_end_stop by exact W.
    rewrite trim_start_blanks by exact B. cbn. rewrite W.
    exact (trim_end_stop "" c r W).
Qed.

Lemma trim_trim_end : forall s, trim (trim_end s) = trim s.
Proof. intro s. rewrite !trim_swap. now rewrite trim_end_idem. Qed.

Lemma trim_idem : forall s, trim (trim s) = trim s.
Proof.
  intro s. unfold trim at 2. rewrite trim_trim_end. apply trim_trim_start.
Qed.

Lemma trim_pad : forall b1 k b2, blanks b1 -> blanks b2 -> trim (b1 ++ k ++ b2) = trim k.
Proof.
  intros b1 k b2 B1 B2. unfold trim at 1. rewrite trim_start_blanks by exact B1.
  change (trim (k ++ b2) = trim k). rewrite trim_swap, trim_end_blanks by exact B2. now rewrite <- trim_swap.
Qed.

Lemma contains_app : forall c a b, contains_char c (a ++ b) = contains_char c a || contains_char c b.
Proof. induction a as [|x a IH]; intro b; cbn; [reflexivity|]. now rewrite IH, orb_assoc. Qed.

Lemma contains_blanks : forall c b, is_white c = false -> blanks b -> contains_char c b = false.
Proof.
  induction b as [|a b IH]; intros W B; cbn in *; [reflexivity|]. destruct B as [Wa B].
  destruct (Ascii.eqb_spec a c) as [->|N]; [congruence|]. auto.
Qed.

Lemma contains_trim : forall c s, is_white c = false -> contains_char c (trim s) = contains_char c s.
Proof.
  intros c s W. unfold trim.
  destruct (trim_start_spec s) as (b & B & E).
  destruct (trim_end_spec (trim_start s)) as (b2 & B2 & E2).
  rewrite E at 2. rewrite E2 at 2. rewrite !contains_app.
  rewrite (contains_blanks c b W B), (contains_blanks c b2 W B2), orb_false_r. reflexivity.
Qed.

Lemma split_no : forall c s, contains_char c s = false -> split_on c s = [s].
Proof.
  induction s as [|a s IH]; intro H; cbn in *; [reflexivity|].
  apply orb_false_elim in H as [-> H]. now rewrite IH.
Qed.

Lemma split_nonempty : forall c s, split_on c s <> [].
Proof.
  induction s as [|a s IH]; cbn; [discriminate|]. destruct (Ascii.eqb a c); [discriminate|].
  destruct (split_on c s); [contradiction|discriminate].
Qed.

Lemma split_app : forall c x y, contains_char c x = false ->
  split_on c (x ++ String c y) = x :: split_on c y.
Proof.
  induction x as [|a x IH]; intros y H; cbn in *.
  - now rewrite Ascii.eqb_refl.
  - apply orb_false_elim in H as [-> H]. rewrite IH by exact H. reflexivity.
Qed.

Lemma split_single : forall c s p, split_on c s = [p] -> s = p /\ contains_char c s = false.
Proof.
  induction s as [|a s IH]; intros p H; cbn in *; [injection H as <-; auto|].
  destruct (Ascii.eqb_spec a c) as [E|N].
  - destruct (split_on c s) eqn:Es; [destruct (split_nonempty c s Es)|discriminate].
  - destruct (split_on c s) as [|q [|]] eqn:Es; [destruct (split_nonempty c s Es)| |discriminate].
    destruct (IH q eq_refl) as [-> H2]. injection H as <-. auto.
Qed.

Lemma split_pair : forall c s p q, split_on c s = [p; q] ->
  s = p ++ String c q /\ contains_char c p = false /\ contains_char c q = false.
Proof.
  induction s as [|a s IH]; intros p q H; cbn in *; [discriminate|].
  destruct (Ascii.eqb_spec a c) as [E|N].
  - injection H as <- H. apply split_single in H as [-> H]. subst. auto.
  - destruct (split_on c s) as [|x [|y [|]]] eqn:Es; try discriminate.
    injection H as <- <-. destruct (IH x y eq_refl) as (-> & A & B).
    cbn. destruct (Ascii.eqb_spec a c); [congruence|]. auto.
Qed.

Definition key_of (a : atom) : DefineKey :=
  match a with Flag n => DBoolean n | KeyVal k v => DNamed k v end.

Lemma denotes_load : forall k a, denotes k a -> DefineKey_load k = key_of a.
Proof.
  intros k a H. destruct H as [s N|b1 k b2 b3 v b4 B1 B2 B3 B4 Nk Nv Tk Tv]; unfold DefineKey_load.
  - unfold no_eq in N. now rewrite N.
  - set (x := b1 ++ k ++ b2). set (y := b3 ++ v ++ b4).
    match goal with |- context[contains_char _ ?z] => assert (E : z = x ++ String "=" y) end.
    { unfold x, y. rewrite !sapp_assoc. reflexivity. }
    rewrite E.
    assert (W : is_white "=" = false) by reflexivity.
    assert (Cx : contains_char "=" x = false).
    { unfold x. rewrite !contains_app, (contains_blanks _ b1 W B1), (contains_blanks _ b2 W B2).
      unfold no_eq in Nk. now rewrite Nk. }
    assert (Cy : contains_char "=" y = false).
    { unfold y. rewrite !contains_app, (contains_blanks _ b3 W B3), (contains_blanks _ b4 W B4).
      unfold no_eq in Nv. now rewrite Nv. }
    rewrite contains_app. cbn [contains_char]. rewrite Ascii.eqb_refl, orb_true_r. cbn [negb].
    replace (trim (x ++ String "=" y)) with (trim_start x ++ String "=" (trim_end y)).
    2: { unfold trim. rewrite trim_start_stop by exact W. now rewrite trim_end_stop by exact W. }
    assert (Cx' : contains_char "=" (trim_start x) = false).
    { destruct (trim_start_spec x) as (b & _ & Ex). rewrite Ex, contains_app in Cx.
      now apply orb_false_elim in Cx as [_ Cx]. }
    assert (Cy' : contains_char "=" (trim_end y) = false).
    { destruct (trim_end_spec y) as (b & _ & Ey). rewrite Ey, contains_app in Cy.
      now apply orb_false_elim in Cy as [Cy _]. }
    rewrite split_app by exact Cx'. rewrite (split_no _ _ Cy').
    rewrite trim_trim_start, trim_trim_end. unfold x, y. rewrite !trim_pad by assumption.
    unfold trimmed in *. now rewrite Tk, Tv.
Qed.

Lemma load_denotes : forall k n v, DefineKey_load k = DNamed n v -> denotes k (KeyVal n v).
Proof.
  intros k n v. unfold DefineKey_load. destruct (contains_char "=" k) eqn:C; cbn; [|discriminate].
  destruct (split_on "=" (trim k)) as [|p [|q [|]]] eqn:Es; try discriminate.
  intro H. injection H as <- <-. apply split_pair in Es as (E & Cp & Cq).
  destruct (trim_start_spec k) as (b1 & B1 & E1).
  destruct (trim_end_spec (trim_start k)) as (b4 & B4 & E4). fold (trim k) in E4.
  destruct (trim_start_spec p) as (p1 & Bp1 & Ep1). destruct (trim_end_spec (trim_start p)) as (p2 & Bp2 & Ep2).
  destruct (trim_start_spec q) as (q1 & Bq1 & Eq1). destruct (trim_end_spec (trim_start q)) as (q2 & Bq2 & Eq2).
  fold (trim p) in Ep2. fold (trim q) in Eq2.
  assert (Ek : k = (b1 ++ p1) ++ trim p ++ p2 ++ "=" ++ q1 ++ trim q ++ (q2 ++ b4)).
  { rewrite E1, E4, E. rewrite Ep1 at 1. rewrite Ep2 at 1. rewrite Eq1 at 1. rewrite Eq2 at 1.
    rewrite !sapp_assoc. cbn. rewrite !sapp_assoc. reflexivity. }
  rewrite Ek. constructor; try (apply blanks_app; auto); auto.
  - unfold no_eq. now rewrite contains_trim.
  - unfold no_eq. now rewrite contains_trim.
  - apply trim_idem.
  - apply trim_idem.
Qed.

Lemma load_flag : forall k n, DefineKey_load k = DBoolean n -> k = n.
Proof.
  intros k n. unfold DefineKey_load. destruct (contains_char "=" k); cbn; [|congruence].
  destruct (split_on "=" (trim k)) as [|p [|q [|]]]; congruence.
Qed.

Lemma DefineKey_eqb_eq : forall a b, DefineKey_eqb a b = true <-> a = b.
Proof.
  intros [x|k v] [y|k' v']; cbn; split; intro H; try discriminate.
  - apply String.eqb_eq in H. congruence.
  - injection H as ->. apply String.eqb_refl.
  - apply andb_prop in H as [H1 H2]. apply String.eqb_eq in H1, H2. congruence.
  - injection H as -> ->. now rewrite !String.eqb_refl.
Qed.

Lemma find_define_sound : forall key defs d, find_define key defs = Some d ->
  exists k, In (k, d) defs /\ DefineKey_load k = key.
Proof.
  induction defs as [|[k d'] r IH]; cbn; intros d H; [discriminate|].
  destruct (DefineKey_eqb key (DefineKey_load k)) eqn:E.
  - injection H as ->. apply DefineKey_eqb_eq in E. eauto.
  - destruct (IH d H) as (k2 & I & L). eauto.
Qed.

Lemma find_define_complete : forall key defs k d, In (k, d) defs -> DefineKey_load k = key ->
  exists d', find_define key defs = Some d'.
Proof.
  induction defs as [|[k d'] r IH]; cbn; intros k2 d I L; [contradiction|].
  destruct (DefineKey_eqb key (DefineKey_load k)) eqn:E; [eauto|].
  destruct I as [I|I]; [|eauto]. injection I as <- <-. exfalso.
  apply Bool.not_true_iff_false in E. apply E. now apply DefineKey_eqb_eq.
Qed.

(** A define found for an atom comes from a key that denotes it. *)
Lemma find_define_denotes : forall a defs d, find_define (key_of a) defs = Some d ->
  (match a with Flag n => no_eq n | _ => True end) ->
  exists k, In (k, d) defs /\ denotes k a.
Proof.
  intros a defs d H W. destruct (find_define_sound _ _ _ H) as (k & I & L). exists k. split; [exact I|].
  destruct a as [n|n v]; cbn in L.
  - apply load_flag in L. subst. now constructor.
  - now apply load_denotes.
Qed.

Lemma denotes_wf : forall k a, denotes k a -> match a with Flag n => no_eq n | _ => True end.
Proof. intros k a H. destruct H; auto. Qed.

(** ** Semantics of the translation *)

Section Sem.
Variables (defs : list (string * string)) (rho : atom -> bool) (mu : string -> bool).
Hypothesis consistent : forall k d a, In (k, d) defs -> denotes k a -> mu d = rho a.

Lemma find_define_meaning : forall a d, find_define (key_of a) defs = Some d ->
  (match a with Flag n => no_eq n | _ => True end) -> mu d = rho a.
Proof.
  intros a d H W. destruct (find_define_denotes a defs d H W) as (k & I & D). eauto.
Qed.

Lemma collapse_any : forall l, l <> [] -> exists c, collapse Any l = Some c /\
  cond_eval mu c = existsb (cond_eval mu) l.
Proof.
  intros [|x [|y l]] N; [congruence| |]; cbn; eexists; split; try reflexivity; cbn; auto.
  now rewrite orb_false_r.
Qed.

Lemma collapse_all : forall l, l <> [] -> exists c, collapse All l = Some c /\
  cond_eval mu c = forallb (cond_eval mu) l.
Proof.
  intros [|x [|y l]] N; [congruence| |]; cbn; eexists; split; try reflexivity; cbn; auto.
  now rewrite andb_true_r.
Qed.

Definition mapped (a : atom) : Prop := exists k d, In (k, d) defs /\ denotes k a.

Lemma to_condition_exact : forall c,
  (forall a, In a (atoms c) -> mapped a) -> no_empty c = true ->
  exists cond, to_condition defs c = Some cond /\ cond_eval mu cond = cfg_eval rho c.
Proof.
  assert (Leaf : forall a, mapped a -> exists cond,
     option_map Define (find_define (key_of a) defs) = Some cond /\ cond_eval mu cond = rho a).
  { intros a (k & d & I & D).
    destruct (find_define_complete (key_of a) defs k d I (denotes_load k a D)) as (d' & F).
    rewrite F. eexists. split; [reflexivity|]. cbn.
    apply find_define_meaning; [exact F|]. eapply denotes_wf; eauto. }
  assert (L : forall l, Forall (fun c => (forall a, In a (atoms c) -> mapped a) -> no_empty c = true ->
       exists cond, to_condition defs c = Some cond /\ cond_eval mu cond = cfg_eval rho c) l ->
     (forall a, In a (flat_map atoms l) -> mapped a) -> forallb no_empty l = true ->
     existsb (cond_eval mu) (filter_map (to_condition defs) l) = existsb (cfg_eval rho) l /\
     forallb (cond_eval mu) (filter_map (to_condition defs) l) = forallb (cfg_eval rho) l /\
     (l <> [] -> filter_map (to_condition defs) l <> [])).
  { induction l as [|x l IHl]; intros F M N; [cbn; auto|].
    inversion F as [|? ? Fx Fl]; subst. cbn in N. apply andb_prop in N as [Nx Nl].
    destruct Fx as (cx & Ex & Vx); [intros a Ha; apply M; cbn; apply in_or_app; auto|exact Nx|].
    destruct (IHl Fl) as (A & B & _); [intros a Ha; apply M; cbn; apply in_or_app; auto|exact Nl|].
    cbn. rewrite Ex. cbn. rewrite Vx, A, B. repeat split; auto; discriminate. }
  induction c as [n|k v|l IH|l IH|c IH] using Cfg_ind'; intros M N.
  - apply (Leaf (Flag n)). apply M. now left.
  - apply (Leaf (KeyVal k v)). apply M. now left.
  - cbn in N. apply andb_prop in N as [Ne Nl]. destruct (L l IH M Nl) as (A & B & D).
    destruct (collapse_any (filter_map (to_condition defs) l)) as (cc & E & V).
    { apply D. destruct l; [discriminate|discriminate]. }
    exists cc. split; [exact E|]. rewrite V. exact A.
  - cbn in N. apply andb_prop in N as [Ne Nl]. destruct (L l IH M Nl) as (A & B & D).
    destruct (collapse_all (filter_map (to_condition defs) l)) as (cc & E & V).
    { apply D. destruct l; [discriminate|discriminate]. }
    exists cc. split; [exact E|]. rewrite V. exact B.
  - destruct (IH M N) as (cc & E & V). cbn. rewrite E. cbn. eexists. split; [reflexivity|].
    cbn. now rewrite V.
Qed.

(** *** Unknown atoms *)
Variable known : atom -> bool.
Hypothesis known_spec : forall a, known a = true <-> mapped a.

Lemma leaf_known : forall a, known a = true -> exists d,
  find_define (key_of a) defs = Some d /\ mu d = rho a.
Proof.
  intros a K. apply known_spec in K as (k & d & I & D).
  destruct (find_define_complete (key_of a) defs k d I (denotes_load k a D)) as (d' & F).
  exists d'. split; [exact F|]. apply find_define_meaning; [exact F|]. eapply denotes_wf; eauto.
Qed.

(** Flags written in source are identifiers, so they contain no "=". *)
Definition source_atom (a : atom) : Prop := match a with Flag n => no_eq n | _ => True end.

Lemma leaf_unknown : forall a, source_atom a -> known a = false -> find_define (key_of a) defs = None.
Proof.
  intros a W K. destruct (find_define (key_of a) defs) as [d|] eqn:F; [|reflexivity].
  destruct (find_define_denotes a defs d F W) as (k & I & D).
  assert (known a = true) by (apply known_spec; exists k, d; auto). congruence.
Qed.

Lemma existsb_flat : forall (l : list Cfg),
  existsb known (flat_map atoms l) = existsb (mentions known) l.
Proof.
  induction l as [|x l IH]; cbn; [reflexivity|]. now rewrite existsb_app, IH.
Qed.

Lemma to_condition_mentions : forall c, (forall a, In a (atoms c) -> source_atom a) ->
  to_condition defs c = None <-> mentions known c = false.
Proof.
  assert (Leaf : forall a, source_atom a ->
     (option_map Define (find_define (key_of a) defs) = None <-> known a || false = false)).
  { intros a W. rewrite orb_false_r. destruct (known a) eqn:K.
    - destruct (leaf_known a K) as (d & -> & _). cbn. split; discriminate.
    - rewrite (leaf_unknown a W K). cbn. tauto. }
  assert (L : forall l mk, Forall (fun c => (forall a, In a (atoms c) -> source_atom a) ->
       to_condition defs c = None <-> mentions known c = false) l ->
       (forall a, In a (flat_map atoms l) -> source_atom a) ->
       (collapse mk (filter_map (to_condition defs) l) = None <-> existsb (mentions known) l = false)).
  { intros l mk F W.
    assert (Q : filter_map (to_condition defs) l = [] <-> existsb (mentions known) l = false).
    { induction l as [|x l IHl]; cbn; [tauto|]. inversion F as [|? ? Fx Fl]; subst.
      assert (Wx : forall a, In a (atoms x) -> source_atom a) by (intros a Ha; apply W; cbn; apply in_or_app; auto).
      assert (Wl : forall a, In a (flat_map atoms l) -> source_atom a) by (intros a Ha; apply W; cbn; apply in_or_app; auto).
      specialize (Fx Wx). specialize (IHl Fl Wl).
      destruct (to_condition defs x) as [cx|].
      - split; [discriminate|]. intro H. apply orb_false_elim in H as [H _]. apply Fx in H. discriminate.
      - rewrite IHl. destruct Fx as [Fx _]. rewrite (Fx eq_refl). tauto. }
    destruct (filter_map (to_condition defs) l) as [|x [|y r]]; cbn.
    - tauto.
    - split; [discriminate|]. intro H. apply Q in H. discriminate.
    - split; [discriminate|]. intro H. apply Q in H. discriminate. }
  induction c as [n|k v|l IH|l IH|c IH] using Cfg_ind'; intro W.
  - apply (Leaf (Flag n)). apply W. now left.
  - apply (Leaf (KeyVal k v)). exact I.
  - unfold mentions. cbn. rewrite existsb_flat. now apply L.
  - unfold mentions. cbn. rewrite existsb_flat. now apply L.
  - specialize (IH W). unfold mentions in *. cbn. destruct (to_condition defs c); cbn; [|tauto].
    split; [discriminate|]. intro H. apply IH in H. discriminate.
Qed.

Definition weak_at (c : Cfg) : Prop :=
  cfg_eval rho c = true -> cond_eval_opt mu (to_condition defs c) = true.
Definition strong_at (c : Cfg) : Prop :=
  exists cond, to_condition defs c = Some cond /\ (cond_eval mu cond = true -> cfg_eval rho c = true).

Lemma polarity_sound : forall c, (forall a, In a (atoms c) -> source_atom a) ->
  (polarity known true c = true -> weak_at c) /\ (polarity known false c = true -> strong_at c).
Proof.
  assert (Leaf : forall a c, source_atom a -> to_condition defs c = option_map Define (find_define (key_of a) defs) ->
     cfg_eval rho c = rho a -> weak_at c /\ (known a = true -> strong_at c)).
  { intros a c W T E. unfold weak_at, strong_at. rewrite T, E. destruct (known a) eqn:K.
    - destruct (leaf_known a K) as (d & -> & V). cbn. split; [congruence|]. intros _.
      eexists. split; [reflexivity|]. cbn. congruence.
    - rewrite (leaf_unknown a W K). cbn. split; [auto|discriminate]. }
  induction c as [n|k v|l IH|l IH|c IH] using Cfg_ind'; intro W.
  - destruct (Leaf (Flag n) (CBoolean n)) as [A B]; [apply W; now left|reflexivity|reflexivity|].
    cbn. split; auto.
  - destruct (Leaf (KeyVal k v) (CNamed k v)) as [A B]; [exact I|reflexivity|reflexivity|].
    cbn. split; auto.
  - (* any *)
    assert (Wx : forall x, In x l -> forall a, In a (atoms x) -> source_atom a).
    { intros x Hx a Ha. apply W. cbn. apply in_flat_map. eauto. }
    rewrite Forall_forall in IH.
    split; intro H; cbn in H; apply andb_prop in H as [H1 H2].
    + unfold weak_at. cbn. intro V. apply existsb_exists in V as (x & Hx & Vx).
      apply orb_prop in H2 as [H2|H2].
      * (* every operand has a condition *)
        rewrite forallb_forall in H1, H2.
        assert (Hin : forall y, In y l -> exists cy, to_condition defs y = Some cy).
        { intros y Hy. destruct (to_condition defs y) eqn:E; [eauto|].
          apply (to_condition_mentions y (Wx y Hy)) in E. rewrite (H2 y Hy) in E. discriminate. }
        destruct (Hin x Hx) as (cx & Ex).
        pose proof (proj1 (IH x Hx (Wx x Hx)) (H1 x Hx)) as Wk. unfold weak_at in Wk. rewrite Ex in Wk. cbn in Wk.
        assert (Icx : In cx (filter_map (to_condition defs) l)).
        { clear -Hx Ex. induction l as [|y l IHl]; [contradiction|]. cbn.
          destruct Hx as [->|Hx]; [rewrite Ex; now left|]. destruct (to_condition defs y); [right|]; auto. }
        destruct (collapse_any (filter_map (to_condition defs) l)) as (cc & E & Vc).
        { intro Z. rewrite Z in Icx. contradiction. }
        rewrite E. cbn. rewrite Vc. apply existsb_exists. eauto.
      * (* no operand has one *)
        apply negb_true_iff in H2.
        assert (N : to_condition defs (CAny l) = None).
        { apply to_condition_mentions; [exact W|]. unfold mentions. cbn. now rewrite existsb_flat. }
        cbn in N. rewrite N. reflexivity.
    + unfold strong_at. rewrite forallb_forall in H2.
      assert (N : to_condition defs (CAny l) <> None).
      { intro Z. apply to_condition_mentions in Z; [|exact W]. unfold mentions in Z. cbn in Z.
        rewrite existsb_flat in Z. congruence. }
      cbn in N. destruct (collapse_any (filter_map (to_condition defs) l)) as (cc & E & Vc).
      { intro Z. rewrite Z in N. now apply N. }
      exists cc. split; [exact E|]. rewrite Vc. intro V. apply existsb_exists in V as (cy & Hcy & Vcy).
      assert (exists y, In y l /\ to_condition defs y = Some cy) as (y & Hy & Ey).
      { clear -Hcy. induction l as [|z l IHl]; [contradiction|]. cbn in Hcy.
        destruct (to_condition defs z) eqn:Ez.
        - destruct Hcy as [->|Hcy]; [exists z; cbn; auto|]. destruct (IHl Hcy) as (y & A & B). exists y. cbn. auto.
        - destruct (IHl Hcy) as (y & A & B). exists y. cbn. auto. }
      assert (My : mentions known y = true).
      { destruct (mentions known y) eqn:M; [reflexivity|]. apply to_condition_mentions in M; [|eauto]. congruence. }
      specialize (H2 y Hy). rewrite My in H2. cbn in H2.
      destruct (proj2 (IH y Hy (Wx y Hy)) H2) as (c2 & E2 & V2). rewrite Ey in E2. injection E2 as <-.
      cbn. apply existsb_exists. eauto.
  - (* all *)
    assert (Wx : forall x, In x l -> forall a, In a (atoms x) -> source_atom a).
    { intros x Hx a Ha. apply W. cbn. apply in_flat_map. eauto. }
    rewrite Forall_forall in IH.
    split; intro H; cbn in H.
    + unfold weak_at. cbn. intro V. rewrite forallb_forall in V, H.
      destruct (filter_map (to_condition defs) l) as [|z zs] eqn:Ef; [reflexivity|].
      destruct (collapse_all (filter_map (to_condition defs) l)) as (cc & E & Vc).
      { rewrite Ef. discriminate. }
      rewrite Ef in E. rewrite E. cbn. rewrite Vc. apply forallb_forall. intros cy Hcy.
      assert (exists y, In y l /\ to_condition defs y = Some cy) as (y & Hy & Ey).
      { clear -Hcy. induction l as [|x l IHl]; [contradiction|]. cbn in Hcy.
        destruct (to_condition defs x) eqn:Ez.
        - destruct Hcy as [->|Hcy]; [exists x; cbn; auto|]. destruct (IHl Hcy) as (y & A & B). exists y. cbn. auto.
        - destruct (IHl Hcy) as (y & A & B). exists y. cbn. auto. }
      pose proof (proj1 (IH y Hy (Wx y Hy)) (H y Hy)) as Wk. unfold weak_at in Wk. rewrite Ey in Wk. cbn in Wk.
      auto.
    + apply andb_prop in H as [H1 H2]. unfold strong_at. rewrite forallb_forall in H2.
      assert (N : to_condition defs (CAll l) <> None).
      { intro Z. apply to_condition_mentions in Z; [|exact W]. unfold mentions in Z. cbn in Z.
        rewrite existsb_flat in Z. congruence. }
      cbn in N. destruct (collapse_all (filter_map (to_condition defs) l)) as (cc & E & Vc).
      { intro Z. rewrite Z in N. now apply N. }
      exists cc. split; [exact E|]. rewrite Vc. intro V. rewrite forallb_forall in V.
      cbn. apply forallb_forall. intros y Hy.
      destruct (proj2 (IH y Hy (Wx y Hy)) (H2 y Hy)) as (c2 & E2 & V2).
      apply V2. apply V. clear -Hy E2. induction l as [|x l IHl]; [contradiction|]. cbn.
      destruct Hy as [->|Hy]; [rewrite E2; now left|]. destruct (to_condition defs x); [right|]; auto.
  - destruct (IH W) as [A B]. split; intro H; cbn in H.
    + unfold weak_at. cbn. intro V. apply orb_prop in H as [H|H].
      * apply negb_true_iff in H. apply to_condition_mentions in H; [|exact W]. now rewrite H.
      * destruct (B H) as (cc & E & S1). rewrite E. cbn.
        destruct (cond_eval mu cc) eqn:Vc; [|reflexivity]. rewrite (S1 eq_refl) in V. discriminate.
    + apply andb_prop in H as [H1 H2]. specialize (A H2). unfold weak_at in A.
      destruct (to_condition defs c) as [cc|] eqn:E.
      * unfold strong_at. cbn. rewrite E. cbn. eexists. split; [reflexivity|]. cbn. intro V.
        destruct (cfg_eval rho c); [|reflexivity]. cbn in A. rewrite (A eq_refl) in V. discriminate.
      * apply to_condition_mentions in E; [|exact W]. congruence.
Qed.

Lemma known_polarity : forall c, forallb known (atoms c) = true -> no_empty c = true ->
  polarity known true c = true /\ polarity known false c = true /\ mentions known c = true.
Proof.
  assert (Leaf : forall b, b && true = true -> b = true) by (intros []; auto).
  induction c as [n|k v|l IH|l IH|c IH] using Cfg_ind'; intros K N; cbn in *.
  - apply Leaf in K. unfold mentions. cbn. rewrite K. auto.
  - apply Leaf in K. unfold mentions. cbn. rewrite K. auto.
  - apply andb_prop in N as [Ne Nl].
    assert (All3 : forall x, In x l -> polarity known true x = true /\ polarity known false x = true /\ mentions known x = true).
    { intros x Hx. rewrite Forall_forall in IH. apply IH; auto.
      - apply forallb_forall. intros a Ha. rewrite forallb_forall in K. apply K. apply in_flat_map. eauto.
      - rewrite forallb_forall in Nl. auto. }
    assert (M : existsb (mentions known) l = true).
    { destruct l as [|x l]; [discriminate|]. apply existsb_exists. exists x. split; [now left|]. apply All3. now left. }
    assert (F1 : forallb (polarity known true) l = true) by (apply forallb_forall; intros x Hx; apply All3; auto).
    assert (F2 : forallb (mentions known) l = true) by (apply forallb_forall; intros x Hx; apply All3; auto).
    repeat split.
    + now rewrite F1, F2.
    + rewrite M. cbn. apply forallb_forall. intros x Hx. destruct (All3 x Hx) as (_ & -> & _). apply orb_true_r.
    + unfold mentions. cbn. now rewrite existsb_flat.
  - apply andb_prop in N as [Ne Nl].
    assert (All3 : forall x, In x l -> polarity known true x = true /\ polarity known false x = true /\ mentions known x = true).
    { intros x Hx. rewrite Forall_forall in IH. apply IH; auto.
      - apply forallb_forall. intros a Ha. rewrite forallb_forall in K. apply K. apply in_flat_map. eauto.
      - rewrite forallb_forall in Nl. auto. }
    assert (M : existsb (mentions known) l = true).
    { destruct l as [|x l]; [discriminate|]. apply existsb_exists. exists x. split; [now left|]. apply All3. now left. }
    repeat split.
    + apply forallb_forall; intros x Hx; apply All3; auto.
    + rewrite M. cbn. apply forallb_forall. intros x Hx. now apply All3.
    + unfold mentions. cbn. now rewrite existsb_flat.
  - destruct (IH K N) as (A & B & D). unfold mentions in *. cbn. rewrite A, B, D. auto.
Qed.

Lemma only_in_all_polarity : forall c, unknown_only_in_all known c = true -> polarity known true c = true.
Proof.
  induction c as [n|k v|l IH|l IH|c IH] using Cfg_ind'; intro H; cbn [unknown_only_in_all] in H.
  - reflexivity.
  - reflexivity.
  - apply andb_prop in H as [H1 H2]. now apply known_polarity.
  - cbn. apply forallb_forall. intros x Hx. rewrite Forall_forall in IH. rewrite forallb_forall in H. auto.
  - apply andb_prop in H as [H1 H2]. now apply known_polarity.
Qed.

End Sem.

(** ** The order of the defines table *)
Lemma find_define_perm : forall key d1 d2,
  Permutation d1 d2 -> NoDup (map fst d1) ->
  (forall k1 m1 k2 m2 a, In (k1, m1) d1 -> In (k2, m2) d1 -> denotes k1 a -> denotes k2 a -> m1 = m2) ->
  find_define key d1 = find_define key d2.
Proof.
  intros key d1 d2 P ND U.
  assert (U' : forall k1 m1 k2 m2, In (k1, m1) d1 -> In (k2, m2) d1 ->
     DefineKey_load k1 = key -> DefineKey_load k2 = key -> m1 = m2).
  { intros k1 m1 k2 m2 I1 I2 L1 L2. destruct key as [n|k v].
    - apply load_flag in L1, L2. subst k1 k2.
      clear -ND I1 I2. induction d1 as [|[k m] d IH]; [contradiction|].
      cbn in ND. inversion ND as [|? ? N1 N2]; subst. destruct I1 as [I1|I1], I2 as [I2|I2].
      + congruence.
      + injection I1 as -> ->. exfalso. apply N1. apply in_map_iff. exists (n, m2). auto.
      + injection I2 as -> ->. exfalso. apply N1. apply in_map_iff. exists (n, m1). auto.
      + auto.
    - eapply U; eauto using load_denotes. }
  destruct (find_define key d1) as [m1|] eqn:F1.
  - destruct (find_define_sound _ _ _ F1) as (k1 & I1 & L1).
    destruct (find_define_complete key d2 k1 m1) as (m2 & F2);
      [eapply Permutation_in; eauto|exact L1|].
    rewrite F2. destruct (find_define_sound _ _ _ F2) as (k2 & I2 & L2).
    f_equal. eapply U'; eauto. eapply Permutation_in; [apply Permutation_sym|]; eauto.
  - destruct (find_define key d2) as [m2|] eqn:F2; [|reflexivity].
    destruct (find_define_sound _ _ _ F2) as (k2 & I2 & L2).
    destruct (find_define_complete key d1 k2 m2) as (m1 & F); [|exact L2|congruence].
    eapply Permutation_in; [apply Permutation_sym|]; eauto.
Qed.

Lemma filter_map_ext : forall A B (f g : A -> option B) l,
  Forall (fun x => f x = g x) l -> filter_map f l = filter_map g l.
Proof.
  induction l as [|x l IH]; intro F; cbn; [reflexivity|]. inversion F; subst.
  rewrite H1. destruct (g x); [f_equal|]; auto.
Qed.

Lemma to_condition_perm : forall d1 d2,
  Permutation d1 d2 -> NoDup (map fst d1) ->
  (forall k1 m1 k2 m2 a, In (k1, m1) d1 -> In (k2, m2) d1 -> denotes k1 a -> denotes k2 a -> m1 = m2) ->
  forall c, to_condition d1 c = to_condition d2 c.
Proof.
  intros d1 d2 P ND U. induction c as [n|k v|l IH|l IH|c IH] using Cfg_ind'; cbn.
  - now rewrite (find_define_perm _ d1 d2 P ND U).
  - now rewrite (find_define_perm _ d1 d2 P ND U).
  - now rewrite (filter_map_ext _ _ _ _ l IH).
  - now rewrite (filter_map_ext _ _ _ _ l IH).
  - now rewrite IH.
Qed.

(** ** Parsing attributes *)
Lemma str_match3 : forall (A : Type) (n : string) (a b d e : A),
  match n with "not" => a | "all" => b | "any" => d | _ => e end =
  if String.eqb n "not" then a else if String.eqb n "all" then b else if String.eqb n "any" then d else e.
Proof.
  intros A n a b d e.
  destruct (String.eqb_spec n "not") as [->|N1]; [reflexivity|].
  destruct (String.eqb_spec n "all") as [->|N2]; [reflexivity|].
  destruct (String.eqb_spec n "any") as [->|N3]; [reflexivity|].
  repeat (match goal with
          | |- context[match ?x with "" => _ | String _ _ => _ end] => destruct x as [|? ?]; try reflexivity; try congruence
          | |- context[match ?x with Ascii _ _ _ _ _ _ _ _ => _ end] => destruct x as [[][][][][][][][]]; try reflexivity; try congruence
          end).
Qed.

Definition parse_list (f : meta -> option Cfg) : list meta -> option (list Cfg) :=
  fix all l := match l with
    | [] => Some []
    | x :: r => match f x with
                | None => None
                | Some c => match all r with None => None | Some cs => Some (c :: cs) end
                end
    end.
Definition eval_list (f : meta -> option bool) : list meta -> option (list bool) :=
  fix alls l := match l with
    | [] => Some []
    | x :: r => match f x, alls r with
                | Some b, Some bs => Some (b :: bs)
                | _, _ => None
                end
    end.

Lemma parse_meaning : forall rho m,
  rust_eval rho m = option_map (cfg_eval rho) (Cfg_parse m).
Proof.
  intros rho m.
  assert (L : forall l, Forall (fun m => rust_eval rho m = option_map (cfg_eval rho) (Cfg_parse m)) l ->
     eval_list (rust_eval rho) l = option_map (map (cfg_eval rho)) (parse_list Cfg_parse l)).
  { induction l as [|x l IHl]; intro F; [reflexivity|]. inversion F as [|? ? Fx Fl]; subst.
    cbn. rewrite Fx, (IHl Fl). destruct (Cfg_parse x); cbn; [|reflexivity].
    destruct (parse_list Cfg_parse l); reflexivity. }
  induction m as [[i|]|[i|] [v|]|[i|]|[i|] l IH] using meta_ind'; try reflexivity.
  - (* list with unparsable arguments *)
    cbn. repeat (match goal with
          | |- context[match ?x with "" => _ | String _ _ => _ end] => destruct x as [|? ?]; try reflexivity
          | |- context[match ?x with Ascii _ _ _ _ _ _ _ _ => _ end] => destruct x as [[][][][][][][][]]; try reflexivity
          end).
  - specialize (L l IH).
    change (Cfg_parse (MList (Some i) (Some l))) with
      (if String.eqb i "not" then
        match l with
        | [x] => match Cfg_parse x with None => None | Some c => Some (CNot c) end
        | _ => None
        end
      else if String.eqb i "all" then
        match parse_list Cfg_parse l with None => None | Some cs => Some (CAll cs) end
      else if String.eqb i "any" then
        match parse_list Cfg_parse l with None => None | Some cs => Some (CAny cs) end
      else None).
    change (rust_eval rho (MList (Some i) (Some l))) with
      (match i with
       | "not" => match l with [x] => option_map negb (rust_eval rho x) | _ => None end
       | "all" => option_map (forallb (fun b => b)) (eval_list (rust_eval rho) l)
       | "any" => option_map (existsb (fun b => b)) (eval_list (rust_eval rho) l)
       | _ => None
       end).
    rewrite str_match3. rewrite L.
    destruct (String.eqb i "not").
    { destruct l as [|x [|y l]]; try reflexivity. inversion IH as [|? ? Hx ?]; subst.
      rewrite Hx. destruct (Cfg_parse x); reflexivity. }
    destruct (String.eqb i "all").
    { destruct (parse_list Cfg_parse l) as [cs|]; cbn; [|reflexivity]. f_equal.
      clear. induction cs; cbn; congruence. }
    destruct (String.eqb i "any"); [|reflexivity].
    destruct (parse_list Cfg_parse l) as [cs|]; cbn; [|reflexivity]. f_equal.
    clear. induction cs; cbn; congruence.
Qed.

(** ** Printed conditions *)
Definition is_py (lang : Language) : bool := Language_eqb lang Cython.
Section Text.
Variable lang : Language.
Notation py := (is_py lang).

Definition or_text : string := if py then " or " else " || ".
Definition and_text : string := if py then " and " else " && ".
Definition not_text : string := if py then "not " else "!".

Fixpoint cond_text (c : Condition) : string :=
  let fix items sep l := match l with [] => "" | x :: r => sep ++ cond_text x ++ items sep r end in
  let list_ sep l := "(" ++ match l with [] => "" | x :: r => cond_text x ++ items sep r end ++ ")" in
  match c with
  | Define d => if py then d else "defined(" ++ d ++ ")"
  | Any l => list_ or_text l
  | All l => list_ and_text l
  | Not c => not_text ++ cond_text c
  end.

Fixpoint items_text (sep : string) (l : list Condition) : string :=
  match l with [] => "" | x :: r => sep ++ cond_text x ++ items_text sep r end.
Definition list_text (sep : string) (l : list Condition) : string :=
  "(" ++ match l with [] => "" | x :: r => cond_text x ++ items_text sep r end ++ ")".

Lemma cond_text_any : forall l, cond_text (Any l) = list_text or_text l.
Proof. reflexivity. Qed.
Lemma cond_text_all : forall l, cond_text (All l) = list_text and_text l.
Proof. reflexivity. Qed.

Lemma plain_text_seq : forall p q, plain_text (seq p q) =
  match plain_text p, plain_text q with Some a, Some b => Some (a ++ b) | _, _ => None end.
Proof.
  induction p; intro q; cbn; auto.
  - now destruct (plain_text q).
  - rewrite IHp. destruct (plain_text p); [|reflexivity]. destruct (plain_text q); [|reflexivity].
    now rewrite sapp_assoc.
Qed.

Lemma condition_plain : forall c, plain_text (Condition_write lang c) = Some (cond_text c).
Proof.
  assert (L : forall l sep, Forall (fun c => plain_text (Condition_write lang c) = Some (cond_text c)) l ->
    plain_text ((fix items (sep : string) (l : list Condition) : prog :=
      match l with
      | [] => PRet
      | x :: r => seq (write sep) (seq (Condition_write lang x) (items sep r))
      end) sep l) = Some (items_text sep l)).
  { induction l as [|x l IHl]; intros sep F; [reflexivity|]. inversion F as [|? ? Fx Fl]; subst.
    rewrite !plain_text_seq, Fx, (IHl sep Fl). cbn. now rewrite sapp_nil_r. }
  induction c as [d|l IH|l IH|c IH] using Condition_ind'.
  - unfold Condition_write, cond_text, is_py. destruct (Language_eqb lang Cython); cbn; now rewrite ?sapp_nil_r.
  - cbn [Condition_write]. rewrite !plain_text_seq.
    rewrite cond_text_any. unfold list_text, or_text, is_py.
    destruct l as [|x l]; [reflexivity|]. inversion IH as [|? ? Fx Fl]; subst.
    rewrite !plain_text_seq, Fx, (L l _ Fl). cbn. reflexivity.
  - cbn [Condition_write]. rewrite !plain_text_seq.
    rewrite cond_text_all. unfold list_text, and_text, is_py.
    destruct l as [|x l]; [reflexivity|]. inversion IH as [|? ? Fx Fl]; subst.
    rewrite !plain_text_seq, Fx, (L l _ Fl). cbn. reflexivity.
  - cbn [Condition_write]. rewrite !plain_text_seq, IH. cbn. unfold not_text, is_py. now rewrite sapp_nil_r.
Qed.

(** *** Tokens of the text *)
Fixpoint toks (c : Condition) : list token :=
  let fix items sep l := match l with [] => [] | x :: r => sep :: toks x ++ items sep r end%list in
  let list_ sep l := (Sym "(" :: match l with [] => [] | x :: r => toks x ++ items sep r end ++ [Sym ")"])%list in
  match c with
  | Define d => if py then [Word d] else [Word "defined"; Sym "("; Word d; Sym ")"]
  | Any l => list_ (t_or py) l
  | All l => list_ (t_and py) l
  | Not c => t_not py :: toks c
  end.
Fixpoint items_toks (sep : token) (l : list Condition) : list token :=
  (match l with [] => [] | x :: r => sep :: toks x ++ items_toks sep r end)%list.
Definition list_toks (sep : token) (l : list Condition) : list token :=
  (Sym "(" :: match l with [] => [] | x :: r => toks x ++ items_toks sep r end ++ [Sym ")"])%list.

Lemma toks_any : forall l, toks (Any l) = list_toks (t_or py) l.
Proof. reflexivity. Qed.
Lemma toks_all : forall l, toks (All l) = list_toks (t_and py) l.
Proof. reflexivity. Qed.

(** Readable conditions: macro names are readable, lists are not empty. *)
Fixpoint readable (c : Condition) : bool :=
  match c with
  | Define d => macro_name py d
  | Any l | All l => match l with [] => false | _ => true end && forallb readable l
  | Not c => readable c
  end.

Lemma macro_word : forall d, macro_name py d = true -> is_word d = true.
Proof. unfold macro_name. intros d H. apply andb_prop in H as [H _]. now apply ident_word. Qed.

Lemma lex_punct : forall a r, existsb (Ascii.eqb a) ["("; ")"]%char = true ->
  lex (String a r) = Sym (String a "") :: lex r.
Proof.
  intros a r H. apply existsb_exists in H as (x & I & H). apply Ascii.eqb_eq in H. subst x.
  destruct I as [<-|[<-|[]]]; destruct r; reflexivity.
Qed.

Lemma sep_or_head : forall r, head_wordchar (or_text ++ r) = false.
Proof. intro r. unfold or_text. now destruct py. Qed.
Lemma sep_and_head : forall r, head_wordchar (and_text ++ r) = false.
Proof. intro r. unfold and_text. now destruct py. Qed.

Lemma lex_or_sep : forall r, lex (or_text ++ r) = t_or py :: lex r.
Proof.
  intro r. unfold or_text, t_or. destruct py; [|reflexivity].
  change (" or " ++ r) with (String " " ("or" ++ String " " r)). rewrite lex_space, lex_head_word by reflexivity.
  now rewrite lex_space.
Qed.
Lemma lex_and_sep : forall r, lex (and_text ++ r) = t_and py :: lex r.
Proof.
  intro r. unfold and_text, t_and. destruct py; [|reflexivity].
  change (" and " ++ r) with (String " " ("and" ++ String " " r)). rewrite lex_space, lex_head_word by reflexivity.
  now rewrite lex_space.
Qed.

(** The first character of a condition is not one that would merge with "!". *)
Lemma cond_text_head : forall c r, readable c = true -> head_no_op2 "!" (cond_text c ++ r) = true.
Proof.
  intros c r H. destruct c as [d|l|l|c].
  - change (macro_name py d = true) in H. apply macro_word in H. unfold cond_text. destruct py.
    + now apply head_no_op2_word.
    + reflexivity.
  - reflexivity.
  - reflexivity.
  - cbn. unfold not_text. destruct py; reflexivity.
Qed.

Lemma lex_cond : forall c r, readable c = true -> head_wordchar r = false ->
  lex (cond_text c ++ r) = (toks c ++ lex r)%list.
Proof.
  assert (L : forall sept sep l, (forall r, head_wordchar (sept ++ r) = false) ->
     (forall r, lex (sept ++ r) = sep :: lex r) ->
     Forall (fun c => forall r, readable c = true -> head_wordchar r = false ->
        lex (cond_text c ++ r) = (toks c ++ lex r)%list) l ->
     forallb readable l = true -> forall r, head_wordchar r = false ->
     head_wordchar (items_text sept l ++ r) = false /\
     lex (items_text sept l ++ r) = (items_toks sep l ++ lex r)%list).
  { intros sept sep l Hh Hs. induction l as [|x l IHl]; intros F R r Hr; [split; [exact Hr|reflexivity]|].
    inversion F as [|? ? Fx Fl]; subst. cbn in R. apply andb_prop in R as [Rx Rl].
    destruct (IHl Fl Rl r Hr) as [H1 H2]. cbn. rewrite !sapp_assoc. split; [apply Hh|].
    rewrite Hs, Fx by assumption. rewrite H2. now rewrite app_assoc. }
  assert (LL : forall sept sep l, (forall r, head_wordchar (sept ++ r) = false) ->
     (forall r, lex (sept ++ r) = sep :: lex r) ->
     Forall (fun c => forall r, readable c = true -> head_wordchar r = false ->
        lex (cond_text c ++ r) = (toks c ++ lex r)%list) l ->
     forallb readable l = true -> forall r,
     lex (list_text sept l ++ r) = (list_toks sep l ++ lex r)%list).
  { intros sept sep l Hh Hs F R r. unfold list_text, list_toks. rewrite sapp_assoc.
    change ("(" ++ ?x) with (String "(" x). rewrite lex_punct by reflexivity. cbn [List.app]. f_equal.
    rewrite <- app_assoc. cbn [List.app].
    assert (E : lex (String ")" r) = Sym ")" :: lex r) by now apply lex_punct.
    destruct l as [|x l]; [cbn [append List.app]; rewrite <- E; reflexivity|].
    inversion F as [|? ? Fx Fl]; subst. cbn in R. apply andb_prop in R as [Rx Rl].
    destruct (L sept sep l Hh Hs Fl Rl (")" ++ r) eq_refl) as [H1 H2].
    rewrite !sapp_assoc. rewrite Fx by assumption. rewrite H2. rewrite <- app_assoc.
    change (")" ++ r) with (String ")" r). now rewrite E. }
  induction c as [d|l IH|l IH|c IH] using Condition_ind'; intros r R Hr.
  - pose proof (macro_word d R) as W. unfold cond_text, toks. destruct py.
    + now apply lex_head_word.
    + rewrite !sapp_assoc. change ("defined(" ++ ?x) with ("defined" ++ String "(" x).
      rewrite lex_head_word by reflexivity. rewrite lex_punct by reflexivity.
      rewrite lex_head_word; [|exact W|reflexivity]. change (")" ++ r) with (String ")" r).
      now rewrite lex_punct.
  - rewrite cond_text_any, toks_any. apply LL; auto using sep_or_head, lex_or_sep.
    cbn in R. now apply andb_prop in R as [_ R].
  - rewrite cond_text_all, toks_all. apply LL; auto using sep_and_head, lex_and_sep.
    cbn in R. now apply andb_prop in R as [_ R].
  - cbn in R. cbn [cond_text toks]. rewrite sapp_assoc. unfold not_text, t_not. destruct py eqn:Epy.
    + change ("not " ++ ?x) with ("not" ++ String " " x). rewrite lex_head_word by reflexivity.
      rewrite lex_space. cbn [List.app]. now rewrite IH.
    + change ("!" ++ ?x) with (String "!" x). rewrite lex_sym1; [|reflexivity|reflexivity|].
      * cbn [List.app]. now rewrite IH.
      * now apply cond_text_head.
Qed.

(** *** Reading the tokens *)
Fixpoint fold_op (op : pexp -> pexp -> pexp) (l : list pexp) : pexp :=
  match l with [] => EAtom "" | [e] => e | e :: r => op e (fold_op op r) end.
Fixpoint ast (c : Condition) : pexp :=
  match c with
  | Define d => EAtom d
  | Any l => fold_op EOr (map ast l)
  | All l => fold_op EAnd (map ast l)
  | Not c => ENot (ast c)
  end.
Definition ast_or (x : Condition) (l : list Condition) : pexp := fold_op EOr (map ast (x :: l)).
Definition ast_and (x : Condition) (l : list Condition) : pexp := fold_op EAnd (map ast (x :: l)).

Lemma ast_any : forall x l, ast (Any (x :: l)) = ast_or x l.
Proof. reflexivity. Qed.
Lemma ast_all : forall x l, ast (All (x :: l)) = ast_and x l.
Proof. reflexivity. Qed.

Definition not_tok (t : token) (ts : list token) : Prop :=
  match ts with [] => True | x :: _ => token_eqb x t = false end.

Lemma toks_nonempty : forall c, 1 <= length (toks c).
Proof. destruct c; cbn; [destruct py; cbn; lia|lia|lia|lia]. Qed.

Lemma tok_refl : forall t, token_eqb t t = true.
Proof. destruct t; cbn; apply String.eqb_refl. Qed.

Lemma and_ne_or : token_eqb (t_or py) (t_and py) = false.
Proof. destruct py; reflexivity. Qed.

Definition reads (c : Condition) : Prop := forall fuel rest,
  3 * length (toks c) <= fuel -> read_not py fuel (toks c ++ rest)%list = Some (ast c, rest).

Lemma read_and_list : forall x l fuel rest, reads x -> Forall reads l ->
  not_tok (t_and py) rest ->
  3 * length (toks x ++ items_toks (t_and py) l)%list + 1 <= fuel ->
  read_and py fuel (toks x ++ items_toks (t_and py) l ++ rest)%list = Some (ast_and x l, rest).
Proof.
  intros x l. revert x. induction l as [|y l IH]; intros x fuel rest Rx Rl N H;
    (destruct fuel as [|f]; [rewrite app_length in H; lia|]); rewrite app_length in H; cbn [items_toks length] in H.
  - cbn [items_toks List.app read_and]. rewrite Rx by lia.
    destruct rest as [|t r]; [reflexivity|]. cbn in N. now rewrite N.
  - inversion Rl as [|? ? Ry Rl']; subst. rewrite app_length in H.
    cbn [items_toks List.app read_and]. rewrite Rx by lia. rewrite tok_refl.
    rewrite <- app_assoc. rewrite IH; auto. rewrite app_length.
    pose proof (toks_nonempty x). lia.
Qed.

Lemma read_or_list : forall x l fuel rest, reads x -> Forall reads l ->
  not_tok (t_and py) rest -> not_tok (t_or py) rest ->
  3 * length (toks x ++ items_toks (t_or py) l)%list + 2 <= fuel ->
  read_or py fuel (toks x ++ items_toks (t_or py) l ++ rest)%list = Some (ast_or x l, rest).
Proof.
  intros x l. revert x. induction l as [|y l IH]; intros x fuel rest Rx Rl N1 N2 H;
    (destruct fuel as [|f]; [rewrite app_length in H; lia|]); rewrite app_length in H; cbn [items_toks length] in H;
    cbn [items_toks List.app read_or].
  - pose proof (read_and_list x [] f rest Rx (Forall_nil _) N1) as A.
    cbn [items_toks List.app] in A. rewrite app_nil_r in A. rewrite A by lia. cbn.
    destruct rest as [|t r]; [reflexivity|]. cbn in N2. now rewrite N2.
  - inversion Rl as [|? ? Ry Rl']; subst. rewrite app_length in H.
    pose proof (read_and_list x [] f (t_or py :: (toks y ++ items_toks (t_or py) l) ++ rest)%list Rx (Forall_nil _) and_ne_or) as A.
    cbn [items_toks List.app] in A. rewrite app_nil_r in A. rewrite A by lia. cbn [ast_and map fold_op].
    rewrite tok_refl. rewrite <- app_assoc. rewrite IH; auto. rewrite app_length.
    pose proof (toks_nonempty x). lia.
Qed.

Lemma close_not_sep : token_eqb (Sym ")") (t_and py) = false /\ token_eqb (Sym ")") (t_or py) = false.
Proof. destruct py; auto. Qed.

Lemma reads_all : forall c, readable c = true -> reads c.
Proof.
  induction c as [d|l IH|l IH|c IH] using Condition_ind'; intro R; intros fuel rest H.
  - change (macro_name py d = true) in R. unfold toks in *. destruct fuel as [|f]; [exfalso; destruct py; cbn in H; lia|].
    unfold macro_name in R. unfold t_not. destruct py eqn:Epy.
    + apply andb_prop in R as [_ R]. cbn [List.app read_not token_eqb t_not].
      destruct (String.eqb_spec d "not") as [->|N]; [discriminate R|reflexivity].
    + reflexivity.
  - cbn in R. apply andb_prop in R as [Ne R]. destruct l as [|x l]; [discriminate|].
    assert (Rs : Forall reads (x :: l)).
    { rewrite Forall_forall in *. intros y Hy. apply IH; [exact Hy|]. rewrite forallb_forall in R. auto. }
    inversion Rs as [|? ? Rx Rl]; subst.
    rewrite toks_any, ast_any in *. unfold list_toks in *.
    destruct fuel as [|f]; [cbn in H; lia|]. cbn [List.app read_not length] in *.
    rewrite app_length in H. cbn in H.
    replace (token_eqb (Sym "(") (t_not py)) with false by (destruct py; reflexivity).
    cbn [token_eqb]. rewrite String.eqb_refl.
    rewrite <- !app_assoc. cbn [List.app]. destruct close_not_sep as [N1 N2].
    rewrite read_or_list; [reflexivity|exact Rx|exact Rl|exact N1|exact N2|rewrite app_length in *; lia].
  - cbn in R. apply andb_prop in R as [Ne R]. destruct l as [|x l]; [discriminate|].
    assert (Rs : Forall reads (x :: l)).
    { rewrite Forall_forall in *. intros y Hy. apply IH; [exact Hy|]. rewrite forallb_forall in R. auto. }
    inversion Rs as [|? ? Rx Rl]; subst.
    rewrite toks_all, ast_all in *. unfold list_toks in *.
    destruct fuel as [|f]; [cbn in H; lia|]. cbn [List.app read_not length] in *.
    rewrite app_length in H. cbn in H.
    replace (token_eqb (Sym "(") (t_not py)) with false by (destruct py; reflexivity).
    cbn [token_eqb]. rewrite String.eqb_refl.
    rewrite <- !app_assoc. cbn [List.app]. destruct close_not_sep as [N1 N2].
    destruct f as [|f]; [lia|]. cbn [read_or].
    rewrite read_and_list; [|exact Rx|exact Rl|exact N1|rewrite app_length in *; lia]. rewrite N2. reflexivity.
  - cbn in R. cbn [toks ast] in *. destruct fuel as [|f]; [cbn in H; lia|].
    cbn [List.app read_not length] in *. rewrite tok_refl. rewrite (IH R) by lia. reflexivity.
Qed.

Lemma ast_eval : forall mu c, readable c = true -> peval mu (ast c) = cond_eval mu c.
Proof.
  intros mu. induction c as [d|l IH|l IH|c IH] using Condition_ind'; intro R; cbn in R.
  - reflexivity.
  - apply andb_prop in R as [Ne R]. destruct l as [|x l]; [discriminate|]. rewrite ast_any. clear Ne.
    revert x IH R. induction l as [|y l IHl]; intros x IH R; cbn in R; apply andb_prop in R as [Rx Rl].
    + cbn. inversion IH; subst. rewrite orb_false_r. auto.
    + inversion IH; subst. change (ast_or x (y :: l)) with (EOr (ast x) (ast_or y l)). cbn [peval]. rewrite H1 by exact Rx. rewrite (IHl y) by assumption. reflexivity.
  - apply andb_prop in R as [Ne R]. destruct l as [|x l]; [discriminate|]. rewrite ast_all. clear Ne.
    revert x IH R. induction l as [|y l IHl]; intros x IH R; cbn in R; apply andb_prop in R as [Rx Rl].
    + cbn. inversion IH; subst. rewrite andb_true_r. auto.
    + inversion IH; subst. change (ast_and x (y :: l)) with (EAnd (ast x) (ast_and y l)). cbn [peval]. rewrite H1 by exact Rx. rewrite (IHl y) by assumption. reflexivity.
  - cbn. now rewrite IH.
Qed.

Lemma read_back : forall c, readable c = true -> read_condition py (cond_text c) = Some (ast c).
Proof.
  intros c R. unfold read_condition. pose proof (lex_cond c "" R eq_refl) as L.
  rewrite sapp_nil_r in L. cbn [lex] in L. rewrite app_nil_r in L. rewrite L.
  pose proof (read_or_list c [] (3 * length (toks c) + 3) [] (reads_all c R) (Forall_nil _) I I) as A.
  cbn [items_toks] in A. rewrite !app_nil_r in A. rewrite A by lia. reflexivity.
Qed.

End Text.

(** Conditions made from a defines table with readable values are readable. *)
Lemma to_condition_readable : forall lang defs,
  (forall k d, In (k, d) defs -> macro_name (Language_eqb lang Cython) d = true) ->
  forall c cond, to_condition defs c = Some cond -> readable lang cond = true.
Proof.
  intros lang defs Hd.
  assert (Leaf : forall key cond, option_map Define (find_define key defs) = Some cond -> readable lang cond = true).
  { intros key cond H. destruct (find_define key defs) as [d|] eqn:F; [|discriminate].
    injection H as <-. destruct (find_define_sound _ _ _ F) as (k & I & _). cbn. eauto. }
  assert (L : forall l, Forall (fun c => forall cond, to_condition defs c = Some cond -> readable lang cond = true) l ->
     forallb (readable lang) (filter_map (to_condition defs) l) = true).
  { induction l as [|x l IHl]; intro F; [reflexivity|]. inversion F as [|? ? Fx Fl]; subst. cbn.
    destruct (to_condition defs x) eqn:E; [cbn; rewrite (Fx _ eq_refl); cbn|]; auto. }
  induction c as [n|k v|l IH|l IH|c IH] using Cfg_ind'; intros cond H; cbn in H.
  - eauto.
  - eauto.
  - pose proof (L l IH) as R. destruct (filter_map (to_condition defs) l) as [|x [|y r]]; cbn in H; [discriminate| |].
    + injection H as <-. cbn in R. now rewrite andb_true_r in R.
    + injection H as <-. cbn. cbn in R. exact R.
  - pose proof (L l IH) as R. destruct (filter_map (to_condition defs) l) as [|x [|y r]]; cbn in H; [discriminate| |].
    + injection H as <-. cbn in R. now rewrite andb_true_r in R.
    + injection H as <-. cbn. cbn in R. exact R.
  - destruct (to_condition defs c) as [cc|]; [|discriminate]. injection H as <-. cbn. auto.
Qed.

(** ** Running *)
Lemma run_plain : forall tabw le p t w, plain_text p = Some t -> w_started w = true ->
  exists w', run tabw le p w = Some w' /\ w_out w' = w_out w ++ t /\ w_spaces w' = w_spaces w /\
     w_started w' = true /\ w_lineno w' = w_lineno w.
Proof.
  intros tabw le. induction p as [|text p IHp| | | | | | | |]; intros t w Hp St; cbn in Hp; try discriminate.
  - injection Hp as <-. exists w. rewrite sapp_nil_r. cbn. auto.
  - destruct (plain_text p) as [tk|]; [|discriminate]. injection Hp as <-.
    assert (exists w1, inner_write text w = Some w1 /\ w_out w1 = w_out w ++ text /\ w_spaces w1 = w_spaces w /\
     w_started w1 = true /\ w_lineno w1 = w_lineno w) as (w1 & E & O & Sp & St1 & Ln).
    { unfold inner_write. destruct (String.eqb_spec text "") as [->|N].
      - exists w. rewrite sapp_nil_r. auto.
      - rewrite St. eexists. split; [reflexivity|]. cbn. auto. }
    destruct (IHp tk w1 eq_refl St1) as (w2 & E2 & O2 & Sp2 & St2 & Ln2).
    exists w2. cbn. rewrite E. repeat split; try congruence.
    rewrite O2, O, sapp_assoc. reflexivity.
Qed.

Lemma guard_line : forall cfg c w sp r,
  w_started w = false -> w_spaces w = sp :: r -> tab_width cfg <> 0 ->
  let le := LineEndingStyle_as_str (line_endings cfg) in
  exists w', run (tab_width cfg) le (write_before cfg (Some c)) w = Some w' /\
    w_started w' = false /\
    w_out w' = w_out w ++
      (if Language_eqb (language cfg) Cython
       then srepeat " " sp ++ "IF " ++ cond_text (language cfg) c ++ ":" ++ le
       else "#if " ++ cond_text (language cfg) c ++ le).
Proof.
  intros cfg c w sp r St Sp Tw le. unfold write_before.
  destruct (Language_eqb (language cfg) Cython) eqn:L.
  - assert (language cfg = Cython) as EL by (destruct (language cfg); cbn in L; congruence).
    rewrite !run_seq. cbn [run write]. unfold inner_write at 1.
    replace (String.eqb "IF " "") with false by reflexivity. rewrite St, Sp.
    set (w1 := {| w_out := w_out w ++ srepeat " " sp ++ "IF " |}).
    destruct (run_plain (tab_width cfg) le _ _ w1 (condition_plain (language cfg) c) eq_refl)
      as (w2 & E2 & O2 & Sp2 & St2 & _).
    rewrite run_seq, E2. unfold open_brace. rewrite EL. cbn -[append Nat.modulo]. unfold inner_write. cbn -[append Nat.modulo].
    rewrite St2. unfold push_tab. cbn -[append Nat.modulo Nat.eqb].
    rewrite Sp2. cbn -[append Nat.modulo Nat.eqb].
    replace (Nat.eqb (tab_width cfg) 0) with false by (symmetry; now apply Nat.eqb_neq).
    eexists. split; [reflexivity|]. split; [reflexivity|]. cbn [w_out push_set new_line].
    rewrite O2, EL. unfold w1. cbn [w_out]. rewrite !sapp_assoc. reflexivity.
  - rewrite !run_seq. cbn [run push_set_spaces]. rewrite run_seq. cbn [run write]. unfold inner_write at 1.
    replace (String.eqb "#if " "") with false by reflexivity.
    cbn [w_started push_set w_spaces]. rewrite St. cbn [w_len w_lineno w_max w_out].
    match goal with |- context[run _ _ _ ?x] => set (w1 := x) end.
    destruct (run_plain (tab_width cfg) le _ _ w1 (condition_plain (language cfg) c) eq_refl)
      as (w2 & E2 & O2 & Sp2 & St2 & _).
    rewrite run_seq, E2. cbn [run seq pop newline]. unfold pop_tab. rewrite Sp2. cbn [w_spaces w1].
    eexists. split; [reflexivity|]. split; [reflexivity|]. cbn [w_out new_line].
    rewrite O2. unfold w1. cbn [w_out srepeat]. rewrite !sapp_assoc. reflexivity.
Qed.

(** ** Attributes and parents *)
Lemma load_meaning : forall rho attrs, Forall (attr_valid rho) attrs ->
  cfg_eval_opt rho (Cfg_load attrs) = forallb (attr_holds rho) attrs.
Proof.
  intros rho attrs F.
  assert (E : forallb (cfg_eval rho) (filter_map Cfg_load_one attrs) = forallb (attr_holds rho) attrs).
  { induction attrs as [|a l IH]; [reflexivity|]. inversion F as [|? ? Va Vl]; subst. cbn.
    rewrite <- (IH Vl). unfold attr_valid, attr_holds in *.
    destruct a as [i|i v|[i|] args]; cbn in Va |- *; try reflexivity.
    destruct (String.eqb i "cfg") eqn:Ei.
    - destruct (Va eq_refl) as (x & b & Ea & Er). destruct args as [[|y [|]]|]; try discriminate.
      injection Ea as ->. rewrite parse_meaning in *. destruct (Cfg_parse x); [|discriminate].
      reflexivity.
    - destruct args as [[|y [|]]|]; reflexivity. }
  rewrite <- E. unfold Cfg_load. destruct (filter_map Cfg_load_one attrs) as [|c [|d l]]; try reflexivity.
  cbn. now rewrite andb_true_r.
Qed.

Lemma append_meaning : forall rho p c,
  cfg_eval_opt rho (Cfg_append p c) = cfg_eval_opt rho p && cfg_eval_opt rho c.
Proof. intros rho [p|] [c|]; cbn; rewrite ?andb_true_r; reflexivity. Qed.

Lemma join_meaning : forall rho l, cfg_eval_opt rho (Cfg_join l) = forallb (cfg_eval rho) l.
Proof. intros rho [|c l]; reflexivity. Qed.

(** ** From cfg to printed guard *)
Lemma guard_reads_back : forall cfg c cond,
  (forall k d, In (k, d) (defines cfg) -> macro_name (Language_eqb (language cfg) Cython) d = true) ->
  to_condition (defines cfg) c = Some cond ->
  exists text e,
    (forall w sp r, w_started w = false -> w_spaces w = sp :: r -> tab_width cfg <> 0 ->
      let le := LineEndingStyle_as_str (line_endings cfg) in
      exists w', run (tab_width cfg) le (write_before cfg (Some cond)) w = Some w' /\
        w_started w' = false /\
        w_out w' = w_out w ++ (if Language_eqb (language cfg) Cython
                               then srepeat " " sp ++ "IF " ++ text ++ ":" ++ le
                               else "#if " ++ text ++ le)) /\
    read_condition (Language_eqb (language cfg) Cython) text = Some e /\
    forall mu, peval mu e = cond_eval mu cond.
Proof.
  intros cfg c cond Hd E. pose proof (to_condition_readable (language cfg) _ Hd c cond E) as R.
  exists (cond_text (language cfg) cond), (ast cond). split; [|split].
  - intros. now apply guard_line with (r := r).
  - exact (read_back (language cfg) cond R).
  - intro mu. exact (ast_eval (language cfg) mu cond R).
Qed.

Lemma guard_text_exact : forall cfg rho mu c,
  (forall k d, In (k, d) (defines cfg) -> macro_name (Language_eqb (language cfg) Cython) d = true) ->
  (forall k d a, In (k, d) (defines cfg) -> denotes k a -> mu d = rho a) ->
  (forall a, In a (atoms c) -> exists k d, In (k, d) (defines cfg) /\ denotes k a) ->
  no_empty c = true ->
  exists cond text e,
    to_condition (defines cfg) c = Some cond /\
    (forall w sp r, w_started w = false -> w_spaces w = sp :: r -> tab_width cfg <> 0 ->
      let le := LineEndingStyle_as_str (line_endings cfg) in
      exists w', run (tab_width cfg) le (write_before cfg (Some cond)) w = Some w' /\
        w_started w' = false /\
        w_out w' = w_out w ++ (if Language_eqb (language cfg) Cython
                               then srepeat " " sp ++ "IF " ++ text ++ ":" ++ le
                               else "#if " ++ text ++ le)) /\
    read_condition (Language_eqb (language cfg) Cython) text = Some e /\
    peval mu e = cfg_eval rho c.
Proof.
  intros cfg rho mu c Hm Hc Ha Hn.
  destruct (to_condition_exact (defines cfg) rho mu Hc c Ha Hn) as (cond & E & V).
  destruct (guard_reads_back cfg c cond Hm E) as (text & e & A & B & D).
  exists cond, text, e. rewrite D. auto.
Qed.

Lemma plain_wb : forall p t, plain_text p = Some t -> well_bracketed p.
Proof.
  induction p; intros t Hp; cbn in *; try discriminate; [reflexivity|].
  destruct (plain_text p) eqn:E; [|discriminate]. unfold well_bracketed. cbn. exact (IHp _ eq_refl).
Qed.

Lemma guards_wb : forall c g p, well_bracketed p ->
  well_bracketed (seq (write_before c g) (seq p (write_after c g))).
Proof.
  intros c [g|] p Hp; [|apply wb_seq; [reflexivity|apply wb_seq; [exact Hp|reflexivity]]].
  unfold write_before, write_after, well_bracketed.
  pose proof (plain_wb _ _ (condition_plain (language c) g)) as Hg.
  destruct (Language_eqb (language c) Cython).
  - eapply brackets_seq; [|eapply brackets_seq; [apply wb_at; exact Hp|apply brackets_close]].
    apply (brackets_seq (write "IF ") _ 0 0 1); [reflexivity|].
    eapply brackets_seq; [exact Hg|apply brackets_open].
  - apply (wb_seq _ _); [|apply wb_seq; [exact Hp|reflexivity]].
    apply (brackets_seq (push_set_spaces 0) _ 0 1 0); [reflexivity|].
    apply (brackets_seq (write "#if ") _ 1 1 0); [reflexivity|].
    eapply brackets_seq; [apply wb_at; exact Hg|]. reflexivity.
Qed.
