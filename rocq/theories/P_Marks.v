(** Deprecation and [must_use] from the attributes to the words of a header. *)
Require Import Coq.Strings.String Coq.Strings.Ascii Coq.Lists.List Coq.Bool.Bool Coq.NArith.NArith Lia.
From Verif Require Import Base P_Base M_Config M_Ir M_Attr M_Backend S_Marks.
From Verif Require P_Exports.
Import ListNotations.
Open Scope string_scope.

Lemma set_is : forall attrs a, AnnotationSet_load attrs = Some a ->
  an_deprecated a = find_deprecated_note attrs /\ an_must_use a = has_attr_word attrs "must_use" || has_attr_namevalue attrs "must_use".
Proof. intros attrs a E. unfold AnnotationSet_load in E. destruct (annotations_of_lines _ _); [|discriminate]. injection E as <-. split; reflexivity. Qed.

Lemma not_named : forall i n, i <> Some n -> is_ident i n = false.
Proof. intros i n N. destruct (is_ident i n) eqn:E; [|reflexivity]. exfalso. apply N. apply P_Exports.is_ident_iff. exact E. Qed.
Lemma other_word : forall n l, Forall (other_than n) l -> has_attr_word l n = false.
Proof.
  intros n l F. unfold has_attr_word. induction F as [|a l O F IH]; [reflexivity|]. cbn [existsb]. rewrite IH, orb_false_r.
  unfold other_than in O. destruct (at_meta a); try reflexivity. apply not_named. exact O.
Qed.
Lemma other_value : forall n l, Forall (other_than n) l -> filter_map (fun a => match at_meta a with
    | ANameValue i (Some v) => if is_ident i n then Some v else None | _ => None end) l = [].
Proof.
  intros n l F. induction F as [|a l O F IH]; [reflexivity|]. cbn [filter_map]. unfold other_than in O.
  destruct (at_meta a) as [|i [v|]| | |]; try exact IH. rewrite (not_named i n O). exact IH.
Qed.
Lemma filter_map_app : forall A B (f : A -> option B) l r, filter_map f (l ++ r) = (filter_map f l ++ filter_map f r)%list.
Proof. intros A B f l r. induction l as [|x l IH]; [reflexivity|]. cbn [app filter_map]. rewrite IH. destruct (f x); reflexivity. Qed.
Lemma other_list : forall n l r, Forall (other_than n) l ->
  find (fun a => match at_meta a with AList i _ => is_ident i n | _ => false end) (l ++ r) = find (fun a => match at_meta a with AList i _ => is_ident i n | _ => false end) r.
Proof.
  intros n l r F. induction F as [|a l O F IH]; [reflexivity|]. cbn [app find]. unfold other_than in O. destruct (at_meta a); try exact IH.
  match goal with |- context [is_ident ?i n] => rewrite (not_named i n O) end. exact IH.
Qed.
Lemma has_word_app : forall n l r, has_attr_word (l ++ r) n = has_attr_word l n || has_attr_word r n.
Proof. intros. apply existsb_app. Qed.

Lemma note_found : forall attrs note, deprecated attrs note -> find_deprecated_note attrs = Some note.
Proof.
  intros attrs note (before & [m o] & after & -> & D & B & A). unfold find_deprecated_note, attr_name_value_lookup.
  rewrite filter_map_app, (other_value _ before B). cbn [app filter_map at_meta]. cbn [at_meta] in D.
  destruct D as [|note|keys note I N].
  - rewrite (other_value _ after A). cbn [hd_error]. rewrite has_word_app. cbn. rewrite orb_true_r. reflexivity.
  - reflexivity.
  - rewrite (other_value _ after A). cbn [hd_error]. rewrite has_word_app, (other_word _ before B). cbn [orb has_attr_word existsb at_meta].
    change (existsb (fun a => match at_meta a with APath i => is_ident i "deprecated" | _ => false end) after) with (has_attr_word after "deprecated").
    rewrite (other_word _ after A). rewrite (other_list _ before _ B). cbn [find at_meta is_ident]. rewrite String.eqb_refl.
    replace (forallb is_name_value (map (fun kv : string * string => ANameValue (Some (fst kv)) (Some (snd kv))) keys)) with true.
    2: { symmetry. apply forallb_forall. intros x X. apply in_map_iff in X as (kv & <- & _). reflexivity. }
    induction keys as [|[k v] keys IH]; [destruct I|]. cbn [map find fst snd is_ident]. cbn [map fst] in N. inversion N as [|? ? Nk N']; subst.
    destruct (String.eqb_spec k "note") as [->|K].
    + destruct I as [E|I]; [injection E as ->; reflexivity|]. exfalso. apply Nk. apply (in_map fst) in I. exact I.
    + destruct I as [E|I]; [injection E as -> _; contradiction|]. apply IH; assumption.
Qed.
Lemma no_note : forall attrs, Forall (other_than "deprecated") attrs -> find_deprecated_note attrs = None.
Proof.
  intros attrs A. unfold find_deprecated_note, attr_name_value_lookup. rewrite (other_value _ attrs A), (other_word _ attrs A). cbn [hd_error].
  pose proof (other_list _ attrs [] A) as F. rewrite app_nil_r in F. cbn [find] in F. rewrite F. reflexivity.
Qed.
Lemma deprecated_loaded : forall attrs a, AnnotationSet_load attrs = Some a ->
  (forall note, deprecated attrs note -> an_deprecated a = Some note) /\ (Forall (other_than "deprecated") attrs -> an_deprecated a = None).
Proof. intros attrs a L. destruct (set_is _ _ L) as [-> _]. split; [apply note_found|apply no_note]. Qed.
Lemma must_use_loaded : forall attrs a, AnnotationSet_load attrs = Some a -> an_must_use a = true <-> must_be_used attrs.
Proof.
  intros attrs a L. destruct (set_is _ _ L) as [_ ->]. rewrite orb_true_iff. unfold has_attr_word, has_attr_namevalue, must_be_used. rewrite !existsb_exists. split.
  - intros [(x & I & M)|(x & I & M)]; exists x; (split; [exact I|]); destruct (at_meta x); try discriminate; apply P_Exports.is_ident_iff in M as ->; [left; reflexivity|right; eexists; reflexivity].
  - intros (x & I & [M|(v & M)]); [left|right]; exists x; rewrite M; auto.
Qed.

(** ** The words *)
Lemma fill_step : forall x a b r, fill_in x (String a (String b r)) = if Ascii.eqb a "{" && Ascii.eqb b "}" then x ++ fill_in x r else String a (fill_in x (String b r)).
Proof. reflexivity. Qed.
Lemma fill_part : forall x p r, no_hole p -> fill_in x (p ++ "{}" ++ r) = p ++ x ++ fill_in x r.
Proof.
  intros x. induction p as [|a p IH]; intros r N; [reflexivity|].
  assert (N' : no_hole p). { intros u v E. apply (N (String a u) v). rewrite E. reflexivity. }
  cbn [append]. rewrite <- (IH r N'). destruct p as [|b p].
  - cbn [append]. cbn [fill_in]. destruct (Ascii.eqb a "{"); reflexivity.
  - cbn [append]. rewrite fill_step.
    destruct (Ascii.eqb_spec a "{") as [->|]; [|reflexivity]. destruct (Ascii.eqb_spec b "}") as [->|]; [|reflexivity].
    exfalso. apply (N "" p). reflexivity.
Qed.
Lemma fill_last : forall x p, no_hole p -> fill_in x p = p.
Proof.
  intros x. induction p as [|a p IH]; intros N; [reflexivity|].
  assert (N' : no_hole p). { intros u v E. apply (N (String a u) v). rewrite E. reflexivity. }
  destruct p as [|b p]; [reflexivity|].
  rewrite fill_step.
  rewrite (IH N'). destruct (Ascii.eqb_spec a "{") as [->|]; [|reflexivity]. destruct (Ascii.eqb_spec b "}") as [->|]; [|reflexivity].
  exfalso. apply (N "" p). reflexivity.
Qed.
Lemma fill_parts : forall x parts, Forall no_hole parts -> fill_in x (String.concat "{}" parts) = String.concat x parts.
Proof.
  intros x parts F. induction F as [|p r N F IH]; [reflexivity|]. destruct r as [|q r]; [apply fill_last; exact N|].
  change (String.concat "{}" (p :: q :: r)) with (p ++ "{}" ++ String.concat "{}" (q :: r)). rewrite (fill_part x p _ N), IH. reflexivity.
Qed.
(** Every text has such parts. *)
Lemma has_parts : forall s, exists parts, parts <> [] /\ Forall no_hole parts /\ s = String.concat "{}" parts.
Proof.
  intro s. remember (String.length s) as n eqn:L. assert (LE : String.length s <= n) by lia. clear L. revert s LE.
  induction n as [|n IH]; intros s LE.
  - destruct s; [|cbn in LE; lia]. exists [""]. split; [discriminate|]. split; [|reflexivity]. apply Forall_cons; [|apply Forall_nil]. intros [|a u] v E; discriminate.
  - destruct s as [|a s].
    { exists [""]. split; [discriminate|]. split; [|reflexivity]. apply Forall_cons; [|apply Forall_nil]. intros [|b u] v E; discriminate. }
    cbn in LE. destruct (string_dec (substring 0 2 (String a s)) "{}") as [Y|Y].
    + destruct s as [|b s]; [cbn in Y; discriminate|]. cbn in Y. destruct s as [|c s]; cbn in Y; injection Y as -> ->; cbn in LE.
      * exists ["";""]. split; [discriminate|]. split; [|reflexivity]. repeat (apply Forall_cons; [intros [|x u] v E; discriminate|]). apply Forall_nil.
      * destruct (IH (String c s)) as (parts & P1 & P2 & E); [cbn; lia|]. exists ("" :: parts). split; [discriminate|].
        split; [apply Forall_cons; [intros [|x u] v Q; discriminate|exact P2]|]. destruct parts as [|p r]; [contradiction|]. cbn [String.concat append]. rewrite E. reflexivity.
    + destruct (IH s) as (parts & P1 & P2 & E); [lia|]. destruct parts as [|p r]; [contradiction|]. inversion P2 as [|? ? N F]; subst.
      exists (String a p :: r). split; [discriminate|]. split.
      * apply Forall_cons; [|exact F]. intros [|x u] v Q.
        -- cbn in Q. injection Q as -> ->. apply Y. destruct r as [|q r]; cbn; destruct v; reflexivity.
        -- cbn in Q. injection Q as -> Q. exact (N u v Q).
      * destruct r; reflexivity.
Qed.

(** ** The literal *)
Lemma ordinary_read : forall a t u, ordinary a = true -> literal_chars t = Some u -> literal_chars (debug_char a ++ t) = Some (String a u).
Proof.
  intros a t u O L. revert O. destruct a as [[|] [|] [|] [|] [|] [|] [|] [|]]; intro O; try discriminate O; cbn -[literal_chars]; cbn [literal_chars]; rewrite L; reflexivity.
Qed.
Lemma literal_reads : forall s, ordinary_text s = true -> c_string (debug_str s) = Some s.
Proof.
  intros s O. unfold debug_str, c_string. change (dquote ++ debug_chars s ++ dquote) with (String """" (debug_chars s ++ dquote)). cbn [Ascii.eqb].
  change (Ascii.eqb """" """") with true. cbn iota. induction s as [|a s IH]; [reflexivity|]. cbn [ordinary_text] in O. apply andb_true_iff in O as [A O].
  cbn [debug_chars]. rewrite sapp_assoc. apply ordinary_read; auto.
Qed.

Lemma said : forall c k a t, deprecated_note c k a = Some t -> exists note, an_deprecated a = Some note /\ deprecation_said c k note t.
Proof.
  intros c k a t E. unfold deprecated_note in E. destruct (an_deprecated a) as [note|]; [|discriminate]. exists note. split; [reflexivity|].
  destruct (Language_eqb (language c) Cython) eqn:L; [discriminate|]. unfold deprecation_said. split; [intro X; rewrite X in L; discriminate|].
  destruct (String.eqb note "").
  - destruct k; exact E.
  - assert (K : exists f, words_for_reason c k = Some f /\ t = fill_in (debug_str note) f).
    { change (match words_for_reason c k with Some f => Some (fill_in (debug_str note) f) | None => None end = Some t) in E.
      destruct (words_for_reason c k) as [f|]; [|discriminate]. injection E as <-. eauto. }
    destruct K as (f & W & ->). exists f, (debug_str note). split; [exact W|]. split; [|apply literal_reads].
    destruct (has_parts f) as (parts & P1 & P2 & P3). exists parts. split; [exact P1|]. split; [exact P2|]. split; [exact P3|]. rewrite P3. apply fill_parts. exact P2.
Qed.
(** Nothing is said only if there is nothing to say, or no words for it. *)
Lemma unsaid : forall c k a note, an_deprecated a = Some note -> language c <> Cython ->
  deprecated_note c k a = None <-> (if String.eqb note "" then plain_words c k else words_for_reason c k) = None.
Proof.
  intros c k a note E L. unfold deprecated_note. rewrite E. destruct (Language_eqb (language c) Cython) eqn:LC.
  { exfalso. apply L. destruct (language c); try discriminate LC. reflexivity. }
  destruct (String.eqb note ""); [destruct k; reflexivity|].
  change (match words_for_reason c k with Some f => Some (fill_in (debug_str note) f) | None => None end = None <-> words_for_reason c k = None).
  destruct (words_for_reason c k); split; intro; congruence.
Qed.
