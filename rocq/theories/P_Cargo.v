(** Packages and their dependencies. *)
Require Import Coq.Strings.String Coq.Strings.Ascii Coq.Lists.List Coq.Bool.Bool.
From Verif Require Import Base P_Base M_Ir M_Cfg S_Cfg P_Cfg M_Library M_Bindings M_Parser S_Cargo.
From Verif Require P_Library.
Import ListNotations.
Open Scope string_scope.

Notation dark w := (Forall (fun a => is_white a = false) (list_ascii_of_string w)).
Lemma srev_append_app : forall s acc, srev_append s acc = (srev s ++ acc)%string.
Proof.
  assert (K : forall s a b, srev_append s (a ++ b) = (srev_append s a ++ b)%string).
  { induction s as [|x s IH]; intros a b; [reflexivity|]. cbn [srev_append]. rewrite <- IH. reflexivity. }
  intros s acc. unfold srev. rewrite <- K. reflexivity.
Qed.
Lemma srev_cons : forall a w, srev (String a w) = (srev w ++ String a "")%string.
Proof. intros a w. unfold srev at 1. cbn [srev_append]. apply srev_append_app. Qed.
Lemma split_words : forall s,
  words_of s (split_white s "")
  /\ forall w, w <> "" -> exists u r ws, s = (u ++ r)%string /\ dark u /\ (r = "" \/ exists a r', r = String a r' /\ is_white a = true)
       /\ split_white s w = (srev w ++ u)%string :: ws /\ words_of r ws.
Proof.
  induction s as [|a s [IH1 IH2]].
  - split; [constructor; exact Logic.I|]. intros w N. exists "", "", []. repeat split; [constructor|left; reflexivity| |constructor; exact Logic.I].
    cbn [split_white]. rewrite sapp_nil_r. destruct w; [congruence|reflexivity].
  - destruct (is_white a) eqn:A.
    + split.
      * cbn [split_white]. rewrite A. cbn [String.eqb]. remember (split_white s "") as ws eqn:E. clear - IH1 A.
        inversion IH1 as [s' B|b w r ws' B NE D R IW]; subst; [constructor; split; assumption|].
        change (String a (b ++ w ++ r)) with (String a b ++ w ++ r)%string. constructor; try assumption. split; assumption.
      * intros w N. exists "", (String a s), (split_white s ""). repeat split; [constructor|right; eauto| |].
        -- cbn [split_white]. rewrite A, sapp_nil_r. destruct w; [congruence|reflexivity].
        -- remember (split_white s "") as ws eqn:E. clear - IH1 A. inversion IH1 as [s' B|b w r ws' B NE D R IW]; subst; [constructor; split; assumption|].
           change (String a (b ++ w ++ r)) with (String a b ++ w ++ r)%string. constructor; try assumption. split; assumption.
    + split.
      * cbn [split_white]. rewrite A. destruct (IH2 (String a "") ltac:(discriminate)) as (u & r & ws & -> & D & R & E & IW). rewrite E.
        change (String a (u ++ r)) with ("" ++ (String a "" ++ u) ++ r)%string. change (srev (String a "")) with (String a ""). constructor; [exact Logic.I|discriminate| |exact R|exact IW].
        cbn. constructor; assumption.
      * intros w N. cbn [split_white]. rewrite A. destruct (IH2 (String a w) ltac:(discriminate)) as (u & r & ws & -> & D & R & E & IW).
        exists (String a u), r, ws. repeat split; [cbn; constructor; assumption|exact R| |exact IW]. rewrite E, srev_cons, sapp_assoc. reflexivity.
Qed.
Lemma blank_words : forall s ws, words_of s ws -> blanks s -> ws = [].
Proof.
  intros s ws IW B. destruct IW as [|b w r ws B1 NE D R IW]; [reflexivity|]. exfalso. clear B1. induction b as [|a b IH].
  - destruct w as [|a w]; [congruence|]. cbn in B, D. inversion D; subst. destruct B. congruence.
  - apply IH. cbn in B. apply B.
Qed.

(** ** The entry *)
Lemma matches_spec : forall p l, lock_matches p l = true <-> lp_name l = pk_name p /\ (forall v, pk_version p = Some v -> lp_version l = v).
Proof.
  intros p l. unfold lock_matches. rewrite andb_true_iff, String.eqb_eq. destruct (pk_version p) as [v|].
  - rewrite String.eqb_eq. split; intros [A B]; (split; [exact A|]); [intros w E; congruence|symmetry; apply B; reflexivity].
  - split; intros [A B]; (split; [exact A|]); [discriminate|reflexivity].
Qed.
Lemma lines_listed : forall c p, clear_entry c p -> listed c p (lock_dependencies c p).
Proof.
  intros c p C. unfold lock_dependencies. destruct (cg_lock c) as [l|] eqn:L; [|right; split; [reflexivity|intros; congruence]].
  assert (ROOT : forall r, lk_root l = Some r -> lock_matches p r = true -> entry_of l p r).
  { intros r R M. split; [left; exact R|]. apply matches_spec, M. }
  assert (REST : forall ps x, lk_package l = Some ps -> find (lock_matches p) ps = Some x -> entry_of l p x).
  { intros ps x P F. apply find_some in F as [I M]. split; [right; eauto|]. apply matches_spec, M. }
  assert (NONE : forall x, entry_of l p x -> lp_dependencies x = None -> listed c p []).
  { intros x X D. right. split; [reflexivity|]. intros l' y L' Y. assert (l' = l) by congruence. subst l'. rewrite <- (C l x y L X Y). exact D. }
  assert (GO : (forall x, lk_root l = Some x -> entry_of l p x -> lp_dependencies x = None) ->
    listed c p match match lk_package l with Some ps => match find (lock_matches p) ps with Some x => lp_dependencies x | None => None end | None => None end with Some l => l | None => [] end).
  { intro R0. destruct (lk_package l) as [ps|] eqn:PS.
    - destruct (find (lock_matches p) ps) as [x|] eqn:F.
      + pose proof (REST ps x eq_refl F) as X. destruct (lp_dependencies x) as [ls|] eqn:D; [left; exists l, x; auto|exact (NONE x X D)].
      + right. split; [reflexivity|]. intros l' y L' Y. assert (l' = l) by congruence. subst l'. pose proof Y as Y0. destruct Y as [[Y|(ps' & P' & Y)] M]; [exact (R0 y Y Y0)|].
        assert (ps' = ps) by congruence. subst ps'. apply matches_spec in M. pose proof (find_none _ _ F y Y). congruence.
    - right. split; [reflexivity|]. intros l' y L' Y. assert (l' = l) by congruence. subst l'. pose proof Y as Y0. destruct Y as [[Y|(ps' & P' & Y)] M]; [exact (R0 y Y Y0)|congruence]. }
  destruct (lk_root l) as [r|] eqn:R.
  - destruct (lock_matches p r) eqn:M.
    + destruct (lp_dependencies r) as [ls|] eqn:D; [left; exists l, r; auto|]. apply GO. intros x E _. congruence.
    + apply GO. intros x E X. destruct X as [_ X]. apply matches_spec in X. congruence.
  - apply GO. discriminate.
Qed.

(** ** Versions *)
Lemma filter_map_one : forall A B (f : A -> option B) l v, filter_map f l = [v] <-> exists l1 x l2, l = (l1 ++ x :: l2)%list /\ f x = Some v /\ forall y, In y (l1 ++ l2) -> f y = None.
Proof.
  assert (Z : forall A B (f : A -> option B) l, filter_map f l = [] <-> forall y, In y l -> f y = None).
  { intros A B f. induction l as [|x l IH]; cbn [filter_map]; [split; [intros _ y []|reflexivity]|]. destruct (f x) as [b|] eqn:E.
    - split; [discriminate|]. intro N. rewrite (N x (or_introl eq_refl)) in E. discriminate.
    - rewrite IH. split; [intros N y [<-|I]; [exact E|apply N, I]|intros N y I; apply N; right; exact I]. }
  intros A B f. induction l as [|x l IH]; intro v; cbn [filter_map].
  - split; [discriminate|]. intros (l1 & x & l2 & E & _). destruct l1; discriminate.
  - destruct (f x) as [b|] eqn:E.
    + split.
      * intro Q. injection Q as <- Q. exists [], x, l. split; [reflexivity|]. split; [exact E|]. apply Z, Q.
      * intros (l1 & y & l2 & Q & F & N). destruct l1 as [|z l1]; cbn in Q; injection Q as <- ->; [rewrite E in F; injection F as <-; f_equal; apply Z, N|].
        rewrite (N x (or_introl eq_refl)) in E. discriminate.
    + rewrite IH. split.
      * intros (l1 & y & l2 & -> & F & N). exists (x :: l1), y, l2. split; [reflexivity|]. split; [exact F|]. intros z [<-|I]; [exact E|apply N, I].
      * intros (l1 & y & l2 & Q & F & N). destruct l1 as [|z l1]; cbn in Q; injection Q as <- ->; [congruence|]. exists l1, y, l2. split; [reflexivity|]. split; [exact F|]. intros w I. apply N. right. exact I.
Qed.
Lemma only_spec : forall c n v, only_version c n = Some v <-> only_one c n v.
Proof.
  intros c n v. unfold only_version. set (f := fun m => if String.eqb (pk_name (mp_ref m)) n then pk_version (mp_ref m) else None).
  assert (F : forall m w, f m = Some w <-> mp_ref m = {| pk_name := n; pk_version := Some w |}).
  { intros m w. unfold f. destruct (mp_ref m) as [n' v'] eqn:E. cbn. destruct (String.eqb_spec n' n) as [->|NE]; split; intro Q; congruence. }
  transitivity (filter_map f (cg_packages c) = [v]).
  - destruct (filter_map f (cg_packages c)) as [|a [|b r]]; split; intro Q; congruence.
  - rewrite filter_map_one. unfold only_one. split; intros (l1 & m & l2 & E & M & N); exists l1, m, l2; (split; [exact E|]); (split; [apply F; exact M|]).
    + intros m' v' I Q. apply F in Q. rewrite (N m' I) in Q. discriminate.
    + intros m' I. destruct (f m') as [w|] eqn:Q; [|reflexivity]. apply F in Q. destruct (N m' w I Q).
Qed.

(** ** Conditions *)
Lemma target_meaning : forall rho t x, target_holds rho t = Some x -> cfg_eval_opt rho (Cfg_load_metadata t) = x.
Proof.
  intros rho t x T. destruct t as [[s [m|]]|]; [|cbn in T |- *; congruence|cbn in T |- *; congruence].
  destruct m as [o|o v|[name|] [args|]]; try discriminate T.
  - cbn [Cfg_load_metadata]. unfold target_holds in T.
    destruct (String.eqb_spec name "cfg") as [->|NE].
    + destruct args as [|a [|b r]]; try discriminate T. rewrite (parse_meaning rho a) in T. destruct (Cfg_parse a) as [k|]; [|discriminate]. cbn in T |- *. congruence.
    + exfalso. revert T NE. clear. intros T NE.
      repeat (destruct name as [|[[|] [|] [|] [|] [|] [|] [|] [|]] name]; try discriminate T; try (apply NE; reflexivity)).
  - exfalso. revert T. clear. intro T. cbn in T. repeat (destruct name as [|[[|] [|] [|] [|] [|] [|] [|] [|]] name]; try discriminate T).
Qed.
Lemma option_string_eqb_eq : forall a b, option_string_eqb a b = true <-> a = b.
Proof. intros [a|] [b|]; cbn; rewrite ?String.eqb_eq; split; congruence. Qed.
Lemma ref_eqb : forall a b, PackageRef_eqb a b = true <-> a = b.
Proof.
  intros [n v] [n' v']. unfold PackageRef_eqb. cbn. rewrite andb_true_iff, String.eqb_eq, option_string_eqb_eq. split; [intros [-> ->]; reflexivity|intro E; injection E; auto].
Qed.
Lemma get_spec : forall c p m, NoDup (map mp_ref (cg_packages c)) -> (get_package c p = Some m <-> In m (cg_packages c) /\ mp_ref m = p).
Proof.
  intros c p m. unfold get_package. induction (cg_packages c) as [|x l IH]; intro ND; cbn; [split; [discriminate|intros [[] _]]|].
  cbn [map] in ND. inversion ND as [|? ? NI ND']; subst. destruct (PackageRef_eqb (mp_ref x) p) eqn:E.
  - apply ref_eqb in E. subst p. split; [intro Q; injection Q as <-; auto|]. intros [[->|I] Q]; [reflexivity|]. exfalso. apply NI. rewrite <- Q. apply in_map, I.
  - rewrite (IH ND'). split; [tauto|]. intros [[->|I] Q]; [|auto]. exfalso. rewrite Q in E. rewrite (proj2 (ref_eqb p p) eq_refl) in E. discriminate.
Qed.
Lemma get_none : forall c p, get_package c p = None <-> forall m, In m (cg_packages c) -> mp_ref m <> p.
Proof.
  intros c p. unfold get_package. induction (cg_packages c) as [|x l IH]; cbn; [split; [intros _ m []|reflexivity]|].
  destruct (PackageRef_eqb (mp_ref x) p) eqn:E.
  - apply ref_eqb in E. split; [discriminate|]. intro N. destruct (N x (or_introl eq_refl) E).
  - rewrite IH. split; [|intros N m I; apply N; auto]. intros N m [<-|I] Q; [|exact (N m I Q)]. apply ref_eqb in Q. congruence.
Qed.

Theorem dependencies_listed : forall c p ds, NoDup (map mp_ref (cg_packages c)) -> clear_entry c p -> dependencies c p = Some ds ->
  exists lines, listed c p lines /\ Forall2 (dependency_line c p) lines ds.
Proof.
  intros c p ds ND C D. exists (lock_dependencies c p). split; [apply lines_listed, C|]. unfold dependencies in D.
  revert ds D. generalize (lock_dependencies c p). induction l as [|x l IH]; intros ds D; cbn [map_opt] in D; [injection D as <-; constructor|].
  destruct (dependency c p x) as [d|] eqn:E; [|discriminate]. destruct (map_opt (dependency c p) l) as [ds'|]; [|discriminate]. injection D as <-.
  constructor; [|apply IH; reflexivity]. unfold dependency, parse_dep_string in E. pose proof (proj1 (split_words x)) as WS. destruct (split_white x "") as [|n rest]; [discriminate|].
  cbn [fst snd] in E. injection E as <-. exists n, rest. split; [exact WS|]. split; [reflexivity|]. split.
  - cbn [fst pk_version]. unfold version_of. destruct rest as [|w rest]; cbn [hd_error]; [|reflexivity]. destruct (only_version c n) as [v|] eqn:V; [apply only_spec, V|].
    intros w O. apply only_spec in O. congruence.
  - cbn [snd]. split.
    + intros m I Q. rewrite (proj2 (get_spec c p m ND) (conj I Q)). destruct (lookup n (mp_dependencies m)) as [t|]; [|reflexivity]. intros rho y T. apply target_meaning, T.
    + intro N. rewrite (proj2 (get_none c p) N). reflexivity.
Qed.
Theorem dependencies_fail : forall c p, dependencies c p = None <-> exists line, In line (lock_dependencies c p) /\ blanks line.
Proof.
  intros c p. unfold dependencies. induction (lock_dependencies c p) as [|x l IH]; cbn [map_opt].
  - split; [discriminate|intros (? & [] & _)].
  - assert (X : dependency c p x = None <-> blanks x).
    { unfold dependency, parse_dep_string. pose proof (proj1 (split_words x)) as WS. destruct (split_white x "") as [|n rest] eqn:S0.
      - split; [|reflexivity]. intros _. inversion WS; assumption.
      - split; [discriminate|]. intro B. pose proof (blank_words _ _ WS B). discriminate. }
    destruct (dependency c p x) as [d|] eqn:E.
    + destruct (map_opt (dependency c p) l) as [ds|].
      * split; [discriminate|]. intros (y & [<-|I] & B); [apply X in B; discriminate|]. assert (F : exists line, In line l /\ blanks line) by eauto. apply IH in F. discriminate.
      * split; [|reflexivity]. intros _. destruct (proj1 IH eq_refl) as (y & I & B). exists y. split; [right; exact I|exact B].
    + split; [|reflexivity]. intros _. exists x. split; [left; reflexivity|apply X; reflexivity].
Qed.

(** ** The crate bindings are made for, and its source *)
Theorem binding_crate_found : forall c p, binding_crate_ref c = Some p ->
  exists m, In m (cg_packages c) /\ mp_ref m = p /\ pk_name p = cg_binding_crate_name c
    /\ ((exists m', In m' (cg_packages c) /\ pk_name (mp_ref m') = cg_binding_crate_name c /\ mp_manifest_path m' = cg_manifest_path c) -> mp_manifest_path m = cg_manifest_path c).
Proof.
  intros c p. unfold binding_crate_ref. set (cs := filter _ (cg_packages c)).
  assert (CS : forall m, In m cs <-> In m (cg_packages c) /\ pk_name (mp_ref m) = cg_binding_crate_name c).
  { intro m. unfold cs. rewrite filter_In, String.eqb_eq. tauto. }
  destruct (find (fun m => String.eqb (mp_manifest_path m) (cg_manifest_path c)) cs) as [m|] eqn:F.
  - intro Q. injection Q as <-. apply find_some in F as [I E]. apply CS in I as [I N]. apply String.eqb_eq in E. exists m. auto.
  - intro Q. destruct cs as [|m r] eqn:EC; [discriminate|]. cbn in Q. injection Q as <-. destruct (proj1 (CS m) (or_introl eq_refl)) as [I N]. exists m. split; [exact I|]. split; [reflexivity|].
    split; [exact N|]. intros (m' & I' & N' & M'). exfalso. pose proof (find_none _ _ F m' (proj2 (CS m') (conj I' N'))) as X. cbn in X. rewrite M', String.eqb_refl in X. discriminate.
Qed.
Theorem binding_crate_none : forall c, binding_crate_ref c = None <-> forall m, In m (cg_packages c) -> pk_name (mp_ref m) <> cg_binding_crate_name c.
Proof.
  intro c. unfold binding_crate_ref. set (cs := filter _ (cg_packages c)).
  assert (CS : forall m, In m cs <-> In m (cg_packages c) /\ pk_name (mp_ref m) = cg_binding_crate_name c).
  { intro m. unfold cs. rewrite filter_In, String.eqb_eq. tauto. }
  split.
  - intros Q m I N. pose proof (proj2 (CS m) (conj I N)) as X. destruct (find _ cs); [discriminate|]. destruct cs; [destruct X|discriminate].
  - intro N. destruct cs as [|m r] eqn:EC; [reflexivity|]. destruct (proj1 (CS m) (or_introl eq_refl)) as [I E]. destruct (N m I E).
Qed.
Lemma library_spec : forall t : list string * cpath, existsb (fun k => mem_str k (fst t)) lib_kinds = true <-> is_library t.
Proof.
  intro t. rewrite existsb_exists. unfold is_library, lib_kinds. split; intros (k & I & M); exists k; (split; [exact I|]); apply P_Base.mem_str_In; exact M.
Qed.
Theorem source_found : forall c p path, NoDup (map mp_ref (cg_packages c)) ->
  find_crate_src c p = Some path <-> exists m before t after, In m (cg_packages c) /\ mp_ref m = p /\ mp_targets m = (before ++ t :: after)%list
    /\ is_library t /\ Forall (fun t => ~ is_library t) before /\ snd t = path.
Proof.
  intros c p path ND. unfold find_crate_src.
  assert (FI : forall l t, find (fun t : list string * cpath => existsb (fun k => mem_str k (fst t)) lib_kinds) l = Some t <->
    exists before after, l = (before ++ t :: after)%list /\ is_library t /\ Forall (fun t => ~ is_library t) before).
  { induction l as [|x l IH]; intro t; cbn [find].
    - split; [discriminate|]. intros (b & a & E & _). destruct b; discriminate.
    - destruct (existsb (fun k => mem_str k (fst x)) lib_kinds) eqn:E.
      + pose proof (proj1 (library_spec x) E) as L. split; [intro Q; injection Q as <-; exists [], l; auto|]. intros (b & a & Q & _ & N). destruct b as [|y b]; [cbn in Q; congruence|].
        cbn in Q. injection Q as <- _. inversion N; subst. contradiction.
      + assert (L : ~ is_library x) by (intro L; apply library_spec in L; congruence). rewrite IH. split.
        * intros (b & a & -> & LT & N). exists (x :: b), a. split; [reflexivity|]. split; [exact LT|]. apply Forall_cons; assumption.
        * intros (b & a & Q & LT & N). destruct b as [|y b]; cbn in Q; injection Q as <- ->; [contradiction|]. inversion N; subst. exists b, a. auto. }
  split.
  - destruct (get_package c p) as [m|] eqn:G; [|discriminate]. apply (get_spec c p m ND) in G as [I Q]. destruct (find _ (mp_targets m)) as [t|] eqn:F; [|discriminate].
    intro S0. cbn in S0. injection S0 as <-. apply FI in F as (b & a & E & L & N). exists m, b, t, a. auto 8.
  - intros (m & b & t & a & I & Q & E & L & N & S0). rewrite (proj2 (get_spec c p m ND) (conj I Q)). rewrite (proj2 (FI _ t)); [cbn; congruence|]. exists b, a. auto.
Qed.
Lemma listed_once : forall c p l1 l2, clear_entry c p -> listed c p l1 -> listed c p l2 -> l1 = l2.
Proof.
  intros c p l1 l2 C [(l & x & L & X & D)|[-> N]] [(l' & x' & L' & X' & D')|[-> N']].
  - assert (l' = l) by congruence. subst l'. pose proof (C l x x' L X X') as Q. congruence.
  - rewrite (N' l x L X) in D. discriminate.
  - rewrite (N l' x' L' X') in D'. discriminate.
  - reflexivity.
Qed.
Theorem dependencies_read : forall c p lines, NoDup (map mp_ref (cg_packages c)) -> clear_entry c p -> listed c p lines ->
  match dependencies c p with
  | Some ds => Forall2 (dependency_line c p) lines ds
  | None => exists line, In line lines /\ blanks line
  end.
Proof.
  intros c p lines ND C L. destruct (dependencies c p) as [ds|] eqn:D.
  - destruct (dependencies_listed c p ds ND C D) as (ls & L' & F). rewrite (listed_once c p lines ls C L L'). exact F.
  - apply dependencies_fail in D. rewrite (listed_once c p lines _ C L (lines_listed c p C)). exact D.
Qed.
