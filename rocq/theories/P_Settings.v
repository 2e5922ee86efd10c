(** A configuration file is read as S_Settings says. *)
Require Import Coq.Strings.String Coq.Lists.List Coq.Bool.Bool Coq.Arith.Arith Coq.ZArith.ZArith Coq.micromega.Lia.
From Verif Require Import Base P_Base M_Config M_Type M_Ir M_Item M_Library M_Settings S_Sort P_Sort S_Settings.
Import ListNotations.
Open Scope string_scope.

Definition exact_ {A} (d : toml -> option A) (R : toml -> A -> Prop) : Prop := forall v a, d v = Some a <-> R v a.

Lemma string_exact : exact_ as_string text.
Proof. intros [] a; unfold text; cbn; split; congruence. Qed.
Lemma bool_exact : exact_ as_bool flag.
Proof. intros [] a; unfold flag; cbn; split; congruence. Qed.
Lemma usize_exact : exact_ as_usize number.
Proof.
  intros [] a; unfold number; cbn; split; try congruence.
  - destruct (Z.ltb_spec z 0); [congruence|]. intros [= <-]. rewrite Z2Nat.id by assumption. reflexivity.
  - intros [= ->]. destruct (Z.ltb_spec (Z.of_nat a) 0); [lia|]. rewrite Nat2Z.id. reflexivity.
Qed.
Lemma map_opt_Forall2 : forall {A B} (f : A -> option B) (R : A -> B -> Prop), (forall x y, f x = Some y <-> R x y) ->
  forall l r, map_opt f l = Some r <-> Forall2 R l r.
Proof.
  intros A B f R E l. induction l as [|x l IH]; intros r; cbn; split.
  - intros [= <-]. constructor.
  - intros F. inversion F. reflexivity.
  - destruct (f x) as [y|] eqn:F; [|discriminate]. destruct (map_opt f l) as [ys|] eqn:M; [|discriminate].
    intros [= <-]. apply Forall2_cons; [apply E, F|apply IH; reflexivity].
  - intros F. inversion F as [|? y ? ys Rx Fs]; subst. apply E in Rx. apply IH in Fs. rewrite Rx, Fs. reflexivity.
Qed.
Lemma vec_exact : forall {A} d (R : toml -> A -> Prop), exact_ d R -> exact_ (as_vec d) (array R).
Proof.
  intros A d R E v a. unfold array. split.
  - destruct v; cbn; try discriminate. intros M. eexists. split; [reflexivity|].
    revert M. apply map_opt_Forall2. exact E.
  - intros (l & -> & F). cbn. revert F. apply map_opt_Forall2. exact E.
Qed.
Lemma some_exact : forall {A} d (R : toml -> A -> Prop), exact_ d R -> exact_ (as_some d) (given R).
Proof.
  intros A d R E v a. unfold given, as_some. split.
  - destruct (d v) as [b|] eqn:D; cbn; [|discriminate]. intros [= <-]. exists b. split; [reflexivity|]. apply E, D.
  - intros (b & -> & F). apply E in F. rewrite F. reflexivity.
Qed.
Lemma map_exact : forall {A} d (R : toml -> A -> Prop), exact_ d R -> exact_ (as_map d) (mapping R).
Proof.
  intros A d R E v a. unfold mapping.
  assert (K : forall (kv : string * toml) (ka : string * A),
    option_map (pair (fst kv)) (d (snd kv)) = Some ka <-> fst kv = fst ka /\ R (snd kv) (snd ka)).
  { intros [k x] [k' y]. cbn. split.
    - destruct (d x) as [z|] eqn:D; cbn; [|discriminate]. intros [= <- <-]. split; [reflexivity|apply E, D].
    - intros [-> F]. apply E in F. rewrite F. reflexivity. }
  split.
  - destruct v; cbn; try discriminate. intros M. eexists. split; [reflexivity|].
    revert M. apply map_opt_Forall2. exact K.
  - intros (l & -> & F). cbn. revert F. apply map_opt_Forall2. exact K.
Qed.
Lemma btree_exact : forall {A} d (R : toml -> A -> Prop), exact_ d R -> exact_ (as_btree d) (sorted_mapping R).
Proof.
  intros A d R E v a. pose proof (map_exact d R E v) as M. unfold sorted_mapping, as_btree. split.
  - destruct (as_map d v) as [b|] eqn:D; cbn; [|discriminate]. intros [= <-]. exists b. split; [apply M; reflexivity|].
    apply sort_stable. apply path_preorder.
  - intros (b & F & S). apply M in F. rewrite F. cbn. rewrite (stable_sort_unique _ (path_preorder _ fst) _ _ S). reflexivity.
Qed.
Lemma enum_exact : forall {A} f (words : list (string * A)), (forall s a, f s = Some a <-> In (s, a) words) ->
  exact_ (as_enum f) (word words).
Proof.
  intros A f words E v a. unfold word. split.
  - destruct v; cbn; try discriminate. intros F. eexists. split; [reflexivity|]. apply E, F.
  - intros (s & -> & I). cbn. apply E, I.
Qed.
Lemma cased_exact : forall {H : Heck} {A} f g (words : list (string * A)), (forall s, f s = g (to_lowercase s)) ->
  (forall s a, g s = Some a <-> In (s, a) words) -> exact_ (as_enum f) (any_case words).
Proof.
  intros H A f g words F E v a. unfold any_case. split.
  - destruct v; cbn; try discriminate. rewrite F. intros G. eexists. split; [reflexivity|]. apply E, G.
  - intros (s & -> & I). cbn. rewrite F. apply E, I.
Qed.

(** ** Words *)

Ltac here := repeat (first [left; reflexivity | right]).
Ltac one_of M := cbn [In] in M; repeat (destruct M as [M|M]; [subst; here|]); contradiction.
Ltac chain s :=
  repeat match goal with
  | |- (if mem_str s ?l then Some _ else _) = Some _ -> _ =>
      let M := fresh "M" in destruct (mem_str s l) eqn:M;
      [apply mem_str_In in M; let E := fresh "E" in intros E; injection E as <-; one_of M|clear M]
  | |- (if String.eqb s ?l then Some _ else _) = Some _ -> _ =>
      destruct (String.eqb_spec s l); [let E := fresh "E" in intros E; injection E as <-; subst; here|]
  end; try discriminate.
Ltac listed :=
  let I := fresh "I" in
  intros I; cbn [In] in I; repeat (destruct I as [I|I]; [injection I as <- <-; reflexivity|]); contradiction.
Ltac exact_words := let s := fresh "s" in intros s ?a; split; [chain s|listed].

Lemma languages_exact : forall s a, Language_from_str s = Some a <-> In (s, a) languages.
Proof. unfold Language_from_str. exact_words. Qed.
Lemma styles_exact : forall s a, Style_from_str s = Some a <-> In (s, a) styles.
Proof. unfold Style_from_str. exact_words. Qed.
Lemma profiles_exact : forall s a, Profile_from_str s = Some a <-> In (s, a) profiles.
Proof. unfold Profile_from_str. exact_words. Qed.
Lemma braces_exact : forall s a, Braces_from_str s = Some a <-> In (s, a) brace_styles.
Proof. unfold Braces_from_str. exact_words. Qed.
Lemma layouts_exact : forall s a, Layout_from_str s = Some a <-> In (s, a) layouts.
Proof. unfold Layout_from_str. exact_words. Qed.
Section Cased.
  Context {H : Heck}.
  Lemma line_ends_exact : exact_ (as_enum LineEndingStyle_from_str) (any_case line_ends).
  Proof.
    refine (cased_exact _ (fun l => if String.eqb l "native" then Some Native
      else if String.eqb l "lf" then Some LF else if String.eqb l "crlf" then Some CRLF
      else if String.eqb l "cr" then Some CR else None) _ (fun s => eq_refl) _). exact_words.
  Qed.
  Lemma doc_styles_exact : exact_ (as_enum DocumentationStyle_from_str) (any_case doc_styles).
  Proof.
    refine (cased_exact _ (fun l => if String.eqb l "c" then Some DocC
      else if String.eqb l "c99" then Some DocC99
      else if mem_str l ["cxx"; "c++"] then Some DocCxx
      else if String.eqb l "doxy" then Some DocDoxy
      else if String.eqb l "auto" then Some DocAuto
      else None) _ (fun s => eq_refl) _). exact_words.
  Qed.
  Lemma doc_lengths_exact : exact_ (as_enum DocumentationLength_from_str) (any_case doc_lengths).
  Proof.
    refine (cased_exact _ (fun l => if String.eqb l "short" then Some Short
      else if String.eqb l "full" then Some Full else None) _ (fun s => eq_refl) _). exact_words.
  Qed.
  Lemma orders_exact : exact_ (as_enum SortKey_from_str) (any_case orders).
  Proof.
    refine (cased_exact _ (fun l => if String.eqb l "name" then Some SortName
      else if String.eqb l "none" then Some SortNone else None) _ (fun s => eq_refl) _). exact_words.
  Qed.
  Lemma kinds_exact : exact_ (as_enum ItemType_from_str) (any_case item_kinds).
  Proof.
    refine (cased_exact _ (fun l => lookup l item_kinds) _ (fun s => eq_refl) _).
    intros s a. split; [|listed]. unfold item_kinds. cbn [lookup].
    repeat match goal with |- (if String.eqb ?x ?y then _ else _) = _ -> _ =>
      destruct (String.eqb_spec x y); [intros [= <-]; subst; here|] end. discriminate.
  Qed.
End Cased.
Lemma rules_exact : exact_ (as_enum RenameRule_from_str) rule.
Proof.
  intros v a. unfold rule, word. split.
  - destruct v; cbn [as_enum]; try discriminate. intros E.
    destruct (starts_with "prefix:" s) eqn:P.
    + right. apply starts_with_drop in P. revert E P. generalize (sdrop (String.length "prefix:") s). intros r E ->.
      exists r. split; [reflexivity|]. revert E. cbn. intros [= <-]. reflexivity.
    + left. exists s. split; [reflexivity|]. revert E. unfold RenameRule_from_str. rewrite P.
      chain s.
  - intros [(s & -> & I)|(p & -> & ->)]; [|reflexivity]. revert I. unfold rules. listed.
Qed.

(** ** Tables *)

Definition right_key {A} (l : list (string * toml)) k (R : toml -> A -> Prop) (O : A -> Prop) (x : A) : Prop :=
  match lookup k l with Some v => R v x | None => O x end.
Lemma field_value : forall {A} l k d (R : toml -> A -> Prop) dflt x, exact_ d R ->
  field l k d dflt = Some x <-> right_key l k R (fun a => a = dflt) x.
Proof.
  intros A l k d R dflt x E. unfold field, right_key. destruct (lookup k l) as [v|]; [apply E|].
  split; congruence.
Qed.
Lemma field_table : forall {A} l k d (R : toml -> A -> Prop) dflt x, exact_ d R -> d (TmTable []) = Some dflt ->
  field l k d dflt = Some x <-> right_key l k R (R (TmTable [])) x.
Proof.
  intros A l k d R dflt x E D. unfold field, right_key. destruct (lookup k l) as [v|]; [apply E|].
  rewrite <- (E (TmTable []) x), D. reflexivity.
Qed.
Lemma fields_known : forall known v l, fields known v = Some l <-> v = TmTable l /\ (forall k x, In (k, x) l -> In k known).
Proof.
  intros known v l. unfold fields. split.
  - destruct v as [| | | |l'|]; try discriminate.
    destruct (forallb (fun kv : string * toml => mem_str (fst kv) known) l') eqn:F; [|discriminate].
    intros [= ->]. split; [reflexivity|]. rewrite forallb_forall in F. intros k x I. apply F in I. cbn in I.
    apply mem_str_In in I. exact I.
  - intros [-> K]. replace (forallb (fun kv : string * toml => mem_str (fst kv) known) l) with true; [reflexivity|].
    symmetry. apply forallb_forall. intros [k x] I. cbn. apply mem_str_In. exact (K k x I).
Qed.
Lemma fields_table : forall {R} known (entries : list (entry R)) v l, (forall k, In k known <-> In k (map key entries)) ->
  fields known v = Some l <-> v = TmTable l /\ (forall k x, In (k, x) l -> In k (map key entries)).
Proof.
  intros R known entries v l K. rewrite fields_known. split; intros [-> F]; (split; [reflexivity|]); intros k x I;
    apply K; exact (F k x I).
Qed.

Create HintDb reading.
#[export] Hint Resolve string_exact bool_exact usize_exact line_ends_exact doc_styles_exact doc_lengths_exact orders_exact
  kinds_exact rules_exact : reading.
#[export] Hint Resolve vec_exact some_exact map_exact btree_exact : reading.
Definition language_value := enum_exact _ _ languages_exact.
Definition style_value := enum_exact _ _ styles_exact.
Definition profile_value := enum_exact _ _ profiles_exact.
Definition braces_value := enum_exact _ _ braces_exact.
Definition layout_value := enum_exact _ _ layouts_exact.
#[export] Hint Resolve language_value style_value profile_value braces_value layout_value : reading.

(** the same keys, listed in another order *)
Definition covers (a b : list string) : bool := forallb (fun k => mem_str k b) a.
Lemma covers_in : forall a b, covers a b = true -> forall k, In k a -> In k b.
Proof. intros a b C k I. apply mem_str_In. unfold covers in C. rewrite forallb_forall in C. apply C, I. Qed.
Lemma same_keys_ : forall a b, covers a b && covers b a = true -> forall k, In k a <-> In k b.
Proof. intros a b C. apply andb_true_iff in C. destruct C as [C D]. intros k. split; apply covers_in; assumption. Qed.
Ltac same_keys := apply same_keys_; vm_compute; reflexivity.
Ltac read_field :=
  match goal with
  | F : field ?l ?k ?d ?dflt = Some ?x |- settled ?l _ (Value ?k ?R _ _) =>
      apply (proj1 (field_value l k d R dflt x ltac:(auto 6 with reading)) F)
  | F : field ?l ?k ?d ?dflt = Some ?x |- settled ?l _ (Subtable ?k ?R _) =>
      apply (proj1 (field_table l k d R dflt x ltac:(auto 6 with reading) eq_refl) F)
  end.
Ltac take_field :=
  match goal with
  | S : settled ?l ?r (Value ?k ?R ?o ?get) |- context [field ?l ?k ?d ?dflt] =>
      rewrite (proj2 (field_value l k d R dflt (get r) ltac:(auto 6 with reading)) S); clear S
  | S : settled ?l ?r (Subtable ?k ?R ?get) |- context [field ?l ?k ?d ?dflt] =>
      rewrite (proj2 (field_table l k d R dflt (get r) ltac:(auto 6 with reading) eq_refl) S); clear S
  end.
Ltac open_fields :=
  repeat match goal with
  | |- match field ?l ?k ?d ?dflt with Some _ => _ | None => None end = Some _ -> _ =>
      let F := fresh "F" in destruct (field l k d dflt) eqn:F; [|discriminate]
  end.
Ltac open_pairs := repeat match goal with x : (_ * _)%type |- _ => destruct x end.
Ltac exact_table known entries :=
  let v := fresh "v" in let r := fresh "r" in
  intros v r; unfold table; split;
  [ let l := fresh "l" in let L := fresh "L" in
    destruct (fields known v) as [l|] eqn:L; [|discriminate];
    apply (proj1 (fields_table known entries v l ltac:(same_keys))) in L; destruct L as [-> L];
    open_fields; open_pairs; let E := fresh "E" in intros E; injection E; clear E; intros; subst;
    exists l; split; [reflexivity|]; split; [exact L|]; repeat (apply Forall_cons; [read_field|]); apply Forall_nil
  | let l := fresh "l" in let L := fresh "L" in let F := fresh "F" in
    intros (l & -> & L & F);
    rewrite (proj2 (fields_table known entries (TmTable l) l ltac:(same_keys)) (conj eq_refl L));
    repeat (let S := fresh "S" in apply Forall_cons_iff in F; destruct F as [S F]); clear F;
    repeat take_field ].

Lemma mangle_exact : exact_ as_mangle (table mangle_table).
Proof.
  unfold as_mangle. exact_table ["rename_types"; "remove_underscores"] mangle_table.
  destruct r. reflexivity.
Qed.
#[export] Hint Resolve mangle_exact : reading.
Lemma layout_exact : exact_ as_layout (table layout_table).
Proof. unfold as_layout. exact_table ["packed"; "aligned_n"] layout_table. destruct r. reflexivity. Qed.
Lemma structure_exact : exact_ as_structure (table struct_table).
Proof.
  unfold as_structure.
  exact_table ["rename_fields"; "derive_constructor"; "derive_eq"; "derive_neq"; "derive_lt"; "derive_lte"; "derive_gt";
               "derive_gte"; "derive_ostream"; "associated_constants_in_body"; "rename_associated_constant"; "must_use";
               "deprecated"; "deprecated_with_note"] struct_table.
  destruct r. reflexivity.
Qed.
Lemma enumeration_exact : exact_ as_enumeration (table enum_table).
Proof.
  unfold as_enumeration.
  exact_table ["rename_variants"; "rename_variant_name_fields"; "add_sentinel"; "prefix_with_name";
               "derive_helper_methods"; "derive_const_casts"; "derive_mut_casts"; "cast_assert_name"; "must_use";
               "deprecated"; "deprecated_with_note"; "deprecated_variant"; "deprecated_variant_with_note";
               "derive_tagged_enum_destructor"; "derive_tagged_enum_copy_constructor";
               "derive_tagged_enum_copy_assignment"; "derive_ostream"; "enum_class";
               "private_default_tagged_enum_constructor"] enum_table.
  destruct r. reflexivity.
Qed.
Lemma macro_exact : exact_ as_macro_expansion (table macro_table).
Proof.
  intros v r. replace (as_macro_expansion v) with
    (let? l := fields ["bitflags"] v in let? b := field l "bitflags" as_bool false in Some b).
  2:{ unfold as_macro_expansion. destruct (fields ["bitflags"] v) as [l|]; [|reflexivity].
      destruct (field l "bitflags" as_bool false); reflexivity. }
  revert v r. exact_table ["bitflags"] macro_table. reflexivity.
Qed.
Lemma pointer_exact : exact_ as_pointer (table ptr_table).
Proof. unfold as_pointer. exact_table ["non_null_attribute"; "nullable_attribute"] ptr_table. destruct r. reflexivity. Qed.
Lemma cython_exact : exact_ as_cython (table cython_table).
Proof. unfold as_cython. exact_table ["header"; "cimports"] cython_table. destruct r. reflexivity. Qed.
#[export] Hint Resolve layout_exact structure_exact enumeration_exact macro_exact pointer_exact cython_exact : reading.

Definition as_expand_table (t : toml) : option expanding :=
  let? l := fields ["crates"; "all_features"; "default_features"; "features"; "profile"] t in
  let? crates := field l "crates" (as_vec as_string) [] in
  let? all := field l "all_features" as_bool false in
  let? default := field l "default_features" as_bool true in
  let? features := field l "features" (as_some (as_vec as_string)) None in
  let? profile := field l "profile" (as_enum Profile_from_str) Debug in
  Some (crates, {| xp_all_features := all; xp_default_features := default; xp_features := features; xp_profile := profile |}).
Lemma expand_table_exact : exact_ as_expand_table (table expand_table).
Proof.
  unfold as_expand_table. exact_table ["crates"; "all_features"; "default_features"; "features"; "profile"] expand_table.
  destruct r as [? []]. reflexivity.
Qed.
Lemma expand_exact : exact_ as_expand expand_value.
Proof.
  intros v x. unfold expand_value. rewrite <- (expand_table_exact (shorthand v) x).
  destruct v; reflexivity.
Qed.
#[export] Hint Resolve expand_exact : reading.
Lemma parse_exact : exact_ as_parse (table parse_table).
Proof.
  unfold as_parse. exact_table ["parse_deps"; "include"; "exclude"; "expand"; "clean"; "extra_bindings"] parse_table.
  destruct r as [[[] ?] ?]. reflexivity.
Qed.
#[export] Hint Resolve parse_exact : reading.

Section Cased2.
  Context {H : Heck}.
  Lemma export_exact : exact_ as_export (table export_table).
  Proof.
    unfold as_export.
    exact_table ["include"; "exclude"; "rename"; "pre_body"; "body"; "prefix"; "item_types"; "renaming_overrides_prefixing";
                 "mangle"] export_table.
    destruct r. reflexivity.
  Qed.
  Lemma function_exact : exact_ as_function (table fn_table).
  Proof.
    unfold as_function.
    exact_table ["prefix"; "postfix"; "must_use"; "deprecated"; "deprecated_with_note"; "args"; "rename_args";
                 "swift_name_macro"; "sort_by"; "no_return"] fn_table.
    destruct r. reflexivity.
  Qed.
  Lemma constant_exact : exact_ as_constant (table const_table).
  Proof. unfold as_constant. exact_table ["allow_static_const"; "allow_constexpr"; "sort_by"] const_table. destruct r. reflexivity. Qed.
  Local Hint Resolve export_exact function_exact constant_exact : reading.
  Definition from_this_file (t : toml) (s : Settings) : Prop := table file_table t s /\ config_path (se_config s) = None.
  Lemma settings_exact : exact_ as_settings from_this_file.
  Proof.
    intros v r. unfold from_this_file.
    enough (K : forall v r, config_path (se_config r) = None -> as_settings v = Some r <-> table file_table v r).
    { split.
      - intros E. assert (P : config_path (se_config r) = None).
        { revert E. unfold as_settings. destruct (fields _ v) as [l|]; [|discriminate].
          open_fields. intros E. injection E as <-. reflexivity. }
        split; [|exact P]. apply K; assumption.
      - intros [T P]. apply K; assumption. }
    clear v r. intros v r P. revert P. unfold as_settings, table. split.
    - match goal with |- match fields ?known v with _ => _ end = _ -> _ =>
        destruct (fields known v) as [l|] eqn:L; [|discriminate];
        apply (proj1 (fields_table known file_table v l ltac:(same_keys))) in L end. destruct L as [-> L].
      open_fields. open_pairs. intros E. injection E as <-.
      exists l. split; [reflexivity|]. split; [exact L|]. repeat (apply Forall_cons; [read_field|]). apply Forall_nil.
    - intros (l & -> & L & F).
      match goal with |- match fields ?known _ with _ => _ end = _ =>
        rewrite (proj2 (fields_table known file_table (TmTable l) l ltac:(same_keys)) (conj eq_refl L)) end.
      repeat (let S := fresh "S" in apply Forall_cons_iff in F; destruct F as [S F]). clear F.
      repeat take_field. destruct r as [[] ? ? ? ?]. cbn in P |- *. subst. reflexivity.
  Qed.
End Cased2.

Lemma unknown_in_section : forall R (entries : list (entry R)) l k v r, In (k, v) l -> ~ In k (map key entries) ->
  ~ table entries (TmTable l) r.
Proof. intros R entries l k v r I N (l' & E & K & _). injection E as <-. exact (N (K k v I)). Qed.
Lemma unknown_key : forall {H : Heck} l k v, In (k, v) l -> ~ In k (map key file_table) -> as_settings (TmTable l) = None.
Proof.
  intros H l k v I N. destruct (as_settings (TmTable l)) as [s|] eqn:E; [|reflexivity]. exfalso.
  apply settings_exact in E. exact (unknown_in_section _ _ l k v s I N (proj1 E)).
Qed.
Lemma wrong_value : forall {H : Heck} l e v, In e file_table -> lookup (key e) l = Some v -> (forall a, ~ takes e v a) ->
  as_settings (TmTable l) = None.
Proof.
  intros H l e v I L N. destruct (as_settings (TmTable l)) as [s|] eqn:E; [|reflexivity]. exfalso.
  apply settings_exact in E. destruct E as [(l' & Q & _ & F) _]. injection Q as <-.
  rewrite Forall_forall in F. specialize (F e I). unfold settled in F. rewrite L in F. exact (N _ F).
Qed.
