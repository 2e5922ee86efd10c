(** Proofs about [S_Sources.v]. *)
Require Import Coq.Strings.String Coq.Strings.Ascii Coq.Lists.List Coq.Bool.Bool Coq.Arith.Arith.
From Verif Require Import Base P_Base M_Config M_Cfg S_Cfg M_Type M_Ir M_Item M_Attr M_Syn M_Library M_Bindings M_Loader M_Parser
  S_Parse P_Exports P_Modules P_Entries P_Crates S_Sources.
Import ListNotations.
Open Scope string_scope.
Open Scope list_scope.

(** ** Merging *)
Section Merge.
  Context {T : Type} {I : Item T}.
  Lemma extend_in : forall (a m : ItemMap T) x, In x (to_vec (extend_with a m)) -> In x (to_vec m) \/ In x (to_vec a).
  Proof.
    intros a m. unfold extend_with. revert m. induction (to_vec a) as [|y l IH]; intros m x Hx; [left; exact Hx|]. cbn [fold_left] in Hx.
    destruct (IH _ _ Hx) as [K|K]; [|right; right; exact K]. destruct (insert_in _ _ _ K) as [K2|K2]; [left; exact K2|right; left; congruence].
  Qed.
  Lemma extend_keeps : forall (a m : ItemMap T) x, In x (to_vec m) -> In x (to_vec (extend_with a m)).
  Proof.
    intros a m. unfold extend_with. revert m. induction (to_vec a) as [|y l IH]; intros m x Hx; [exact Hx|]. cbn [fold_left].
    apply IH. apply insert_keeps. exact Hx.
  Qed.
  Lemma extend_keyed : forall (a m : ItemMap T), keyed m -> keyed (extend_with a m).
  Proof.
    intros a m. unfold extend_with. revert m. induction (to_vec a) as [|y l IH]; intros m Hm; [exact Hm|]. cbn [fold_left].
    apply IH. apply keyed_insert. exact Hm.
  Qed.
  Lemma extend_present : forall (a m : ItemMap T) y, keyed m -> In y (to_vec a) -> exists x, In x (to_vec (extend_with a m)) /\ i_path x = i_path y.
  Proof.
    intros a m y. unfold extend_with. revert m. induction (to_vec a) as [|z l IH]; intros m Hm Hy; [destruct Hy|]. cbn [fold_left].
    destruct Hy as [->|Hy]; [|apply IH; [apply keyed_insert; exact Hm|exact Hy]].
    destruct (insert_present y m Hm) as (x & Hx & E). exists x. split; [|exact E].
    clear - Hx. revert Hx. generalize (fst (try_insert y m)). induction l as [|z l IH]; intros k Hx; [exact Hx|]. cbn [fold_left].
    apply IH. apply insert_keeps. exact Hx.
  Qed.
  Lemma extend_entry : forall k (a m : ItemMap T) e, In e (map (entry_of k) (to_vec (extend_with a m))) ->
    In e (map (entry_of k) (to_vec m)) \/ In e (map (entry_of k) (to_vec a)).
  Proof.
    intros k a m e He. apply in_map_iff in He as (x & E & Hx). destruct (extend_in _ _ _ Hx) as [J|J]; [left|right];
      apply in_map_iff; exists x; auto.
  Qed.
  Lemma extend_entry_keeps : forall k (a m : ItemMap T) e, In e (map (entry_of k) (to_vec m)) -> In e (map (entry_of k) (to_vec (extend_with a m))).
  Proof. intros k a m e He. apply in_map_iff in He as (x & E & Hx). apply in_map_iff. exists x. split; [exact E|apply extend_keeps; exact Hx]. Qed.
End Merge.
Lemma extend_constants : forall (a m : ItemMap Struct) e,
  In e (map (entry_of KConstant) (concat (map s_associated_constants (to_vec (extend_with a m))))) ->
  In e (map (entry_of KConstant) (concat (map s_associated_constants (to_vec m))))
  \/ In e (map (entry_of KConstant) (concat (map s_associated_constants (to_vec a)))).
Proof.
  intros a m e He. apply in_map_iff in He as (x & E & Hx). apply in_concat in Hx as (l & Hl & Hx). apply in_map_iff in Hl as (s & <- & Hs).
  destruct (extend_in _ _ _ Hs) as [J|J]; [left|right]; apply in_map_iff; exists x; (split; [exact E|]); apply in_concat;
    exists (s_associated_constants s); (split; [apply in_map; exact J|exact Hx]).
Qed.
Lemma extend_constants_keeps : forall (a m : ItemMap Struct) e,
  In e (map (entry_of KConstant) (concat (map s_associated_constants (to_vec m)))) ->
  In e (map (entry_of KConstant) (concat (map s_associated_constants (to_vec (extend_with a m))))).
Proof.
  intros a m e He. apply in_map_iff in He as (x & E & Hx). apply in_concat in Hx as (l & Hl & Hx). apply in_map_iff in Hl as (s & <- & Hs).
  apply in_map_iff; exists x; (split; [exact E|]); apply in_concat;
    exists (s_associated_constants s); (split; [apply in_map; apply extend_keeps; exact Hs|exact Hx]).
Qed.

Lemma in_entries : forall e p, In e (entries p) <->
  In e (map (entry_of KConstant) (to_vec (pr_constants p)))
  \/ In e (map (entry_of KConstant) (concat (map s_associated_constants (to_vec (pr_structs p)))))
  \/ In e (map (entry_of KStatic) (to_vec (pr_globals p))) \/ In e (map (entry_of KEnum) (to_vec (pr_enums p)))
  \/ In e (map (entry_of KStruct) (to_vec (pr_structs p))) \/ In e (map (entry_of KUnion) (to_vec (pr_unions p)))
  \/ In e (map (entry_of KOpaque) (to_vec (pr_opaque_items p))) \/ In e (map (entry_of KTypedef) (to_vec (pr_typedefs p)))
  \/ In e (map (fun f => {| en_kind := KFunction; en_name := f_path f; en_cfg := f_cfg f |}) (pr_functions p)).
Proof. intros e p. unfold entries. rewrite !in_app_iff. reflexivity. Qed.

Lemma merge_entries : forall a p e, In e (entries (Parse_extend_with a p)) -> In e (entries p) \/ In e (entries a).
Proof.
  intros a p e He. rewrite !in_entries in *. cbn [Parse_extend_with pr_constants pr_globals pr_enums pr_structs pr_unions pr_opaque_items pr_typedefs pr_functions] in He.
  destruct He as [J|[J|[J|[J|[J|[J|[J|[J|J]]]]]]]]; try (apply extend_entry in J; tauto); [apply extend_constants in J; tauto|].
  rewrite map_app, in_app_iff in J. tauto.
Qed.
Lemma merge_keeps : forall a p e, In e (entries p) -> In e (entries (Parse_extend_with a p)).
Proof.
  intros a p e He. rewrite !in_entries in *. cbn [Parse_extend_with pr_constants pr_globals pr_enums pr_structs pr_unions pr_opaque_items pr_typedefs pr_functions].
  destruct He as [J|[J|[J|[J|[J|[J|[J|[J|J]]]]]]]].
  - left. apply extend_entry_keeps; exact J.
  - right. left. apply extend_constants_keeps; exact J.
  - do 2 right. left. apply extend_entry_keeps; exact J.
  - do 3 right. left. apply extend_entry_keeps; exact J.
  - do 4 right. left. apply extend_entry_keeps; exact J.
  - do 5 right. left. apply extend_entry_keeps; exact J.
  - do 6 right. left. apply extend_entry_keeps; exact J.
  - do 7 right. left. apply extend_entry_keeps; exact J.
  - do 8 right. rewrite map_app. apply in_or_app. left. exact J.
Qed.
Lemma merge_kept : forall a p k n, has_type k n p -> has_type k n (Parse_extend_with a p).
Proof. intros a p k n [(e & He & R)|(e & He & R)]; [left|right]; exists e; (split; [apply merge_keeps; exact He|exact R]). Qed.
Lemma merge_keyed : forall a p, all_keyed p -> all_keyed (Parse_extend_with a p).
Proof. intros a p (K1 & K2 & K3 & K4 & K5). repeat (split; [apply extend_keyed; assumption|]). apply extend_keyed; assumption. Qed.
Lemma merge_found : forall a p k n, all_keyed p -> match k with KStruct | KUnion | KEnum | KTypedef | KOpaque => True | _ => False end ->
  has k n a -> has k n (Parse_extend_with a p).
Proof.
  intros a p k n (K1 & K2 & K3 & K4 & K5) Hk (e & He & Ek & En). rewrite in_entries in He.
  assert (W : forall (T : Type) (It : Item T) (x y : ItemMap T) kk, keyed y -> In e (map (entry_of kk) (to_vec x)) ->
      (forall u, In u (map (entry_of kk) (to_vec (extend_with x y))) -> In u (entries (Parse_extend_with a p))) -> kk = k -> has k n (Parse_extend_with a p)).
  { intros T It x y kk Ky J In_ Ekk. apply in_map_iff in J as (z & Ez & Jz). destruct (extend_present x y z Ky Jz) as (u & Ju & Eu).
    exists (entry_of kk u). split; [apply In_; apply in_map; exact Ju|]. split; [exact Ekk|]. cbn. rewrite Eu, <- En, <- Ez. reflexivity. }
  assert (NF : forall f, In f (map (fun f => {| en_kind := KFunction; en_name := f_path f; en_cfg := f_cfg f |}) (pr_functions a)) -> en_kind f = KFunction)
    by (intros f Hf; apply in_map_iff in Hf as (x & <- & _); reflexivity).
  assert (NK : forall (T : Type) (It : Item T) kk (l : list T), In e (map (entry_of kk) l) -> kk = k)
    by (intros T It kk l Hl; apply in_map_iff in Hl as (x & E & _); rewrite <- Ek, <- E; reflexivity).
  destruct He as [J|[J|[J|[J|[J|[J|[J|[J|J]]]]]]]].
  - apply NK in J. subst k. destruct Hk.
  - apply NK in J. subst k. destruct Hk.
  - apply NK in J. subst k. destruct Hk.
  - refine (W _ _ _ _ _ K3 J _ (NK _ _ _ _ J)). intros u Hu. apply in_entries. do 3 right. left. exact Hu.
  - refine (W _ _ _ _ _ K1 J _ (NK _ _ _ _ J)). intros u Hu. apply in_entries. do 4 right. left. exact Hu.
  - refine (W _ _ _ _ _ K2 J _ (NK _ _ _ _ J)). intros u Hu. apply in_entries. do 5 right. left. exact Hu.
  - refine (W _ _ _ _ _ K4 J _ (NK _ _ _ _ J)). intros u Hu. apply in_entries. do 6 right. left. exact Hu.
  - refine (W _ _ _ _ _ K5 J _ (NK _ _ _ _ J)). intros u Hu. apply in_entries. do 7 right. left. exact Hu.
  - apply NF in J. rewrite Ek in J. subst k. destruct Hk.
Qed.
Lemma defines_kind : forall i k n, defines_type i k n -> match k with KStruct | KUnion | KEnum | KTypedef | KOpaque => True | _ => False end.
Proof. intros [] k n D; try destruct D; subst; exact Logic.I. Qed.

(** ** The given files *)
Section Sources.
  Context {H : Heck}.
  Variables (d : disk) (c : Config) (bitflags : bool) (mfuel fuel : nat).

  Definition src_loading (file : cpath) : loading :=
    {| ld_config := with_parse_config src_parse_config c; ld_bitflags := bitflags; ld_binding := file_stem file; ld_crate := file_stem file |}.
  Lemma src_top : forall file, top_level (src_loading file) = true.
  Proof. intro file. unfold top_level, should_generate_top_level_item, src_loading. cbn. rewrite String.eqb_refl. reflexivity. Qed.
  Lemma src_sound : forall file o, parse_src d bitflags mfuel file c = Parsed o ->
    exists vs, crate_visits d file [] vs /\ load_visits (src_loading file) vs Parse_new = Some (fst o) /\ snd o = firsts [] (files_of vs).
  Proof.
    intros file o Q. unfold parse_src in Q. fold (src_loading file) in Q.
    destruct (parse_mod d (src_loading file) mfuel file 0 state_new) as [s| | |] eqn:E; try discriminate. injection Q as <-.
    apply parse_mod_sound in E as (vs & out & V & L & ->). exists vs. split; [exact V|]. split; [exact L|]. reflexivity.
  Qed.

  (** The parts that are merged *)
  Definition part (file : cpath) (vs : list visit) (p : Parse) : Prop :=
    crate_visits d file [] vs /\ load_visits (src_loading file) vs Parse_new = Some p.
  Definition merged (ps : list Parse) (p : Parse) : Parse := fold_left (fun p q => Parse_extend_with q p) ps p.
  Lemma srcs_sound : forall files r s, parse_srcs d c bitflags mfuel files r = Parsed s ->
    exists vss ps, Forall2 (fun f vs => crate_visits d f [] vs) files vss
      /\ Forall2 (fun fv p => load_visits (src_loading (fst fv)) (snd fv) Parse_new = Some p) (combine files vss) ps
      /\ fst s = merged ps (fst r) /\ snd s = (snd r ++ concat (map (fun vs => firsts [] (files_of vs)) vss))%list.
  Proof.
    induction files as [|f rest IH]; intros r s Q; cbn [parse_srcs] in Q.
    - injection Q as <-. exists [], []. split; [constructor|]. split; [constructor|]. split; [reflexivity|symmetry; apply app_nil_r].
    - destruct (parse_src d bitflags mfuel f c) as [o| | |] eqn:E; try discriminate.
      apply src_sound in E as (vs & V & L & F). apply IH in Q as (vss & ps & A & B & M & S). exists (vs :: vss), (fst o :: ps).
      split; [constructor; assumption|]. split; [cbn; constructor; assumption|]. split; [exact M|]. rewrite S. cbn [snd map concat]. rewrite F, app_assoc. reflexivity.
  Qed.

  Lemma merged_functions : forall ps p, pr_functions (merged ps p) = (pr_functions p ++ concat (map pr_functions ps))%list.
  Proof.
    induction ps as [|q ps IH]; intro p; [symmetry; apply app_nil_r|]. cbn [merged fold_left map concat]. unfold merged in IH. rewrite IH.
    cbn [Parse_extend_with pr_functions]. rewrite app_assoc. reflexivity.
  Qed.
  Lemma merged_entries : forall ps p e, In e (entries (merged ps p)) -> In e (entries p) \/ exists q, In q ps /\ In e (entries q).
  Proof.
    induction ps as [|q ps IH]; intros p e He; [left; exact He|]. destruct (IH _ _ He) as [J|(q' & Hq & J)]; [|right; exists q'; split; [right|]; assumption].
    apply merge_entries in J as [J|J]; [left; exact J|right; exists q; split; [left; reflexivity|exact J]].
  Qed.
  Lemma merged_keyed : forall ps p, all_keyed p -> all_keyed (merged ps p).
  Proof. induction ps as [|q ps IH]; intros p K; [exact K|]. apply IH. apply merge_keyed. exact K. Qed.
  Lemma merged_kept : forall ps p k n, has_type k n p -> has_type k n (merged ps p).
  Proof. induction ps as [|q ps IH]; intros p k n K; [exact K|]. apply IH. apply merge_kept. exact K. Qed.
  Lemma merged_found : forall ps p k n q, all_keyed p -> match k with KStruct | KUnion | KEnum | KTypedef | KOpaque => True | _ => False end ->
    In q ps -> has_type k n q -> has_type k n (merged ps p).
  Proof.
    induction ps as [|q ps IH]; intros p k n q' K Hk Hq Ht; [destruct Hq|]. destruct Hq as [->|Hq].
    - apply (merged_kept ps (Parse_extend_with q' p)). destruct Ht as [Ht|Ht]; [left|right]; apply merge_found; try assumption. exact Logic.I.
    - eapply (IH _ k n q'); try assumption. apply merge_keyed. exact K.
  Qed.
End Sources.

Lemma std_entries : forall e, In e (entries (add_std_types Parse_new)) -> from_std e.
Proof.
  intros e He. vm_compute in He. repeat (destruct He as [<-|He]; [repeat split; vm_compute; tauto|]). destruct He.
Qed.
Lemma std_keyed : all_keyed (add_std_types Parse_new).
Proof.
  assert (K : forall l (m : ItemMap OpaqueItem), keyed m -> keyed (fold_left (fun m t => fst (try_insert (OpaqueItem_new (fst t) (map type_param (snd t)) None AnnotationSet_new []) m)) l m)).
  { induction l as [|x l IH]; intros m Km; [exact Km|]. cbn [fold_left]. apply IH. apply keyed_insert. exact Km. }
  unfold add_std_types. destruct keyed_new as (K1 & K2 & K3 & K4 & K5). split; [exact K1|]. split; [exact K2|]. split; [exact K3|]. split; [|exact K5].
  cbn [pr_opaque_items with_opaque_items]. apply K. exact K4.
Qed.

(** ** All that is read *)
Section All.
  Context {H : Heck}.
  Variables (d : disk) (c : Config) (bitflags : bool) (mfuel fuel : nat).

  Lemma lib_sound : forall cargo o, parse_lib d cargo c bitflags mfuel fuel = Parsed o ->
    exists p rs, binding_crate_ref cargo = Some p /\ crates_read d cargo (parse c) [] [] p rs
      /\ load_crates cargo c bitflags rs Parse_new = Some (fst (fst o)) /\ snd (fst o) = firsts [] (concat (map (fun r => files_of (rd_visits r)) rs))
      /\ pk_version p = Some (snd o).
  Proof.
    intros cargo o Q. unfold parse_lib in Q. destruct (binding_crate_ref cargo) as [p|]; [|discriminate].
    destruct (parse_crate d cargo c bitflags mfuel fuel p state_new) as [s| | |] eqn:E; try discriminate.
    destruct (pk_version p) as [v|] eqn:V; [|discriminate]. injection Q as <-.
    destruct (crate_sound d cargo c bitflags mfuel fuel p state_new s E ltac:(intros [])) as (rs & o & R & L & ->).
    exists p, rs. repeat (split; [first [reflexivity | exact R | exact L]|]). exact V.
  Qed.

  (** What a run leaves *)
  Definition lib_parts (lib : option Cargo) (rs : list reading) (ps : list Parse) : Prop :=
    match lib with None => ps = [] | Some cargo => exists q, ps = [q] /\ load_crates cargo c bitflags rs Parse_new = Some q end.
  Lemma all_sound : forall std srcs lib l, parse_all d c bitflags mfuel fuel std srcs lib = Parsed l ->
    exists vss rs ps qs, sources_read d (parse c) srcs lib vss rs
      /\ Forall2 (fun fv p => load_visits (src_loading c bitflags (fst fv)) (snd fv) Parse_new = Some p) (combine srcs vss) ps
      /\ lib_parts lib rs qs
      /\ items_of l = merged (ps ++ qs) (if std then add_std_types Parse_new else Parse_new)
      /\ l_config l = c
      /\ l_source_files l = map cpath_text (concat (map (fun vs => firsts [] (files_of vs)) vss)
           ++ firsts [] (concat (map (fun r => files_of (rd_visits r)) rs)) ++ srcs)%list
      /\ match lib with
         | None => l_package_version l = ""%string
         | Some cargo => exists p, binding_crate_ref cargo = Some p /\ pk_version p = Some (l_package_version l)
         end.
  Proof.
    intros std srcs lib l Q. unfold parse_all in Q.
    destruct (parse_srcs d c bitflags mfuel srcs (if std then add_std_types Parse_new else Parse_new, [])) as [r| | |] eqn:E; try discriminate.
    apply srcs_sound in E as (vss & ps & A & B & M & S). cbn [fst snd] in M, S. destruct lib as [cargo|].
    - destruct (parse_lib d cargo c bitflags mfuel fuel) as [[[p sources] v]| | |] eqn:E; try discriminate. injection Q as <-.
      apply lib_sound in E as (pk & rs & Bp & R & L & F & V). cbn [fst snd] in *. exists vss, rs, ps, [p].
      split; [constructor; [exact A|exists pk; auto]|]. split; [exact B|]. split; [exists p; auto|].
      split. { unfold merged in *. rewrite fold_left_app. cbn [fold_left]. rewrite <- M. reflexivity. }
      split; [reflexivity|]. split; [|exists pk; auto]. cbn [l_source_files]. rewrite S, F. cbn [app]. rewrite <- app_assoc. reflexivity.
    - destruct r as [p sources]. injection Q as <-. cbn [fst snd] in *. exists vss, [], ps, [].
      split; [constructor; [exact A|reflexivity]|]. split; [exact B|]. split; [reflexivity|].
      split. { rewrite app_nil_r, <- M. destruct p. reflexivity. }
      split; [reflexivity|]. split; [|reflexivity]. cbn [l_source_files]. rewrite S. reflexivity.
  Qed.

  Lemma start_functions : forall std : bool, pr_functions (if std then add_std_types Parse_new else Parse_new) = [].
  Proof. intros []; reflexivity. Qed.
  Lemma parts_functions : forall srcs vss ps, Forall2 (fun file vs => crate_visits d file [] vs) srcs vss ->
    Forall2 (fun fv p => load_visits (src_loading c bitflags (fst fv)) (snd fv) Parse_new = Some p) (combine srcs vss) ps ->
    (forall v, In v (concat vss) -> Forall item_ok (vi_items v)) ->
    exists fss, Forall2 functions_of (concat vss) fss /\ concat (map pr_functions ps) = concat fss.
  Proof.
    intros srcs vss ps A. revert ps. induction A as [|f vs srcs vss V A IH]; intros ps B X.
    - inversion B; subst. exists []. split; [constructor|reflexivity].
    - cbn [combine] in B. inversion B as [|fv p ? ps' L B']; subst. cbn [fst snd] in L. cbn [concat] in X.
      destruct (visits_functions _ _ _ _ (src_top c bitflags f) (fun v Hv => X v (in_or_app _ _ _ (or_introl Hv))) L) as (fs & G1 & F1).
      destruct (IH _ B' (fun v Hv => X v (in_or_app _ _ _ (or_intror Hv)))) as (fss & G2 & F2).
      exists (fs ++ fss)%list. split; [cbn [concat]; apply Forall2_app; assumption|]. cbn [map concat]. rewrite F1, F2, concat_app. reflexivity.
  Qed.
  Theorem all_functions : forall std srcs lib l, parse_all d c bitflags mfuel fuel std srcs lib = Parsed l ->
    exists vss rs, sources_read d (parse c) srcs lib vss rs
      /\ ((forall v, In v (modules_read vss rs) -> Forall item_ok (vi_items v)) ->
          exists fss gs, Forall2 functions_of (concat vss) fss /\ library_functions (parse c) lib rs gs
            /\ l_functions l = (concat fss ++ gs)%list).
  Proof.
    intros std srcs lib l Q. destruct (all_sound _ _ _ _ Q) as (vss & rs & ps & qs & R & B & L & M & _). exists vss, rs. split; [exact R|]. intro X.
    destruct (parts_functions srcs vss ps (sr_files _ _ _ _ _ _ R) B (fun v Hv => X v (in_or_app _ _ _ (or_introl Hv)))) as (fss & F1 & F2).
    assert (E : l_functions l = pr_functions (items_of l)) by reflexivity. rewrite M, merged_functions, start_functions, map_app, concat_app, F2 in E. cbn [app] in E.
    exists fss, (concat (map pr_functions qs)). split; [exact F1|]. split; [|exact E].
    unfold lib_parts in L. destruct lib as [cargo|]; [|subst qs; reflexivity]. destruct L as (q & -> & L).
    destruct (crates_functions cargo c bitflags rs _ _ ltac:(intros r v I J; apply X; apply in_or_app; right; apply in_concat; exists (rd_visits r); split; [apply in_map; exact I|exact J]) L) as (fsss & G & F).
    exists fsss. split; [exact G|]. cbn [map concat]. rewrite F, app_nil_r. reflexivity.
  Qed.
  Theorem all_entries : forall std srcs lib l, parse_all d c bitflags mfuel fuel std srcs lib = Parsed l ->
    exists vss rs, sources_read d (parse c) srcs lib vss rs
      /\ ((forall v, In v (modules_read vss rs) -> plain_blocks v /\ exports_ok v) ->
          forall e, In e (entries (items_of l)) -> std = true /\ from_std e \/ exists v, In v (modules_read vss rs) /\ from_module v e)
      /\ forall v i k n, In v (modules_read vss rs) -> In i (vi_items v) -> should_skip_parsing (item_attrs i) = false -> defines_type i k n ->
           has_type k n (items_of l).
  Proof.
    intros std srcs lib l Q. destruct (all_sound _ _ _ _ Q) as (vss & rs & ps & qs & R & B & L & M & _). exists vss, rs. split; [exact R|].
    assert (PA : forall vs, In vs vss -> exists ld p, In p ps /\ load_visits ld vs Parse_new = Some p).
    { intros vs Hv. destruct R as [A _]. revert ps B M Hv. induction A as [|f ws srcs vss V A IH]; intros ps B M Hv; [destruct Hv|].
      cbn [combine] in B. inversion B as [|fv p ? ps' L' B']; subst. destruct Hv as [->|Hv]; [eexists _, p; split; [left; reflexivity|exact L']|].
      clear - Hv A B'. revert ps' B' Hv. induction A as [|f' ws' srcs' vss' V' A' IH']; intros ps' B' Hv; [destruct Hv|].
      cbn [combine] in B'. inversion B' as [|fv p' ? ps'' L'' B'']; subst. destruct Hv as [->|Hv]; [eexists _, p'; split; [right; left; reflexivity|exact L'']|].
      destruct (IH' _ B'' Hv) as (ld & q & Hq & Lq). exists ld, q. split; [|exact Lq]. destruct Hq as [Hq|Hq]; [left; exact Hq|right; right; exact Hq]. }
    assert (PB : forall p, In p ps -> exists ld vs, In vs vss /\ load_visits ld vs Parse_new = Some p).
    { clear - B R. destruct R as [A _]. revert ps B. induction A as [|f ws srcs vss V A IH]; intros ps B p Hp; [inversion B; subst; destruct Hp|].
      cbn [combine] in B. inversion B as [|fv p0 ? ps' L' B']; subst. destruct Hp as [->|Hp]; [eexists _, ws; split; [left; reflexivity|exact L']|].
      destruct (IH _ B' p Hp) as (ld & vs & Hv & Lv). exists ld, vs. split; [right; exact Hv|exact Lv]. }
    assert (KS : all_keyed (if std then add_std_types Parse_new else Parse_new)) by (destruct std; [exact std_keyed|exact keyed_new]).
    split.
    - intros X e He. rewrite M in He. apply merged_entries in He as [He|(q & Hq & He)].
      + left. destruct std; [split; [reflexivity|exact (std_entries e He)]|destruct He].
      + right. apply in_app_or in Hq as [Hq|Hq].
        * destruct (PB q Hq) as (ld & vs & Hv & Lv).
          assert (XV : forall v, In v vs -> In v (modules_read vss rs)) by (intros v J; apply in_or_app; left; apply in_concat; exists vs; auto).
          destruct (proj1 (visits_grow ld vs _ _ (fun v J => X v (XV v J)) Lv) e He) as [[]|(v & J & F)]. exists v. auto.
        * unfold lib_parts in L. destruct lib as [cargo|]; [|subst qs; destruct Hq]. destruct L as (q' & -> & L). destruct Hq as [<-|[]].
          assert (XV : forall r v, In r rs -> In v (rd_visits r) -> In v (modules_read vss rs))
            by (intros r v I J; apply in_or_app; right; apply in_concat; exists (rd_visits r); split; [apply in_map; exact I|exact J]).
          destruct (proj1 (crates_grow cargo c bitflags rs _ _ (fun r v I J => X v (XV r v I J)) L) e He) as [[]|(r & v & I & J & F)].
          exists v. split; [exact (XV r v I J)|exact F].
    - intros v i k n Hv Hi Sk D. pose proof (defines_kind _ _ _ D) as Hk. rewrite M. unfold modules_read in Hv. apply in_app_or in Hv as [Hv|Hv].
      + apply in_concat in Hv as (vs & Hvs & Hv). destruct (PA vs Hvs) as (ld & p & Hp & Lp).
        eapply merged_found; [exact KS|exact Hk|apply in_or_app; left; exact Hp|].
        exact (proj2 (visits_present H ld vs _ _ keyed_new Lp) v i k n Hv Hi Sk D).
      + apply in_concat in Hv as (vs & Hvs & Hv). apply in_map_iff in Hvs as (r & <- & Hr).
        unfold lib_parts in L. destruct lib as [cargo|]; [|pose proof (sr_library _ _ _ _ _ _ R) as Z; cbn in Z; subst rs; destruct Hr].
        destruct L as (q & -> & L). eapply merged_found; [exact KS|exact Hk|apply in_or_app; right; left; reflexivity|].
        exact (proj2 (proj2 (crates_present cargo c bitflags rs _ _ keyed_new L)) r v i k n Hr Hv Hi Sk D).
  Qed.
End All.
