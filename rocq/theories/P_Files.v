(** Writing files. *)
Require Import Coq.Strings.String Coq.Lists.List Coq.Bool.Bool Coq.Arith.Arith.
From Verif Require Import Base P_Base M_Config M_Type M_Ir M_Item M_Library M_Bindings M_Files S_Files.
Import ListNotations.
Open Scope string_scope.

Lemma cpath_eqb_spec : forall a b, reflect (a = b) (cpath_eqb a b).
Proof.
  induction a as [|x a IH]; intros [|y b]; cbn; try (constructor; congruence).
  destruct (String.eqb_spec x y); cbn; [|constructor; congruence].
  destruct (IH b); constructor; congruence.
Qed.
Lemma put_same : forall p n s, put p n s p = Some n.
Proof. intros. unfold put. destruct (cpath_eqb_spec p p); congruence. Qed.
Lemma put_other : forall p n s q, q <> p -> put p n s q = s q.
Proof. intros. unfold put. destruct (cpath_eqb_spec q p); congruence. Qed.

(** ** Directories above a path *)

Lemma prefixes_spec : forall p base q, In q (prefixes base p) <->
  exists a b, p = (a ++ b)%list /\ a <> [] /\ q = (base ++ a)%list.
Proof.
  induction p as [|x p IH]; intros base q; cbn.
  - split; [tauto|]. intros ([|? ?] & b & E & Hne & _); congruence || discriminate.
  - rewrite IH. split.
    + intros [<-|(a & b & -> & Hne & ->)].
      * exists [x], p. repeat split; congruence || reflexivity.
      * exists (x :: a), b. split; [reflexivity|]. split; [discriminate|]. rewrite <- app_assoc. reflexivity.
    + intros ([|y a] & b & E & Hne & ->); [congruence|]. cbn in E. inversion E; subst.
      destruct a as [|z a]; [left; reflexivity|]. right. exists (z :: a), b.
      split; [reflexivity|]. split; [discriminate|]. rewrite <- app_assoc. reflexivity.
Qed.
Lemma removelast_split : forall (p : cpath), p <> [] -> exists x, p = (parent p ++ [x])%list.
Proof. intros p Hne. exists (last p ""). apply app_removelast_last. exact Hne. Qed.
Lemma parent_app : forall (p : cpath) (x : string), parent (p ++ [x])%list = p.
Proof. intros. unfold parent. apply removelast_last. Qed.
Lemma in_prefixes_above : forall p q, In q (prefixes [] (parent p)) <-> above q p.
Proof.
  intros p q. rewrite prefixes_spec. unfold above. split.
  - intros (a & b & E & Hne & ->). split; [exact Hne|].
    destruct p as [|x0 p0] eqn:Ep; [destruct a; [congruence|discriminate]|]. rewrite <- Ep in *.
    destruct (removelast_split p) as [x Hx]; [congruence|].
    exists (b ++ [x])%list. split; [destruct b; discriminate|]. rewrite Hx, E, app_assoc. reflexivity.
  - intros (Hne & r & Hr & ->). exists q, (removelast r). split; [|split; [exact Hne|reflexivity]].
    unfold parent. rewrite removelast_app by exact Hr. reflexivity.
Qed.
Lemma above_not : forall q p, above q p -> q <> p.
Proof.
  intros q p (Hne & r & Hr & ->) E. apply Hr. apply (app_inv_head q). rewrite <- E, app_nil_r. reflexivity.
Qed.

(** ** What operations may touch *)

Lemma only_refl : forall p s, only_touches p s s.
Proof. intros p s q _. left. reflexivity. Qed.
Lemma only_trans : forall p s s1 s2, only_touches p s s1 -> only_touches p s1 s2 -> only_touches p s s2.
Proof.
  intros p s s1 s2 H1 H2 q Hq. destruct (H1 q Hq) as [E1|(E1 & E2 & A)], (H2 q Hq) as [F1|(F1 & F2 & B)].
  - left. congruence.
  - right. rewrite E1 in F1. tauto.
  - right. rewrite F1. tauto.
  - right. tauto.
Qed.

(** The operations of a write: directories above [p], or [p] itself. *)
Definition at_path (p : cpath) (e : effect) : Prop :=
  match e with EMkDir q => above q p | ECreate q => q = p | EAppend q _ => q = p end.
Lemma effect_touches : forall p e s s', at_path p e -> apply_effect e s = Some s' -> only_touches p s s'.
Proof.
  intros p [q|q|q t] s s' Ha E r Hr; cbn in Ha, E.
  - destruct (s q) eqn:Eq; [discriminate|]. destruct (is_dir s (parent q)); [|discriminate]. inversion E; subst.
    unfold put. destruct (cpath_eqb_spec r q) as [->|]; [|left; reflexivity]. right. tauto.
  - subst q. left. destruct (s p) as [[c|]|]; try discriminate.
    + inversion E; subst. apply put_other. exact Hr.
    + destruct (is_dir s (parent p)); [|discriminate]. inversion E; subst. apply put_other. exact Hr.
  - subst q. left. destruct (s p) as [[c|]|]; try discriminate. inversion E; subst. apply put_other. exact Hr.
Qed.
Lemma crash_touches : forall p es s s', crash es s s' -> Forall (at_path p) es -> only_touches p s s'.
Proof.
  intros p es s s' Hc. induction Hc as [es s|q t u es s c E|e es s s1 s2 E _ IH]; intros Hf.
  - apply only_refl.
  - apply Forall_inv in Hf. cbn in Hf. subst q. intros r Hr. left. apply put_other. exact Hr.
  - inversion Hf; subst. eapply only_trans; [eapply effect_touches; eassumption|auto].
Qed.
Lemma exec_crash : forall ok es n s, crash es s (fst (exec ok n es s)).
Proof.
  intros ok. induction es as [|e es IH]; intros n s; cbn; [constructor|].
  destruct (apply_effect e s) as [s1|] eqn:E; [|constructor]. destruct (ok n); [|constructor].
  eapply crash_later; [exact E|apply IH].
Qed.
Lemma dirs_at : forall s p, Forall (at_path p) (create_dir_all s (parent p)).
Proof.
  intros s p. unfold create_dir_all. rewrite Forall_map, Forall_forall. intros q Hq. apply filter_In in Hq.
  cbn. apply in_prefixes_above. tauto.
Qed.
Lemma appends_at : forall p l, Forall (at_path p) (map (EAppend p) l).
Proof. intros. rewrite Forall_map, Forall_forall. intros. reflexivity. Qed.
Lemma write_at : forall noop g s p, Forall (at_path p) (fst (write_to_file noop g s p)).
Proof.
  intros noop g s p. unfold write_to_file. destruct noop; [constructor|].
  assert (Hnew : Forall (at_path p) (create_dir_all s (parent p) ++ ECreate p :: map (EAppend p) (chunks g))).
  { apply Forall_app. split; [apply dirs_at|]. constructor; [reflexivity|apply appends_at]. }
  destruct (s p) as [[old|]|]; [|exact Hnew|exact Hnew].
  destruct (finished g); [|constructor]. destruct (String.eqb old _); repeat constructor.
Qed.

(** ** The content of the file *)

Lemma prefix_nil : forall t, is_prefix "" t.
Proof. intros t. exists t. reflexivity. Qed.
Lemma prefix_refl : forall t, is_prefix t t.
Proof. intros t. exists "". rewrite sapp_nil_r. reflexivity. Qed.

Lemma appends_crash : forall p l s s' c, crash (map (EAppend p) l) s s' -> s p = Some (NFile c) ->
  exists t, is_prefix t (sconcat l) /\ s' p = Some (NFile (c ++ t)).
Proof.
  intros p. induction l as [|x l IH]; intros s s' c Hc Hs; cbn [map] in Hc.
  - inversion Hc; subst. exists "". rewrite sapp_nil_r. split; [apply prefix_nil|exact Hs].
  - inversion Hc as [|p0 t u es0 s0 c0 E|e es0 s0 s1 s2 E Hr]; subst.
    + exists "". rewrite sapp_nil_r. split; [apply prefix_nil|exact Hs].
    + rewrite Hs in E. inversion E; subst. exists t. split; [|apply put_same].
      exists (u ++ sconcat l). cbn [sconcat]. rewrite sapp_assoc. reflexivity.
    + cbn in E. rewrite Hs in E. inversion E; subst.
      destruct (IH _ _ (c ++ x) Hr (put_same _ _ _)) as (t & (u & Hu) & Ht).
      exists (x ++ t). split; [exists u; cbn [sconcat]; rewrite Hu, sapp_assoc; reflexivity|].
      rewrite Ht, sapp_assoc. reflexivity.
Qed.
Lemma file_crash : forall p l s s', crash (ECreate p :: map (EAppend p) l) s s' ->
  s' p = s p \/ exists t, is_prefix t (sconcat l) /\ s' p = Some (NFile t).
Proof.
  intros p l s s' Hc. inversion Hc as [|? ? ? ? ? ? E|e es0 s0 s1 s2 E Hr]; subst; [left; reflexivity|].
  right. destruct (appends_crash p l s1 s' "" Hr) as (t & Ht & Hs'); [|exists t; tauto].
  cbn in E. destruct (s p) as [[c|]|]; try discriminate.
  - inversion E; subst. apply put_same.
  - destruct (is_dir s (parent p)); [|discriminate]. inversion E; subst. apply put_same.
Qed.
Lemma mkdirs_keep : forall p l s s1, (forall q, In q l -> q <> p) -> crash (map EMkDir l) s s1 -> s1 p = s p.
Proof.
  intros p. induction l as [|q l IH]; intros s s1 Hl Hc; cbn [map] in Hc; inversion Hc as [|? ? ? ? ? ? E|e es0 s0 s1' s2 E Hr]; subst; try reflexivity.
  rewrite (IH s1' s1 (fun q' Hq' => Hl q' (or_intror Hq')) Hr).
  cbn in E. destruct (s q); [discriminate|]. destruct (is_dir s (parent q)); [|discriminate]. inversion E; subst.
  apply put_other. intros Ep. exact (Hl q (or_introl eq_refl) (eq_sym Ep)).
Qed.
Lemma crash_app : forall l es s s', (forall e, In e l -> exists q, e = EMkDir q) -> crash (l ++ es) s s' ->
  crash l s s' \/ exists s1, crash l s s1 /\ crash es s1 s'.
Proof.
  induction l as [|e l IH]; intros es s s' Hl Hc.
  - right. exists s. split; [constructor|exact Hc].
  - cbn in Hc. inversion Hc as [|p t u es0 s0 c E|e0 es0 s0 s1 s2 E Hr]; subst.
    + left. constructor.
    + destruct (Hl _ (or_introl eq_refl)) as [q Hq]. discriminate.
    + destruct (IH es s1 s' (fun e' He' => Hl e' (or_intror He')) Hr) as [H1|(s3 & H1 & H2)].
      * left. eapply crash_later; eassumption.
      * right. exists s3. split; [eapply crash_later; eassumption|exact H2].
Qed.

(** Wherever a write stops, the file has its old content or a beginning of the new one. *)
Lemma write_crash : forall g s p s', crash (fst (write_to_file false g s p)) s s' ->
  s' p = s p \/ exists t, is_prefix t (sconcat (chunks g)) /\ s' p = Some (NFile t).
Proof.
  intros g s p s' Hc. unfold write_to_file in Hc.
  assert (Hnew : crash (create_dir_all s (parent p) ++ ECreate p :: map (EAppend p) (chunks g)) s s' ->
    s' p = s p \/ exists t, is_prefix t (sconcat (chunks g)) /\ s' p = Some (NFile t)).
  { intros H0. unfold create_dir_all in H0.
    set (ds := filter _ _) in H0.
    assert (Hds : forall q, In q ds -> q <> p).
    { intros q Hq. apply filter_In in Hq. apply above_not. apply in_prefixes_above. tauto. }
    apply crash_app in H0; [|intros e He; apply in_map_iff in He; destruct He as (q & <- & _); eauto].
    destruct H0 as [H0|(s1 & H0 & H1)].
    - left. eapply mkdirs_keep; eassumption.
    - apply mkdirs_keep with (p := p) in H0; [|exact Hds]. apply file_crash in H1. rewrite H0 in H1. exact H1. }
  destruct (s p) as [[old|]|] eqn:Es; [|apply Hnew; exact Hc|apply Hnew; exact Hc].
  destruct (finished g); cbn [fst] in Hc; [|inversion Hc; subst; left; exact Es].
  destruct (String.eqb old _); cbn [fst] in Hc; [inversion Hc; subst; left; exact Es|].
  change [ECreate p; EAppend p (sconcat (chunks g))] with (ECreate p :: map (EAppend p) [sconcat (chunks g)]) in Hc.
  apply file_crash in Hc. rewrite Es in Hc. cbn [sconcat] in Hc. rewrite sapp_nil_r in Hc. exact Hc.
Qed.

(** ** Complete writes *)

Lemma exec_app : forall ok l1 l2 n s, exec ok n (l1 ++ l2) s =
  if snd (exec ok n l1 s) then exec ok (n + length l1) l2 (fst (exec ok n l1 s)) else (fst (exec ok n l1 s), false).
Proof.
  intros ok. induction l1 as [|e l1 IH]; intros l2 n s; cbn [app exec length].
  - rewrite Nat.add_0_r. reflexivity.
  - destruct (apply_effect e s) as [s1|]; [|reflexivity]. destruct (ok n); [|reflexivity].
    rewrite IH. cbn [snd fst]. rewrite Nat.add_succ_r. reflexivity.
Qed.
Lemma exec_appends : forall ok p l n s c, s p = Some (NFile c) -> snd (exec ok n (map (EAppend p) l) s) = true ->
  fst (exec ok n (map (EAppend p) l) s) p = Some (NFile (c ++ sconcat l)).
Proof.
  intros ok p. induction l as [|x l IH]; intros n s c Hs Hok; cbn [map exec] in *.
  - cbn. rewrite sapp_nil_r. exact Hs.
  - cbn in Hok |- *. rewrite Hs in *. destruct (ok n); [|discriminate].
    rewrite (IH _ _ (c ++ x)); [|apply put_same|exact Hok]. rewrite sapp_assoc. reflexivity.
Qed.
Lemma exec_file : forall ok p l n s, snd (exec ok n (ECreate p :: map (EAppend p) l) s) = true ->
  fst (exec ok n (ECreate p :: map (EAppend p) l) s) p = Some (NFile (sconcat l)).
Proof.
  intros ok p l n s Hok. cbn [exec] in *. destruct (apply_effect (ECreate p) s) as [s1|] eqn:E; [|discriminate].
  destruct (ok n); [|discriminate]. rewrite (exec_appends ok p l (S n) s1 ""); [reflexivity| |exact Hok].
  cbn in E. destruct (s p) as [[c|]|]; try discriminate.
  - inversion E; subst. apply put_same.
  - destruct (is_dir s (parent p)); [|discriminate]. inversion E; subst. apply put_same.
Qed.
Lemma exec_dirs_file : forall ok p ds l n s, snd (exec ok n (ds ++ ECreate p :: map (EAppend p) l) s) = true ->
  fst (exec ok n (ds ++ ECreate p :: map (EAppend p) l) s) p = Some (NFile (sconcat l)).
Proof.
  intros ok p ds l n s Hok. rewrite exec_app in *. destruct (snd (exec ok n ds s)); [|discriminate].
  apply exec_file. exact Hok.
Qed.

Lemma run_write_content : forall ok g s p s' a, run_write ok false g s p = (s', Done a) ->
  s' p = Some (NFile (sconcat (chunks g))) /\
  (a = true <-> s p <> Some (NFile (sconcat (chunks g)))).
Proof.
  intros ok g s p s' a E. unfold run_write, write_to_file in E.
  assert (Hnew : forall es, es = (create_dir_all s (parent p) ++ ECreate p :: map (EAppend p) (chunks g))%list ->
    answered (exec ok 0 es s) (if finished g then Done true else Panic) = (s', Done a) ->
    s' p = Some (NFile (sconcat (chunks g))) /\ a = true).
  { intros es -> E0. unfold answered in E0. inversion E0 as [[E1 E2]].
    destruct (snd (exec ok 0 _ s)) eqn:Eok; [|discriminate]. destruct (finished g); [|discriminate]. inversion E2.
    split; [|reflexivity]. apply exec_dirs_file. exact Eok. }
  destruct (s p) as [[old|]|] eqn:Es.
  - destruct (finished g); [|discriminate]. destruct (String.eqb_spec old (sconcat (chunks g))) as [->|Hne].
    + inversion E; subst. split; [exact Es|]. split; [discriminate|congruence].
    + unfold answered in E.
      change [ECreate p; EAppend p (sconcat (chunks g))] with (ECreate p :: map (EAppend p) [sconcat (chunks g)]) in E.
      apply pair_equal_spec in E. destruct E as [<- E2].
      destruct (snd (exec ok 0 _ s)) eqn:Eok; [|discriminate]. injection E2 as <-.
      split; [|split; [congruence|reflexivity]].
      rewrite (exec_file ok p _ 0 s Eok). cbn [sconcat]. rewrite sapp_nil_r. reflexivity.
  - destruct (Hnew _ eq_refl E) as [H1 H2]. split; [exact H1|]. split; [discriminate|intros _; exact H2].
  - destruct (Hnew _ eq_refl E) as [H1 H2]. split; [exact H1|]. split; [discriminate|intros _; exact H2].
Qed.
Lemma run_write_crash : forall ok noop g s p, crash (fst (write_to_file noop g s p)) s (fst (run_write ok noop g s p)).
Proof.
  intros. unfold run_write. destruct (write_to_file noop g s p) as [es a]. cbn. apply exec_crash.
Qed.
Lemma run_write_touches : forall ok noop g s p, only_touches p s (fst (run_write ok noop g s p)).
Proof. intros. eapply crash_touches; [apply run_write_crash|apply write_at]. Qed.

(** ** Success *)

Lemma exec_all : forall es n s, exec no_failures n es s = exec no_failures 0 es s.
Proof.
  induction es as [|e es IH]; intros n s; cbn; [reflexivity|]. destruct (apply_effect e s); [|reflexivity].
  rewrite IH. symmetry. apply IH.
Qed.
Lemma appends_succeed : forall p l s c, s p = Some (NFile c) -> snd (exec no_failures 0 (map (EAppend p) l) s) = true.
Proof.
  intros p. induction l as [|x l IH]; intros s c Hs; [reflexivity|].
  cbn. rewrite Hs. rewrite exec_all. eapply IH. apply put_same.
Qed.
Lemma file_succeeds : forall p l s, p <> [] -> s p <> Some NDir -> (s p = None -> is_dir s (parent p) = true) ->
  snd (exec no_failures 0 (ECreate p :: map (EAppend p) l) s) = true.
Proof.
  intros p l s Hne Hd Hp. cbn. destruct (s p) as [[c|]|] eqn:Es; [|congruence|rewrite (Hp eq_refl)];
    cbn; rewrite exec_all; eapply appends_succeed; apply put_same.
Qed.

Lemma parent_prefix : forall q p : cpath, q <> [] -> (exists b, p = (q ++ b)%list) -> exists b, p = (parent q ++ b)%list.
Proof.
  intros q p Hne [b ->]. destruct (removelast_split q Hne) as [x Hx]. exists (x :: b).
  rewrite Hx at 1. rewrite <- app_assoc. reflexivity.
Qed.
(** Creating the directories along [p], from the ones above [base] down. *)
Lemma dirs_succeed : forall p base s s0,
  is_dir s0 base = true ->
  (forall a b, p = (a ++ b)%list -> a <> [] -> s0 (base ++ a)%list = s (base ++ a)%list) ->
  (forall a b c, p = (a ++ b)%list -> a <> [] -> s (base ++ a)%list <> Some (NFile c)) ->
  let r := exec no_failures 0 (map EMkDir (filter (fun q => negb (is_dir s q)) (prefixes base p))) s0 in
  snd r = true /\ is_dir (fst r) (base ++ p)%list = true /\
  (forall q, s0 q <> None -> fst r q = s0 q).
Proof.
  induction p as [|x p IH]; intros base s s0 Hb Hsame Hfile; cbn zeta.
  - cbn. rewrite app_nil_r. split; [reflexivity|]. split; [exact Hb|reflexivity].
  - cbn [prefixes filter].
    assert (Hx : s0 (base ++ [x])%list = s (base ++ [x])%list) by (apply (Hsame [x] p); [reflexivity|discriminate]).
    assert (Hbase : forall s1, is_dir s1 (base ++ [x])%list = true ->
      (forall q, q <> (base ++ [x])%list -> s1 q = s0 q) ->
      let r := exec no_failures 0 (map EMkDir (filter (fun q => negb (is_dir s q)) (prefixes (base ++ [x])%list p))) s1 in
      snd r = true /\ is_dir (fst r) ((base ++ [x]) ++ p)%list = true /\ (forall q, s1 q <> None -> fst r q = s1 q)).
    { intros s1 H1 H2. apply IH; [exact H1| |].
      - intros a b E Hne. rewrite H2.
        + rewrite <- app_assoc. apply (Hsame (x :: a) b); [cbn; congruence|discriminate].
        + intros E2. rewrite <- (app_nil_r (base ++ [x])%list) in E2 at 2. apply app_inv_head in E2. contradiction.
      - intros a b c E Hne. rewrite <- app_assoc. apply (Hfile (x :: a) b); [cbn; congruence|discriminate]. }
    destruct (is_dir s (base ++ [x])%list) eqn:Ed; cbn [negb].
    + destruct (Hbase s0) as (H1 & H2 & H3).
      * unfold is_dir in *. rewrite Hx. exact Ed.
      * reflexivity.
      * split; [exact H1|]. split; [|exact H3]. rewrite <- app_assoc in H2. exact H2.
    + cbn [map exec apply_effect]. rewrite Hx.
      destruct (s (base ++ [x])%list) as [[c|]|] eqn:Es.
      * destruct (Hfile [x] p c); [reflexivity|discriminate|exact Es].
      * unfold is_dir in Ed. rewrite Es in Ed. discriminate.
      * rewrite parent_app, Hb. cbn [no_failures]. rewrite exec_all.
        destruct (Hbase (put (base ++ [x])%list NDir s0)) as (H1 & H2 & H3).
        -- unfold is_dir. rewrite put_same. reflexivity.
        -- intros q Hq. apply put_other. exact Hq.
        -- split; [exact H1|]. split; [rewrite <- app_assoc in H2; exact H2|].
           intros q Hq. rewrite H3.
           ++ apply put_other. intros ->. congruence.
           ++ rewrite put_other; [exact Hq|]. intros ->. congruence.
Qed.

Lemma write_succeeds : forall g s p, tree s -> writable s p -> finished g = true ->
  snd (run_write no_failures false g s p) = Done (match s p with
    | Some (NFile old) => negb (String.eqb old (sconcat (chunks g))) | _ => true end).
Proof.
  intros g s p (Hroot & Hpar) (Hne & Hd & Hfile) Hf. unfold run_write, write_to_file. rewrite Hf.
  assert (Hnew : s p = None -> snd (answered (exec no_failures 0 (create_dir_all s (parent p) ++ ECreate p :: map (EAppend p) (chunks g))%list s) (Done true)) = Done true).
  { intros Es. unfold answered. cbn [snd]. rewrite exec_app.
    destruct (dirs_succeed (parent p) [] s s) as (H1 & H2 & H3).
    - unfold is_dir. rewrite Hroot. reflexivity.
    - reflexivity.
    - intros a b c E Ha. apply Hfile. apply in_prefixes_above. apply prefixes_spec. exists a, b. tauto.
    - unfold create_dir_all. rewrite H1. rewrite exec_all, file_succeeds; [reflexivity|exact Hne| |intros _; exact H2].
      match goal with |- fst ?r p <> _ => assert (E : fst r p = s p) end; [|congruence].
      apply mkdirs_keep with (l := filter (fun q => negb (is_dir s q)) (prefixes [] (parent p))); [|apply exec_crash].
      intros q Hq. apply filter_In in Hq. apply above_not. apply in_prefixes_above. tauto. }
  destruct (s p) as [[old|]|] eqn:Es; [|congruence|apply Hnew; reflexivity].
  destruct (String.eqb old (sconcat (chunks g))); [reflexivity|]. cbn. rewrite Es. cbn. rewrite put_same. reflexivity.
Qed.

(** ** Crash states are proper file systems *)

Lemma effect_tree : forall e s s', tree s -> apply_effect e s = Some s' -> tree s'.
Proof.
  assert (Hput : forall p n s, tree s -> s p <> Some NDir -> (s p = None -> n = NDir \/ exists c, n = NFile c) ->
                 (s p = None -> p <> [] /\ is_dir s (parent p) = true) -> tree (put p n s)).
  { intros p n s (Hroot & Hpar) Hd _ Hp. split.
    - rewrite put_other; [exact Hroot|]. intros <-. congruence.
    - intros q Hq Hex. change (removelast q) with (parent q). destruct (cpath_eqb_spec (parent q) p) as [E|Hne].
      + exfalso. destruct (cpath_eqb_spec q p) as [E2|Hn2].
        * subst q. apply Hq. destruct (removelast_split p Hq) as [x Hx]. rewrite E in Hx.
          apply (f_equal (@length string)) in Hx. rewrite app_length in Hx. cbn in Hx. rewrite Nat.add_1_r in Hx. destruct (Nat.neq_succ_diag_r _ Hx).
        * rewrite put_other in Hex by exact Hn2. apply Hd. rewrite <- E. apply Hpar; assumption.
      + rewrite put_other by exact Hne. destruct (cpath_eqb_spec q p) as [E2|Hn2].
        * subst q. destruct (s p) as [n0|] eqn:Es.
          -- apply Hpar; [exact Hq|congruence].
          -- destruct (Hp eq_refl) as [_ Hp2]. unfold is_dir in Hp2. destruct (s (parent p)) as [[|]|]; congruence || discriminate.
        * rewrite put_other in Hex by exact Hn2. apply Hpar; assumption. }
  assert (Hnil : forall s, tree s -> forall p, s p = None -> p <> []).
  { intros s (Hroot & _) p Hp ->. congruence. }
  intros [p|p|p t] s s' Ht E; cbn in E.
  - destruct (s p) eqn:Es; [discriminate|]. destruct (is_dir s (parent p)) eqn:Ed; [|discriminate]. inversion E; subst.
    apply Hput; [exact Ht|congruence|auto|]. intros _. split; [apply (Hnil s Ht _ Es)|exact Ed].
  - destruct (s p) as [[c|]|] eqn:Es; [|discriminate|].
    + inversion E; subst. apply Hput; [exact Ht|congruence|eauto|congruence].
    + destruct (is_dir s (parent p)) eqn:Ed; [|discriminate]. inversion E; subst.
      apply Hput; [exact Ht|congruence|eauto|]. intros _. split; [apply (Hnil s Ht _ Es)|exact Ed].
  - destruct (s p) as [[c|]|] eqn:Es; try discriminate. inversion E; subst. apply Hput; [exact Ht|congruence|eauto|congruence].
Qed.
Lemma crash_tree : forall es s s', crash es s s' -> tree s -> tree s'.
Proof.
  intros es s s' Hc. induction Hc as [es s|q t u es s c E|e es s s1 s2 E _ IH]; intros Ht; [exact Ht| |].
  - apply (effect_tree (EAppend q t) s); [exact Ht|]. cbn. rewrite E. reflexivity.
  - apply IH. eapply effect_tree; eassumption.
Qed.
Lemma crash_writable : forall g s p s', crash (fst (write_to_file false g s p)) s s' -> writable s p -> writable s' p.
Proof.
  intros g s p s' Hc (Hne & Hd & Hfile). split; [exact Hne|]. split.
  - destruct (write_crash g s p s' Hc) as [E|(t & _ & E)]; congruence.
  - intros q c Hq. destruct (crash_touches p _ _ _ Hc (write_at false g s p) q (above_not _ _ Hq)) as [E|(_ & E & _)];
      rewrite E; [apply Hfile; exact Hq|discriminate].
Qed.

Lemma write_recovers : forall g s p s', tree s -> writable s p -> finished g = true ->
  crash (fst (write_to_file false g s p)) s s' ->
  exists a, snd (run_write no_failures false g s' p) = Done a /\
  fst (run_write no_failures false g s' p) p = Some (NFile (sconcat (chunks g))).
Proof.
  intros g s p s' Ht Hw Hf Hc.
  pose proof (write_succeeds g s' p (crash_tree _ _ _ Hc Ht) (crash_writable _ _ _ _ Hc Hw) Hf) as Hs.
  destruct (run_write no_failures false g s' p) as [s2 r] eqn:E. cbn [snd fst] in *. subst r. eexists.
  split; [reflexivity|]. eapply run_write_content. exact E.
Qed.

(** ** Histories *)

Lemma history_other : forall h s0 s, history h s0 s -> forall p n, (forall e, In e h -> ev_path e <> p) -> s0 p = Some n -> s p = Some n.
Proof.
  intros h s0 s Hh. induction Hh as [s|h s0 s1 ok g p s2 a _ IH E|h s0 s1 g p s2 _ IH Hc]; intros q n Hq Hs; [exact Hs| |].
  - specialize (IH q n (fun e He => Hq e (or_intror He)) Hs).
    pose proof (run_write_touches ok false g s1 p q) as Ht. rewrite E in Ht. cbn in Ht.
    destruct Ht as [Ht|(Ht & _)]; [intros ->; exact (Hq _ (or_introl eq_refl) eq_refl)|congruence|congruence].
  - specialize (IH q n (fun e He => Hq e (or_intror He)) Hs).
    destruct (crash_touches p _ _ _ Hc (write_at false g s1 p) q) as [Ht|(Ht & _)];
      [intros ->; exact (Hq _ (or_introl eq_refl) eq_refl)|congruence|congruence].
Qed.
Lemma history_app : forall h2 h1 s0 s, history (h2 ++ h1) s0 s -> exists s1, history h1 s0 s1 /\ history h2 s1 s.
Proof.
  induction h2 as [|e h2 IH]; intros h1 s0 s Hh; [exists s; split; [exact Hh|constructor]|].
  cbn in Hh. inversion Hh as [|h s0' s1 ok g p s2 a Hr E|h s0' s1 g p s2 Hr Hc]; subst;
    destruct (IH _ _ _ Hr) as (s3 & H1 & H2); exists s3; (split; [exact H1|]).
  - eapply ended; eassumption.
  - eapply stopped; eassumption.
Qed.
Lemma last_write_wins : forall later earlier e a s0 s,
  history (later ++ e :: earlier) s0 s -> ev_answer e = Some a ->
  (forall e', In e' later -> ev_path e' <> ev_path e) -> s (ev_path e) = Some (NFile (ev_text e)).
Proof.
  intros later earlier e a s0 s Hh Ha Hl. apply history_app in Hh. destruct Hh as (s1 & H1 & H2).
  eapply history_other; [exact H2|exact Hl|].
  inversion H1 as [|h s0' s1' ok g p s2 a' Hr E|h s0' s1' g p s2 Hr Hc]; subst; cbn in *; [|discriminate].
  eapply run_write_content. exact E.
Qed.

(** ** Symbol and dependency files, and the program *)

Lemma stake_sdrop : forall n s, stake n s ++ sdrop n s = s.
Proof. induction n as [|n IH]; intros [|c s]; cbn; try reflexivity. rewrite IH. reflexivity. Qed.
Lemma dirs_file_succeed : forall s p l, tree s -> writable s p ->
  snd (exec no_failures 0 (create_dir_all s (parent p) ++ ECreate p :: map (EAppend p) l) s) = true.
Proof.
  intros s p l (Hroot & Hpar) (Hne & Hd & Hfile). rewrite exec_app.
  destruct (dirs_succeed (parent p) [] s s) as (H1 & H2 & H3).
  - unfold is_dir. rewrite Hroot. reflexivity.
  - reflexivity.
  - intros a b c E Ha. apply Hfile. apply in_prefixes_above. apply prefixes_spec. exists a, b. tauto.
  - unfold create_dir_all. rewrite H1. rewrite exec_all, file_succeeds; [reflexivity|exact Hne| |intros _; exact H2].
    match goal with |- fst ?r p <> _ => assert (E : fst r p = s p) end; [|congruence].
    apply mkdirs_keep with (l := filter (fun q => negb (is_dir s q)) (prefixes [] (parent p))); [|apply exec_crash].
    intros q Hq. apply filter_In in Hq. apply above_not. apply in_prefixes_above. tauto.
Qed.
Lemma exec_touches : forall ok n es s p, Forall (at_path p) es -> only_touches p s (fst (exec ok n es s)).
Proof. intros. eapply crash_touches; [apply exec_crash|assumption]. Qed.

Lemma symfile_writes : forall early text s p, tree s -> writable s p ->
  snd (generate_symfile no_failures early text s p) = Done tt /\
  fst (generate_symfile no_failures early text s p) p = Some (NFile text).
Proof.
  intros early text s p Ht Hw. unfold generate_symfile.
  pose proof (dirs_file_succeed s p [stake early text] Ht Hw) as Hok.
  pose proof (exec_dirs_file no_failures p (create_dir_all s (parent p)) [stake early text] 0 s Hok) as Hc.
  cbn [map] in Hok, Hc.
  destruct (exec no_failures 0 (create_dir_all s (parent p) ++ [ECreate p; EAppend p (stake early text)]) s) as [s1 d].
  cbn [fst snd] in *. subst d. split; [reflexivity|]. cbn. rewrite Hc. cbn. rewrite put_same, sapp_nil_r, stake_sdrop. reflexivity.
Qed.
Lemma symfile_touches : forall ok early text s p, only_touches p s (fst (generate_symfile ok early text s p)).
Proof.
  intros. unfold generate_symfile.
  assert (Ha : Forall (at_path p) (create_dir_all s (parent p) ++ [ECreate p; EAppend p (stake early text)])).
  { apply Forall_app. split; [apply dirs_at|]. repeat constructor. }
  pose proof (exec_touches ok 0 _ s p Ha) as H1.
  destruct (exec ok 0 _ s) as [s1 d]. destruct d; [|exact H1]. cbn [fst].
  eapply only_trans; [exact H1|]. apply exec_touches. repeat constructor.
Qed.
Lemma depfile_writes : forall ok pieces s p s', generate_depfile ok pieces s p = (s', Done tt) ->
  only_touches p s s' /\ exists l, pieces = Some l /\ s' p = Some (NFile (sconcat l)).
Proof.
  intros ok pieces s p s' E. unfold generate_depfile in E.
  set (dirs := match s (parent p) with Some _ => [] | None => create_dir_all s (parent p) end) in *.
  assert (Hd : Forall (at_path p) dirs) by (unfold dirs; destruct (s (parent p)); [constructor|apply dirs_at]).
  destruct pieces as [l|]; unfold answered in E; apply pair_equal_spec in E; destruct E as [<- E2].
  - destruct (snd (exec ok 0 _ s)) eqn:Eok; [|discriminate]. split.
    + apply exec_touches. apply Forall_app. split; [exact Hd|]. constructor; [reflexivity|apply appends_at].
    + exists l. split; [reflexivity|]. apply exec_dirs_file. exact Eok.
  - destruct (snd _); discriminate.
Qed.
Lemma depfile_touches : forall ok pieces s p, only_touches p s (fst (generate_depfile ok pieces s p)).
Proof.
  intros. unfold generate_depfile.
  set (dirs := match s (parent p) with Some _ => [] | None => create_dir_all s (parent p) end).
  assert (Hd : Forall (at_path p) dirs) by (unfold dirs; destruct (s (parent p)); [constructor|apply dirs_at]).
  destruct pieces as [l|]; cbn [answered fst]; apply exec_touches; [|exact Hd].
  apply Forall_app. split; [exact Hd|]. constructor; [reflexivity|apply appends_at].
Qed.

(** Content at a path another write did not go to. *)
Lemma touches_keeps : forall p q s s' n, only_touches p s s' -> q <> p -> s q = Some n -> s' q = Some n.
Proof. intros p q s s' n Ht Hq Hs. destruct (Ht q Hq) as [E|(E & _)]; congruence. Qed.
Lemma main_codes : forall w g symbols o s,
  (forall d, op_depfile o = Some d -> d <> op_out o) -> (forall f, op_symfile o = Some f -> f <> op_out o) ->
  let text := sconcat (chunks g) in
  let r := main_out w false g symbols o s in
  (snd r = 0 -> fst r (op_out o) = Some (NFile text) /\ (op_verify o = true -> s (op_out o) = Some (NFile text))) /\
  (snd r = 2 -> op_verify o = true /\ s (op_out o) <> Some (NFile text)).
Proof.
  intros w g symbols o s Hd Hf text r. unfold r, main_out, exit_code.
  destruct (run_write (ok_out w) false g s (op_out o)) as [s1 [a| |]] eqn:E; cbn [fst snd];
    [|split; discriminate|split; discriminate].
  apply run_write_content in E. destruct E as [Hc Ha].
  destruct (op_verify o && a) eqn:Ev; cbn [fst snd].
  - split; [discriminate|]. intros _. apply andb_prop in Ev. split; [tauto|]. apply Ha. tauto.
  - assert (Hs : op_verify o = true -> s (op_out o) = Some (NFile text)).
    { intros Hv. rewrite Hv in Ev. cbn in Ev. subst a.
      destruct (s (op_out o)) as [[c|]|] eqn:Es.
      - destruct (string_dec c text) as [->|Hne]; [reflexivity|]. exfalso.
        assert (false = true) by (apply Ha; intros Eq; injection Eq as Eq; exact (Hne Eq)). discriminate.
      - exfalso. assert (false = true) by (apply Ha; discriminate). discriminate.
      - exfalso. assert (false = true) by (apply Ha; discriminate). discriminate. }
    match goal with |- context [match snd ?d with _ => _ end] => set (dep := d) end.
    assert (H1 : fst dep (op_out o) = Some (NFile text)).
    { unfold dep. destruct (op_depfile o) as [d|] eqn:Eo; [|exact Hc].
      eapply touches_keeps; [apply depfile_touches| |exact Hc]. intros Eq. exact (Hd d eq_refl (eq_sym Eq)). }
    destruct (snd dep); cbn [fst snd]; [|split; discriminate|split; discriminate].
    match goal with |- context [match snd ?d with _ => _ end] => set (sym := d) end.
    assert (H2 : fst sym (op_out o) = Some (NFile text)).
    { unfold sym. destruct (op_symfile o) as [f|] eqn:Eo; [|exact H1].
      eapply touches_keeps; [apply symfile_touches| |exact H1]. intros Eq. exact (Hf f eq_refl (eq_sym Eq)). }
    destruct (snd sym); cbn [fst snd]; (split; [|discriminate]); try discriminate. auto.
Qed.
