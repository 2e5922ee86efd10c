(** Facts about the example libraries. *)
Require Import Coq.Strings.String Coq.Lists.List Coq.Bool.Bool Coq.Relations.Relation_Operators Coq.Relations.Operators_Properties.
From Verif Require Import Base P_Base M_Config M_Cfg M_Type M_Ir M_Item M_Library S_Library S_Demo P_Deps P_Library.
Import ListNotations.
Open Scope string_scope.

(** A set of names closed under reference contains what its members reach. *)
Lemma closed_reaches : forall l (ps : list string),
  (forall p i q, In p ps -> In i (items_of l p) -> In q (ic_deps i) -> In q ps \/ lib_get_items l q = None) ->
  forall p q, In p ps -> reaches l p q -> In q ps.
Proof.
  intros l ps Hc p q Hp Hr. apply clos_rt_rtn1 in Hr. induction Hr as [|y z [[items Hk] (i & Hi & Hm)] Hr IH]; [assumption|].
  apply ic_deps_mentions in Hm. destruct (Hc y i z IH Hi Hm) as [?|E]; [assumption|congruence].
Qed.
(** The same, as a computation. *)
Definition closedb (l : Library) (ps : list string) : bool :=
  forallb (fun p => forallb (fun i => forallb (fun q => mem_str q ps || negb (is_some (lib_get_items l q))) (ic_deps i)) (items_of l p)) ps.
Lemma closedb_reaches : forall l ps p q, closedb l ps = true -> In p ps -> reaches l p q -> In q ps.
Proof.
  intros l ps p q Hc. apply closed_reaches. intros p0 i q0 Hp Hi Hq. unfold closedb in Hc. rewrite forallb_forall in Hc.
  specialize (Hc _ Hp). rewrite forallb_forall in Hc. specialize (Hc _ Hi). rewrite forallb_forall in Hc. specialize (Hc _ Hq).
  apply orb_prop in Hc as [Hc|Hc]; [left; apply mem_str_In; assumption|right]. destruct (lib_get_items l q0); [discriminate|reflexivity].
Qed.
Lemma refers_dep : forall l p q, existsb (fun i => mem_str q (ic_deps i)) (items_of l p) = true -> is_some (lib_get_items l q) = true -> refers l p q.
Proof.
  intros l p q He Hk. split.
  - destruct (lib_get_items l q) as [x|] eqn:E; [exists x; exact E|discriminate].
  - apply existsb_exists in He as (i & Hi & Hq). exists i. split; [assumption|]. apply ic_deps_mentions, mem_str_In. assumption.
Qed.

Lemma demo_applies : let l := demo (config_with Cxx default_export SortNone) in
  exported l "Node" /\ In (ICStruct (struct "Node" [] [fld "next" (ptr (ty "Edge")); fld "value" (ty "Shape")])) (items_of l "Node")
  /\ item_mentions (ICStruct (struct "Node" [] [fld "next" (ptr (ty "Edge")); fld "value" (ty "Shape")])) "Shape"
  /\ known l "Shape" /\ ~ reaches l "Shape" "Node" /\ reaches l "Node" "Edge" /\ reaches l "Edge" "Node".
Proof.
  intros l. repeat split.
  - exists "Node". split; [|apply rt_refl]. split; [eexists; reflexivity|]. left.
    exists (fn "second" [("z", ptr (ty "Zed")); ("a", ptr (ty "Apple")); ("n", ty "Node")] void). split; [now left|].
    apply Function_deps_mentions. cbn. tauto.
  - now left.
  - apply ic_deps_mentions. cbn. tauto.
  - eexists. reflexivity.
  - intros Hr. apply (closedb_reaches l ["Shape"; "Point"; "Coord"]) in Hr; [|reflexivity|now left].
    destruct Hr as [E|[E|[E|[]]]]; discriminate.
  - apply rt_step. apply refers_dep; reflexivity.
  - apply rt_step. apply refers_dep; reflexivity.
Qed.

Definition disc_foo := struct "Foo" [] [fld "x" u8].
Definition disc_enum := plain_enum "E" [unit_variant "A" (Some (LPath (Some ("Foo", "Foo")) "X"))].
Definition disc_lib := lib (config_with Cxx default_export SortNone) [] [] [disc_enum] [disc_foo] [] [] [] [fn "f" [("e", ty "E")] void].
Lemma discriminant_order : exists l b i j,
  finish l = Done b /\ b_items b = [j; i] /\ item_mentions j (ic_path i) /\ items_of l (ic_path i) = [i]
  /\ ~ reaches l (ic_path i) (ic_path j).
Proof.
  destruct (finish_total disc_lib) as [b Hb]. exists disc_lib, b, (ICStruct disc_foo), (ICEnum disc_enum).
  split; [exact Hb|]. split; [vm_compute in Hb; inversion Hb; reflexivity|]. split; [apply ic_deps_mentions; cbn; tauto|].
  split; [reflexivity|]. intros Hr. apply (closedb_reaches disc_lib ["Foo"]) in Hr; [|reflexivity|now left].
  destruct Hr as [E|[]]. discriminate.
Qed.
