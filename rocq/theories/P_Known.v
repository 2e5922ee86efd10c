Require Import Coq.Strings.String Coq.Lists.List Coq.Bool.Bool.
From Verif Require Import Base P_Base M_Config M_Type M_Ir M_Library M_Writer M_Bindings M_Literal S_Fields P_Bindings P_Deps P_Signature S_Known.
Import ListNotations.
Open Scope string_scope.

Lemma struct_known_exists : forall fuel b p v, struct_exists fuel b p = Done v -> (v = true <-> struct_known b p).
Proof.
  intros fuel b p v E. unfold struct_exists in E. destruct (resolved_struct_path fuel b p) as [q| |] eqn:R; try discriminate.
  cbn in E. injection E as <-. pose proof (resolved_sound _ _ _ _ R) as A. unfold struct_known. split.
  - intro N. destruct (for_items (b_struct_map b) q) as [|s l] eqn:F; [discriminate|]. exists q, s. split; [exact A|]. rewrite F. left. reflexivity.
  - intros (q' & s & A' & I). rewrite (ends_unique _ _ _ A' _ A) in I. destruct (for_items (b_struct_map b) q); [destruct I|reflexivity].
Qed.
Lemma enum_known_exists : forall b p, enum_exists b p = true <-> enum_known b p.
Proof.
  intros b p. unfold enum_exists, enum_known. destruct (for_items (b_enum_map b) p) as [|e l]; cbn.
  - split; [discriminate|]. intros (e & []).
  - split; [|reflexivity]. intros _. exists e. left. reflexivity.
Qed.
Lemma limit_names : forall p, In p primitive_names -> forall n, In n ["MAX"; "MIN"] ->
  is_some (to_known_assoc_constant p n) = mem_str p limited.
Proof.
  refine (proj1 (Forall_forall (fun p => forall n, In n ["MAX"; "MIN"] -> is_some (to_known_assoc_constant p n) = mem_str p limited) _) _). unfold primitive_names, integer_names, nonzero_names. cbn [app].
  repeat (apply Forall_cons; [intros n [<-|[<- |[]]]; reflexivity|]). apply Forall_nil.
Qed.
Lemma limit_known : forall p n, is_some (to_known_assoc_constant p n) = true <-> In p limited /\ In n ["MAX"; "MIN"].
Proof.
  intros p n. assert (N : is_some (to_known_assoc_constant p n) = true -> In n ["MAX"; "MIN"]).
  { unfold to_known_assoc_constant. destruct (String.eqb_spec n "MAX") as [->|]; [left; reflexivity|].
    destruct (String.eqb_spec n "MIN") as [->|]; [right; left; reflexivity|discriminate]. }
  split.
  - intro E. pose proof (N E) as M. split; [|exact M]. apply mem_In. rewrite <- (limit_names p) with (n := n); [exact E| |exact M].
    apply mem_In. unfold to_known_assoc_constant in E. destruct (negb _ && negb _); [discriminate|].
    destruct (PrimitiveType_maybe p) as [q|] eqn:P; [|discriminate]. exact (primitive_named _ _ P).
  - intros [L M]. rewrite limit_names by (exact M || (revert L; apply (proj1 (Forall_forall (fun p => In p primitive_names) limited));
      repeat (apply Forall_cons; [apply mem_In; reflexivity|]); apply Forall_nil)).
    apply mem_In. exact L.
Qed.
Lemma valid_known : forall fuel b l v, is_valid fuel b l = Done v -> (v = true <-> known b l).
Proof.
  intros fuel b l. induction l as [s|a n|op x IH|x op y IHx IHy|x f IH|p e fs IH|t x IH|l IH] using Literal_ind'; intros v E; cbn [is_valid] in E.
  - injection E as <-. split; [constructor|reflexivity].
  - destruct a as [[p e]|]; [|injection E as <-; split; [constructor|reflexivity]]. unfold or_else in E.
    destruct (struct_exists fuel b p) as [s| |] eqn:S; try discriminate. pose proof (struct_known_exists _ _ _ _ S) as K.
    destruct s; [injection E as <-; split; [intros _; apply kn_struct_constant, K; reflexivity|reflexivity]|].
    destruct (enum_exists b p) eqn:N; [injection E as <-; split; [intros _; apply kn_variant, enum_known_exists, N|reflexivity]|].
    injection E as <-. split.
    + intro L. apply limit_known in L as [L M]. now apply kn_limit.
    + intro A. inversion A as [| |? ? ? G|? ? ? G|? ? ? L M| | | | | |]; subst.
      * apply K in G. discriminate.
      * apply enum_known_exists in G. congruence.
      * apply limit_known. auto.
  - rewrite (IH _ E). split; [apply kn_unary|intro A; inversion A; assumption].
  - unfold and_then in E. destruct (is_valid fuel b x) as [vx| |]; try discriminate. specialize (IHx _ eq_refl). destruct vx.
    + rewrite (IHy _ E). split; [intro; apply kn_binary; [apply IHx; reflexivity|assumption]|intro A; inversion A; assumption].
    + injection E as <-. split; [discriminate|]. intro A. inversion A; subst. now apply IHx.
  - rewrite (IH _ E). split; [apply kn_field|intro A; inversion A; assumption].
  - rewrite (struct_known_exists _ _ _ _ E). split; [apply kn_struct|intro A; inversion A; assumption].
  - rewrite (IH _ E). split; [apply kn_cast|intro A; inversion A; assumption].
  - assert (G : v = true <-> Forall (known b) l).
    { revert v E. induction IH as [|x r IHx F IHr]; intros v E; cbn in E.
      - injection E as <-. split; [constructor|reflexivity].
      - unfold and_then in E. destruct (is_valid fuel b x) as [vx| |]; try discriminate. specialize (IHx _ eq_refl). destruct vx.
        + rewrite (IHr _ E). split; [intro; apply Forall_cons; [apply IHx; reflexivity|assumption]|intro A; inversion A; assumption].
        + injection E as <-. split; [discriminate|]. intro A. inversion A; subst. now apply IHx. }
    rewrite G. split; [apply kn_array|intro A; inversion A; assumption].
Qed.
Lemma unknown_unwritten : forall (H : Heck) fuel b k s p, Constant_write fuel b k s = Done p -> ~ known b (c_value k) -> p = PRet.
Proof.
  intros H fuel b k s p E N. unfold Constant_write in E.
  destruct (match s with Some st => negb (is_nil (s_generic_params st)) | None => false end).
  - injection E as <-. reflexivity.
  - destruct (is_valid fuel b (c_value k)) as [v| |] eqn:V; try discriminate. destruct v.
    + destruct (N (proj1 (valid_known _ _ _ _ V) eq_refl)).
    + injection E as <-. reflexivity.
Qed.
