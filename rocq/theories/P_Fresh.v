(** What the parser hands on: tables filled by insertions, with types in which
    nothing is renamed yet ([as_loaded]), for any sources whatever. *)
Require Import Coq.Strings.String Coq.Lists.List Coq.Bool.Bool.
From Verif Require Import Base P_Base M_Config M_Cfg M_Type M_Ir M_Item M_Library M_Attr M_Docs M_Syn M_Loader M_Parser S_Item S_Library S_Names S_Mono S_Parse
  P_Type P_Deps P_Item P_Table P_Library P_Modules P_Entries P_Crates.
Import ListNotations.
Open Scope string_scope.

Definition news (t : Ty) : Prop := Forall fresh (type_refs t).
Lemma Forall_concat : forall A (P : A -> Prop) l, Forall (Forall P) l -> Forall P (concat l).
Proof. intros A P l F. induction F; [constructor|]. cbn. apply Forall_app. tauto. Qed.
Lemma concat_Forall : forall A (P : A -> Prop) l, Forall P (concat l) -> Forall (Forall P) l.
Proof. intros A P l. induction l as [|x l IH]; intro F; [constructor|]. cbn in F. apply Forall_app in F as [F1 F2]. constructor; auto. Qed.
Lemma Forall_concat_map : forall A B (f : A -> list B) (P : B -> Prop) l, Forall (fun x => Forall P (f x)) l <-> Forall P (concat (map f l)).
Proof.
  intros A B f P l. split; intro F; [apply Forall_concat, Forall_map; exact F|apply concat_Forall in F; apply Forall_map; exact F].
Qed.
Lemma skip_map_Forall : forall A B (f : A -> option (option B)) (P : B -> Prop) l ys,
  Forall (fun x => forall y, f x = Some (Some y) -> P y) l -> try_skip_map f l = Some ys -> Forall P ys.
Proof.
  intros A B f P l. induction l as [|x l IH]; intros ys F Q; [injection Q as <-; constructor|]. cbn in Q. inversion F; subst.
  destruct (f x) as [[y|]|] eqn:E; [| |discriminate]; fold (try_skip_map f l) in Q.
  - destruct (try_skip_map f l) as [zs|] eqn:E'; [|discriminate]. injection Q as <-. constructor; [auto|]. apply (IH zs); auto.
  - destruct (try_skip_map f l) as [zs|] eqn:E'; [|discriminate]. injection Q as <-. apply (IH zs); auto.
Qed.
Lemma wildcards_refs : forall l n, map (fun a => type_refs (snd a)) (name_wildcards n l) = map (fun a => type_refs (snd a)) l.
Proof.
  induction l as [|[[x|] t] l IH]; intro n; cbn; [reflexivity| |rewrite IH; reflexivity]. destruct (String.eqb x "_"); cbn; rewrite IH; reflexivity.
Qed.
Lemma new_path : forall p gs, Forall fresh (concat (map arg_refs gs)) -> Forall fresh (path_refs (GenericPath_new p gs)).
Proof. intros p gs F. cbn. constructor; [split; reflexivity|exact F]. Qed.

Fixpoint type_news (t : sty) : forall ty, Type_load t = Some (Some ty) -> news ty
with path_news (p : spath) : forall g, GenericPath_load p = Some g -> Forall fresh (path_refs g)
with const_news (e : sexpr) : forall x, ConstExpr_load e = Some x -> Forall fresh (const_refs x).
Proof.
  - destruct t as [m u|m u|p|u len|inputs variadic output|elems| | |]; intros ty Q; cbn [Type_load] in Q.
    + pose proof (type_news u) as K. destruct (Type_load u) as [[c|]|]; try discriminate; injection Q as <-; cbn; [exact (K _ eq_refl)|constructor].
    + pose proof (type_news u) as K. destruct (Type_load u) as [[c|]|]; try discriminate; injection Q as <-; cbn; [exact (K _ eq_refl)|constructor].
    + pose proof (path_news p) as K. destruct (GenericPath_load p) as [g|]; [|discriminate]. destruct (_ || _); [discriminate|].
      destruct (PrimitiveType_maybe _); [destruct (is_nil _); [injection Q as <-; constructor|discriminate]|]. injection Q as <-. exact (K _ eq_refl).
    + pose proof (type_news u) as K. destruct (Type_load u) as [[c|]|]; try discriminate. pose proof (const_news len) as L.
      destruct (ConstExpr_load len) as [n|]; [|discriminate]. injection Q as <-. apply Forall_app. split; [exact (K _ eq_refl)|exact (L _ eq_refl)].
    + assert (A : forall args, try_skip_map (fun a => let? c := Type_load (snd a) in Some (option_map (pair (fst a)) c)) inputs = Some args ->
                Forall (fun a : option string * Ty => news (snd a)) args).
      { intro args. apply skip_map_Forall. clear -type_news. induction inputs as [|[n u] r IH]; [constructor|]. constructor; [|exact IH].
        intros y E. cbn [fst snd] in E. pose proof (type_news u) as K. destruct (Type_load u) as [[c|]|]; try discriminate. injection E as <-. exact (K _ eq_refl). }
      assert (R : forall r, match output with None => Some (TPrim PVoid, false) | Some SNever => Some (TPrim PVoid, true)
                  | Some u => let? c := let? c := Type_load u in Some (match c with Some x => x | None => TPrim PVoid end) in Some (c, false) end = Some r -> news (fst r)).
      { clear -type_news. intros r E. destruct output as [u|]; [|injection E as <-; constructor]. pose proof (type_news u) as K.
        destruct u; try (injection E as <-; constructor); (destruct (Type_load _) as [[c|]|]; [| |discriminate]); injection E as <-; try constructor; exact (K _ eq_refl). }
      destruct (try_skip_map _ inputs) as [args|]; [|discriminate].
      match type of Q with match ?x with _ => _ end = _ => destruct x as [r|] eqn:ER; [|discriminate] end. injection Q as <-.
      specialize (A args eq_refl). specialize (R r eq_refl). unfold news. cbn [type_refs]. apply Forall_app. split; [exact R|].
      rewrite map_app, concat_app, wildcards_refs. apply Forall_app. split; [apply Forall_concat_map; exact A|]. destruct variadic; repeat constructor.
    + destruct (is_nil elems); discriminate.
    + injection Q as <-. constructor.
    + discriminate.
    + discriminate.
  - destruct p as [before ident arguments]. intros g Q. cbn [GenericPath_load] in Q. destruct (String.eqb _ _); [injection Q as <-; apply new_path; constructor|].
    destruct arguments as [|args|]; [injection Q as <-; apply new_path; constructor| |discriminate].
    assert (A : forall gs, try_skip_map (fun a => match a with
                                              | ArgType u => let? c := Type_load u in Some (option_map GType c)
                                              | ArgLifetime => Some None
                                              | ArgConst e => let? x := ConstExpr_load e in Some (Some (GConst x))
                                              | ArgOther => None
                                              end) args = Some gs -> Forall (fun a => Forall fresh (arg_refs a)) gs).
    { intro gs. apply skip_map_Forall. clear -type_news const_news. induction args as [|a r IH]; [constructor|]. constructor; [|exact IH].
      intros y E. destruct a as [u| |e|]; [|discriminate| |discriminate].
      - pose proof (type_news u) as K. destruct (Type_load u) as [[c|]|]; try discriminate. injection E as <-. exact (K _ eq_refl).
      - pose proof (const_news e) as K. destruct (ConstExpr_load e) as [c|]; try discriminate. injection E as <-. exact (K _ eq_refl). }
    destruct (try_skip_map _ args) as [gs|]; [|discriminate]. injection Q as <-. apply new_path. apply Forall_concat_map. apply A. reflexivity.
  - destruct e as [op a b|l|b m|f args|p fields rest|op x|p|x|x t|elems|r m args|]; intros y Q; cbn [ConstExpr_load] in Q; try discriminate.
    + destruct l; try discriminate; injection Q as <-; constructor.
    + pose proof (path_news p) as K. destruct (GenericPath_load p) as [g|]; [|discriminate]. injection Q as <-. exact (K _ eq_refl).
    + apply (const_news x). exact Q.
Qed.

(** ** With [Self] put in *)
Lemma self_news : forall p t, news t -> news (replace_self_with p t).
Proof.
  intros p. pose (P := fun t => news t -> news (replace_self_with p t)).
  apply (Ty_ind' P (fun g => P (TPath g)) (fun a => match a with GType t => P t | GConst _ => True end) (fun _ => True)); try (intros; exact Logic.I).
  - intros t c n r IH. exact IH.
  - intros g IH. exact IH.
  - intros q F. exact F.
  - intros t e IH _ F. unfold news in F. cbn in F. apply Forall_app in F as [F1 F2]. apply Forall_app. split; [exact (IH F1)|exact F2].
  - intros r args n nr IHr IHa F. unfold news in F. cbn in F. apply Forall_app in F as [F1 F2]. apply Forall_app. split; [exact (IHr F1)|].
    rewrite map_map. cbn. apply Forall_concat_map. apply Forall_concat_map in F2. rewrite Forall_forall in *. intros x I. exact (IHa x I (F2 x I)).
  - intros q e gs ct IH F. unfold news in F. cbn in F. inversion F as [|? ? F1 F2]; subst.
    assert (G : Forall fresh (concat (map arg_refs (map (fun g => match g with GType u => GType (replace_self_with p u) | GConst x => GConst x end) gs)))).
    { rewrite map_map. apply Forall_concat_map. apply Forall_concat_map in F2. rewrite Forall_forall in *. intros x I. specialize (IH x I). specialize (F2 x I).
      destruct x; [exact (IH F2)|exact F2]. }
    cbn. destruct (String.eqb q "Self"); (constructor; [|exact G]); [|exact F1]. split; [reflexivity|]. destruct F1 as [_ K]. exact K.
  - intros t IH. exact IH.
Qed.
Lemma lit_self_news : forall p v, Forall fresh (lit_refs v) -> Forall fresh (lit_refs (Literal_replace_self_with p v)).
Proof.
  intros p v. induction v as [v|a n|op v IH|x op y IHx IHy|v f IH|pa ex fs IH|t v IH|items IH] using Literal_ind'; cbn [Literal_replace_self_with lit_refs]; intro F; try assumption.
  - destruct a as [[q e]|]; [|exact F]. destruct (String.eqb q "Self"); [|exact F]. constructor; [split; reflexivity|constructor].
  - auto.
  - apply Forall_app in F as [F1 F2]. apply Forall_app. auto.
  - auto.
  - inversion F as [|? ? F1 F2]; subst.
    assert (G : Forall fresh (concat (map (fun f => lit_refs (fst (snd f))) (map (fun f => (fst f, (Literal_replace_self_with p (fst (snd f)), snd (snd f)))) fs)))).
    { rewrite map_map. apply Forall_concat_map. apply Forall_concat_map in F2. cbn. rewrite Forall_forall in *. intros x I. exact (IH x I (F2 x I)). }
    destruct (String.eqb pa "Self"); (constructor; [|exact G]); [split; reflexivity|exact F1].
  - apply Forall_app in F as [F1 F2]. apply Forall_app. split; [exact (self_news p t F1)|auto].
  - rewrite map_map. apply Forall_concat_map. apply Forall_concat_map in F. rewrite Forall_forall in *. intros x I. exact (IH x I (F x I)).
Qed.

(** ** Literals *)
Lemma map_insert_Forall : forall A (P : string * A -> Prop) k v m, P (k, v) -> Forall P m -> Forall P (map_insert k v m).
Proof.
  intros A P k v m K F. induction F as [|[k' v'] m X F IH]; [repeat constructor; exact K|]. cbn. destruct (String.eqb k k'); constructor; assumption.
Qed.
Lemma insert_all_Forall : forall A (P : string * A -> Prop) l, Forall P l -> Forall P (M_Syn.insert_all l).
Proof.
  intros A P l. unfold M_Syn.insert_all. assert (G : forall m, Forall P m -> Forall P l -> Forall P (fold_left (fun m x => map_insert (fst x) (snd x) m) l m)).
  { induction l as [|[k v] l IH]; intros m M F; [exact M|]. inversion F; subst. apply IH; [|assumption]. apply map_insert_Forall; assumption. }
  apply G. constructor.
Qed.
Lemma numbered_Forall : forall A (P : A -> Prop) l, Forall P l -> Forall (fun x => P (snd x)) (numbered l).
Proof.
  intros A P l F. unfold numbered. apply Forall_map. generalize 0. induction F as [|x l X F IH]; intro n; [constructor|]. cbn. constructor; [exact X|apply IH].
Qed.
Lemma map_opt_Forall : forall A B (f : A -> option B) (P : B -> Prop) l ys,
  Forall (fun x => forall y, f x = Some y -> P y) l -> map_opt f l = Some ys -> Forall P ys.
Proof.
  intros A B f P l. induction l as [|x l IH]; intros ys F Q; [injection Q as <-; constructor|]. cbn in Q. inversion F; subst.
  destruct (f x) as [y|] eqn:E; [|discriminate]. destruct (map_opt f l) as [zs|]; [|discriminate]. injection Q as <-. constructor; [auto|]. apply (IH zs); auto.
Qed.
Fixpoint lit_news (e : sexpr) : forall v, Literal_load e = Some v -> Forall fresh (lit_refs v).
Proof.
  destruct e as [op a b|l|b m|f args|p fields rest|op x|p|x|x t|elems|r m args|]; intros y Q; cbn [Literal_load] in Q.
  - pose proof (lit_news a) as K. pose proof (lit_news b) as L. destruct (Literal_load a); [|discriminate]. destruct (Literal_load b); [|discriminate].
    injection Q as <-. apply Forall_app. split; [exact (K _ eq_refl)|exact (L _ eq_refl)].
  - destruct (lit_text l); [|discriminate]. injection Q as <-. constructor.
  - pose proof (lit_news b) as K. destruct (Literal_load b); [|discriminate]. injection Q as <-. exact (K _ eq_refl).
  - destruct (Literal_load f) as [[| [|] n | | | | | |]|]; try discriminate.
    assert (A : forall vs, map_opt Literal_load args = Some vs -> Forall (fun v => Forall fresh (lit_refs v)) vs).
    { intro vs. apply map_opt_Forall. clear -lit_news. induction args as [|a r IH]; constructor; [exact (lit_news a)|exact IH]. }
    destruct (map_opt Literal_load args) as [vs|]; [|discriminate]. injection Q as <-. specialize (A vs eq_refl). cbn [lit_refs].
    constructor; [split; reflexivity|]. apply Forall_concat_map. apply (insert_all_Forall _ (fun f => Forall fresh (lit_refs (fst (snd f))))).
    apply Forall_map. apply numbered_Forall in A. exact A.
  - destruct p as [before ident sa].
    match type of Q with (match map_opt ?g fields with _ => _ end) = _ =>
      assert (A : forall fs, map_opt g fields = Some fs -> Forall (fun f : string * (Literal * option Cfg) => Forall fresh (lit_refs (fst (snd f)))) fs) end.
    { intro fs. apply map_opt_Forall. clear -lit_news. induction fields as [|[[a m] x] r IH]; [constructor|constructor; [|exact IH]].
      intros z E. pose proof (lit_news x) as K. destruct (Literal_load x); [|discriminate]. injection E as <-. exact (K _ eq_refl). }
    match type of Q with (match ?g with _ => _ end) = _ => destruct g as [fs|]; [|discriminate] end. injection Q as <-. specialize (A fs eq_refl).
    cbn [lit_refs]. constructor; [split; reflexivity|]. apply Forall_concat_map. apply insert_all_Forall. exact A.
  - pose proof (lit_news x) as K. destruct op; try discriminate; (destruct (Literal_load x); [|discriminate]); injection Q as <-; exact (K _ eq_refl).
  - destruct p as [[|first [|? ?]] ident sa]; try discriminate; injection Q as <-; repeat constructor.
  - exact (lit_news x y Q).
  - pose proof (lit_news x) as K. pose proof (type_news t) as L. destruct (Literal_load x); [|discriminate]. destruct (Type_load t) as [[u|]|]; try discriminate.
    injection Q as <-. apply Forall_app. split; [exact (L _ eq_refl)|exact (K _ eq_refl)].
  - assert (A : forall vs, map_opt Literal_load elems = Some vs -> Forall (fun v => Forall fresh (lit_refs v)) vs).
    { intro vs. apply map_opt_Forall. clear -lit_news. induction elems as [|a r IH]; constructor; [exact (lit_news a)|exact IH]. }
    destruct (map_opt Literal_load elems) as [vs|]; [|discriminate]. injection Q as <-. apply Forall_concat_map. exact (A vs eq_refl).
  - discriminate.
  - discriminate.
Qed.

(** ** Items *)
Ltac step Q := match type of Q with
  | (match ?x with Some _ => _ | None => _ end) = _ => let E := fresh "E" in destruct x eqn:E; [|discriminate Q]
  | (match ?x with Ok _ => _ | Bad => _ | Crash => _ end) = _ => let E := fresh "E" in destruct x eqn:E; [|discriminate Q|discriminate Q]
  end.
Lemma output_news : forall o r, Type_load_from_output o = Some r -> news (fst r).
Proof.
  intros [u|] r Q; [|injection Q as <-; constructor]. unfold Type_load_from_output in Q. pose proof (type_news u) as K.
  destruct u; try (injection Q as <-; constructor); (destruct (Type_load _) as [[c|]|]; [| |discriminate]); injection Q as <-; try constructor; exact (K _ eq_refl).
Qed.
Lemma field_news : forall p f x, Field_load f p = Some (Some x) -> news (fd_ty x).
Proof.
  intros p f x Q. unfold Field_load in Q. pose proof (type_news (sf_ty f)) as K. destruct (Type_load (sf_ty f)) as [[t|]|]; try discriminate.
  step Q. step Q. injection Q as <-. apply self_news. exact (K _ eq_refl).
Qed.
Lemma fields_news : forall p l fs, try_skip_map (fun f => Field_load f p) l = Some fs -> fresh_fields fs.
Proof. intros p l fs. apply skip_map_Forall. apply Forall_forall. intros f _ x. apply field_news. Qed.
Lemma tuple_news : forall p l n fs, load_tuple_fields n p l = Some fs -> fresh_fields fs.
Proof.
  induction l as [|f l IH]; intros n fs Q; [injection Q as <-; constructor|]. cbn [load_tuple_fields] in Q. pose proof (type_news (sf_ty f)) as K.
  destruct (Type_load (sf_ty f)) as [[t|]|]; [|exact (IH _ _ Q)|discriminate]. step Q. step Q. injection Q as <-.
  constructor; [apply self_news; exact (K _ eq_refl)|eapply IH; eassumption].
Qed.
Lemma variant_fields_news : forall p i l n fs, load_variant_fields n p i l = Some fs -> fresh_fields fs.
Proof.
  induction l as [|f l IH]; intros n fs Q; [injection Q as <-; constructor|]. cbn [load_variant_fields] in Q. pose proof (type_news (sf_ty f)) as K.
  destruct (Type_load (sf_ty f)) as [[t|]|]; [|exact (IH _ _ Q)|discriminate]. step Q. step Q. injection Q as <-.
  constructor; [apply self_news; exact (K _ eq_refl)|eapply IH; eassumption].
Qed.
Lemma parse_fields_news : forall b p i l fs, parse_fields b p i l = Some fs -> fresh_fields fs.
Proof.
  intros b p i l fs Q. unfold parse_fields in Q. step Q. injection Q as <-. apply variant_fields_news in E. destruct b; [|exact E].
  constructor; [repeat constructor|exact E].
Qed.
Lemma params_news : forall l ps, GenericParams_load l = Some ps -> fresh_params ps.
Proof.
  intros l ps Q p a I D. revert ps Q I. assert (G : forall ps, GenericParams_load l = Some ps -> Forall (fun p => forall a, gp_default p = Some a -> Forall fresh (arg_refs a)) ps).
  { intro ps. apply skip_map_Forall. apply Forall_forall. clear. intros [i d| |i t d] _ y Q; cbn in Q; [|discriminate|].
    - destruct d as [t|]; [|injection Q as <-; discriminate]. pose proof (type_news t) as K. destruct (Type_load t) as [[c|]|]; try discriminate; injection Q as <-; intros a E; cbn in E; injection E as <-; cbn.
      + exact (K _ eq_refl).
      + constructor.
    - destruct (Type_load t) as [[c|]|]; try discriminate. destruct d as [e|]; [|injection Q as <-; discriminate]. pose proof (const_news e) as K.
      destruct (ConstExpr_load e) as [x|]; [|discriminate]. injection Q as <-. intros a E. cbn in E. injection E as <-. exact (K _ eq_refl). }
  intros ps Q I. specialize (G ps Q). rewrite Forall_forall in G. exact (G p I a D).
Qed.
Lemma struct_news : forall l a i g f m s, Struct_load l a i g f m = Some s -> fresh_struct s /\ s_has_tag_field s = false.
Proof.
  intros l a i g f m s Q. unfold Struct_load in Q. repeat step Q. injection Q as <-. split; [|reflexivity]. split; [reflexivity|].
  split; [eapply params_news; eassumption|]. split; [|constructor]. cbn [s_fields Struct_new].
  destruct f; [|eapply fields_news; eassumption|eapply tuple_news; eassumption].
  match goal with X : Some [] = Some _ |- _ => injection X as <- end. constructor.
Qed.
Lemma union_news : forall l a i g f m u, Union_load l a i g f m = Some u -> fresh_item (ICUnion u).
Proof.
  intros l a i g f m s Q. unfold Union_load in Q. step Q. destruct (negb _); [discriminate|]. repeat step Q. injection Q as <-.
  split; [reflexivity|]. split; [eapply params_news; eassumption|eapply fields_news; eassumption].
Qed.
Lemma typedef_news : forall a i g t m s, Typedef_load a i g t m = Some s -> fresh_item (ICTypedef s).
Proof.
  intros a i g t m s Q. unfold Typedef_load in Q. pose proof (type_news t) as K. destruct (Type_load t) as [[c|]|]; try discriminate.
  repeat step Q. injection Q as <-. split; [reflexivity|]. split; [eapply params_news; eassumption|exact (K _ eq_refl)].
Qed.
Lemma static_news : forall n a mu t m s, Static_load n a mu t m = Some s -> news (g_ty s).
Proof.
  intros n a mu t m s Q. unfold Static_load in Q. pose proof (type_news t) as K. destruct (Type_load t) as [[c|]|]; try discriminate.
  repeat step Q. injection Q as <-. exact (K _ eq_refl).
Qed.
Lemma opaque_news : forall i g a m o, OpaqueItem_load i g a m = Some o -> fresh_item (ICOpaque o).
Proof. intros i g a m o Q. unfold OpaqueItem_load in Q. step Q. injection Q as <-. reflexivity. Qed.
Lemma constant_news : forall n m t v a o c, Constant_load n m t v a o = Some (Some c) -> fresh_constant c.
Proof.
  intros n m t v a o c Q. unfold Constant_load in Q. pose proof (type_news t) as K. destruct (Type_load t) as [[u|]|]; try discriminate.
  pose proof (lit_news v) as L. destruct (Literal_load v) as [x|]; [|discriminate].
  destruct o as [s|]; step Q; injection Q as Q; unfold Constant_new in Q.
  - step Q. injection Q as <-. split; [apply self_news; exact (K _ eq_refl)|]. split; [apply lit_self_news; exact (L _ eq_refl)|discriminate].
  - subst c. split; [exact (K _ eq_refl)|]. split; [exact (L _ eq_refl)|reflexivity].
Qed.
Definition fresh_function (f : Function) : Prop := Forall (fun r => fresh (snd r)) (function_refs f).
Definition fresh_static (g : Static) : Prop := Forall (fun r => fresh (snd r)) (global_refs g).
Lemma under_news : forall ps l, Forall fresh l -> Forall (fun r => fresh (snd r)) (under ps l).
Proof. intros ps l F. unfold under. apply Forall_map. exact F. Qed.
Lemma argument_news : forall a x, as_argument a = Some (Some x) -> news (a_ty x).
Proof.
  intros a x Q. destruct a as [p t|r].
  - pose proof (type_news t) as K. cbn in Q. destruct (Type_load t) as [[u|]|]; try discriminate.
    repeat match type of Q with
           | (if ?b then _ else _) = _ => destruct b; try discriminate
           | (match ?b with _ => _ end) = _ => destruct b; try discriminate
           end; injection Q as <-; try exact (K _ eq_refl); constructor.
  - cbn in Q. step Q. injection Q as <-. cbn. unfold gen_self_type in E.
    destruct r as [m|rt| |]; cbn in E; try (injection E as <-; repeat constructor); try discriminate.
    pose proof (type_news rt) as K. destruct (Type_load rt) as [[u|]|]; [| |discriminate].
    + destruct rt; injection E as <-; exact (K _ eq_refl).
    + destruct rt; injection E as <-; repeat constructor.
Qed.
Lemma function_news : forall n s g e a m f, Function_load n s g e a m = Some f -> fresh_function f.
Proof.
  intros n s g e a m f Q. unfold Function_load in Q. step Q. step Q. step Q. injection Q as <-. apply under_news. cbn [f_ret f_args].
  assert (S0 : forall t, news t -> news (match s with Some p => replace_self_with p t | None => t end)) by (intros t N; destruct s; [apply self_news|]; exact N).
  apply Forall_app. split; [apply S0; eapply output_news; eassumption|]. rewrite map_map. apply Forall_concat_map.
  eapply Forall_impl; [intros x N; exact (S0 (a_ty x) N)|].
  assert (L : Forall (fun x => news (a_ty x)) l) by (eapply skip_map_Forall; [apply Forall_forall; intros x _ y; apply argument_news|exact E]).
  apply Forall_app. split; [exact L|]. destruct (sg_variadic g); repeat constructor.
Qed.
Section Enums.
  Context {H : Heck}.
  Definition fresh_variant (r : Repr) (gps : GenericParams) (v : EnumVariant) : Prop :=
    (forall n s i ic, v_body v = VBody n s i ic -> (fresh_struct s /\ s_has_tag_field s = inline_tag_field r) /\ s_generic_params s = gps)
    /\ (forall d, v_discriminant v = Some d -> Forall fresh (lit_refs d)).
  Lemma variant_news : forall c r v gps m p a x, fresh_params gps -> EnumVariant_load c (inline_tag_field r) v gps m p a = Ok x -> fresh_variant r gps x.
  Proof.
    intros c r v gps m p a x N Q. unfold EnumVariant_load in Q. step Q. step Q. step Q. step Q. injection Q as <-. split.
    - cbn [v_body EnumVariant_new]. intros n s i ic B. rewrite B in *.
      assert (G : forall fs ann, fresh_fields fs -> s = Struct_new (sv_ident v ++ "_Body") gps fs (inline_tag_field r) true None false None ann [] ->
        (fresh_struct s /\ s_has_tag_field s = inline_tag_field r) /\ s_generic_params s = gps).
      { intros fs ann F ->. split; [|reflexivity]. split; [|reflexivity]. split; [reflexivity|]. split; [exact N|]. split; [exact F|constructor]. }
      destruct (sv_fields v) as [|l|l]; [discriminate| |].
      all: match goal with X : match or_bad ?z with _ => _ end = _ |- _ => destruct z as [fs|] eqn:PF; [|discriminate X]; cbn [or_bad] in X end.
      all: match goal with X : Ok _ = Ok _ |- _ => injection X as X1 X2 X3 X4; subst; eapply (G fs); [eapply parse_fields_news; exact PF|reflexivity] end.
    - cbn [v_discriminant EnumVariant_new]. intros d ->. match goal with X : match sv_discriminant v with _ => _ end = _ |- _ => destruct (sv_discriminant v) as [e|]; [|discriminate X];
        pose proof (lit_news e) as K; destruct (Literal_load e) as [u|]; [|discriminate X]; injection X as <- end. apply lit_self_news. exact (K _ eq_refl).
  Qed.
  Lemma variants_news : forall c r vs gps m p a xs, fresh_params gps -> load_variants c (inline_tag_field r) vs gps m p a = Ok xs -> Forall (fresh_variant r gps) xs.
  Proof.
    intros c r vs. induction vs as [|v vs IH]; intros gps m p a xs N Q; cbn [load_variants] in Q; [injection Q as <-; constructor|]. step Q. step Q. injection Q as <-.
    constructor; [eapply variant_news; eassumption|eapply IH; eassumption].
  Qed.
  Definition fresh_bodies (e : Enum) : Prop := forall v n s i ic, In v (e_variants e) -> v_body v = VBody n s i ic -> s_generic_params s = e_generic_params e.
  Lemma enum_news : forall c a i g vs m e, Enum_load c a i g vs m = Ok e -> fresh_enum e /\ fresh_bodies e.
  Proof.
    intros c a i g vs m e Q. unfold Enum_load in Q. step Q. destruct (_ && _); [discriminate|]. destruct (is_some _); [discriminate|]. step Q. step Q. step Q. injection Q as <-.
    assert (N : fresh_params a1). { destruct (GenericParams_load g) eqn:G; [|discriminate]. injection E0 as <-. eapply params_news. exact G. }
    apply variants_news in E2; [|exact N].
    assert (F : Forall (fresh_variant a0 a1) (a3 ++ match an_list a2 "enum-trailing-values" with Some l => map (fun n => extra_variant n []) l | None => [] end
                  ++ (if add_sentinel (enumeration c) a2 then [extra_variant "Sentinel" [" Must be last for serialization purposes"]] else []))%list).
    { assert (X : forall n d, fresh_variant a0 a1 (extra_variant n d)) by (intros n d; split; discriminate).
      apply Forall_app. split; [exact E2|]. apply Forall_app. split; [destruct (an_list _ _); [apply Forall_map, Forall_forall; intros; apply X|constructor]|].
      destruct (add_sentinel _ _); [constructor; [apply X|constructor]|constructor]. }
    rewrite Forall_forall in F. split.
    - split; [reflexivity|]. split; [exact N|]. intros v I. destruct (F v I) as [A B]. split; [|exact B]. intros n s i0 ic X. exact (proj1 (A n s i0 ic X)).
    - intros v n s i0 ic I X. exact (proj2 (proj1 (F v I) n s i0 ic X)).
  Qed.
End Enums.

(** ** Tables *)
Record fresh_parse (p : Parse) : Prop := {
  fp_enums : wf (pr_enums p) /\ Forall (fun e => fresh_enum e /\ fresh_bodies e) (to_vec (pr_enums p));
  fp_structs : wf (pr_structs p) /\ Forall (fun s => fresh_struct s /\ s_has_tag_field s = false) (to_vec (pr_structs p));
  fp_unions : wf (pr_unions p) /\ Forall (fun u => fresh_item (ICUnion u)) (to_vec (pr_unions p));
  fp_opaque : wf (pr_opaque_items p) /\ Forall (fun o => fresh_item (ICOpaque o)) (to_vec (pr_opaque_items p));
  fp_typedefs : wf (pr_typedefs p) /\ Forall (fun t => fresh_item (ICTypedef t)) (to_vec (pr_typedefs p));
  fp_functions : Forall fresh_function (pr_functions p);
  fp_globals : wf (pr_globals p) /\ Forall fresh_static (to_vec (pr_globals p));
  fp_constants : wf (pr_constants p) /\ Forall fresh_constant (to_vec (pr_constants p)) }.
Section Tables.
  Context {T : Type} {I : Item T}.
  Variable P : T -> Prop.
  Definition holds_all (m : ItemMap T) : Prop := wf m /\ Forall P (to_vec m).
  Lemma holds_nil : holds_all []. Proof. split; [apply wf_nil|constructor]. Qed.
  Lemma holds_insert : forall x m, P x -> holds_all m -> holds_all (fst (try_insert x m)).
  Proof.
    intros x m X [W F]. split; [apply wf_insert; exact W|]. rewrite Forall_forall in *. intros y Y. apply insert_in in Y as [Y| ->]; auto.
  Qed.
  Lemma holds_extend : forall l m, Forall P l -> holds_all m -> holds_all (fold_left (fun a x => fst (try_insert x a)) l m).
  Proof. induction l as [|x l IH]; intros m F M; [exact M|]. inversion F; subst. cbn. apply IH; [assumption|]. apply holds_insert; assumption. Qed.
  Lemma holds_update : forall p f m, (forall x, same_key x (f x)) -> (forall x, P x -> P (f x)) -> holds_all m -> holds_all (for_items_mut p f m).
  Proof.
    intros p f m K S0 [W F]. pose proof (trel_at p f m) as R. split.
    - eapply wf_trel; [|exact W]. eapply trel_impl; [|exact R]. intros x y [-> | ->]; [split; reflexivity|apply K].
    - apply trel_to_vec in R. eapply Forall2_Forall; [|exact R|exact F]. intros x y [-> | ->] X; auto.
  Qed.
End Tables.
Lemma fresh_new : fresh_parse Parse_new.
Proof. constructor; try apply holds_nil. constructor. Qed.
Lemma fresh_std : fresh_parse (add_std_types Parse_new).
Proof.
  constructor; try apply holds_nil; [|constructor]. cbn [pr_opaque_items add_std_types with_opaque_items Parse_new].
  assert (G : forall l m, holds_all (fun o => fresh_item (ICOpaque o)) m -> holds_all (fun o => fresh_item (ICOpaque o))
    (fold_left (fun m t => fst (try_insert (OpaqueItem_new (fst t) (map type_param (snd t)) None AnnotationSet_new []) m)) l m)).
  { induction l as [|t l IH]; intros m M; [exact M|]. cbn [fold_left]. apply IH. apply holds_insert; [reflexivity|exact M]. }
  apply G. apply holds_nil.
Qed.
Lemma fresh_extend : forall p q, fresh_parse p -> fresh_parse q -> fresh_parse (Parse_extend_with p q).
Proof.
  intros p q [A1 A2 A3 A4 A5 A6 A7 A8] [B1 B2 B3 B4 B5 B6 B7 B8].
  constructor; cbn [Parse_extend_with pr_enums pr_structs pr_unions pr_opaque_items pr_typedefs pr_functions pr_globals pr_constants].
  6: { apply Forall_app. split; assumption. }
  all: unfold extend_with; match goal with |- wf ?m /\ Forall ?P _ => change (holds_all P m) end; apply holds_extend; first [assumption|eapply proj2; eassumption].
Qed.
Ltac whole := match goal with F : fresh_parse _ |- fresh_parse _ => destruct F; constructor; cbn [with_constants with_globals with_enums with_structs with_unions with_opaque_items
  with_typedefs push_function pr_enums pr_structs pr_unions pr_opaque_items pr_typedefs pr_functions pr_globals pr_constants]; try assumption end.
Lemma fresh_push : forall f p, fresh_function f -> fresh_parse p -> fresh_parse (push_function f p).
Proof. intros f p N F. whole. apply Forall_app. split; [assumption|repeat constructor; exact N]. Qed.
Section Loading.
  Context {H : Heck}.
  Variables (ld : loading) (mod_cfg : option Cfg).
  Lemma fn_fresh : forall self sig attrs p, fresh_parse p -> fresh_parse (load_fn_declaration ld mod_cfg self sig attrs p).
  Proof.
    intros self sig attrs p F. unfold load_fn_declaration. destruct (negb _); [exact F|]. destruct (_ || _); [|exact F].
    destruct (fn_exported_name _ _); [|exact F]. destruct (Function_load _ _ _ _ _ _) eqn:E; [|exact F]. apply fresh_push; [|exact F]. eapply function_news. exact E.
  Qed.
  Lemma foreign_fresh : forall cfg items p, fresh_parse p -> fresh_parse (load_foreign_items ld cfg items p).
  Proof.
    intros cfg. induction items as [|[[a s]|] r IH]; intros p F; [exact F| |apply IH; exact F]. cbn [load_foreign_items]. destruct (negb _); [exact F|]. apply IH.
    destruct (Function_load _ _ _ _ _ _) eqn:E; [|exact F]. apply fresh_push; [|exact F]. eapply function_news. exact E.
  Qed.
  Lemma methods_fresh : forall t items p, fresh_parse p -> fresh_parse (load_methods ld mod_cfg t items p).
  Proof.
    intros t items p F. unfold load_methods. destruct (bare_ident t); [|exact F]. revert p F. induction items as [|x r IH]; intros p F; [exact F|]. cbn [fold_left]. apply IH.
    destruct x; try exact F. destruct (should_skip_parsing _); [exact F|]. apply fn_fresh. exact F.
  Qed.
  Lemma assoc_fresh : forall path items p q, fresh_parse p -> load_assoc_consts mod_cfg path items p = Some q -> fresh_parse q.
  Proof.
    intros path. induction items as [|x r IH]; intros p q F Q; [injection Q as <-; exact F|]. destruct x as [a pub i t v|a pub s|]; cbn [load_assoc_consts] in Q; try (exact (IH _ _ F Q)).
    destruct (should_skip_parsing a); [exact (IH _ _ F Q)|]. destruct (negb pub); [injection Q as <-; exact F|].
    destruct (Constant_load _ _ _ _ _ _) as [[c|]|] eqn:E; [|discriminate|exact (IH _ _ F Q)]. apply constant_news in E. eapply IH; [|exact Q].
    destruct (get_items path (pr_structs p)) as [[|]|]; whole.
    - apply (holds_insert fresh_constant); assumption.
    - apply (holds_update (fun s => fresh_struct s /\ s_has_tag_field s = false)); [split; reflexivity| |assumption].
      intros y ((Y1 & Y2 & Y3 & Y4) & Y5). split; [|exact Y5]. split; [exact Y1|]. split; [exact Y2|]. split; [exact Y3|]. cbn. apply Forall_app. split; [exact Y4|repeat constructor; apply E].
    - apply (holds_insert fresh_constant); assumption.
  Qed.
  Lemma impl_fresh : forall t items p q, fresh_parse p -> load_syn_assoc_consts_from_impl mod_cfg t items p = Some q -> fresh_parse q.
  Proof.
    intros t items p q F Q. unfold load_syn_assoc_consts_from_impl in Q. destruct (Type_load t) as [[u|]|]; try (injection Q as <-; exact F).
    destruct (get_root_path u); [|injection Q as <-; exact F]. exact (assoc_fresh _ _ _ _ F Q).
  Qed.
  Lemma opaque_fresh : forall i g a p q, fresh_parse p -> load_opaque i g a mod_cfg p = Some q -> fresh_parse q.
  Proof.
    intros i g a p q F Q. unfold load_opaque in Q. step Q. injection Q as <-. apply opaque_news in E. whole. apply (holds_insert (fun o => fresh_item (ICOpaque o))); assumption.
  Qed.
  Lemma struct_fresh : forall a i g f p q, fresh_parse p -> load_syn_struct ld mod_cfg a i g f p = Some q -> fresh_parse q.
  Proof.
    intros a i g f p q F Q. unfold load_syn_struct in Q. destruct (Struct_load _ _ _ _ _ _) eqn:E; [|exact (opaque_fresh _ _ _ _ _ F Q)]. injection Q as <-. apply struct_news in E.
    whole. apply (holds_insert (fun s => fresh_struct s /\ s_has_tag_field s = false)); assumption.
  Qed.
  Lemma macro_fresh : forall name b p q, fresh_parse p -> load_builtin_macro ld mod_cfg name b p = Some q -> fresh_parse q.
  Proof.
    intros name b p q F Q. unfold load_builtin_macro in Q. destruct (_ || _); [injection Q as <-; exact F|]. destruct b as [b|]; [|injection Q as <-; exact F].
    destruct (expand b _) as [str consts]. step Q. eapply impl_fresh; [|exact Q].
    assert (G : fresh_parse p0) by (destruct str as [[at_ fields]|]; [exact (struct_fresh _ _ _ _ _ _ F E)|injection E as <-; exact F]).
    clear - G. whole. apply (holds_update (fun s => fresh_struct s /\ s_has_tag_field s = false)); [split; reflexivity| |assumption].
    intros y Y. exact Y.
  Qed.
  Lemma item_fresh : forall i p q, fresh_parse p -> load_item ld mod_cfg p i = Some q -> fresh_parse q.
  Proof.
    intros i p q F Q. unfold load_item in Q. destruct (should_skip_parsing _); [injection Q as <-; exact F|].
    destruct i as [a abi items|a pub s|a pub i t v|a i mu t|a i g f|a i g f|a i g vs|a i g t|a t items|a i c|a n b|a].
    all: try (injection Q as <-; try exact F).
    - unfold load_syn_foreign_mod. destruct (_ && _); [exact F|]. apply foreign_fresh. exact F.
    - apply fn_fresh. exact F.
    - unfold load_syn_const in Q. destruct (negb (top_level ld)); [injection Q as <-; exact F|]. destruct (negb pub); [injection Q as <-; exact F|].
      destruct (Constant_load _ _ _ _ _ _) as [[c|]|] eqn:E; [|discriminate|injection Q as <-; exact F]. injection Q as <-. apply constant_news in E. whole.
      apply (holds_insert fresh_constant); assumption.
    - unfold load_syn_static. destruct (negb (top_level ld)); [exact F|]. destruct (static_exported_name _ _); [|exact F]. destruct (Static_load _ _ _ _ _) eqn:E; [|exact F].
      apply static_news in E. whole. apply (holds_insert fresh_static); [|assumption]. apply under_news. exact E.
    - exact (struct_fresh _ _ _ _ _ _ F Q).
    - unfold load_syn_union in Q. destruct (Union_load _ _ _ _ _ _) eqn:E; [|exact (opaque_fresh _ _ _ _ _ F Q)]. injection Q as <-. apply union_news in E. whole.
      apply (holds_insert (fun o => fresh_item (ICUnion o))); assumption.
    - unfold load_syn_enum in Q. destruct (Enum_load _ _ _ _ _ _) eqn:E; [|exact (opaque_fresh _ _ _ _ _ F Q)|discriminate]. injection Q as <-. apply enum_news in E. whole.
      apply (holds_insert (fun e => fresh_enum e /\ fresh_bodies e)); assumption.
    - unfold load_syn_ty in Q. destruct (Typedef_load _ _ _ _ _) eqn:E; [|exact (opaque_fresh _ _ _ _ _ F Q)]. injection Q as <-. apply typedef_news in E. whole.
      apply (holds_insert (fun o => fresh_item (ICTypedef o))); assumption.
    - apply methods_fresh. exact F.
    - exact (macro_fresh _ _ _ _ F Q).
  Qed.
  Lemma all_fresh : forall A (f : Parse -> A -> option Parse) l p q, (forall x p q, fresh_parse p -> f p x = Some q -> fresh_parse q) ->
    fresh_parse p -> load_all f l p = Some q -> fresh_parse q.
  Proof.
    intros A f l. induction l as [|x l IH]; intros p q K F Q; cbn [load_all] in Q; [injection Q as <-; exact F|]. step Q. eapply IH; [exact K| |exact Q]. eapply K; eassumption.
  Qed.
  Lemma module_fresh : forall items p q, fresh_parse p -> load_syn_crate_mod ld mod_cfg items p = Some q -> fresh_parse q.
  Proof.
    intros items p q F Q. unfold load_syn_crate_mod in Q. step Q. eapply all_fresh; [| |exact Q].
    - intros [t l] p1 p2. apply impl_fresh.
    - eapply all_fresh; [|exact F|exact E]. intros x p1 p2. apply item_fresh.
  Qed.
End Loading.
Section Whole.
  Context {H : Heck}.
  Lemma visits_fresh : forall ld vs p q, fresh_parse p -> load_visits ld vs p = Some q -> fresh_parse q.
  Proof. intros ld vs p q. apply all_fresh. intros v p1 p2. apply module_fresh. Qed.
  Lemma src_fresh : forall d bitflags mfuel file c o, parse_src d bitflags mfuel file c = Parsed o -> fresh_parse (fst o).
  Proof.
    intros d bitflags mfuel file c o Q. unfold parse_src in Q. match type of Q with match ?x with _ => _ end = _ => destruct x as [s| | |] eqn:E; try discriminate Q end.
    injection Q as <-. apply parse_mod_sound in E as (vs & out & _ & L & ->). cbn [fst ps_out shift]. eapply visits_fresh; [|exact L]. exact fresh_new.
  Qed.
  Lemma srcs_fresh : forall d c bitflags mfuel files r s, fresh_parse (fst r) -> parse_srcs d c bitflags mfuel files r = Parsed s -> fresh_parse (fst s).
  Proof.
    intros d c bitflags mfuel files. induction files as [|f rest IH]; intros r s F Q; cbn [parse_srcs] in Q; [injection Q as <-; exact F|].
    destruct (parse_src _ _ _ _ _) as [o| | |] eqn:E; try discriminate Q. eapply IH; [|exact Q]. apply fresh_extend; [eapply src_fresh; exact E|exact F].
  Qed.
  Lemma lib_fresh : forall d cargo c bitflags mfuel fuel o, parse_lib d cargo c bitflags mfuel fuel = Parsed o -> fresh_parse (fst (fst o)).
  Proof.
    intros d cargo c bitflags mfuel fuel o Q. unfold parse_lib in Q. destruct (binding_crate_ref cargo) as [p|]; [|discriminate].
    destruct (parse_crate _ _ _ _ _ _ _ _) as [s| | |] eqn:E; try discriminate Q. destruct (pk_version p); [|discriminate]. injection Q as <-.
    destruct (crate_sound d cargo c bitflags mfuel fuel p state_new s E ltac:(intros [])) as (rs & out & _ & L & ->). cbn [fst].
    change (ps_out (read rs out state_new)) with out. eapply all_fresh; [|exact fresh_new|exact L]. intros r p1 p2. apply visits_fresh.
  Qed.
  Theorem parsed_fresh : forall d c bitflags mfuel fuel std srcs lib l, parse_all d c bitflags mfuel fuel std srcs lib = Parsed l -> as_loaded l /\ bodies_as_enums l.
  Proof.
    intros d c bitflags mfuel fuel std srcs lib l Q. unfold parse_all in Q.
    destruct (parse_srcs _ _ _ _ _ _) as [r| | |] eqn:E; try discriminate Q. apply srcs_fresh in E; [|cbn [fst]; destruct std; [exact fresh_std|exact fresh_new]].
    match type of Q with match ?x with _ => _ end = _ => destruct x as [rv| | |] eqn:E2; try discriminate Q end.
    assert (F : fresh_parse (fst (fst rv))).
    { destruct lib as [cargo|]; [|injection E2 as <-; exact E]. destruct (parse_lib _ _ _ _ _ _) as [o| | |] eqn:E3; try discriminate E2. apply lib_fresh in E3.
      destruct o as [[p sources] v]. injection E2 as <-. cbn [fst]. apply fresh_extend; assumption. }
    destruct rv as [[p sources] v]. injection Q as <-. cbn [fst] in F. destruct F as [A1 A2 A3 A4 A5 A6 A7 A8]. split.
    - constructor; cbn.
      + constructor; cbn; apply reachable_wf; eapply proj1; eassumption.
      + unfold defined. cbn. repeat (apply Forall_app; split); apply Forall_map.
        * eapply Forall_impl; [|apply (proj2 A1)]. intros e X. exact (proj1 X).
        * eapply Forall_impl; [|apply (proj2 A2)]. intros e X. exact (proj1 X).
        * exact (proj2 A3).
        * exact (proj2 A4).
        * exact (proj2 A5).
      + eapply Forall_impl; [|apply (proj2 A2)]. intros e X. exact (proj2 X).
      + exact A6.
      + exact (proj2 A7).
      + exact (proj2 A8).
    - intros e v0 n s i ic I. unfold defined in I. cbn in I. rewrite !in_app_iff, !in_map_iff in I.
      destruct I as [(x & X & I)|[(x & X & _)|[(x & X & _)|[(x & X & _)|(x & X & _)]]]]; try discriminate. injection X as <-.
      destruct A1 as [_ A1]. rewrite Forall_forall in A1. exact (proj2 (A1 x I) v0 n s i ic).
  Qed.
End Whole.
