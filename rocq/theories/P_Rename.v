(** Proofs about the rename rules, for the ASCII case conversions of [S_Heck]. *)
Require Import Coq.Strings.String Coq.Strings.Ascii Coq.Lists.List Coq.Bool.Bool.
From Verif Require Import Base P_Base M_Config S_Heck S_Rename.
Import ListNotations.
Open Scope string_scope.

Definition plain (a : ascii) : bool := small a || digit a.
Lemma chars : forall a,
  (small a = true -> is_lower a = true /\ is_upper (large a) = true /\ lower (large a) = a /\ upper (large a) = large a /\ Ascii.eqb (large a) "_" = false)
  /\ (plain a = true -> is_alnum a = true /\ is_upper a = false /\ lower a = a /\ upper a = large a /\ mode_after MLower a = MLower /\ is_mupper (mode_after MBoundary a) = false)
  /\ (is_upper a = true -> is_alnum a = true).
Proof. intros [[] [] [] [] [] [] [] []]; vm_compute; (split; [|split]); intro; try discriminate; repeat split; reflexivity. Qed.
Lemma plain_lower a : plain a = true -> lower a = a. Proof. intro P. apply (proj1 (proj2 (chars a)) P). Qed.
Lemma plain_alnum a : plain a = true -> is_alnum a = true. Proof. intro P. apply (proj1 (proj2 (chars a)) P). Qed.
Lemma plain_upper a : plain a = true -> is_upper a = false. Proof. intro P. apply (proj1 (proj2 (chars a)) P). Qed.
Lemma plain_large a : plain a = true -> upper a = large a. Proof. intro P. apply (proj1 (proj2 (chars a)) P). Qed.
Lemma plain_after m a : plain a = true -> is_mupper m = false -> is_mupper (mode_after m a) = false.
Proof. intros P M. destruct m; [apply (proj1 (proj2 (chars a)) P)| |discriminate]. destruct (proj1 (proj2 (chars a)) P) as (_ & _ & _ & _ & -> & _). reflexivity. Qed.

(** ** Words between underscores *)
Lemma run_end s : forall m w, s <> "" -> all_chars plain s = true -> is_mupper m = false -> words_of m w s = [w ++ s].
Proof.
  induction s as [|a s IH]; intros m w N P M; [congruence|]. cbn [all_chars] in P. apply andb_true_iff in P as [A P]. cbn [words_of]. rewrite (plain_alnum a A). cbn [negb].
  destruct s as [|b s]; [reflexivity|]. pose proof P as Q. cbn [all_chars] in Q. apply andb_true_iff in Q as [B _].
  rewrite (plain_alnum b B), (plain_upper b B), andb_false_r, M. cbn [andb]. rewrite IH; [|discriminate|exact P|apply plain_after; assumption].
  rewrite sapp_assoc. reflexivity.
Qed.
Lemma run_next s r : forall m w, s <> "" -> all_chars plain s = true -> is_mupper m = false -> words_of m w (s ++ "_" ++ r) = (w ++ s) :: words_of MBoundary "" r.
Proof.
  induction s as [|a s IH]; intros m w N P M; [congruence|]. cbn [all_chars] in P. apply andb_true_iff in P as [A P]. 
  destruct s as [|b s].
  - change ((String a "" ++ "_" ++ r)) with (String a (String "_" r)). cbn [words_of]. rewrite (plain_alnum a A). cbn [negb].
    change (is_alnum "_") with false. cbn [negb]. destruct w; reflexivity.
  - pose proof P as Q. cbn [all_chars] in Q. apply andb_true_iff in Q as [B _].
    change (words_of m w (String a (String b s) ++ "_" ++ r)) with
      (if negb (is_alnum a) then (if String.eqb w "" then words_of MBoundary "" (String b s ++ "_" ++ r) else w :: words_of MBoundary "" (String b s ++ "_" ++ r))
       else if is_alnum b then
              if is_mlower (mode_after m a) && is_upper b then (w ++ String a "") :: words_of MBoundary "" (String b s ++ "_" ++ r)
              else if is_mupper m && is_upper a && is_lower b then (if String.eqb w "" then words_of MBoundary (String a "") (String b s ++ "_" ++ r) else w :: words_of MBoundary (String a "") (String b s ++ "_" ++ r))
              else words_of (mode_after m a) (w ++ String a "") (String b s ++ "_" ++ r)
            else words_of m (w ++ String a "") (String b s ++ "_" ++ r)).
    rewrite (plain_alnum a A), (plain_alnum b B), (plain_upper b B), andb_false_r, M. cbn [negb andb].
    rewrite IH; [|discriminate|exact P|apply plain_after; assumption]. rewrite sapp_assoc. reflexivity.
Qed.
Lemma snake_words ws : Forall word ws -> words (my_arg ws) = ws.
Proof.
  unfold words, my_arg. induction 1 as [|w r [N P] F IH]; [reflexivity|]. destruct r as [|v r].
  - cbn [String.concat]. rewrite run_end; auto.
  - change (String.concat "_" (w :: v :: r)) with (w ++ "_" ++ String.concat "_" (v :: r)). rewrite run_next; auto. rewrite IH. reflexivity.
Qed.

(** ** Words with capitals *)
Lemma tail_end s : forall m w, s <> "" -> all_chars plain s = true -> (is_mupper m = false \/ match s with String a _ => small a = true | "" => False end) -> words_of m w s = [w ++ s].
Proof.
  intros m w N P M. destruct s as [|a s]; [congruence|]. destruct M as [M|M]; [apply run_end; assumption|].
  cbn [all_chars] in P. apply andb_true_iff in P as [A P]. cbn [words_of]. rewrite (plain_alnum a A). cbn [negb]. destruct s as [|b s]; [reflexivity|].
  pose proof P as Q. cbn [all_chars] in Q. apply andb_true_iff in Q as [B _].
  rewrite (plain_alnum b B), (plain_upper b B), (plain_upper a A), !andb_false_r. cbn [andb].
  rewrite run_end; [rewrite sapp_assoc; reflexivity|discriminate|exact P|]. unfold mode_after. destruct (proj1 (chars a) M) as (-> & _). reflexivity.
Qed.
Definition capital_first (r : string) : Prop := match r with "" => False | String u _ => is_upper u = true end.
(** One step of [words_of] in front of another letter or digit *)
Lemma step m w a b s : is_alnum a = true -> is_alnum b = true ->
  words_of m w (String a (String b s)) =
  if is_mlower (mode_after m a) && is_upper b then (w ++ String a "") :: words_of MBoundary "" (String b s)
  else if is_mupper m && is_upper a && is_lower b
       then (if String.eqb w "" then words_of MBoundary (String a "") (String b s) else w :: words_of MBoundary (String a "") (String b s))
       else words_of (mode_after m a) (w ++ String a "") (String b s).
Proof. intros A B. change (words_of m w (String a (String b s))) with
      (if negb (is_alnum a) then (if String.eqb w "" then words_of MBoundary "" (String b s) else w :: words_of MBoundary "" (String b s))
       else if is_alnum b then
              if is_mlower (mode_after m a) && is_upper b then (w ++ String a "") :: words_of MBoundary "" (String b s)
              else if is_mupper m && is_upper a && is_lower b then (if String.eqb w "" then words_of MBoundary (String a "") (String b s) else w :: words_of MBoundary (String a "") (String b s))
              else words_of (mode_after m a) (w ++ String a "") (String b s)
            else words_of m (w ++ String a "") (String b s)).
  rewrite A, B. reflexivity. Qed.
Lemma low_next s r : forall w, s <> "" -> all_chars plain s = true -> capital_first r -> words_of MLower w (s ++ r) = (w ++ s) :: words_of MBoundary "" r.
Proof.
  induction s as [|a s IH]; intros w N P C; [congruence|]. cbn [all_chars] in P. apply andb_true_iff in P as [A P].
  pose proof (proj1 (proj2 (chars a)) A) as (_ & _ & _ & _ & ML & _).
  destruct s as [|b s].
  - destruct r as [|u r]; [destruct C|]. cbn [capital_first] in C. change (String a "" ++ String u r) with (String a (String u r)).
    rewrite step; [|apply plain_alnum, A|apply (proj2 (proj2 (chars u)) C)]. rewrite ML, C. reflexivity.
  - pose proof P as Q. cbn [all_chars] in Q. apply andb_true_iff in Q as [B _].
    change (String a (String b s) ++ r) with (String a (String b (s ++ r))). rewrite step; [|apply plain_alnum, A|apply plain_alnum, B].
    rewrite ML, (plain_upper b B). cbn [is_mlower is_mupper andb]. change (String b (s ++ r)) with (String b s ++ r). rewrite IH; [|discriminate|exact P|exact C]. rewrite sapp_assoc. reflexivity.
Qed.
Lemma type_next w r : type_word w -> capital_first r -> words_of MBoundary "" (with_capital w ++ r) = with_capital w :: words_of MBoundary "" r.
Proof.
  intros (a & b & s & -> & A & B & P) C. cbn [with_capital].
  pose proof (proj1 (chars a) A) as (_ & UA & _). pose proof (proj1 (chars b) B) as (LB & _).
  assert (PB : plain b = true) by (unfold plain; rewrite B; reflexivity).
  assert (MA : mode_after MBoundary (large a) = MUpper) by (unfold mode_after; rewrite UA; destruct (is_lower (large a)) eqn:L; [|reflexivity]; exfalso; clear - UA L; revert UA L; generalize (large a); intros [[] [] [] [] [] [] [] []]; vm_compute; discriminate).
  change (String (large a) (String b s) ++ r) with (String (large a) (String b (s ++ r))).
  rewrite step; [|apply (proj2 (proj2 (chars _)) UA)|apply plain_alnum, PB]. rewrite MA. cbn [is_mlower is_mupper andb].
  assert (MB : mode_after MUpper b = MLower) by (unfold mode_after; rewrite LB; reflexivity).
  change ("" ++ String (large a) "") with (String (large a) "").
  destruct s as [|c s].
  - destruct r as [|u r]; [destruct C|]. cbn [capital_first] in C. change ("" ++ String u r) with (String u r).
    rewrite step; [|apply plain_alnum, PB|apply (proj2 (proj2 (chars u)) C)]. rewrite MB, C. reflexivity.
  - pose proof P as Q. cbn [all_chars] in Q. apply andb_true_iff in Q as [PC _].
    change (String c s ++ r) with (String c (s ++ r)). rewrite step; [|apply plain_alnum, PB|apply plain_alnum, PC]. rewrite MB, (plain_upper b PB), (plain_upper c PC). cbn [is_mlower is_mupper andb].
    change (String c (s ++ r)) with (String c s ++ r). rewrite low_next; [reflexivity|discriminate|exact P|exact C].
Qed.
Lemma type_end w : type_word w -> words_of MBoundary "" (with_capital w) = [with_capital w].
Proof.
  intros (a & b & s & -> & A & B & P). cbn [with_capital].
  pose proof (proj1 (chars a) A) as (_ & UA & _). assert (PB : plain b = true) by (unfold plain; rewrite B; reflexivity).
  rewrite step; [|apply (proj2 (proj2 (chars _)) UA)|apply plain_alnum, PB]. rewrite (plain_upper b PB), andb_false_r. cbn [is_mupper andb].
  rewrite tail_end; [reflexivity|discriminate| |right; exact B]. cbn [all_chars]. rewrite PB. exact P.
Qed.
Lemma MyArg_cons w v r : MyArg (w :: v :: r) = with_capital w ++ MyArg (v :: r). Proof. reflexivity. Qed.
Lemma pascal_words ws : Forall type_word ws -> words (MyArg ws) = map with_capital ws.
Proof.
  unfold words. induction 1 as [|w r T F IH]; [reflexivity|]. destruct r as [|v r].
  - apply type_end, T.
  - rewrite MyArg_cons, type_next; [rewrite IH; reflexivity|exact T|]. inversion F as [|? ? (a & b & s & -> & A & _) _]; subst.
    unfold MyArg. cbn [map with_capital]. destruct r; cbn [map String.concat String.append capital_first]; apply (proj1 (chars a) A).
Qed.

(** ** The conversions *)
Lemma join_is sep l : join sep l = String.concat sep l. Proof. reflexivity. Qed.
Lemma smap_lower s : all_chars plain s = true -> smap lower s = s.
Proof. induction s as [|a s IH]; [reflexivity|]. cbn. intro P. apply andb_true_iff in P as [A P]. rewrite plain_lower, IH; auto. Qed.
Lemma smap_upper s : all_chars plain s = true -> smap upper s = each_char large s.
Proof. induction s as [|a s IH]; [reflexivity|]. cbn. intro P. apply andb_true_iff in P as [A P]. rewrite plain_large, IH; auto. Qed.
Lemma word_capital w : word w -> capitalize w = with_capital w.
Proof. intros [N P]. destruct w as [|a s]; [reflexivity|]. cbn in P |- *. apply andb_true_iff in P as [A P]. rewrite plain_large, smap_lower; auto. Qed.
Lemma type_is_word w : type_word w -> word w.
Proof. intros (a & b & s & -> & A & B & P). split; [discriminate|]. cbn [all_chars]. rewrite A, B, P. reflexivity. Qed.
Lemma type_lower w : type_word w -> smap lower (with_capital w) = w.
Proof. intros (a & b & s & -> & A & B & P). cbn. pose proof (proj1 (chars a) A) as (_ & _ & -> & _). rewrite plain_lower, smap_lower; [reflexivity|exact P|unfold plain; rewrite B; reflexivity]. Qed.
Lemma type_upper w : type_word w -> smap upper (with_capital w) = each_char large w.
Proof. intros (a & b & s & -> & A & B & P). cbn. pose proof (proj1 (chars a) A) as (_ & _ & _ & -> & _). rewrite plain_large, smap_upper; [reflexivity|exact P|unfold plain; rewrite B; reflexivity]. Qed.
Lemma type_capital w : type_word w -> capitalize (with_capital w) = with_capital w.
Proof. intros (a & b & s & -> & A & B & P). cbn. pose proof (proj1 (chars a) A) as (_ & _ & _ & -> & _). rewrite plain_lower, smap_lower; [reflexivity|exact P|unfold plain; rewrite B; reflexivity]. Qed.
Lemma map_same {A B} (f g : A -> B) (Q : A -> Prop) l : (forall a, Q a -> f a = g a) -> Forall Q l -> map f l = map g l.
Proof. intros E F. induction F; cbn; [reflexivity|]. rewrite E, IHF; auto. Qed.
Lemma smap_app f s t : smap f (s ++ t) = smap f s ++ smap f t. Proof. induction s; cbn; congruence. Qed.
Lemma smap_concat f sep l : smap f (String.concat sep l) = String.concat (smap f sep) (map (smap f) l).
Proof. induction l as [|a [|b l] IH]; [reflexivity|reflexivity|]. change (String.concat sep (a :: b :: l)) with (a ++ sep ++ String.concat sep (b :: l)). rewrite !smap_app, IH. reflexivity. Qed.
Lemma my_arg_some ws : ws <> [] -> Forall word ws -> String.eqb (my_arg ws) "" = false.
Proof. intros N F. destruct F as [|w r [E _] F]; [congruence|]. destruct w; [congruence|]. unfold my_arg. destruct r; reflexivity. Qed.
Lemma MyArg_some ws : ws <> [] -> Forall type_word ws -> String.eqb (MyArg ws) "" = false.
Proof. intros N F. destruct F as [|w r (a & b & s & -> & _) F]; [congruence|]. unfold MyArg. destruct r; reflexivity. Qed.

Definition not_variant (k : IdentifierType) : Prop := match k with IEnumVariant _ => False | _ => True end.
Theorem member_renamed r k ws : ws <> [] -> Forall word ws -> not_variant k ->
  RenameRule_apply (H := ascii_heck) r (my_arg ws) k = of_member r k ws.
Proof.
  intros N F K. unfold RenameRule_apply. rewrite my_arg_some; [|exact N|exact F].
  assert (CAP : map capitalize ws = map with_capital ws) by (apply (map_same _ _ word); [apply word_capital|exact F]).
  assert (LOW : map (smap lower) ws = ws) by (rewrite <- (map_id ws) at 2; apply (map_same _ _ word); [intros w [_ P]; apply smap_lower, P|exact F]).
  assert (UP : map (smap upper) ws = map (each_char large) ws) by (apply (map_same _ _ word); [intros w [_ P]; apply smap_upper, P|exact F]).
  destruct r; cbn [of_member to_upper_camel_case to_pascal_case to_lower_camel_case to_snake_case to_shouty_snake_case to_lowercase to_uppercase ascii_heck]; rewrite ?snake_words, ?join_is by exact F.
  - reflexivity.
  - rewrite CAP. destruct k; try destruct K; reflexivity.
  - unfold my_arg. rewrite smap_concat, LOW. reflexivity.
  - unfold my_arg. rewrite smap_concat, UP. reflexivity.
  - rewrite CAP. reflexivity.
  - destruct F as [|w l [_ P] F]; [congruence|]. cbn [myArg]. rewrite smap_lower by exact P. rewrite join_is. unfold MyArg. cbn [map] in CAP. injection CAP as _ ->. reflexivity.
  - rewrite LOW. reflexivity.
  - rewrite UP. reflexivity.
  - rewrite UP. destruct k; try destruct K; reflexivity.
  - reflexivity.
Qed.
Theorem variant_renamed r enum ws : enum <> [] -> Forall type_word enum -> ws <> [] -> Forall type_word ws ->
  RenameRule_apply (H := ascii_heck) r (MyArg ws) (IEnumVariant (MyArg enum)) = of_variant r enum ws.
Proof.
  intros NE FE N F. unfold RenameRule_apply. rewrite !MyArg_some by assumption.
  assert (CAP : forall l, Forall type_word l -> map capitalize (map with_capital l) = map with_capital l) by (intros l G; rewrite map_map; apply (map_same _ _ type_word); [apply type_capital|exact G]).
  assert (LOW : forall l, Forall type_word l -> map (smap lower) (map with_capital l) = l) by (intros l G; rewrite map_map; rewrite <- (map_id l) at 2; apply (map_same _ _ type_word); [apply type_lower|exact G]).
  assert (UP : forall l, Forall type_word l -> map (smap upper) (map with_capital l) = map (each_char large) l) by (intros l G; rewrite map_map; apply (map_same _ _ type_word); [apply type_upper|exact G]).
  destruct r; cbn [of_variant to_upper_camel_case to_pascal_case to_lower_camel_case to_snake_case to_shouty_snake_case to_lowercase to_uppercase ascii_heck]; rewrite ?pascal_words, ?join_is by assumption.
  - reflexivity.
  - rewrite CAP by exact F. reflexivity.
  - unfold MyArg. rewrite smap_concat, LOW by exact F. reflexivity.
  - unfold MyArg. rewrite smap_concat, UP by exact F. reflexivity.
  - rewrite CAP by exact F. reflexivity.
  - destruct F as [|w l T F]; [congruence|]. cbn [myArg map]. rewrite type_lower by exact T. rewrite join_is, CAP by exact F. reflexivity.
  - rewrite LOW by exact F. reflexivity.
  - rewrite UP by exact F. reflexivity.
  - rewrite !UP by assumption. unfold MY_ARG. rewrite sapp_assoc. reflexivity.
  - reflexivity.
Qed.

(** ** Any name *)
Lemma little_is a : little a = (if is_alnum a then Some (lower a) else None) /\ little (lower a) = little a /\ little (upper a) = little a.
Proof. destruct a as [[] [] [] [] [] [] [] []]; vm_compute; repeat split. Qed.
Lemma letters_app s t : letters (s ++ t) = letters s ++ letters t.
Proof. induction s as [|a s IH]; [reflexivity|]. cbn. rewrite IH. destruct (little a); reflexivity. Qed.
Lemma letters_lower s : letters (smap lower s) = letters s.
Proof. induction s as [|a s IH]; [reflexivity|]. cbn. rewrite (proj1 (proj2 (little_is a))), IH. reflexivity. Qed.
Lemma letters_upper s : letters (smap upper s) = letters s.
Proof. induction s as [|a s IH]; [reflexivity|]. cbn. rewrite (proj2 (proj2 (little_is a))), IH. reflexivity. Qed.
Lemma letters_cap s : letters (capitalize s) = letters s.
Proof. destruct s as [|a s]; [reflexivity|]. cbn. rewrite (proj2 (proj2 (little_is a))), letters_lower. reflexivity. Qed.
Fixpoint all_letters (l : list string) : string := match l with [] => "" | w :: r => letters w ++ all_letters r end.
Lemma letters_concat sep l : letters sep = "" -> letters (String.concat sep l) = all_letters l.
Proof. intro E. induction l as [|a [|b l] IH]; [reflexivity|cbn; rewrite sapp_nil_r; reflexivity|]. change (String.concat sep (a :: b :: l)) with (a ++ sep ++ String.concat sep (b :: l)). rewrite !letters_app, E, IH. reflexivity. Qed.
Lemma all_letters_map f l : (forall s, letters (f s) = letters s) -> all_letters (map f l) = all_letters l.
Proof. intro E. induction l; cbn; [reflexivity|]. rewrite E, IHl. reflexivity. Qed.
Lemma letters_words s : forall m w, all_letters (words_of m w s) = letters w ++ letters s.
Proof.
  assert (FL : forall w l, all_letters (if String.eqb w "" then l else w :: l) = letters w ++ all_letters l)
    by (intros w l; destruct (String.eqb_spec w ""); [subst|]; reflexivity).
  induction s as [|a s IH]; intros m w; cbn [words_of].
  - rewrite FL. reflexivity.
  - assert (ONE : forall t, is_alnum a = true -> letters (w ++ String a "") ++ t = letters w ++ letters (String a "") ++ t) by (intros; rewrite letters_app, sapp_assoc; reflexivity).
    assert (CONS : letters (String a s) = letters (String a "") ++ letters s) by (rewrite <- letters_app; reflexivity). rewrite CONS.
    destruct (is_alnum a) eqn:A; cbn [negb].
    + destruct s as [|b s]; [cbn [all_letters]; rewrite letters_app, sapp_nil_r; cbn [letters]; rewrite sapp_nil_r; reflexivity|].
      destruct (is_alnum b); [destruct (is_mlower (mode_after m a) && is_upper b); [|destruct (is_mupper m && is_upper a && is_lower b)]|].
      * cbn [all_letters]. rewrite IH, ONE by reflexivity. reflexivity.
      * rewrite FL, IH. reflexivity.
      * rewrite IH, ONE by reflexivity. reflexivity.
      * rewrite IH, ONE by reflexivity. reflexivity.
    + rewrite FL, IH. replace (letters (String a "")) with "" by (cbn [letters]; rewrite (proj1 (little_is a)), A; reflexivity). reflexivity.
Qed.
Theorem letters_kept r n k : n <> "" -> letters (RenameRule_apply (H := ascii_heck) r n k) = letters (in_front r k) ++ letters n.
Proof.
  intro N. unfold RenameRule_apply. destruct (String.eqb_spec n ""); [contradiction|].
  assert (ALL : forall s, all_letters (words s) = letters s) by (intro s; unfold words; rewrite letters_words; reflexivity).
  assert (SH : forall s, letters (join "_" (map (smap upper) (words s))) = letters s) by (intro s; rewrite join_is, letters_concat, all_letters_map; auto using letters_upper).
  assert (CP : forall s, letters (join "" (map capitalize (words s))) = letters s) by (intro s; rewrite join_is, letters_concat, all_letters_map; auto using letters_cap).
  destruct r; cbn [in_front to_upper_camel_case to_pascal_case to_lower_camel_case to_snake_case to_shouty_snake_case to_lowercase to_uppercase ascii_heck].
  - reflexivity.
  - rewrite letters_app, CP. destruct k; reflexivity.
  - apply letters_lower.
  - apply letters_upper.
  - apply CP.
  - rewrite <- (ALL n). destruct (words n) as [|w l]; [reflexivity|]. rewrite letters_app, letters_lower, join_is, letters_concat by reflexivity. rewrite all_letters_map by apply letters_cap. reflexivity.
  - rewrite join_is, letters_concat by reflexivity. rewrite all_letters_map by apply letters_lower. apply ALL.
  - apply SH.
  - rewrite letters_app, SH. destruct k; cbn [letters]; try reflexivity. rewrite letters_app. cbn. rewrite sapp_nil_r. destruct (String.eqb_spec prefix ""); [subst; reflexivity|]. rewrite SH. reflexivity.
  - apply letters_app.
Qed.
Lemma sapp_cancel p s t : p ++ s = p ++ t -> s = t. Proof. induction p; cbn; intro E; [exact E|]. injection E as E. auto. Qed.
Theorem letters_apart r n1 n2 k : n1 <> "" -> n2 <> "" -> letters n1 <> letters n2 ->
  RenameRule_apply (H := ascii_heck) r n1 k <> RenameRule_apply (H := ascii_heck) r n2 k.
Proof. intros N1 N2 D E. apply D. apply (sapp_cancel (letters (in_front r k))). rewrite <- !letters_kept by assumption. rewrite E. reflexivity. Qed.
