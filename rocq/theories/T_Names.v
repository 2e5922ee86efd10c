(** C13 and C36: how names are spelled, and which keyword they carry. *)
Require Import Coq.Strings.String Coq.Lists.List Coq.Bool.Bool.
From Verif Require Import Base M_Config M_Cfg M_Type M_Ir M_Item M_Library S_Item S_Library S_Names S_Demo S_Style P_Loaded P_NamesLib P_Keywords.
Import ListNotations.
Open Scope string_scope.

(** C13.  Every reference written, at any depth, is spelled as the renaming of
    what it refers to, unless it is a generic parameter in scope, which keeps
    its name; and every definition is spelled as the renaming of its own name. *)
Theorem C13_references : forall (H : Heck) fuel visit l b, as_loaded l -> generate fuel visit l = Done b ->
  (forall ps r, In (ps, r) (written_refs b) ->
     r_name r = if is_generic_param ps (r_path r) then r_path r else export_rename (export (l_config l)) (r_path r))
  /\ (forall i, In i (b_items b) -> ic_export_name i = export_rename (export (l_config l)) (ic_path i)).
Proof.
  intros H fuel visit l b Hl Hg. destruct (names_spec H fuel visit l b Hl Hg) as [A B]. rewrite Forall_forall in A, B.
  split; [intros ps r Hr; exact (A (ps, r) Hr)|exact B].
Qed.
Print Assumptions C13_references.

(** C13.  So a reference and the definition it refers to are spelled alike. *)
Theorem C13_agree : forall (H : Heck) fuel visit l b ps r i, as_loaded l -> generate fuel visit l = Done b ->
  In (ps, r) (written_refs b) -> is_generic_param ps (r_path r) = false -> In i (b_items b) -> ic_path i = r_path r ->
  r_name r = ic_export_name i.
Proof.
  intros H fuel visit l b ps r i Hl Hg Hr Hp Hi E. destruct (C13_references H fuel visit l b Hl Hg) as [A B].
  rewrite (A ps r Hr), Hp, (B i Hi), E. reflexivity.
Qed.
Print Assumptions C13_agree.

(** C13.  Constants used in the values of other constants are spelled like the
    constants themselves. *)
Theorem C13_constants : forall (H : Heck) fuel visit l b, as_loaded l -> generate fuel visit l = Done b ->
  Forall (fun c => exists c0, In c0 (to_vec (l_constants l)) /\ c_path c = c_path c0
    /\ lit_constants (c_value c) = map (export_rename (export (l_config l))) (lit_constants (c_value c0))
    /\ (c_associated_to c0 = None -> c_export_name c = export_rename (export (l_config l)) (c_path c0))) (b_constants b).
Proof. exact constants_spelled. Qed.
Print Assumptions C13_constants.

(** The theorems apply to a library with a generic type and a renamed type. *)
Definition named (lang : Language) : Library :=
  lib (config_with lang (export_with [] [] [] [("Point", "Spot"); ("Pair", "Two"); ("Pair_u8", "Bytes")] (Some "my_")) SortNone)
    [const "LIMIT" u8 (LExpr "3"); const "TWICE" u8 (LBin (LPath None "LIMIT") "*" (LExpr "2"))] []
    [plain_enum "Color" [unit_variant "Red" None];
     data_enum "Shape" [] [unit_variant "Nothing" None; data_variant "Circle" (body "Circle_Body" [] [fld "at" (ty "Point")])]]
    [struct "Point" [] [fld "x" u8; fld "next" (ptr (ty "Point"))];
     struct "Pair" [gp "T"] [fld "a" (ty "T"); fld "b" (ptr (ty1 "Pair" (ty "T"))); fld "c" (ty "Color")]]
    [] [] [typedef "Both" (ty1 "Pair" u8)] [fn "f" [("p", ptr (ty "Both")); ("s", ty "Shape")] void].
Example named_loaded : forall lang, as_loaded (named lang).
Proof. intros lang. apply lib_loaded. vm_compute. reflexivity. Qed.
Definition spelling (o : outcome Bindings) :=
  do b := o in Done (map (fun i => (ic_path i, ic_export_name i)) (b_items b),
                     map (fun r => (r_path (snd r), r_name (snd r))) (written_refs b), map (fun c => lit_constants (c_value c)) (b_constants b)).
Example named_c : forall H : Heck, spelling (generate 9 (fun x => x) (named M_Config.C)) =
  Done ([("Color", "my_Color"); ("Pair_u8", "my_Bytes"); ("Both", "my_Both"); ("Point", "my_Spot"); ("Shape", "my_Shape")],
        [("Pair_u8", "my_Bytes"); ("Color", "my_Color"); ("Pair_u8", "my_Bytes"); ("Point", "my_Spot"); ("Point", "my_Spot");
         ("Both", "my_Both"); ("Shape", "my_Shape")], [[]; ["my_LIMIT"]]).
Proof. intros. vm_compute. reflexivity. Qed.
Example named_cxx : forall H : Heck, spelling (generate 9 (fun x => x) (named Cxx)) =
  Done ([("Color", "my_Color"); ("Pair", "my_Two"); ("Both", "my_Both"); ("Point", "my_Spot"); ("Shape", "my_Shape")],
        [("T", "T"); ("Pair", "my_Two"); ("T", "T"); ("Color", "my_Color"); ("Pair", "my_Two"); ("Point", "my_Spot"); ("Point", "my_Spot");
         ("Both", "my_Both"); ("Shape", "my_Shape")], [[]; ["my_LIMIT"]]).
Proof. intros. vm_compute. reflexivity. Qed.

(** C36.  In C, when tags are declared, every reference carries the keyword
    its name is registered with. *)
Theorem C36_references : forall (H : Heck) fuel visit l l', as_loaded l -> prepare fuel visit l = Done l' ->
  language (l_config l) = M_Config.C -> has_tag (style (l_config l)) = true ->
  Forall (fun r => r_kind r = keyword_of l' (r_path r)) (lib_outer l').
Proof. exact keywords_spec. Qed.
Print Assumptions C36_references.

(** C36.  That keyword is the one of the definition, if all the definitions of the name have the same. *)
Theorem C36_definition : forall l i, In i (defined l) ->
  (forall j, In j (defined l) -> ic_path j = ic_path i -> declared_as j = declared_as i) ->
  keyword_of l (ic_path i) = declared_as i.
Proof. exact keyword_defined. Qed.
Print Assumptions C36_definition.

(** C36.  In the other languages and styles, no reference carries a keyword. *)
Theorem C36_no_keyword : forall (H : Heck) fuel visit l l', as_loaded l -> prepare fuel visit l = Done l' ->
  language (l_config l) <> M_Config.C \/ has_tag (style (l_config l)) = false ->
  Forall (fun r => r_kind r = None) (lib_outer l').
Proof. exact no_keywords. Qed.
Print Assumptions C36_no_keyword.
Definition keywords (o : outcome Library) := do l := o in Done (map (fun r => (r_name r, r_kind r)) (lib_outer l)).
Example named_keywords : forall H : Heck, keywords (prepare 9 (fun x => x) (named M_Config.C)) =
  Done [("my_Spot", Some DStruct); ("my_Spot", Some DStruct); ("my_Bytes", Some DStruct); ("my_Color", Some DEnum);
        ("my_Bytes", Some DStruct); ("my_Both", None); ("my_Shape", Some DStruct)].
Proof. intros. vm_compute. reflexivity. Qed.

(** C36.  Without that condition the keyword can be wrong: an enum and a struct
    of one name, under different guards.  Only the enum is written, and the
    function that uses it calls it [struct Foo]. *)
Definition guarded_struct (n : string) (k : Cfg) : Struct := Struct_new n [] [fld "x" u8] false false None false (Some k) AnnotationSet_new [].
Definition guarded_enum (n : string) (k : Cfg) : Enum := Enum_new n [] repr_c [unit_variant "A" None] None (Some k) AnnotationSet_new [].
Definition two_kinds : Library :=
  lib (config_with M_Config.C default_export SortNone) [] [] [guarded_enum "Foo" (CBoolean "unix")] [guarded_struct "Foo" (CBoolean "windows")]
    [] [] [] [fn "f" [("p", ptr (ty "Foo"))] void].
Theorem C36_two_kinds_refuted : forall H : Heck, exists l b, as_loaded l /\ generate 9 (fun x => x) l = Done b
  /\ map (fun i => (ic_path i, declared_as i)) (b_items b) = [("Foo", Some DEnum)]
  /\ map (fun r => (r_name r, r_kind r)) (concat (map function_outer (b_functions b))) = [("Foo", Some DStruct)].
Proof. intros H. exists two_kinds. eexists. split; [apply lib_loaded; vm_compute; reflexivity|]. split; [vm_compute; reflexivity|split; vm_compute; reflexivity]. Qed.
Print Assumptions C36_two_kinds_refuted.

(** C36.  A type excluded from the output is referred to without a keyword, also when only tags are declared. *)
Definition without_foo : Library :=
  lib (config_with M_Config.C (export_with [] ["Foo"] [] [] None) SortNone) [] [] [] [struct "Foo" [] [fld "x" u8]] [] [] [] [fn "f" [("p", ptr (ty "Foo"))] void].
Theorem C36_excluded_refuted : forall H : Heck, exists l b, as_loaded l /\ generate 9 (fun x => x) l = Done b
  /\ map (fun s => (s_path s, declared_as (ICStruct s))) (to_vec (l_structs l)) = [("Foo", Some DStruct)]
  /\ map (fun r => (r_name r, r_kind r)) (concat (map function_outer (b_functions b))) = [("Foo", None)].
Proof. intros H. exists without_foo. eexists. split; [apply lib_loaded; vm_compute; reflexivity|]. split; [vm_compute; reflexivity|split; vm_compute; reflexivity]. Qed.
Print Assumptions C36_excluded_refuted.
