(** C42: what the text of every declaration consists of. *)
Require Import Coq.Strings.String Coq.Strings.Ascii Coq.Lists.List Coq.Bool.Bool Coq.Arith.Arith.
From Verif Require Import S_Samples T_Backend.
From Verif Require Import Base P_Base M_Config M_Writer M_Cfg M_Type M_Ir M_Item M_Library M_Cdecl S_Decl P_DeclWritten M_Bindings M_Docs M_Literal M_Syn M_Backend
  S_File S_Shown P_Shown S_Demo.
Import ListNotations.
Open Scope string_scope.

(** The text of a declaration by itself is exactly its parts, as listed in
    [S_Shown], and white space: the conditions it is under, its documentation,
    keywords and attributes, its name, and for each member, in the order of the
    Rust declaration, a C declaration of that name with the C type that stands
    for its type; nothing is left out, added or moved, and no two words run
    together. *)
Theorem C42_declaration : forall (H : Heck) fuel b, proper_attributes (b_config b) = true -> tab_width (b_config b) <> 0 ->
  forall d top t, alone fuel b top d t -> exists ps, In ps (shown fuel b d) /\ made_of t ps.
Proof. intros H fuel b A T d top t. exact (alone_shown fuel b A T top d t). Qed.
Print Assumptions C42_declaration.

(** So is every declaration of a written file. *)
Theorem C42_file : forall (H : Heck) fuel b t, proper_attributes (b_config b) = true -> tab_width (b_config b) <> 0 ->
  b_noop b = false -> bindings_text fuel b = Done t ->
  exists head defs syms tail, file fuel b head defs syms tail t
    /\ Forall2 (fun d t => exists ps, In ps (shown fuel b d) /\ made_of t ps) (definitions b ++ symbols b) (defs ++ syms).
Proof. intros H fuel b t A T. exact (file_shown fuel b A T t). Qed.
Print Assumptions C42_file.

(** In particular the members are found in the text, in their order. *)
Theorem C42_struct_fields : forall (H : Heck) fuel b, proper_attributes (b_config b) = true -> tab_width (b_config b) <> 0 ->
  forall s top t, as_typedef s = None -> alone fuel b top (AnItem (ICStruct s)) t ->
  found_in t (map (fun f => declared b (fd_name f) (fd_ty f)) (s_fields s)).
Proof. intros H fuel b A T s top t. exact (found_struct fuel b A T top s t). Qed.
Print Assumptions C42_struct_fields.
Theorem C42_union_fields : forall (H : Heck) fuel b, proper_attributes (b_config b) = true -> tab_width (b_config b) <> 0 ->
  forall u top t, alone fuel b top (AnItem (ICUnion u)) t -> found_in t (map (fun f => declared b (fd_name f) (fd_ty f)) (u_fields u)).
Proof. intros H fuel b A T u top t. exact (found_union fuel b A T top u t). Qed.
Print Assumptions C42_union_fields.
Theorem C42_variants : forall (H : Heck) fuel b, proper_attributes (b_config b) = true -> tab_width (b_config b) <> 0 ->
  forall e top t, alone fuel b top (AnItem (ICEnum e)) t -> found_in t (map (fun v => say (v_export_name v)) (e_variants e)).
Proof. intros H fuel b A T e top t. exact (found_enum fuel b A T top e t). Qed.
Print Assumptions C42_variants.

(** ** Examples *)
Definition alone_in (c : Config) (l : Library) : Bindings :=
  {| b_config := c; b_struct_map := l_structs l; b_enum_map := l_enums l; b_typedef_map := l_typedefs l;
     b_constants := []; b_globals := []; b_items := []; b_functions := []; b_source_files := []; b_noop := false; b_package_version := "" |}.
Definition c_style (style : Style) : Config := configured (config_with M_Config.C default_export SortNone) style default_structure default_constant.
Definition comparing : Config :=
  configured (config_with Cxx default_export SortNone) Both
    {| st_rename_fields := RNone; st_rename_associated_constant := RNone; st_derive_constructor := false; st_derive_eq := true; st_derive_neq := false;
       st_derive_lt := false; st_derive_lte := false; st_derive_gt := false; st_derive_gte := false; st_derive_ostream := false;
       st_associated_constants_in_body := false; st_must_use := None; st_deprecated := None; st_deprecated_with_note := None |} default_constant.
Definition node : Struct := struct "Node" [] [fld "key" u8; fld "visit" (TFuncPtr void [(Some "n", TPtr (ty "Node") true false false)] false false); fld "next" (ptr (ty "Node"))].
Definition mode : Enum := plain_enum "Mode" [unit_variant "Off" None; unit_variant "On" (Some (LExpr "4"))].
Definition in_c : Bindings := alone_in (c_style Both) (demo (c_style Both)).
Definition in_cxx : Bindings := alone_in comparing (demo comparing).
Definition lines (l : list string) : string := String.concat (String "010"%char "") l.

Example C42_words_apart : made_of "struct Node;" [say "struct"; say "Node"; say ";"] /\ ~ made_of "structNode;" [say "struct"; say "Node"; say ";"].
Proof.
  split.
  - exists "", "struct", " Node;". repeat split. exists " ", "Node", ";". repeat split. exists "", ";", "". repeat split.
  - intros (a & s & r & E & A & -> & P & _). destruct a as [|x a].
    + apply (sapp_inj_l "struct" "Node;" r) in E. subst r. discriminate.
    + injection E as <- _. discriminate.
Qed.
Example C42_applies : forall H : Heck,
  Forall (fun b => proper_attributes (b_config b) = true /\ tab_width (b_config b) <> 0) [in_c; in_cxx]
  /\ alone 9 in_c true (AnItem (ICStruct node))
       (lines ["typedef struct Node {"; "  uint8_t key;"; "  void (*visit)(const Node *n);"; "  Node *next;"; "} Node;"])
  /\ alone 9 in_cxx true (AnItem (ICStruct node))
       (lines ["struct Node {"; "  uint8_t key;"; "  void (*visit)(const Node *n);"; "  Node *next;"; "";
               "  bool operator==(const Node& other) const {"; "    return key == other.key &&"; "           visit == other.visit &&";
               "           next == other.next;"; "  }"; "};"])
  /\ alone 9 in_cxx true (AnItem (ICEnum mode)) (lines ["enum class Mode {"; "  Off,"; "  On = 4,"; "};"])
  /\ alone 9 in_cxx true (AFunction (fn "visit" [("n", ptr (ty "Node"))] u8)) "uint8_t visit(Node *n);".
Proof.
  intros. split; [repeat constructor; discriminate|].
  repeat split; eexists; eexists; (split; [vm_compute; reflexivity|split; vm_compute; reflexivity]).
Qed.
(** What the theorem says there. *)
Example C42_says : forall H : Heck,
  shown 9 in_c (AnItem (ICStruct node)) =
    [[written in_c (Done PRet); say "typedef"; say "struct"; say "Node"; say "{";
      written in_c (Done PRet); declared in_c "key" u8; say ";";
      written in_c (Done PRet); declared in_c "visit" (TFuncPtr void [(Some "n", TPtr (ty "Node") true false false)] false false); say ";";
      written in_c (Done PRet); declared in_c "next" (ptr (ty "Node")); say ";";
      say "}"; say "Node;"]]
  /\ shown 9 in_cxx (AnItem (ICStruct node)) =
    [[written in_cxx (Done PRet); say "struct"; say "Node"; say "{";
      written in_cxx (Done PRet); declared in_cxx "key" u8; say ";";
      written in_cxx (Done PRet); declared in_cxx "visit" (TFuncPtr void [(Some "n", TPtr (ty "Node") true false false)] false false); say ";";
      written in_cxx (Done PRet); declared in_cxx "next" (ptr (ty "Node")); say ";";
      say "bool operator==(const Node& other) const"; say "{"; say "return";
      say "key == other.key"; say "&&"; say "visit == other.visit"; say "&&"; say "next == other.next"; say ";"; say "}"; say "};"]].
Proof. intros. split; reflexivity. Qed.
Example C42_file_applies : forall H : Heck, let b := made (cfg_2 (fst cfg_2_cpp)) in
  proper_attributes (b_config b) = true /\ tab_width (b_config b) <> 0 /\ b_noop b = false /\ bindings_text 9 b = Done (snd cfg_2_cpp).
Proof. intros. split; [vm_compute; reflexivity|]. split; [vm_compute; discriminate|]. split; vm_compute; reflexivity. Qed.
