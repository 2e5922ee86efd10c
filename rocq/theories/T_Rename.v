(** C56: the rename rules do what the documentation says.

    The conversions between cases are those of the [heck] crate; [ascii_heck]
    (S_Heck.v) is what they do with ASCII names.  C43, C44 and C45 say to which
    names of a program which rule is applied. *)
Require Import Coq.Strings.String Coq.Strings.Ascii Coq.Lists.List Coq.Bool.Bool Coq.NArith.NArith.
From Verif Require Import Base M_Config M_Type M_Attr M_Syn M_Loader M_Parser M_Settings S_Heck S_Rename P_Rename.
From Verif Require T_Parse T_Signature T_Enums T_Marks T_Method.
Import ListNotations.
Open Scope string_scope.

(** Names of arguments and fields, written as is usual in Rust: the rule gives
    what the documentation shows. *)
Theorem C56_members : forall r k ws, ws <> [] -> Forall word ws -> (match k with IEnumVariant _ => False | _ => True end) ->
  RenameRule_apply (H := ascii_heck) r (my_arg ws) k = of_member r k ws.
Proof. exact member_renamed. Qed.
Print Assumptions C56_members.
Example C56_members_case : Forall word ["my"; "arg"; "2"] /\ my_arg ["my"; "arg"; "2"] = "my_arg_2" /\
  map (fun r => of_member r FunctionArg ["my"; "arg"; "2"]) [CamelCase; PascalCase; GeckoCase; ScreamingSnakeCase; UpperCase; LowerCase]
  = ["myArg2"; "MyArg2"; "aMyArg2"; "MY_ARG_2"; "MY_ARG_2"; "my_arg_2"].
Proof. repeat split; repeat constructor; discriminate. Qed.

(** Names of variants, written as is usual in Rust *)
Theorem C56_variants : forall r enum ws, enum <> [] -> Forall type_word enum -> ws <> [] -> Forall type_word ws ->
  RenameRule_apply (H := ascii_heck) r (MyArg ws) (IEnumVariant (MyArg enum)) = of_variant r enum ws.
Proof. exact variant_renamed. Qed.
Print Assumptions C56_variants.
Example C56_variants_case : Forall type_word ["my"; "variant"] /\ Forall type_word ["enum"; "name"] /\
  map (fun r => of_variant r ["enum"; "name"] ["my"; "variant"]) [CamelCase; SnakeCase; ScreamingSnakeCase; QualifiedScreamingSnakeCase; LowerCase; UpperCase; GeckoCase]
  = ["myVariant"; "my_variant"; "MY_VARIANT"; "ENUM_NAME_MY_VARIANT"; "myvariant"; "MYVARIANT"; "MyVariant"].
Proof. repeat split; repeat constructor; repeat eexists. Qed.

(** Any name: the letters and digits stay, in their order, behind what the rule
    puts in front; only their case and what stands between them may change. *)
Theorem C56_letters : forall r n k, n <> "" ->
  letters (RenameRule_apply (H := ascii_heck) r n k) = letters (in_front r k) ++ letters n.
Proof. exact letters_kept. Qed.
Print Assumptions C56_letters.
(** Names that differ in more than case and underscores stay different. *)
Theorem C56_apart : forall r n1 n2 k, n1 <> "" -> n2 <> "" -> letters n1 <> letters n2 ->
  RenameRule_apply (H := ascii_heck) r n1 k <> RenameRule_apply (H := ascii_heck) r n2 k.
Proof. exact letters_apart. Qed.
Print Assumptions C56_apart.
Example C56_letters_case : letters "_HTTPServer_v2" = "httpserverv2" /\ letters "my_x" <> letters "my_y" /\
  RenameRule_apply (H := ascii_heck) ScreamingSnakeCase "_HTTPServer_v2" StructMember = "HTTP_SERVER_V2".
Proof. repeat split. discriminate. Qed.

(** A header with every kind of name renamed *)
Definition rules (field variant arg : string) : toml :=
  TmTable [("language", TmString "C"); ("style", TmString "tag"); ("no_includes", TmBoolean true);
           ("fn", TmTable [("rename_args", TmString arg)]); ("struct", TmTable [("rename_fields", TmString field)]);
           ("enum", TmTable [("rename_variants", TmString variant)])].
Definition foo (fields : list string) : sitem := ItemStruct [T_Parse.repr_c_] "Foo" [] (FieldsNamed (map (fun f => T_Parse.fld_ f "u8") fields)).
Definition takes (args : list sfnarg) : sitem := ItemFn [T_Parse.no_mangle] true (T_Parse.sig_ "go" args None).
Example C56_header : T_Marks.with_settings (H := ascii_heck) (rules "GeckoCase" "QualifiedScreamingSnakeCase" "CamelCase")
  [foo ["my_field"; "other"]; 
   ItemEnum [T_Parse.repr_c_] "EnumName" [] [T_Enums.variant_ [] "MyVariant" FieldsUnit None; T_Enums.variant_ [] "Rest" FieldsUnit None];
   takes [T_Signature.arg_ "my_arg" (T_Parse.named "Foo"); T_Signature.arg_ "which_one" (T_Parse.named "EnumName")]]
  = Some (T_Method.printed ["enum EnumName {"; "  ENUM_NAME_MY_VARIANT,"; "  ENUM_NAME_REST,"; "};"; "";
     "struct Foo {"; "  uint8_t mMyField;"; "  uint8_t mOther;"; "};"; "";
     "void go(struct Foo myArg, enum EnumName whichOne);"]).
Proof. vm_compute. reflexivity. Qed.

(** ** Where it fails *)
(** [SnakeCase] is said to change nothing; it drops underscores in front.  So two
    fields can get the same name. *)
Theorem C56_same_refuted : T_Marks.with_settings (H := ascii_heck) (rules "SnakeCase" "None" "None")
  [foo ["a"; "_a"; "a_"]; takes [T_Signature.arg_ "x" (T_Parse.named "Foo")]]
  = Some (T_Method.printed ["struct Foo {"; "  uint8_t a;"; "  uint8_t a;"; "  uint8_t a;"; "};"; ""; "void go(struct Foo x);"]).
Proof. vm_compute. reflexivity. Qed.
Print Assumptions C56_same_refuted.
(** A name of underscores only is left without a name. *)
Theorem C56_nameless_refuted : T_Marks.with_settings (H := ascii_heck) (rules "CamelCase" "None" "None")
  [foo ["__"; "b"]; takes [T_Signature.arg_ "x" (T_Parse.named "Foo")]]
  = Some (T_Method.printed ["struct Foo {"; "  uint8_t ;"; "  uint8_t b;"; "};"; ""; "void go(struct Foo x);"]).
Proof. vm_compute. reflexivity. Qed.
Print Assumptions C56_nameless_refuted.
(** A variant that starts with a digit once the underscore is gone *)
Theorem C56_digit_refuted : T_Marks.with_settings (H := ascii_heck) (rules "None" "ScreamingSnakeCase" "None")
  [ItemEnum [T_Parse.repr_c_] "Size" [] [T_Enums.variant_ [] "_2D" FieldsUnit None; T_Enums.variant_ [] "_3D" FieldsUnit None];
   takes [T_Signature.arg_ "x" (T_Parse.named "Size")]]
  = Some (T_Method.printed ["enum Size {"; "  2D,"; "  3D,"; "};"; ""; "void go(enum Size x);"]).
Proof. vm_compute. reflexivity. Qed.
Print Assumptions C56_digit_refuted.
(** With [prefix_with_name] the name of the enum stands there twice. *)
Theorem C56_prefix_refuted : T_Marks.with_settings (H := ascii_heck)
  (TmTable [("language", TmString "C"); ("style", TmString "tag"); ("no_includes", TmBoolean true);
            ("enum", TmTable [("rename_variants", TmString "QualifiedScreamingSnakeCase"); ("prefix_with_name", TmBoolean true)])])
  [ItemEnum [T_Parse.repr_c_] "EnumName" [] [T_Enums.variant_ [] "MyVariant" FieldsUnit None]; takes [T_Signature.arg_ "x" (T_Parse.named "EnumName")]]
  = Some (T_Method.printed ["enum EnumName {"; "  ENUM_NAME_ENUM_NAME_MY_VARIANT,"; "};"; ""; "void go(enum EnumName x);"]).
Proof. vm_compute. reflexivity. Qed.
Print Assumptions C56_prefix_refuted.
(** A renamed argument can have the name of a constant, which is a macro in C: the
    compiler reads [void go(uint8_t 3)]. *)
Theorem C56_macro_refuted : T_Marks.with_settings (H := ascii_heck) (rules "None" "None" "ScreamingSnakeCase")
  [ItemConst [] true "MAX" (T_Parse.named "u8") (XLit (LitInt 3%N "")); takes [T_Signature.arg_ "max" (T_Parse.named "u8")]]
  = Some (T_Method.printed ["#define MAX 3"; ""; "void go(uint8_t MAX);"]).
Proof. vm_compute. reflexivity. Qed.
Print Assumptions C56_macro_refuted.
