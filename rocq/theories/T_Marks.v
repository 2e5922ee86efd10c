(** C54: deprecation and [must_use]. *)
Require Import Coq.Strings.String Coq.Strings.Ascii Coq.Lists.List Coq.Bool.Bool Coq.ZArith.ZArith.
From Verif Require Import Base M_Config M_Type M_Ir M_Item M_Library M_Bindings M_Attr M_Syn M_Loader M_Parser M_Settings M_Backend S_Marks P_Marks.
From Verif Require T_Parse T_Signature T_Datatypes T_Method S_Heck.
Import ListNotations.
Open Scope string_scope.

(** C54.  An item with the attribute is known as deprecated, with the reason
    that is given; one without it is not. *)
Theorem C54_found : forall attrs a, AnnotationSet_load attrs = Some a ->
  (forall note, deprecated attrs note -> an_deprecated a = Some note) /\ (Forall (other_than "deprecated") attrs -> an_deprecated a = None).
Proof. exact deprecated_loaded. Qed.
Print Assumptions C54_found.
Theorem C54_must_use : forall attrs a, AnnotationSet_load attrs = Some a -> an_must_use a = true <-> must_be_used attrs.
Proof. exact must_use_loaded. Qed.
Print Assumptions C54_must_use.
(** C54.  What a C or C++ header says about it are the words configured for that
    kind of item, with the reason as a string literal in their place. *)
Theorem C54_said : forall c k a t, deprecated_note c k a = Some t -> exists note, an_deprecated a = Some note /\ deprecation_said c k note t.
Proof. exact said. Qed.
Print Assumptions C54_said.
(** … and it is silent only if there are no words. *)
Theorem C54_unsaid : forall c k a note, an_deprecated a = Some note -> language c <> Cython ->
  deprecated_note c k a = None <-> (if String.eqb note "" then plain_words c k else words_for_reason c k) = None.
Proof. exact unsaid. Qed.
Print Assumptions C54_unsaid.

(** ** Examples *)

Definition attr (m : arg) : attribute := {| at_meta := m; at_outer := true |}.
Definition because (note : string) : attribute :=
  attr (AList (Some "deprecated") [ANameValue (Some "since") (Some "1.2"); ANameValue (Some "note") (Some note)]).
Example C54_reason : forall note, deprecated [T_Parse.no_mangle; because note; attr (APath (Some "inline"))] note.
Proof.
  intros note. exists [T_Parse.no_mangle], (because note), [attr (APath (Some "inline"))]. split; [reflexivity|]. split.
  - apply (dp_note [("since", "1.2"); ("note", note)]); [right; left; reflexivity|]. repeat constructor; cbn; intuition discriminate.
  - split; repeat constructor; discriminate.
Qed.
Definition marks : toml :=
  let words := [("deprecated", TmString "DEPRECATED"); ("deprecated_with_note", TmString "DEPRECATED({})"); ("must_use", TmString "MUST_USE")] in
  TmTable [("language", TmString "C"); ("style", TmString "tag"); ("no_includes", TmBoolean true);
           ("fn", TmTable words); ("struct", TmTable words);
           ("enum", TmTable (words ++ [("deprecated_variant", TmString "OLD"); ("deprecated_variant_with_note", TmString "OLD({})")])%list)].
Definition with_settings {H : Heck} (t : toml) (items : list sitem) : option string :=
  match as_settings t with Some s => T_Datatypes.run_items (se_config s) items | None => None end.
Definition takes_foo : sitem := ItemFn [T_Parse.no_mangle] true (T_Parse.sig_ "f" [T_Signature.arg_ "x" (T_Parse.named "Foo")] None).
Example C54_header : with_settings (H := S_Heck.ascii_heck) marks
  [ItemStruct [T_Parse.repr_c_; attr (APath (Some "deprecated"))] "Foo" [] (FieldsNamed [T_Parse.fld_ "a" "u8"]);
   ItemEnum [T_Parse.repr_c_; attr (ANameValue (Some "deprecated") (Some "no \ more"))] "Old" []
     [{| sv_attrs := []; sv_ident := "A"; sv_fields := FieldsUnit; sv_discriminant := None |};
      {| sv_attrs := [because "use A"]; sv_ident := "B"; sv_fields := FieldsUnit; sv_discriminant := None |}];
   ItemFn [T_Parse.no_mangle; because "call ""f"""; attr (APath (Some "must_use"))] true (T_Parse.sig_ "g" [T_Signature.arg_ "x" (T_Parse.named "Old")] (Some (T_Parse.named "u8")));
   takes_foo]
  = Some (T_Method.printed ["enum DEPRECATED(""no \\ more"") Old {"; "  A,"; "  B OLD(""use A""),"; "};"; "";
     "struct DEPRECATED Foo {"; "  uint8_t a;"; "};"; "";
     "MUST_USE DEPRECATED(""call \""f\"""") uint8_t g(enum Old x);"; ""; "void f(struct Foo x);"]).
Proof. vm_compute. reflexivity. Qed.

(** ** Where it fails *)

(** An item that is deprecated since some version, without a reason, is not
    marked. *)
Theorem C54_since_refuted : exists attrs a, attrs = [attr (AList (Some "deprecated") [ANameValue (Some "since") (Some "1.2")])]
  /\ AnnotationSet_load attrs = Some a /\ an_deprecated a = None.
Proof. eexists _, _. split; [reflexivity|]. split; reflexivity. Qed.
Print Assumptions C54_since_refuted.
(** Other control characters are written as in Rust, which C does not read. *)
Theorem C54_control_refuted : forall note, In note [String (ascii_of_nat 7) ""; String (ascii_of_nat 27) "[1m"; String (ascii_of_nat 127) ""] ->
  exists rest, debug_str note = String """" ("\u{" ++ rest) /\ c_string (debug_str note) = None.
Proof. intros note [<-|[<-|[<-|[]]]]; eexists; split; vm_compute; reflexivity. Qed.
Print Assumptions C54_control_refuted.
(** A type alias with an annotation takes the mark away from a struct that has
    no annotations: deprecation does not count as one. *)
Theorem C54_alias_refuted :
  let foo := ItemStruct [T_Parse.repr_c_; attr (APath (Some "deprecated"))] "Foo" [] (FieldsNamed [T_Parse.fld_ "a" "u8"]) in
  with_settings (H := S_Heck.ascii_heck) marks [foo; takes_foo]
  = Some (T_Method.printed ["struct DEPRECATED Foo {"; "  uint8_t a;"; "};"; ""; "void f(struct Foo x);"])
  /\ with_settings (H := S_Heck.ascii_heck) marks [foo; takes_foo; ItemType [T_Parse.doc_ "cbindgen:rename-all=None"] "Bar" [] (T_Parse.named "Foo")]
  = Some (T_Method.printed ["struct Foo {"; "  uint8_t a;"; "};"; ""; "void f(struct Foo x);"]).
Proof. split; vm_compute; reflexivity. Qed.
Print Assumptions C54_alias_refuted.
