(** C48: the functions derived for C++ types do what they are for. *)
Require Import Coq.Strings.String Coq.Strings.Ascii Coq.Lists.List Coq.Bool.Bool Coq.Arith.Arith Coq.NArith.NArith.
From Verif Require Import Base M_Config M_Cfg M_Type M_Ir M_Item M_Library M_Literal M_Bindings M_Syn M_Backend S_Lex S_Decl S_File S_Shown S_Demo S_Expr P_SigLib
  S_Method S_Derived P_MethodLex P_Method P_Derived.
From Verif Require T_Enums.
Import ListNotations.
Open Scope string_scope.

(** A C++ header that was written. *)
Definition cxx_header {H : Heck} (fuel : nat) (b : Bindings) (t : string) : Prop :=
  language (b_config b) = Cxx /\ proper_attributes (b_config b) = true /\ tab_width (b_config b) <> 0 /\ b_noop b = false /\ bindings_text fuel b = Done t.

(** For every struct declared, and every comparison asked for that can be
    derived, the header has a method of the class which, whatever comparing the
    fields means, says whether it holds of every field, or, for [!=], of some
    field, of the object and the argument; it changes nothing. *)
Theorem C48_comparisons : forall (H : Heck) fuel b t s d, cxx_header fuel b t -> struct_declared b s -> In d derived_operators -> operator_for (b_config b) s d ->
  let other := other_name (b_config b) in
  let fs := compared_fields s in
  S_Lex.is_ident (s_export_name s) = true -> plain_name other = true -> Forall (fun f => plain_name f = true /\ f <> other) fs -> fs <> [] ->
  exists m body, within m t /\ is_method m (operator_head (de_op d) (s_export_name s) other) body
    /\ forall W self x rs, Forall2 (member_compares W (de_op d) self x) fs rs ->
       returns W body self [(other, x)] self (Truth (if de_every d then forallb (fun r => r) rs else existsb (fun r => r) rs)).
Proof. intros H fuel b t s d (C & A & T & N & W). exact (comparisons_found fuel b t C A T N W s d). Qed.
Print Assumptions C48_comparisons.

(** ** Flags *)
(** A struct of flags and the names in it. *)
Definition flags_named {H : Heck} (b : Bindings) (s : Struct) (f : Field) : Prop :=
  struct_declared b s /\ wanted (s_annotations s) "internal-derive-bitflags" false = true /\ s_fields s = [f]
  /\ S_Lex.is_ident (s_export_name s) = true /\ plain_name (fd_name f) = true /\ plain_name (other_name (b_config b)) = true /\ fd_name f <> other_name (b_config b).
Theorem C48_flags_bool : forall (H : Heck) fuel b t s f, cxx_header fuel b t -> flags_named b s f ->
  exists m body, within m t /\ is_method m (const_words (b_config b) ++ [Id "explicit"; Id "operator"; Id "bool"; Op "("; Op ")"; Id "const"]) body
    /\ forall W self a r, wo_member W self (fd_name f) = Some a -> wo_truth W a = Some r -> returns W body self [] self (Truth r).
Proof. intros H fuel b t s f (C & A & T & N & W) (SD & WA & SF & IC & PB & PO & BO). exact (bool_found fuel b t C A T N W s f SD WA SF PB). Qed.
Print Assumptions C48_flags_bool.
Theorem C48_flags_complement : forall (H : Heck) fuel b t s f, cxx_header fuel b t -> flags_named b s f ->
  exists m body, within m t /\ is_method m (const_words (b_config b) ++ [Id (s_export_name s); Id "operator"; Op "~"; Op "("; Op ")"; Id "const"]) body
    /\ forall W self a v o, wo_member W self (fd_name f) = Some a -> wo_complement W a = Some v -> wo_make W (s_export_name s) (fd_name f) v = Some o ->
       returns W body self [] self (Value o).
Proof. intros H fuel b t s f (C & A & T & N & W) (SD & WA & SF & IC & PB & PO & BO). exact (complement_found fuel b t C A T N W s f SD WA SF IC PB). Qed.
Print Assumptions C48_flags_complement.
Theorem C48_flags_operators : forall (H : Heck) fuel b t s f op, cxx_header fuel b t -> flags_named b s f -> In op ["|"; "&"; "^"] ->
  let other := other_name (b_config b) in
  (exists m body, within m t /\ is_method m (const_words (b_config b) ++ binary_head op (s_export_name s) other) body
     /\ forall W self x a d v o, wo_member W self (fd_name f) = Some a -> wo_member W x (fd_name f) = Some d -> wo_operate W op a d = Some v ->
        wo_make W (s_export_name s) (fd_name f) v = Some o -> returns W body self [(other, x)] self (Value o))
  /\ exists m body, within m t /\ is_method m (assign_head op (s_export_name s) other) body
     /\ forall W self x o, wo_operate W op self x = Some o -> returns W body self [(other, x)] o (Value o).
Proof.
  intros H fuel b t s f op (C & A & T & N & W) (SD & WA & SF & IC & PB & PO & BO) O.
  exact (conj (flag_found fuel b t C A T N W s f SD WA SF IC PB PO op O) (assign_found fuel b t C A T N W s f SD WA SF IC PO op O)).
Qed.
Print Assumptions C48_flags_operators.

(** ** Enums with data *)
Definition data_enum_declared {H : Heck} (b : Bindings) (e : Enum) : Prop :=
  In (AnItem (ICEnum e)) (definitions b) /\ e_tag e <> None /\ unconditional (b_config b) e /\ enum_named (b_config b) e.
(** Two objects are equal if the tags are and the data of that variant is. *)
Theorem C48_equality : forall (H : Heck) fuel b t e, cxx_header fuel b t -> data_enum_declared b e -> enum_equated e ->
  wanted (e_annotations e) "derive-eq" (st_derive_eq (structure (b_config b))) = true ->
  let other := other_name (b_config b) in
  exists m body, within m t /\ is_method m (operator_head "==" (e_export_name e) other) body
    /\ forall W self x a u, wo_member W self "tag" = Some a -> wo_member W x "tag" = Some u ->
       (wo_compare W "!=" a u = Some true -> returns W body self [(other, x)] self (Truth false))
       /\ (wo_compare W "!=" a u = Some false -> forall v, In v (e_variants e) -> tag_of W e a v ->
            match data_name v with
            | Some n => forall r, member_compares W "==" self x n r -> returns W body self [(other, x)] self (Truth r)
            | None => returns W body self [(other, x)] self (Truth true)
            end).
Proof. intros H fuel b t e (C & A & T & N & W) (I & TE & U & NA) EQ. exact (equality_found fuel b t C A T N W e I TE _ _ eq_refl eq_refl U NA EQ). Qed.
Print Assumptions C48_equality.
Theorem C48_inequality : forall (H : Heck) fuel b t e, cxx_header fuel b t -> data_enum_declared b e -> enum_equated e ->
  wanted (e_annotations e) "derive-eq" (st_derive_eq (structure (b_config b))) = true ->
  wanted (e_annotations e) "derive-neq" (st_derive_neq (structure (b_config b))) = true ->
  let other := other_name (b_config b) in
  exists m body, within m t /\ is_method m (operator_head "!=" (e_export_name e) other) body
    /\ forall W self x r, wo_compare W "==" self x = Some r -> returns W body self [(other, x)] self (Truth (negb r)).
Proof. intros H fuel b t e (C & A & T & N & W) (I & TE & U & NA) EQ. exact (inequality_found fuel b t C A T N W e I TE _ _ eq_refl eq_refl NA EQ). Qed.
Print Assumptions C48_inequality.
(** [IsV] says whether the object is of that variant. *)
Theorem C48_is : forall (H : Heck) fuel b t e v, cxx_header fuel b t -> data_enum_declared b e -> In v (e_variants e) ->
  wanted (e_annotations e) "derive-helper-methods" (en_derive_helper_methods (enumeration (b_config b))) = true ->
  exists m body, within m t /\ is_method m (is_head v) body
    /\ forall W self a v0, wo_member W self "tag" = Some a -> wo_member W self (enumerator e v) = None -> In v0 (e_variants e) -> tag_of W e a v0 ->
       returns W body self [] self (Truth (String.eqb (v_export_name v) (v_export_name v0))).
Proof. intros H fuel b t e v (C & A & T & N & W) (I & TE & U & NA). exact (is_found fuel b t C A T N W e I TE _ _ eq_refl eq_refl NA v). Qed.
Print Assumptions C48_is.
(** The destructor destroys the data of the variant the object is of, and nothing else. *)
Theorem C48_destructor : forall (H : Heck) fuel b t e, cxx_header fuel b t -> data_enum_declared b e ->
  wanted (e_annotations e) "derive-tagged-enum-destructor" (en_derive_tagged_enum_destructor (enumeration (b_config b))) = true ->
  exists m body, within m t /\ is_method m (destructor_head (e_export_name e)) body
    /\ forall W self a v, wo_member W self "tag" = Some a -> In v (e_variants e) -> tag_of W e a v ->
       match data_name v with
       | Some n => forall self', wo_without W self n = Some self' -> leaves W body self [] self'
       | None => leaves W body self [] self
       end.
Proof. intros H fuel b t e (C & A & T & N & W) (I & TE & U & NA). exact (destructor_found fuel b t C A T N W e I TE _ _ eq_refl eq_refl U NA). Qed.
Print Assumptions C48_destructor.
(** The copy constructor starts with the tag of the other object, and copies the
    data of that variant and no more. *)
Theorem C48_copy : forall (H : Heck) fuel b t e, cxx_header fuel b t -> data_enum_declared b e ->
  wanted (e_annotations e) "derive-tagged-enum-copy-constructor" (en_derive_tagged_enum_copy_constructor (enumeration (b_config b))) = true ->
  let other := other_name (b_config b) in
  exists m body, within m t /\ is_method m (copy_head (e_export_name e) other) body
    /\ forall W self x a v, wo_member W self "tag" = Some a -> In v (e_variants e) -> tag_of W e a v ->
       match data_name v with
       | Some n => forall d self', wo_member W x n = Some d -> wo_with W self n d = Some self' -> leaves W body self [(other, x)] self'
       | None => leaves W body self [(other, x)] self
       end.
Proof. intros H fuel b t e (C & A & T & N & W) (I & TE & U & NA). exact (copy_found fuel b t C A T N W e I TE _ _ eq_refl eq_refl U NA). Qed.
Print Assumptions C48_copy.

(** ** Examples *)
Definition asking (l : list string) : AnnotationSet := {| an_values := map (fun n => (n, ABool true)) l; an_must_use := false; an_deprecated := None |}.
Definition pair_ : Struct := Struct_new "Pair" [] [fld "a" u8; fld "b" u8] false false None false None (asking ["derive-eq"; "derive-neq"]) [].
Definition mask_ : Struct := Struct_new "Mask" [] [fld "bits" u8] false false None false None (asking ["internal-derive-bitflags"]) [].
Definition shape : Enum :=
  Enum_new "Shape" [] repr_c [EnumVariant_new "Circle" None (VBody "circle" (body "Circle_Body" [] [fld "r" u8]) false false) None []; unit_variant "Point" None] (Some "Tag") None
    (asking ["derive-eq"; "derive-neq"; "derive-helper-methods"; "derive-tagged-enum-destructor"; "derive-tagged-enum-copy-constructor"]) [].
Definition header_in (c : Config) (items : list ItemContainer) : Bindings :=
  {| b_config := c; b_struct_map := []; b_enum_map := []; b_typedef_map := []; b_constants := []; b_globals := []; b_items := items;
     b_functions := []; b_source_files := []; b_noop := false; b_package_version := "" |}.
Definition header_of : list ItemContainer -> Bindings := header_in (config_with Cxx default_export SortNone).
Definition drawing : Bindings := header_of [ICStruct pair_; ICStruct mask_; ICEnum shape].
Definition printed (l : list string) : string := String.concat "" (map (fun x => x ++ String "010"%char "")%string l).
Definition drawn {H : Heck} : string := match bindings_text 9 drawing with Done t => t | _ => "" end.
Example C48_text : forall H : Heck, bindings_text 9 drawing = Done (printed
    ["#include <cstdarg>";
     "#include <cstdint>";
     "#include <cstdlib>";
     "#include <ostream>";
     "#include <new>";
     "";
     "struct Pair {";
     "  uint8_t a;";
     "  uint8_t b;";
     "";
     "  bool operator==(const Pair& other) const {";
     "    return a == other.a &&";
     "           b == other.b;";
     "  }";
     "  bool operator!=(const Pair& other) const {";
     "    return a != other.a ||";
     "           b != other.b;";
     "  }";
     "};";
     "";
     "struct Mask {";
     "  uint8_t bits;";
     "";
     "  constexpr explicit operator bool() const {";
     "    return !!bits;";
     "  }";
     "  constexpr Mask operator~() const {";
     "    return Mask { static_cast<decltype(bits)>(~bits) };";
     "  }";
     "  constexpr Mask operator|(const Mask& other) const {";
     "    return Mask { static_cast<decltype(bits)>(this->bits | other.bits) };";
     "  }";
     "  Mask& operator|=(const Mask& other) {";
     "    *this = (*this | other);";
     "    return *this;";
     "  }";
     "  constexpr Mask operator&(const Mask& other) const {";
     "    return Mask { static_cast<decltype(bits)>(this->bits & other.bits) };";
     "  }";
     "  Mask& operator&=(const Mask& other) {";
     "    *this = (*this & other);";
     "    return *this;";
     "  }";
     "  constexpr Mask operator^(const Mask& other) const {";
     "    return Mask { static_cast<decltype(bits)>(this->bits ^ other.bits) };";
     "  }";
     "  Mask& operator^=(const Mask& other) {";
     "    *this = (*this ^ other);";
     "    return *this;";
     "  }";
     "};";
     "";
     "struct Shape {";
     "  enum class Tag {";
     "    Circle,";
     "    Point,";
     "  };";
     "";
     "  struct Circle_Body {";
     "    uint8_t r;";
     "  };";
     "";
     "  Tag tag;";
     "  union {";
     "    Circle_Body circle;";
     "  };";
     "";
     "  static Shape Circle(const uint8_t &r) {";
     "    Shape result;";
     "    ::new (&result.circle.r) (uint8_t)(r);";
     "    result.tag = Tag::Circle;";
     "    return result;";
     "  }";
     "";
     "  bool IsCircle() const {";
     "    return tag == Tag::Circle;";
     "  }";
     "";
     "  static Shape Point() {";
     "    Shape result;";
     "    result.tag = Tag::Point;";
     "    return result;";
     "  }";
     "";
     "  bool IsPoint() const {";
     "    return tag == Tag::Point;";
     "  }";
     "";
     "  bool operator==(const Shape& other) const {";
     "    if (tag != other.tag) {";
     "      return false;";
     "    }";
     "    switch (tag) {";
     "      case Tag::Circle: return circle == other.circle;";
     "      default: break;";
     "    }";
     "    return true;";
     "  }";
     "";
     "  bool operator!=(const Shape& other) const {";
     "    return !(*this == other);";
     "  }";
     "";
     "  ~Shape() {";
     "    switch (tag) {";
     "      case Tag::Circle: circle.~Circle_Body(); break;";
     "      default: break;";
     "    }";
     "  }";
     "";
     "  Shape(const Shape& other)";
     "   : tag(other.tag) {";
     "    switch (tag) {";
     "      case Tag::Circle: ::new (&circle) (Circle_Body)(other.circle); break;";
     "      default: break;";
     "    }";
     "  }";
     "};"]).
Proof. intros. vm_compute. reflexivity. Qed.
Lemma drawn_header : forall H : Heck, cxx_header 9 drawing drawn.
Proof. intros. split; [reflexivity|]. split; [vm_compute; reflexivity|]. split; [discriminate|]. split; [reflexivity|]. unfold drawn. rewrite C48_text. reflexivity. Qed.
Example C48_comparisons_applies : forall H : Heck, cxx_header 9 drawing drawn /\ struct_declared drawing pair_
  /\ Forall (operator_for (b_config drawing) pair_) (firstn 2 derived_operators)
  /\ other_name (b_config drawing) = "other" /\ compared_fields pair_ = ["a"; "b"] /\ S_Lex.is_ident (s_export_name pair_) = true
  /\ Forall (fun f => plain_name f = true /\ f <> other_name (b_config drawing)) (compared_fields pair_).
Proof.
  intros. split; [apply drawn_header|]. split; [left; split; [cbn; auto|reflexivity]|].
  split; [repeat (apply Forall_cons || apply Forall_nil); (split; [reflexivity|split; [discriminate|repeat constructor]])|].
  split; [reflexivity|]. split; [reflexivity|]. split; [reflexivity|]. repeat (apply Forall_cons || apply Forall_nil); (split; [reflexivity|discriminate]).
Qed.
Example C48_flags_applies : forall H : Heck, flags_named drawing mask_ (fld "bits" u8).
Proof.
  intros. split; [left; split; [cbn; auto|reflexivity]|]. repeat (split; [reflexivity|]). discriminate.
Qed.
Example C48_data_applies : forall H : Heck, data_enum_declared drawing shape /\ enum_equated shape /\ map data_name (e_variants shape) = [Some "circle"; None].
Proof.
  intros. split; [|split; [|reflexivity]].
  - split; [cbn; auto|]. split; [discriminate|]. split; [repeat constructor|]. split; [reflexivity|]. split; [reflexivity|]. split; [repeat constructor; cbn; intuition discriminate|].
    split; [reflexivity|]. split; [discriminate|]. repeat (apply Forall_cons || apply Forall_nil); (split; [reflexivity|]); [|exact Logic.I]. split; [reflexivity|]. split; [discriminate|reflexivity].
  - repeat (apply Forall_cons || apply Forall_nil); [|exact Logic.I]. split; [discriminate|repeat constructor].
Qed.
(** Values for it: numbers, and objects with members. *)
Inductive val := Number (n : N) | Object (l : list (string * val)).
Definition member_of (v : val) (f : string) : option val := match v with Object l => lookup f l | _ => None end.
Fixpoint equal_val (v w : val) : bool :=
  match v, w with
  | Number n, Number m => N.eqb n m
  | Object l, Object l' => (fix all (a b : list (string * val)) : bool :=
      match a, b with [], [] => true | (x, v) :: a', (y, w) :: b' => String.eqb x y && equal_val v w && all a' b' | _, _ => false end) l l'
  | _, _ => false
  end.
Definition bytes_ : world := {|
  wo_value := val;
  wo_member := member_of;
  wo_with := fun v f d => match v with Object l => Some (Object ((f, d) :: l)) | _ => None end;
  wo_without := fun v f => match v with Object l => Some (Object (filter (fun p => negb (String.eqb (fst p) f)) l)) | _ => None end;
  wo_named := fun n => if String.eqb n "Tag::Circle" then Some (Number 0) else if String.eqb n "Tag::Point" then Some (Number 1) else None;
  wo_compare := fun o v w => if String.eqb o "==" then Some (equal_val v w) else if String.eqb o "!=" then Some (negb (equal_val v w)) else None;
  wo_operate := fun o v w => match v, w with Number a, Number b => if String.eqb o "|" then Some (Number (N.lor a b)) else if String.eqb o "&" then Some (Number (N.land a b)) else Some (Number (N.lxor a b)) | _, _ => None end;
  wo_complement := fun v => match v with Number a => Some (Number (255 - a)) | _ => None end;
  wo_truth := fun v => match v with Number a => Some (negb (N.eqb a 0)) | _ => None end;
  wo_make := fun _ bits v => Some (Object [(bits, v)]) |}.
Definition circle_ (r : N) : val := Object [("tag", Number 0); ("circle", Object [("r", Number r)])].
Definition point_ : val := Object [("tag", Number 1)].
Example C48_values : tag_of bytes_ shape (Number 0) (EnumVariant_new "Circle" None (VBody "circle" (body "Circle_Body" [] [fld "r" u8]) false false) None [])
  /\ tag_of bytes_ shape (Number 1) (unit_variant "Point" None)
  /\ returns bytes_ (equal_body shape "other") (circle_ 3) [("other", circle_ 3)] (circle_ 3) (Truth true)
  /\ returns bytes_ (equal_body shape "other") (circle_ 3) [("other", circle_ 4)] (circle_ 3) (Truth false)
  /\ returns bytes_ (equal_body shape "other") (circle_ 3) [("other", point_)] (circle_ 3) (Truth false)
  /\ returns bytes_ (equal_body shape "other") point_ [("other", point_)] point_ (Truth true)
  /\ Forall2 (member_compares bytes_ "==" (Object [("a", Number 1); ("b", Number 2)]) (Object [("a", Number 1); ("b", Number 3)])) ["a"; "b"] [true; false].
Proof.
  assert (K : forall k, 5 <= k -> exists j, k = 5 + j) by (intros k L; exists (k - 5); apply le_plus_minus; exact L).
  split; [intros w [<-|[<-|[]]]; eexists; split; reflexivity|]. split; [intros w [<-|[<-|[]]]; eexists; split; reflexivity|].
  repeat (split; [exists 5; intros m L; destruct (K m L) as (j & ->); reflexivity|]).
  repeat constructor; eexists; eexists; repeat split.
Qed.

(** ** What does not hold *)
(** A field called like the parameter is not compared: both sides are the argument's. *)
Definition hidden : Struct := Struct_new "Link" [] [fld "other" u8] false false None false None (asking ["derive-eq"]) [].
Theorem C48_hidden_field_refuted : forall H : Heck,
  bindings_text 9 (header_of [ICStruct hidden]) = Done (printed
    ["#include <cstdarg>"; "#include <cstdint>"; "#include <cstdlib>"; "#include <ostream>"; "#include <new>"; "";
     "struct Link {"; "  uint8_t other;"; ""; "  bool operator==(const Link& other) const {"; "    return other == other.other;"; "  }"; "};"])
  /\ is_method "bool operator==(const Link& other) const { return other == other.other; }" (operator_head "==" "Link" "other") [SReturn (cmpe "==" "other" "other")]
  /\ forall W self self2 x r, returns W [SReturn (cmpe "==" "other" "other")] self [("other", x)] self r ->
       returns W [SReturn (cmpe "==" "other" "other")] self2 [("other", x)] self2 r.
Proof.
  intro H. split; [vm_compute; reflexivity|]. split.
  - exists [Id "return"; Id "other"; Op "=="; Id "other"; Op "."; Id "other"; Op ";"]. split.
    + apply (pieces_lex [head_chunks "==" "other" "Link"; [P "{"]; [W "return"; B; W "other"; B; P "=="; B; W "other"; P "."; W "other"; P ";"]; [P "}"]]); [reflexivity|].
      exists "", (text (head_chunks "==" "other" "Link")), " { return other == other.other; }". repeat split.
      exists " ", "{", " return other == other.other; }". repeat split. exists " ", "return other == other.other;", " }". repeat split. exists " ", "}", "". repeat split.
    + apply block_body. apply block_one. apply (return_reads (cmp "==" "other" "other")); [reflexivity|apply expr_cmp; cbn; auto].
  - intros W self self2 x r (n & R). exists (S n). intros [|m] L; [inversion L|]. specialize (R (S n) (le_S _ _ (le_n n))). cbn in R |- *.
    destruct (wo_member W x "other") as [d|]; [|discriminate]. cbn in R |- *. destruct (wo_compare W "==" x d); [|discriminate]. cbn in R |- *. injection R as <-. reflexivity.
Qed.
(** A variant without fields, in an enum whose tag is part of every variant, is given a comparison that returns nothing. *)
Definition unit_body : Struct := Struct_new "A_Body" [] [fld "tag" (ty "Tag")] true true None false None (asking ["derive-eq"]) [].
Definition only_tag : Enum := Enum_new "E" [] {| rp_style := ReprRust; rp_ty := None; rp_align := None |} [EnumVariant_new "A" None (VBody "a" unit_body false false) None []] (Some "Tag") None AnnotationSet_new [].
(** A field under a condition is compared whether or not it is there. *)
Definition optional : Struct :=
  Struct_new "Opt" [] [fld "a" u8; {| fd_name := "b"; fd_ty := u8; fd_cfg := Some (CBoolean "wide"); fd_annotations := AnnotationSet_new; fd_documentation := [] |}]
    false false None false None (asking ["derive-eq"]) [].
Definition header_lines : list string := ["#include <cstdarg>"; "#include <cstdint>"; "#include <cstdlib>"; "#include <ostream>"; "#include <new>"; ""].
Theorem C48_conditional_field_refuted : forall H : Heck,
  bindings_text 9 (header_in (T_Enums.with_defines [("wide", "WIDE")] (config_with Cxx default_export SortNone)) [ICStruct optional]) = Done (printed (header_lines ++
    ["struct Opt {"; "  uint8_t a;"; "#if defined(WIDE)"; "  uint8_t b"; "#endif"; "  ;"; "";
     "  bool operator==(const Opt& other) const {"; "    return a == other.a &&"; "           b == other.b;"; "  }"; "};"])).
Proof. intros. vm_compute. reflexivity. Qed.
Theorem C48_no_fields_refuted : forall H : Heck,
  bindings_text 9 (header_of [ICEnum only_tag]) = Done (printed (header_lines ++
    ["union E {"; "  enum class Tag {"; "    A,"; "  };"; ""; "  struct A_Body {"; "    Tag tag;"; "";
     "    bool operator==(const A_Body& other) const {"; "      return ;"; "    }"; "  };"; ""; "  struct {"; "    Tag tag;"; "  };"; "  A_Body a;"; "};"]))
  /\ forall body, ~ body_of [Id "return"; Op ";"] body.
Proof.
  intro H. split; [vm_compute; reflexivity|].
  intros l (n & R). specialize (R (5 + n) (Nat.le_add_l n 5)). discriminate R.
Qed.
