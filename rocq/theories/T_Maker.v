(** C48 again: the C++ functions that make objects, and those that give the data of a variant. *)
Require Import Coq.Strings.String Coq.Strings.Ascii Coq.Lists.List Coq.Bool.Bool Coq.Arith.Arith Coq.NArith.NArith.
From Verif Require Import Base M_Config M_Cfg M_Type M_Ir M_Item M_Library M_Literal M_Bindings M_Attr M_Syn M_Backend S_Lex S_Decl M_Loader M_Parser S_File S_Shown S_Heck S_Suite S_Demo S_Expr P_SigLib
  S_Method S_Derived S_Maker P_MethodLex P_Method P_Derived P_Maker T_Parse T_Signature T_Datatypes T_Enums T_Constants T_Method.
Import ListNotations.
Open Scope string_scope.

(** For every variant of an enum asking for helper methods there is a static
    function of its name that takes the fields of its data in order.  Whatever
    objects are, as long as a member keeps what is put into it and members do
    not disturb each other, what it returns has the tag of the variant, and in
    each field the argument given for it. *)
Theorem C48_variant_constructor : forall (H : Heck) fuel b t e v, cxx_header fuel b t -> In (AnItem (ICEnum e)) (definitions b) -> e_tag e <> None -> enum_named (b_config b) e ->
  In v (e_variants e) -> wanted (e_annotations e) "derive-helper-methods" (en_derive_helper_methods (enumeration (b_config b))) = true -> makeable b e v ->
  exists head params rest us l, within (head ++ params ++ rest) t /\ made_of head [say ("static " ++ e_export_name e ++ " " ++ v_export_name v ++ "(")]
    /\ made_of params (maker_parameters b v) /\ Lexes rest (Op ")" :: Op "{" :: us ++ [Op "}"]) /\ actions (pointer_words (dialect_of (b_config b))) us l
    /\ forall W raw vals k, holds_data W (data_place v) (map fd_name (given_fields v)) -> List.length vals = List.length (given_fields v) ->
       wo_named W (enumerator e v) = Some k -> wo_member W (raw (e_export_name e)) "tag" <> None ->
       Forall (fun f => got W (raw (e_export_name e)) [data_place v; fd_name f] <> None) (given_fields v) ->
       exists o, perform W raw (combine (map (param_name (b_config b)) (given_fields v)) vals) None l = Some o
         /\ wo_member W o "tag" = Some k /\ Forall2 (fun f x => got W o [data_place v; fd_name f] = Some x) (given_fields v) vals.
Proof.
  intros H fuel b t e v (C & A & T & N & W) IE TE EN IV WA MK. exact (maker_found fuel b t C A T N W e IE TE EN v IV WA MK).
Qed.
Print Assumptions C48_variant_constructor.

(** Where casts are asked for, a variant with data has a function that asserts
    the object is of this variant and returns its data, or the only field if the
    variant is a tuple of one. *)
Theorem C48_cast : forall (H : Heck) fuel b t e v const_, cxx_header fuel b t -> In (AnItem (ICEnum e)) (definitions b) -> e_tag e <> None -> enum_named (b_config b) e ->
  In v (e_variants e) -> cast_wanted (b_config b) e const_ = true -> given_fields v <> [] -> S_Lex.is_ident (assertion_name (b_config b)) = true ->
  exists kind rest us body, within (kind ++ rest) t /\ made_of kind [cast_type_piece b v const_]
    /\ Lexes rest (cast_head v const_ ++ Op "{" :: assertion (b_config b) v ++ us ++ [Op "}"]) /\ body_of us body
    /\ forall W self d, wo_member W self (data_place v) = Some d ->
       match v_body v with
       | VBody _ _ _ true => forall f x, given_fields v = [f] -> fd_name f = "_0" -> wo_member W d (fd_name f) = Some x -> returns W body self [] self (Value x)
       | _ => returns W body self [] self (Value d)
       end.
Proof.
  intros H fuel b t e v k (C & A & T & N & W) IE TE EN IV WA GF IA. exact (cast_found fuel b t C A T N W e IE TE EN v k IV WA GF IA).
Qed.
Print Assumptions C48_cast.

(** A struct asking for a constructor has one that takes its fields in order and
    sets each field, in the order of their declaration, to the argument given for it. *)
Theorem C48_constructor : forall (H : Heck) fuel b t s, cxx_header fuel b t -> struct_declared b s ->
  wanted (s_annotations s) "derive-constructor" (st_derive_constructor (structure (b_config b))) = true -> s_fields s <> [] ->
  Forall (fun f => S_Lex.is_ident (fd_name f) = true /\ S_Lex.is_ident (param_name (b_config b) f) = true) (s_fields s) -> NoDup (map (param_name (b_config b)) (s_fields s)) ->
  exists head params rest us l, within (head ++ params ++ rest) t /\ made_of head [say (s_export_name s ++ "(")] /\ made_of params (constructor_parameters b s)
    /\ Lexes rest (Op ")" :: Op ":" :: us ++ [Op "{"; Op "}"]) /\ initialisers us = Some l /\ map fst l = map fd_name (s_fields s)
    /\ forall (A : Type) (vals : list A), List.length vals = List.length (s_fields s) ->
       Forall2 (fun i x => lookup (snd i) (combine (map (param_name (b_config b)) (s_fields s)) vals) = Some x) l vals.
Proof.
  intros H fuel b t s (C & A & T & N & W) SD WA NE F ND. exact (constructor_found fuel b t C A T N W s SD WA NE F ND).
Qed.
Print Assumptions C48_constructor.

(** ** An example *)
Definition arc : EnumVariant := EnumVariant_new "Arc" None (VBody "arc" (body "Arc_Body" [] [fld "r" u8; fld "of" (ptr u8)]) false false) None [].
Definition dot_ : EnumVariant := EnumVariant_new "Dot" None (VBody "dot" (body "Dot_Body" [] [fld "_0" u8]) false true) None [].
Definition figure : Enum :=
  Enum_new "Figure" [] repr_c [arc; dot_; unit_variant "None" None] (Some "Tag") None (asking ["derive-helper-methods"; "derive-const-casts"; "derive-mut-casts"]) [].
Definition span : Struct := Struct_new "Span" [] [fld "from" u8; fld "to" u8] false false None false None (asking ["derive-constructor"]) [].
Definition figures : Bindings := header_of [ICEnum figure; ICStruct span].
Definition figures_header {H : Heck} : string := match bindings_text 9 figures with Done t => t | _ => "" end.
Example C48_figures : forall H : Heck, bindings_text 9 figures = Done (printed (header_lines ++
   ["struct Figure {"; "  enum class Tag {"; "    Arc,"; "    Dot,"; "    None,"; "  };"; "";
    "  struct Arc_Body {"; "    uint8_t r;"; "    uint8_t *of;"; "  };"; "";
    "  struct Dot_Body {"; "    uint8_t _0;"; "  };"; "";
    "  Tag tag;"; "  union {"; "    Arc_Body arc;"; "    Dot_Body dot;"; "  };"; "";
    "  static Figure Arc(const uint8_t &r,"; "                    uint8_t *const &of) {"; "    Figure result;"; "    ::new (&result.arc.r) (uint8_t)(r);"; "    ::new (&result.arc.of) (uint8_t*)(of);";
    "    result.tag = Tag::Arc;"; "    return result;"; "  }"; "";
    "  bool IsArc() const {"; "    return tag == Tag::Arc;"; "  }"; "";
    "  const Arc_Body& AsArc() const {"; "    assert(IsArc());"; "    return arc;"; "  }"; "";
    "  Arc_Body& AsArc() {"; "    assert(IsArc());"; "    return arc;"; "  }"; "";
    "  static Figure Dot(const uint8_t &_0) {"; "    Figure result;"; "    ::new (&result.dot._0) (uint8_t)(_0);"; "    result.tag = Tag::Dot;"; "    return result;"; "  }"; "";
    "  bool IsDot() const {"; "    return tag == Tag::Dot;"; "  }"; "";
    "  const uint8_t& AsDot() const {"; "    assert(IsDot());"; "    return dot._0;"; "  }"; "";
    "  uint8_t& AsDot() {"; "    assert(IsDot());"; "    return dot._0;"; "  }"; "";
    "  static Figure None() {"; "    Figure result;"; "    result.tag = Tag::None;"; "    return result;"; "  }"; "";
    "  bool IsNone() const {"; "    return tag == Tag::None;"; "  }"; "};"; "";
    "struct Span {"; "  uint8_t from;"; "  uint8_t to;"; "";
    "  Span(uint8_t const& from,"; "       uint8_t const& to)"; "    : from(from),"; "      to(to)"; "  {}"; ""; "};"])).
Proof. intros. vm_compute. reflexivity. Qed.
Lemma figures_cxx : forall H : Heck, cxx_header 9 figures figures_header.
Proof. intros. split; [reflexivity|]. split; [vm_compute; reflexivity|]. split; [discriminate|]. split; [reflexivity|]. unfold figures_header. rewrite C48_figures. reflexivity. Qed.
Example C48_makers_apply : forall H : Heck, cxx_header 9 figures figures_header /\ In (AnItem (ICEnum figure)) (definitions figures) /\ e_tag figure <> None /\ enum_named (b_config figures) figure
  /\ wanted (e_annotations figure) "derive-helper-methods" false = true /\ Forall (makeable figures figure) (e_variants figure)
  /\ map given_fields (e_variants figure) = [[fld "r" u8; fld "of" (ptr u8)]; [fld "_0" u8]; []] /\ map (enumerator figure) (e_variants figure) = ["Tag::Arc"; "Tag::Dot"; "Tag::None"].
Proof.
  intro H. split; [apply figures_cxx|]. split; [cbn; auto|]. split; [discriminate|]. split; [|split; [reflexivity|split; [|split; reflexivity]]].
  - split; [reflexivity|]. split; [reflexivity|]. split; [repeat constructor; cbn; intuition discriminate|]. split; [reflexivity|]. split; [discriminate|].
    repeat (apply Forall_cons || apply Forall_nil); (split; [reflexivity|]); try exact Logic.I; (split; [reflexivity|]; split; [discriminate|reflexivity]).
  - repeat (apply Forall_cons || apply Forall_nil); (split; [discriminate| | | |]); cbn; repeat (constructor || (cbn; intuition discriminate)).
Qed.
Example C48_casts_apply : forall (H : Heck) const_, cast_wanted (b_config figures) figure const_ = true /\ assertion_name (b_config figures) = "assert"
  /\ cast_type_piece figures arc const_ = say ((if const_ then "const " else "") ++ "Arc_Body&").
Proof. intros H [|]; repeat split. Qed.
Example C48_constructor_applies : forall H : Heck, struct_declared figures span /\ wanted (s_annotations span) "derive-constructor" false = true
  /\ map (param_name (b_config figures)) (s_fields span) = ["from"; "to"].
Proof. intros. split; [left; split; [cbn; auto|reflexivity]|]. split; reflexivity. Qed.
(** Objects that meet what is asked: those of C48_values. *)
Definition unset : val := Object [("tag", Number 9); ("circle", Object [("r", Number 9)])].
Example C48_objects : holds_data bytes_ "circle" ["r"] /\ wo_member bytes_ unset "tag" <> None /\ got bytes_ unset ["circle"; "r"] <> None
  /\ perform bytes_ (fun _ => unset) [("r", Number 3)] None
       [Declares "Shape" "result"; Constructs "result" ["circle"; "r"] (CName false None ["uint8_t"] []) "r"; Assigns "result" ["tag"] "Tag::Circle"; GivesBack "result"]
     = Some (Object [("tag", Number 0); ("circle", Object [("r", Number 3); ("r", Number 9)]); ("tag", Number 9); ("circle", Object [("r", Number 9)])]).
Proof.
  split; [|split; [discriminate|split; [discriminate|reflexivity]]]. split.
  - intros [n|l] f u w E; [discriminate|]. injection E as <-. cbn. rewrite String.eqb_refl. reflexivity.
  - intros [n|l] f u E; [exfalso; exact (E eq_refl)|discriminate].
  - intros [n|l] u w E T; [discriminate|]. injection E as <-. exact T.
  - intros [n|l] f u w g [<-|[]] [<-|[]] N E; congruence.
  - intros [n|l] u w g [<-|[]] E; [discriminate|]. injection E as <-. reflexivity.
Qed.

(** ** What does not hold *)
Definition named_rules (c : Config) (r : RenameRule) : Config :=
  let x := structure c in
  S_Demo.configured c (style c)
    {| st_rename_fields := r; st_derive_constructor := st_derive_constructor x; st_derive_eq := st_derive_eq x;
       st_derive_neq := st_derive_neq x; st_derive_lt := st_derive_lt x; st_derive_lte := st_derive_lte x; st_derive_gt := st_derive_gt x;
       st_derive_gte := st_derive_gte x; st_derive_ostream := st_derive_ostream x; st_associated_constants_in_body := st_associated_constants_in_body x;
       st_rename_associated_constant := st_rename_associated_constant x; st_must_use := st_must_use x; st_deprecated := st_deprecated x;
       st_deprecated_with_note := st_deprecated_with_note x |} (M_Config.constant c).
Definition tuple_ (l : list string) : sfields := FieldsUnnamed (map (fun t => {| sf_attrs := []; sf_ident := None; sf_ty := named t |}) l).
Definition helping (n : string) (vs : list svariant) : sitem :=
  ItemEnum [doc_ " cbindgen:derive-helper-methods"; doc_ " cbindgen:derive-const-casts"; att (AList (Some "repr") [APath (Some "C"); APath (Some "u8")])] n [] vs.
Definition using_ (n : string) : sitem := ItemFn [no_mangle] true (sig_ "f" [arg_ "x" (named n)] None).
(** The only field of a tuple is called [_0] by the cast, whatever a rename rule has made of its name. *)
Theorem C48_cast_renamed_refuted : run_items (H := ascii_heck) (named_rules in_cxx_defines (RPrefix "m_")) [helping "Shape" [variant_ [] "Dot" (tuple_ ["u8"]) None]; using_ "Shape"] = cxx_headed
  ["struct Shape {"; "  enum class Tag : uint8_t {"; "    Dot,"; "  };"; ""; "  struct Dot_Body {"; "    uint8_t m_0;"; "  };"; ""; "  Tag tag;"; "  union {"; "    Dot_Body dot;"; "  };"; "";
   "  static Shape Dot(const uint8_t &m_0) {"; "    Shape result;"; "    ::new (&result.dot.m_0) (uint8_t)(m_0);"; "    result.tag = Tag::Dot;"; "    return result;"; "  }"; "";
   "  bool IsDot() const {"; "    return tag == Tag::Dot;"; "  }"; "";
   "  const uint8_t& AsDot() const {"; "    assert(IsDot());"; "    return dot._0;"; "  }"; "};"; "";
   "extern " ++ dquote ++ "C" ++ dquote ++ " {"; ""; "void f(Shape x);"; ""; "}  // extern " ++ dquote ++ "C" ++ dquote].
Proof. vm_compute. reflexivity. Qed.
(** A field called [result] is a parameter of that name, which the function declares again. *)
Theorem C48_result_field_refuted : run_items (H := ascii_heck) in_cxx_defines [helping "Shape" [variant_ [] "Res" (FieldsNamed [fld_ "result" "u8"]) None]; using_ "Shape"] = cxx_headed
  ["struct Shape {"; "  enum class Tag : uint8_t {"; "    Res,"; "  };"; ""; "  struct Res_Body {"; "    uint8_t result;"; "  };"; ""; "  Tag tag;"; "  union {"; "    Res_Body res;"; "  };"; "";
   "  static Shape Res(const uint8_t &result) {"; "    Shape result;"; "    ::new (&result.res.result) (uint8_t)(result);"; "    result.tag = Tag::Res;"; "    return result;"; "  }"; "";
   "  bool IsRes() const {"; "    return tag == Tag::Res;"; "  }"; "";
   "  const Res_Body& AsRes() const {"; "    assert(IsRes());"; "    return res;"; "  }"; "};"; "";
   "extern " ++ dquote ++ "C" ++ dquote ++ " {"; ""; "void f(Shape x);"; ""; "}  // extern " ++ dquote ++ "C" ++ dquote].
Proof. vm_compute. reflexivity. Qed.
(** With a rename rule the fields of a tuple have numbers for names, and the tag
    of a variant can get the name of a field, or of its own type. *)
Theorem C44_tuple_names_refuted : run_items (H := ascii_heck) (named_rules c_types CamelCase) [ItemStruct [repr_c_] "Pair" [] (tuple_ ["u8"; "u16"]); using_ "Pair"] = c_headed
  ["typedef struct {"; "  uint8_t 0;"; "  uint16_t 1;"; "} Pair;"; ""; "void f(Pair x);"]
  /\ S_Lex.is_ident "0" = false.
Proof. split; vm_compute; reflexivity. Qed.
Theorem C44_renamed_tag_refuted : run_items (H := ascii_heck) (named_rules c_types PascalCase)
    [ItemEnum [att (AList (Some "repr") [APath (Some "u8")])] "E" [] [variant_ [] "A" (FieldsNamed [fld_ "tag" "u8"; fld_ "x" "u8"]) None]; using_ "E"] = c_headed
  ["enum E_Tag"; "#if __STDC_VERSION__ >= 202311L"; "  : uint8_t"; "#endif // __STDC_VERSION__ >= 202311L"; " {"; "  A,"; "};"; "#if __STDC_VERSION__ >= 202311L"; "typedef enum E_Tag E_Tag;"; "#else";
   "typedef uint8_t E_Tag;"; "#endif // __STDC_VERSION__ >= 202311L"; "";
   "typedef struct {"; "  E_Tag Tag;"; "  uint8_t Tag;"; "  uint8_t X;"; "} A_Body;"; ""; "typedef union {"; "  E_Tag tag;"; "  A_Body a;"; "} E;"; ""; "void f(E x);"].
Proof. vm_compute. reflexivity. Qed.
(** The constructor of a struct with an array takes an array of references, which
    C++ does not have; constructor and stream output use a conditional field
    where there is none. *)
Definition bytes3 : sty := SArray (named "u8") (XLit (LitInt 3 "")).
Theorem C48_constructor_fields_refuted : run_items (H := ascii_heck) in_cxx_defines
  [ItemStruct [repr_c_; doc_ " cbindgen:derive-constructor"; doc_ " cbindgen:derive-ostream"] "P" [] (FieldsNamed [of_type "xs" bytes3; {| sf_attrs := [cfg_ "unix"]; sf_ident := Some "y"; sf_ty := named "u8" |}]); using_ "P"] = cxx_headed
  ["struct P {"; "  uint8_t xs[3];"; "#if defined(UNIX)"; "  uint8_t y"; "#endif"; "  ;"; "";
   "  P(uint8_t const& xs[3],"; "    uint8_t const& y)"; "    : xs(xs),"; "      y(y)"; "  {}"; "";
   "  friend std::ostream& operator<<(std::ostream& stream, const P& instance) {";
   "    return stream << " ++ dquote ++ "{ " ++ dquote ++ " << " ++ dquote ++ "xs=" ++ dquote ++ " << instance.xs << " ++ dquote ++ ", " ++ dquote;
   "                          << " ++ dquote ++ "y=" ++ dquote ++ " << instance.y << " ++ dquote ++ " }" ++ dquote ++ ";"; "  }"; "};"; "";
   "extern " ++ dquote ++ "C" ++ dquote ++ " {"; ""; "void f(P x);"; ""; "}  // extern " ++ dquote ++ "C" ++ dquote].
Proof. vm_compute. reflexivity. Qed.
Print Assumptions C48_constructor_fields_refuted.
(** The stream output of an enum has a case for a conditional variant where there is none. *)
Theorem C48_stream_variant_refuted : run_items (H := ascii_heck) in_cxx_defines
  [ItemEnum [repr_c_; doc_ " cbindgen:derive-ostream"] "E" [] [variant_ [cfg_ "unix"] "A" FieldsUnit None; variant_ [] "B" FieldsUnit None]; using_ "E"] = cxx_headed
  ["enum class E {"; "#if defined(UNIX)"; "  A,"; "#endif"; "  B,"; "};"; "";
   "inline std::ostream& operator<<(std::ostream& stream, const E& instance) {"; "  switch (instance) {";
   "    case E::A: stream << " ++ dquote ++ "A" ++ dquote ++ "; break;"; "    case E::B: stream << " ++ dquote ++ "B" ++ dquote ++ "; break;"; "  }"; "  return stream;"; "}"; "";
   "extern " ++ dquote ++ "C" ++ dquote ++ " {"; ""; "void f(E x);"; ""; "}  // extern " ++ dquote ++ "C" ++ dquote].
Proof. vm_compute. reflexivity. Qed.
Print Assumptions C48_stream_variant_refuted.
(** The function making a variant counts with [i]: an array of that name cannot be reached. *)
Theorem C48_index_field_refuted : run_items (H := ascii_heck) in_cxx_defines [helping "Shape" [variant_ [] "Arr" (FieldsNamed [of_type "i" bytes3]) None]; using_ "Shape"] = cxx_headed
  ["struct Shape {"; "  enum class Tag : uint8_t {"; "    Arr,"; "  };"; ""; "  struct Arr_Body {"; "    uint8_t i[3];"; "  };"; ""; "  Tag tag;"; "  union {"; "    Arr_Body arr;"; "  };"; "";
   "  static Shape Arr(const uint8_t (&i)[3]) {"; "    Shape result;"; "    for (int i = 0; i < 3; i++) {"; "      ::new (&result.arr.i[i]) (uint8_t)(i[i]);"; "    }"; "    result.tag = Tag::Arr;"; "    return result;"; "  }"; "";
   "  bool IsArr() const {"; "    return tag == Tag::Arr;"; "  }"; "";
   "  const Arr_Body& AsArr() const {"; "    assert(IsArr());"; "    return arr;"; "  }"; "};"; "";
   "extern " ++ dquote ++ "C" ++ dquote ++ " {"; ""; "void f(Shape x);"; ""; "}  // extern " ++ dquote ++ "C" ++ dquote].
Proof. vm_compute. reflexivity. Qed.
Print Assumptions C48_index_field_refuted.
