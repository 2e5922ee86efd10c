(** C44: data types and statics are declared with the fields and types they have
    in the sources. *)
Require Import Coq.Strings.String Coq.Strings.Ascii Coq.Lists.List Coq.Bool.Bool Coq.Arith.Arith Coq.NArith.NArith.
From Verif Require Import Base M_Config M_Cfg S_Cfg M_Type M_Ir M_Item M_Attr M_Syn M_Library M_Bindings M_Backend M_Loader M_Parser S_Parse S_Library S_Names S_Decl S_File S_Heck S_Suite
  S_Sources S_Signature S_Datatypes P_Datatypes P_DataText T_Parse T_Signature.
Import ListNotations.
Open Scope string_scope.

(** In the bindings.  Every struct, union, alias and static there is one of a
    module that was read: it has its name, its condition, its documentation and
    its layout, and its fields are those of the source, in the same order, each
    with its name, condition and annotations and with the C type its Rust type
    stands for; or it is an instance of a generic definition. *)
Theorem C44_bindings : forall (H : Heck) d c bitflags mfuel fuel std srcs lib l, parse_all d c bitflags mfuel fuel std srcs lib = Parsed l ->
  exists vss rs, sources_read d (parse c) srcs lib vss rs
    /\ forall pfuel visit l' b, prepare pfuel visit l = Done l' -> finish l' = Done b -> declared_from_sources c (keyword_in l') vss rs b.
Proof. exact datatypes_sources. Qed.
Print Assumptions C44_bindings.

(** In the text. *)
Theorem C44_text : forall (H : Heck) d c bitflags mfuel fuel std srcs lib l, parse_all d c bitflags mfuel fuel std srcs lib = Parsed l ->
  exists vss rs, sources_read d (parse c) srcs lib vss rs
    /\ forall pfuel visit l' b wfuel t, prepare pfuel visit l = Done l' -> finish l' = Done b -> bindings_text wfuel b = Done t ->
         proper_attributes c = true -> tab_width c <> 0 -> written_from_sources c (keyword_in l') vss rs b t.
Proof. exact datatypes_text. Qed.
Print Assumptions C44_text.

(** ** An example *)
Definition of_type (n : string) (t : sty) : sfield := {| sf_attrs := []; sf_ident := Some n; sf_ty := t |}.
Definition bare (t : sty) : sfield := {| sf_attrs := []; sf_ident := None; sf_ty := t |}.
Definition transparent_ : attribute := att (AList (Some "repr") [APath (Some "transparent")]).
Definition datatype_items : list sitem :=
  [ItemStruct [repr_c_] "Foo" [] (FieldsNamed
     [fld_ "a" "u8"; of_type "gone" (of_ "PhantomData" (named "u8"));
      {| sf_attrs := [cfg_ "unix"]; sf_ident := Some "r#int"; sf_ty := SPtr false (named "Self") |};
      of_type "list" (SArray (named "u16") (XLit (LitInt 4 "")));
      of_type "cb" (of_ "Option" (SFnPtr [(Some "x", named "i32")] false (Some (named "bool"))))]);
   ItemStruct [repr_c_] "Pair" [] (FieldsUnnamed [bare (named "u8"); bare (STuple []); bare (named "i64")]);
   ItemStruct [transparent_] "Handle" [] (FieldsUnnamed [bare (SPtr true (named "Foo"))]);
   ItemUnion [repr_c_] "Bits" [] [fld_ "f" "f32"; of_type "n" (SArray (named "u8") (XLit (LitInt 4 "")))];
   ItemType [] "Callback" [] (of_ "Option" (SFnPtr [(None, named "Handle")] false None));
   ItemStruct [repr_c_] "Wrap" [SGType "T" None] (FieldsNamed [of_type "inner" (SPtr true (named "T"))]);
   ItemStatic [no_mangle] "COUNT" true (named "u32");
   ItemStatic [no_mangle] "LIMIT" false (named "Bits");
   ItemFn [no_mangle] true (sig_ "go" [arg_ "x" (named "Foo"); arg_ "y" (named "Pair"); arg_ "z" (named "Callback"); arg_ "w" (of_ "Wrap" (named "u8"))] None)].
Definition run_items {H : Heck} (c : Config) (items : list sitem) : option string :=
  match parse_all {| dk_exists := fun _ => false; dk_items := fun _ => Some items |} c false 9 9 true [["x.rs"]] None with
  | Parsed l => match generate 9 (fun x => x) l with
                | Done b => match bindings_text 20 b with Done t => Some t | _ => None end
                | _ => None
                end
  | _ => None
  end.
Definition c_headed (l : list string) : option string :=
  Some (written (["#include <stdarg.h>"; "#include <stdbool.h>"; "#include <stdint.h>"; "#include <stdlib.h>"; ""] ++ l)%list).
Example C44_example : forall H : Heck, run_items c_tags datatype_items = c_headed
  ["struct Foo {"; "  uint8_t a;"; "  const struct Foo *int_;"; "  uint16_t list[4];"; "  bool (*cb)(int32_t x);"; "};"; "";
   "struct Pair {"; "  uint8_t _0;"; "  int64_t _1;"; "};"; "";
   "typedef struct Foo *Handle;"; "";
   "typedef void (*Callback)(Handle);"; "";
   "struct Wrap_u8 {"; "  uint8_t *inner;"; "};"; "";
   "union Bits {"; "  float f;"; "  uint8_t n[4];"; "};"; "";
   "extern uint32_t COUNT;"; "";
   "extern const union Bits LIMIT;"; "";
   "void go(struct Foo x, struct Pair y, Callback z, struct Wrap_u8 w);"].
Proof. intros. vm_compute. reflexivity. Qed.
(** The fields of [Foo] and [Pair] have C types, and can be declared. *)
Example C44_example_types : forall H : Heck,
  let kw n := if mem_str n ["Foo"; "Pair"] then Some DStruct else if String.eqb n "Bits" then Some DUnion else None in
  map (fun i => match i with
                | ItemStruct _ n _ f => map (fun m => (fst m, option_map (fun _ => tt) (rust_type c_tags kw (Some n) false false (sf_ty (snd m))))) (struct_members f)
                | _ => []
                end) (firstn 3 datatype_items)
  = [[("a", Some tt); ("int", Some tt); ("list", Some tt); ("cb", Some tt)]; [("0", Some tt); ("1", Some tt)]; [("0", Some tt)]].
Proof. intros. vm_compute. reflexivity. Qed.

(** ** Where the property fails *)
(** A static of a generic type in C: no instance is made for it and its type is
    written with angle brackets. *)
Theorem C44_generic_static_refuted : forall H : Heck,
  run_items c_tags [ItemStruct [repr_c_] "Wrap" [SGType "T" None] (FieldsNamed [of_type "inner" (named "T")]);
                    ItemStatic [no_mangle] "X" false (of_ "Wrap" (named "u8"))]
  = c_headed ["extern const Wrap<uint8_t> X;"].
Proof. intros. vm_compute. reflexivity. Qed.
Print Assumptions C44_generic_static_refuted.
(** A static array of pointers: [const] is written twice, an error in C++, and
    the pointers themselves are not constant. *)
Theorem C44_static_array_refuted : forall H : Heck,
  run_items c_tags [ItemStatic [no_mangle] "X" false (SArray (SPtr false (named "u8")) (XLit (LitInt 3 "")))]
  = c_headed ["extern const const uint8_t *X[3];"].
Proof. intros. vm_compute. reflexivity. Qed.
Print Assumptions C44_static_array_refuted.
(** With a rule for renaming fields, the fields of a tuple struct are called
    [0], [1], ..: the underscore is put in front only without a rule. *)
Theorem C44_tuple_rename_refuted : 
  run_items (H := ascii_heck) c_tags [ItemStruct [repr_c_; doc_ " cbindgen:rename-all=LowerCase"] "Pair" [] (FieldsUnnamed [bare (named "u8")]);
                    ItemFn [no_mangle] true (sig_ "go" [arg_ "y" (named "Pair")] None)]
  = c_headed ["struct Pair {"; "  uint8_t 0;"; "};"; ""; "void go(struct Pair y);"].
Proof. vm_compute. reflexivity. Qed.
Print Assumptions C44_tuple_rename_refuted.

(** [()] as an argument of a type is dropped and those after it move up: a pair
    of [()] and [u8] is declared like one of [u8] and the default [u16]. *)
Definition two_params : sitem :=
  ItemStruct [repr_c_] "Pair" [SGType "A" None; SGType "B" (Some (named "u16"))]
    (FieldsNamed [{| sf_attrs := []; sf_ident := Some "a"; sf_ty := SPtr false (named "A") |}; fld_ "b" "B"]).
Definition takes_pair (args : list sgarg) : sitem :=
  ItemFn [no_mangle] true (sig_ "go" [arg_ "x" (SPath (SegPath [] "Pair" (AngleArgs args)))] None).
Theorem C44_unit_argument_refuted : forall H : Heck,
  run_items c_tags [two_params; takes_pair [ArgType (STuple []); ArgType (named "u8")]]
  = c_headed ["struct Pair_u8 {"; "  const uint8_t *a;"; "  uint16_t b;"; "};"; ""; "void go(struct Pair_u8 x);"]
  /\ run_items c_tags [two_params; takes_pair [ArgType (named "u8")]]
  = run_items c_tags [two_params; takes_pair [ArgType (STuple []); ArgType (named "u8")]].
Proof. intros. split; vm_compute; reflexivity. Qed.
Print Assumptions C44_unit_argument_refuted.
(** Casts in the length of an array are dropped: this one has length 1. *)
Theorem C44_array_length_refuted : forall H : Heck,
  run_items c_tags
    [ItemConst [] true "N" (named "u32") (XLit (LitInt 257 ""));
     ItemStruct [repr_c_] "S" [] (FieldsNamed [{| sf_attrs := []; sf_ident := Some "a";
       sf_ty := SArray (named "u8") (XCast (XCast (XPath (SegPath [] "N" NoArgs)) (named "u8")) (named "usize")) |}]);
     ItemFn [no_mangle] true (sig_ "go" [arg_ "s" (named "S")] None)]
  = c_headed ["#define N 257"; ""; "struct S {"; "  uint8_t a[N];"; "};"; ""; "void go(struct S s);"].
Proof. intros. vm_compute. reflexivity. Qed.
Print Assumptions C44_array_length_refuted.
