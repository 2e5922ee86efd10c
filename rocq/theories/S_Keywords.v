(** The keywords of C (ISO C99, C11 and C17) and of C++ (ISO C++20), and the
    names of members and arguments in bindings. *)
Require Import Coq.Strings.String Coq.Lists.List Coq.Bool.Bool.
From Verif Require Import Base M_Config M_Ir M_Item M_Library.
Import ListNotations.
Open Scope string_scope.

(** ISO/IEC 9899:2018, 6.4.1 *)
Definition c_keywords : list string := [
  "auto"; "break"; "case"; "char"; "const"; "continue"; "default"; "do"; "double"; "else"; "enum"; "extern"; "float"; "for"; "goto"; "if";
  "inline"; "int"; "long"; "register"; "restrict"; "return"; "short"; "signed"; "sizeof"; "static"; "struct"; "switch"; "typedef"; "union";
  "unsigned"; "void"; "volatile"; "while"; "_Alignas"; "_Alignof"; "_Atomic"; "_Bool"; "_Complex"; "_Generic"; "_Imaginary"; "_Noreturn";
  "_Static_assert"; "_Thread_local"].
(** ISO/IEC 14882:2020, 5.11, with the alternative operator names *)
Definition cpp_keywords : list string := [
  "alignas"; "alignof"; "asm"; "auto"; "bool"; "break"; "case"; "catch"; "char"; "char8_t"; "char16_t"; "char32_t"; "class"; "concept"; "const";
  "consteval"; "constexpr"; "constinit"; "const_cast"; "continue"; "co_await"; "co_return"; "co_yield"; "decltype"; "default"; "delete"; "do";
  "double"; "dynamic_cast"; "else"; "enum"; "explicit"; "export"; "extern"; "false"; "float"; "for"; "friend"; "goto"; "if"; "inline"; "int";
  "long"; "mutable"; "namespace"; "new"; "noexcept"; "nullptr"; "operator"; "private"; "protected"; "public"; "register"; "reinterpret_cast";
  "requires"; "return"; "short"; "signed"; "sizeof"; "static"; "static_assert"; "static_cast"; "struct"; "switch"; "template"; "this";
  "thread_local"; "throw"; "true"; "try"; "typedef"; "typeid"; "typename"; "union"; "unsigned"; "using"; "virtual"; "void"; "volatile";
  "wchar_t"; "while"; "and"; "and_eq"; "bitand"; "bitor"; "compl"; "not"; "not_eq"; "or"; "or_eq"; "xor"; "xor_eq"].
(** Keywords the program does not know. *)
Definition overlooked : list string := [
  "restrict"; "_Alignas"; "_Alignof"; "_Atomic"; "_Bool"; "_Complex"; "_Generic"; "_Imaginary"; "_Noreturn"; "_Static_assert"; "_Thread_local";
  "asm"; "concept"; "constinit"; "co_await"; "co_return"; "co_yield"; "requires"; "typeid";
  "and"; "and_eq"; "bitand"; "bitor"; "compl"; "not"; "not_eq"; "or"; "or_eq"; "xor"; "xor_eq"].

(** A name that can be declared, as far as keywords go and the program knows them. *)
Definition acceptable (n : string) : Prop := (In n c_keywords \/ In n cpp_keywords) -> In n overlooked.

Definition struct_members (s : Struct) : list string := map fd_name (s_fields s).
Definition body_members (v : EnumVariant) : list string := match v_body v with VBody _ s _ _ => struct_members s | VEmpty _ => [] end.
(** the member of the union that holds the body of a variant *)
Definition holder (v : EnumVariant) : list string := match v_body v with VBody n _ _ _ => [n] | VEmpty _ => [] end.
(** members of structs, and of the structs that hold the data of enum variants *)
Definition item_members (i : ItemContainer) : list string :=
  match i with
  | ICStruct s => struct_members s
  | ICEnum e => concat (map body_members (e_variants e))
  | _ => []
  end.
Definition function_arguments (f : Function) : list string :=
  filter_map (fun a => a_name a) (f_args f).
Definition enumerators (e : Enum) : list string := map v_export_name (e_variants e).
Definition union_members (u : Union) : list string := map fd_name (u_fields u).

(** No rule renames the variants of the enum, and no prefix is put before them. *)
Definition variants_as_written (c : Config) (e : Enum) : Prop :=
  rule_or (e_annotations e) "rename-all" (en_rename_variants (enumeration c)) = Some RNone
  /\ match an_bool (e_annotations e) "prefix-with-name" with Some b => b | None => en_prefix_with_name (enumeration c) end = false.

(** ** C41: how a value refers to a variant of an enum *)
(** Variants keep their names, apart from escaping and a prefix. *)
Definition variants_keep_names (c : Config) (e : Enum) : Prop :=
  rule_or (e_annotations e) "rename-all" (en_rename_variants (enumeration c)) = Some RNone.
(** A C++ [enum class] puts its variants into its own scope. *)
Definition scoped_enum (c : Config) (e : Enum) : bool :=
  Language_eqb (language c) Cxx
  && match an_bool (e_annotations e) "enum-class" with Some x => x | None => en_enum_class (enumeration c) end.
(** A variant seen from outside of its enum. *)
Definition seen_from_outside (c : Config) (e : Enum) (v : EnumVariant) : string :=
  if scoped_enum c e then e_export_name e ++ "::" ++ v_export_name v else v_export_name v.
