(** Model of src/bindgen/reserved.rs *)
Require Import Coq.Strings.String Coq.Lists.List Coq.Arith.Arith.
From Verif Require Import Base.
Import ListNotations.
Open Scope string_scope.

(** reserved.rs:8-82, the table in source order. *)
Definition RESERVED_KEYWORDS : list string := [
"alignas"; "alignof"; "auto"; "bool"; "break"; "case"; "catch"; "char"; "char16_t"; "char32_t"; "char8_t"; "class"; "const"; "const_cast"; "consteval"; "constexpr"; "continue"; "decltype"; "default"; "delete"; "do"; "double"; "dynamic_cast"; "else"; "enum"; "explicit"; "export"; "extern"; "false"; "float"; "for"; "friend"; "goto"; "if"; "inline"; "int"; "long"; "mutable"; "namespace"; "new"; "noexcept"; "nullptr"; "operator"; "private"; "protected"; "public"; "register"; "reinterpret_cast"; "return"; "short"; "signed"; "sizeof"; "static"; "static_assert"; "static_cast"; "struct"; "switch"; "template"; "this"; "thread_local"; "throw"; "true"; "try"; "typedef"; "typename"; "union"; "unsigned"; "using"; "virtual"; "void"; "volatile"; "wchar_t"; "while"
].

(** The result of [slice::binary_search_by] as data; [BsFuel] is the
    out-of-fuel value of the model, proved unreachable. *)
Inductive bs_result := BsOk (i : nat) | BsErr | BsFuel | BsOob.

(** The loop of core::slice::binary_search_by (the library function called at
    reserved.rs:85-86): [while size > 1 { half = size / 2; mid = base + half;
    base = if cmp(mid) == Greater { base } else { mid }; size -= half }]
    followed by one last comparison at [base].  [BsOob] is the index panic. *)
Fixpoint bs_loop (l : list string) (key : string) (fuel size base : nat) : bs_result :=
  match fuel with
  | O => BsFuel
  | S fuel' =>
      if Nat.leb size 1 then
        match nth_error l base with
        | None => BsOob
        | Some x => match String.compare x key with Eq => BsOk base | _ => BsErr end
        end
      else
        let half := Nat.div2 size in
        let mid := base + half in
        match nth_error l mid with
        | None => BsOob
        | Some x =>
            bs_loop l key fuel' (size - half)
              (match String.compare x key with Gt => base | _ => mid end)
        end
  end.

Definition binary_search (l : list string) (key : string) : bs_result :=
  match l with
  | [] => BsErr
  | _ => bs_loop l key (length l) (length l) 0
  end.

(** reserved.rs:84-91.  [None] models a panic inside the search. *)
Definition escape (rust_identifier : string) : option string :=
  match binary_search RESERVED_KEYWORDS rust_identifier with
  | BsOk _ => Some (rust_identifier ++ "_")
  | BsErr => Some rust_identifier
  | BsFuel | BsOob => None
  end.

(** The same with the panic value made visible in the string; used by the
    callers' models.  [P_Reserved.escape_total] shows it never is the marker. *)
Definition escape_str (s : string) : string :=
  match escape s with Some r => r | None => "<panic>" end.
