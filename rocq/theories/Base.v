(** Rust standard-library functions used by cbindgen, on byte strings and
    lists.  A Rust [String]/[str] is a sequence of UTF-8 bytes; Coq's
    [string] is a sequence of bytes, so it models it directly. *)
Require Import Coq.Strings.String Coq.Strings.Ascii Coq.Lists.List
  Coq.Arith.Arith Coq.Bool.Bool.
Import ListNotations.
Open Scope string_scope.

(** [str] concatenation of a list of pieces. *)
Fixpoint sconcat (l : list string) : string :=
  match l with
  | [] => ""
  | s :: r => s ++ sconcat r
  end.

(** [slice.iter().any(..)] membership on strings. *)
Fixpoint mem_str (s : string) (l : list string) : bool :=
  match l with
  | [] => false
  | x :: r => if String.eqb s x then true else mem_str s r
  end.

(** [HashMap::get] on a map keyed by strings, as an association list. *)
Fixpoint lookup {A} (k : string) (m : list (string * A)) : option A :=
  match m with
  | [] => None
  | (k', v) :: r => if String.eqb k k' then Some v else lookup k r
  end.

(** [str::starts_with]. *)
Fixpoint starts_with (p s : string) : bool :=
  match p, s with
  | "", _ => true
  | String a p', String b s' => if Ascii.eqb a b then starts_with p' s' else false
  | _, _ => false
  end.

(** [&s[n..]]; the callers only use it after checking the prefix. *)
Fixpoint sdrop (n : nat) (s : string) : string :=
  match n, s with
  | O, _ => s
  | S n', String _ s' => sdrop n' s'
  | S _, "" => ""
  end.

Fixpoint stake (n : nat) (s : string) : string :=
  match n, s with
  | O, _ => ""
  | S n', String a s' => String a (stake n' s')
  | S _, "" => ""
  end.

(** [char::is_whitespace] restricted to one-byte characters: U+0009..U+000D
    and U+0020.  (U+0085 and U+00A0 are two bytes long in UTF-8, so no single
    byte denotes them; multi-byte white space is not modelled.) *)
Definition is_white (a : ascii) : bool :=
  let n := nat_of_ascii a in
  (Nat.leb 9 n && Nat.leb n 13) || Nat.eqb n 32.

(** [str::trim_start]. *)
Fixpoint trim_start (s : string) : string :=
  match s with
  | "" => ""
  | String a r => if is_white a then trim_start r else s
  end.

Fixpoint srev_append (s acc : string) : string :=
  match s with
  | "" => acc
  | String a r => srev_append r (String a acc)
  end.
Definition srev (s : string) : string := srev_append s "".

(** [str::trim_end]. *)
Definition trim_end (s : string) : string := srev (trim_start (srev s)).
(** [str::trim]. *)
Definition trim (s : string) : string := trim_end (trim_start s).

(** [str::split(c)] for a one-byte separator: always at least one piece. *)
Fixpoint split_on (c : ascii) (s : string) : list string :=
  match s with
  | "" => [""]
  | String a r =>
      if Ascii.eqb a c then "" :: split_on c r
      else match split_on c r with
           | [] => [String a ""]
           | p :: ps => String a p :: ps
           end
  end.

(** [[String]::join(sep)]. *)
Fixpoint join (sep : string) (l : list string) : string :=
  match l with
  | [] => ""
  | [x] => x
  | x :: r => x ++ sep ++ join sep r
  end.

(** [" ".repeat(n)] and friends. *)
Fixpoint srepeat (s : string) (n : nat) : string :=
  match n with
  | O => ""
  | S n' => s ++ srepeat s n'
  end.

(** [str::replace(c, by)] for a one-byte pattern. *)
Fixpoint replace_char (c : ascii) (by_ : string) (s : string) : string :=
  match s with
  | "" => ""
  | String a r => if Ascii.eqb a c then by_ ++ replace_char c by_ r
                  else String a (replace_char c by_ r)
  end.

Definition str_ltb (a b : string) : bool :=
  match String.compare a b with Lt => true | _ => false end.
Definition str_leb (a b : string) : bool :=
  match String.compare a b with Gt => false | _ => true end.

Definition nl : string := String (ascii_of_nat 10) "".
Definition dquote : string := String (ascii_of_nat 34) "".

(** [Iterator::filter_map]. *)
Definition filter_map {A B} (f : A -> option B) : list A -> list B :=
  fix go (l : list A) : list B :=
    match l with
    | [] => []
    | x :: r => match f x with Some y => y :: go r | None => go r end
    end.
