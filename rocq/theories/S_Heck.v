(** The case conversions of the [heck] crate (version 0.5, src/lib.rs) for
    ASCII text, to run the model on real inputs.  [heck] is not part of this
    project; only examples and the property about rename rules (C56) use this. *)
Require Import Coq.Strings.String Coq.Strings.Ascii Coq.Lists.List Coq.Bool.Bool Coq.Arith.Arith.
From Verif Require Import Base M_Config.
Import ListNotations.
Open Scope string_scope.

Definition between (a b : nat) (c : ascii) : bool := Nat.leb a (nat_of_ascii c) && Nat.leb (nat_of_ascii c) b.
Definition is_upper (c : ascii) : bool := between 65 90 c.
Definition is_lower (c : ascii) : bool := between 97 122 c.
Definition is_alnum (c : ascii) : bool := is_upper c || is_lower c || between 48 57 c.
Definition upper (c : ascii) : ascii := if is_lower c then ascii_of_nat (nat_of_ascii c - 32) else c.
Definition lower (c : ascii) : ascii := if is_upper c then ascii_of_nat (nat_of_ascii c + 32) else c.
Fixpoint smap (f : ascii -> ascii) (s : string) : string :=
  match s with "" => "" | String c r => String (f c) (smap f r) end.

Inductive word_mode := MBoundary | MLower | MUpper.
Definition mode_after (m : word_mode) (c : ascii) : word_mode := if is_lower c then MLower else if is_upper c then MUpper else m.
Definition is_mlower (m : word_mode) : bool := match m with MLower => true | _ => false end.
Definition is_mupper (m : word_mode) : bool := match m with MUpper => true | _ => false end.
(** The words of [s]; [w] is the one begun. *)
Fixpoint words_of (m : word_mode) (w s : string) : list string :=
  let flush rest := if String.eqb w "" then rest else w :: rest in
  match s with
  | "" => flush []
  | String c r =>
      if negb (is_alnum c) then flush (words_of MBoundary "" r)
      else match r with
           | String next _ =>
               if is_alnum next then
                 if is_mlower (mode_after m c) && is_upper next then (w ++ String c "") :: words_of MBoundary "" r
                 else if is_mupper m && is_upper c && is_lower next then flush (words_of MBoundary (String c "") r)
                 else words_of (mode_after m c) (w ++ String c "") r
               else words_of m (w ++ String c "") r
           | "" => [w ++ String c ""]
           end
  end.
Definition words (s : string) : list string := words_of MBoundary "" s.
Definition capitalize (s : string) : string := match s with "" => "" | String c r => String (upper c) (smap lower r) end.
Definition ascii_heck : Heck := {|
  to_upper_camel_case := fun s => join "" (map capitalize (words s));
  to_pascal_case := fun s => join "" (map capitalize (words s));
  to_lower_camel_case := fun s => match words s with [] => "" | w :: r => smap lower w ++ join "" (map capitalize r) end;
  to_snake_case := fun s => join "_" (map (smap lower) (words s));
  to_shouty_snake_case := fun s => join "_" (map (smap upper) (words s));
  to_lowercase := smap lower;
  to_uppercase := smap upper |}.
