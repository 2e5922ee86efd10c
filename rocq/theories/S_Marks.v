(** What [#[deprecated]] and [#[must_use]] say about an item, and how a header
    says it. *)
Require Import Coq.Strings.String Coq.Strings.Ascii Coq.Lists.List Coq.Bool.Bool Coq.NArith.NArith.
From Verif Require Import Base M_Config M_Ir M_Attr M_Backend.
Import ListNotations.
Open Scope string_scope.

(** The name of an attribute *)
Definition attribute_name (a : arg) : option string :=
  match a with APath i | ANameValue i _ | AList i _ => i | _ => None end.
(** The forms of the attribute, with the reason given; the compiler lets an item
    have one of them, with each key at most once. *)
Inductive deprecates : arg -> string -> Prop :=
| dp_word : deprecates (APath (Some "deprecated")) ""
| dp_equals : forall note, deprecates (ANameValue (Some "deprecated") (Some note)) note
| dp_note : forall keys note, In ("note", note) keys -> NoDup (map fst keys) ->
    deprecates (AList (Some "deprecated") (map (fun kv => ANameValue (Some (fst kv)) (Some (snd kv))) keys)) note.
Definition other_than (name : string) (a : attribute) : Prop := attribute_name (at_meta a) <> Some name.
Definition deprecated (attrs : list attribute) (note : string) : Prop :=
  exists before a after, attrs = (before ++ a :: after)%list /\ deprecates (at_meta a) note
    /\ Forall (other_than "deprecated") before /\ Forall (other_than "deprecated") after.
(** [#[must_use]] and [#[must_use = "…"]] *)
Definition must_be_used (attrs : list attribute) : Prop :=
  exists a, In a attrs /\ (at_meta a = APath (Some "must_use") \/ exists v, at_meta a = ANameValue (Some "must_use") v).

(** The words of the configuration for a kind of item, without and with a reason *)
Definition plain_words (c : Config) (k : NoteKind) : option string :=
  match k with
  | NFunction => fn_deprecated (function c)
  | NStruct => st_deprecated (structure c)
  | NEnum => en_deprecated (enumeration c)
  | NEnumVariant => en_deprecated_variant (enumeration c)
  end.
Definition words_for_reason (c : Config) (k : NoteKind) : option string :=
  match k with
  | NFunction => fn_deprecated_with_note (function c)
  | NStruct => st_deprecated_with_note (structure c)
  | NEnum => en_deprecated_with_note (enumeration c)
  | NEnumVariant => en_deprecated_variant_with_note (enumeration c)
  end.
(** [x] for each of the [{}] of a text: the text is these parts with [{}] between them. *)
Definition no_hole (p : string) : Prop := forall a b, p <> a ++ "{}" ++ b.
Definition holes_filled (x template t : string) : Prop :=
  exists parts, parts <> [] /\ Forall no_hole parts /\ template = String.concat "{}" parts /\ t = String.concat x parts.

(** A string literal of C, with the escapes that both languages have *)
Definition escape (a : ascii) : option ascii :=
  if Ascii.eqb a "\" then Some "\"%char
  else if Ascii.eqb a """" then Some """"%char
  else if Ascii.eqb a "n" then Some (ascii_of_N 10)
  else if Ascii.eqb a "t" then Some (ascii_of_N 9)
  else if Ascii.eqb a "r" then Some (ascii_of_N 13)
  else None.
Fixpoint literal_chars (s : string) : option string :=
  match s with
  | "" => None
  | String a r =>
      if Ascii.eqb a """" then match r with "" => Some "" | _ => None end
      else if Ascii.eqb a "\"
      then match r with
           | String e r' => match escape e, literal_chars r' with Some x, Some t => Some (String x t) | _, _ => None end
           | "" => None
           end
      else match literal_chars r with Some t => Some (String a t) | None => None end
  end.
Definition c_string (s : string) : option string :=
  match s with String a r => if Ascii.eqb a """" then literal_chars r else None | "" => None end.
(** No control characters other than tabs and line ends *)
Definition ordinary (a : ascii) : bool :=
  let n := N_of_ascii a in ((32 <=? n) && negb (n =? 127) || (n =? 9) || (n =? 10) || (n =? 13))%N.
Fixpoint ordinary_text (s : string) : bool := match s with "" => true | String a r => ordinary a && ordinary_text r end.

(** What is said in the header: the configured words, with the reason as a
    string literal that reads as the reason. *)
Definition deprecation_said (c : Config) (k : NoteKind) (note t : string) : Prop :=
  language c <> Cython /\
  if String.eqb note "" then plain_words c k = Some t
  else exists template literal, words_for_reason c k = Some template /\ holes_filled literal template t
         /\ (ordinary_text note = true -> c_string literal = Some note).
