(** What the documentation says the rename rules do (docs.md, [rename_args],
    [rename_fields], [rename_variants]). *)
Require Import Coq.Strings.String Coq.Strings.Ascii Coq.Lists.List Coq.Bool.Bool.
From Verif Require Import Base M_Config.
Import ListNotations.
Open Scope string_scope.

Definition alphabet : list (ascii * ascii) :=
  combine (list_ascii_of_string "abcdefghijklmnopqrstuvwxyz") (list_ascii_of_string "ABCDEFGHIJKLMNOPQRSTUVWXYZ").
Definition small (a : ascii) : bool := existsb (Ascii.eqb a) (map fst alphabet).
Definition digit (a : ascii) : bool := existsb (Ascii.eqb a) (list_ascii_of_string "0123456789").
Definition large (a : ascii) : ascii := match find (fun p => Ascii.eqb a (fst p)) alphabet with Some p => snd p | None => a end.

Fixpoint all_chars (f : ascii -> bool) (s : string) : bool := match s with "" => true | String a r => f a && all_chars f r end.
Fixpoint each_char (f : ascii -> ascii) (s : string) : string := match s with "" => "" | String a r => String (f a) (each_char f r) end.
(** A word is written with small letters and digits. *)
Definition word (w : string) : Prop := w <> "" /\ all_chars (fun a => small a || digit a) w = true.
(** A word of a type's name starts with two letters. *)
Definition type_word (w : string) : Prop :=
  exists a b r, w = String a (String b r) /\ small a = true /\ small b = true /\ all_chars (fun a => small a || digit a) r = true.

(** [MyArg], [myArg], [my_arg], [MY_ARG], [myarg], [MYARG] for the words [my] and [arg] *)
Definition with_capital (w : string) : string := match w with "" => "" | String a r => String (large a) r end.
Definition MyArg (ws : list string) : string := String.concat "" (map with_capital ws).
Definition myArg (ws : list string) : string := match ws with [] => "" | w :: r => w ++ MyArg r end.
Definition my_arg (ws : list string) : string := String.concat "_" ws.
Definition MY_ARG (ws : list string) : string := String.concat "_" (map (each_char large) ws).
Definition myarg (ws : list string) : string := String.concat "" ws.
Definition MYARG (ws : list string) : string := String.concat "" (map (each_char large) ws).

(** The letter in front: [aMyArg] for arguments, [mMyArg] for fields *)
Definition letter (k : IdentifierType) : string := match k with FunctionArg => "a" | StructMember => "m" | _ => "" end.

(** What becomes of the name [my_arg] of an argument or field *)
Definition of_member (r : RenameRule) (k : IdentifierType) (ws : list string) : string :=
  match r with
  | CamelCase => myArg ws
  | PascalCase => MyArg ws
  | GeckoCase => letter k ++ MyArg ws
  | ScreamingSnakeCase | UpperCase | QualifiedScreamingSnakeCase => MY_ARG ws
  | RNone | SnakeCase | LowerCase => my_arg ws
  | RPrefix p => p ++ my_arg ws
  end.
(** What becomes of the variant [MyVariant] of the enum [EnumName] *)
Definition of_variant (r : RenameRule) (enum ws : list string) : string :=
  match r with
  | CamelCase => myArg ws
  | SnakeCase => my_arg ws
  | ScreamingSnakeCase => MY_ARG ws
  | QualifiedScreamingSnakeCase => MY_ARG enum ++ "_" ++ MY_ARG ws
  | LowerCase => myarg ws
  | UpperCase => MYARG ws
  | RNone | PascalCase | GeckoCase => MyArg ws
  | RPrefix p => p ++ MyArg ws
  end.

(** The letters and digits of a name, in small letters *)
Definition little (a : ascii) : option ascii :=
  if small a || digit a then Some a
  else match find (fun p => Ascii.eqb a (snd p)) alphabet with Some p => Some (fst p) | None => None end.
Fixpoint letters (s : string) : string :=
  match s with "" => "" | String a r => match little a with Some b => String b (letters r) | None => letters r end end.
(** What a rule puts in front of a name *)
Definition in_front (r : RenameRule) (k : IdentifierType) : string :=
  match r with
  | GeckoCase => letter k
  | QualifiedScreamingSnakeCase => match k with IEnumVariant enum => enum | _ => "" end
  | RPrefix p => p
  | _ => ""
  end.
