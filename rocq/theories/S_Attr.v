(** What annotations, doc comment lines and repr hints mean. *)
Require Import Coq.Strings.String Coq.Strings.Ascii Coq.Lists.List Coq.Bool.Bool Coq.Arith.Arith Coq.NArith.NArith.
From Verif Require Import Base M_Cfg S_Cfg M_Type M_Ir.
Import ListNotations.
Open Scope string_scope.

(** ** Annotations *)

(** A comment line that addresses cbindgen. *)
Definition addressed (l : string) : Prop := exists b r, blanks b /\ l = b ++ "cbindgen:" ++ r.
(** [lines] is made of the lines [docs] and the lines [notes], in order; the
    notes are the addressed ones. *)
Inductive sorted_out : list string -> list string -> list string -> Prop :=
| so_nil : sorted_out [] [] []
| so_doc : forall l ls d n, ~ addressed l -> sorted_out ls d n -> sorted_out (l :: ls) (l :: d) n
| so_note : forall l ls d n, addressed l -> sorted_out ls d n -> sorted_out (l :: ls) d (l :: n).

(** The text after '='. *)
Definition padded (x piece : string) : Prop :=
  trimmed x /\ exists b b', blanks b /\ blanks b' /\ piece = b ++ x ++ b'.
Definition bracketed (v : string) : Prop := exists m, v = "[" ++ m ++ "]".
Inductive value_text : string -> AnnotationValue -> Prop :=
| vt_true : value_text "true" (ABool true)
| vt_false : value_text "false" (ABool false)
| vt_empty : value_text "" (AAtom None)
| vt_list : forall pieces xs, pieces <> [] -> (forall p, In p pieces -> contains_char "," p = false) ->
    Forall2 padded xs pieces ->
    value_text ("[" ++ join "," pieces ++ "]") (AList xs)
| vt_atom : forall v, v <> "true" -> v <> "false" -> v <> "" -> ~ bracketed v -> value_text v (AAtom (Some v)).

Inductive says : string -> string -> AnnotationValue -> Prop :=
| says_flag : forall b0 b1 name b2, blanks b0 -> blanks b1 -> blanks b2 -> no_eq name -> trimmed name ->
    says (b0 ++ "cbindgen:" ++ b1 ++ name ++ b2) name (ABool true)
| says_value : forall b0 b1 name b2 b3 v b4 x, blanks b0 -> blanks b1 -> blanks b2 -> blanks b3 -> blanks b4 ->
    no_eq name -> trimmed name -> no_eq v -> trimmed v -> value_text v x ->
    says (b0 ++ "cbindgen:" ++ b1 ++ name ++ b2 ++ "=" ++ b3 ++ v ++ b4) name x.

(** The value given last. *)
Definition last_value (name : string) (given : list (string * AnnotationValue)) : option AnnotationValue :=
  fold_left (fun acc kv => if String.eqb (fst kv) name then Some (snd kv) else acc) given None.
Fixpoint count_eq (s : string) : nat :=
  match s with "" => 0 | String c r => (if Ascii.eqb c "=" then 1 else 0) + count_eq r end.

(** The text of comment lines: blank lines and blanks around a line left out. *)
Definition text_of (ls : list string) : list string := filter (fun s => negb (String.eqb s "")) (map trim ls).

(** ** repr *)
Inductive hint := HInt (t : ReprType) | HC | HTransparent | HPacked | HAlign (n : N).
Definition int_types : list (string * ReprType) :=
  let t k sg := {| rt_kind := k; rt_signed := sg |} in
  [("u8", t B8 false); ("i8", t B8 true); ("u16", t B16 false); ("i16", t B16 true); ("u32", t B32 false); ("i32", t B32 true);
   ("u64", t B64 false); ("i64", t B64 true); ("usize", t KSize false); ("isize", t KSize true)].
(** A decimal numeral. *)
Definition digit (c : ascii) (d : N) : Prop := (d < 10)%N /\ c = ascii_of_N (48 + d).
Inductive numeral : string -> N -> Prop :=
| num_digit : forall c d, digit c d -> numeral (String c "") d
| num_more : forall s c n d, numeral s n -> digit c d -> numeral (s ++ String c "") (10 * n + d).
Inductive means : string * option string -> hint -> Prop :=
| me_int : forall s t, In (s, t) int_types -> means (s, None) (HInt t)
| me_c : means ("C", None) HC
| me_transparent : means ("transparent", None) HTransparent
| me_packed : means ("packed", None) HPacked
| me_align : forall t plus n k, plus = "" \/ plus = "+" -> numeral t n -> (k < 64)%N -> n = (2 ^ k)%N ->
    means ("align", Some (plus ++ t)) (HAlign n).
Definition ints (hs : list hint) : list ReprType := filter_map (fun h => match h with HInt t => Some t | _ => None end) hs.
Definition alignments (hs : list hint) : list ReprAlign :=
  filter_map (fun h => match h with HPacked => Some Packed | HAlign n => Some (Align n) | _ => None end) hs.
Definition styles (hs : list hint) : list ReprStyle :=
  filter_map (fun h => match h with HC => Some ReprC | HTransparent => Some ReprTransparent | _ => None end) hs.
(** What the hints ask for; nothing when two of them conflict. *)
Definition asks (hs : list hint) (r : Repr) : Prop :=
  length (ints hs) <= 1 /\ length (alignments hs) <= 1 /\
  rp_ty r = hd_error (ints hs) /\ rp_align r = hd_error (alignments hs) /\ rp_style r = last (styles hs) ReprRust.
