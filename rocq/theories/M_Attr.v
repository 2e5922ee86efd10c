(** Model of what is read from attributes and doc comments:
    src/bindgen/utilities.rs, ir/annotation.rs, ir/documentation.rs, ir/repr.rs.

    Text is ASCII here: white space is ASCII white space. *)
Require Import Coq.Strings.String Coq.Strings.Ascii Coq.Lists.List Coq.Bool.Bool Coq.Arith.Arith Coq.NArith.NArith.
From Verif Require Import Base M_Config M_Cfg M_Type M_Ir.
Import ListNotations.
Open Scope string_scope.

(** One element of a comma-separated list of attribute arguments, and (the
    first three forms) a [syn::Meta].  [ident]: the path if it is a single
    identifier; [value]: a string literal's value, [None] for other expressions. *)
Inductive arg :=
| APath (ident : option string)
| ANameValue (ident : option string) (value : option string)
| AList (ident : option string) (args : list arg)
| AInt (text : string)
| AOther.
(** A [syn::Attribute]: its meta and whether it is an outer one. *)
Record attribute := { at_meta : arg; at_outer : bool }.

Definition is_ident (i : option string) (name : string) : bool :=
  match i with Some x => String.eqb x name | None => false end.

(** The view of cfg.rs ([M_Cfg.meta]): a list whose arguments are all metas. *)
Fixpoint to_meta (a : arg) : option meta :=
  let fix all (l : list arg) : option (list meta) :=
    match l with
    | [] => Some []
    | x :: r => match to_meta x, all r with Some m, Some ms => Some (m :: ms) | _, _ => None end
    end in
  match a with
  | APath i => Some (MPath i)
  | ANameValue i v => Some (MNameValue i v)
  | AList i args => Some (MList i (all args))
  | AInt _ | AOther => None
  end.
(** cfg.rs:148-170 *)
Definition Cfg_of_attrs (attrs : list attribute) : option Cfg := Cfg_load (filter_map (fun a => to_meta (at_meta a)) attrs).

(** utilities.rs:143-151 *)
Definition has_attr_word (attrs : list attribute) (name : string) : bool :=
  existsb (fun a => match at_meta a with APath i => is_ident i name | _ => false end) attrs.
(** utilities.rs:156-164 *)
Definition has_attr_namevalue (attrs : list attribute) (name : string) : bool :=
  existsb (fun a => match at_meta a with ANameValue i _ => is_ident i name | _ => false end) attrs.
(** utilities.rs:169-187: the arguments of [unsafe(..)] must all be paths. *)
Definition is_path_arg (a : arg) : bool := match a with APath _ => true | _ => false end.
Definition has_unsafe_attr_word (attrs : list attribute) (name : string) : bool :=
  existsb (fun a => match at_meta a with
                    | AList i args => is_ident i "unsafe" && forallb is_path_arg args
                                      && existsb (fun x => match x with APath j => is_ident j name | _ => false end) args
                    | _ => false
                    end) attrs.
(** utilities.rs:233-235 *)
Definition is_no_mangle (attrs : list attribute) : bool := has_attr_word attrs "no_mangle" || has_unsafe_attr_word attrs "no_mangle".
(** utilities.rs:248-269 *)
Definition attr_name_value_lookup (attrs : list attribute) (name : string) : option string :=
  hd_error (filter_map (fun a => match at_meta a with
                                 | ANameValue i (Some v) => if is_ident i name then Some v else None
                                 | _ => None
                                 end) attrs).
(** utilities.rs:271-294 *)
Definition is_name_value (a : arg) : bool := match a with ANameValue _ _ => true | _ => false end.
Definition unsafe_attr_name_value_lookup (attrs : list attribute) (name : string) : option string :=
  hd_error (filter_map (fun a => match at_meta a with
                                 | AList i args =>
                                     if is_ident i "unsafe" && forallb is_name_value args
                                     then hd_error (filter_map (fun x => match x with
                                                                         | ANameValue j v => if is_ident j name then v else None
                                                                         | _ => None
                                                                         end) args)
                                     else None
                                 | _ => None
                                 end) attrs).
(** utilities.rs:37-62; [ident]: the item's name without a raw prefix *)
Definition fn_exported_name (attrs : list attribute) (ident : string) : option string :=
  match attr_name_value_lookup attrs "export_name" with
  | Some n => Some n
  | None => match unsafe_attr_name_value_lookup attrs "export_name" with
            | Some n => Some n
            | None => if is_no_mangle attrs then Some ident else None
            end
  end.
(** utilities.rs:64-77: for statics the unsafe form of [export_name] is not looked at. *)
Definition static_exported_name (attrs : list attribute) (ident : string) : option string :=
  match attr_name_value_lookup attrs "export_name" with
  | Some n => Some n
  | None => if is_no_mangle attrs then Some ident else None
  end.

(** utilities.rs:189-231 *)
Definition find_deprecated_note (attrs : list attribute) : option string :=
  match attr_name_value_lookup attrs "deprecated" with
  | Some note => Some note
  | None =>
      if has_attr_word attrs "deprecated" then Some ""
      else match find (fun a => match at_meta a with AList i _ => is_ident i "deprecated" | _ => false end) attrs with
           | Some {| at_meta := AList _ args |} =>
               if forallb is_name_value args
               then match find (fun x => match x with ANameValue j _ => is_ident j "note" | _ => false end) args with
                    | Some (ANameValue _ v) => v
                    | _ => None
                    end
               else None
           | _ => None
           end
  end.

(** utilities.rs:81-133.  The arguments of [cfg(..)] are taken as one stream of
    tokens, so [test] must be the only one. *)
Definition is_skip_item_attr (m : arg) : bool :=
  match m with
  | APath i => is_ident i "test"
  | AList i args => is_ident i "cfg" && match args with [APath j] => is_ident j "test" | _ => false end
  | ANameValue i (Some v) => is_ident i "doc" && String.eqb (trim v) "cbindgen:ignore"
  | _ => false
  end.
(** utilities.rs:238-246 *)
Definition should_skip_parsing (attrs : list attribute) : bool := existsb (fun a => is_skip_item_attr (at_meta a)) attrs.

(** ** Doc comments *)

(** [str::lines]: no last empty line, and a line end may be CR LF. *)
Definition newline_c : ascii := ascii_of_nat 10.
Definition strip_cr (s : string) : string :=
  match srev s with String c r => if Ascii.eqb c (ascii_of_nat 13) then srev r else s | "" => s end.
Definition text_lines (s : string) : list string :=
  let ls := split_on newline_c s in
  let ended := map strip_cr (removelast ls) in
  if String.eqb (last ls "") "" then ended else (ended ++ [last ls ""])%list.

Definition is_blank (s : string) : bool := String.eqb (trim s) "".
(** utilities.rs:447-452 *)
Fixpoint indent_of (s : string) : nat :=
  match s with "" => 0 | String c r => if is_white c then S (indent_of r) else 0 end.
Definition min_list (l : list nat) : nat := match l with [] => 0 | x :: r => fold_left Nat.min r x end.
Definition common_indent (ls : list string) : nat := min_list (map indent_of (filter (fun l => negb (is_blank l)) ls)).
(** [skip_while] *)
Fixpoint skip_while {A} (f : A -> bool) (l : list A) : list A :=
  match l with [] => [] | x :: r => if f x then skip_while f r else l end.
(** utilities.rs:432-472 *)
Definition split_doc_attr (input : string) : list string :=
  if negb (contains_char newline_c input) then [input]
  else
    let ls := text_lines input in
    let n := common_indent ls in
    let out := map (fun s => if is_blank s then "" else " " ++ sdrop n s) (skip_while is_blank ls) in
    rev (skip_while is_blank (rev out)).

(** utilities.rs:297-320: outer doc attributes only *)
Definition get_comment_lines (attrs : list attribute) : list string :=
  concat (map (fun a => if at_outer a
                        then match at_meta a with
                             | ANameValue i (Some v) => if is_ident i "doc" then split_doc_attr v else []
                             | _ => []
                             end
                        else []) attrs).
Definition is_annotation_line (l : string) : bool := starts_with "cbindgen:" (trim_start l).
(** documentation.rs:13-21 *)
Definition Documentation_load (attrs : list attribute) : Documentation :=
  filter (fun x => negb (is_annotation_line x)) (get_comment_lines attrs).

(** ** Annotations *)

(** annotation.rs:212-226 *)
Definition last_char (s : string) : option ascii := match srev s with String c _ => Some c | "" => None end.
Definition parse_list (s : string) : option (list string) :=
  if Nat.ltb (String.length s) 2 then None
  else match s, last_char s with
       | String a r, Some b =>
           if Ascii.eqb a "[" && Ascii.eqb b "]"
           then Some (map trim (split_on "," (stake (String.length s - 2) r))) else None
       | _, _ => None
       end.
(** annotation.rs:121-161: one line; [None] is the error *)
Definition annotation_value (v : string) : AnnotationValue :=
  match parse_list v with
  | Some x => M_Ir.AList x
  | None => if String.eqb v "true" then ABool true
            else if String.eqb v "false" then ABool false
            else AAtom (if String.eqb v "" then None else Some v)
  end.
Definition annotation_of_line (line : string) : option (string * AnnotationValue) :=
  match map trim (split_on "=" (sdrop 9 line)) with
  | [name] => Some (name, ABool true)
  | [name; v] => Some (name, annotation_value v)
  | _ => None
  end.
(** annotation.rs:102-169; [HashMap::insert] replaces the value of a key *)
Fixpoint annotations_of_lines (lines : list string) (values : list (string * AnnotationValue)) :
  option (list (string * AnnotationValue)) :=
  match lines with
  | [] => Some values
  | l :: r => match annotation_of_line l with Some kv => annotations_of_lines r (kv :: values) | None => None end
  end.
Definition AnnotationSet_load (attrs : list attribute) : option AnnotationSet :=
  let lines := filter_map (fun l => let l' := trim_start l in if starts_with "cbindgen:" l' then Some l' else None)
                          (get_comment_lines attrs) in
  match annotations_of_lines lines [] with
  | Some values => Some {| an_values := values;
                           an_must_use := has_attr_word attrs "must_use" || has_attr_namevalue attrs "must_use";
                           an_deprecated := find_deprecated_note attrs |}
  | None => None
  end.

(** ** repr *)

(** [str::parse::<u64>] *)
Definition digit_value (c : ascii) : option N :=
  let n := N_of_ascii c in if (N.leb 48 n && N.leb n 57)%bool then Some (n - 48)%N else None.
Fixpoint parse_digits (s : string) (acc : N) : option N :=
  match s with
  | "" => Some acc
  | String c r => match digit_value c with Some d => parse_digits r (10 * acc + d)%N | None => None end
  end.
Definition parse_u64 (s : string) : option N :=
  let t := match s with String "+" r => r | _ => s end in
  if String.eqb t "" then None
  else match parse_digits t 0%N with
       | Some n => if N.ltb n (2 ^ 64) then Some n else None
       | None => None
       end.
Fixpoint pos_power_of_two (p : positive) : bool := match p with xH => true | xO q => pos_power_of_two q | xI _ => false end.
Definition is_power_of_two (n : N) : bool := match n with N0 => false | Npos p => pos_power_of_two p end.

(** repr.rs:46-90: the hints, each with its argument; [None] is an error *)
Definition repr_hint (a : arg) : option (string * option string) :=
  match a with
  | APath (Some i) => Some (i, None)
  | AList i args =>
      if is_ident i "align" then match args with [AInt t] => Some ("align", Some t) | _ => None end
      else if is_ident i "packed" then match args with
                                       | [] => Some ("packed", None)
                                       | [AInt t] => Some ("packed", Some t)
                                       | _ => None
                                       end
      else None
  | _ => None
  end.
(** An attribute's arguments have to parse as metas. *)
Definition is_meta (a : arg) : bool := match a with APath _ | ANameValue _ _ | AList _ _ => true | _ => false end.
Definition repr_attr (a : attribute) : option (option (list arg)) :=
  match at_meta a with
  | AList i args => if is_ident i "repr" then Some (if forallb is_meta args then Some args else None) else None
  | APath i | ANameValue i _ => if is_ident i "repr" then Some None else None
  | _ => None
  end.
Definition repr_hints (attrs : list attribute) : option (list (string * option string)) :=
  let? args := map_opt (fun x => x) (filter_map repr_attr attrs) in
  map_opt repr_hint (concat args).

Definition int_hint (s : string) : option ReprType :=
  let t k sg := {| rt_kind := k; rt_signed := sg |} in
  lookup s [("u8", t B8 false); ("u16", t B16 false); ("u32", t B32 false); ("u64", t B64 false); ("usize", t KSize false);
            ("i8", t B8 true); ("i16", t B16 true); ("i32", t B32 true); ("i64", t B64 true); ("isize", t KSize true)].
(** repr.rs:92-170 *)
Definition apply_hint (h : string * option string) (r : Repr) : option Repr :=
  let set_align x := match rp_align r with
                     | Some _ => None
                     | None => Some {| rp_style := rp_style r; rp_ty := rp_ty r; rp_align := Some x |}
                     end in
  match h with
  | (name, None) =>
      match int_hint name with
      | Some t => match rp_ty r with
                  | Some _ => None
                  | None => Some {| rp_style := rp_style r; rp_ty := Some t; rp_align := rp_align r |}
                  end
      | None =>
          if String.eqb name "C" then Some {| rp_style := ReprC; rp_ty := rp_ty r; rp_align := rp_align r |}
          else if String.eqb name "transparent" then Some {| rp_style := ReprTransparent; rp_ty := rp_ty r; rp_align := rp_align r |}
          else if String.eqb name "packed" then set_align Packed
          else None
      end
  | (name, Some a) =>
      if String.eqb name "align"
      then match parse_u64 a with
           | Some n => if is_power_of_two n then set_align (Align n) else None
           | None => None
           end
      else None
  end.
Fixpoint apply_hints (hs : list (string * option string)) (r : Repr) : option Repr :=
  match hs with [] => Some r | h :: t => let? r' := apply_hint h r in apply_hints t r' end.
Definition Repr_load (attrs : list attribute) : option Repr :=
  let? hs := repr_hints attrs in apply_hints hs Repr_default.
