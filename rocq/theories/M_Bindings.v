(** Model of src/bindgen/bindings.rs: the queries about the bindings and the
    contents of the symbol and dependency files. *)
Require Import Coq.Strings.String Coq.Strings.Ascii Coq.Lists.List Coq.Bool.Bool Coq.Arith.Arith.
From Verif Require Import Base M_Config M_Type M_Ir M_Item M_Library.
Import ListNotations.
Open Scope string_scope.

(** item.rs:206-221 *)
Definition for_items {T} `{Item T} (m : ItemMap T) (p : string) : list T :=
  match get_items p m with Some l => l | None => [] end.

(** bindings.rs:78-82 *)
Definition struct_is_transparent (b : Bindings) (p : string) : bool :=
  existsb s_is_transparent (for_items (b_struct_map b) p).

(** bindings.rs:88-93: the last definition whose alias is a path wins *)
Definition typedef_target (b : Bindings) (p : string) : option string :=
  fold_left (fun found t => match t_aliased t with TPath g => Some (gp_path g) | _ => found end)
    (for_items (b_typedef_map b) p) None.
(** bindings.rs:85-100: the loop; [Diverge] when the steps run out *)
Fixpoint resolved_struct_path (fuel : nat) (b : Bindings) (p : string) : outcome string :=
  match fuel with
  | O => Diverge
  | S n => match typedef_target b p with Some q => resolved_struct_path n b q | None => Done p end
  end.

(** bindings.rs:102-107 *)
Definition struct_exists (fuel : nat) (b : Bindings) (p : string) : outcome bool :=
  do q := resolved_struct_path fuel b p in Done (negb (is_nil (for_items (b_struct_map b) q))).
(** bindings.rs:109-113 *)
Definition enum_exists (b : Bindings) (p : string) : bool := negb (is_nil (for_items (b_enum_map b) p)).

(** config.rs:723-729 *)
Definition enum_class (c : EnumConfig) (a : AnnotationSet) : bool :=
  match an_bool a "enum-class" with Some x => x | None => en_enum_class c end.
(** bindings.rs:119-138 *)
Definition variant_reference (c : Config) (e : Enum) (v : EnumVariant) : string :=
  if Language_eqb (language c) Cxx && enum_class (enumeration c) (e_annotations e)
  then e_export_name e ++ "::" ++ v_export_name v else v_export_name v.
Definition enum_variant_reference (b : Bindings) (p variant_name : string) : option string :=
  fold_left (fun result e =>
      match result with
      | Some _ => result
      | None => match find (fun v => String.eqb (v_name v) variant_name) (e_variants e) with
                | Some v => Some (variant_reference (b_config b) e v)
                | None => None
                end
      end)
    (for_items (b_enum_map b) p) None.

(** [Vec::insert] *)
Fixpoint insert_at {A} (n : nat) (x : A) (l : list A) : list A :=
  match n, l with
  | O, _ => x :: l
  | S m, y :: r => y :: insert_at m x r
  | S _, [] => [x]
  end.
(** [iter().position(|v| v == x)] *)
Fixpoint position (x : string) (l : list string) : option nat :=
  match l with
  | [] => None
  | y :: r => if String.eqb y x then Some 0 else option_map S (position x r)
  end.
(** bindings.rs:151-158: the fields of one definition *)
Fixpoint merge_fields (names : list string) (fields : list string) (pos : nat) : list string :=
  match names with
  | [] => fields
  | n :: r => match position n fields with
              | Some k => merge_fields r fields (k + 1)
              | None => merge_fields r (insert_at pos n fields) (pos + 1)
              end
  end.
(** bindings.rs:149-159 *)
Definition merge_definitions (defs : list (list string)) : list string :=
  fold_left (fun fields names => merge_fields names fields 0) defs [].
Definition field_names (s : Struct) : list string := map fd_name (s_fields s).

(** bindings.rs:140-167.  The memo is a HashMap from paths to lists; the path
    found by following typedefs is noted too when it is not the path itself. *)
Definition memo := list (string * list string).
Definition struct_field_names (fuel : nat) (b : Bindings) (m : memo) (p : string) : outcome (memo * list string) :=
  match lookup p m with
  | Some l => Done (m, l)
  | None =>
      do q := resolved_struct_path fuel b p in
      let fields := merge_definitions (map field_names (for_items (b_struct_map b) q)) in
      let m1 := (p, fields) :: m in
      Done (match typedef_target b p with Some _ => (q, fields) :: m1 | None => m1 end, fields)
  end.

(** bindings.rs:170-184 *)
Definition dynamic_symbols_names (b : Bindings) : list string :=
  (map f_path (filter (fun f => should_export (f_annotations f)) (b_functions b))
   ++ map g_export_name (filter (fun g => should_export (g_annotations g)) (b_globals b)))%list.
(** bindings.rs:186-196: the text of the symbol file *)
Definition symfile_text (b : Bindings) : string :=
  "{" ++ nl ++ sconcat (map (fun s => s ++ ";" ++ nl) (dynamic_symbols_names b)) ++ "};".

(** A canonical path: its components below the root. *)
Definition cpath := list string.
Definition cpath_text (p : cpath) : string := match p with [] => "/" | _ => sconcat (map (fun x => "/" ++ x) p) end.
(** [Path]'s order compares component by component. *)
Fixpoint cpath_leb (a b : cpath) : bool :=
  match a, b with
  | [], _ => true
  | _ :: _, [] => false
  | x :: r, y :: s => match String.compare x y with Lt => true | Gt => false | Eq => cpath_leb r s end
  end.
Definition escape_spaces (s : string) : string := replace_char " " "\ " s.
(** bindings.rs:204-233: the pieces of the dependency file.  [canon]: what
    [canonicalize] gives, [None] if the file cannot be found (a panic). *)
Definition depfile_pieces (canon : string -> option cpath) (b : Bindings) (header : string) : option (list string) :=
  let? h := canon header in
  let? srcs := map_opt canon (b_source_files b ++ match config_path (b_config b) with Some p => [p] | None => [] end) in
  let line p := " \" ++ nl ++ "    " ++ escape_spaces (cpath_text p) in
  Some ((escape_spaces (cpath_text h) ++ ":") :: (map line (sort_by_le cpath_leb srcs) ++ [nl])%list).
Definition depfile_text (canon : string -> option cpath) (b : Bindings) (header : string) : option string :=
  option_map sconcat (depfile_pieces canon b header).
