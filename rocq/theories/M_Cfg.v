(** Model of src/bindgen/ir/cfg.rs *)
Require Import Coq.Strings.String Coq.Strings.Ascii Coq.Lists.List Coq.Bool.Bool.
From Verif Require Import Base M_Config M_Writer.
Import ListNotations.
Open Scope string_scope.

(** cfg.rs:12-16 *)
Inductive DefineKey := DBoolean (s : string) | DNamed (k v : string).

Definition DefineKey_eqb (a b : DefineKey) : bool :=
  match a, b with
  | DBoolean x, DBoolean y => String.eqb x y
  | DNamed k v, DNamed k' v' => String.eqb k k' && String.eqb v v'
  | _, _ => false
  end.

Fixpoint contains_char (c : ascii) (s : string) : bool :=
  match s with "" => false | String a r => Ascii.eqb a c || contains_char c r end.

(** cfg.rs:19-42 *)
Definition DefineKey_load (key : string) : DefineKey :=
  if negb (contains_char "=" key) then DBoolean key
  else match split_on "=" (trim key) with
       | [name; value] => DNamed (trim name) (trim value)
       | _ => DBoolean key
       end.

(** cfg.rs:46-52 *)
Inductive Cfg :=
| CBoolean (s : string)
| CNamed (k v : string)
| CAny (l : list Cfg)
| CAll (l : list Cfg)
| CNot (c : Cfg).

(** A [syn::Meta], reduced to what cfg.rs looks at: the path when it is a
    single identifier, a string literal value, and the parsed arguments of a
    list ([None] when the tokens are not a comma-separated list of metas). *)
Inductive meta :=
| MPath (ident : option string)
| MNameValue (ident : option string) (str_lit : option string)
| MList (ident : option string) (args : option (list meta)).

(** cfg.rs:84-128; [None] is the [Err] result. *)
Fixpoint Cfg_parse (m : meta) : option Cfg :=
  let fix all (l : list meta) : option (list Cfg) :=
    match l with
    | [] => Some []
    | x :: r => match Cfg_parse x with
                | None => None
                | Some c => match all r with None => None | Some cs => Some (c :: cs) end
                end
    end in
  match m with
  | MPath (Some ident) => Some (CBoolean ident)
  | MPath None => None
  | MNameValue (Some ident) (Some lit) => Some (CNamed ident lit)
  | MNameValue _ _ => None
  | MList (Some name) (Some args) =>
      if String.eqb name "not" then
        match args with
        | [x] => match Cfg_parse x with None => None | Some c => Some (CNot c) end
        | _ => None
        end
      else if String.eqb name "all" then
        match all args with None => None | Some cs => Some (CAll cs) end
      else if String.eqb name "any" then
        match all args with None => None | Some cs => Some (CAny cs) end
      else None
  | MList _ _ => None
  end.

(** cfg.rs:131-137 *)
Definition Cfg_join (cfgs : list Cfg) : option Cfg :=
  match cfgs with [] => None | _ => Some (CAll cfgs) end.

(** cfg.rs:139-146 *)
Definition Cfg_append (parent child : option Cfg) : option Cfg :=
  match parent, child with
  | None, None => None
  | None, Some c => Some c
  | Some p, None => Some p
  | Some p, Some c => Some (CAll [p; c])
  end.

(** cfg.rs:148-170: the loop keeps the arguments of every [cfg(..)] attribute
    that parses and silently drops the others. *)
Definition Cfg_load_one (attr : meta) : option Cfg :=
  match attr with
  | MList (Some name) (Some [arg]) => if String.eqb name "cfg" then Cfg_parse arg else None
  | _ => None
  end.

Definition Cfg_load (attrs : list meta) : option Cfg :=
  match filter_map Cfg_load_one attrs with
  | [] => None
  | [c] => Some c
  | configs => Some (CAll configs)
  end.

(** cfg.rs:172-192.  The dependency's [target] string comes with the result of
    parsing it as a meta ([None]: parse error). *)
Definition Cfg_load_metadata (target : option (string * option meta)) : option Cfg :=
  match target with
  | None => None
  | Some (_, Some (MList (Some name) (Some [arg]))) =>
      if String.eqb name "cfg" then Cfg_parse arg else None
  | Some (_, Some _) => None
  | Some (t, None) => Some (CBoolean t)
  end.

(** cfg.rs:261-266 *)
Inductive Condition :=
| Define (d : string)
| Any (l : list Condition)
| All (l : list Condition)
| Not (c : Condition).

(** cfg.rs:209-212, 221-223: [defines.iter().find(..)].  The hash map is a
    list in its (unspecified) iteration order. *)
Fixpoint find_define (key : DefineKey) (defs : list (string * string)) : option string :=
  match defs with
  | [] => None
  | (k, d) :: r => if DefineKey_eqb key (DefineKey_load k) then Some d else find_define key r
  end.

(** cfg.rs:236-240, 247-251 *)
Definition collapse (mk : list Condition -> Condition) (l : list Condition) : option Condition :=
  match l with
  | [] => None
  | [c] => Some c
  | _ => Some (mk l)
  end.

(** cfg.rs:205-258 (the warning for a missing define is not modelled) *)
Fixpoint to_condition (defs : list (string * string)) (c : Cfg) : option Condition :=
  match c with
  | CBoolean n => option_map Define (find_define (DBoolean n) defs)
  | CNamed k v => option_map Define (find_define (DNamed k v) defs)
  | CAny l => collapse Any (filter_map (to_condition defs) l)
  | CAll l => collapse All (filter_map (to_condition defs) l)
  | CNot c => option_map Not (to_condition defs c)
  end.

(** cfg.rs:199-203 *)
Definition to_condition_opt (defs : list (string * string)) (c : option Cfg) : option Condition :=
  match c with None => None | Some c => to_condition defs c end.

Local Open Scope prog_scope.

(** cfg.rs:269-317 *)
Fixpoint Condition_write (lang : Language) (c : Condition) : prog :=
  let fix items (sep : string) (l : list Condition) : prog :=
    match l with
    | [] => PRet
    | x :: r => write sep ;; Condition_write lang x ;; items sep r
    end in
  let list_ (sep : string) (l : list Condition) : prog :=
    write "(" ;;
    (match l with
     | [] => PRet
     | x :: r => Condition_write lang x ;; items sep r
     end) ;;
    write ")" in
  match c with
  | Define d =>
      if Language_eqb lang Cython then write d
      else write "defined(" ;; write d ;; write ")"
  | Any l => list_ (if Language_eqb lang Cython then " or " else " || ") l
  | All l => list_ (if Language_eqb lang Cython then " and " else " && ") l
  | Not c => write (if Language_eqb lang Cython then "not " else "!") ;; Condition_write lang c
  end.

(** cfg.rs:326-340 *)
Definition write_before (cfg : Config) (c : option Condition) : prog :=
  match c with
  | None => PRet
  | Some c =>
      if Language_eqb (language cfg) Cython then
        write "IF " ;; Condition_write (language cfg) c ;; open_brace cfg
      else
        push_set_spaces 0 ;; write "#if " ;; Condition_write (language cfg) c ;; pop ;; newline
  end.

(** cfg.rs:342-353 *)
Definition write_after (cfg : Config) (c : option Condition) : prog :=
  match c with
  | None => PRet
  | Some _ =>
      if Language_eqb (language cfg) Cython then close_brace cfg false
      else newline ;; push_set_spaces 0 ;; write "#endif" ;; pop
  end.
