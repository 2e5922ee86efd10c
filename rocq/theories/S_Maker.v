(** What the C++ functions that make an object do: a reader for the actions they
    consist of, their meaning, and what they are given.  Nothing here uses the code
    that writes them. *)
Require Import Coq.Strings.String Coq.Lists.List Coq.Bool.Bool Coq.Arith.Arith.
From Verif Require Import Base M_Config S_Lex S_Decl M_Type M_Ir M_Item M_Library M_Bindings S_Shown S_Literal S_Expr S_Method S_Derived.
Import ListNotations.
Open Scope string_scope.

(** ** Actions *)
Inductive action :=
| Declares (class x : string)                                              (* [class x;] *)
| Constructs (x : string) (path : list string) (t : ctype) (arg : string)  (* [::new (&x.path) (t)(arg);] *)
| Assigns (x : string) (path : list string) (name : string)                (* [x.path = name;] *)
| GivesBack (x : string).                                                  (* [return x;] *)

(** what is reached by [.f.g] *)
Fixpoint dotted (ts : list etok) : list string * list etok :=
  match ts with
  | Op "." :: Id f :: r => let '(p, r') := dotted r in (f :: p, r')
  | _ => ([], ts)
  end.
(** [pw]: the words that qualify pointers besides [const] *)
Definition action_read (pw : list string) (n : nat) (ts : list etok) : option (action * list etok) :=
  match after [Op "::"; Id "new"; Op "("; Op "&"] ts with
  | Some (Id x :: r) =>
      let '(p, r1) := dotted r in
      match after [Op ")"; Op "("] r1 with
      | Some r2 =>
          match type_name (fun _ => true) pw n r2 with
          | Some (t, r3) =>
              match after [Op ")"; Op "("] r3 with
              | Some (Id a :: r4) => match after [Op ")"; Op ";"] r4 with Some r5 => Some (Constructs x p t a, r5) | None => None end
              | _ => None
              end
          | None => None
          end
      | None => None
      end
  | _ =>
      match ts with
      | Id k :: Id x :: r =>
          match after [Op ";"] r with
          | Some r' => Some (if String.eqb k "return" then GivesBack x else Declares k x, r')
          | None => None
          end
      | Id x :: r =>
          let '(p, r1) := dotted r in
          match after [Op "="] r1 with
          | Some (Id w :: r2) => let '(q, r3) := qualified w r2 in match after [Op ";"] r3 with Some r4 => Some (Assigns x p q, r4) | None => None end
          | _ => None
          end
      | _ => None
      end
  end.
Fixpoint actions_read (pw : list string) (n : nat) (ts : list etok) : option (list action) :=
  match n with
  | O => None
  | S n' =>
      match ts with
      | [] => Some []
      | _ => match action_read pw n' ts with
             | Some (x, r) => option_map (cons x) (actions_read pw n' r)
             | None => None
             end
      end
  end.
(** Given enough steps the whole is read, always with the same result. *)
Definition actions (pw : list string) (ts : list etok) (l : list action) : Prop := exists n, forall m, n <= m -> actions_read pw m ts = Some l.

(** ** Their meaning *)
Section Meaning.
  Variable W : world.
  Notation V := (wo_value W).
  (** what is at [path] of an object *)
  Fixpoint got (v : V) (path : list string) : option V :=
    match path with
    | [] => Some v
    | f :: r => match wo_member W v f with Some u => got u r | None => None end
    end.
  (** the object with [x] put there *)
  Fixpoint put (v : V) (path : list string) (x : V) : option V :=
    match path with
    | [] => Some x
    | f :: r =>
        match wo_member W v f with
        | Some u => match put u r x with Some u' => wo_with W v f u' | None => None end
        | None => None
        end
    end.
  (** [raw]: an object of a class before anything is put in it; [var]: the
      variable declared, and what it holds.  A variable with the name of a
      parameter hides it. *)
  Variable raw : string -> V.
  Fixpoint perform (args : list (string * V)) (var : option (string * V)) (l : list action) : option V :=
    match l with
    | [] => None
    | Declares k x :: r => match var with None => perform args (Some (x, raw k)) r | Some _ => None end
    | Constructs x p _ a :: r =>
        match var with
        | Some (y, o) =>
            if String.eqb x y && negb (String.eqb a y) then
              match lookup a args with
              | Some v => match put o p v with Some o' => perform args (Some (y, o')) r | None => None end
              | None => None
              end
            else None
        | None => None
        end
    | Assigns x p n :: r =>
        match var with
        | Some (y, o) =>
            if String.eqb x y then
              match wo_named W n with
              | Some v => match put o p v with Some o' => perform args (Some (y, o')) r | None => None end
              | None => None
              end
            else None
        | None => None
        end
    | GivesBack x :: _ => match var with Some (y, o) => if String.eqb x y then Some o else None | None => None end
    end.
End Meaning.

(** ** Objects of enums with data *)
(** [n]: where the data of a variant is; [fs]: its fields.  What is put
    somewhere is there afterwards; putting a field leaves the other fields alone,
    and putting the tag leaves the fields of the data alone.  (The data of other
    variants is in the same place, and the tag may be part of the data.) *)
Record holds_data (W : world) (n : string) (fs : list string) : Prop := {
  hd_there : forall v f u w, wo_with W v f u = Some w -> wo_member W w f = Some u;
  hd_open : forall v f u, wo_member W v f <> None -> wo_with W v f u <> None;
  hd_tag_stays : forall v u w, wo_with W v n u = Some w -> wo_member W v "tag" <> None -> wo_member W w "tag" <> None;
  hd_fields : forall v f u w g, In f fs -> In g fs -> f <> g -> wo_with W v f u = Some w -> wo_member W w g = wo_member W v g;
  hd_data : forall v u w g, In g fs -> wo_with W v "tag" u = Some w -> got W w [n; g] = got W v [n; g]
}.

(** ** The functions that make an object of a variant *)
(** The fields of the data: the tag is not given. *)
Definition given_fields (v : EnumVariant) : list Field := match v_body v with VBody _ s _ _ => payload s | VEmpty _ => [] end.
Definition data_place (v : EnumVariant) : string := match v_body v with VBody n _ _ _ => n | VEmpty _ => "" end.
Definition param_name {H : Heck} (c : Config) (f : Field) : string := RenameRule_apply (fn_rename_args (function c)) (fd_name f) FunctionArg.
(** One parameter for each, a reference to a constant of the type of the field. *)
Definition maker_parameters {H : Heck} (b : Bindings) (v : EnumVariant) : list piece :=
  separated "," (fun f => shown_field b (from_name_and_type (param_name (b_config b) f) (TPtr (fd_ty f) true false true))) (given_fields v).
(** The fields are numbers, of named types, or pointers to these; the names are
    those of C++ and different; no parameter is called [result]. *)
Record makeable {H : Heck} (b : Bindings) (e : Enum) (v : EnumVariant) : Prop := {
  mk_class : e_export_name e <> "return";
  mk_attributes : Forall (fun w => S_Lex.is_ident w = true) (pointer_words (dialect_of (b_config b)));
  mk_types : Forall (fun f => cast_type b (fun _ => true) (fd_ty f) = true) (given_fields v);
  mk_fields : Forall (fun f => S_Lex.is_ident (fd_name f) = true) (given_fields v) /\ NoDup (map fd_name (given_fields v));
  mk_params : Forall (fun f => S_Lex.is_ident (param_name (b_config b) f) = true /\ param_name (b_config b) f <> "result") (given_fields v)
              /\ NoDup (map (param_name (b_config b)) (given_fields v))
}.

(** ** The functions that give the data of a variant *)
(** What [As…()] is said to return: a reference to the data, or to its only field. *)
Definition cast_type_piece (b : Bindings) (v : EnumVariant) (const_ : bool) : piece :=
  match v_body v with
  | VBody _ s _ only_field =>
      if only_field then fun x => exists f, last (map Some (s_fields s)) None = Some f /\ named_type b (TPtr (fd_ty f) const_ false true) x
      else say ((if const_ then "const " else "") ++ s_export_name s ++ "&")
  | VEmpty _ => fun _ => False
  end.
Definition cast_head (v : EnumVariant) (const_ : bool) : list etok := ([Id ("As" ++ v_export_name v); Op "("; Op ")"] ++ (if const_ then [Id "const"] else []))%list.
Definition assertion_name (c : Config) : string := match en_cast_assert_name (enumeration c) with Some n => n | None => "assert" end.
(** [assert(IsV());] *)
Definition assertion (c : Config) (v : EnumVariant) : list etok :=
  [Id (assertion_name c); Op "("; Id ("Is" ++ v_export_name v); Op "("; Op ")"; Op ")"; Op ";"].
Definition cast_wanted (c : Config) (e : Enum) (const_ : bool) : bool :=
  wanted (e_annotations e) "derive-helper-methods" (en_derive_helper_methods (enumeration c))
  && (if const_ then wanted (e_annotations e) "derive-const-casts" (en_derive_const_casts (enumeration c))
      else wanted (e_annotations e) "derive-mut-casts" (en_derive_mut_casts (enumeration c))).

(** ** The constructors of structs *)
(** [f(p), g(q)] *)
Fixpoint initialisers (ts : list etok) : option (list (string * string)) :=
  match ts with
  | [] => Some []
  | Id f :: Op "(" :: Id p :: Op ")" :: r =>
      match r with
      | [] => Some [(f, p)]
      | Op "," :: r' => option_map (cons (f, p)) (initialisers r')
      | _ => None
      end
  | _ => None
  end.
Definition constructor_parameters {H : Heck} (b : Bindings) (s : Struct) : list piece :=
  separated "," (fun f => shown_field b (from_name_and_type ("const& " ++ param_name (b_config b) f) (fd_ty f))) (s_fields s).
