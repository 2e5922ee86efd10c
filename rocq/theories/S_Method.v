(** What the methods of C++ classes do: a reader for the statements they are
    made of, and their meaning.  Nothing here uses the code that writes them. *)
Require Import Coq.Strings.String Coq.Lists.List Coq.Bool.Bool.
From Verif Require Import Base S_Expr.
Import ListNotations.
Open Scope string_scope.

(** ** Statements *)
Inductive stmt :=
| SReturn (e : cexpr)
| SMake (class bits : string) (e : cexpr)      (* [return class { static_cast<decltype(bits)>(e) };] *)
| SDo (e : cexpr)
| SNew (place : string) (class : string) (e : cexpr)  (* [::new (&place) (class)(e);] *)
| SDestroy (place : string) (class : string)          (* [place.~class();] *)
| SIf (e : cexpr) (body : list stmt)
| SSwitch (e : cexpr) (cases : list (option string * list stmt))      (* [None]: the default *)
| SBreak.

Definition etok_eqb (a b : etok) : bool :=
  match a, b with
  | Id x, Id y | Num x, Num y | Chr x, Chr y | Op x, Op y => String.eqb x y
  | _, _ => false
  end.
(** what follows the tokens [l] *)
Fixpoint after (l ts : list etok) : option (list etok) :=
  match l, ts with
  | [], _ => Some ts
  | x :: l', y :: ts' => if etok_eqb x y then after l' ts' else None
  | _, [] => None
  end.
(** No name is a type where an expression is read. *)
Definition expression : nat -> list etok -> option (cexpr * list etok) := fun n ts => binary (fun _ => false) [] true n 0 ts.

Definition made (n : nat) (ts : list etok) : option (stmt * list etok) :=
  match ts with
  | Id k :: r =>
      match after [Op "{"; Id "static_cast"; Op "<"; Id "decltype"; Op "("] r with
      | Some (Id x :: r1) =>
          match after [Op ")"; Op ">"; Op "("] r1 with
          | Some r2 =>
              match expression n r2 with
              | Some (e, r3) => match after [Op ")"; Op "}"; Op ";"] r3 with Some r4 => Some (SMake k x e, r4) | None => None end
              | None => None
              end
          | None => None
          end
      | _ => None
      end
  | _ => None
  end.
Definition placed (n : nat) (ts : list etok) : option (stmt * list etok) :=
  match after [Op "::"; Id "new"; Op "("; Op "&"] ts with
  | Some (Id x :: r) =>
      match after [Op ")"; Op "("] r with
      | Some (Id k :: r1) =>
          match after [Op ")"; Op "("] r1 with
          | Some r2 =>
              match expression n r2 with
              | Some (e, r3) => match after [Op ")"; Op ";"] r3 with Some r4 => Some (SNew x k e, r4) | None => None end
              | None => None
              end
          | None => None
          end
      | _ => None
      end
  | _ => None
  end.
Definition destroyed (ts : list etok) : option (stmt * list etok) :=
  match ts with
  | Id x :: r =>
      match after [Op "."; Op "~"] r with
      | Some (Id k :: r1) => match after [Op "("; Op ")"; Op ";"] r1 with Some r2 => Some (SDestroy x k, r2) | None => None end
      | _ => None
      end
  | _ => None
  end.
Definition ended (o : option (cexpr * list etok)) (f : cexpr -> stmt) : option (stmt * list etok) :=
  match o with Some (e, Op ";" :: r) => Some (f e, r) | _ => None end.
Definition head_word (ts : list etok) : string := match ts with Id w :: _ => w | _ => "" end.

Fixpoint statement (n : nat) (ts : list etok) : option (stmt * list etok) :=
  match n with
  | O => None
  | S n' =>
      let w := head_word ts in
      let r := tl ts in
      if String.eqb w "return" then match made n' r with Some x => Some x | None => ended (expression n' r) SReturn end
      else if String.eqb w "break" then match after [Op ";"] r with Some r' => Some (SBreak, r') | None => None end
      else if String.eqb w "if" || String.eqb w "switch" then
        match after [Op "("] r with
        | Some r1 =>
            match expression n' r1 with
            | Some (e, r2) =>
                match after [Op ")"; Op "{"] r2 with
                | Some r3 =>
                    if String.eqb w "if"
                    then match statement_list n' r3 with Some (l, Op "}" :: r4) => Some (SIf e l, r4) | _ => None end
                    else match cases n' r3 with Some (l, Op "}" :: r4) => Some (SSwitch e l, r4) | _ => None end
                | None => None
                end
            | None => None
            end
        | None => None
        end
      else match placed n' ts with
           | Some x => Some x
           | None => match destroyed ts with Some x => Some x | None => ended (expression n' ts) SDo end
           end
  end
(** up to a closing brace, a label or the end *)
with statement_list (n : nat) (ts : list etok) : option (list stmt * list etok) :=
  match n with
  | O => None
  | S n' =>
      match ts with
      | [] | Op "}" :: _ => Some ([], ts)
      | _ =>
          if mem_str (head_word ts) ["case"; "default"] then Some ([], ts)
          else match statement n' ts with
               | Some (x, r) => match statement_list n' r with Some (l, r') => Some (x :: l, r') | None => None end
               | None => None
               end
      end
  end
with cases (n : nat) (ts : list etok) : option (list (option string * list stmt) * list etok) :=
  match n with
  | O => None
  | S n' =>
      let label := if String.eqb (head_word ts) "case" then
                     match tl ts with
                     | Id w :: r => let '(x, r1) := qualified w r in match after [Op ":"] r1 with Some r2 => Some (Some x, r2) | None => None end
                     | _ => None
                     end
                   else if String.eqb (head_word ts) "default" then
                     match after [Op ":"] (tl ts) with Some r2 => Some (None, r2) | None => None end
                   else None in
      match label with
      | Some (x, r) =>
          match statement_list n' r with
          | Some (l, r') => match cases n' r' with Some (cs, r'') => Some ((x, l) :: cs, r'') | None => None end
          | None => None
          end
      | None => Some ([], ts)
      end
  end.
(** Given enough steps the whole is read, always with the same result. *)
Definition body_of (ts : list etok) (body : list stmt) : Prop := exists n, forall m, n <= m -> statement_list m ts = Some (body, []).
(** The text is [head { body }]. *)
Definition is_method (text : string) (head : list etok) (body : list stmt) : Prop :=
  exists us, Lexes text (head ++ Op "{" :: us ++ [Op "}"]) /\ body_of us body.

(** ** Their meaning *)
(** Values, what they are made of, and the operators on them. *)
Record world := {
  wo_value : Type;
  wo_member : wo_value -> string -> option wo_value;
  wo_with : wo_value -> string -> wo_value -> option wo_value;     (* the same object with a new member *)
  wo_without : wo_value -> string -> option wo_value;               (* the same object with a member destroyed *)
  wo_named : string -> option wo_value;                            (* enumerators *)
  wo_compare : string -> wo_value -> wo_value -> option bool;
  wo_operate : string -> wo_value -> wo_value -> option wo_value;
  wo_complement : wo_value -> option wo_value;
  wo_truth : wo_value -> option bool;
  (* [class { static_cast<decltype(bits)>(v) }] *)
  wo_make : string -> string -> wo_value -> option wo_value
}.
Definition comparisons : list string := ["=="; "!="; "<"; ">"; "<="; ">="].

Section Meaning.
  Variable W : world.
  Let V : Type := wo_value W.
  Inductive result := Truth (x : bool) | Value (v : V).
  Definition as_truth (r : option result) : option bool :=
    match r with Some (Truth x) => Some x | Some (Value v) => wo_truth W v | None => None end.
  (** [self]: the object a method is called on; [args]: its parameters.  A
      parameter hides a member of the same name. *)
  Fixpoint eval (self : V) (args : list (string * V)) (e : cexpr) : option result :=
    match e with
    | CLeaf x =>
        if String.eqb x "true" then Some (Truth true)
        else if String.eqb x "false" then Some (Truth false)
        else if String.eqb x "this" then None
        else match lookup x args with
             | Some v => Some (Value v)
             | None => match wo_member W self x with Some v => Some (Value v) | None => option_map Value (wo_named W x) end
             end
    | CUn o a =>
        if String.eqb o "*" then match a with CLeaf x => if String.eqb x "this" then Some (Value self) else None | _ => None end
        else if String.eqb o "!" then option_map (fun x => Truth (negb x)) (as_truth (eval self args a))
        else if String.eqb o "~" then match eval self args a with Some (Value v) => option_map Value (wo_complement W v) | _ => None end
        else None
    | CDot a f => match eval self args a with Some (Value v) => option_map Value (wo_member W v f) | _ => None end
    | CBin o a b =>
        if String.eqb o "&&" then
          match as_truth (eval self args a) with
          | Some true => option_map Truth (as_truth (eval self args b))
          | Some false => Some (Truth false)
          | None => None
          end
        else if String.eqb o "||" then
          match as_truth (eval self args a) with
          | Some true => Some (Truth true)
          | Some false => option_map Truth (as_truth (eval self args b))
          | None => None
          end
        else match eval self args a, eval self args b with
             | Some (Value x), Some (Value y) =>
                 if mem_str o comparisons then option_map Truth (wo_compare W o x y) else option_map Value (wo_operate W o x y)
             | _, _ => None
             end
    | CCast _ _ | CBraces _ _ => None
    end.

  Inductive flow := Next | Broken | Returned (r : result).
  (** The statements from the label for [v] on, if there is one. *)
  Fixpoint from_label (v : V) (cs : list (option string * list stmt)) : option (option (list stmt)) :=
    match cs with
    | [] => Some None
    | (None, _) :: r => from_label v r
    | (Some x, _) :: r =>
        match wo_named W x with
        | Some y => match wo_compare W "==" v y with
                    | Some true => Some (Some (flat_map snd cs))
                    | Some false => from_label v r
                    | None => None
                    end
        | None => None
        end
    end.
  Fixpoint from_default (cs : list (option string * list stmt)) : list stmt :=
    match cs with [] => [] | (None, _) :: _ => flat_map snd cs | _ :: r => from_default r end.
  (** The object afterwards and how the statements ended; [None]: the steps ran
      out, or the statement has no meaning. *)
  Fixpoint exec (n : nat) (self : V) (args : list (string * V)) (l : list stmt) : option (V * flow) :=
    match n with
    | O => None
    | S n' =>
        match l with
        | [] => Some (self, Next)
        | x :: r =>
            let go (o : option (V * flow)) := match o with Some (s, Next) => exec n' s args r | _ => o end in
            match x with
            | SReturn e => option_map (fun v => (self, Returned v)) (eval self args e)
            | SMake k bits e =>
                match eval self args e with Some (Value v) => option_map (fun o => (self, Returned (Value o))) (wo_make W k bits v) | _ => None end
            | SDo (CBin o (CUn o' (CLeaf x')) e) =>
                if String.eqb o "=" && String.eqb o' "*" && String.eqb x' "this"
                then match eval self args e with Some (Value v) => go (Some (v, Next)) | _ => None end
                else None
            | SDo _ => None
            | SNew place _ e =>
                match eval self args e with
                | Some (Value v) => match wo_with W self place v with Some s => go (Some (s, Next)) | None => None end
                | _ => None
                end
            | SDestroy place _ => match wo_without W self place with Some s => go (Some (s, Next)) | None => None end
            | SIf e body =>
                match as_truth (eval self args e) with
                | Some true => go (exec n' self args body)
                | Some false => go (Some (self, Next))
                | None => None
                end
            | SSwitch e cs =>
                match eval self args e with
                | Some (Value v) =>
                    match from_label v cs with
                    | Some o =>
                        let body := match o with Some body => body | None => from_default cs end in
                        go (match exec n' self args body with Some (s, Broken) => Some (s, Next) | f => f end)
                    | None => None
                    end
                | _ => None
                end
            | SBreak => Some (self, Broken)
            end
        end
    end.
  (** Called on [self], the method leaves the object [self'] and returns [r]. *)
  Definition returns (body : list stmt) (self : V) (args : list (string * V)) (self' : V) (r : result) : Prop :=
    exists n, forall m, n <= m -> exec m self args body = Some (self', Returned r).
  Definition leaves (body : list stmt) (self : V) (args : list (string * V)) (self' : V) : Prop :=
    exists n, forall m, n <= m -> exec m self args body = Some (self', Next).
End Meaning.
Arguments Truth {W} x.
Arguments Value {W} v.
