(** Specifications for types: the memory representation of the standard
    wrappers (C14), the meaning of substitution (C15), what a mangled name has
    to identify (C16), identifiers (C17). *)
Require Import Coq.Strings.String Coq.Strings.Ascii Coq.Lists.List Coq.Bool.Bool Coq.Arith.Arith.
From Verif Require Import Base S_Lex M_Config M_Type.
Import ListNotations.
Open Scope string_scope.

(** ** C14: representation of Rust types.

    A type is represented by a shape, which also records what a C user of the
    type sees (whether a pointer allows writing, whether it is a reference, the
    names of function parameters); the flag says that the all-zero value is
    not a valid value of the type (a "niche"), which is what makes
    [Option<T>] as large as [T]. *)
Inductive shape :=
| ShPtr (read_only is_ref : bool) (pointee : shape)
| ShFn (ret : shape) (args : list (option string * shape)) (never : bool)
| ShInt (signed : bool) (kind : IntKind)
| ShPrim (p : PrimitiveType)
| ShArray (elem : shape) (len : ConstExpr)
| ShNamed (path : string) (args : list (shape + ConstExpr)).

Definition hiding_wrapper (n : string) : bool :=   (* same bytes, but zero becomes a valid value *)
  mem_str n ["SyncUnsafeCell"; "UnsafeCell"; "Cell"; "MaybeUninit"].
Definition thin_wrapper (n : string) : bool :=     (* same bytes, same valid values *)
  mem_str n ["ManuallyDrop"; "Pin"].
Definition pointer_wrapper (n : string) : bool := mem_str n ["NonNull"; "Box"].

Fixpoint abi (t : Ty) : shape * bool :=
  match t with
  | TPtr u read_only nullable is_ref => (ShPtr read_only is_ref (fst (abi u)), negb nullable)
  | TFuncPtr r args nullable never =>
      (ShFn (fst (abi r)) (map (fun a => (fst a, fst (abi (snd a)))) args) never, negb nullable)
  | TPrim (PInteger zeroable s k) => (ShInt s k, negb zeroable)
  | TPrim p => (ShPrim p, false)
  | TArray u len => (ShArray (fst (abi u)) len, false)
  | TPath (GPath n _ gs _) =>
      let named := (ShNamed n (map (fun g => match g with
                                             | GType u => inl (fst (abi u))
                                             | GConst e => inr e
                                             end) gs), false) in
      match gs with
      | [GType u] =>
          if pointer_wrapper n then (ShPtr false false (fst (abi u)), true)
          else if thin_wrapper n then abi u
          else if hiding_wrapper n then (fst (abi u), false)
          else if String.eqb n "Option" then if snd (abi u) then (fst (abi u), false) else named
          else if String.eqb n "NonZero" then
            match abi u with (ShInt s k, false) => (ShInt s k, true) | _ => named end
          else named
      | _ => named
      end
  end.

(** [Option] directly around a wrapper that hides the niche, possibly through thin wrappers. *)
Fixpoint hides (t : Ty) : bool :=
  match t with
  | TPath (GPath n _ [GType u] _) => hiding_wrapper n || ((thin_wrapper n || String.eqb n "NonZero") && hides u)
  | _ => false
  end.
Fixpoint no_option_over_cell (t : Ty) : bool :=
  match t with
  | TPtr u _ _ _ => no_option_over_cell u
  | TFuncPtr r args _ _ => no_option_over_cell r && forallb (fun a => no_option_over_cell (snd a)) args
  | TPrim _ => true
  | TArray u _ => no_option_over_cell u
  | TPath (GPath n _ gs _) =>
      forallb (fun g => match g with GType u => no_option_over_cell u | GConst _ => true end) gs
      && match gs with
         | [GType u] => negb ((String.eqb n "Option" || String.eqb n "NonZero") && hides u)
         | _ => true
         end
  end.

(** Is this a wrapper that must not survive? *)
Definition must_vanish (lang : Language) (t : Ty) : bool :=
  match t with
  | TPath (GPath n _ [GType u] _) =>
      mem_str n ["NonNull"; "SyncUnsafeCell"; "UnsafeCell"; "Cell"]
      || (negb (Language_eqb lang Cxx) && mem_str n ["Box"; "ManuallyDrop"; "MaybeUninit"; "Pin"])
      || (String.eqb n "Option" &&
          match u with
          | TPtr _ _ false _ | TFuncPtr _ _ false _ | TPrim (PInteger false _ _) => true
          | _ => false
          end)
      || (String.eqb n "NonZero" && match u with TPrim (PInteger true _ _) => true | _ => false end)
  | _ => false
  end.
(** No such wrapper at any depth. *)
Fixpoint simplified (lang : Language) (t : Ty) : bool :=
  negb (must_vanish lang t) &&
  match t with
  | TPtr u _ _ _ => simplified lang u
  | TFuncPtr r args _ _ => simplified lang r && forallb (fun a => simplified lang (snd a)) args
  | TPrim _ => true
  | TArray u _ => simplified lang u
  | TPath (GPath n _ gs _) =>
      forallb (fun g => match g with GType u => simplified lang u | GConst _ => true end) gs
  end.

(** ** C15: meaning of a type in an arbitrary interpretation.

    An interpretation says what pointers, arrays, function pointers, primitive
    types and named types are, in any domain; generic parameters are looked up
    in an environment.  A generics-free path used as an argument may stand for
    a type or for a constant, so an argument denotes one or the other or both. *)
Record interp (V K : Type) := {
  i_ptr : V -> bool -> bool -> bool -> V;
  i_prim : PrimitiveType -> V;
  i_array : V -> K -> V;
  i_func : V -> list (option string * V) -> bool -> bool -> V;
  i_named : string -> list (option V * option K) -> V;
  i_const : string -> list (option V * option K) -> K;
  i_value : string -> K
}.
Arguments i_ptr {V K}. Arguments i_prim {V K}. Arguments i_array {V K}. Arguments i_func {V K}.
Arguments i_named {V K}. Arguments i_const {V K}. Arguments i_value {V K}.

Section Meaning.
Context {V K : Type} (I : interp V K).
Definition env := string -> option (option V * option K).

Fixpoint ty_meaning (rho : env) (t : Ty) : V :=
  match t with
  | TPtr u c n r => i_ptr I (ty_meaning rho u) c n r
  | TPrim p => i_prim I p
  | TArray u len => i_array I (ty_meaning rho u) (const_meaning rho len)
  | TFuncPtr r args n nr =>
      i_func I (ty_meaning rho r) (map (fun a => (fst a, ty_meaning rho (snd a))) args) n nr
  | TPath (GPath p _ gs _) =>
      match rho p with
      | Some (Some v, _) => v
      | _ => i_named I p (map (arg_meaning rho) gs)
      end
  end
with arg_meaning (rho : env) (a : GenericArgument) : option V * option K :=
  match a with
  | GType (TPath (GPath p _ [] _)) =>
      match rho p with
      | Some a => a
      | None => (Some (i_named I p []), Some (i_const I p []))
      end
  | GType t => (Some (ty_meaning rho t), None)
  | GConst e => (None, Some (const_meaning rho e))
  end
with const_meaning (rho : env) (e : ConstExpr) : K :=
  match e with
  | EValue s => i_value I s
  | EPath (GPath p _ gs _) =>
      match gs, rho p with
      | [], Some (_, Some k) => k
      | _, _ => i_const I p (map (arg_meaning rho) gs)
      end
  end.
End Meaning.

(** Names a type mentions. *)
Fixpoint ty_names (t : Ty) : list string :=
  match t with
  | TPtr u _ _ _ => ty_names u
  | TPrim _ => []
  | TArray u len => ty_names u ++ const_names len
  | TFuncPtr r args _ _ => ty_names r ++ flat_map (fun a => ty_names (snd a)) args
  | TPath g => gpath_names g
  end%list
with gpath_names (g : GenericPath) : list string :=
  match g with GPath p _ gs _ => p :: flat_map arg_names gs end
with arg_names (a : GenericArgument) : list string :=
  match a with GType t => ty_names t | GConst e => const_names e end
with const_names (e : ConstExpr) : list string :=
  match e with EPath g => gpath_names g | EValue _ => [] end.

(** As loaded from source: constants in argument position are literals
    (a constant's name is loaded as a type), array lengths have no generics. *)
Fixpoint loaded (t : Ty) : bool :=
  match t with
  | TPtr u _ _ _ => loaded u
  | TPrim _ => true
  | TArray u len => loaded u && match len with EPath g => is_single_identifier g | EValue _ => true end
  | TFuncPtr r args _ _ => loaded r && forallb (fun a => loaded (snd a)) args
  | TPath (GPath _ _ gs _) =>
      forallb (fun g => match g with GType u => loaded u | GConst (EValue _) => true | GConst (EPath _) => false end) gs
  end.

(** Names a type applies to arguments. *)
Fixpoint applied_names (t : Ty) : list string :=
  match t with
  | TPtr u _ _ _ => applied_names u
  | TPrim _ => []
  | TArray u _ => applied_names u
  | TFuncPtr r args _ _ => applied_names r ++ flat_map (fun a => applied_names (snd a)) args
  | TPath (GPath p _ gs _) =>
      (match gs with [] => [] | _ => [p] end)
      ++ flat_map (fun g => match g with GType u => applied_names u | GConst _ => [] end) gs
  end%list.

(** Environments: no parameter at all, and the parameters [ms] bound to the
    meanings of their arguments. *)
Definition no_params {V K} : @env V K := fun _ => None.
Definition bind {V K} (I : interp V K) (ms : list (string * GenericArgument)) : @env V K :=
  fun p => option_map (arg_meaning I no_params) (lookup p ms).

(** Every parameter is used as what it is bound to. *)
Fixpoint kinded (ms : list (string * GenericArgument)) (t : Ty) : bool :=
  match t with
  | TPtr u _ _ _ => kinded ms u
  | TPrim _ => true
  | TArray u len => kinded ms u &&
      match len with
      | EPath g => match lookup (gp_path g) ms with
                   | None | Some (GConst _) => true
                   | Some (GType (TPath q)) => is_single_identifier q
                   | Some (GType _) => false
                   end
      | EValue _ => true
      end
  | TFuncPtr r args _ _ => kinded ms r && forallb (fun a => kinded ms (snd a)) args
  | TPath (GPath p _ gs _) =>
      match lookup p ms with None | Some (GType _) => true | Some (GConst _) => false end
      && forallb (fun g => match g with
                           | GType (TPath (GPath _ _ [] _)) => true
                           | GType u => kinded ms u
                           | GConst _ => true
                           end) gs
  end.

(** ** C16: what has to be recovered from a mangled name. *)
Inductive marg :=
| MNode (ptrs : list bool) (name : string) (args : list marg)   (* true: const pointer; outermost first *)
| MArray (name : string) (args : list marg) (len : string)
| MVal (text : string).

Fixpoint view_ty (t : Ty) : option marg :=
  match t with
  | TPrim p => Some (MNode [] (to_repr_rust p) [])
  | TPath g => option_map (fun x => MNode [] (fst x) (snd x)) (view_gpath g)
  | TPtr u c _ _ => match view_ty u with
                    | Some (MNode ps n l) => Some (MNode (c :: ps) n l)
                    | _ => None
                    end
  | TArray u len => match view_ty u, len with
                    | Some (MNode [] n l), EValue s => Some (MArray n l s)
                    | Some (MNode [] n l), EPath (GPath _ e [] _) => Some (MArray n l e)
                    | _, _ => None
                    end
  | TFuncPtr _ _ _ _ => None
  end
with view_gpath (g : GenericPath) : option (string * list marg) :=
  match g with
  | GPath _ e gs _ =>
      let fix go l := match l with
                      | [] => Some []
                      | a :: r => match view_arg a, go r with
                                  | Some x, Some xs => Some (x :: xs)
                                  | _, _ => None
                                  end
                      end in
      option_map (fun l => (e, l)) (go gs)
  end
with view_arg (a : GenericArgument) : option marg :=
  match a with
  | GType t => view_ty t
  | GConst (EValue s) => Some (MVal s)
  | GConst (EPath g) => option_map (fun x => MNode [] (fst x) (snd x)) (view_gpath g)
  end.
(** [None]: outside the fragment (function pointers, arrays of pointers or of arrays, pointers to arrays). *)
Fixpoint view_args (l : list GenericArgument) : option (list marg) :=
  match l with
  | [] => Some []
  | a :: r => match view_arg a, view_args r with
              | Some x, Some xs => Some (x :: xs)
              | _, _ => None
              end
  end.

Fixpoint no_underscore (s : string) : bool :=
  match s with "" => true | String a r => negb (Ascii.eqb a "_") && no_underscore r end.
Definition plain_name (s : string) : bool := negb (String.eqb s "") && no_underscore s.
(** Pointer chains: at most four levels, all of the same mutability. *)
Definition plain_chain (ps : list bool) : bool :=
  Nat.leb (length ps) 4 && match ps with [] => true | c :: r => forallb (Bool.eqb c) r end.
(** Names without underscores, each used with one number of arguments. *)
Fixpoint well_named (arity : string -> nat) (a : marg) : bool :=
  match a with
  | MNode ps n l => plain_chain ps && plain_name n && Nat.eqb (length l) (arity n) && forallb (well_named arity) l
  | MArray n l s => plain_name n && Nat.eqb (length l) (arity n) && forallb (well_named arity) l
                    && plain_name s && Nat.eqb (arity s) 0
  | MVal s => plain_name s && Nat.eqb (arity s) 0
  end.
Definition MVal_as_name (a : marg) : marg := match a with MVal s => MNode [] s [] | a => a end.
Fixpoint erase (a : marg) : marg :=
  match a with
  | MNode ps n l => MNode ps n (map erase l)
  | MArray n l s => MArray n (map erase l) s
  | MVal s => MNode [] s []
  end.
(** A literal and a name with the same spelling cannot both occur in source,
    so they are identified by [erase]. *)

(** ** C17 *)
Definition words_to_words {H : Heck} (r : RenameRule) : Prop :=
  forall s, all_wordchars s = true -> all_wordchars (RenameRule_apply r s IType) = true.
Fixpoint mangle_ok (t : Ty) : bool :=
  match t with
  | TPtr u _ _ _ => mangle_ok u
  | TPrim _ => true
  | TArray u len => mangle_ok u && mangle_ok_const len
  | TFuncPtr r args _ _ => mangle_ok r && forallb (fun a => mangle_ok (snd a)) args
  | TPath g => mangle_ok_gpath g
  end
with mangle_ok_gpath (g : GenericPath) : bool :=
  match g with GPath _ e gs _ => all_wordchars e && forallb mangle_ok_arg gs end
with mangle_ok_arg (a : GenericArgument) : bool :=
  match a with GType t => mangle_ok t | GConst e => mangle_ok_const e end
with mangle_ok_const (e : ConstExpr) : bool :=
  match e with EPath g => mangle_ok_gpath g | EValue s => all_wordchars s end.
