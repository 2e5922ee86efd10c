(** What loading a crate should give, said without the parser's state: which
    functions are bound (C32), under which conditions an item exists (C33), which
    crates are read (C34) and which files the modules are in (C40). *)
Require Import Coq.Strings.String Coq.Strings.Ascii Coq.Lists.List Coq.Bool.Bool Coq.Arith.Arith.
From Verif Require Import Base M_Config M_Cfg S_Cfg M_Type M_Ir M_Item M_Attr M_Syn M_Library M_Bindings M_Loader M_Parser.
Import ListNotations.
Open Scope string_scope.

(** ** Exported symbols *)

(** [#[export_name = "n"]] and [#[unsafe(export_name = "n")]] *)
Definition gives_name (a : attribute) (n : string) : Prop :=
  at_meta a = ANameValue (Some "export_name") (Some n)
  \/ at_meta a = AList (Some "unsafe") [ANameValue (Some "export_name") (Some n)].
(** [#[no_mangle]] and [#[unsafe(no_mangle)]] *)
Definition keeps_name (a : attribute) : Prop :=
  at_meta a = APath (Some "no_mangle") \/ at_meta a = AList (Some "unsafe") [APath (Some "no_mangle")].
(** The symbol the compiler gives an item called [ident], if it has a fixed one. *)
Definition symbol (attrs : attributes) (ident n : string) : Prop :=
  (exists a, In a attrs /\ gives_name a n)
  \/ (forall a m, In a attrs -> ~ gives_name a m) /\ (exists a, In a attrs /\ keeps_name a) /\ n = ident.
(** What the compiler accepts: [unsafe(..)] around one attribute, a text after
    [export_name =], and not two names. *)
Definition attributes_ok (attrs : attributes) : Prop :=
  (forall a args, In a attrs -> at_meta a = AList (Some "unsafe") args -> exists x, args = [x])
  /\ (forall a b m n, In a attrs -> In b attrs -> gives_name a m -> gives_name b n -> m = n).

(** ** Declared functions *)

(** The calling conventions of C: [extern], [extern "C"], and the two of
    secure-world calls *)
Definition c_abi (abi : option (option string)) : Prop :=
  exists n, abi = Some n
    /\ In n [None; Some "C"; Some "C-unwind"; Some "cmse-nonsecure-entry"; Some "cmse-nonsecure-call"].
(** What a block of foreign functions may be marked with *)
Definition c_block (abi : option string) : Prop := In abi [None; Some "C"; Some "C-unwind"].

(** A function that other languages can call: its symbol, the type it is a
    method of, its signature, its attributes, the attributes of the block it is
    in, and whether it is defined elsewhere *)
Record declaration := { dc_symbol : string; dc_self : option string; dc_sig : ssig; dc_attrs : attributes; dc_block : attributes;
                        dc_foreign : bool }.

(** The callable methods of an impl block for the type [ty], in order *)
Inductive methods_of (ty : string) : list simpl_item -> list declaration -> Prop :=
| mo_nil : methods_of ty [] []
| mo_take : forall attrs public sig n r ds,
    should_skip_parsing attrs = false -> c_abi (sg_abi sig) -> symbol attrs (unraw (sg_ident sig)) n -> methods_of ty r ds ->
    methods_of ty (ImplFn attrs public sig :: r)
      ({| dc_symbol := n; dc_self := Some ty; dc_sig := sig; dc_attrs := attrs; dc_block := []; dc_foreign := false |} :: ds)
| mo_hidden : forall attrs public sig r ds,
    should_skip_parsing attrs = true \/ ~ c_abi (sg_abi sig) \/ (forall n, ~ symbol attrs (unraw (sg_ident sig)) n) ->
    methods_of ty r ds -> methods_of ty (ImplFn attrs public sig :: r) ds
| mo_other : forall x r ds, (forall a p s, x <> ImplFn a p s) -> methods_of ty r ds -> methods_of ty (x :: r) ds.

Fixpoint foreign_of (block : attributes) (l : list (option (attributes * ssig))) : list declaration :=
  match l with
  | [] => []
  | Some (attrs, sig) :: r =>
      {| dc_symbol := unraw (sg_ident sig); dc_self := None; dc_sig := sig; dc_attrs := attrs; dc_block := block;
         dc_foreign := true |} :: foreign_of block r
  | None :: r => foreign_of block r
  end.

(** The callable functions of one item.  Whether it is public plays no role. *)
Inductive callable : sitem -> list declaration -> Prop :=
| ca_skip : forall i, should_skip_parsing (item_attrs i) = true -> callable i []
| ca_fn : forall attrs public sig n,
    should_skip_parsing attrs = false -> c_abi (sg_abi sig) -> symbol attrs (unraw (sg_ident sig)) n ->
    callable (ItemFn attrs public sig)
      [{| dc_symbol := n; dc_self := None; dc_sig := sig; dc_attrs := attrs; dc_block := []; dc_foreign := false |}]
| ca_hidden : forall attrs public sig,
    ~ c_abi (sg_abi sig) \/ (forall n, ~ symbol attrs (unraw (sg_ident sig)) n) -> callable (ItemFn attrs public sig) []
| ca_foreign : forall attrs abi items,
    should_skip_parsing attrs = false -> c_block abi -> callable (ItemForeignMod attrs abi items) (foreign_of attrs items)
| ca_other_block : forall attrs abi items, ~ c_block abi -> callable (ItemForeignMod attrs abi items) []
| ca_impl : forall attrs ty items ds,
    should_skip_parsing attrs = false -> methods_of (unraw ty) items ds ->
    callable (ItemImpl attrs (SPath (SegPath [] ty NoArgs)) items) ds
| ca_other_impl : forall attrs t items, (forall ty, t <> SPath (SegPath [] ty NoArgs)) -> callable (ItemImpl attrs t items) []
| ca_other : forall i,
    match i with ItemFn _ _ _ | ItemForeignMod _ _ _ | ItemImpl _ _ _ => False | _ => True end -> callable i [].
Inductive callables : list sitem -> list declaration -> Prop :=
| cs_nil : callables [] []
| cs_cons : forall i r ds es, callable i ds -> callables r es -> callables (i :: r) (ds ++ es).

(** The parameters written for those of a signature: one without a size is left
    out; a type stands for itself, with [Self] put in. *)
Inductive parameter : sfnarg -> option (option string * Ty) -> Prop :=
| pa_none : forall p t, Type_load t = Some None -> parameter (FnTyped p t) None
| pa_named : forall i t ty, Type_load t = Some (Some ty) -> is_array ty = false -> ty <> TPrim PVaList ->
    parameter (FnTyped (PatIdent i) t) (Some (Some (unraw i), ty))
| pa_wild : forall t ty, Type_load t = Some (Some ty) -> is_array ty = false -> parameter (FnTyped PatWild t) (Some (None, ty))
| pa_rest : forall i t, Type_load t = Some (Some (TPrim PVaList)) -> parameter (FnTyped (PatIdent i) t) (Some (None, TPrim PVaList))
| pa_ref : forall mutable, parameter (FnReceiver (RecvRef mutable)) (Some (Some "self", TPtr (TPath self_path) (negb mutable) false false))
| pa_value : parameter (FnReceiver RecvValue) (Some (Some "self", TPath self_path))
| pa_typed : forall t ty, Type_load t = Some (Some ty) -> parameter (FnReceiver (RecvTyped t)) (Some (Some "self", ty))
| pa_typed_none : forall t, Type_load t = Some None -> parameter (FnReceiver (RecvTyped t)) (Some (Some "self", TPath self_path)).
Definition in_self (self : option string) (t : Ty) : Ty := match self with Some p => replace_self_with p t | None => t end.
Definition written_parameters (d : declaration) (args : list FunctionArgument) : Prop :=
  exists given, Forall2 parameter (sg_inputs (dc_sig d)) given
    /\ args = (map (fun g => argument (fst g) (in_self (dc_self d) (snd g))) (filter_map (fun x => x) given)
               ++ (if sg_variadic (dc_sig d) then [argument None (TPrim PVaList)] else []))%list.
(** What is returned: nothing is [void]; [!] is [void] too and says so. *)
Definition returned (o : option sty) (t : Ty) (never : bool) : Prop :=
  match o with
  | None => t = TPrim PVoid /\ never = false
  | Some SNever => t = TPrim PVoid /\ never = true
  | Some u => never = false /\ (Type_load u = Some (Some t) \/ Type_load u = Some None /\ t = TPrim PVoid)
  end.
(** Whether the attributes' conditions hold. *)
Definition attrs_hold (rho : atom -> bool) (attrs : attributes) : bool := cfg_eval_opt rho (Cfg_of_attrs attrs).

(** [f] is what is bound for [d], in a module that exists when [here] does. *)
Record binds (here : (atom -> bool) -> bool) (d : declaration) (f : Function) : Prop := {
  bi_name : f_path f = dc_symbol d;
  bi_self : f_self_type_path f = dc_self d;
  bi_args : written_parameters d (f_args f);
  bi_ret : exists t, returned (sg_output (dc_sig d)) t (f_never_return f) /\ f_ret f = in_self (dc_self d) t;
  bi_foreign : f_extern_decl f = dc_foreign d;
  bi_cfg : forall rho, cfg_eval_opt rho (f_cfg f) = here rho && attrs_hold rho (dc_block d) && attrs_hold rho (dc_attrs d);
  bi_annotations : AnnotationSet_load (dc_attrs d) = Some (f_annotations f);
  bi_documentation : f_documentation f = Documentation_load (dc_attrs d)
}.
(** A function that cannot be bound: a type that has no translation, an array
    or a pattern as parameter, or a malformed annotation *)
Definition unsupported (d : declaration) : Prop :=
  (exists a, In a (sg_inputs (dc_sig d)) /\ forall x, ~ parameter a x)
  \/ (forall t b, ~ returned (sg_output (dc_sig d)) t b)
  \/ AnnotationSet_load (dc_attrs d) = None.
Inductive bound (here : (atom -> bool) -> bool) : list declaration -> list Function -> Prop :=
| bo_nil : bound here [] []
| bo_take : forall d f ds fs, binds here d f -> bound here ds fs -> bound here (d :: ds) (f :: fs)
| bo_drop : forall d ds fs, unsupported d -> bound here ds fs -> bound here (d :: ds) fs.
(** A receiver [self: &T] *)
Definition typed_reference (a : sfnarg) : Prop := exists m u, a = FnReceiver (RecvTyped (SRef m u)).
(** What is assumed of the functions of an item: attributes the compiler accepts
    and no such receiver *)
Definition sig_ok (s : ssig) : Prop := Forall (fun a => ~ typed_reference a) (sg_inputs s).
Definition item_ok (i : sitem) : Prop :=
  match i with
  | ItemFn attrs _ sig => attributes_ok attrs /\ sig_ok sig
  | ItemForeignMod _ _ items => forall a s, In (Some (a, s)) items -> sig_ok s
  | ItemImpl _ _ items => forall a p s, In (ImplFn a p s) items -> attributes_ok a /\ sig_ok s
  | _ => True
  end.

(** ** Modules *)

(** Where the items of a module are: the directory of the file (and of the
    inline modules around) and the directory its submodules are looked for in,
    unless the crate came as one text; the number of files above; whether the
    module is inline; whether its file owns its directory. *)
Record place := { pl_dirs : option (cpath * cpath); pl_depth : nat; pl_inline : bool; pl_mod_rs : bool }.
Definition file_place (path : cpath) (depth : nat) : place :=
  let owns := Nat.eqb depth 0 || String.eqb (last path "") "mod.rs" in
  {| pl_dirs := Some (removelast path, if owns then removelast path else (removelast path ++ [file_stem path])%list);
     pl_depth := depth; pl_inline := false; pl_mod_rs := owns |}.
Definition inline_place (pl : place) (name : string) : place :=
  {| pl_dirs := option_map (fun d => ((fst d ++ [name])%list, (snd d ++ [name])%list)) (pl_dirs pl);
     pl_depth := pl_depth pl; pl_inline := true; pl_mod_rs := pl_mod_rs pl |}.
(** The file looked at for [mod name;] *)
Definition module_file (d : disk) (pl : place) (attrs : attributes) (name : string) : option cpath :=
  match pl_dirs pl with
  | None => None
  | Some (dir, subdir) =>
      if dk_exists d (subdir ++ [append name ".rs"])%list then Some (subdir ++ [append name ".rs"])%list
      else if dk_exists d (subdir ++ [name; "mod.rs"])%list then Some (subdir ++ [name; "mod.rs"])%list
      else option_map (join_text (if pl_inline pl && negb (pl_mod_rs pl) then subdir else dir)) (path_attr attrs)
  end.
(** The conditions of a module, one more than those of the module around it *)
Definition inner (gs : list Cfg) (attrs : attributes) : list Cfg :=
  (gs ++ match Cfg_of_attrs attrs with Some c => [c] | None => [] end)%list.
(** A module that is read: its file if it has one of its own, the conditions of
    the modules around it and its own, its items *)
Record visit := { vi_file : option cpath; vi_guards : list Cfg; vi_items : list sitem }.

(** The modules that are read for a module and all below it, in order: a
    module before its submodules *)
Inductive visits (d : disk) : option cpath -> place -> list Cfg -> list sitem -> list visit -> Prop :=
| vi_module : forall file pl gs items vs, submodules d pl gs (nested_modules items) vs ->
    visits d file pl gs items ({| vi_file := file; vi_guards := gs; vi_items := items |} :: vs)
with submodules (d : disk) : place -> list Cfg -> list module -> list visit -> Prop :=
| su_nil : forall pl gs, submodules d pl gs [] []
| su_inline : forall pl gs attrs ident items ms vs ws,
    visits d None (inline_place pl (unraw ident)) (inner gs attrs) items vs -> submodules d pl gs ms ws ->
    submodules d pl gs ((attrs, ident, Some items) :: ms) (vs ++ ws)
| su_file : forall pl gs attrs ident file items ms vs ws,
    module_file d pl attrs (unraw ident) = Some file -> dk_items d file = Some items ->
    visits d (Some file) (file_place file (S (pl_depth pl))) (inner gs attrs) items vs -> submodules d pl gs ms ws ->
    submodules d pl gs ((attrs, ident, None) :: ms) (vs ++ ws)
| su_missing : forall pl gs attrs ident ms ws,
    module_file d pl attrs (unraw ident) = None -> submodules d pl gs ms ws ->
    submodules d pl gs ((attrs, ident, None) :: ms) ws.
Scheme visits_ind2 := Minimality for visits Sort Prop with submodules_ind2 := Minimality for submodules Sort Prop.
Combined Scheme visits_mutind from visits_ind2, submodules_ind2.

(** The modules of a crate whose first file is [path] *)
Definition crate_visits (d : disk) (path : cpath) (gs : list Cfg) (vs : list visit) : Prop :=
  exists items, dk_items d path = Some items /\ visits d (Some path) (file_place path 0) gs items vs.
Definition guards_hold (rho : atom -> bool) (gs : list Cfg) : bool := forallb (cfg_eval rho) gs.
(** The list without repetitions, in order of first occurrence *)
Fixpoint firsts (seen l : list cpath) : list cpath :=
  match l with
  | [] => []
  | x :: r => if mem_path x seen then firsts seen r else x :: firsts (seen ++ [x]) r
  end.
(** The functions bound for a module *)
Definition functions_of (v : visit) (fs : list Function) : Prop :=
  exists ds, callables (vi_items v) ds /\ bound (fun rho => guards_hold rho (vi_guards v)) ds fs.
Definition files_of (vs : list visit) : list cpath := filter_map vi_file vs.

(** *** The compiler's rules for the files of modules
    (The Rust Reference, "Module source filenames" and "The path attribute",
    and [rustc_expand::module]) *)

(** Where the compiler is: the directory of the file, or of the inline module,
    and the name of the file if it does not own the directory *)
Record rust_place := { ru_dir : cpath; ru_relative : option string }.
(** Where submodules are looked for *)
Definition default_dir (r : rust_place) : cpath := (ru_dir r ++ match ru_relative r with Some n => [n] | None => [] end)%list.
Definition inside_place (r : rust_place) (name : string) : rust_place :=
  {| ru_dir := (default_dir r ++ [name])%list; ru_relative := None |}.
(** The file of [mod name;], and where its own modules are: a path attribute
    decides; a file so named owns its directory. *)
Inductive rust_file (d : disk) (r : rust_place) (attrs : attributes) (name : string) : cpath -> rust_place -> Prop :=
| rf_path : forall text, path_attr attrs = Some text ->
    rust_file d r attrs name (join_text (ru_dir r) text)
      {| ru_dir := removelast (join_text (ru_dir r) text); ru_relative := None |}
| rf_file : path_attr attrs = None -> dk_exists d (default_dir r ++ [append name ".rs"])%list = true ->
    rust_file d r attrs name (default_dir r ++ [append name ".rs"])%list {| ru_dir := default_dir r; ru_relative := Some name |}
| rf_directory : path_attr attrs = None -> dk_exists d (default_dir r ++ [name; "mod.rs"])%list = true ->
    rust_file d r attrs name (default_dir r ++ [name; "mod.rs"])%list {| ru_dir := (default_dir r ++ [name])%list; ru_relative := None |}.
(** The module bodies of a crate, in order, with their files *)
Inductive rust_visits (d : disk) : option cpath -> rust_place -> list sitem -> list (option cpath * list sitem) -> Prop :=
| rv_module : forall file r items vs, rust_submodules d r (nested_modules items) vs ->
    rust_visits d file r items ((file, items) :: vs)
with rust_submodules (d : disk) : rust_place -> list module -> list (option cpath * list sitem) -> Prop :=
| rs_nil : forall r, rust_submodules d r [] []
| rs_inline : forall r attrs ident items ms vs ws, path_attr attrs = None ->
    rust_visits d None (inside_place r (unraw ident)) items vs -> rust_submodules d r ms ws ->
    rust_submodules d r ((attrs, ident, Some items) :: ms) (vs ++ ws)
| rs_inline_path : forall r attrs ident items ms vs ws text, path_attr attrs = Some text ->
    rust_visits d None {| ru_dir := join_text (ru_dir r) text; ru_relative := None |} items vs -> rust_submodules d r ms ws ->
    rust_submodules d r ((attrs, ident, Some items) :: ms) (vs ++ ws)
| rs_file : forall r attrs ident file r' items ms vs ws,
    rust_file d r attrs (unraw ident) file r' -> dk_items d file = Some items ->
    rust_visits d (Some file) r' items vs -> rust_submodules d r ms ws ->
    rust_submodules d r ((attrs, ident, None) :: ms) (vs ++ ws)
| rs_missing : forall r attrs ident ms ws,
    (forall file r', ~ rust_file d r attrs (unraw ident) file r') -> rust_submodules d r ms ws ->
    rust_submodules d r ((attrs, ident, None) :: ms) ws.
(** Modules with a name and without a path attribute *)
Inductive usual : list sitem -> Prop :=
| us_intro : forall items,
    (forall attrs ident content, In (ItemMod attrs ident content) items ->
       path_attr attrs = None /\ unraw ident <> "" /\ unraw ident <> "mod") ->
    (forall attrs ident inside, In (ItemMod attrs ident (Some inside)) items -> usual inside) -> usual items.

(** *** What a module introduces *)

Inductive kind := KFunction | KConstant | KStatic | KStruct | KUnion | KEnum | KTypedef | KOpaque.
(** One thing found: its kind, its name and the condition recorded for it *)
Record entry := { en_kind : kind; en_name : string; en_cfg : option Cfg }.
Definition entry_of (k : kind) {T} {I : Item T} (x : T) : entry := {| en_kind := k; en_name := i_path x; en_cfg := i_cfg x |}.
(** Constants of a struct are kept with it. *)
Definition entries (p : Parse) : list entry :=
  (map (entry_of KConstant) (to_vec (pr_constants p))
   ++ map (entry_of KConstant) (concat (map s_associated_constants (to_vec (pr_structs p))))
   ++ map (entry_of KStatic) (to_vec (pr_globals p)) ++ map (entry_of KEnum) (to_vec (pr_enums p))
   ++ map (entry_of KStruct) (to_vec (pr_structs p)) ++ map (entry_of KUnion) (to_vec (pr_unions p))
   ++ map (entry_of KOpaque) (to_vec (pr_opaque_items p)) ++ map (entry_of KTypedef) (to_vec (pr_typedefs p))
   ++ map (fun f => {| en_kind := KFunction; en_name := f_path f; en_cfg := f_cfg f |}) (pr_functions p))%list.

(** The name of a constant of a type *)
Definition constant_name (ident : string) (self_ty : sty) (n : string) : Prop :=
  exists ty root, Type_load self_ty = Some (Some ty) /\ get_root_path ty = Some root /\ n = unraw ident ++ root.
(** What an item introduces, and all attributes that say when it exists *)
Inductive introduces : sitem -> kind -> string -> list attributes -> Prop :=
| in_fn : forall attrs public sig n, symbol attrs (unraw (sg_ident sig)) n ->
    introduces (ItemFn attrs public sig) KFunction n [attrs]
| in_foreign : forall attrs abi items a sig, In (Some (a, sig)) items ->
    introduces (ItemForeignMod attrs abi items) KFunction (unraw (sg_ident sig)) [attrs; a]
| in_method : forall attrs t items a public sig n, In (ImplFn a public sig) items -> symbol a (unraw (sg_ident sig)) n ->
    introduces (ItemImpl attrs t items) KFunction n [attrs; a]
| in_impl_const : forall attrs t items a ident ty v n, In (ImplConst a true ident ty v) items -> constant_name ident t n ->
    introduces (ItemImpl attrs t items) KConstant n [attrs; a]
| in_const : forall attrs ident ty v, introduces (ItemConst attrs true ident ty v) KConstant (unraw ident) [attrs]
| in_static : forall attrs ident m ty n, symbol attrs (unraw ident) n -> introduces (ItemStatic attrs ident m ty) KStatic n [attrs]
| in_struct : forall attrs ident gs fs k, In k [KStruct; KOpaque] -> introduces (ItemStruct attrs ident gs fs) k (unraw ident) [attrs]
| in_union : forall attrs ident gs fs k, In k [KUnion; KOpaque] -> introduces (ItemUnion attrs ident gs fs) k (unraw ident) [attrs]
| in_enum : forall attrs ident gs vs k, In k [KEnum; KOpaque] -> introduces (ItemEnum attrs ident gs vs) k (unraw ident) [attrs]
| in_type : forall attrs ident gs ty k, In k [KTypedef; KOpaque] -> introduces (ItemType attrs ident gs ty) k (unraw ident) [attrs]
| in_flags : forall attrs name b sattrs k, bf_attrs b = Some sattrs -> In k [KStruct; KOpaque] ->
    introduces (ItemMacro attrs name (Some b)) k (unraw (bf_name b)) [attrs; sattrs]
| in_flag : forall attrs name b a flag v n, In (a, flag, v) (bf_flags b) -> flag <> "_" ->
    constant_name flag (SPath (SegPath [] (bf_name b) NoArgs)) n ->
    introduces (ItemMacro attrs name (Some b)) KConstant n [attrs; a].

(** [e] comes from an item of the module [v] and exists when the modules around
    it and the item do. *)
Definition from_module (v : visit) (e : entry) : Prop :=
  exists i guards, In i (vi_items v) /\ should_skip_parsing (item_attrs i) = false
    /\ introduces i (en_kind e) (en_name e) guards
    /\ forall rho, cfg_eval_opt rho (en_cfg e) = guards_hold rho (vi_guards v) && forallb (attrs_hold rho) guards.
(** A type that an item defines; where its fields cannot be translated it
    becomes an opaque one. *)
Definition defines_type (i : sitem) (k : kind) (n : string) : Prop :=
  match i with
  | ItemStruct _ ident _ _ => k = KStruct /\ n = unraw ident
  | ItemUnion _ ident _ _ => k = KUnion /\ n = unraw ident
  | ItemEnum _ ident _ _ => k = KEnum /\ n = unraw ident
  | ItemType _ ident _ _ => k = KTypedef /\ n = unraw ident
  | _ => False
  end.
Definition has (k : kind) (n : string) (p : Parse) : Prop := exists e, In e (entries p) /\ en_kind e = k /\ en_name e = n.
Definition has_type (k : kind) (n : string) (p : Parse) : Prop := has k n p \/ has KOpaque n p.
(** No condition is put on an impl block or on an invocation of [bitflags!]. *)
Definition plain_blocks (v : visit) : Prop :=
  forall i, In i (vi_items v) ->
    match i with ItemImpl attrs _ _ | ItemMacro attrs _ _ => Cfg_of_attrs attrs = None | _ => True end.
(** The attributes of a function or static say its symbol as the compiler wants
    it; for a static not in the form [unsafe(export_name = ..)]. *)
Definition exports_ok (v : visit) : Prop :=
  forall i, In i (vi_items v) ->
    match i with
    | ItemFn attrs _ _ => attributes_ok attrs
    | ItemStatic attrs _ _ _ =>
        attributes_ok attrs /\ forall a n, In a attrs -> at_meta a <> AList (Some "unsafe") [ANameValue (Some "export_name") (Some n)]
    | ItemImpl _ _ items => forall a p s, In (ImplFn a p s) items -> attributes_ok a
    | _ => True
    end.

(** ** Crates *)

(** Which crates the settings allow to be read: a crate to expand always; any
    other must be in the list of included ones, if there is one, must not be
    excluded and must not belong to the standard library. *)
Definition allowed (pc : ParseConfig) (name : string) : Prop :=
  pa_parse_deps pc = true
  /\ (In name (pa_expand_crates pc)
      \/ (match pa_include pc with Some l => In name l | None => True end
          /\ ~ In name (pa_exclude pc)
          /\ ~ In name ["std"; "std_unicode"; "alloc"; "collections"; "core"; "proc_macro"])).
(** [q] is a dependency of [p]. *)
Definition depends (c : Cargo) (p q : PackageRef) : Prop := exists l g, dependencies c p = Some l /\ In (q, g) l.
(** A chain of dependencies, each allowed, from [p] to [q], with the conditions
    met on the way *)
Inductive chain (c : Cargo) (pc : ParseConfig) (p : PackageRef) : PackageRef -> list Cfg -> Prop :=
| ch_here : chain c pc p p []
| ch_step : forall q r gs l g, chain c pc p q gs -> dependencies c q = Some l -> In (r, g) l -> allowed pc (pk_name r) ->
    chain c pc p r (gs ++ match g with Some x => [x] | None => [] end).
(** The modules of one crate: expanded, or from its first file, or none if
    that is not known *)
Inductive crate_modules (d : disk) (c : Cargo) (pc : ParseConfig) (p : PackageRef) (gs : list Cfg) : list visit -> Prop :=
| cm_expanded : forall items vs, In (pk_name p) (pa_expand_crates pc) -> cg_expand c p = Some items ->
    visits d None {| pl_dirs := None; pl_depth := 0; pl_inline := true; pl_mod_rs := false |} gs items vs ->
    crate_modules d c pc p gs vs
| cm_source : forall path vs, ~ In (pk_name p) (pa_expand_crates pc) -> find_crate_src c p = Some path -> crate_visits d path gs vs ->
    crate_modules d c pc p gs vs
| cm_unknown : ~ In (pk_name p) (pa_expand_crates pc) -> find_crate_src c p = None -> crate_modules d c pc p gs [].

(** A crate that was read: the package, the conditions under which it is a
    dependency, and its modules *)
Record reading := { rd_package : PackageRef; rd_guards : list Cfg; rd_visits : list visit }.
Definition rd_name (r : reading) : string := pk_name (rd_package r).
(** The crates read for the package [p]: itself and what it depends on, each
    once, each reached through allowed dependencies, with all that they depend
    on. *)
Record crates_read (d : disk) (c : Cargo) (pc : ParseConfig) (before : list string) (gs : list Cfg) (p : PackageRef) (rs : list reading) :
  Prop := {
  cr_first : exists vs rest, rs = {| rd_package := p; rd_guards := gs; rd_visits := vs |} :: rest;
  cr_once : NoDup (map rd_name rs);
  cr_fresh : forall r, In r rs -> ~ In (rd_name r) before;
  cr_reached : forall r, In r rs -> exists more, chain c pc p (rd_package r) more /\ rd_guards r = (gs ++ more)%list;
  cr_modules : forall r, In r rs -> crate_modules d c pc (rd_package r) (rd_guards r) (rd_visits r);
  cr_listed : forall r, In r rs -> dependencies c (rd_package r) <> None;
  cr_closed : forall r l q g, In r rs -> dependencies c (rd_package r) = Some l -> In (q, g) l -> allowed pc (pk_name q) ->
                In (pk_name q) before \/ In (pk_name q) (map rd_name rs)
}.
(** No two versions of one crate are reachable. *)
Definition one_version (c : Cargo) (pc : ParseConfig) (p : PackageRef) : Prop :=
  forall q1 q2 g1 g2, chain c pc p q1 g1 -> chain c pc p q2 g2 -> pk_name q1 = pk_name q2 -> q1 = q2.
(** The crates whose functions, constants and statics are bound *)
Definition has_bindings (c : Cargo) (pc : ParseConfig) (name : string) : Prop :=
  name = cg_binding_crate_name c \/ In name (pa_extra_bindings pc).
Definition crate_functions (c : Cargo) (pc : ParseConfig) (r : reading) (fss : list (list Function)) : Prop :=
  (has_bindings c pc (rd_name r) -> Forall2 functions_of (rd_visits r) fss) /\ (~ has_bindings c pc (rd_name r) -> fss = []).
(** [e] comes from some module of some crate. *)
Definition from_crates (rs : list reading) (e : entry) : Prop := exists r v, In r rs /\ In v (rd_visits r) /\ from_module v e.
