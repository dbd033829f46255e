(** Specification of the search for implementations: which types are considered, when a type
    implements an interface, which relationships are expected. *)
From Coq Require Import Ascii String.
From stdpp Require Import prelude strings gmap sorting.
From Verif Require Import GoStr Scip GoTypes Ast Packages Symbols Lookup Loader SpecSymbol SpecLookup SpecTypes.
Open Scope string_scope.
Open Scope list_scope.

Definition named (t : ty) : Prop := ∃ tn args, t = TNamed tn args.

Section Methods.
  Context (env : tenv) (mset : ty → list obj).
  (** Facts of go/types about method sets: one method per Id, the methods of a named type are
      methods of its pointer type, a named interface has the methods of its underlying type, and methods are
      functions (objects of the program). *)
  Record method_sets (objs : nat → option obj) : Prop := MethodSets {
    ms_ids : ∀ t, NoDup (map obj_Id (mset t));
    ms_pointer : ∀ tn args m, is_interface env (TNamed tn args) = false → m ∈ mset (TNamed tn args) →
      m ∈ mset (TPointer (TNamed tn args));
    ms_interface : ∀ tn args ms s, env tn args = TInterface ms s →
      map (λ m, (obj_Id m, o_type m)) (mset (TNamed tn args)) = ms;
    ms_object : ∀ t m, m ∈ mset t → go_object objs m }.

  (** m is a method of t or, for a type that is no interface, of the pointer to t *)
  Definition has_method (t : ty) (m : obj) : Prop :=
    m ∈ mset t ∨ is_interface env t = false ∧ m ∈ mset (TPointer t).

  (** v has the methods of an interface: by name (with the package, if unexported) and type *)
  Definition has_methods (v : ty) (ms : list (string * ty)) : Prop :=
    ∀ id t, (id, t) ∈ ms → ∃ m, m ∈ mset v ∧ obj_Id m = id ∧ identical (o_type m) t.
  (** a type, or the pointer to it, implements an interface; [constraint_ok] is the part about
      type sets, for constraint interfaces *)
  Context (constraint_ok : ty → ty → bool).
  Definition implements_interface (v : ty) (ms : list (string * ty)) (s : string) : Prop :=
    has_methods v ms ∧ constraint_ok v (TInterface ms s) = true.
  Definition satisfies (t i : ty) : Prop :=
    ∃ ms s, underlying env i = TInterface ms s ∧
      (implements_interface t ms s ∨ implements_interface (TPointer t) ms s).
  (** an interface with unexported methods *)
  Definition sealed (i : ty) : Prop := ∃ m, has_method i m ∧ is_exported (o_name m) = false.
End Methods.

(** a type considered by the search *)
Record cand := Cand { c_pkg : gpkg; c_obj : obj; c_symbol : string }.
Definition c_type (c : cand) : ty := o_type (c_obj c).

Section Candidates.
  Context (env : tenv) (mset : ty → list obj) (constraint_ok : ty → ty → bool).
  Context (package_level : gpkg → obj → bool) (scope_objects : gpkg → list obj).
  Context (root version : string) (h : pheap) (g : global).

  (** Named types with methods declared at package level: those with a recorded symbol in packages
      with syntax, the exported ones in packages of which only the types are known. *)
  Inductive candidate (pkgs : ptab) : cand → Prop :=
  | cand_source key q p ti i o tn args info :
      pkgs !! key = Some q → h !! q = Some p → p_name p ≠ "builtin" → p_info p = Some ti →
      ti_defs ti i = Some o → o_kind o = OTypeName → (p_types p = None ∨ package_level p o = true) →
      o_type o = TNamed tn args → recorded g (p_path p) (o_pos o) info →
      (∃ m, has_method env mset (o_type o) m) → candidate pkgs (Cand p o (i_symbol info))
  | cand_export key q p tp o tn args :
      pkgs !! key = Some q → h !! q = Some p → p_name p ≠ "builtin" → p_info p = None → p_types p = Some tp →
      o ∈ scope_objects p → o_kind o = OTypeName → is_exported (o_name o) = true →
      o_type o = TNamed tn args → composed env root version p o ≠ "" →
      (∃ m, has_method env mset (o_type o) m) → candidate pkgs (Cand p o (composed env root version p o)).

  (** the packages that are loaded but not part of the project *)
  Definition dependencies (all proj deps : ptab) : Prop :=
    ∀ key q, deps !! key = Some q ↔ all !! key = Some q ∧ proj !! key = None.

  (** the pairs of concrete type and interface that are compared: at least one is in the project *)
  Inductive compared (proj deps : ptab) (t i : cand) : Prop :=
  | compare_local : candidate proj t → (candidate proj i ∨ candidate deps i) →
      is_interface env (c_type t) = false → is_interface env (c_type i) = true → compared proj deps t i
  | compare_dep : candidate deps t → candidate proj i →
      is_interface env (c_type t) = false → is_interface env (c_type i) = true → compared proj deps t i.
  (** … and related: the type implements the interface, which has no unexported methods or is in
      the same package *)
  Definition related (proj deps : ptab) (t i : cand) : Prop :=
    compared proj deps t i ∧ satisfies env mset constraint_ok (c_type t) (c_type i) ∧
    (sealed env mset (c_type i) → p_path (c_pkg t) = p_path (c_pkg i)).

  (** the entry of a table that describes an object: the first one in the package or its test
      variants *)
  Inductive entry_of (o : obj) : string → Prop :=
  | eo_own tp info : o_pkg o = Some tp → recorded g (tp_path tp) (o_pos o) info → entry_of o (tp_path tp)
  | eo_test tp info : o_pkg o = Some tp → unrecorded g (tp_path tp) (o_pos o) →
      recorded g (tp_path tp +:+ ".test") (o_pos o) info → entry_of o (tp_path tp +:+ ".test")
  | eo_variant tp info : o_pkg o = Some tp → unrecorded g (tp_path tp) (o_pos o) →
      unrecorded g (tp_path tp +:+ ".test") (o_pos o) →
      recorded g (tp_path tp +:+ " [" +:+ tp_path tp +:+ ".test]") (o_pos o) info →
      entry_of o (tp_path tp +:+ " [" +:+ tp_path tp +:+ ".test]").

  (** [expected proj deps id pos s]: the entry at position pos of package id is to have a
      relationship to symbol s *)
  Inductive expected (proj deps : ptab) (id : string) (pos : Z) (s : string) : Prop :=
  | exp_type t i : related proj deps t i → p_info (c_pkg t) ≠ None →
      p_path (c_pkg t) = id → o_pos (c_obj t) = pos → c_symbol i = s → expected proj deps id pos s
  | exp_method t i m m' info : related proj deps t i →
      has_method env mset (c_type t) m → has_method env mset (c_type i) m' → obj_Id m = obj_Id m' →
      (∃ info, resolves env root version g m (Found info)) → entry_of m id → o_pos m = pos →
      resolves env root version g m' (Found info) → i_symbol info = s → expected proj deps id pos s.

  (** no two types considered have the same symbol *)
  Definition distinct_symbols (pkgs : ptab) : Prop :=
    ∀ c c', candidate pkgs c → candidate pkgs c' → c_symbol c = c_symbol c' → c = c'.

  (** the symbols a type of a dependency is to have relationships to, and the rest of its
      SymbolInformation *)
  Definition expected_of (proj deps : ptab) (c : cand) (s : string) : Prop :=
    match p_info (c_pkg c) with
    | Some _ => expected proj deps (p_path (c_pkg c)) (o_pos (c_obj c)) s
    | None => ∃ i, related proj deps c i ∧ c_symbol i = s
    end.
  Definition base_info (c : cand) (b : syminfo) : Prop :=
    match p_info (c_pkg c) with
    | Some _ => recorded g (p_path (c_pkg c)) (o_pos (c_obj c)) b
    | None => b = Info (c_symbol c) [] [] KUnspecified "" None ""
    end.
End Candidates.

(** [l] lists implementation relationships to exactly the symbols in S, sorted, once each *)
Definition relationships_are (l : list relationship) (S : string → Prop) : Prop :=
  StronglySorted str_le (map r_symbol l) ∧ NoDup (map r_symbol l) ∧
  ∀ r, r ∈ l ↔ S (r_symbol r) ∧ r = Rel (r_symbol r) false true false false.

(** What is assumed of a loaded and type-checked program: method sets are those of go/types, packages
    are stored under their path with a module, the packages of the project have type information,
    and the scope of a dependency has objects of that package. *)
Record analysable (env : tenv) (mset : ty → list obj) (objs : nat → option obj) (scope_objects : gpkg → list obj)
    (h : pheap) (all proj : ptab) : Prop := Analysable {
  an_methods : method_sets env mset objs;
  an_all : ∀ k q, all !! k = Some q → ∃ p m, h !! q = Some p ∧ p_path p = k ∧ p_module p = Some m;
  an_proj : ∀ k q, proj !! k = Some q → ∃ p m ti, h !! q = Some p ∧ p_path p = k ∧ p_module p = Some m ∧ p_info p = Some ti;
  an_scope : ∀ k q p o, all !! k = Some q → proj !! k = None → h !! q = Some p → o ∈ scope_objects p →
    go_object objs o ∧ ∃ tp, o_pkg o = Some tp ∧ tp_path tp = p_path p }.

(** The unexported methods of a type of package [pkg] are declared in that package. *)
Definition own_unexported (env : tenv) (mset : ty → list obj) (t : ty) (pkg : string) : Prop :=
  ∀ m, has_method env mset t m → is_exported (o_name m) = false → ∃ tp, o_pkg m = Some tp ∧ tp_path tp = pkg.
