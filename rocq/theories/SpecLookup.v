(** Specification of symbol lookup: which entry an object resolves to, and
    histories of calls that touch the caches. *)
From Coq Require Import Ascii String.
From stdpp Require Import prelude strings gmap.
From Verif Require Import GoStr Scip GoTypes Ast Packages Symbols Lookup SpecSymbol.
Open Scope string_scope.
Open Scope list_scope.

(** the entry recorded at position [pos] of the package stored under [id] *)
Definition recorded (g : global) (id : string) (pos : Z) (i : syminfo) : Prop :=
  ∃ p t, g_symbols g !! id = Some (p, t) ∧ t !! pos = Some i.
Definition unrecorded (g : global) (id : string) (pos : Z) : Prop := ∀ i, ¬ recorded g id pos i.

(** the objects of the Go universe scope *)
Inductive universe_object (o : obj) : Prop :=
| uo_plain : o_kind o = OTypeName ∨ o_kind o = OConst ∨ o_kind o = OBuiltin ∨ o_kind o = ONil →
    is_exported (o_name o) = false → universe_object o
| uo_error_method tn : o_kind o = OFunc (Some (Some (TNamed tn []))) → o_origin o = None →
    o_name o = "Error" → tn_name tn = "error" → tn_pkg tn = None → universe_object o.

(** the symbol the composer gives to [o] in package [p] in a fresh process *)
Definition composed (env : tenv) (path version : string) (p : gpkg) (o : obj) : string :=
  (compose env (new_composer path version) (Some p) (Some o)).1.

(** What a lookup must answer. *)
Inductive resolves (env : tenv) (path version : string) (g : global) (o : obj) : lookup_result → Prop :=
| rs_label : o_kind o = OLabel ∨ o_kind o = ONil → resolves env path version g o Skip
| rs_universe : o_pkg o = None → resolves env path version g o Skip
| rs_unsafe tp : o_pkg o = Some tp → tp_path tp = "unsafe" → resolves env path version g o Skip
| rs_own tp i : o_kind o ≠ OLabel → o_kind o ≠ ONil → o_pkg o = Some tp → tp_path tp ≠ "unsafe" →
    recorded g (tp_path tp) (o_pos o) i → resolves env path version g o (Found i)
| rs_test tp i : o_kind o ≠ OLabel → o_kind o ≠ ONil → o_pkg o = Some tp → tp_path tp ≠ "unsafe" →
    unrecorded g (tp_path tp) (o_pos o) →
    recorded g (tp_path tp +:+ ".test") (o_pos o) i → resolves env path version g o (Found i)
| rs_variant tp i : o_kind o ≠ OLabel → o_kind o ≠ ONil → o_pkg o = Some tp → tp_path tp ≠ "unsafe" →
    unrecorded g (tp_path tp) (o_pos o) → unrecorded g (tp_path tp +:+ ".test") (o_pos o) →
    recorded g (tp_path tp +:+ " [" +:+ tp_path tp +:+ ".test]") (o_pos o) i →
    resolves env path version g o (Found i)
| rs_composed tp p t : o_kind o ≠ OLabel → o_kind o ≠ ONil → o_pkg o = Some tp → tp_path tp ≠ "unsafe" →
    unrecorded g (tp_path tp) (o_pos o) → unrecorded g (tp_path tp +:+ ".test") (o_pos o) →
    unrecorded g (tp_path tp +:+ " [" +:+ tp_path tp +:+ ".test]") (o_pos o) →
    g_symbols g !! tp_path tp = Some (p, t) → composed env path version p o ≠ "" →
    resolves env path version g o (Found (bare_info (composed env path version p o)))
| rs_error tp : o_kind o ≠ OLabel → o_kind o ≠ ONil → o_pkg o = Some tp → tp_path tp ≠ "unsafe" →
    unrecorded g (tp_path tp) (o_pos o) → unrecorded g (tp_path tp +:+ ".test") (o_pos o) →
    unrecorded g (tp_path tp +:+ " [" +:+ tp_path tp +:+ ".test]") (o_pos o) →
    (∀ p t, g_symbols g !! tp_path tp = Some (p, t) → composed env path version p o = "") →
    resolves env path version g o LookupError.

(** Facts of go/types about an object handed to the lookup: its name is an
    identifier, pointers identify objects ([objs]), an instance is in the package
    of its origin, package paths are neither empty nor "_", objects without
    package are those of the universe, and it is not a package name. *)
Record go_object (objs : nat → option obj) (o : obj) : Prop := GoObject {
  go_name : count_char "." (o_name o) = 0;
  go_ptr : objs (o_id (origin o)) = Some (origin o);
  go_origin : tp_path <$> o_pkg (origin o) = tp_path <$> o_pkg o;
  go_pkg : match o_pkg o with
           | Some tp => tp_path tp ≠ "" ∧ tp_path tp ≠ "_"
           | None => universe_object o
           end;
  go_kind : ∀ p, o_kind o ≠ OPkgName p }.

(** A call that reads or fills the caches: a lookup (file visitor), or a direct
    composition (implementation extractor) with the package that owns the
    object. *)
Inductive call := CLookup (o : obj) | CCompose (p : gpkg) (o : obj).
Definition go_call (objs : nat → option obj) (g : global) (c : call) : Prop :=
  match c with
  | CLookup o => go_object objs o
  | CCompose p o => go_object objs o ∧
      ∃ tp t, o_pkg o = Some tp ∧ g_symbols g !! tp_path tp = Some (p, t)
  end.
Definition run_call (env : tenv) (g : global) (k : caches) (c : call) : res caches :=
  match c with
  | CLookup o => let! r := get_symbol_of_object env g k o in Ok r.2
  | CCompose p o => Ok (Caches (k_skipped k) (compose env (k_composer k) (Some p) (Some o)).2)
  end.
Definition fresh_caches (path version : string) : caches := Caches ∅ (new_composer path version).
(** the caches after a history of calls *)
Definition after_calls (env : tenv) (g : global) (path version : string) (h : list call) : res caches :=
  res_fold (run_call env g) (fresh_caches path version) h.

(** the answer of a lookup, without the new caches *)
Definition answer (env : tenv) (g : global) (k : caches) (o : obj) : res lookup_result :=
  let! r := get_symbol_of_object env g k o in Ok r.1.
