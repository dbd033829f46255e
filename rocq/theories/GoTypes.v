(** go/types: the part of the type checker's output that scip-go reads.
    Types are finite trees; recursion through a named type goes via its
    identity [tname] and an environment giving each named type's underlying
    type (Named.Underlying). *)
From Coq Require Import Ascii String.
From stdpp Require Import prelude strings.
From Verif Require Import GoStr Scip.
Open Scope string_scope.
Open Scope list_scope.

(** types.BasicKind *)
Inductive basic_kind :=
| BBool | BInt | BInt8 | BInt16 | BInt32 | BInt64
| BUint | BUint8 | BUint16 | BUint32 | BUint64 | BUintptr
| BFloat32 | BFloat64 | BComplex64 | BComplex128 | BString | BUnsafePointer
| BUntypedBool | BUntypedInt | BUntypedRune | BUntypedFloat | BUntypedComplex
| BUntypedString | BUntypedNil | BInvalid.
Global Instance basic_kind_eq_dec : EqDecision basic_kind.
Proof. solve_decision. Defined.

(** the *types.TypeName of a named type / alias / type parameter: identity,
    package path (None for the universe) and name *)
Record tname := TName { tn_id : nat; tn_pkg : option string; tn_name : string }.
Global Instance tname_eq_dec : EqDecision tname.
Proof. solve_decision. Defined.

(** a struct field's *types.Var without its type *)
Record fhdr := FHdr {
  fh_id : nat; fh_name : string; fh_pkg : option string;
  fh_embedded : bool; fh_tag : string }.
Global Instance fhdr_eq_dec : EqDecision fhdr.
Proof. solve_decision. Defined.

(** types.Type.  [TBasic k true] is the spelling byte / rune of uint8 / int32.
    [TInterface ms ts]: the method set (Id, type) of the interface, sorted by
    Id, and an opaque rendering of its type set.  [TNamed tn []] has nil
    TypeArgs.  Generic signatures (type parameters on a function) are not
    types of methods and are left out. *)
Inductive ty : Type :=
| TBasic (k : basic_kind) (alias : bool)
| TNamed (tn : tname) (targs : list ty)
| TAlias (tn : tname) (rhs : ty)
| TPointer (t : ty)
| TSlice (t : ty)
| TArray (n : Z) (t : ty)
| TMap (k v : ty)
| TChan (dir : nat) (t : ty)
| TTuple (ts : list ty)
| TSig (params results : list ty) (variadic : bool)
| TStruct (fields : list (fhdr * ty))
| TInterface (methods : list (string * ty)) (typeset : string)
| TTypeParam (tn : tname) (index : nat)
| TUnion (terms : list (bool * ty)).

Section ty_ind.
  Variable P : ty → Prop.
  Hypothesis HBasic : ∀ k a, P (TBasic k a).
  Hypothesis HNamed : ∀ tn l, Forall P l → P (TNamed tn l).
  Hypothesis HAlias : ∀ tn t, P t → P (TAlias tn t).
  Hypothesis HPointer : ∀ t, P t → P (TPointer t).
  Hypothesis HSlice : ∀ t, P t → P (TSlice t).
  Hypothesis HArray : ∀ n t, P t → P (TArray n t).
  Hypothesis HMap : ∀ k v, P k → P v → P (TMap k v).
  Hypothesis HChan : ∀ d t, P t → P (TChan d t).
  Hypothesis HTuple : ∀ l, Forall P l → P (TTuple l).
  Hypothesis HSig : ∀ ps rs v, Forall P ps → Forall P rs → P (TSig ps rs v).
  Hypothesis HStruct : ∀ fs, Forall (λ f, P f.2) fs → P (TStruct fs).
  Hypothesis HInterface : ∀ ms s, Forall (λ m, P m.2) ms → P (TInterface ms s).
  Hypothesis HTypeParam : ∀ tn i, P (TTypeParam tn i).
  Hypothesis HUnion : ∀ l, Forall (λ m, P m.2) l → P (TUnion l).
  Fixpoint ty_ind' (t : ty) : P t :=
    let all := fix all (l : list ty) : Forall P l :=
      match l with [] => Forall_nil_2 _ | t :: l => Forall_cons_2 _ _ _ (ty_ind' t) (all l) end in
    let allp := fix allp {A} (l : list (A * ty)) : Forall (λ m, P m.2) l :=
      match l with
      | [] => Forall_nil_2 _
      | (a, t) :: l => Forall_cons_2 (λ m, P m.2) (a, t) l (ty_ind' t) (allp l)
      end in
    match t with
    | TBasic k a => HBasic k a
    | TNamed tn l => HNamed tn l (all l)
    | TAlias tn t => HAlias tn t (ty_ind' t)
    | TPointer t => HPointer t (ty_ind' t)
    | TSlice t => HSlice t (ty_ind' t)
    | TArray n t => HArray n t (ty_ind' t)
    | TMap k v => HMap k v (ty_ind' k) (ty_ind' v)
    | TChan d t => HChan d t (ty_ind' t)
    | TTuple l => HTuple l (all l)
    | TSig ps rs v => HSig ps rs v (all ps) (all rs)
    | TStruct fs => HStruct fs (allp fs)
    | TInterface ms s => HInterface ms s (allp ms)
    | TTypeParam tn i => HTypeParam tn i
    | TUnion l => HUnion l (allp l)
    end.
End ty_ind.

(** types.Unalias *)
Fixpoint unalias (t : ty) : ty :=
  match t with TAlias _ r => unalias r | _ => t end.

(** Named.Underlying for each named type; instances of generic types have their
    own entry (the environment is indexed by the type itself: name and
    arguments). *)
Definition tenv := tname → list ty → ty.

(** Type.Underlying.  The underlying type of a type parameter is its constraint
    interface (types.TypeParam.Underlying returns the interface); an alias's is
    that of the aliased type. *)
Fixpoint underlying (env : tenv) (t : ty) : ty :=
  match t with
  | TNamed tn args => env tn args
  | TAlias _ r => underlying env r
  | TTypeParam tn _ => TInterface [] "constraint"
  | _ => t
  end.

(** types.IsInterface *)
Definition is_interface (env : tenv) (t : ty) : bool :=
  match underlying env t with TInterface _ _ => true | _ => false end.

(** A package-scope entry as needed by Composer.locateOwner and the extractor:
    Scope.Names() is sorted, Scope.Lookup gives the object. *)
Record scope_entry := SEntry {
  se_name : string;
  se_is_typename : bool;
  se_typ : ty }.

(** *types.Package: path and scope *)
Record tpkg := TPkg { tp_path : string; tp_scope : list scope_entry }.

(** the dynamic type of a types.Object, with the parts read by scip-go *)
Inductive okind :=
| OPkgName (imported_path : string)
| OConst
| OTypeName
| OVar (is_field : bool)
| OFunc (sig : option (option ty))
    (** None: Type() is not a *Signature; Some r: signature with receiver type r *)
| OLabel
| OBuiltin
| ONil.

(** types.Object.  [o_id] is the pointer.  [o_origin] is the generic object an
    instance was made from (Var.Origin / Func.Origin), None when the object is
    its own origin. *)
Inductive obj := Obj {
  o_id : nat; o_name : string; o_pkg : option tpkg; o_pos : Z;
  o_kind : okind; o_type : ty; o_origin : option obj }.

(** Var.Origin, Func.Origin; other kinds have no origin (composer.go 33-38) *)
Definition origin (o : obj) : obj :=
  match o_kind o with
  | OVar _ | OFunc _ => match o_origin o with Some g => g | None => o end
  | _ => o
  end.

(** token.IsExported / Object.Exported, for ASCII first letters *)
Definition is_exported (name : string) : bool :=
  match name with String c _ => is_upper c | "" => false end.

(** types.Id(pkg, name): the name for exported names, else "path.name" with
    path "_" when there is no package (or an empty path). *)
Definition type_id (pkg : option string) (name : string) : string :=
  if is_exported name then name
  else (match pkg with
        | Some p => if String.eqb p "" then "_" else p
        | None => "_" end) +:+ "." +:+ name.
Definition obj_Id (o : obj) : string :=
  type_id (tp_path <$> o_pkg o) (o_name o).

(** TypeName.IsAlias, with alias types materialised (Go >= 1.23 default) *)
Definition is_alias (o : obj) : bool :=
  match o_type o with
  | TAlias _ _ => true
  | TBasic k al =>
      match o_pkg o with
      | Some p => negb (String.eqb (tp_path p) "unsafe")
      | None => al
      end
  | TNamed tn _ => negb (Nat.eqb (tn_id tn) (o_id o))
  | TTypeParam tn _ => negb (Nat.eqb (tn_id tn) (o_id o))
  | _ => true
  end.
