(** internal/symbols: symbols.go, composer.go, kind.go *)
From Coq Require Import Ascii String.
From stdpp Require Import prelude strings.
From Verif Require Import GoStr Scip GoTypes Ast Packages.
Open Scope string_scope.
Open Scope list_scope.

(** symbols.go 11-25: FromDescriptors *)
Definition from_descriptors (pkg : gpkg) (ds : list descriptor) : res string :=
  match p_module pkg with
  | None => Panic "Failed to find package"
  | Some m => Ok (format_symbol (Sym "scip-go" (SPkg "gomod" (m_path m) (m_version m)) ds))
  end.

(** int32(x): conversion wraps modulo 2^32 *)
Definition int32 (x : Z) : Z := ((x + 2^31) mod 2^32 - 2^31)%Z.
(** int32 addition / subtraction *)
Definition add32 (x y : Z) : Z := int32 (x + y).
Definition sub32 (x y : Z) : Z := int32 (x - y).

(** symbols.go 27-38: RangeFromName *)
Definition range_from_name (p : position) (name : string) (adjust : bool) : list Z :=
  let adj := if adjust then 1%Z else 0%Z in
  let line := int32 (pos_line p - 1) in
  let column := int32 (pos_col p - 1) in
  let n := int32 (Z.of_nat (slen name)) in
  [line; add32 column adj; add32 (add32 column n) adj].

(** symbols.go 40-46: FormatCode *)
Definition format_code (v : string) : string :=
  if String.eqb v "" then "" else "```go" +:+ nl +:+ v +:+ nl +:+ "```".

(** composer.go 11-17: Composer; the memo table, keyed by object pointer *)
Record composer := Composer {
  c_default_path : string; c_default_version : string;
  c_memo : list (nat * string) }.
(** composer.go 19-26 *)
Definition new_composer (path version : string) : composer := Composer path version [].

Fixpoint assoc_nat {A} (k : nat) (l : list (nat * A)) : option A :=
  match l with
  | [] => None
  | (k', a) :: l' => if Nat.eqb k k' then Some a else assoc_nat k l'
  end.

(** composer.go 72-86: pack *)
Definition pack (c : composer) (pkg : option gpkg) : scip_package :=
  match pkg with
  | Some p =>
      match p_module p with
      | Some m => SPkg "gomod" (m_path m) (m_version m)
      | None => SPkg "gomod" (c_default_path c) (c_default_version c)
      end
  | None => SPkg "gomod" (c_default_path c) (c_default_version c)
  end.

(** composer.go 163-174: nameType.  The loop strips aliases and pointers. *)
Fixpoint name_type (t : ty) : string :=
  match t with
  | TAlias _ r => name_type r
  | TPointer u => name_type u
  | TNamed tn _ => tn_name tn
  | _ => ""
  end.

(** composer.go 211-237: locateOwner.  [env] gives Named.Underlying. *)
Definition owns_field (env : tenv) (fid : nat) (e : scope_entry) : bool :=
  if se_is_typename e then
    match se_typ e with
    | TNamed tn args =>
        match env tn args with
        | TStruct fs => existsb (λ f, Nat.eqb (fh_id f.1) fid) fs
        | _ => false
        end
    | _ => false
    end
  else false.
Definition locate_owner (env : tenv) (scope : list scope_entry) (fid : nat) : option string :=
  se_name <$> List.find (owns_field env fid) scope.

(** composer.go 47-60 and 88-209: the descriptors of an object (of its origin) *)
Definition describe (env : tenv) (pkg : tpkg) (o : obj) : list descriptor :=
  let ns := Desc (tp_path pkg) Namespace in
  match o_kind o with
  | OPkgName imported => [Desc imported Namespace]
  | OTypeName => [ns; Desc (o_name o) Type_]
  | OConst => [ns; Desc (o_name o) Term]
  | OFunc None => []
  | OFunc (Some (Some recv)) =>
      let r := name_type recv in
      if String.eqb r "" then [] else [ns; Desc r Type_; Desc (o_name o) Method]
  | OFunc (Some None) => [ns; Desc (o_name o) Method]
  | OVar false => [ns; Desc (o_name o) Term]
  | OVar true =>
      match locate_owner env (tp_scope pkg) (o_id o) with
      | Some owner => [ns; Desc owner Type_; Desc (o_name o) Term]
      | None => []
      end
  | OLabel | OBuiltin | ONil => []
  end.

(** composer.go 28-70: Compose.  [None] for obj is a nil object.  The origin of
    an object is in the same package, so obj.Pkg() of the origin is used by the
    describe functions; the nil check is on the object itself. *)
Definition compose (env : tenv) (c : composer) (pkg : option gpkg) (o : option obj)
  : string * composer :=
  match o with
  | None => ("", c)
  | Some o0 =>
      match o_pkg o0 with
      | None => ("", c)
      | Some _ =>
          let o := origin o0 in
          match assoc_nat (o_id o) (c_memo c) with
          | Some s => (s, c)
          | None =>
              match o_pkg o with
              | None => ("", c) (* Go would crash; excluded: an origin has its instance's package *)
              | Some tp =>
                  match describe env tp o with
                  | [] => ("", c)
                  | ds =>
                      let s := format_symbol (Sym "scip-go" (pack c pkg) ds) in
                      (s, Composer (c_default_path c) (c_default_version c)
                                   ((o_id o, s) :: c_memo c))
                  end
              end
          end
      end
  end.

(** kind.go 10-59: KindForObject *)
Definition kind_for_object (env : tenv) (o : option obj) : kind :=
  match o with
  | None => KUnspecified
  | Some o =>
      match o_kind o with
      | OFunc None => KFunction
      | OFunc (Some None) => KFunction
      | OFunc (Some (Some recv)) =>
          if is_interface env recv then KMethodSpecification else KMethod
      | OTypeName =>
          if is_alias o then KTypeAlias
          else match underlying env (o_type o) with
               | TStruct _ => KStruct
               | TInterface _ _ => KInterface
               | TTypeParam _ _ => KTypeParameter
               | _ => KType
               end
      | OVar true => KField
      | OVar false => KVariable
      | OConst => KConstant
      | OPkgName _ => KPackage
      | _ => KUnspecified
      end
  end.
