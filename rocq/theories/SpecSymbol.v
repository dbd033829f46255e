(** Specification side of internal/symbols, written without looking at how the
    code builds its strings: a left-to-right reader of SCIP symbol strings,
    when an object has a name, and what the kinds mean. *)
From Coq Require Import Ascii String.
From stdpp Require Import prelude strings.
From Verif Require Import GoStr Scip GoTypes Packages.
Open Scope string_scope.
Open Scope list_scope.

(** Read up to a single [e]; a doubled [e] stands for one literal [e]. *)
Fixpoint read_until (e : ascii) (s : string) : option (string * string) :=
  match s with
  | "" => None
  | String c r =>
      if Ascii.eqb c e then
        match r with
        | String c' r' =>
            if Ascii.eqb c' e then
              match read_until e r' with Some (x, t) => Some (String e x, t) | None => None end
            else Some ("", r)
        | "" => Some ("", "")
        end
      else match read_until e r with Some (x, t) => Some (String c x, t) | None => None end
  end.

(** Read the longest run of simple identifier characters. *)
Fixpoint read_simple (s : string) : string * string :=
  match s with
  | "" => ("", "")
  | String c r =>
      if is_simple_char c then let '(x, t) := read_simple r in (String c x, t) else ("", s)
  end.

Definition read_name (s : string) : option (string * string) :=
  match s with
  | String "`" r => read_until "`" r
  | _ => Some (read_simple s)
  end.

Definition read_suffix (s : string) : option (suffix * string) :=
  match s with
  | String "/" r => Some (Namespace, r)
  | String "#" r => Some (Type_, r)
  | String "." r => Some (Term, r)
  | String ":" r => Some (Meta, r)
  | String "(" (String ")" (String "." r)) => Some (Method, r)
  | _ => None
  end.

Fixpoint read_descriptors (fuel : nat) (s : string) : option (list descriptor) :=
  match s with
  | "" => Some []
  | _ =>
      match fuel with
      | O => None
      | S fuel' =>
          match read_name s with
          | None => None
          | Some (n, r) =>
              match read_suffix r with
              | None => None
              | Some (k, r') =>
                  match read_descriptors fuel' r' with
                  | None => None
                  | Some l => Some (Desc n k :: l)
                  end
              end
          end
      end
  end.

(** scheme, manager, name, version, then the descriptors *)
Definition read_symbol (s : string) : option symbol :=
  match read_until " " s with
  | None => None
  | Some (sch, s1) =>
      match read_until " " s1 with
      | None => None
      | Some (mgr, s2) =>
          match read_until " " s2 with
          | None => None
          | Some (nam, s3) =>
              match read_until " " s3 with
              | None => None
              | Some (ver, s4) =>
                  match read_descriptors (slen s4) s4 with
                  | None => None
                  | Some ds => Some (Sym sch (SPkg mgr nam ver) ds)
                  end
              end
          end
      end
  end.

(** A "." stands for an absent field. *)
Definition dot_if_empty (s : string) : string := if String.eqb s "" then "." else s.
Definition normal_symbol (s : symbol) : symbol :=
  Sym (dot_if_empty (s_scheme s))
      (SPkg (dot_if_empty (sp_manager (s_package s))) (dot_if_empty (sp_name (s_package s)))
            (dot_if_empty (sp_version (s_package s))))
      (s_descriptors s).

(** No field other than the first starts with a space. *)
Definition no_leading_space (s : string) : bool :=
  match s with String " " _ => false | _ => true end.
Definition clean_symbol (s : symbol) : bool :=
  (no_leading_space (sp_manager (s_package s)) && no_leading_space (sp_name (s_package s))
   && no_leading_space (sp_version (s_package s)))%bool.

(** [base_named t n]: stripping aliases and pointers from [t] leaves the named type [n]. *)
Inductive base_named : ty → tname → Prop :=
| bn_named tn args : base_named (TNamed tn args) tn
| bn_alias a t tn : base_named t tn → base_named (TAlias a t) tn
| bn_ptr t tn : base_named t tn → base_named (TPointer t) tn.

(** a field is a direct field of the struct type declared under this scope entry *)
Definition direct_field_of (env : tenv) (e : scope_entry) (fid : nat) : Prop :=
  se_is_typename e = true ∧
  ∃ tn args fs, se_typ e = TNamed tn args ∧ env tn args = TStruct fs ∧
    ∃ f, f ∈ fs ∧ fh_id f.1 = fid.

(** the objects that have a global name (declared, i.e. origin, objects) *)
Definition nameable (env : tenv) (o : obj) : Prop :=
  match o_kind o with
  | OPkgName _ | OTypeName | OConst | OVar false | OFunc (Some None) => True
  | OFunc (Some (Some recv)) => ∃ tn, base_named recv tn ∧ tn_name tn ≠ ""
  | OVar true => ∃ tp e, o_pkg o = Some tp ∧ e ∈ tp_scope tp ∧ direct_field_of env e (o_id o)
  | OFunc None | OLabel | OBuiltin | ONil => False
  end.

(** The kind a Go object should be labelled with. *)
Inductive kind_spec (env : tenv) : option obj → kind → Prop :=
| ks_nil : kind_spec env None KUnspecified
| ks_func o : o_kind o = OFunc (Some None) ∨ o_kind o = OFunc None → kind_spec env (Some o) KFunction
| ks_imethod o r ms s : o_kind o = OFunc (Some (Some r)) → underlying env r = TInterface ms s →
    kind_spec env (Some o) KMethodSpecification
| ks_method o r : o_kind o = OFunc (Some (Some r)) →
    (∀ ms s, underlying env r ≠ TInterface ms s) → kind_spec env (Some o) KMethod
| ks_alias o : o_kind o = OTypeName → is_alias o = true → kind_spec env (Some o) KTypeAlias
| ks_tparam o tn i : o_kind o = OTypeName → is_alias o = false → o_type o = TTypeParam tn i →
    kind_spec env (Some o) KTypeParameter
| ks_struct o tn args fs : o_kind o = OTypeName → is_alias o = false →
    o_type o = TNamed tn args → env tn args = TStruct fs → kind_spec env (Some o) KStruct
| ks_iface o tn args ms s : o_kind o = OTypeName → is_alias o = false →
    o_type o = TNamed tn args → env tn args = TInterface ms s → kind_spec env (Some o) KInterface
| ks_type o tn args : o_kind o = OTypeName → is_alias o = false → o_type o = TNamed tn args →
    (∀ fs, env tn args ≠ TStruct fs) → (∀ ms s, env tn args ≠ TInterface ms s) →
    kind_spec env (Some o) KType
| ks_basic o k al : o_kind o = OTypeName → is_alias o = false → o_type o = TBasic k al →
    kind_spec env (Some o) KType
| ks_field o : o_kind o = OVar true → kind_spec env (Some o) KField
| ks_var o : o_kind o = OVar false → kind_spec env (Some o) KVariable
| ks_const o : o_kind o = OConst → kind_spec env (Some o) KConstant
| ks_pkg o p : o_kind o = OPkgName p → kind_spec env (Some o) KPackage
| ks_other o : o_kind o = OLabel ∨ o_kind o = OBuiltin ∨ o_kind o = ONil →
    kind_spec env (Some o) KUnspecified.

(** Underlying types are never themselves named, aliases or type parameters. *)
Definition env_wf (env : tenv) : Prop :=
  ∀ tn args, match env tn args with TNamed _ _ | TAlias _ _ | TTypeParam _ _ => False | _ => True end.

(** Reading a SCIP range: three elements for one line, four for several. *)
Definition decode_range (r : list Z) : option ((Z * Z) * (Z * Z)) :=
  match r with
  | [l; c; c'] => Some ((l, c), (l, c'))
  | [l; c; l'; c'] => Some ((l, c), (l', c'))
  | _ => None
  end.
(** positions that fit the 32-bit fields *)
Definition pos_fits (p : position) : Prop :=
  (1 <= pos_line p <= 2^31 ∧ 1 <= pos_col p <= 2^31)%Z.
Definition pos_le (p q : position) : Prop :=
  (pos_line p < pos_line q ∨ (pos_line p = pos_line q ∧ pos_col p <= pos_col q))%Z.
