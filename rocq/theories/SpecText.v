(** When are the texts that Go gives to scip-go valid UTF-8?  Go requires it of source files. *)
From Coq Require Import Ascii String.
From stdpp Require Import prelude strings gmap.
From Verif Require Import GoStr Scip GoTypes Packages Symbols Document Lookup Pass1 Pass2 Loader Index Proto Ast.
Open Scope string_scope.
Open Scope list_scope.

Notation utf8 s := (valid_utf8 s = true).

(** comments and identifiers *)
Definition node_text (n : node) : Prop :=
  match n with
  | NIdent i => utf8 (id_name i)
  | NField d c _ _ | NValueSpec d c _ _ _ => utf8 d ∧ utf8 c
  | NTypeSpec d _ _ _ | NGenDecl _ _ d _ | NFuncDecl d _ _ _ _ _ _ | NFile _ _ d _ _ => utf8 d
  | _ => True
  end.
Definition source_text (f : node) : Prop := ∀ n, n ∈ subnodes f → node_text n.

(** names of declarations; an object and the generic object it is an instance of *)
Fixpoint receiver_text (t : ty) : Prop :=
  match t with TAlias _ t | TPointer t => receiver_text t | TNamed tn _ => utf8 (tn_name tn) | _ => True end.
Definition names_text (o : obj) : Prop :=
  utf8 (o_name o) ∧
  match o_kind o with OPkgName path => utf8 path | OFunc (Some (Some r)) => receiver_text r | _ => True end ∧
  ∀ tp, o_pkg o = Some tp → utf8 (tp_path tp) ∧ Forall (λ e, utf8 (se_name e)) (tp_scope tp).
Definition object_text (o : obj) : Prop := names_text o ∧ names_text (origin o).

Definition module_text (p : gpkg) : Prop := ∀ m, p_module p = Some m → utf8 (m_path m) ∧ utf8 (m_version m).
Definition package_text (p : gpkg) : Prop := utf8 (p_path p) ∧ utf8 (p_name p) ∧ module_text p.

(** the objects of a package; [objstr]: types.ObjectString, the texts of local declarations *)
Record info_names (objstr : obj → string) (ti : tinfo) : Prop := InfoNames {
  in_defs : ∀ x o, ti_defs ti x = Some o → object_text o ∧ utf8 (objstr o);
  in_uses : ∀ x o, ti_uses ti x = Some o → object_text o;
  in_cases : ∀ o, o ∈ ti_case_objs ti → object_text o ∧ utf8 (objstr o) }.
(** the signature texts of its package-level declarations *)
Definition signatures_text (ti : tinfo) : Prop := ∀ x o, ti_defs ti x = Some o → utf8 (ti_sig ti o).
