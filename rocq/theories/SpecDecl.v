(** What a Go file declares at package level, read off the Go grammar, and the
    well-formedness of source positions.  Independent of the visitors. *)
From Coq Require Import Ascii String.
From stdpp Require Import prelude strings gmap.
From Verif Require Import GoStr Scip GoTypes Ast Packages SpecSymbol.
Open Scope string_scope.
Open Scope list_scope.

(** Go identity of a package-level declaration *)
Inductive dkey :=
| KeyType (name : string)
| KeyFunc (name : string)
| KeyMethod (recv name : string)
| KeyValue (name : string)               (** variable or constant *)
| KeyMember (owner name : string).       (** struct field or interface method of a named type *)

(** the identifier naming the receiver base type in T, *T, (T), T[K], T[K, V] *)
Inductive recv_ident : node → ident → Prop :=
| ri_ident i : recv_ident (NIdent i) i
| ri_star p x i : recv_ident x i → recv_ident (NStarExpr p x) i
| ri_paren p x i : recv_ident x i → recv_ident (NParenExpr p x) i
| ri_index x k i : recv_ident x i → recv_ident (NIndexExpr x k) i
| ri_indices x l i : recv_ident x i → recv_ident (NIndexListExpr x l) i.

(** the identifier naming an embedded field: T, *T, p.T, *p.T, T[K], ... *)
Inductive embedded_ident : node → ident → Prop :=
| ei_ident i : embedded_ident (NIdent i) i
| ei_sel x i : embedded_ident (NSelectorExpr x i) i
| ei_star p x i : embedded_ident x i → embedded_ident (NStarExpr p x) i
| ei_index x k i : embedded_ident x i → embedded_ident (NIndexExpr x k) i
| ei_indices x l i : embedded_ident x i → embedded_ident (NIndexListExpr x l) i.

(** [decl_declares d i k par]: the top-level declaration [d] declares identifier
    [i] as [k]; [par] is the syntax node whose comments describe it: the
    enclosing declaration group for types and values, the declaration itself for
    functions, the field for members. *)
Inductive decl_declares : node → ident → dkey → node → Prop :=
| dd_type p doc specs sd nm tps t :
    NTypeSpec sd nm tps t ∈ specs →
    decl_declares (NGenDecl p TYPE doc specs) nm (KeyType (id_name nm)) (NGenDecl p TYPE doc specs)
| dd_func doc p e nm t b :
    decl_declares (NFuncDecl doc p e None nm t b) nm (KeyFunc (id_name nm))
                  (NFuncDecl doc p e None nm t b)
| dd_method doc p e fd fc fn rt rest nm t b r :
    recv_ident rt r →
    decl_declares (NFuncDecl doc p e (Some (NFieldList (NField fd fc fn rt :: rest))) nm t b)
                  nm (KeyMethod (id_name r) (id_name nm))
                  (NFuncDecl doc p e (Some (NFieldList (NField fd fc fn rt :: rest))) nm t b)
| dd_value p tok doc specs sd sc names t vs nm :
    tok = VAR ∨ tok = CONST →
    NValueSpec sd sc names t vs ∈ specs → nm ∈ names →
    decl_declares (NGenDecl p tok doc specs) nm (KeyValue (id_name nm)) (NGenDecl p tok doc specs)
| dd_field p doc specs sd T tps ptr sp fields fd fc names ft nm :
    NTypeSpec sd T tps (NStructType ptr sp (NFieldList fields)) ∈ specs →
    NField fd fc names ft ∈ fields → nm ∈ names →
    decl_declares (NGenDecl p TYPE doc specs) nm (KeyMember (id_name T) (id_name nm))
                  (NField fd fc names ft)
| dd_embedded p doc specs sd T tps ptr sp fields fd fc ft nm :
    NTypeSpec sd T tps (NStructType ptr sp (NFieldList fields)) ∈ specs →
    NField fd fc [] ft ∈ fields → embedded_ident ft nm →
    decl_declares (NGenDecl p TYPE doc specs) nm (KeyMember (id_name T) (id_name nm))
                  (NField fd fc [] ft)
| dd_imethod p doc specs sd T tps ptr sp fields fd fc names ft nm :
    NTypeSpec sd T tps (NInterfaceType ptr sp (NFieldList fields)) ∈ specs →
    NField fd fc names ft ∈ fields → nm ∈ names →
    decl_declares (NGenDecl p TYPE doc specs) nm (KeyMember (id_name T) (id_name nm))
                  (NField fd fc names ft).

Definition file_declares (f : node) (i : ident) (k : dkey) (par : node) : Prop :=
  ∃ p h d nm decls decl, f = NFile p h d nm decls ∧ decl ∈ decls ∧ decl_declares decl i k par.
Definition pkg_declares_by (pkg : gpkg) (i : ident) (k : dkey) (par : node) : Prop :=
  ∃ f, f ∈ p_syntax pkg ∧ file_declares f i k par.
Definition pkg_declares (pkg : gpkg) (i : ident) (k : dkey) : Prop :=
  ∃ par, pkg_declares_by pkg i k par.

(** the documented symbol layout: package namespace, then the declaration path *)
Definition key_descriptors (path : string) (k : dkey) : list descriptor :=
  Desc path Namespace ::
  match k with
  | KeyType n => [Desc n Type_]
  | KeyFunc n => [Desc n Method]
  | KeyMethod r n => [Desc r Type_; Desc n Method]
  | KeyValue n => [Desc n Term]
  | KeyMember o n => [Desc o Type_; Desc n Term]
  end.

Definition key_symbol (path : string) (m : gmodule) (k : dkey) : string :=
  format_symbol (Sym "scip-go" (SPkg "gomod" (m_path m) (m_version m)) (key_descriptors path k)).

(** positions of a tree *)
Definition poss (n : node) : list Z := map node_pos (subnodes n).
Definition sep (a b : node) : Prop := ∀ p, (0 < p)%Z → p ∈ poss a → p ∈ poss b → False.
(** Siblings never share a source position: they occupy disjoint source ranges. *)
Fixpoint pairwise_sep (l : list node) : Prop :=
  match l with [] => True | a :: l' => (∀ b, b ∈ l' → sep a b) ∧ pairwise_sep l' end.
Definition wf_pos (f : node) : Prop := ∀ m, m ∈ subnodes f → pairwise_sep (node_children m).
Definition wf_pkg_pos (pkg : gpkg) : Prop :=
  (∀ f, f ∈ p_syntax pkg → wf_pos f) ∧ pairwise_sep (p_syntax pkg).

(** value declarations whose types are all of the common forms: identifiers,
    qualified identifiers, pointers, arrays/slices, maps, channels, functions,
    structs, interfaces, instantiations (in particular not parenthesised) *)
Definition common_type_form (t : node) : Prop :=
  match t with
  | NFuncType _ _ _ _ | NIdent _ | NChanType _ _ | NArrayType _ _ _ | NMapType _ _ _
  | NStarExpr _ _ | NSelectorExpr _ _ | NIndexExpr _ _ | NIndexListExpr _ _
  | NInterfaceType _ _ _ | NStructType _ _ _ => True
  | _ => False
  end.
Definition common_value_types (f : node) : Prop :=
  ∀ d c names t vs, NValueSpec d c names (Some t) vs ∈ subnodes f → common_type_form t.
Definition pkg_common_value_types (pkg : gpkg) : Prop :=
  ∀ f, f ∈ p_syntax pkg → common_value_types f.

(** s precedes, in its declaration group, the spec that declares the variable or constant i *)
Definition earlier_spec (pkg : gpkg) (i : ident) (s : node) : Prop :=
  ∃ f p tok doc l1 sd sc names t vs l2, f ∈ p_syntax pkg ∧
    NGenDecl p tok doc (l1 ++ NValueSpec sd sc names t vs :: l2) ∈ node_children f ∧ i ∈ names ∧ s ∈ l1.
(** the specs before i in its group declare values of common types only, also inside function literals *)
Definition common_before (pkg : gpkg) (i : ident) : Prop := ∀ s, earlier_spec pkg i s → common_value_types s.
(** no spec before i in its group contains a var or const group (a function literal may contain some) *)
Definition no_group_before (pkg : gpkg) (i : ident) : Prop :=
  ∀ s p tok d specs, earlier_spec pkg i s → tok = VAR ∨ tok = CONST → NGenDecl p tok d specs ∉ subnodes s.

(** the go/types object of a declaration *)
Definition object_of_key (env : tenv) (path : string) (k : dkey) (o : obj) : Prop :=
  o_origin o = None ∧
  ∃ tp, o_pkg o = Some tp ∧ tp_path tp = path ∧
  match k with
  | KeyType n => o_kind o = OTypeName ∧ o_name o = n
  | KeyFunc n => o_kind o = OFunc (Some None) ∧ o_name o = n
  | KeyMethod r n => ∃ rt tn, o_kind o = OFunc (Some (Some rt)) ∧ o_name o = n ∧
                     base_named rt tn ∧ tn_name tn = r ∧ r ≠ ""
  | KeyValue n => (o_kind o = OConst ∨ o_kind o = OVar false) ∧ o_name o = n
  | KeyMember T n =>
      o_kind o = OVar true ∧ o_name o = n ∧
      (∃ e, e ∈ tp_scope tp ∧ direct_field_of env e (o_id o)) ∧
      (∀ e, e ∈ tp_scope tp → direct_field_of env e (o_id o) → se_name e = T)
  end.

(** *** Documentation (C19) *)
(** the comments attached to a spec *)
Definition own_comment (s : node) : string :=
  match s with
  | NTypeSpec doc _ _ _ => trim_space doc
  | NValueSpec doc cmt _ _ _ => trim_space (doc +:+ nl +:+ cmt)
  | _ => ""
  end.
Definition spec_names (s : node) : list ident :=
  match s with
  | NTypeSpec _ nm _ _ => [nm]
  | NValueSpec _ _ names _ _ => names
  | _ => []
  end.
(** own comment first, then the block's, without empties and repetitions *)
Definition doc_entries (own block : string) : list string :=
  (if String.eqb own "" then [] else [own]) ++
  (if String.eqb block "" then [] else if String.eqb block own then [] else [block]).
(** the documentation a reader expects for [i], described by [par] *)
Definition documented_as (par : node) (i : ident) (docs : list string) : Prop :=
  match par with
  | NGenDecl _ _ gdoc specs =>
      ∃ s, s ∈ specs ∧ i ∈ spec_names s ∧ docs = doc_entries (own_comment s) (trim_space gdoc)
  | NFuncDecl doc _ _ _ _ _ _ => docs = doc_entries (trim_space doc) ""
  | NField doc cmt _ _ => docs = doc_entries (trim_space (doc +:+ nl +:+ cmt)) ""
  | _ => False
  end.
(** identifier pointers are distinct *)
Definition distinct_ptrs (pkg : gpkg) : Prop :=
  ∀ f i j, f ∈ p_syntax pkg → NIdent i ∈ subnodes f → NIdent j ∈ subnodes f →
    id_ptr i = id_ptr j → i = j.

(** *** Deprecation (C18): a line of [d] starts with "Deprecated:" *)
Definition line_deprecated (d : string) : Prop :=
  ∃ a b, d = a +:+ "Deprecated:" +:+ b ∧ (a = "" ∨ ∃ a', a = a' +:+ nl).
