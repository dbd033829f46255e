(** C67, specification: the shape of syntax trees built by go/parser, and everything a package introduces
    at package level.  Independent of the visitors. *)
From Coq Require Import Ascii String.
From stdpp Require Import prelude strings gmap.
From Verif Require Import GoStr Scip GoTypes Ast Packages SpecSymbol SpecDecl.
Open Scope string_scope.
Open Scope list_scope.

(** a type expression (or an element of an interface): not a declaration, a spec, a field or a field list *)
Definition type_expr (t : node) : Prop :=
  match t with
  | NField _ _ _ _ | NFieldList _ | NImportSpec _ _ _ _ | NTypeSpec _ _ _ _ | NValueSpec _ _ _ _ _
  | NGenDecl _ _ _ _ | NFuncDecl _ _ _ _ _ _ _ | NFile _ _ _ _ _ | NBlockStmt _ _ => False
  | _ => True
  end.
(** the Go grammar, production by production, as far as it matters here *)
Definition node_grammar (n : node) : Prop :=
  match n with
  | NFile _ _ _ _ decls => ∀ d, d ∈ decls →
      match d with NGenDecl _ _ _ _ | NFuncDecl _ _ _ _ _ _ _ | NOther _ [] => True | _ => False end
  | NGenDecl _ tok _ specs => ∀ s, s ∈ specs →
      match s with
      | NImportSpec _ _ _ _ => tok ≠ TYPE ∧ tok ≠ VAR ∧ tok ≠ CONST
      | NTypeSpec _ _ _ _ => tok = TYPE
      | NValueSpec _ _ _ _ _ => tok = VAR ∨ tok = CONST
      | _ => False
      end
  | NTypeSpec _ _ _ t => type_expr t
  | NField _ _ _ t => type_expr t
  | NStructType _ _ f => ∃ l, f = NFieldList l ∧ ∀ x, x ∈ l →
      ∃ d c names t, x = NField d c names t ∧ (names = [] → ∃ i, embedded_ident t i)
  | NInterfaceType _ _ f => ∃ l, f = NFieldList l ∧ ∀ x, x ∈ l → ∃ d c names t, x = NField d c names t
  | NFuncDecl _ _ _ recv _ _ _ =>
      match recv with
      | None => True
      | Some r => ∃ d c names t rest i, r = NFieldList (NField d c names t :: rest) ∧ recv_ident t i
      end
  | _ => True
  end.
Definition grammatical (f : node) : Prop := ∀ n, n ∈ subnodes f → node_grammar n.
Definition pkg_grammatical (pkg : gpkg) : Prop := ∀ f, f ∈ p_syntax pkg →
  (∃ p h d nm decls, f = NFile p h d nm decls) ∧ grammatical f.

(** the members written in a type literal: fields, embedded fields, methods, and the members of literals
    embedded in an interface literal *)
Inductive literal_member : node → Ast.ident → Prop :=
| lm_field ptr sp fields fd fc names ft i :
    NField fd fc names ft ∈ fields → i ∈ names → literal_member (NStructType ptr sp (NFieldList fields)) i
| lm_embedded ptr sp fields fd fc ft i :
    NField fd fc [] ft ∈ fields → embedded_ident ft i → literal_member (NStructType ptr sp (NFieldList fields)) i
| lm_method ptr sp fields fd fc names ft i :
    NField fd fc names ft ∈ fields → i ∈ names → literal_member (NInterfaceType ptr sp (NFieldList fields)) i
| lm_inline ptr sp fields fd fc ft i :
    NField fd fc [] ft ∈ fields → literal_member ft i → literal_member (NInterfaceType ptr sp (NFieldList fields)) i.

(** identifier i of package pkg introduces the package-level entity k: it declares it, or it is a member
    written in the literal of a package-level type *)
Definition introduces (pkg : gpkg) (i : Ast.ident) (k : dkey) : Prop :=
  pkg_declares pkg i k ∨
  ∃ f p doc specs sd T tps t, f ∈ p_syntax pkg ∧ NGenDecl p TYPE doc specs ∈ node_children f ∧
    NTypeSpec sd T tps t ∈ specs ∧ literal_member t i ∧ k = KeyMember (id_name T) (id_name i).
(** some identifier at position pos introduces k *)
Definition introduced_at (pkg : gpkg) (k : dkey) (pos : Z) : Prop := ∃ i, introduces pkg i k ∧ id_pos i = pos.

(** the name of the entity *)
Definition key_name (k : dkey) : string :=
  match k with KeyType n | KeyFunc n | KeyMethod _ n | KeyValue n | KeyMember _ n => n end.
