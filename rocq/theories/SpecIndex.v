(** Specification of the indexing pipeline. *)
From Coq Require Import Ascii String.
From stdpp Require Import prelude strings gmap sorting.
From Verif Require Import GoStr Scip GoTypes Ast Packages Symbols Document Lookup Pass1 Pass2 Paths
  Loader Index SpecSymbol SpecDecl SpecLookup SpecOcc.
Open Scope string_scope.
Open Scope list_scope.

(** [lists t l]: l lists the keys of t, sorted, each once *)
Definition lists (t : ptab) (l : list string) : Prop :=
  (∀ k, k ∈ l ↔ is_Some (t !! k)) ∧ NoDup l ∧ StronglySorted str_le l.

(** [file_called name base]: the last element of the file name is [base] *)
Definition file_called (name base : string) : Prop := name = base ∨ ∃ dir, name = dir +:+ "/" +:+ base.
(** the classes of files, by decreasing relevance of their package comment *)
Inductive relevance (pkg_name name : string) : nat → Prop :=
| rel_doc : file_called name "doc.go" → relevance pkg_name name 0
| rel_pkg : ¬ file_called name "doc.go" → file_called name (pkg_name +:+ ".go") →
    relevance pkg_name name 1
| rel_other : ¬ file_called name "doc.go" → ¬ file_called name (pkg_name +:+ ".go") →
    (¬ ∃ s, name = s +:+ "_test.go") → relevance pkg_name name 2
| rel_test s : ¬ file_called name "doc.go" → ¬ file_called name (pkg_name +:+ ".go") →
    name = s +:+ "_test.go" → relevance pkg_name name 3.

(** every package of a table is in the heap, under its own path, with a module
    (for the tables of LoadPackages: C25, C26) *)
Definition keyed (h : pheap) (t : ptab) : Prop :=
  ∀ k q, t !! k = Some q → ∃ p m, h !! q = Some p ∧ p_path p = k ∧ p_module p = Some m.

(** the tables LoadPackages returns: project packages are loaded packages, and the variants
    of a path belong to one module *)
Definition loaded_project (h : pheap) (all proj : ptab) : Prop :=
  keyed h all ∧ keyed h proj ∧
  ∀ k q p, proj !! k = Some q → h !! q = Some p →
    ∃ q' p', all !! k = Some q' ∧ h !! q' = Some p' ∧ p_module p' = p_module p.
(** [order] is an iteration order of the keys of t *)
Definition key_order (t : ptab) (order : list string) : Prop := order ≡ₚ map fst (map_to_list t).

(** the project packages, by increasing path *)
Definition project_in_order (h : pheap) (proj : ptab) (ps : list gpkg) : Prop :=
  lists proj (map p_path ps) ∧ ∀ p, p ∈ ps → ∃ q, proj !! p_path p = Some q ∧ h !! q = Some p.

(** the name of the file that contains a syntax tree *)
Definition file_of (fs : fset) (f : node) (name : string) : Prop :=
  fs_file fs (file_package_pos f) = Some name.
(** the files of packages, in order *)
Definition files_in_order (ps : list gpkg) : list (gpkg * node) :=
  List.concat (map (λ p, map (λ f, (p, f)) (p_syntax p)) ps).

(** The packages were parsed and type-checked. *)
Record typed_project (objs : nat → option obj) (fs : fset) (h : pheap) (ps : list gpkg) : Prop :=
  TypedProject {
    tpj_info : ∀ p f, p ∈ ps → f ∈ p_syntax p → ∃ ti name, p_info p = Some ti ∧
      typed_file fs ti (imports_of h p) objs f ∧ defs_at_idents ti f ∧ file_of fs f name;
    (** a file belongs to one package, once *)
    tpj_files : ∀ i j p f q f' name, files_in_order ps !! i = Some (p, f) →
      files_in_order ps !! j = Some (q, f') → file_of fs f name → file_of fs f' name → i = j }.

(** symbol of a package *)
Definition package_symbol (m : gmodule) (path : string) : string :=
  format_symbol (Sym "scip-go" (SPkg "gomod" (m_path m) (m_version m)) [Desc path Namespace]).

(** equal except for the relationships *)
Definition same_info (i j : syminfo) : Prop :=
  i_symbol i = i_symbol j ∧ i_documentation i = i_documentation j ∧ i_kind i = i_kind j ∧
  i_display_name i = i_display_name j ∧ i_signature i = i_signature j ∧ i_enclosing i = i_enclosing j.
Definition same_tables (g g' : global) : Prop :=
  g_pkgsyms g = g_pkgsyms g' ∧
  ∀ id, match g_symbols g !! id, g_symbols g' !! id with
        | Some (p, t), Some (p', t') => p = p' ∧
            ∀ pos, match t !! pos, t' !! pos with
                   | Some i, Some i' => same_info i i'
                   | None, None => True
                   | _, _ => False
                   end
        | None, None => True
        | _, _ => False
        end.

(** the occurrence of the package clause of a file *)
Definition clause_occurrence (fs : fset) (sym : string) (f : node) : occurrence :=
  Definition_ sym
    (text_span (fs_position fs (id_pos (file_ident f))) 0 (slen (id_name (file_ident f)))) [] false.

(** [document_for .. d]: d is the document of file f of package p when the symbol tables
    are g: its path is the file's path relative to the root, its occurrences those of a
    visit of the file, and its symbols the recorded ones of the file and the locals *)
Definition document_for (env : tenv) (objs : nat → option obj) (root version : string) (fs : fset)
    (h : pheap) (objstr : obj → string) (g : global) (p : gpkg) (f : node) (d : document) : Prop :=
  ∃ ti tbl st sym name torder lorder,
    p_info p = Some ti ∧ file_of fs f name ∧
    g_symbols g !! p_path p = Some (p, tbl) ∧ g_pkgsyms g !! p_path p = Some sym ∧
    visited env objs root version g fs p ti tbl (imports_of h p) (clause_occurrence fs sym f) f st ∧
    torder ≡ₚ map_to_list tbl ∧ lorder ≡ₚ map_to_list (f_locals st) ∧
    d = to_document env fs ti objstr (doc_relative_path root name) name torder lorder st.

(** the map iteration orders are permutations *)
Definition orders_ok (mo : map_orders) : Prop :=
  (∀ n t, mo_table mo n t ≡ₚ map_to_list t) ∧ (∀ n l, mo_locals mo n l ≡ₚ map_to_list l).

(** the tables after the first pass, as far as the search for implementations depends on them:
    packages outside the project have an empty table, and there are no relationships yet *)
Definition initial_tables (h : pheap) (all proj : ptab) (g : global) : Prop :=
  (∀ k q p, all !! k = Some q → proj !! k = None → h !! q = Some p → g_symbols g !! k = Some (p, ∅)) ∧
  (∀ id pos i, recorded g id pos i → i_relationships i = []).

(** everything Index needs to know about a loaded project; ps: its packages by path *)
Record indexable (objs : nat → option obj) (fs : fset) (h : pheap) (all proj : ptab) (ps : list gpkg) : Prop :=
  Indexable {
    ix_loaded : loaded_project h all proj;
    ix_order : project_in_order h proj ps;
    ix_typed : typed_project objs fs h ps;
    (** identifiers of a file have positions in the file *)
    ix_idents : ∀ p f name i, p ∈ ps → f ∈ p_syntax p → file_of fs f name →
      NIdent i ∈ subnodes f → fs_file fs (id_pos i) = Some name }.

(** [d] is the document of file f of package p among the documents [ds] *)
Definition document_of (ps : list gpkg) (ds : list document) (p : gpkg) (f : node) (d : document) : Prop :=
  ∃ n, files_in_order ps !! n = Some (p, f) ∧ ds !! n = Some d.
(** the documents among the messages *)
Definition documents (msgs : list message) : list document :=
  omap (λ m, match m with MDoc d => Some d | _ => None end) msgs.
(** the external symbols among the messages *)
Definition externals (msgs : list message) : list syminfo :=
  omap (λ m, match m with MExt i => Some i | _ => None end) msgs.
