(** The same program with other comments. *)
From Coq Require Import Ascii String.
From stdpp Require Import prelude strings gmap.
From Verif Require Import GoStr Scip GoTypes Ast Packages Symbols Lookup Pass1 Pass2 Loader Index.
Open Scope string_scope.
Open Scope list_scope.

(** go/ast: a syntax tree without its comments (the fields Doc and Comment of its nodes) *)
Fixpoint uncommented (n : node) : node :=
  match n with
  | NIdent i => NIdent i
  | NField _ _ ns t => NField "" "" ns (uncommented t)
  | NFieldList l => NFieldList (map uncommented l)
  | NStructType r p f => NStructType r p (uncommented f)
  | NInterfaceType r p m => NInterfaceType r p (uncommented m)
  | NFuncType p a b c => NFuncType p (uncommented a) (uncommented b) (uncommented c)
  | NMapType p k v => NMapType p (uncommented k) (uncommented v)
  | NArrayType p l e => NArrayType p (match l with Some x => Some (uncommented x) | None => None end) (uncommented e)
  | NChanType p v => NChanType p (uncommented v)
  | NStarExpr p x => NStarExpr p (uncommented x)
  | NParenExpr p x => NParenExpr p (uncommented x)
  | NUnaryExpr p x => NUnaryExpr p (uncommented x)
  | NBinaryExpr x y => NBinaryExpr (uncommented x) (uncommented y)
  | NIndexExpr x y => NIndexExpr (uncommented x) (uncommented y)
  | NIndexListExpr x l => NIndexListExpr (uncommented x) (map uncommented l)
  | NSelectorExpr x s => NSelectorExpr (uncommented x) s
  | NFuncLit t b => NFuncLit (uncommented t) (uncommented b)
  | NBlockStmt p l => NBlockStmt p (map uncommented l)
  | NImportSpec r nm p s => NImportSpec r nm p s
  | NTypeSpec _ nm tp t => NTypeSpec "" nm (uncommented tp) (uncommented t)
  | NValueSpec _ _ ns t vs =>
      NValueSpec "" "" ns (match t with Some x => Some (uncommented x) | None => None end) (map uncommented vs)
  | NGenDecl p k _ l => NGenDecl p k "" (map uncommented l)
  | NFuncDecl _ p e r nm t b =>
      NFuncDecl "" p e (match r with Some x => Some (uncommented x) | None => None end) nm
        (uncommented t) (match b with Some x => Some (uncommented x) | None => None end)
  | NFile p _ _ nm l => NFile p false "" nm (map uncommented l)
  | NOther p l => NOther p (map uncommented l)
  end.
(** [rc] rewrites the comments of a file and nothing else *)
Definition comments_only (rc : node → node) : Prop := ∀ n, uncommented (rc n) = uncommented n.
(** go/packages: the packages with rewritten files *)
Definition rc_pkg (rc : node → node) (p : gpkg) : gpkg :=
  GPkg (p_ptr p) (p_path p) (p_name p) (p_module p) (p_imports p) (map rc (p_syntax p)) (p_types p) (p_info p).
Definition rc_heap (rc : node → node) (h : pheap) : pheap := rc_pkg rc <$> h.

(** The new comments can move the text to other lines and columns ([fs'] instead of [fs]), but not to other files, and
    not a var or const with several names: its line and column are part of the symbols of the members of its type. *)
Definition same_files (fs fs' : fset) : Prop := ∀ z, fs_file fs' z = fs_file fs z.
Definition groups_stay (fs fs' : fset) (f : node) : Prop :=
  ∀ d c i j ns t vs, NValueSpec d c (i :: j :: ns) t vs ∈ subnodes f →
    pos_line (fs_position fs' (id_pos i)) = pos_line (fs_position fs (id_pos i)) ∧
    pos_col (fs_position fs' (id_pos i)) = pos_col (fs_position fs (id_pos i)).

(** Two ranges of the same piece of text, in the layouts [fs] and [fs']: no range, that of the text between two
    positions (visitors.go 98-112), or that of a name that begins at a position (symbols.go 27-38) *)
Inductive same_text (fs fs' : fset) : list Z → list Z → Prop :=
| st_none : same_text fs fs' [] []
| st_span a b o : same_text fs fs' (scip_range (fs_position fs a) (fs_position fs b) o) (scip_range (fs_position fs' a) (fs_position fs' b) o)
| st_name a nm adj : same_text fs fs' (range_from_name (fs_position fs a) nm adj) (range_from_name (fs_position fs' a) nm adj).
(** the same occurrence, but for its diagnostics *)
Definition same_occurrence (fs fs' : fset) (o o' : occurrence) : Prop :=
  oc_symbol o' = oc_symbol o ∧ oc_roles o' = oc_roles o ∧ same_text fs fs' (oc_range o) (oc_range o') ∧ same_text fs fs' (oc_enclosing o) (oc_enclosing o').
(** a SymbolInformation without its documentation *)
Definition undocumented (i : syminfo) : syminfo :=
  Info (i_symbol i) [] (i_relationships i) (i_kind i) (i_display_name i) (i_signature i) (i_enclosing i).
(** Two documents, two indexes that differ only in documentation, diagnostics, the layout of the text, and the order of
    lists of symbols. *)
Definition recommented_document (fs fs' : fset) (d d' : document) : Prop :=
  d_path d' = d_path d ∧ Forall2 (same_occurrence fs fs') (d_occs d) (d_occs d') ∧
  map undocumented (d_symbols d) ≡ₚ map undocumented (d_symbols d').
Definition recommented_index (fs fs' : fset) (msgs msgs' : list message) : Prop :=
  ∃ meta ds ds' exts exts',
    msgs = MMeta meta :: map MDoc ds ++ map MExt exts ∧ msgs' = MMeta meta :: map MDoc ds' ++ map MExt exts' ∧
    Forall2 (recommented_document fs fs') ds ds' ∧ map undocumented exts ≡ₚ map undocumented exts'.
