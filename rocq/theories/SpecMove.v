(** The same program at other positions.  packages.Load parses the files of a program at the same time and gives every
    file, when its parser starts, the next free range of positions (token.Pos) of the FileSet; so the positions of a
    second run are those of the first, moved.  [mv] is that move: where a position of the first run is in the second. *)
From Coq Require Import Ascii String.
From stdpp Require Import prelude strings gmap.
From Verif Require Import GoStr Scip GoTypes Ast Packages Symbols Lookup Loader.
Open Scope string_scope.
Open Scope list_scope.

(** go/ast: every node with its positions moved *)
Definition mv_ident (mv : Z → Z) (i : ident) : ident := Ident (id_ptr i) (id_name i) (mv (id_pos i)).
Fixpoint mv_node (mv : Z → Z) (n : node) : node :=
  match n with
  | NIdent i => NIdent (mv_ident mv i)
  | NField d c ns t => NField d c (map (mv_ident mv) ns) (mv_node mv t)
  | NFieldList l => NFieldList (map (mv_node mv) l)
  | NStructType r p f => NStructType r (mv p) (mv_node mv f)
  | NInterfaceType r p m => NInterfaceType r (mv p) (mv_node mv m)
  | NFuncType p a b c => NFuncType (mv p) (mv_node mv a) (mv_node mv b) (mv_node mv c)
  | NMapType p k v => NMapType (mv p) (mv_node mv k) (mv_node mv v)
  | NArrayType p l e => NArrayType (mv p) (match l with Some x => Some (mv_node mv x) | None => None end) (mv_node mv e)
  | NChanType p v => NChanType (mv p) (mv_node mv v)
  | NStarExpr p x => NStarExpr (mv p) (mv_node mv x)
  | NParenExpr p x => NParenExpr (mv p) (mv_node mv x)
  | NUnaryExpr p x => NUnaryExpr (mv p) (mv_node mv x)
  | NBinaryExpr x y => NBinaryExpr (mv_node mv x) (mv_node mv y)
  | NIndexExpr x y => NIndexExpr (mv_node mv x) (mv_node mv y)
  | NIndexListExpr x l => NIndexListExpr (mv_node mv x) (map (mv_node mv) l)
  | NSelectorExpr x s => NSelectorExpr (mv_node mv x) (mv_ident mv s)
  | NFuncLit t b => NFuncLit (mv_node mv t) (mv_node mv b)
  | NBlockStmt p l => NBlockStmt (mv p) (map (mv_node mv) l)
  | NImportSpec r nm p s => NImportSpec r (mv_ident mv <$> nm) (mv p) s
  | NTypeSpec d nm tp t => NTypeSpec d (mv_ident mv nm) (mv_node mv tp) (mv_node mv t)
  | NValueSpec d c ns t vs =>
      NValueSpec d c (map (mv_ident mv) ns) (match t with Some x => Some (mv_node mv x) | None => None end) (map (mv_node mv) vs)
  | NGenDecl p k d l => NGenDecl (mv p) k d (map (mv_node mv) l)
  | NFuncDecl d p e r nm t b =>
      NFuncDecl d (mv p) (mv e) (match r with Some x => Some (mv_node mv x) | None => None end) (mv_ident mv nm)
        (mv_node mv t) (match b with Some x => Some (mv_node mv x) | None => None end)
  | NFile p h d nm l => NFile (mv p) h d (mv_ident mv nm) (map (mv_node mv) l)
  | NOther p l => NOther (mv p) (map (mv_node mv) l)
  end.

(** go/types: an object declared elsewhere.  Types have no positions. *)
Fixpoint mv_obj (mv : Z → Z) (o : obj) : obj :=
  match o with
  | Obj i n k p kd t og => Obj i n k (mv p) kd t (match og with Some g => Some (mv_obj mv g) | None => None end)
  end.
(** types.Info; [back] is the opposite move: the text of a moved object is that of the object *)
Definition mv_info (mv back : Z → Z) (ti : tinfo) : tinfo :=
  TInfo (λ n, mv_obj mv <$> ti_defs ti n) (λ n, mv_obj mv <$> ti_uses ti n) (λ n, mv_obj mv <$> ti_pkgname_of ti n)
        (map (mv_obj mv) (ti_case_objs ti)) (ti_canon ti) (λ o, ti_sig ti (mv_obj back o)).
(** go/packages *)
Definition mv_pkg (mv back : Z → Z) (p : gpkg) : gpkg :=
  GPkg (p_ptr p) (p_path p) (p_name p) (p_module p) (p_imports p) (map (mv_node mv) (p_syntax p)) (p_types p)
       (mv_info mv back <$> p_info p).
Definition mv_heap (mv back : Z → Z) (h : pheap) : pheap := mv_pkg mv back <$> h.

(** a move and the opposite move; 0 is token.NoPos *)
Definition opposite (mv back : Z → Z) : Prop := (∀ z, back (mv z) = z) ∧ (∀ z, mv (back z) = z) ∧ mv 0%Z = 0%Z.
(** [fs'] answers for a moved position what [fs] answers for the position *)
Definition mv_fset (mv : Z → Z) (fs fs' : fset) : Prop :=
  (∀ z, fs_position fs' (mv z) = fs_position fs z) ∧ (∀ z, fs_file fs' (mv z) = fs_file fs z).
(** an identifier is moved as a whole: the position behind it, too *)
Definition moved_whole (mv : Z → Z) (i : ident) : Prop :=
  mv (id_pos i + Z.of_nat (slen (id_name i)))%Z = (mv (id_pos i) + Z.of_nat (slen (id_name i)))%Z.
Definition whole_idents (mv : Z → Z) (h : pheap) : Prop :=
  ∀ q p f i, h !! q = Some p → f ∈ p_syntax p → i ∈ node_idents f → moved_whole mv i.
