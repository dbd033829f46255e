(** go/ast: syntax trees as seen by the visitors of internal/visitors.
    Only the node kinds the visitors distinguish have their own constructor;
    every other node (statements, other expressions) is [NOther pos children]
    with its children in ast.Walk order.  Comments are kept only as the text
    (CommentGroup.Text) of the doc/line comments the code reads; walking into
    comment groups has no effect on any visitor and is left out.  Absent
    optional parts that are lists (type parameters, results) are empty
    field lists. *)
From Coq Require Import Ascii String.
From stdpp Require Import prelude strings.
From Verif Require Import GoStr.
Open Scope string_scope.
Open Scope list_scope.

(** *ast.Ident: pointer identity, name, NamePos *)
Record ident := Ident { id_ptr : nat; id_name : string; id_pos : Z }.
Global Instance ident_eq_dec : EqDecision ident.
Proof. solve_decision. Defined.

(** token of an ast.GenDecl *)
Inductive gtok := IMPORT | TYPE | VAR | CONST.
Global Instance gtok_eq_dec : EqDecision gtok.
Proof. solve_decision. Defined.

(** ast.Node.  [ptr] of struct and interface types and import specs is the
    pointer used as a key of types.Info; [p] is Node.Pos(). *)
Inductive node : Type :=
| NIdent (i : ident)
| NField (doc cmt : string) (names : list ident) (typ : node)
| NFieldList (fields : list node)
| NStructType (ptr : nat) (p : Z) (fields : node)
| NInterfaceType (ptr : nat) (p : Z) (methods : node)
| NFuncType (p : Z) (tparams params results : node)
| NMapType (p : Z) (key value : node)
| NArrayType (p : Z) (len : option node) (elt : node)
| NChanType (p : Z) (value : node)
| NStarExpr (p : Z) (x : node)
| NParenExpr (p : Z) (x : node)
| NUnaryExpr (p : Z) (x : node)
| NBinaryExpr (x y : node)
| NIndexExpr (x index : node)
| NIndexListExpr (x : node) (indices : list node)
| NSelectorExpr (x : node) (sel : ident)
| NFuncLit (typ body : node)
| NBlockStmt (p : Z) (stmts : list node)
| NImportSpec (ptr : nat) (name : option ident) (path_pos : Z) (path_lit : string)
| NTypeSpec (doc : string) (name : ident) (tparams typ : node)
| NValueSpec (doc cmt : string) (names : list ident) (typ : option node) (values : list node)
| NGenDecl (p : Z) (tok : gtok) (doc : string) (specs : list node)
| NFuncDecl (doc : string) (p pend : Z) (recv : option node) (name : ident)
            (typ : node) (body : option node)
| NFile (package_pos : Z) (has_doc : bool) (doc : string) (name : ident) (decls : list node)
| NOther (p : Z) (children : list node).

Section node_ind.
  Variable P : node → Prop.
  Let O (o : option node) : Prop := match o with Some n => P n | None => True end.
  Hypothesis HIdent : ∀ i, P (NIdent i).
  Hypothesis HField : ∀ d c ns t, P t → P (NField d c ns t).
  Hypothesis HFieldList : ∀ l, Forall P l → P (NFieldList l).
  Hypothesis HStruct : ∀ r p f, P f → P (NStructType r p f).
  Hypothesis HInterface : ∀ r p m, P m → P (NInterfaceType r p m).
  Hypothesis HFuncType : ∀ p a b c, P a → P b → P c → P (NFuncType p a b c).
  Hypothesis HMap : ∀ p k v, P k → P v → P (NMapType p k v).
  Hypothesis HArray : ∀ p l e, O l → P e → P (NArrayType p l e).
  Hypothesis HChan : ∀ p v, P v → P (NChanType p v).
  Hypothesis HStar : ∀ p x, P x → P (NStarExpr p x).
  Hypothesis HParen : ∀ p x, P x → P (NParenExpr p x).
  Hypothesis HUnary : ∀ p x, P x → P (NUnaryExpr p x).
  Hypothesis HBinary : ∀ x y, P x → P y → P (NBinaryExpr x y).
  Hypothesis HIndex : ∀ x y, P x → P y → P (NIndexExpr x y).
  Hypothesis HIndexList : ∀ x l, P x → Forall P l → P (NIndexListExpr x l).
  Hypothesis HSelector : ∀ x s, P x → P (NSelectorExpr x s).
  Hypothesis HFuncLit : ∀ t b, P t → P b → P (NFuncLit t b).
  Hypothesis HBlock : ∀ p l, Forall P l → P (NBlockStmt p l).
  Hypothesis HImport : ∀ r n p s, P (NImportSpec r n p s).
  Hypothesis HTypeSpec : ∀ d n tp t, P tp → P t → P (NTypeSpec d n tp t).
  Hypothesis HValueSpec : ∀ d c ns t vs, O t → Forall P vs → P (NValueSpec d c ns t vs).
  Hypothesis HGenDecl : ∀ p k d l, Forall P l → P (NGenDecl p k d l).
  Hypothesis HFuncDecl : ∀ d p e r n t b, O r → P t → O b → P (NFuncDecl d p e r n t b).
  Hypothesis HFile : ∀ p h d n l, Forall P l → P (NFile p h d n l).
  Hypothesis HOther : ∀ p l, Forall P l → P (NOther p l).
  Fixpoint node_ind' (n : node) : P n :=
    let all := fix all (l : list node) : Forall P l :=
      match l with [] => Forall_nil_2 _ | n :: l => Forall_cons_2 _ _ _ (node_ind' n) (all l) end in
    let opt := λ o : option node, match o return O o with Some n => node_ind' n | None => I end in
    match n with
    | NIdent i => HIdent i
    | NField d c ns t => HField d c ns t (node_ind' t)
    | NFieldList l => HFieldList l (all l)
    | NStructType r p f => HStruct r p f (node_ind' f)
    | NInterfaceType r p m => HInterface r p m (node_ind' m)
    | NFuncType p a b c => HFuncType p a b c (node_ind' a) (node_ind' b) (node_ind' c)
    | NMapType p k v => HMap p k v (node_ind' k) (node_ind' v)
    | NArrayType p l e => HArray p l e (opt l) (node_ind' e)
    | NChanType p v => HChan p v (node_ind' v)
    | NStarExpr p x => HStar p x (node_ind' x)
    | NParenExpr p x => HParen p x (node_ind' x)
    | NUnaryExpr p x => HUnary p x (node_ind' x)
    | NBinaryExpr x y => HBinary x y (node_ind' x) (node_ind' y)
    | NIndexExpr x y => HIndex x y (node_ind' x) (node_ind' y)
    | NIndexListExpr x l => HIndexList x l (node_ind' x) (all l)
    | NSelectorExpr x s => HSelector x s (node_ind' x)
    | NFuncLit t b => HFuncLit t b (node_ind' t) (node_ind' b)
    | NBlockStmt p l => HBlock p l (all l)
    | NImportSpec r n p s => HImport r n p s
    | NTypeSpec d n tp t => HTypeSpec d n tp t (node_ind' tp) (node_ind' t)
    | NValueSpec d c ns t vs => HValueSpec d c ns t vs (opt t) (all vs)
    | NGenDecl p k d l => HGenDecl p k d l (all l)
    | NFuncDecl d p e r n t b => HFuncDecl d p e r n t b (opt r) (node_ind' t) (opt b)
    | NFile p h d n l => HFile p h d n l (all l)
    | NOther p l => HOther p l (all l)
    end.
End node_ind.

(** Node.Pos() (go/ast/ast.go) *)
Fixpoint node_pos (n : node) : Z :=
  match n with
  | NIdent i => id_pos i
  | NField _ _ (i :: _) _ => id_pos i
  | NField _ _ [] t => node_pos t
  | NFieldList (f :: _) => node_pos f
  | NFieldList [] => 0
  | NStructType _ p _ | NInterfaceType _ p _ | NFuncType p _ _ _ | NMapType p _ _
  | NArrayType p _ _ | NChanType p _ | NStarExpr p _ | NParenExpr p _ | NUnaryExpr p _
  | NBlockStmt p _ | NGenDecl p _ _ _ | NFuncDecl _ p _ _ _ _ _ | NFile p _ _ _ _ | NOther p _ => p
  | NBinaryExpr x _ | NIndexExpr x _ | NIndexListExpr x _ | NSelectorExpr x _ => node_pos x
  | NFuncLit t _ => node_pos t
  | NImportSpec _ (Some i) _ _ => id_pos i
  | NImportSpec _ None p _ => p
  | NTypeSpec _ i _ _ => id_pos i
  | NValueSpec _ _ (i :: _) _ _ => id_pos i
  | NValueSpec _ _ [] _ _ => 0
  end.

(** ast.Walk's children, in order (go/ast/walk.go, Go 1.25), identifiers
    wrapped as nodes; BasicLit and comment children are omitted: no visitor
    reacts to them. *)
Definition opt_node (o : option node) : list node := match o with Some n => [n] | None => [] end.
Definition idents (l : list ident) : list node := map NIdent l.
Definition node_children (n : node) : list node :=
  match n with
  | NIdent _ => []
  | NField _ _ names t => idents names ++ [t]
  | NFieldList l => l
  | NStructType _ _ f => [f]
  | NInterfaceType _ _ m => [m]
  | NFuncType _ tps ps rs => [tps; ps; rs]
  | NMapType _ k v => [k; v]
  | NArrayType _ l e => opt_node l ++ [e]
  | NChanType _ v => [v]
  | NStarExpr _ x | NParenExpr _ x | NUnaryExpr _ x => [x]
  | NBinaryExpr x y | NIndexExpr x y => [x; y]
  | NIndexListExpr x l => x :: l
  | NSelectorExpr x s => [x; NIdent s]
  | NFuncLit t b => [t; b]
  | NBlockStmt _ l => l
  | NImportSpec _ nm _ _ => opt_node (NIdent <$> nm)
  | NTypeSpec _ nm tps t => [NIdent nm; tps; t]
  | NValueSpec _ _ names t vs => idents names ++ opt_node t ++ vs
  | NGenDecl _ _ _ specs => specs
  | NFuncDecl _ _ _ r nm t b => opt_node r ++ [NIdent nm; t] ++ opt_node b
  | NFile _ _ _ nm decls => NIdent nm :: decls
  | NOther _ l => l
  end.

(** every node of a tree, in ast.Inspect (pre-)order *)
Fixpoint subnodes (n : node) : list node :=
  n :: match n with
  | NIdent _ => []
  | NField _ _ names t => idents names ++ subnodes t
  | NFieldList l => List.concat (map subnodes l)
  | NStructType _ _ f => subnodes f
  | NInterfaceType _ _ m => subnodes m
  | NFuncType _ tps ps rs => subnodes tps ++ subnodes ps ++ subnodes rs
  | NMapType _ k v => subnodes k ++ subnodes v
  | NArrayType _ l e => match l with Some x => subnodes x | None => [] end ++ subnodes e
  | NChanType _ v => subnodes v
  | NStarExpr _ x | NParenExpr _ x | NUnaryExpr _ x => subnodes x
  | NBinaryExpr x y | NIndexExpr x y => subnodes x ++ subnodes y
  | NIndexListExpr x l => subnodes x ++ List.concat (map subnodes l)
  | NSelectorExpr x s => subnodes x ++ [NIdent s]
  | NFuncLit t b => subnodes t ++ subnodes b
  | NBlockStmt _ l => List.concat (map subnodes l)
  | NImportSpec _ nm _ _ => match nm with Some i => [NIdent i] | None => [] end
  | NTypeSpec _ nm tps t => NIdent nm :: subnodes tps ++ subnodes t
  | NValueSpec _ _ names t vs =>
      idents names ++ match t with Some x => subnodes x | None => [] end ++ List.concat (map subnodes vs)
  | NGenDecl _ _ _ specs => List.concat (map subnodes specs)
  | NFuncDecl _ _ _ r nm t b =>
      match r with Some x => subnodes x | None => [] end ++
      NIdent nm :: subnodes t ++ match b with Some x => subnodes x | None => [] end
  | NFile _ _ _ nm decls => NIdent nm :: List.concat (map subnodes decls)
  | NOther _ l => List.concat (map subnodes l)
  end.

(** all identifiers of a tree *)
Definition node_idents (n : node) : list ident :=
  omap (λ m, match m with NIdent i => Some i | _ => None end) (subnodes n).
