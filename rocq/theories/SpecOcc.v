(** Specification of a document's occurrences: what each syntax node
    contributes, in source order.  Independent of the visitor. *)
From Coq Require Import Ascii String.
From stdpp Require Import prelude strings gmap.
From Verif Require Import GoStr Scip GoTypes Ast Packages Symbols Lookup Pass2
  SpecSymbol SpecDecl SpecLookup.
Open Scope string_scope.
Open Scope list_scope.

(** every node below [n] with its parent, in source order: parent first, then
    the children from left to right (see [with_parent_eq] in P_Pass2.v) *)
Fixpoint with_parent (par : option node) (n : node) : list (option node * node) :=
  let w := with_parent (Some n) in
  let ids := map (λ i, (Some n, NIdent i)) in
  (par, n) :: match n with
  | NIdent _ => []
  | NField _ _ names t => ids names ++ w t
  | NFieldList l => List.concat (map w l)
  | NStructType _ _ f => w f
  | NInterfaceType _ _ m => w m
  | NFuncType _ tps ps rs => w tps ++ w ps ++ w rs
  | NMapType _ k v => w k ++ w v
  | NArrayType _ l e => match l with Some x => w x | None => [] end ++ w e
  | NChanType _ v => w v
  | NStarExpr _ x | NParenExpr _ x | NUnaryExpr _ x => w x
  | NBinaryExpr x y | NIndexExpr x y => w x ++ w y
  | NIndexListExpr x l => w x ++ List.concat (map w l)
  | NSelectorExpr x s => w x ++ ids [s]
  | NFuncLit t b => w t ++ w b
  | NBlockStmt _ l => List.concat (map w l)
  | NImportSpec _ nm _ _ => match nm with Some i => ids [i] | None => [] end
  | NTypeSpec _ nm tps t => ids [nm] ++ w tps ++ w t
  | NValueSpec _ _ names t vs =>
      ids names ++ match t with Some x => w x | None => [] end ++ List.concat (map w vs)
  | NGenDecl _ _ _ specs => List.concat (map w specs)
  | NFuncDecl _ _ _ r nm t b =>
      match r with Some x => w x | None => [] end ++
      ids [nm] ++ w t ++ match b with Some x => w x | None => [] end
  | NFile _ _ _ nm decls => ids [nm] ++ List.concat (map w decls)
  | NOther _ l => List.concat (map w l)
  end.

(** the nodes below the package clause *)
Definition file_decls (f : node) : list node :=
  match f with NFile _ _ _ _ decls => decls | _ => [] end.
Definition file_nodes (f : node) : list (option node * node) :=
  List.concat (map (with_parent (Some f)) (file_decls f)).

(** zero-based [start, end) range of the text between two positions *)
Definition span (s e : position) : list Z :=
  if Z.eqb (pos_line s) (pos_line e)
  then [pos_line s - 1; pos_col s - 1; pos_col e - 1]%Z
  else [pos_line s - 1; pos_col s - 1; pos_line e - 1; pos_col e - 1]%Z.
(** [n] bytes from [k] bytes after position [s] *)
Definition text_span (s : position) (k n : nat) : list Z :=
  [pos_line s - 1; pos_col s - 1 + Z.of_nat k; pos_col s - 1 + Z.of_nat k + Z.of_nat n]%Z.

Definition Definition_ (sym : string) (r encl : list Z) (deprecated : bool) : occurrence :=
  Occ r sym 1 encl (if deprecated then [DeprecatedDiag] else []).
Definition Reference (sym : string) (r : list Z) (deprecated : bool) : occurrence :=
  Occ r sym 8 [] (if deprecated then [DeprecatedDiag] else []).

(** some documentation line starts with "Deprecated:" *)
Definition docs_deprecated (docs : list string) : bool :=
  existsb (λ d, existsb (λ line, has_prefix line "Deprecated:") (split_on newline d)) docs.

(** position of the first pair with key [p] *)
Fixpoint index_of {A} (p : Z) (l : list (Z * A)) : option nat :=
  match l with
  | [] => None
  | (q, _) :: l' => if Z.eqb q p then Some 0 else S <$> index_of p l'
  end.

Section Occurrences.
  Context (g : global) (fs : fset) (pkg : gpkg) (ti : tinfo) (tbl : ptable).
  Context (imports : string → option gpkg) (lookup : obj → lookup_result).

  (** the package an identifier names, if any *)
  Definition names_package (i : ident) : option (obj * string) :=
    match ti_uses ti (id_ptr i) with
    | Some o => match o_kind o with OPkgName path => Some (o, path) | _ => None end
    | None => None
    end.

  (** Identifiers that produce nothing: the name of an import spec (handled with
      the spec), and both parts of p.X when package p has no symbol. *)
  Definition hidden (par : option node) : bool :=
    match par with
    | Some (NImportSpec _ _ _ _) => true
    | Some (NSelectorExpr (NIdent x) _) =>
        match names_package x with
        | Some (_, path) => match g_pkgsyms g !! path with Some _ => false | None => true end
        | None => false
        end
    | _ => false
    end.

  (** the identifier declared by a type switch guard [x := y.(type)] *)
  Definition switch_object (i : ident) : option obj :=
    List.find (λ o, Z.eqb (o_pos o) (id_pos i)) (ti_case_objs ti).

  (** the entry registered for a position by the first pass *)
  Definition registered (pos : Z) : option syminfo :=
    match tbl !! pos with
    | Some i => Some i
    | None => match g_symbols g !! p_path pkg with Some (_, t) => t !! pos | None => None end
    end.

  (** an identifier that is treated by its definition and use *)
  Definition plain_ident (e : option node * node) : option ident :=
    match e with
    | (par, NIdent i) =>
        if hidden par then None
        else match names_package i with
             | Some _ => None
             | None => if String.eqb (id_name i) "_" then None else Some i
             end
    | _ => None
    end.

  (** the local variable, constant, type, label, ... a node defines *)
  Definition local_def (e : option node * node) : option (Z * obj) :=
    match plain_ident e with
    | None => None
    | Some i =>
        match switch_object i with
        | Some o => Some (o_pos o, o)
        | None =>
            match ti_defs ti (id_ptr i) with
            | Some d => match registered (o_pos d) with
                        | Some _ => None
                        | None => Some (o_pos d, d)
                        end
            | None => None
            end
        end
    end.
  (** the locals of a file, in order of definition *)
  Definition local_defs (f : node) : list (Z * obj) := omap local_def (file_nodes f).

  (** local symbols are numbered in order of definition *)
  Definition local_name (n : nat) : string := "local " +:+ show_nat n.
  (** the symbol of the local defined at [p], among the locals [before] *)
  Definition local_symbol (before : list (Z * obj)) (p : Z) : option string :=
    local_name <$> index_of p before.

  Definition ident_span (i : ident) : list Z :=
    span (fs_position fs (id_pos i)) (fs_position fs (id_pos i + Z.of_nat (slen (id_name i)))%Z).

  (** the whole function for the name of a function declaration *)
  Definition enclosing (par : option node) (i : ident) : list Z :=
    match par with
    | Some (NFuncDecl _ p e _ nm _ _) =>
        if Nat.eqb (id_ptr nm) (id_ptr i) then span (fs_position fs p) (fs_position fs e) else []
    | _ => []
    end.

  (** an import spec: the alias (unless . or _) and the path *)
  Definition import_refs (ptr : nat) (name : option ident) (path_pos : Z) : list occurrence :=
    match ti_pkgname_of ti ptr with
    | Some o =>
        match o_kind o with
        | OPkgName path =>
            match imports path with
            | Some imp =>
                match g_pkgsyms g !! p_path imp with
                | Some sym =>
                    match name with
                    | Some i => if (String.eqb (id_name i) "." || String.eqb (id_name i) "_")%bool then []
                                else [Reference sym (text_span (fs_position fs (id_pos i)) 0 (slen (id_name i))) false]
                    | None => []
                    end ++ [Reference sym (text_span (fs_position fs path_pos) 1 (slen (p_path imp))) false]
                | None => []
                end
            | None => []
            end
        | _ => []
        end
    | None => []
    end.

  (** what the definition part of identifier [i] emits; [n] is the number of
      locals defined before *)
  Definition def_occs (n : nat) (par : option node) (i : ident) : list occurrence :=
    match ti_defs ti (id_ptr i) with
    | None => []
    | Some d =>
        match registered (o_pos d) with
        | Some info => [Definition_ (i_symbol info) (ident_span i) (enclosing par i)
                                    (docs_deprecated (i_documentation info))]
        | None => [Definition_ (local_name n) (ident_span i) (enclosing par i) false]
        end
    end.
  (** what the use part emits; [known] are the locals defined so far *)
  Definition use_occs (known : list (Z * obj)) (i : ident) : list occurrence :=
    match ti_uses ti (id_ptr i) with
    | None => []
    | Some o =>
        match local_symbol known (o_pos o) with
        | Some s => [Reference s (ident_span i) false]
        | None =>
            match lookup o with
            | Found info => [Reference (i_symbol info) (ident_span i)
                                       (docs_deprecated (i_documentation info))]
            | Skip | LookupError => []
            end
        end
    end.

  (** what one node emits, [before] being the locals defined at earlier nodes *)
  Definition node_occs (before : list (Z * obj)) (e : option node * node) : list occurrence :=
    match e with
    | (_, NImportSpec ptr nm p _) => import_refs ptr nm p
    | (par, NIdent i) =>
        if hidden par then []
        else match names_package i with
        | Some (_, path) =>
            match g_pkgsyms g !! path with
            | Some sym => [Reference sym (ident_span i) false]
            | None => []
            end
        | None =>
            if String.eqb (id_name i) "_" then []
            else match switch_object i with
                 | Some o => [Definition_ (local_name (length before)) (ident_span i) [] false]
                 | None =>
                     def_occs (length before) par i ++
                     use_occs (before ++ option_list (local_def e)) i
                 end
        end
    | _ => []
    end.

  Fixpoint nodes_occs (before : list (Z * obj)) (l : list (option node * node)) : list occurrence :=
    match l with
    | [] => []
    | e :: l' => node_occs before e ++ nodes_occs (before ++ option_list (local_def e)) l'
    end.

  (** *** Well-formedness of a parsed and type-checked file *)
  Record wf_file (f : node) : Prop := WfFile {
    (** a file, whose declarations contain no file and no nested function declaration *)
    wff_file : ∃ p h d nm decls, f = NFile p h d nm decls;
    wff_nested : ∀ decl m c, decl ∈ file_decls f → m ∈ subnodes decl → c ∈ node_children m →
      match c with NFuncDecl _ _ _ _ _ _ _ | NFile _ _ _ _ _ => False | _ => True end;
    wff_top : ∀ decl, decl ∈ file_decls f → match decl with NFile _ _ _ _ _ => False | _ => True end;
    (** identifiers have distinct pointers *)
    wff_ptrs : NoDup (map id_ptr (node_idents f));
    (** package names occur only as qualifiers *)
    wff_qual : ∀ par i o path, (par, NIdent i) ∈ file_nodes f → ti_uses ti (id_ptr i) = Some o →
      o_kind o = OPkgName path →
      (∃ r p l, par = Some (NImportSpec r (Some i) p l)) ∨
      (∃ s, par = Some (NSelectorExpr (NIdent i) s) ∧ id_ptr s ≠ id_ptr i);
    (** names of imported packages do not start with a double quote *)
    wff_quote : ∀ ptr o path, ti_uses ti ptr = Some o ∨ ti_defs ti ptr = Some o →
      o_kind o = OPkgName path → has_prefix (o_name o) (String dquote "") = false;
    (** positions fit in 32 bits *)
    wff_fit_ident : ∀ i, NIdent i ∈ subnodes f →
      pos_fits (fs_position fs (id_pos i)) ∧
      pos_fits (fs_position fs (id_pos i + Z.of_nat (slen (id_name i)))%Z) ∧
      (pos_col (fs_position fs (id_pos i)) + Z.of_nat (slen (id_name i)) < 2^31)%Z;
    wff_fit_func : ∀ d p e r nm t b, NFuncDecl d p e r nm t b ∈ file_decls f →
      pos_fits (fs_position fs p) ∧ pos_fits (fs_position fs e);
    wff_fit_import : ∀ ptr nm p l path imp, NImportSpec ptr nm p l ∈ subnodes f →
      imports path = Some imp →
      pos_fits (fs_position fs p) ∧ (pos_col (fs_position fs p) + Z.of_nat (slen (p_path imp)) < 2^31)%Z
  }.

  (** a file with the go/types facts about it; [objs] maps pointers to objects *)
  Record typed_file (objs : nat → option obj) (f : node) : Prop := TypedFile {
    tf_wf : wf_file f;
    tf_uses : ∀ ptr o, ti_uses ti ptr = Some o → (∀ path, o_kind o ≠ OPkgName path) → go_object objs o;
    tf_case : ∀ o path, o ∈ ti_case_objs ti → o_kind o ≠ OPkgName path }.

  (** the first pass table is the one stored for the package *)
  Definition own_table : Prop := ∃ p, g_symbols g !! p_path pkg = Some (p, tbl).
End Occurrences.

(** [lookup] answers correctly for every object used in the file *)
Definition answers (env : tenv) (path version : string) (g : global) (ti : tinfo)
    (lookup : obj → lookup_result) : Prop :=
  ∀ ptr o, ti_uses ti ptr = Some o → (∀ p, o_kind o ≠ OPkgName p) →
    resolves env path version g o (lookup o).

(** a run of the file visitor that ends in [st], after any history of earlier
    lookups and compositions *)
Definition visited (env : tenv) (objs : nat → option obj) (path version : string)
    (g : global) (fs : fset) (pkg : gpkg) (ti : tinfo) (tbl : ptable)
    (imports : string → option gpkg) (pkg_occ : occurrence) (f : node) (st : fstate) : Prop :=
  ∃ h k, Forall (go_call objs g) h ∧ after_calls env g path version h = Ok k ∧
    visit_file env g fs pkg ti tbl imports pkg_occ k f = Ok st.

Definition is_local (s : string) : Prop := has_prefix s "local " = true.
Global Instance is_local_dec s : Decision (is_local s).
Proof. unfold is_local. apply _. Defined.
Definition is_def (o : occurrence) : Prop := oc_roles o = 1.
Global Instance is_def_dec o : Decision (is_def o).
Proof. unfold is_def. apply _. Defined.

(** every symbol recorded by the first pass and every package symbol starts with
    the scheme (see [C05_declared_layout]) *)
Definition is_global (s : string) : Prop := has_prefix s "scip-go " = true.
Definition global_symbols (g : global) (tbl : ptable) : Prop :=
  (∀ pos i, tbl !! pos = Some i → is_global (i_symbol i)) ∧
  (∀ id p t pos i, g_symbols g !! id = Some (p, t) → t !! pos = Some i → is_global (i_symbol i)) ∧
  (∀ id s, g_pkgsyms g !! id = Some s → is_global s).

(** definitions have their identifier's position; identifiers of a file do not
    share positions *)
Definition defs_at_idents (ti : tinfo) (f : node) : Prop :=
  (∀ i d, NIdent i ∈ subnodes f → ti_defs ti (id_ptr i) = Some d → o_pos d = id_pos i) ∧
  NoDup (map id_pos (node_idents f)).

(** a non-inverted range *)
Definition range_ok (r : list Z) : Prop :=
  ∃ l c l' c', decode_range r = Some ((l, c), (l', c')) ∧ (0 <= l)%Z ∧ (0 <= c)%Z ∧
    (l < l' ∨ (l = l' ∧ c <= c'))%Z ∧ (length r = 3 ↔ l = l').
