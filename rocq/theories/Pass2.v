(** internal/visitors/visitor_file.go: the second pass, which turns a file into
    a SCIP document. *)
From Coq Require Import Ascii String.
From stdpp Require Import prelude strings gmap.
From Verif Require Import GoStr Scip GoTypes Ast Packages Symbols Document Lookup Pass1.
Open Scope string_scope.
Open Scope list_scope.

(** scip.Occurrence *)
Record occurrence := Occ {
  oc_range : list Z; oc_symbol : string; oc_roles : nat;
  oc_enclosing : list Z; oc_diags : list diag }.

(** visitor_file.go 25-30: caseClauses.  Several clauses of one type switch have
    objects at the same position; which one is kept depends on map iteration
    order, i.e. on the order of [ti_case_objs]. *)
Definition case_at (ti : tinfo) (p : Z) : option obj :=
  List.find (λ o, Z.eqb (o_pos o) p) (ti_case_objs ti).

(** The actions of Visit, in traversal order: an import spec, the package part
    of a qualified identifier, entering a function declaration, an identifier. *)
Inductive visit :=
| VImport (ptr : nat) (name : option ident) (path_pos : Z)
| VQual (x : ident) (pkgname : obj) (sym : string)
| VFunc (name : ident) (p pend : Z)
| VIdent (i : ident).

(** visitor_file.go 133-163: is [x] a package qualifier? *)
Definition qualifier (ti : tinfo) (x : node) : option (ident * obj * string) :=
  match x with
  | NIdent i =>
      match ti_uses ti (id_ptr i) with
      | Some o => match o_kind o with OPkgName path => Some (i, o, path) | _ => None end
      | None => None
      end
  | _ => None
  end.

(** visitor_file.go 98-271: the traversal.  Whether Visit descends into a node
    depends only on the node, types.Info and the package symbols (fixed during
    the pass), not on the visitor's mutable state, so the actions form a list
    computed from the syntax tree. *)
Fixpoint visits (g : global) (ti : tinfo) (n : node) : list visit :=
  let vs := visits g ti in
  match n with
  | NImportSpec ptr nm p _ => [VImport ptr nm p]
  | NSelectorExpr x sel =>
      match qualifier ti x with
      | Some (i, o, path) =>
          match get_pkg_symbol_by_id g path with
          | Some sym => [VQual i o sym; VIdent sel]
          | None => []
          end
      | None => vs x ++ [VIdent sel]
      end
  | NFuncDecl _ p e r nm t b =>
      VFunc nm p e ::
      match r with Some x => vs x | None => [] end ++
      VIdent nm :: vs t ++ match b with Some x => vs x | None => [] end
  | NFile _ _ _ _ decls => List.concat (map vs decls)
  | NIdent i => [VIdent i]
  | NField _ _ names t => map VIdent names ++ vs t
  | NFieldList l => List.concat (map vs l)
  | NStructType _ _ f => vs f
  | NInterfaceType _ _ m => vs m
  | NFuncType _ a b c => vs a ++ vs b ++ vs c
  | NMapType _ k v => vs k ++ vs v
  | NArrayType _ l e => match l with Some x => vs x | None => [] end ++ vs e
  | NChanType _ v => vs v
  | NStarExpr _ x | NParenExpr _ x | NUnaryExpr _ x => vs x
  | NBinaryExpr x y | NIndexExpr x y => vs x ++ vs y
  | NIndexListExpr x l => vs x ++ List.concat (map vs l)
  | NFuncLit t b => vs t ++ vs b
  | NBlockStmt _ l => List.concat (map vs l)
  | NTypeSpec _ nm tps t => VIdent nm :: vs tps ++ vs t
  | NValueSpec _ _ names t values =>
      map VIdent names ++ match t with Some x => vs x | None => [] end ++ List.concat (map vs values)
  | NGenDecl _ _ _ specs => List.concat (map vs specs)
  | NOther _ l => List.concat (map vs l)
  end.

(** visitor_file.go 49-78: the mutable part of fileVisitor *)
Record fstate := FState {
  f_locals : gmap Z local;
  f_occs : list occurrence;
  f_func : option (ident * Z * Z);   (** currentFuncDecl: name, Pos, End *)
  f_caches : caches }.

(** visitor_file.go 293-322: newDefinition, newReference *)
Definition diags (deprecated : bool) : list diag := if deprecated then [DeprecatedDiag] else [].
Definition new_definition (sym : string) (rng encl : list Z) (deprecated : bool) : occurrence :=
  Occ rng sym role_definition encl (diags deprecated).
Definition new_reference (sym : string) (rng : list Z) (deprecated : bool) : occurrence :=
  Occ rng sym role_read_access [] (diags deprecated).
Definition emit (st : fstate) (o : occurrence) : fstate :=
  FState (f_locals st) (f_occs st ++ [o]) (f_func st) (f_caches st).

(** visitor_file.go 83-96: createNewLocalSymbol *)
Definition create_local (st : fstate) (pos : Z) (o : obj) : res (string * fstate) :=
  match f_locals st !! pos with
  | Some _ => Panic "Cannot create a new local symbol for an ident that has already been created"
  | None =>
      let sym := "local " +:+ show_nat (size (f_locals st)) in
      Ok (sym, FState (<[pos := Local sym o]> (f_locals st)) (f_occs st) (f_func st) (f_caches st))
  end.

Section FileVisitor.
  Context (env : tenv) (g : global) (fs : fset) (pkg : gpkg) (ti : tinfo) (tbl : ptable).
  (** the Imports map of the package: path to package path of the imported package *)
  Context (imports : string → option gpkg).

  Definition ident_end (i : ident) : Z := (id_pos i + Z.of_nat (slen (id_name i)))%Z.
  Definition ident_range (i : ident) (o : option obj) : list Z :=
    scip_range (fs_position fs (id_pos i)) (fs_position fs (ident_end i)) o.

  (** visitor_file.go 363-370: enclosingRange; identifiers compared by pointer *)
  Definition enclosing_range (st : fstate) (i : ident) : list Z :=
    match f_func st with
    | Some (nm, p, e) =>
        if Nat.eqb (id_ptr nm) (id_ptr i)
        then scip_range (fs_position fs p) (fs_position fs e) (ti_defs ti (id_ptr i))
        else []
    | None => []
    end.

  (** visitor_file.go 380-390: isDeprecated *)
  Definition is_deprecated (pos : Z) : bool :=
    match pget tbl pos with
    | Some info => is_doc_deprecated (i_documentation info)
    | None =>
        match get_info_by_path g (p_path pkg) pos with
        | Some info => is_doc_deprecated (i_documentation info)
        | None => false
        end
    end.

  (** visitor_file.go 104-131 and 273-291: import specs *)
  Definition import_occurrences (ptr : nat) (name : option ident) (path_pos : Z) : list occurrence :=
    match ti_pkgname_of ti ptr with
    | Some (Obj _ _ _ _ (OPkgName path) _ _) =>
        match imports path with
        | None => []
        | Some imported =>
            match get_pkg_symbol g imported with
            | None => []
            | Some sym =>
                (match name with
                 | Some i =>
                     if (String.eqb (id_name i) "." || String.eqb (id_name i) "_")%bool then []
                     else [new_reference sym (range_from_name (fs_position fs (id_pos i)) (id_name i) false) false]
                 | None => []
                 end) ++
                [new_reference sym (range_from_name (fs_position fs path_pos) (p_path imported) true) false]
            end
        end
    | _ => []
    end.

  (** visitor_file.go 206-223: the definition part *)
  Definition visit_def (st : fstate) (i : ident) : res fstate :=
    match ti_defs ti (id_ptr i) with
    | None => Ok st
    | Some def =>
        let! r := match pget_symbol tbl (o_pos def) with
                  | Some s => Ok (s, st)
                  | None =>
                      match get_symbol g pkg (o_pos def) with
                      | Some s => Ok (s, st)
                      | None => create_local st (o_pos def) def
                      end
                  end in
        let '(sym, st') := r in
        Ok (emit st' (new_definition sym (ident_range i (Some def)) (enclosing_range st' i)
                                     (is_deprecated (o_pos def))))
    end.

  (** visitor_file.go 225-258: the reference part *)
  Definition visit_ref (st : fstate) (i : ident) : res fstate :=
    match ti_uses ti (id_ptr i) with
    | None => Ok st
    | Some ref =>
        match f_locals st !! o_pos ref with
        | Some l => Ok (emit st (new_reference (l_symbol l) (ident_range i (Some ref)) false))
        | None =>
            let! r := get_symbol_of_object env g (f_caches st) ref in
            let '(lr, k') := r in
            let st' := FState (f_locals st) (f_occs st) (f_func st) k' in
            match lr with
            | Found info =>
                Ok (emit st' (new_reference (i_symbol info) (ident_range i (Some ref))
                                            (is_doc_deprecated (i_documentation info))))
            | Skip | LookupError => Ok st'
            end
        end
    end.

  (** visitor_file.go 98-271: Visit *)
  Definition step (st : fstate) (v : visit) : res fstate :=
    match v with
    | VImport ptr nm p =>
        Ok (FState (f_locals st) (f_occs st ++ import_occurrences ptr nm p) (f_func st) (f_caches st))
    | VQual x o sym => Ok (emit st (new_reference sym (ident_range x (Some o)) false))
    | VFunc nm p e => Ok (FState (f_locals st) (f_occs st) (Some (nm, p, e)) (f_caches st))
    | VIdent i =>
        if String.eqb (id_name i) "_" then Ok st
        else match case_at ti (id_pos i) with
             | Some o =>
                 let! r := create_local st (o_pos o) o in
                 let '(sym, st') := r in
                 Ok (emit st' (new_definition sym (ident_range i (Some o)) [] false))
             | None =>
                 let! st' := visit_def st i in visit_ref st' i
             end
    end.

  (** NewFileVisitor (18-47) and ast.Walk over the file; the package occurrence
      comes first *)
  Definition visit_file (pkg_occ : occurrence) (k : caches) (f : node) : res fstate :=
    res_fold step (FState ∅ [pkg_occ] None k) (visits g ti f).

  (** visitor_file.go 331-351: the symbol information of a local *)
  Definition local_info (objstr : obj → string) (l : local) : syminfo :=
    let o := l_obj l in
    let sig := match case_at ti (o_pos o) with
               | Some _ => None
               | None => let txt := signature_text objstr l in
                         if String.eqb txt "" then None else Some txt
               end in
    Info (l_symbol l) [] [] (kind_for_object env (Some o)) (o_name o) sig "".

  (** scip.Document *)
  Record document := Doc { d_path : string; d_occs : list occurrence; d_symbols : list syminfo }.

  (** visitor_file.go 324-361: ToScipDocument; [torder] and [lorder] are the
      iteration orders of the package table and of the locals map *)
  Definition to_document (objstr : obj → string) (relative file : string)
      (torder : list (Z * syminfo)) (lorder : list (Z * local)) (st : fstate) : document :=
    Doc relative (f_occs st)
        (map snd (symbols_for_file fs file torder) ++ map (λ l, local_info objstr l.2) lorder).
End FileVisitor.
