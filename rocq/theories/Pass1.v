(** internal/visitors, first pass: visitors.go, scope.go, visitor_type.go,
    visitor_var.go, visitor_func.go, anon_type_key.go.

    The three visitors only append SetNewSymbol calls to the package table, so
    each is modelled by the list of these calls ([event]) in order; the calls
    are then executed by [apply_event]. *)
From Coq Require Import Ascii String.
From stdpp Require Import prelude strings gmap.
From Verif Require Import GoStr Scip GoTypes Ast Packages Symbols Document Lookup.
Open Scope string_scope.
Open Scope list_scope.

(** one call of doc.SetNewSymbolForPos(symbol-of-descs, parent, ident, pos) *)
Record event := Ev {
  e_descs : list descriptor; e_parent : option node; e_ident : ident; e_pos : Z }.

(** scope.go 15-24: NewScope *)
Definition new_scope (path : string) : list descriptor := [Desc path Namespace].
(** scope.go 30-32: pop *)
Definition scope_pop (s : list descriptor) : list descriptor := removelast s.

(** visitors.go 98-112: scipRange *)
Definition scip_range (s e : position) (o : option obj) : list Z :=
  let adj := match o with
             | Some ob => match o_kind ob with
                          | OPkgName _ => if has_prefix (o_name ob) (String dquote "") then 1%Z else 0%Z
                          | _ => 0%Z
                          end
             | None => 0%Z
             end in
  let sl := int32 (pos_line s - 1) in
  let sc := int32 (pos_col s - 1) in
  let el := int32 (pos_line e - 1) in
  let ec := int32 (pos_col e - 1) in
  if Z.eqb sl el then [sl; add32 sc adj; sub32 ec adj]
  else [sl; add32 sc adj; el; sub32 ec adj].

(** visitors.go 114-156: getIdentOfTypeExpr *)
Fixpoint ident_of_type_expr (t : node) : list ident :=
  match t with
  | NIdent i => [i]
  | NSelectorExpr _ sel => [sel]
  | NStarExpr _ x | NIndexExpr x _ | NUnaryExpr _ x | NIndexListExpr x _ => ident_of_type_expr x
  | _ => []
  end.

Section Visitors.
  (** hex of the first 8 bytes of sha256 *)
  Context (digest : string → string).
  Context (ti : tinfo) (fs : fset).

  (** anon_type_key.go 18-31 *)
  Definition anon_type_key (ptr : nat) : string :=
    match ti_canon ti ptr with
    | None => ""
    | Some canon => "$anon_" +:+ digest canon
    end.

  Inductive wmode := WALK | ANON.

  (** visitor_type.go 37-128: ast.Walk with typeVisitor (WALK) and
      walkAnonymousTypeFields (ANON, 133-149).  [iface] is v.isInterface, [cur]
      v.curDecl, [sc] the scope.  Simplification: v.isInterface set by an earlier
      spec of the same GenDecl is not carried over to a later non-type spec,
      which emits nothing anyway. *)
  Fixpoint tv (m : wmode) (iface : bool) (cur : option node) (sc : list descriptor) (n : node)
    : list event :=
    match m with
    | WALK =>
        match n with
        | NGenDecl _ _ _ specs =>
            List.concat (map (λ s,
              tv WALK (match s with
                       | NTypeSpec _ _ _ (NInterfaceType _ _ _) => true
                       | NTypeSpec _ _ _ _ => false
                       | _ => iface end) (Some n) sc s) specs)
        | NFile _ _ _ _ decls => List.concat (map (tv WALK iface cur sc) decls)
        | NStructType _ _ f => tv WALK iface cur sc f
        | NInterfaceType _ _ f => tv WALK iface cur sc f
        | NFieldList l => List.concat (map (tv WALK iface cur sc) l)
        | NTypeSpec _ nm _ t =>
            let sc' := sc ++ [Desc (id_name nm) Type_] in
            Ev sc' cur nm (id_pos nm) :: tv WALK iface cur sc' t
        | NField _ _ [] t =>
            if iface then tv WALK iface cur sc t
            else map (λ i, Ev (sc ++ [Desc (id_name i) Term]) (Some n) i (id_pos i))
                     (ident_of_type_expr t)
        | NField _ _ names t =>
            List.concat (map (λ i,
              Ev (sc ++ [Desc (id_name i) Term]) (Some n) i (id_pos i)
              :: tv ANON iface cur sc t) names)
        | _ => []
        end
    | ANON =>
        match n with
        | NMapType _ k v => tv ANON iface cur sc k ++ tv ANON iface cur sc v
        | NArrayType _ _ e => tv ANON iface cur sc e
        | NStarExpr _ x => tv ANON iface cur sc x
        | NStructType ptr _ f | NInterfaceType ptr _ f =>
            let key := anon_type_key ptr in
            if String.eqb key "" then []
            else tv WALK iface cur (sc ++ [Desc key Type_]) f
        | _ => []
        end
    end.

  (** visitor_var.go 23-29: the mutable part of varVisitor *)
  Record vstate := VState { v_cur : option node; v_scope : list descriptor }.
  Definition v_push (st : vstate) (d : descriptor) : vstate :=
    VState (v_cur st) (v_scope st ++ [d]).
  Definition v_pop (st : vstate) : vstate := VState (v_cur st) (scope_pop (v_scope st)).

  (** visitor_var.go 57-63: the scope name of a value spec *)
  Definition spec_scope_name (names : list ident) : string :=
    match names with
    | [i] => id_name i
    | i :: _ => let p := fs_position fs (id_pos i) in
                "inline-" +:+ show_Z (pos_line p) +:+ "-" +:+ show_Z (pos_col p)
    | [] => ""
    end.

  (** visitor_var.go 66-95: how the declared type is treated *)
  Inductive vtype_action := VSkip | VWalk | VAbort.
  Definition vtype_action_of (t : node) : vtype_action :=
    match t with
    | NFuncType _ _ _ _ | NIdent _ | NChanType _ _ | NArrayType _ _ _ | NMapType _ _ _
    | NStarExpr _ _ | NSelectorExpr _ _ | NIndexExpr _ _ | NIndexListExpr _ _ => VSkip
    | NInterfaceType _ _ _ | NStructType _ _ _ => VWalk
    | _ => VAbort
    end.

  Definition seq (r : vstate * list event) (k : vstate → vstate * list event) : vstate * list event :=
    let '(st, e1) := r in let '(st', e2) := k st in (st', e1 ++ e2).

  (** visitor_var.go 33-134 (WALK) and 136-152 (ANON) *)
  Fixpoint vv (m : wmode) (n : node) (st : vstate) {struct n} : vstate * list event :=
    let vvs := fix vvs (l : list node) (st : vstate) : vstate * list event :=
      match l with
      | [] => (st, [])
      | x :: l' => seq (vv WALK x st) (vvs l')
      end in
    match m with
    | WALK =>
        match n with
        | NIdent _ => (st, [])
        | NGenDecl _ tok _ specs =>
            match tok with
            | VAR | CONST => vvs specs (VState (Some n) (v_scope st))
            | _ => (st, [])
            end
        | NValueSpec _ _ names typ vs =>
            let ev1 := map (λ i, Ev (v_scope st ++ [Desc (id_name i) Term]) (v_cur st) i (id_pos i)) names in
            match names with
            | [] => (st, [])
            | _ =>
                let st1 := v_push st (Desc (spec_scope_name names) Meta) in
                let finish := λ st2, let '(st3, e3) := vvs vs st2 in (v_pop st3, e3) in
                let '(st', e) :=
                  match typ with
                  | None => finish st1
                  | Some t =>
                      match vtype_action_of t with
                      | VSkip => finish st1
                      | VWalk => seq (vv WALK t st1) finish
                      | VAbort => (st1, [])
                      end
                  end in
                (st', ev1 ++ e)
            end
        | NField _ _ [] t =>
            (st, map (λ i, Ev (v_scope st ++ [Desc (id_name i) Term]) (Some n) i (node_pos t))
                     (ident_of_type_expr t))
        | NField _ _ names t =>
            (fix go (l : list ident) (st : vstate) : vstate * list event :=
               match l with
               | [] => (st, [])
               | i :: l' =>
                   seq (let '(st', e) := vv ANON t st in
                        (st', Ev (v_scope st ++ [Desc (id_name i) Term]) (Some n) i (id_pos i) :: e))
                       (go l')
               end) names st
        | NFieldList l => vvs l st
        | NStructType _ _ f => vv WALK f st
        | NInterfaceType _ _ f => vv WALK f st
        | NFuncType _ a b c => seq (vv WALK a st) (λ st, seq (vv WALK b st) (vv WALK c))
        | NMapType _ k v => seq (vv WALK k st) (vv WALK v)
        | NArrayType _ l e =>
            seq (match l with Some x => vv WALK x st | None => (st, []) end) (vv WALK e)
        | NChanType _ v => vv WALK v st
        | NStarExpr _ x | NParenExpr _ x | NUnaryExpr _ x => vv WALK x st
        | NBinaryExpr x y | NIndexExpr x y => seq (vv WALK x st) (vv WALK y)
        | NIndexListExpr x l => seq (vv WALK x st) (vvs l)
        | NSelectorExpr x _ => vv WALK x st
        | NFuncLit t b => seq (vv WALK t st) (vv WALK b)
        | NBlockStmt _ l => vvs l st
        | NImportSpec _ _ _ _ => (st, [])
        | NTypeSpec _ _ tps t => seq (vv WALK tps st) (vv WALK t)
        | NFuncDecl _ _ _ r _ t b =>
            seq (match r with Some x => vv WALK x st | None => (st, []) end)
                (λ st, seq (vv WALK t st)
                   (λ st, match b with Some x => vv WALK x st | None => (st, []) end))
        | NFile _ _ _ _ decls => vvs decls st
        | NOther _ l => vvs l st
        end
    | ANON =>
        match n with
        | NMapType _ k v => seq (vv ANON k st) (vv ANON v)
        | NArrayType _ _ e => vv ANON e st
        | NStarExpr _ x => vv ANON x st
        | NStructType ptr _ f | NInterfaceType ptr _ f =>
            let key := anon_type_key ptr in
            if String.eqb key "" then (st, [])
            else let '(st', e) := vv WALK f (v_push st (Desc key Type_)) in (v_pop st', e)
        | _ => (st, [])
        end
    end.

  (** visitor_func.go 100-117: baseTypeName *)
  Fixpoint base_type_name (x : node) : option string :=
    match x with
    | NIdent i => Some (id_name i)
    | NStarExpr _ x | NIndexExpr x _ | NIndexListExpr x _ | NParenExpr _ x => base_type_name x
    | _ => None
    end.
  (** visitor_func.go 91-98: receiverTypeName; a receiver list without fields is
      recv.List == nil *)
  Definition receiver_type_name (recv : option node) : option string :=
    match recv with
    | Some (NFieldList (NField _ _ _ t :: _)) => base_type_name t
    | _ => None
    end.

  (** visitor_func.go 63-73: the methods of an interface type literal *)
  Definition iface_method_events (sc : list descriptor) (methods : node) : list event :=
    match methods with
    | NFieldList l =>
        List.concat (map (λ f,
          match f with
          | NField _ _ names _ =>
              map (λ i, Ev (sc ++ [Desc (id_name i) Method]) (Some f) i (id_pos i)) names
          | _ => []
          end) l)
    | _ => []
    end.

  (** visitor_func.go 19-79: ast.Walk with funcVisitor.  A FuncDecl inside
      another one does not exist, so the scope left by the missing pops of a
      FuncDecl (24-39) is never used again. *)
  Fixpoint fv (sc : list descriptor) (n : node) : list event :=
    let fvs := fix fvs (l : list node) := match l with [] => [] | x :: l' => fv sc x ++ fvs l' end in
    match n with
    | NFuncDecl _ _ _ recv nm t _ =>
        let sc1 := match receiver_type_name recv with
                   | Some r => sc ++ [Desc r Type_]
                   | None => sc end in
        Ev (sc1 ++ [Desc (id_name nm) Method]) (Some n) nm (id_pos nm)
        :: fv (sc1 ++ [Desc "func" Meta; Desc (id_name nm) Meta]) t
    | NFuncType _ _ _ rs => fv sc rs
    | NBlockStmt _ _ => []
    | NInterfaceType _ _ methods => iface_method_events sc methods
    | NIdent _ | NImportSpec _ _ _ _ => []
    | NField _ _ _ t => fv sc t
    | NFieldList l => fvs l
    | NStructType _ _ f => fv sc f
    | NMapType _ k v => fv sc k ++ fv sc v
    | NArrayType _ l e => match l with Some x => fv sc x | None => [] end ++ fv sc e
    | NChanType _ v => fv sc v
    | NStarExpr _ x | NParenExpr _ x | NUnaryExpr _ x => fv sc x
    | NBinaryExpr x y | NIndexExpr x y => fv sc x ++ fv sc y
    | NIndexListExpr x l => fv sc x ++ fvs l
    | NSelectorExpr x _ => fv sc x
    | NFuncLit t b => fv sc t ++ fv sc b
    | NTypeSpec _ _ tps t => fv sc tps ++ fv sc t
    | NValueSpec _ _ _ t vs => match t with Some x => fv sc x | None => [] end ++ fvs vs
    | NGenDecl _ _ _ specs => fvs specs
    | NFile _ _ _ _ decls => fvs decls
    | NOther _ l => fvs l
    end.

  (** visitors.go 48-74: the declarations of a file *)
  Definition decl_events (path : string) (d : node) : list event :=
    match d with
    | NGenDecl _ (VAR | CONST) _ _ => (vv WALK d (VState None (new_scope path))).2
    | NFuncDecl _ _ _ _ _ _ _ => fv (new_scope path) d
    | _ => []
    end.

  (** visitors.go 40-77: visitSyntax *)
  Definition file_events (path : string) (f : node) : list event :=
    tv WALK false None (new_scope path) f ++
    match f with
    | NFile _ _ _ _ decls => List.concat (map (decl_events path) decls)
    | _ => []
    end.

  Context (env : tenv).

  (** document.go 102-144 *)
  Definition apply_event (pkg : gpkg) (t : ptable) (e : event) : res ptable :=
    let! sym := from_descriptors pkg (e_descs e) in
    Ok (pset t (e_pos e) (new_symbol_info env ti sym (e_parent e) (e_ident e))).

  (** visitors.go 18-38: the package table built by VisitPackageSyntax *)
  Definition package_events (pkg : gpkg) : list event :=
    List.concat (map (file_events (p_path pkg)) (p_syntax pkg)).
  Definition visit_package_table (pkg : gpkg) : res ptable :=
    res_fold (apply_event pkg) ∅ (package_events pkg).
End Visitors.
