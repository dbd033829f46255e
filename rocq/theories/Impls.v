(** internal/implementations: implementations.go, extractor.go, with the parts of go/types
    (Identical, Implements) and typeutil (IntuitiveMethodSet) they use. *)
From Coq Require Import Ascii String.
From stdpp Require Import prelude strings gmap.
From Verif Require Import GoStr Scip GoTypes Ast Packages Symbols Lookup Loader Quote Fingerprint.
Open Scope string_scope.
Open Scope list_scope.

(** *** types.Identical.  Interfaces are compared by their method lists (sorted by Id) and type
    sets; recursion through named types does not arise (named types are compared by name). *)
Definition same_fieldb (f g : fhdr) : bool :=
  (String.eqb (fh_name f) (fh_name g) && (is_exported (fh_name f) || bool_decide (fh_pkg f = fh_pkg g))
   && Bool.eqb (fh_embedded f) (fh_embedded g) && String.eqb (fh_tag f) (fh_tag g))%bool.
Fixpoint identicalb (t r : ty) : bool :=
  let ids := fix ids (l l' : list ty) : bool :=
    match l, l' with [], [] => true | t :: l, r :: l' => (identicalb t r && ids l l')%bool | _, _ => false end in
  match t with
  | TAlias _ t => identicalb t r
  | TBasic k _ => match unalias r with TBasic k' _ => bool_decide (k = k') | _ => false end
  | TNamed tn l => match unalias r with TNamed tn' l' => (bool_decide (tn = tn') && ids l l')%bool | _ => false end
  | TPointer a => match unalias r with TPointer b => identicalb a b | _ => false end
  | TSlice a => match unalias r with TSlice b => identicalb a b | _ => false end
  | TArray n a => match unalias r with TArray n' b => (Z.eqb n n' && identicalb a b)%bool | _ => false end
  | TMap k a => match unalias r with TMap k' b => (identicalb k k' && identicalb a b)%bool | _ => false end
  | TChan d a => match unalias r with TChan d' b => (Nat.eqb d d' && identicalb a b)%bool | _ => false end
  | TTuple l => match unalias r with TTuple l' => ids l l' | _ => false end
  | TSig ps rs v => match unalias r with TSig ps' rs' v' => (ids ps ps' && ids rs rs' && Bool.eqb v v')%bool | _ => false end
  | TStruct fs =>
      match unalias r with
      | TStruct fs' =>
          (fix fields (l l' : list (fhdr * ty)) : bool :=
             match l, l' with
             | [], [] => true
             | (f, t) :: l, (g, r) :: l' => (same_fieldb f g && identicalb t r && fields l l')%bool
             | _, _ => false
             end) fs fs'
      | _ => false
      end
  | TInterface ms s =>
      match unalias r with
      | TInterface ms' s' =>
          (String.eqb s s' &&
           (fix methods (l l' : list (string * ty)) : bool :=
              match l, l' with
              | [], [] => true
              | (m, t) :: l, (m', r) :: l' => (String.eqb m m' && identicalb t r && methods l l')%bool
              | _, _ => false
              end) ms ms')%bool
      | _ => false
      end
  | TTypeParam tn i => match unalias r with TTypeParam tn' i' => (bool_decide (tn = tn') && Nat.eqb i i')%bool | _ => false end
  | TUnion l =>
      match unalias r with
      | TUnion l' =>
          (fix terms (l l' : list (bool * ty)) : bool :=
             match l, l' with
             | [], [] => true
             | (m, t) :: l, (m', r) :: l' => (Bool.eqb m m' && identicalb t r && terms l l')%bool
             | _, _ => false
             end) l l'
      | _ => false
      end
  end.

(** *** Pointers to SymbolInformation: an entry of a package table, or an object allocated by the
    extractor (the n-th one) *)
Inductive cell := CTab (id : string) (pos : Z) | CNew (n : nat).
Global Instance cell_eq_dec : EqDecision cell.
Proof. solve_decision. Defined.

(** implementations.go 15-29: ImplDef; with a pointer comes the string in its field Symbol, which
    never changes *)
Record impldef := ImplDef {
  d_sym : cell; d_symbol : string; d_named : ty; d_methods : gmap string (cell * string);
  d_mask : N; d_count : nat; d_unexported : bool; d_pkg : string }.
Notation defs := (gmap string impldef).

(** the memory: the tables and the allocated objects *)
Record mem := Mem { mm_g : global; mm_new : list syminfo }.
Definition with_rels (f : list relationship → list relationship) (i : syminfo) : syminfo :=
  Info (i_symbol i) (i_documentation i) (f (i_relationships i)) (i_kind i) (i_display_name i) (i_signature i) (i_enclosing i).
Definition cell_info (m : mem) (c : cell) : option syminfo :=
  match c with CTab id pos => get_info_by_path (mm_g m) id pos | CNew n => mm_new m !! n end.
(** assignment to the field Relationships *)
Definition upd_cell (f : list relationship → list relationship) (m : mem) (c : cell) : mem :=
  match c with
  | CTab id pos =>
      Mem (Global (alter (λ pt : gpkg * ptable, (pt.1, alter (with_rels f) pos pt.2)) id (g_symbols (mm_g m))) (g_pkgsyms (mm_g m))) (mm_new m)
  | CNew n => Mem (mm_g m) (alter (with_rels f) n (mm_new m))
  end.
Definition implementation_of (s : string) : relationship := Rel s false true false false.
Definition add_rel (s : string) : mem → cell → mem := upd_cell (λ l, l ++ [implementation_of s]).
Definition canon : mem → cell → mem := upd_cell canonicalize_relationships.

(** The orders in which Go happens to iterate over maps.  The number is the pass (0, 1, 2), the
    strings are the keys of the enclosing iterations. *)
Record orders := Orders {
  or_packages : ptab → list string;
  or_defs : gpkg → list obj;
  or_types : nat → defs → list (string * impldef);
  or_ifaces : nat → string → defs → list (string * impldef);
  or_imethods : nat → string → string → gmap string (cell * string) → list (string * (cell * string));
  or_tmethods : nat → string → gmap string (cell * string) → list (string * (cell * string));
  or_collect : defs → list (string * impldef) }.

Section Impl.
  (** [mset]: MethodSetCache.MethodSet, the method objects sorted by Id.  [constraint_ok]: the
      part of types.Implements about validity, comparability and type sets.  [crc]:
      crc32.ChecksumIEEE. *)
  Context (env : tenv) (u : unicode) (crc : string → N) (mset : ty → list obj) (constraint_ok : ty → ty → bool).

  (** typeutil.IntuitiveMethodSet of a named type: for a concrete one the methods of the pointer
      type, preferring those of the type itself *)
  Definition mset_lookup (l : list obj) (m : obj) : option obj := List.find (λ x, String.eqb (obj_Id x) (obj_Id m)) l.
  Definition intuitive_method_set (t : ty) : list obj :=
    if is_interface env t then mset t
    else map (λ m, match mset_lookup (mset t) m with Some m' => m' | None => m end) (mset (TPointer t)).

  (** types.Implements(v, interface with methods ms) *)
  Definition implements (v : ty) (ms : list (string * ty)) (s : string) : bool :=
    (forallb (λ it : string * ty, existsb (λ m, String.eqb (obj_Id m) it.1 && identicalb (o_type m) it.2)%bool (mset v)) ms
     && constraint_ok v (TInterface ms s))%bool.

  (** implementations.go 47: the bit of a checksum *)
  Definition mask_bit (sum : N) : N :=
    N.land (N.lxor (N.lxor (N.lxor (N.shiftr sum 24) (N.shiftr sum 16)) (N.shiftr sum 8)) sum) 63.
  (** implementations.go 37-50: methodMask; Encode can panic *)
  Definition method_mask (methods : list obj) : res N :=
    res_fold (λ mask m, let! e := encode u (o_type m) in
                        Ok (N.lor mask (N.shiftl 1 (mask_bit (crc (obj_Id m +:+ e.1)))))) 0%N methods.
  (** implementations.go 53-60 *)
  Definition has_unexported_methods (methods : list obj) : bool := existsb (λ m, negb (is_exported (o_name m))) methods.

  (** implementations.go 65-94: the conditions of findImplementations *)
  Definition passes (t i : impldef) : bool :=
    match underlying env (d_named i) with
    | TInterface ms s =>
        (negb (d_unexported i && negb (String.eqb (d_pkg t) (d_pkg i)))
         && negb (Nat.ltb (d_count t) (d_count i))
         && N.eqb (N.land (d_mask t) (d_mask i)) (d_mask i)
         && (implements (d_named t) ms s || implements (TPointer (d_named t)) ms s))%bool
    | _ => false
    end.

  (** implementations.go 62-123: findImplementations; the result has the memory and the counter *)
  Definition find_implementations (o : orders) (pass : nat) (types ifaces : defs) (m : mem) (count : nat) : mem * nat :=
    foldl (λ mc kt,
        let '(key, t) := (kt : string * impldef) in
        let m := foldl (λ m ki,
            let '(ikey, i) := (ki : string * impldef) in
            if passes t i then
              foldl (λ m nc,
                  let '(name, (_, s)) := (nc : string * (cell * string)) in
                  match d_methods t !! name with Some (c, _) => add_rel s m c | None => m end)
                (add_rel (d_symbol i) m (d_sym t)) (or_imethods o pass key ikey (d_methods i))
            else m) mc.1 (or_ifaces o pass key ifaces) in
        let m := canon m (d_sym t) in
        let m := foldl (λ m nc, canon m (nc : string * (cell * string)).2.1) m (or_tmethods o pass key (d_methods t)) in
        (m, S mc.2))
      (m, count) (or_types o pass types).

  (** the extractor: the two maps being filled, the allocated objects, the caches *)
  Record xstate := XState { x_ifaces : defs; x_concretes : defs; x_new : list syminfo; x_k : caches }.

  (** which SymbolInformation GetSymbolOfObject returns (lookup.go 171-177): an entry of a table,
      else a new one *)
  Definition object_cell (g : global) (o : obj) : option cell :=
    match o_pkg o with
    | Some tp => first_some (λ id, match get_info_by_path g id (o_pos o) with Some _ => Some (CTab id (o_pos o)) | None => None end)
                            (test_package_combinations (tp_path tp))
    | None => None
    end.
  (** extractor.go 123-134: the map of method symbols *)
  Definition method_symbol (g : global) (acc : gmap string (cell * string) * (list syminfo * caches)) (m : obj)
      : res (gmap string (cell * string) * (list syminfo * caches)) :=
    let '(ms, (new, k)) := acc in
    let! rk := get_symbol_of_object env g k m in
    Ok (match rk.1 with
        | Found info =>
            match object_cell g m with
            | Some c => (<[obj_Id m := (c, i_symbol info)]> ms, (new, rk.2))
            | None => (<[obj_Id m := (CNew (length new), i_symbol info)]> ms, (new ++ [info], rk.2))
            end
        | _ => (ms, (new, rk.2))
        end).
  (** extractor.go 111-150: classify *)
  Definition classify (g : global) (named : ty) (sym : cell) (symbol pkg : string) (st : xstate) : res xstate :=
    let methods := intuitive_method_set named in
    match methods with
    | [] => Ok st
    | _ =>
        let! acc := res_fold (method_symbol g) (∅, (x_new st, x_k st)) methods in
        let '(ms, (new, k)) := acc in
        let! mask := method_mask methods in
        let d := ImplDef sym symbol named ms mask (length methods) (has_unexported_methods methods) pkg in
        Ok (if is_interface env named then XState (<[symbol := d]> (x_ifaces st)) (x_concretes st) new k
            else XState (x_ifaces st) (<[symbol := d]> (x_concretes st)) new k)
    end.

  (** TypeName.Parent() = pkg.Types.Scope(); the objects of the scope of a dependency, by name *)
  Context (package_level : gpkg → obj → bool) (scope_objects : gpkg → list obj).
  Definition is_type_name (o : obj) : bool := match o_kind o with OTypeName => true | _ => false end.
  (** extractor.go 54-84: one entry of Defs (nil objects are skipped at 55-57) *)
  Definition extract_def (g : global) (p : gpkg) (tbl : ptable) (st : xstate) (o : obj) : res xstate :=
    if negb (is_type_name o) then Ok st
    else if (match p_types p with Some _ => negb (package_level p o) | None => false end) then Ok st
    else match o_type o with
         | TNamed _ _ =>
             match pget tbl (o_pos o) with
             | Some info => classify g (o_type o) (CTab (p_path p) (o_pos o)) (i_symbol info) (p_path p) st
             | None => Ok st
             end
         | _ => Ok st
         end.
  (** extractor.go 47-86: extractLocal *)
  Definition extract_local (o : orders) (g : global) (p : gpkg) (st : xstate) : res xstate :=
    match get_package g p with
    | None => Ok st
    | Some tbl => res_fold (extract_def g p tbl) st (or_defs o p)
    end.
  (** extractor.go 91-108: one object of the scope *)
  Definition extract_object (g : global) (p : gpkg) (st : xstate) (o : obj) : res xstate :=
    if negb (is_type_name o && is_exported (o_name o)) then Ok st
    else match o_type o with
         | TNamed _ _ =>
             let '(sym, c) := compose env (k_composer (x_k st)) (Some p) (Some o) in
             let k := Caches (k_skipped (x_k st)) c in
             if String.eqb sym "" then Ok (XState (x_ifaces st) (x_concretes st) (x_new st) k)
             else classify g (o_type o) (CNew (length (x_new st))) sym (p_path p)
                           (XState (x_ifaces st) (x_concretes st) (x_new st ++ [bare_info sym]) k)
         | _ => Ok st
         end.
  (** extractor.go 88-109: extractRemote *)
  Definition extract_remote (g : global) (p : gpkg) (st : xstate) : res xstate :=
    res_fold (extract_object g p) st (scope_objects p).
  (** extractor.go 26-45: Extract, one package *)
  Definition extract_package (o : orders) (g : global) (st : xstate) (p : gpkg) : res xstate :=
    if String.eqb (p_name p) "builtin" then Ok st
    else match p_info p, p_types p with
         | Some _, _ => extract_local o g p st
         | None, Some _ => extract_remote g p st
         | None, None => Ok st
         end.
  (** extractor.go 26-45: Extract *)
  Definition extract (o : orders) (h : pheap) (g : global) (pkgs : ptab) (new : list syminfo) (k : caches) : res xstate :=
    res_fold (extract_package o g) (XState ∅ ∅ new k)
      (omap (λ key, match pkgs !! key with Some q => h !! q | None => None end) (or_packages o pkgs)).

  (** implementations.go 134-141 *)
  Definition remote_packages (all proj : ptab) : ptab := filter (λ kv : string * nat, proj !! kv.1 = None) all.

  (** implementations.go 167-171: the types that gained relationships *)
  Definition gained (m : mem) (l : list (string * impldef)) : list syminfo :=
    omap (λ kt, match cell_info m (d_sym (kt : string * impldef).2) with
                | Some i => match i_relationships i with [] => None | _ => Some i end
                | None => None
                end) l.

  (** implementations.go 125-174: AddImplementationRelationships: the tables, the caches, the
      external symbols, the final value of the counter and the total.  The goroutine runs the three
      passes while the caller only reads the counter. *)
  Definition add_implementation_relationships (o : orders) (h : pheap) (proj all : ptab) (g : global) (k : caches)
      : res (global * caches * list syminfo * (nat * nat)) :=
    let! l := extract o h g proj [] k in
    let! r := extract o h g (remote_packages all proj) (x_new l) (x_k l) in
    let total := (size (x_concretes l) * 2 + size (x_concretes r))%nat in
    let m := Mem g (x_new r) in
    let '(m, n) := find_implementations o 0 (x_concretes l) (x_ifaces l) m 0 in
    let '(m, n) := find_implementations o 1 (x_concretes l) (x_ifaces r) m n in
    let '(m, n) := find_implementations o 2 (x_concretes r) (x_ifaces l) m n in
    Ok (mm_g m, x_k r, gained m (or_collect o (x_concretes r)), (n, total)).
  (** as a step of Index (scip.go 107-116) *)
  Definition impl_phase (o : orders) (h : pheap) (proj all : ptab) (g : global) (k : caches)
      : res (option (global * caches * list syminfo)) :=
    let! r := add_implementation_relationships o h proj all g k in Ok (Some r.1).
End Impl.
