(** internal/index: scip.go (Index, indexVisitPackages, ListMissing), package_ident.go,
    and VisitPackageSyntax of internal/visitors/visitors.go.

    Concurrency: Index starts one goroutine per phase and waits for it before going on
    (C41, Output.v), so the phases are sequential here.  Logging and progress output are
    dropped.  A Go map iteration order is an explicit list argument or oracle. *)
From Coq Require Import Ascii String.
From stdpp Require Import prelude strings gmap sorting.
From Verif Require Import GoStr Scip GoTypes Ast Packages Symbols Document Lookup Pass1 Pass2 Paths
  Regex Semver Loader.
Open Scope string_scope.
Open Scope list_scope.

(** ------------------------------------------------------------------ *)
(** package_ident.go 37-49: fileRelevance.  (sort keys, path.Base and path.Ext as in GoStr) *)
Definition file_relevance (pkg_name filename : string) : nat :=
  if String.eqb (path_base filename) "doc.go" then 0
  else if String.eqb (trim_suffix (path_base filename) (path_ext filename)) pkg_name then 1
  else if negb (has_suffix filename "_test.go") then 2
  else 3.
(** sort.SliceStable with a key (insertion sort; elements with equal keys keep their order) *)
Fixpoint insert_by {A} (key : A → nat) (x : A) (l : list A) : list A :=
  match l with
  | [] => [x]
  | y :: l' => if Nat.leb (key x) (key y) then x :: l else y :: insert_by key x l'
  end.
Definition stable_sort {A} (key : A → nat) (l : list A) : list A := foldr (insert_by key) [] l.

(** an ast.File: position of the package keyword, whether it has a doc comment, the text of
    that comment, the package name identifier *)
Definition file_package_pos (f : node) : Z := match f with NFile p _ _ _ _ => p | _ => 0%Z end.
Definition file_has_doc (f : node) : bool := match f with NFile _ b _ _ _ => b | _ => false end.
Definition file_doc (f : node) : string := match f with NFile _ _ d _ _ => d | _ => "" end.
Definition file_ident (f : node) : ident := match f with NFile _ _ _ i _ => i | _ => Ident 0 "" 0 end.

(** package_ident.go 12-35: findPackageDocs; f.Pos() is the position of the package keyword *)
Definition find_package_docs (fs : fset) (p : gpkg) : list string :=
  map file_doc
    (stable_sort (λ f, file_relevance (p_name p) (pos_file (fs_position fs (file_package_pos f))))
      (List.filter file_has_doc (p_syntax p))).

(** ------------------------------------------------------------------ *)
(** document.Document between the two passes: relative path and package occurrence
    (its table of symbols is the one of the package) *)
Record sdoc := SDoc { sd_path : string; sd_occ : option occurrence }.
Notation docmap := (gmap string sdoc).

(** scip.go 189-191: SetPkgSymbol for every loaded package, in map order [ks] *)
Fixpoint set_pkg_symbols (g : global) (h : pheap) (all : ptab) (ks : list string) : res global :=
  match ks with
  | [] => Ok g
  | k :: ks =>
      match all !! k with
      | Some q => match h !! q with
                  | Some p => let! g' := set_pkg_symbol g p in set_pkg_symbols g' h all ks
                  | None => Panic "dangling pointer" end
      | None => set_pkg_symbols g h all ks
      end
  end.

(** scip.go 32-55: GetPackages lists both tables; [proj_order], [all_order]: map iteration orders. *)
Definition get_packages (proj_order all_order : list string) : list string * list string :=
  (sorted_keys proj_order, sorted_keys all_order).

Section Index.
  Context (digest : string → string) (env : tenv) (fs : fset) (h : pheap).

  (** pkg.Fset.File(f.Package).Name() *)
  Definition file_name (f : node) : res string :=
    match fs_file fs (file_package_pos f) with
    | Some n => Ok n
    | None => Panic "invalid memory address or nil pointer dereference"
    end.

  (** visitors.go 18-38: VisitPackageSyntax *)
  Definition add_document (root : string) (docs : docmap) (f : node) : res docmap :=
    let! n := file_name f in Ok (<[n := SDoc (doc_relative_path root n) None]> docs).
  Definition visit_package_syntax (root : string) (st : docmap * global) (p : gpkg) : res (docmap * global) :=
    match p_syntax p with
    | [] => Ok (st.1, g_add st.2 p ∅)
    | _ =>
        match p_info p with
        | None => Panic "invalid memory address or nil pointer dereference"
        | Some ti =>
            let! tbl := visit_package_table digest ti fs env p in
            let! docs := res_fold (add_document root) st.1 (p_syntax p) in
            Ok (docs, g_add st.2 p tbl)
        end
    end.

  (** scip.go 220-229: the symbol information of a package *)
  Definition package_info (g : global) (p : gpkg) : syminfo :=
    Info (match get_pkg_symbol g p with Some s => s | None => "" end)
         (find_package_docs fs p) [] KPackage (p_name p) (Some ("package " +:+ p_name p)) "".
  (** scip.go 238-242: the occurrence of the package clause *)
  Definition package_occurrence (g : global) (p : gpkg) (f : node) : occurrence :=
    Occ (range_from_name (fs_position fs (id_pos (file_ident f))) (id_name (file_ident f)) false)
        (match get_pkg_symbol g p with Some s => s | None => "" end) role_definition [] [].
  Definition set_package_occurrence (g : global) (p : gpkg) (docs : docmap) (f : node) : res docmap :=
    let! n := file_name f in
    match docs !! n with
    | None => Panic "invalid memory address or nil pointer dereference"
    | Some d => Ok (<[n := SDoc (sd_path d) (Some (package_occurrence g p f))]> docs)
    end.
  (** the table shared by the documents of a package and the global table: Package.Set *)
  Definition g_set (g : global) (p : gpkg) (pos : Z) (i : syminfo) : global :=
    match g_symbols g !! p_path p with
    | Some (q, t) => Global (<[p_path p := (q, pset t pos i)]> (g_symbols g)) (g_pkgsyms g)
    | None => g
    end.
  (** scip.go 204-246: one project package of the first pass *)
  Definition visit_project_package (root : string) (st : docmap * global) (p : gpkg) : res (docmap * global) :=
    let! st := visit_package_syntax root st p in
    match p_syntax p with
    | [] => Ok st
    | first :: _ =>
        let! n := file_name first in
        match st.1 !! n with
        | None => Panic "invalid memory address or nil pointer dereference"
        | Some _ =>
            let g := g_set st.2 p (id_pos (file_ident first)) (package_info st.2 p) in
            let! docs := res_fold (set_package_occurrence g p) st.1 (p_syntax p) in
            Ok (docs, g)
        end
    end.

  (** the packages of a table in the order of their sorted keys *)
  Definition packages_of (t : ptab) (order : list string) : list gpkg :=
    omap (λ k, match t !! k with Some q => h !! q | None => None end) (sorted_keys order).

  (** scip.go 180-252: indexVisitPackages; [aorder], [porder]: iteration orders of the
      keys of allPackages and projectPackages *)
  Definition index_visit_packages (root : string) (proj all : ptab) (porder aorder : list string)
    : res (docmap * global) :=
    let! g := set_pkg_symbols new_global h all aorder in
    res_fold (visit_project_package root) (∅, g) (packages_of proj porder).

  (** ---------------------------------------------------------------- *)
  (** the second pass *)
  Definition imports_of (p : gpkg) (path : string) : option gpkg :=
    match List.find (λ e, String.eqb e.1 path) (p_imports p) with
    | Some e => h !! e.2
    | None => None
    end.

  (** Map iteration orders of the package table and the locals map while the n-th
      document is made *)
  Record map_orders := MapOrders {
    mo_table : nat → ptable → list (Z * syminfo);
    mo_locals : nat → gmap Z local → list (Z * local) }.
  Context (objstr : obj → string) (mo : map_orders).

  (** scip.go 133-155: visit one file and make its document *)
  Definition index_file (g : global) (n : nat) (k : caches) (p : gpkg) (f : node) (d : sdoc)
    : res (document * caches) :=
    match p_info p, sd_occ d with
    | Some ti, Some po =>
        let! name := file_name f in
        let tbl := match get_package g p with Some t => t | None => ∅ end in
        let! st := visit_file env g fs p ti tbl (imports_of p) po k f in
        Ok (to_document env fs ti objstr (sd_path d) name
              (mo_table mo n tbl) (mo_locals mo n (f_locals st)) st, f_caches st)
    | None, _ => Panic "invalid memory address or nil pointer dereference"
    | _, None => Panic "nil package occurrence" (* never happens: see P_Index.docs_have_occ *)
    end.
End Index.

(** ------------------------------------------------------------------ *)
(** The messages given to the writer *)
Record metadata := Meta { md_root : string; md_tool : string; md_version : string; md_args : list string }.
Inductive message := MMeta (m : metadata) | MDoc (d : document) | MExt (i : syminfo).
(** the writer: given what was written before and a message, succeed (None) or fail *)
Notation writer := (list message → message → option string).
(** the end of a run: Index returned (with an error or nil), or the process crashed *)
Inductive outcome := Returned (err : option string) | Crashed (msg : string).

(** scip.go 170-175: write a list of messages, stop at the first error *)
Fixpoint write_all (w : writer) (sofar : list message) (l : list message) : list message * option string :=
  match l with
  | [] => (sofar, None)
  | m :: l =>
      match w sofar m with
      | Some e => (sofar, Some e)
      | None => write_all w (sofar ++ [m]) l
      end
  end.

Section Run.
  Context (digest : string → string) (env : tenv) (fs : fset) (h : pheap).
  Context (objstr : obj → string) (mo : map_orders) (w : writer).

  (** scip.go 126-162: the worker.  [items]: the files of the project packages, in package
      order (leaving the inner loop by return leaves both loops) *)
  Fixpoint write_documents (g : global) (docs : docmap) (sofar : list message) (n : nat) (k : caches)
      (items : list (gpkg * node)) : list message * outcome * caches :=
    match items with
    | [] => (sofar, Returned None, k)
    | (p, f) :: items =>
        match file_name fs f with
        | Panic m => (sofar, Crashed m, k)
        | Ok name =>
            match docs !! name with
            | None => write_documents g docs sofar n k items
            | Some d =>
                match index_file env fs h objstr mo g n k p f d with
                | Panic m => (sofar, Crashed m, k)
                | Ok (doc, k') =>
                    match w sofar (MDoc doc) with
                    | Some e => (sofar, Returned (Some e), k')
                    | None => write_documents g docs (sofar ++ [MDoc doc]) (S n) k' items
                    end
                end
            end
        end
    end.
  Definition items_of (ps : list gpkg) : list (gpkg * node) :=
    List.concat (map (λ p, map (λ f, (p, f)) (p_syntax p)) ps).

  (** AddImplementationRelationships (Impls.v): may fail, changes the relationships of
      recorded symbols, fills the composer's memo, and returns external symbols *)
  Notation impl_phase := (global → caches → res (option (global * caches * list syminfo))).
  Context (impl : impl_phase) (impl_error : string).

  (** what LoadPackages gave (Loader.v): an error or the two tables *)
  Inductive loaded := LoadFailed (err : string) | LoadOk (all proj : ptab).

  (** scip.go 84-178: Index.  All messages written and how it ended.  The composer's
      defaults are opts.ModuleRoot and opts.ModuleVersion. *)
  Definition index (root version : string) (skip_impls : bool) (meta : metadata) (ld : loaded)
      (porder aorder porder2 : list string) : list message * outcome :=
    match w [] (MMeta meta) with
    | Some e => ([], Returned (Some e))
    | None =>
        match ld with
        | LoadFailed e => ([MMeta meta], Returned (Some e))
        | LoadOk all proj =>
            match index_visit_packages digest env fs h root proj all porder aorder with
            | Panic m => ([MMeta meta], Crashed m)
            | Ok (docs, g) =>
                let k := Caches ∅ (new_composer root version) in
                match (if skip_impls then Ok (Some (g, k, [])) else impl g k) with
                | Panic m => ([MMeta meta], Crashed m)
                | Ok None => ([MMeta meta], Returned (Some impl_error))
                | Ok (Some (g, k, exts)) =>
                    match write_documents g docs [MMeta meta] 0 k (items_of (packages_of h proj porder2)) with
                    | (msgs, Returned None, _) =>
                        let '(msgs, e) := write_all w msgs (map MExt exts) in (msgs, Returned e)
                    | (msgs, o, _) => (msgs, o)
                    end
                end
            end
        end
    end.
End Run.

(** scip.go 57-82: ListMissing.  Packages are visited in map order; SetPkgSymbol is never
    called, but VisitPackageSyntax needs the module only. *)
Definition list_missing (digest : string → string) (env : tenv) (fs : fset) (h : pheap) (root : string) (proj : ptab) (order1 order2 : list string) : res (list string) :=
  let pk order := omap (λ k, match proj !! k with Some q => h !! q | None => None end) order in
  let! st := res_fold (visit_package_syntax digest env fs root) (∅, new_global) (pk order1) in
  let! missing := res_fold (λ acc f,
      let! n := file_name fs f in
      Ok (match (st.1 : docmap) !! n with Some _ => acc | None => acc ++ [n] end)) []
    (List.concat (map p_syntax (pk order2))) in
  Ok missing.
