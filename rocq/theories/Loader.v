(** internal/loader/loader.go and internal/config/config.go; GetPackages of
    internal/index/scip.go.

    packages.Load itself (the go command) is not modelled: its result is an
    arbitrary heap of packages [heap] and a list of root pointers.  Every package
    owns its Module object (go list decodes a fresh one per package), so the
    in-place updates of pkg.Module are updates of the package.  Logging is
    dropped. *)
From Coq Require Import Ascii String.
From stdpp Require Import prelude strings gmap sorting relations.
From Verif Require Import GoStr Scip GoTypes Ast Packages Symbols Lookup Regex Semver Paths.
Open Scope string_scope.
Open Scope list_scope.

(** config.go: IndexOpts, the fields read by the modelled code *)
Record index_opts := IOpts {
  io_module_root : string; io_module_version : string; io_module_path : string;
  io_go_version : string; io_indexing_stdlib : bool; io_driver_set : bool;
  io_skip_impls : bool; io_arguments : list string }.

(** The environment read by normalizePackage: go.mod files and the version
    control root of an import path (vcs.RepoRootForImportPath, None = error). *)
Inductive gomod :=
| GoModUnreadable                       (** os.ReadFile fails *)
| GoModNoModule                         (** ParseLax fails or there is no module directive *)
| GoModModule (path version : string).  (** parsed.Module.Mod *)
Record world := World {
  w_gomod : string → gomod;
  w_repo_root : string → option string }.

(** record updates *)
Definition with_module (p : gpkg) (m : gmodule) : gpkg :=
  GPkg (p_ptr p) (p_path p) (p_name p) (Some m) (p_imports p) (p_syntax p) (p_types p) (p_info p).
Definition with_path (p : gpkg) (path : string) : gpkg :=
  GPkg (p_ptr p) path (p_name p) (p_module p) (p_imports p) (p_syntax p) (p_types p) (p_info p).
Definition with_version (m : gmodule) (v : string) : gmodule :=
  GMod (m_path m) v (m_dir m) (m_gomod m) (m_replace m).
Definition with_mpath (m : gmodule) (q : string) : gmodule :=
  GMod q (m_version m) (m_dir m) (m_gomod m) (m_replace m).
Definition bare_module (path version : string) : gmodule := GMod path version "" "" None.

Definition stdlib_module_path : string := "github.com/golang/go/src".

(** loader.go 130-132: isStandardLib *)
Definition is_standard_lib (p : gpkg) : bool :=
  match p_module p with None => true | Some m => String.eqb (m_path m) "std" end.

(** loader.go 270-280: hasSameRepoRoot *)
Definition has_same_repo_root (w : world) (a b : string) : bool :=
  if String.eqb a b then true
  else match w_repo_root w a, w_repo_root w b with
       | Some ra, Some rb => String.eqb ra rb
       | _, _ => false
       end.

(** loader.go 187-196: follow replaced modules *)
Definition follow_replace (o : index_opts) (m : gmodule) : gmodule :=
  match m_replace m with
  | Some r => if String.eqb (m_version r) "" then with_version r (io_module_version o) else r
  | None => m
  end.
(** loader.go 201-224: resolve a local module path through its go.mod *)
Definition resolve_local (w : world) (m : gmodule) : res gmodule :=
  if (has_prefix (m_path m) "." && negb (String.eqb (m_gomod m) ""))%bool then
    match w_gomod w (m_gomod m) with
    | GoModUnreadable => Ok m
    | GoModNoModule => Panic "invalid memory address or nil pointer dereference"
    | GoModModule path version =>
        let m := with_mpath m path in
        Ok (if String.eqb version "" then m else with_version m version)
    end
  else Ok m.
(** loader.go 226-228 *)
Definition default_path (m : gmodule) : gmodule :=
  if String.eqb (m_path m) "" then with_mpath m "." else m.
(** loader.go 230-263: the version *)
Definition normalize_version (o : index_opts) (w : world) (m : gmodule) : gmodule :=
  let v := m_version m in
  if String.eqb v "" then
    if (is_nested_dir (m_dir m) (io_module_root o)
        || has_same_repo_root w (m_path m) (io_module_path o))%bool
    then with_version m (io_module_version o)
    else with_version m "."
  else if is_pseudo_version v then
    match pseudo_version_rev v with Some rev => with_version m rev | None => m end
  else if negb (String.eqb (semver_build v) "") then
    with_version m (trim_suffix v (semver_build v))
  else m.

(** loader.go 134-266: normalizePackage *)
Definition normalize_package (o : index_opts) (w : world) (p : gpkg) : res gpkg :=
  if io_driver_set o then
    Ok (with_module p (bare_module
      (if String.eqb (io_module_path o) "" then "." else io_module_path o)
      (if String.eqb (io_module_version o) "" then "." else io_module_version o)))
  else
    let p :=
      if (is_standard_lib p || io_indexing_stdlib o)%bool then
        with_path (with_module p (bare_module stdlib_module_path (io_go_version o)))
                  (trim_prefix (p_path p) "std/")
      else p in
    match p_module p with
    | None => Panic "unreachable: isStandardLib covers a nil module"
    | Some m =>
        let! m := resolve_local w (follow_replace o m) in
        Ok (with_module p (normalize_version o w (default_path m)))
    end.

(** ------------------------------------------------------------------ *)
(** loader.go 48-79: addImportsToPkgs.  The recursion is a machine with an
    explicit stack of pointers still to be visited; the imports of a package are
    pushed in an arbitrary order (Go's map iteration). *)
Notation pheap := (gmap nat gpkg).
Notation ptab := (gmap string nat).        (** PackageLookup: path -> package pointer *)
Record lstate := LState { ls_heap : pheap; ls_tab : ptab; ls_stack : list nat }.

Definition nfiles (g : gpkg) : nat := length (p_syntax g).
Definition files_of (h : pheap) (t : ptab) (path : string) : option nat :=
  match t !! path with Some q => nfiles <$> h !! q | None => None end.
(** the early return: a recorded variant with at least as many files *)
Definition skips (h : pheap) (t : ptab) (g : gpkg) : bool :=
  match files_of h t (p_path g) with Some n => Nat.leb (nfiles g) n | None => false end.

Inductive lstep (o : index_opts) (w : world) : lstate → lstate → Prop :=
| L_skip h t p g st :
    h !! p = Some g → skips h t g = true →
    lstep o w (LState h t (p :: st)) (LState h t st)
| L_visit h t p g g' order st :
    h !! p = Some g → skips h t g = false →
    normalize_package o w g = Ok g' →
    order ≡ₚ map snd (p_imports g') →
    lstep o w (LState h t (p :: st))
              (LState (<[p := g']> h) (<[p_path g' := p]> t) (order ++ st)).
(** addImportsToPkgs(pkgLookup, opts, pkg) ends normally *)
Definition add_imports o w (h : pheap) (t : ptab) (p : nat) (h' : pheap) (t' : ptab) : Prop :=
  rtc (lstep o w) (LState h t [p]) (LState h' t' []).

(** loader.go 90-98: the builtin entry *)
Definition builtin_pkg (ptr : nat) (o : index_opts) : gpkg :=
  GPkg ptr "builtin" "builtin" (Some (bare_module "github.com/golang/go/src/builtin" (io_go_version o)))
       [] [] None None.

(** loader.go 120-123: the loop over the loaded packages *)
Inductive load_loop (o : index_opts) (w : world) :
  pheap → ptab → ptab → list nat → pheap → ptab → ptab → Prop :=
| LL_nil h t pj : load_loop o w h t pj [] h t pj
| LL_cons h t pj p ps h1 t1 g q h2 t2 pj2 :
    add_imports o w h t p h1 t1 →
    h1 !! p = Some g → t1 !! p_path g = Some q →
    load_loop o w h1 t1 (<[p_path g := q]> pj) ps h2 t2 pj2 →
    load_loop o w h t pj (p :: ps) h2 t2 pj2.

(** loader.go 85-88: the module version defaults to "." *)
Definition with_default_version (o : index_opts) : index_opts :=
  IOpts (io_module_root o)
        (if String.eqb (io_module_version o) "" then "." else io_module_version o)
        (io_module_path o) (io_go_version o) (io_indexing_stdlib o) (io_driver_set o)
        (io_skip_impls o) (io_arguments o).

(** loader.go 81-128: a successful LoadPackages.  [h0], [roots]: what packages.Load
    returned; [bp]: the address of the builtin package.  Result: the heap with the
    normalised packages, allPackages and projectPackages. *)
Definition load_packages (o : index_opts) (w : world) (bp : nat) (h0 : pheap) (roots : list nat)
  (h : pheap) (all proj : ptab) : Prop :=
  load_loop (with_default_version o) w
    (<[bp := builtin_pkg bp (with_default_version o)]> h0) {[ "builtin" := bp ]} ∅ roots
    h all proj.

(** scip.go 32-55: GetPackages; [order] is the map iteration order of the keys *)
Definition sorted_keys (order : list string) : list string := merge_sort str_le order.
