(** The same project in another directory. *)
From Coq Require Import Ascii String.
From stdpp Require Import prelude strings gmap.
From Verif Require Import GoStr Scip GoTypes Ast Packages Symbols Lookup Paths Loader Index.
Open Scope string_scope.
Open Scope list_scope.

(** go/packages: the directory and the go.mod file of a module, elsewhere; [el] gives for an absolute path of the first
    project where it is in the second *)
Fixpoint el_module (el : string → string) (m : gmodule) : gmodule :=
  match m with
  | GMod p v d g r => GMod p v (el d) (el g) (match r with Some r => Some (el_module el r) | None => None end)
  end.
Definition el_pkg (el : string → string) (p : gpkg) : gpkg :=
  GPkg (p_ptr p) (p_path p) (p_name p) (el_module el <$> p_module p) (p_imports p) (p_syntax p) (p_types p) (p_info p).
Definition el_heap (el : string → string) (h : pheap) : pheap := el_pkg el <$> h.
(** token.FileSet: the same lines and columns of the same files, elsewhere *)
Record el_fset (el : string → string) (fs fs' : fset) : Prop := {
  ef_file : ∀ z, fs_file fs' z = el <$> fs_file fs z;
  ef_name : ∀ z, pos_file (fs_position fs' z) = el (pos_file (fs_position fs z));
  ef_line : ∀ z, pos_line (fs_position fs' z) = pos_line (fs_position fs z);
  ef_col : ∀ z, pos_col (fs_position fs' z) = pos_col (fs_position fs z) }.
(** A project root and its files, moved: different files stay different, the files of the packages have the same path
    relative to the project root, the same base name and extension, and a directory is inside the project root if and
    only if it was. *)
Record el_paths (el : string → string) (root root' : string) (fs : fset) (h : pheap) : Prop := {
  ep_inj : ∀ a b, el a = el b → a = b;
  ep_empty : el "" = "";
  ep_relative : ∀ q p f n, h !! q = Some p → f ∈ p_syntax p → fs_file fs (file_package_pos f) = Some n →
    doc_relative_path root' (el n) = doc_relative_path root n;
  ep_base : ∀ q p f, h !! q = Some p → f ∈ p_syntax p → let n := pos_file (fs_position fs (file_package_pos f)) in
    path_base (el n) = path_base n ∧ path_ext (el n) = path_ext n ∧ has_suffix (el n) "_test.go" = has_suffix n "_test.go" }.
(** every directory of the modules of a package is inside the project root (or contains it) if and only if it was *)
Fixpoint el_near (el : string → string) (root root' : string) (m : gmodule) : Prop :=
  match m with
  | GMod _ _ d _ r => is_nested_dir (el d) root' = is_nested_dir d root ∧ match r with Some r => el_near el root root' r | None => True end
  end.
(** the same options, but for the project root and the arguments *)
Definition el_options (i i' : index_opts) : Prop :=
  io_module_version i' = io_module_version i ∧ io_module_path i' = io_module_path i ∧ io_go_version i' = io_go_version i ∧
  io_indexing_stdlib i' = io_indexing_stdlib i ∧ io_driver_set i' = io_driver_set i ∧ io_skip_impls i' = io_skip_impls i.
