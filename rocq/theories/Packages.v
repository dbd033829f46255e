(** golang.org/x/tools/go/packages: a loaded package, and go/types.Info. *)
From Coq Require Import Ascii String.
From stdpp Require Import prelude strings.
From Verif Require Import GoStr Scip GoTypes Ast.
Open Scope string_scope.
Open Scope list_scope.

(** packages.Module (fields read by scip-go) *)
Inductive gmodule := GMod {
  m_path : string; m_version : string; m_dir : string; m_gomod : string;
  m_replace : option gmodule }.

(** types.Info, keyed by node pointers.  [ti_case_objs]: the implicit objects of
    all case clauses.  [ti_canon]: TypeString(TypeOf(expr)) with full package
    paths, None when TypeOf is nil.  [ti_sig]: typeStringForObject /
    types.ObjectString of an object (opaque text). *)
Record tinfo := TInfo {
  ti_defs : nat → option obj;
  ti_uses : nat → option obj;
  ti_pkgname_of : nat → option obj;
  ti_case_objs : list obj;
  ti_canon : nat → option string;
  ti_sig : obj → string
}.

(** packages.Package.  [p_ptr] is the pointer; [p_imports] the Imports map. *)
Record gpkg := GPkg {
  p_ptr : nat; p_path : string; p_name : string; p_module : option gmodule;
  p_imports : list (string * nat);
  p_syntax : list node;
  p_types : option tpkg;
  p_info : option tinfo }.

(** token.FileSet: position of an offset (file name, line, column) and the file
    an offset belongs to. *)
Record position := Position { pos_file : string; pos_line : Z; pos_col : Z }.
Record fset := FSet {
  fs_position : Z → position;
  fs_file : Z → option string  (** Fset.File(pos).Name(); files are identified by name *)
}.
