(** Generated by tools/snapshot/emit.py from /repo/internal/testdata/snapshots/{input,output}/package-documentation: what packages.Load
    returns for that directory (syntax, types, modules; dependencies reduced to the declarations used), and the golden output. *)
From Coq Require Import Ascii String.
From stdpp Require Import prelude strings gmap.
From Verif Require Import GoStr Scip GoTypes Ast Packages Source Signature Snapshot Contract.
Open Scope string_scope.
Open Scope list_scope.
(* package-documentation/primary.go *)
Definition f1_0 : node := (NFile 44 true "This is documentation for this package.
" (Ident 1 "packagedocumentation" 52)
  [(NFuncDecl "" 74 92 None (Ident 2 "Exported" 79) (NFuncType 74 (NFieldList []) (NFieldList []) (NFieldList [])) (Some (NBlockStmt 90 [])))]).
(* package-documentation/secondary.go *)
Definition f1_1 : node := (NFile 94 false "" (Ident 3 "packagedocumentation" 102)
  [(NFuncDecl "" 124 146 None (Ident 4 "AlsoExporter" 129) (NFuncType 124 (NFieldList []) (NFieldList []) (NFieldList [])) (Some (NBlockStmt 144 [])))]).
Definition k0 : tpkg := TPkg "github.com/scip-code/scip-go/internal/testdata/snapshots/input/package-documentation" [SEntry "AlsoExporter" false (TBasic BInvalid false); SEntry "Exported" false (TBasic BInvalid false)].
Definition o47 : obj := Obj 47 "Exported" (Some k0) 79 (OFunc (Some None)) (TSig [] [] false) None.
Definition o48 : obj := Obj 48 "AlsoExporter" (Some k0) 129 (OFunc (Some None)) (TSig [] [] false) None.
Definition defs1 : list (nat * obj) := [(2, o47); (4, o48)].
Definition uses1 : list (nat * obj) := [].
Definition canon1 : list (nat * hty) := [].
Definition pkgnames1 : list (nat * obj) := [].
Definition cases1 : list obj := [].
Definition hobjs : list (nat * hobj) := [(47, HObj "Exported" (Some (HPkg "github.com/scip-code/scip-go/internal/testdata/snapshots/input/package-documentation" "packagedocumentation")) true (HFunc None (HSig [] [] [] false)));
  (48, HObj "AlsoExporter" (Some (HPkg "github.com/scip-code/scip-go/internal/testdata/snapshots/input/package-documentation" "packagedocumentation")) true (HFunc None (HSig [] [] [] false)))].
Definition unders : list (nat * ty) := [].
Definition msets : list (nat * (list obj * list obj)) := [].
Definition digests : list (string * string) := [].
Definition formatted : list (string * string) := [].
Definition sources : list src := [Src "/repo/internal/testdata/snapshots/input/package-documentation/primary.go" 1 "// This is documentation for this package.
package packagedocumentation

func Exported() {}
" [];
  Src "/repo/internal/testdata/snapshots/input/package-documentation/secondary.go" 94 "package packagedocumentation

func AlsoExporter() {}
" []].
Definition gomods : list (string * string) := [].
Definition p1 : gpkg * option raw := (GPkg 1 "github.com/scip-code/scip-go/internal/testdata/snapshots/input/package-documentation" "packagedocumentation" (Some (GMod "github.com/scip-code/scip-go" "" "/repo" "/repo/go.mod" None)) [] [f1_0; f1_1] (Some k0) None, (Some (Raw defs1 uses1 pkgnames1 cases1 canon1))).
Definition packages : list (gpkg * option raw) := [p1].
Definition roots : list nat := [1].
Definition scopes : list (nat * list obj) := [].
Definition levels : list nat := [].
Definition input : input := Input "/repo/internal/testdata/snapshots/input/package-documentation" "sg/package-documentation" false sources packages roots gomods digests formatted hobjs unders msets scopes levels.
Definition golden : list (string * string) := [("primary.go", "  // This is documentation for this package.
  package packagedocumentation
//        ^^^^^^^^^^^^^^^^^^^^ definition github.com/scip-code/scip-go 0.1.test `github.com/scip-code/scip-go/internal/testdata/snapshots/input/package-documentation`/
//                             kind Package
//                             display_name packagedocumentation
//                             signature_documentation
//                             > package packagedocumentation
//                             documentation
//                             > This is documentation for this package.
  
//⌄ enclosing_range_start github.com/scip-code/scip-go 0.1.test `github.com/scip-code/scip-go/internal/testdata/snapshots/input/package-documentation`/Exported().
  func Exported() {}
//     ^^^^^^^^ definition github.com/scip-code/scip-go 0.1.test `github.com/scip-code/scip-go/internal/testdata/snapshots/input/package-documentation`/Exported().
//              kind Function
//              display_name Exported
//              signature_documentation
//              > func Exported()
//                 ⌃ enclosing_range_end github.com/scip-code/scip-go 0.1.test `github.com/scip-code/scip-go/internal/testdata/snapshots/input/package-documentation`/Exported().
  
");
  ("secondary.go", "  package packagedocumentation
//        ^^^^^^^^^^^^^^^^^^^^ definition github.com/scip-code/scip-go 0.1.test `github.com/scip-code/scip-go/internal/testdata/snapshots/input/package-documentation`/
  
//⌄ enclosing_range_start github.com/scip-code/scip-go 0.1.test `github.com/scip-code/scip-go/internal/testdata/snapshots/input/package-documentation`/AlsoExporter().
  func AlsoExporter() {}
//     ^^^^^^^^^^^^ definition github.com/scip-code/scip-go 0.1.test `github.com/scip-code/scip-go/internal/testdata/snapshots/input/package-documentation`/AlsoExporter().
//                  kind Function
//                  display_name AlsoExporter
//                  signature_documentation
//                  > func AlsoExporter()
//                     ⌃ enclosing_range_end github.com/scip-code/scip-go 0.1.test `github.com/scip-code/scip-go/internal/testdata/snapshots/input/package-documentation`/AlsoExporter().
  
")].

(** The model, run on the input directory, gives the golden files of /repo. *)
Example snapshot_package_documentation : snapshot input = Some golden.
Proof. vm_compute. reflexivity. Qed.
(** The directory meets the hypotheses of the theorems (Contract.scopes_contract_ok). *)
Example snapshot_package_documentation_contract : contract input = true ∧ scopesb input = true.
Proof. split; vm_compute; reflexivity. Qed.
