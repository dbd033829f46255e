(** Generated by tools/snapshot/emit.py from /repo/internal/testdata/snapshots/{input,output}/replace-directives: what packages.Load
    returns for that directory (syntax, types, modules; dependencies reduced to the declarations used), and the golden output. *)
From Coq Require Import Ascii String.
From stdpp Require Import prelude strings gmap.
From Verif Require Import GoStr Scip GoTypes Ast Packages Source Signature Snapshot Contract.
Open Scope string_scope.
Open Scope list_scope.
Definition k0 : tpkg := TPkg "io" [SEntry "Writer" true (TNamed (TName 47 (Some "io") "Writer") [])].
Definition o47 : obj := Obj 47 "Writer" (Some k0) 10000322 OTypeName (TNamed (TName 47 (Some "io") "Writer") []) None.
Definition o48 : obj := Obj 48 "Write" (Some k0) 10000341 (OFunc (Some (Some (TNamed (TName 47 (Some "io") "Writer") [])))) (TSig [(TSlice (TBasic BUint8 true))] [(TBasic BInt false); (TNamed (TName 21 None "error") [])] false) None.
Definition k1 : tpkg := TPkg "fmt" [SEntry "Fprint" false (TBasic BInvalid false); SEntry "Print" false (TBasic BInvalid false); SEntry "Printf" false (TBasic BInvalid false); SEntry "Println" false (TBasic BInvalid false); SEntry "Sprintf" false (TBasic BInvalid false); SEntry "Stringer" true (TNamed (TName 53 (Some "fmt") "Stringer") [])].
Definition o58 : obj := Obj 58 "Fprint" (Some k1) 10000256 (OFunc (Some None)) (TSig [(TNamed (TName 47 (Some "io") "Writer") []); (TSlice (TAlias (TName 20 None "any") (TInterface [] "")))] [(TBasic BInt false); (TNamed (TName 21 None "error") [])] true) None.
Definition o54 : obj := Obj 54 "Print" (Some k1) 10000073 (OFunc (Some None)) (TSig [(TSlice (TAlias (TName 20 None "any") (TInterface [] "")))] [(TBasic BInt false); (TNamed (TName 21 None "error") [])] true) None.
Definition o56 : obj := Obj 56 "Printf" (Some k1) 10000155 (OFunc (Some None)) (TSig [(TBasic BString false); (TSlice (TAlias (TName 20 None "any") (TInterface [] "")))] [(TBasic BInt false); (TNamed (TName 21 None "error") [])] true) None.
Definition o55 : obj := Obj 55 "Println" (Some k1) 10000113 (OFunc (Some None)) (TSig [(TSlice (TAlias (TName 20 None "any") (TInterface [] "")))] [(TBasic BInt false); (TNamed (TName 21 None "error") [])] true) None.
Definition o57 : obj := Obj 57 "Sprintf" (Some k1) 10000211 (OFunc (Some None)) (TSig [(TBasic BString false); (TSlice (TAlias (TName 20 None "any") (TInterface [] "")))] [(TBasic BString false)] true) None.
Definition o53 : obj := Obj 53 "Stringer" (Some k1) 10000029 OTypeName (TNamed (TName 53 (Some "fmt") "Stringer") []) None.
Definition o59 : obj := Obj 59 "String" (Some k1) 10000050 (OFunc (Some (Some (TNamed (TName 53 (Some "fmt") "Stringer") [])))) (TSig [] [(TBasic BString false)] false) None.
Definition k2 : tpkg := TPkg "github.com/example/original" [SEntry "DefaultConfig" false (TBasic BInvalid false)].
Definition o79 : obj := Obj 79 "DefaultConfig" (Some k2) 10000401 (OVar false) (TBasic BString false) None.
(* replace-directives/replace_directives.go *)
Definition f4_0 : node := (NFile 1 false "" (Ident 1 "replacers" 9)
  [(NGenDecl 20 IMPORT "" [(NImportSpec 2 None 30 """fmt"""); (NImportSpec 3 (Some (Ident 4 "replaced" 38)) 47 """github.com/example/original""")]);
   (NFuncDecl "" 80 137 None (Ident 5 "Something" 85) (NFuncType 80 (NFieldList []) (NFieldList []) (NFieldList [])) (Some (NBlockStmt 97 [(NOther 100 [(NOther 100 [(NSelectorExpr (NIdent (Ident 6 "fmt" 100)) (Ident 7 "Println" 104)); (NSelectorExpr (NIdent (Ident 8 "replaced" 112)) (Ident 9 "DefaultConfig" 121))])])])))]).
Definition k3 : tpkg := TPkg "sg/replace-directives" [SEntry "Something" false (TBasic BInvalid false)].
Definition o80 : obj := Obj 80 "replaced" (Some k3) 38 (OPkgName "github.com/example/original") (TBasic BInvalid false) None.
Definition o81 : obj := Obj 81 "Something" (Some k3) 85 (OFunc (Some None)) (TSig [] [] false) None.
Definition o78 : obj := Obj 78 "fmt" (Some k3) 30 (OPkgName "fmt") (TBasic BInvalid false) None.
Definition defs4 : list (nat * obj) := [(4, o80); (5, o81)].
Definition uses4 : list (nat * obj) := [(6, o78); (7, o55); (8, o80); (9, o79)].
Definition canon4 : list (nat * hty) := [].
Definition pkgnames4 : list (nat * obj) := [(2, o78); (3, o80)].
Definition cases4 : list obj := [].
Definition o22 : obj := Obj 22 "Error" None 0 (OFunc (Some (Some (TNamed (TName 21 None "error") [])))) (TSig [] [(TBasic BString false)] false) None.
Definition hobjs : list (nat * hobj) := [(80, HObj "replaced" (Some (HPkg "sg/replace-directives" "replacers")) false (HPkgName "github.com/example/original"));
  (81, HObj "Something" (Some (HPkg "sg/replace-directives" "replacers")) true (HFunc None (HSig [] [] [] false)))].
Definition unders : list (nat * ty) := [(47, (TInterface [("Write", (TSig [(TSlice (TBasic BUint8 true))] [(TBasic BInt false); (TNamed (TName 21 None "error") [])] false))] ""));
  (21, (TInterface [("Error", (TSig [] [(TBasic BString false)] false))] ""));
  (53, (TInterface [("String", (TSig [] [(TBasic BString false)] false))] ""))].
Definition msets : list (nat * (list obj * list obj)) := [(47, ([o48], []));
  (53, ([o59], []));
  (21, ([o22], []))].
Definition digests : list (string * string) := [].
Definition formatted : list (string * string) := [].
Definition sources : list src := [Src "/repo/internal/testdata/snapshots/input/replace-directives/replace_directives.go" 1 "package replacers

import (
	""fmt""

	replaced ""github.com/example/original""
)

func Something() {
	fmt.Println(replaced.DefaultConfig)
}
" []].
Definition gomods : list (string * string) := [("/repo/internal/testdata/snapshots/input/replace-directives/localmod/go.mod", "github.com/example/replaced")].
Definition p1 : gpkg * option raw := (GPkg 1 "io" "io" None [] [] (Some k0) None, None).
Definition p2 : gpkg * option raw := (GPkg 2 "fmt" "fmt" None [("io", 1)] [] (Some k1) None, None).
Definition p3 : gpkg * option raw := (GPkg 3 "github.com/example/original" "replaced" (Some (GMod "github.com/example/original" "v0.0.0" "/repo/internal/testdata/snapshots/input/replace-directives/localmod" "/repo/internal/testdata/snapshots/input/replace-directives/localmod/go.mod" (Some (GMod "./localmod" "" "/repo/internal/testdata/snapshots/input/replace-directives/localmod" "/repo/internal/testdata/snapshots/input/replace-directives/localmod/go.mod" None)))) [] [] (Some k2) None, None).
Definition p4 : gpkg * option raw := (GPkg 4 "sg/replace-directives" "replacers" (Some (GMod "sg/replace-directives" "" "/repo/internal/testdata/snapshots/input/replace-directives" "/repo/internal/testdata/snapshots/input/replace-directives/go.mod" None)) [("fmt", 2); ("github.com/example/original", 3)] [f4_0] (Some k3) None, (Some (Raw defs4 uses4 pkgnames4 cases4 canon4))).
Definition packages : list (gpkg * option raw) := [p1; p2; p3; p4].
Definition roots : list nat := [4].
Definition scopes : list (nat * list obj) := [(1, [o47]); (2, [o58; o54; o56; o55; o57; o53]); (3, [o79])].
Definition levels : list nat := [].
Definition input : input := Input "/repo/internal/testdata/snapshots/input/replace-directives" "sg/replace-directives" false sources packages roots gomods digests formatted hobjs unders msets scopes levels.
Definition golden : list (string * string) := [("replace_directives.go", "  package replacers
//        ^^^^^^^^^ definition 0.1.test `sg/replace-directives`/
//                  kind Package
//                  display_name replacers
//                  signature_documentation
//                  > package replacers
  
  import (
   ""fmt""
//  ^^^ reference github.com/golang/go/src go1.22 fmt/
  
   replaced ""github.com/example/original""
// ^^^^^^^^ reference github.com/example/replaced 0.1.test `github.com/example/original`/
//           ^^^^^^^^^^^^^^^^^^^^^^^^^^^ reference github.com/example/replaced 0.1.test `github.com/example/original`/
  )
  
//⌄ enclosing_range_start 0.1.test `sg/replace-directives`/Something().
  func Something() {
//     ^^^^^^^^^ definition 0.1.test `sg/replace-directives`/Something().
//               kind Function
//               display_name Something
//               signature_documentation
//               > func Something()
   fmt.Println(replaced.DefaultConfig)
// ^^^ reference github.com/golang/go/src go1.22 fmt/
//     ^^^^^^^ reference github.com/golang/go/src go1.22 fmt/Println().
//             ^^^^^^^^ reference github.com/example/replaced 0.1.test `github.com/example/original`/
//                      ^^^^^^^^^^^^^ reference github.com/example/replaced 0.1.test `github.com/example/original`/DefaultConfig.
  }
//⌃ enclosing_range_end 0.1.test `sg/replace-directives`/Something().
  
")].

(** The model, run on the input directory, gives the golden files of /repo. *)
Example snapshot_replace_directives : snapshot input = Some golden.
Proof. vm_compute. reflexivity. Qed.
(** The directory meets the hypotheses of the theorems (Contract.scopes_contract_ok). *)
Example snapshot_replace_directives_contract : contract input = true ∧ scopesb input = true.
Proof. split; vm_compute; reflexivity. Qed.
