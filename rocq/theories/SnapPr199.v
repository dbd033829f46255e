(** Generated by tools/snapshot/emit.py from /repo/internal/testdata/snapshots/{input,output}/pr199: what packages.Load
    returns for that directory (syntax, types, modules; dependencies reduced to the declarations used), and the golden output. *)
From Coq Require Import Ascii String.
From stdpp Require Import prelude strings gmap.
From Verif Require Import GoStr Scip GoTypes Ast Packages Source Signature Snapshot Contract.
Open Scope string_scope.
Open Scope list_scope.
(* pr199/doc.go *)
Definition f1_0 : node := (NFile 71 true "Package pr199 tests package definition and documentation handling.
" (Ident 1 "pr199" 79)
  [(NFuncDecl "" 86 103 None (Ident 2 "FromDoc" 91) (NFuncType 86 (NFieldList []) (NFieldList []) (NFieldList [])) (Some (NBlockStmt 101 [])))]).
(* pr199/no_doc.go *)
Definition f1_1 : node := (NFile 137 true "Documentation for no_doc.go.
" (Ident 3 "pr199" 145)
  [(NFuncDecl "" 152 171 None (Ident 4 "FromNoDoc" 157) (NFuncType 152 (NFieldList []) (NFieldList []) (NFieldList [])) (Some (NBlockStmt 169 [])))]).
(* pr199/pr199.go *)
Definition f1_2 : node := (NFile 221 true "Additional documentation from the main file.
" (Ident 5 "pr199" 229)
  [(NFuncDecl "" 236 254 None (Ident 6 "FromMain" 241) (NFuncType 236 (NFieldList []) (NFieldList []) (NFieldList [])) (Some (NBlockStmt 252 [])))]).
Definition k0 : tpkg := TPkg "sg/pr199" [SEntry "FromDoc" false (TBasic BInvalid false); SEntry "FromMain" false (TBasic BInvalid false); SEntry "FromNoDoc" false (TBasic BInvalid false)].
Definition o47 : obj := Obj 47 "FromDoc" (Some k0) 91 (OFunc (Some None)) (TSig [] [] false) None.
Definition o48 : obj := Obj 48 "FromNoDoc" (Some k0) 157 (OFunc (Some None)) (TSig [] [] false) None.
Definition o49 : obj := Obj 49 "FromMain" (Some k0) 241 (OFunc (Some None)) (TSig [] [] false) None.
Definition defs1 : list (nat * obj) := [(2, o47); (4, o48); (6, o49)].
Definition uses1 : list (nat * obj) := [].
Definition canon1 : list (nat * hty) := [].
Definition pkgnames1 : list (nat * obj) := [].
Definition cases1 : list obj := [].
Definition k1 : tpkg := TPkg "testing" [SEntry "T" true (TNamed (TName 55 (Some "testing") "T") []); SEntry "common" true (TNamed (TName 53 (Some "testing") "common") [])].
Definition o55 : obj := Obj 55 "T" (Some k1) 10000090 OTypeName (TNamed (TName 55 (Some "testing") "T") []) None.
Definition o53 : obj := Obj 53 "common" (Some k1) 10000021 OTypeName (TNamed (TName 53 (Some "testing") "common") []) None.
Definition o54 : obj := Obj 54 "Log" (Some k1) 10000068 (OFunc (Some (Some (TPointer (TNamed (TName 53 (Some "testing") "common") []))))) (TSig [(TSlice (TAlias (TName 20 None "any") (TInterface [] "")))] [] true) None.
(* pr199/doc.go *)
Definition f3_0 : node := (NFile 326 true "Package pr199 tests package definition and documentation handling.
" (Ident 7 "pr199" 334)
  [(NFuncDecl "" 341 358 None (Ident 8 "FromDoc" 346) (NFuncType 341 (NFieldList []) (NFieldList []) (NFieldList [])) (Some (NBlockStmt 356 [])))]).
(* pr199/no_doc.go *)
Definition f3_1 : node := (NFile 392 true "Documentation for no_doc.go.
" (Ident 9 "pr199" 400)
  [(NFuncDecl "" 407 426 None (Ident 10 "FromNoDoc" 412) (NFuncType 407 (NFieldList []) (NFieldList []) (NFieldList [])) (Some (NBlockStmt 424 [])))]).
(* pr199/pr199.go *)
Definition f3_2 : node := (NFile 476 true "Additional documentation from the main file.
" (Ident 11 "pr199" 484)
  [(NFuncDecl "" 491 509 None (Ident 12 "FromMain" 496) (NFuncType 491 (NFieldList []) (NFieldList []) (NFieldList [])) (Some (NBlockStmt 507 [])))]).
(* pr199/pr199_test.go *)
Definition f3_3 : node := (NFile 549 true "Test file documentation for pr199.
" (Ident 13 "pr199" 557)
  [(NGenDecl 564 IMPORT "" [(NImportSpec 14 None 571 """testing""")]);
   (NFuncDecl "" 582 615 None (Ident 15 "TestExample" 587) (NFuncType 582 (NFieldList []) (NFieldList [(NField "" "" [(Ident 16 "t" 599)] (NStarExpr 601 (NSelectorExpr (NIdent (Ident 17 "testing" 602)) (Ident 18 "T" 610))))]) (NFieldList [])) (Some (NBlockStmt 613 [])))]).
Definition k2 : tpkg := TPkg "sg/pr199" [SEntry "FromDoc" false (TBasic BInvalid false); SEntry "FromMain" false (TBasic BInvalid false); SEntry "FromNoDoc" false (TBasic BInvalid false); SEntry "TestExample" false (TBasic BInvalid false)].
Definition o50 : obj := Obj 50 "FromDoc" (Some k2) 346 (OFunc (Some None)) (TSig [] [] false) None.
Definition o51 : obj := Obj 51 "FromNoDoc" (Some k2) 412 (OFunc (Some None)) (TSig [] [] false) None.
Definition o52 : obj := Obj 52 "FromMain" (Some k2) 496 (OFunc (Some None)) (TSig [] [] false) None.
Definition o61 : obj := Obj 61 "TestExample" (Some k2) 587 (OFunc (Some None)) (TSig [(TPointer (TNamed (TName 55 (Some "testing") "T") []))] [] false) None.
Definition o62 : obj := Obj 62 "t" (Some k2) 599 (OVar false) (TPointer (TNamed (TName 55 (Some "testing") "T") [])) None.
Definition o60 : obj := Obj 60 "testing" (Some k2) 571 (OPkgName "testing") (TBasic BInvalid false) None.
Definition defs3 : list (nat * obj) := [(8, o50); (10, o51); (12, o52); (15, o61); (16, o62)].
Definition uses3 : list (nat * obj) := [(17, o60); (18, o55)].
Definition canon3 : list (nat * hty) := [].
Definition pkgnames3 : list (nat * obj) := [(14, o60)].
Definition cases3 : list obj := [].
Definition hobjs : list (nat * hobj) := [(47, HObj "FromDoc" (Some (HPkg "sg/pr199" "pr199")) true (HFunc None (HSig [] [] [] false)));
  (48, HObj "FromNoDoc" (Some (HPkg "sg/pr199" "pr199")) true (HFunc None (HSig [] [] [] false)));
  (49, HObj "FromMain" (Some (HPkg "sg/pr199" "pr199")) true (HFunc None (HSig [] [] [] false)));
  (50, HObj "FromDoc" (Some (HPkg "sg/pr199" "pr199")) true (HFunc None (HSig [] [] [] false)));
  (51, HObj "FromNoDoc" (Some (HPkg "sg/pr199" "pr199")) true (HFunc None (HSig [] [] [] false)));
  (52, HObj "FromMain" (Some (HPkg "sg/pr199" "pr199")) true (HFunc None (HSig [] [] [] false)));
  (61, HObj "TestExample" (Some (HPkg "sg/pr199" "pr199")) true (HFunc None (HSig [] [("t", (HPointer (HNamed (HName (Some (HPkg "testing" "testing")) "T") [] [])))] [] false)));
  (62, HObj "t" (Some (HPkg "sg/pr199" "pr199")) false (HVar false (HPointer (HNamed (HName (Some (HPkg "testing" "testing")) "T") [] []))))].
Definition unders : list (nat * ty) := [(55, (TStruct [(FHdr 59 "common" (Some "testing") true "", (TNamed (TName 53 (Some "testing") "common") []))]));
  (53, (TStruct [(FHdr 56 "failed" (Some "testing") false "", (TBasic BBool false))]))].
Definition msets : list (nat * (list obj * list obj)) := [(55, ([], [o54]));
  (53, ([], [o54]))].
Definition digests : list (string * string) := [].
Definition formatted : list (string * string) := [].
Definition sources : list src := [Src "/repo/internal/testdata/snapshots/input/pr199/doc.go" 1 "// Package pr199 tests package definition and documentation handling.
package pr199

func FromDoc() {}
" [];
  Src "/repo/internal/testdata/snapshots/input/pr199/no_doc.go" 105 "// Documentation for no_doc.go.
package pr199

func FromNoDoc() {}
" [];
  Src "/repo/internal/testdata/snapshots/input/pr199/pr199.go" 173 "// Additional documentation from the main file.
package pr199

func FromMain() {}
" [];
  Src "/repo/internal/testdata/snapshots/input/pr199/doc.go" 256 "// Package pr199 tests package definition and documentation handling.
package pr199

func FromDoc() {}
" [];
  Src "/repo/internal/testdata/snapshots/input/pr199/no_doc.go" 360 "// Documentation for no_doc.go.
package pr199

func FromNoDoc() {}
" [];
  Src "/repo/internal/testdata/snapshots/input/pr199/pr199.go" 428 "// Additional documentation from the main file.
package pr199

func FromMain() {}
" [];
  Src "/repo/internal/testdata/snapshots/input/pr199/pr199_test.go" 511 "// Test file documentation for pr199.
package pr199

import ""testing""

func TestExample(t *testing.T) {}
" []].
Definition gomods : list (string * string) := [].
Definition p1 : gpkg * option raw := (GPkg 1 "sg/pr199" "pr199" (Some (GMod "sg/pr199" "" "/repo/internal/testdata/snapshots/input/pr199" "/repo/internal/testdata/snapshots/input/pr199/go.mod" None)) [] [f1_0; f1_1; f1_2] (Some k0) None, (Some (Raw defs1 uses1 pkgnames1 cases1 canon1))).
Definition p2 : gpkg * option raw := (GPkg 2 "testing" "testing" None [] [] (Some k1) None, None).
Definition p3 : gpkg * option raw := (GPkg 3 "sg/pr199" "pr199" (Some (GMod "sg/pr199" "" "/repo/internal/testdata/snapshots/input/pr199" "/repo/internal/testdata/snapshots/input/pr199/go.mod" None)) [("testing", 2)] [f3_0; f3_1; f3_2; f3_3] (Some k2) None, (Some (Raw defs3 uses3 pkgnames3 cases3 canon3))).
Definition packages : list (gpkg * option raw) := [p1; p2; p3].
Definition roots : list nat := [1; 3].
Definition scopes : list (nat * list obj) := [(2, [o55; o53])].
Definition levels : list nat := [].
Definition input : input := Input "/repo/internal/testdata/snapshots/input/pr199" "sg/pr199" false sources packages roots gomods digests formatted hobjs unders msets scopes levels.
Definition golden : list (string * string) := [("doc.go", "  // Package pr199 tests package definition and documentation handling.
  package pr199
//        ^^^^^ definition 0.1.test `sg/pr199`/
//              kind Package
//              display_name pr199
//              signature_documentation
//              > package pr199
//              documentation
//              > Package pr199 tests package definition and documentation handling.
//              documentation
//              > Additional documentation from the main file.
//              documentation
//              > Documentation for no_doc.go.
//              documentation
//              > Test file documentation for pr199.
  
//⌄ enclosing_range_start 0.1.test `sg/pr199`/FromDoc().
  func FromDoc() {}
//     ^^^^^^^ definition 0.1.test `sg/pr199`/FromDoc().
//             kind Function
//             display_name FromDoc
//             signature_documentation
//             > func FromDoc()
//                ⌃ enclosing_range_end 0.1.test `sg/pr199`/FromDoc().
  
");
  ("no_doc.go", "  // Documentation for no_doc.go.
  package pr199
//        ^^^^^ definition 0.1.test `sg/pr199`/
  
//⌄ enclosing_range_start 0.1.test `sg/pr199`/FromNoDoc().
  func FromNoDoc() {}
//     ^^^^^^^^^ definition 0.1.test `sg/pr199`/FromNoDoc().
//               kind Function
//               display_name FromNoDoc
//               signature_documentation
//               > func FromNoDoc()
//                  ⌃ enclosing_range_end 0.1.test `sg/pr199`/FromNoDoc().
  
");
  ("pr199.go", "  // Additional documentation from the main file.
  package pr199
//        ^^^^^ definition 0.1.test `sg/pr199`/
  
//⌄ enclosing_range_start 0.1.test `sg/pr199`/FromMain().
  func FromMain() {}
//     ^^^^^^^^ definition 0.1.test `sg/pr199`/FromMain().
//              kind Function
//              display_name FromMain
//              signature_documentation
//              > func FromMain()
//                 ⌃ enclosing_range_end 0.1.test `sg/pr199`/FromMain().
  
");
  ("pr199_test.go", "  // Test file documentation for pr199.
  package pr199
//        ^^^^^ definition 0.1.test `sg/pr199`/
  
  import ""testing""
//        ^^^^^^^ reference github.com/golang/go/src go1.22 testing/
  
//⌄ enclosing_range_start 0.1.test `sg/pr199`/TestExample().
  func TestExample(t *testing.T) {}
//     ^^^^^^^^^^^ definition 0.1.test `sg/pr199`/TestExample().
//                 kind Function
//                 display_name TestExample
//                 signature_documentation
//                 > func TestExample(t *testing.T)
//                 ^ definition local 0
//                   kind Variable
//                   display_name t
//                   signature_documentation
//                   > var t *T
//                    ^^^^^^^ reference github.com/golang/go/src go1.22 testing/
//                            ^ reference github.com/golang/go/src go1.22 testing/T#
//                                ⌃ enclosing_range_end 0.1.test `sg/pr199`/TestExample().
  
")].

(** The model, run on the input directory, gives the golden files of /repo. *)
Example snapshot_pr199 : snapshot input = Some golden.
Proof. vm_compute. reflexivity. Qed.
(** The directory meets the hypotheses of the theorems (Contract.scopes_contract_ok). *)
Example snapshot_pr199_contract : contract input = true ∧ scopesb input = true.
Proof. split; vm_compute; reflexivity. Qed.
