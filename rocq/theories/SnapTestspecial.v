(** Generated by tools/snapshot/emit.py from /repo/internal/testdata/snapshots/{input,output}/testspecial: what packages.Load
    returns for that directory (syntax, types, modules; dependencies reduced to the declarations used), and the golden output. *)
From Coq Require Import Ascii String.
From stdpp Require Import prelude strings gmap.
From Verif Require Import GoStr Scip GoTypes Ast Packages Source Signature Snapshot Contract.
Open Scope string_scope.
Open Scope list_scope.
(* testspecial/foo.go *)
Definition f1_0 : node := (NFile 1 false "" (Ident 1 "testspecial" 9)
  [(NFuncDecl "" 22 35 None (Ident 2 "Foo" 27) (NFuncType 22 (NFieldList []) (NFieldList []) (NFieldList [])) (Some (NBlockStmt 33 [])))]).
Definition k0 : tpkg := TPkg "sg/testspecial" [SEntry "Foo" false (TBasic BInvalid false)].
Definition o47 : obj := Obj 47 "Foo" (Some k0) 27 (OFunc (Some None)) (TSig [] [] false) None.
Definition defs1 : list (nat * obj) := [(2, o47)].
Definition uses1 : list (nat * obj) := [].
Definition canon1 : list (nat * hty) := [].
Definition pkgnames1 : list (nat * obj) := [].
Definition cases1 : list obj := [].
(* testspecial/foo.go *)
Definition f2_0 : node := (NFile 37 false "" (Ident 3 "testspecial" 45)
  [(NFuncDecl "" 58 71 None (Ident 4 "Foo" 63) (NFuncType 58 (NFieldList []) (NFieldList []) (NFieldList [])) (Some (NBlockStmt 69 [])))]).
(* testspecial/foo_test.go *)
Definition f2_1 : node := (NFile 73 false "" (Ident 5 "testspecial" 81)
  [(NFuncDecl "" 94 127 None (Ident 6 "TestFoo_Whitebox" 99) (NFuncType 94 (NFieldList []) (NFieldList []) (NFieldList [])) (Some (NBlockStmt 118 [(NOther 120 [(NOther 120 [(NIdent (Ident 7 "Foo" 120))])])])))]).
Definition k1 : tpkg := TPkg "sg/testspecial" [SEntry "Foo" false (TBasic BInvalid false); SEntry "TestFoo_Whitebox" false (TBasic BInvalid false)].
Definition o48 : obj := Obj 48 "Foo" (Some k1) 63 (OFunc (Some None)) (TSig [] [] false) None.
Definition o49 : obj := Obj 49 "TestFoo_Whitebox" (Some k1) 99 (OFunc (Some None)) (TSig [] [] false) None.
Definition defs2 : list (nat * obj) := [(4, o48); (6, o49)].
Definition uses2 : list (nat * obj) := [(7, o48)].
Definition canon2 : list (nat * hty) := [].
Definition pkgnames2 : list (nat * obj) := [].
Definition cases2 : list obj := [].
Definition k2 : tpkg := TPkg "testing" [SEntry "T" true (TNamed (TName 52 (Some "testing") "T") []); SEntry "common" true (TNamed (TName 50 (Some "testing") "common") [])].
Definition o52 : obj := Obj 52 "T" (Some k2) 10000090 OTypeName (TNamed (TName 52 (Some "testing") "T") []) None.
Definition o50 : obj := Obj 50 "common" (Some k2) 10000021 OTypeName (TNamed (TName 50 (Some "testing") "common") []) None.
Definition o51 : obj := Obj 51 "Log" (Some k2) 10000068 (OFunc (Some (Some (TPointer (TNamed (TName 50 (Some "testing") "common") []))))) (TSig [(TSlice (TAlias (TName 20 None "any") (TInterface [] "")))] [] true) None.
(* testspecial/foo_other_test.go *)
Definition f4_0 : node := (NFile 129 false "" (Ident 8 "testspecial_test" 137)
  [(NGenDecl 155 IMPORT "" [(NImportSpec 9 None 165 """testing"""); (NImportSpec 10 None 177 """sg/testspecial""")]);
   (NFuncDecl "" 197 252 None (Ident 11 "TestFoo_Blackbox" 202) (NFuncType 197 (NFieldList []) (NFieldList [(NField "" "" [] (NStarExpr 219 (NSelectorExpr (NIdent (Ident 12 "testing" 220)) (Ident 13 "T" 228))))]) (NFieldList [])) (Some (NBlockStmt 231 [(NOther 233 [(NOther 233 [(NSelectorExpr (NIdent (Ident 14 "testspecial" 233)) (Ident 15 "Foo" 245))])])])))]).
Definition k3 : tpkg := TPkg "sg/testspecial_test" [SEntry "TestFoo_Blackbox" false (TBasic BInvalid false)].
Definition o59 : obj := Obj 59 "TestFoo_Blackbox" (Some k3) 202 (OFunc (Some None)) (TSig [(TPointer (TNamed (TName 52 (Some "testing") "T") []))] [] false) None.
Definition o57 : obj := Obj 57 "testing" (Some k3) 165 (OPkgName "testing") (TBasic BInvalid false) None.
Definition o58 : obj := Obj 58 "testspecial" (Some k3) 177 (OPkgName "sg/testspecial") (TBasic BInvalid false) None.
Definition defs4 : list (nat * obj) := [(11, o59)].
Definition uses4 : list (nat * obj) := [(12, o57); (13, o52); (14, o58); (15, o47)].
Definition canon4 : list (nat * hty) := [].
Definition pkgnames4 : list (nat * obj) := [(9, o57); (10, o58)].
Definition cases4 : list obj := [].
Definition hobjs : list (nat * hobj) := [(47, HObj "Foo" (Some (HPkg "sg/testspecial" "testspecial")) true (HFunc None (HSig [] [] [] false)));
  (48, HObj "Foo" (Some (HPkg "sg/testspecial" "testspecial")) true (HFunc None (HSig [] [] [] false)));
  (49, HObj "TestFoo_Whitebox" (Some (HPkg "sg/testspecial" "testspecial")) true (HFunc None (HSig [] [] [] false)));
  (59, HObj "TestFoo_Blackbox" (Some (HPkg "sg/testspecial_test" "testspecial_test")) true (HFunc None (HSig [] [("", (HPointer (HNamed (HName (Some (HPkg "testing" "testing")) "T") [] [])))] [] false)))].
Definition unders : list (nat * ty) := [(52, (TStruct [(FHdr 56 "common" (Some "testing") true "", (TNamed (TName 50 (Some "testing") "common") []))]));
  (50, (TStruct [(FHdr 53 "failed" (Some "testing") false "", (TBasic BBool false))]))].
Definition msets : list (nat * (list obj * list obj)) := [(52, ([], [o51]));
  (50, ([], [o51]))].
Definition digests : list (string * string) := [].
Definition formatted : list (string * string) := [].
Definition sources : list src := [Src "/repo/internal/testdata/snapshots/input/testspecial/foo.go" 1 "package testspecial

func Foo() {}
" [];
  Src "/repo/internal/testdata/snapshots/input/testspecial/foo.go" 37 "package testspecial

func Foo() {}
" [];
  Src "/repo/internal/testdata/snapshots/input/testspecial/foo_test.go" 73 "package testspecial

func TestFoo_Whitebox() { Foo() }
" [];
  Src "/repo/internal/testdata/snapshots/input/testspecial/foo_other_test.go" 129 "package testspecial_test

import (
	""testing""

	""sg/testspecial""
)

func TestFoo_Blackbox(*testing.T) { testspecial.Foo() }
" []].
Definition gomods : list (string * string) := [].
Definition p1 : gpkg * option raw := (GPkg 1 "sg/testspecial" "testspecial" (Some (GMod "sg/testspecial" "" "/repo/internal/testdata/snapshots/input/testspecial" "/repo/internal/testdata/snapshots/input/testspecial/go.mod" None)) [] [f1_0] (Some k0) None, (Some (Raw defs1 uses1 pkgnames1 cases1 canon1))).
Definition p2 : gpkg * option raw := (GPkg 2 "sg/testspecial" "testspecial" (Some (GMod "sg/testspecial" "" "/repo/internal/testdata/snapshots/input/testspecial" "/repo/internal/testdata/snapshots/input/testspecial/go.mod" None)) [] [f2_0; f2_1] (Some k1) None, (Some (Raw defs2 uses2 pkgnames2 cases2 canon2))).
Definition p3 : gpkg * option raw := (GPkg 3 "testing" "testing" None [] [] (Some k2) None, None).
Definition p4 : gpkg * option raw := (GPkg 4 "sg/testspecial_test" "testspecial_test" (Some (GMod "sg/testspecial" "" "/repo/internal/testdata/snapshots/input/testspecial" "/repo/internal/testdata/snapshots/input/testspecial/go.mod" None)) [("testing", 3); ("sg/testspecial", 1)] [f4_0] (Some k3) None, (Some (Raw defs4 uses4 pkgnames4 cases4 canon4))).
Definition packages : list (gpkg * option raw) := [p1; p2; p3; p4].
Definition roots : list nat := [1; 2; 4].
Definition scopes : list (nat * list obj) := [(3, [o52; o50])].
Definition levels : list nat := [].
Definition input : input := Input "/repo/internal/testdata/snapshots/input/testspecial" "sg/testspecial" false sources packages roots gomods digests formatted hobjs unders msets scopes levels.
Definition golden : list (string * string) := [("foo.go", "  package testspecial
//        ^^^^^^^^^^^ definition 0.1.test `sg/testspecial`/
//                    kind Package
//                    display_name testspecial
//                    signature_documentation
//                    > package testspecial
  
//⌄ enclosing_range_start 0.1.test `sg/testspecial`/Foo().
  func Foo() {}
//     ^^^ definition 0.1.test `sg/testspecial`/Foo().
//         kind Function
//         display_name Foo
//         signature_documentation
//         > func Foo()
//            ⌃ enclosing_range_end 0.1.test `sg/testspecial`/Foo().
  
");
  ("foo_other_test.go", "  package testspecial_test
//        ^^^^^^^^^^^^^^^^ definition 0.1.test `sg/testspecial_test`/
//                         kind Package
//                         display_name testspecial_test
//                         signature_documentation
//                         > package testspecial_test
  
  import (
   ""testing""
//  ^^^^^^^ reference github.com/golang/go/src go1.22 testing/
  
   ""sg/testspecial""
//  ^^^^^^^^^^^^^^ reference 0.1.test `sg/testspecial`/
  )
  
//⌄ enclosing_range_start 0.1.test `sg/testspecial_test`/TestFoo_Blackbox().
  func TestFoo_Blackbox(*testing.T) { testspecial.Foo() }
//     ^^^^^^^^^^^^^^^^ definition 0.1.test `sg/testspecial_test`/TestFoo_Blackbox().
//                      kind Function
//                      display_name TestFoo_Blackbox
//                      signature_documentation
//                      > func TestFoo_Blackbox(*testing.T)
//                       ^^^^^^^ reference github.com/golang/go/src go1.22 testing/
//                               ^ reference github.com/golang/go/src go1.22 testing/T#
//                                    ^^^^^^^^^^^ reference 0.1.test `sg/testspecial`/
//                                                ^^^ reference 0.1.test `sg/testspecial`/Foo().
//                                                      ⌃ enclosing_range_end 0.1.test `sg/testspecial_test`/TestFoo_Blackbox().
  
");
  ("foo_test.go", "  package testspecial
//        ^^^^^^^^^^^ definition 0.1.test `sg/testspecial`/
  
//⌄ enclosing_range_start 0.1.test `sg/testspecial`/TestFoo_Whitebox().
  func TestFoo_Whitebox() { Foo() }
//     ^^^^^^^^^^^^^^^^ definition 0.1.test `sg/testspecial`/TestFoo_Whitebox().
//                      kind Function
//                      display_name TestFoo_Whitebox
//                      signature_documentation
//                      > func TestFoo_Whitebox()
//                          ^^^ reference 0.1.test `sg/testspecial`/Foo().
//                                ⌃ enclosing_range_end 0.1.test `sg/testspecial`/TestFoo_Whitebox().
  
")].

(** The model, run on the input directory, gives the golden files of /repo. *)
Example snapshot_testspecial : snapshot input = Some golden.
Proof. vm_compute. reflexivity. Qed.
(** The directory meets the hypotheses of the theorems (Contract.scopes_contract_ok). *)
Example snapshot_testspecial_contract : contract input = true ∧ scopesb input = true.
Proof. split; vm_compute; reflexivity. Qed.
