(** Generated by tools/snapshot/emit.py from /repo/internal/testdata/snapshots/{input,output}/pr256: what packages.Load
    returns for that directory (syntax, types, modules; dependencies reduced to the declarations used), and the golden output. *)
From Coq Require Import Ascii String.
From stdpp Require Import prelude strings gmap.
From Verif Require Import GoStr Scip GoTypes Ast Packages Source Signature Snapshot Contract.
Open Scope string_scope.
Open Scope list_scope.
Definition k0 : tpkg := TPkg "testing" [SEntry "T" true (TNamed (TName 49 (Some "testing") "T") []); SEntry "common" true (TNamed (TName 47 (Some "testing") "common") [])].
Definition o49 : obj := Obj 49 "T" (Some k0) 10000090 OTypeName (TNamed (TName 49 (Some "testing") "T") []) None.
Definition o47 : obj := Obj 47 "common" (Some k0) 10000021 OTypeName (TNamed (TName 47 (Some "testing") "common") []) None.
Definition o48 : obj := Obj 48 "Log" (Some k0) 10000068 (OFunc (Some (Some (TPointer (TNamed (TName 47 (Some "testing") "common") []))))) (TSig [(TSlice (TAlias (TName 20 None "any") (TInterface [] "")))] [] true) None.
(* pr256/pr256_test.go *)
Definition f2_0 : node := (NFile 1 false "" (Ident 1 "pr256_test" 9)
  [(NGenDecl 21 IMPORT "" [(NImportSpec 2 None 28 """testing""")]);
   (NFuncDecl "" 39 72 None (Ident 3 "TestComment" 44) (NFuncType 39 (NFieldList []) (NFieldList [(NField "" "" [(Ident 4 "t" 56)] (NStarExpr 58 (NSelectorExpr (NIdent (Ident 5 "testing" 59)) (Ident 6 "T" 67))))]) (NFieldList [])) (Some (NBlockStmt 70 [])))]).
Definition k1 : tpkg := TPkg "sg/pr256_test" [SEntry "TestComment" false (TBasic BInvalid false)].
Definition o55 : obj := Obj 55 "TestComment" (Some k1) 44 (OFunc (Some None)) (TSig [(TPointer (TNamed (TName 49 (Some "testing") "T") []))] [] false) None.
Definition o56 : obj := Obj 56 "t" (Some k1) 56 (OVar false) (TPointer (TNamed (TName 49 (Some "testing") "T") [])) None.
Definition o54 : obj := Obj 54 "testing" (Some k1) 28 (OPkgName "testing") (TBasic BInvalid false) None.
Definition defs2 : list (nat * obj) := [(3, o55); (4, o56)].
Definition uses2 : list (nat * obj) := [(5, o54); (6, o49)].
Definition canon2 : list (nat * hty) := [].
Definition pkgnames2 : list (nat * obj) := [(2, o54)].
Definition cases2 : list obj := [].
Definition hobjs : list (nat * hobj) := [(55, HObj "TestComment" (Some (HPkg "sg/pr256_test" "pr256_test")) true (HFunc None (HSig [] [("t", (HPointer (HNamed (HName (Some (HPkg "testing" "testing")) "T") [] [])))] [] false)));
  (56, HObj "t" (Some (HPkg "sg/pr256_test" "pr256_test")) false (HVar false (HPointer (HNamed (HName (Some (HPkg "testing" "testing")) "T") [] []))))].
Definition unders : list (nat * ty) := [(49, (TStruct [(FHdr 53 "common" (Some "testing") true "", (TNamed (TName 47 (Some "testing") "common") []))]));
  (47, (TStruct [(FHdr 50 "failed" (Some "testing") false "", (TBasic BBool false))]))].
Definition msets : list (nat * (list obj * list obj)) := [(49, ([], [o48]));
  (47, ([], [o48]))].
Definition digests : list (string * string) := [].
Definition formatted : list (string * string) := [].
Definition sources : list src := [Src "/repo/internal/testdata/snapshots/input/pr256/pr256_test.go" 1 "package pr256_test

import ""testing""

func TestComment(t *testing.T) {}
" []].
Definition gomods : list (string * string) := [].
Definition p1 : gpkg * option raw := (GPkg 1 "testing" "testing" None [] [] (Some k0) None, None).
Definition p2 : gpkg * option raw := (GPkg 2 "sg/pr256_test" "pr256_test" (Some (GMod "sg/pr256" "" "/repo/internal/testdata/snapshots/input/pr256" "/repo/internal/testdata/snapshots/input/pr256/go.mod" None)) [("testing", 1)] [f2_0] (Some k1) None, (Some (Raw defs2 uses2 pkgnames2 cases2 canon2))).
Definition packages : list (gpkg * option raw) := [p1; p2].
Definition roots : list nat := [2].
Definition scopes : list (nat * list obj) := [(1, [o49; o47])].
Definition levels : list nat := [].
Definition input : input := Input "/repo/internal/testdata/snapshots/input/pr256" "sg/pr256" false sources packages roots gomods digests formatted hobjs unders msets scopes levels.
Definition golden : list (string * string) := [("pr256_test.go", "  package pr256_test
//        ^^^^^^^^^^ definition 0.1.test `sg/pr256_test`/
//                   kind Package
//                   display_name pr256_test
//                   signature_documentation
//                   > package pr256_test
  
  import ""testing""
//        ^^^^^^^ reference github.com/golang/go/src go1.22 testing/
  
//⌄ enclosing_range_start 0.1.test `sg/pr256_test`/TestComment().
  func TestComment(t *testing.T) {}
//     ^^^^^^^^^^^ definition 0.1.test `sg/pr256_test`/TestComment().
//                 kind Function
//                 display_name TestComment
//                 signature_documentation
//                 > func TestComment(t *testing.T)
//                 ^ definition local 0
//                   kind Variable
//                   display_name t
//                   signature_documentation
//                   > var t *T
//                    ^^^^^^^ reference github.com/golang/go/src go1.22 testing/
//                            ^ reference github.com/golang/go/src go1.22 testing/T#
//                                ⌃ enclosing_range_end 0.1.test `sg/pr256_test`/TestComment().
  
")].

(** The model, run on the input directory, gives the golden files of /repo. *)
Example snapshot_pr256 : snapshot input = Some golden.
Proof. vm_compute. reflexivity. Qed.
(** The directory meets the hypotheses of the theorems (Contract.scopes_contract_ok). *)
Example snapshot_pr256_contract : contract input = true ∧ scopesb input = true.
Proof. split; vm_compute; reflexivity. Qed.
