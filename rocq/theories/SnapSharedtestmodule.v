(** Generated by tools/snapshot/emit.py from /repo/internal/testdata/snapshots/{input,output}/sharedtestmodule: what packages.Load
    returns for that directory (syntax, types, modules; dependencies reduced to the declarations used), and the golden output. *)
From Coq Require Import Ascii String.
From stdpp Require Import prelude strings gmap.
From Verif Require Import GoStr Scip GoTypes Ast Packages Source Signature Snapshot Contract.
Open Scope string_scope.
Open Scope list_scope.
(* sharedtestmodule/cmd/gitserver/server/cleanup.go *)
Definition f1_0 : node := (NFile 1 false "" (Ident 1 "server" 9)
  [(NFuncDecl "" 17 44 None (Ident 2 "LiterallyAnything" 22) (NFuncType 17 (NFieldList []) (NFieldList []) (NFieldList [])) (Some (NBlockStmt 42 [])))]).
(* sharedtestmodule/cmd/gitserver/server/server.go *)
Definition f1_1 : node := (NFile 46 false "" (Ident 3 "server" 54)
  [(NFuncDecl "" 62 85 None (Ident 4 "AnythingAtAll" 67) (NFuncType 62 (NFieldList []) (NFieldList []) (NFieldList [])) (Some (NBlockStmt 83 [])))]).
Definition k0 : tpkg := TPkg "sg/sharedtestmodule/cmd/gitserver/server" [SEntry "AnythingAtAll" false (TBasic BInvalid false); SEntry "LiterallyAnything" false (TBasic BInvalid false)].
Definition o47 : obj := Obj 47 "LiterallyAnything" (Some k0) 22 (OFunc (Some None)) (TSig [] [] false) None.
Definition o48 : obj := Obj 48 "AnythingAtAll" (Some k0) 67 (OFunc (Some None)) (TSig [] [] false) None.
Definition defs1 : list (nat * obj) := [(2, o47); (4, o48)].
Definition uses1 : list (nat * obj) := [].
Definition canon1 : list (nat * hty) := [].
Definition pkgnames1 : list (nat * obj) := [].
Definition cases1 : list obj := [].
Definition k1 : tpkg := TPkg "testing" [SEntry "T" true (TNamed (TName 53 (Some "testing") "T") []); SEntry "common" true (TNamed (TName 51 (Some "testing") "common") [])].
Definition o53 : obj := Obj 53 "T" (Some k1) 10000090 OTypeName (TNamed (TName 53 (Some "testing") "T") []) None.
Definition o51 : obj := Obj 51 "common" (Some k1) 10000021 OTypeName (TNamed (TName 51 (Some "testing") "common") []) None.
Definition o52 : obj := Obj 52 "Log" (Some k1) 10000068 (OFunc (Some (Some (TPointer (TNamed (TName 51 (Some "testing") "common") []))))) (TSig [(TSlice (TAlias (TName 20 None "any") (TInterface [] "")))] [] true) None.
(* sharedtestmodule/cmd/gitserver/server/cleanup.go *)
Definition f3_0 : node := (NFile 87 false "" (Ident 5 "server" 95)
  [(NFuncDecl "" 103 130 None (Ident 6 "LiterallyAnything" 108) (NFuncType 103 (NFieldList []) (NFieldList []) (NFieldList [])) (Some (NBlockStmt 128 [])))]).
(* sharedtestmodule/cmd/gitserver/server/server.go *)
Definition f3_1 : node := (NFile 132 false "" (Ident 7 "server" 140)
  [(NFuncDecl "" 148 171 None (Ident 8 "AnythingAtAll" 153) (NFuncType 148 (NFieldList []) (NFieldList []) (NFieldList [])) (Some (NBlockStmt 169 [])))]).
(* sharedtestmodule/cmd/gitserver/server/cleanup_test.go *)
Definition f3_2 : node := (NFile 173 false "" (Ident 9 "server" 181)
  [(NGenDecl 189 IMPORT "" [(NImportSpec 10 None 196 """testing""")]);
   (NFuncDecl "" 207 308 None (Ident 11 "TestStuff" 212) (NFuncType 207 (NFieldList []) (NFieldList [(NField "" "" [(Ident 12 "t" 222)] (NStarExpr 224 (NSelectorExpr (NIdent (Ident 13 "testing" 225)) (Ident 14 "T" 233))))]) (NFieldList [])) (Some (NBlockStmt 236 [(NOther 239 [(NIdent (Ident 15 "wd" 239))]); (NOther 254 [(NIdent (Ident 16 "repo" 254))]); (NOther 272 [(NOther 272 [(NIdent (Ident 17 "runCmd" 272)); (NIdent (Ident 18 "t" 279)); (NIdent (Ident 19 "wd" 282)); (NIdent (Ident 20 "repo" 301))])])])))]).
(* sharedtestmodule/cmd/gitserver/server/server_test.go *)
Definition f3_3 : node := (NFile 310 false "" (Ident 21 "server" 318)
  [(NGenDecl 326 IMPORT "" [(NImportSpec 22 None 333 """testing""")]);
   (NFuncDecl "" 344 404 None (Ident 23 "TestExecRequest" 349) (NFuncType 344 (NFieldList []) (NFieldList [(NField "" "" [(Ident 24 "t" 365)] (NStarExpr 367 (NSelectorExpr (NIdent (Ident 25 "testing" 368)) (Ident 26 "T" 376))))]) (NFieldList [])) (Some (NBlockStmt 379 [(NOther 382 [(NOther 382 [(NSelectorExpr (NIdent (Ident 27 "t" 382)) (Ident 28 "Log" 384))])])])));
   (NFuncDecl "" 406 473 None (Ident 29 "runCmd" 411) (NFuncType 406 (NFieldList []) (NFieldList [(NField "" "" [(Ident 30 "t" 418)] (NStarExpr 420 (NSelectorExpr (NIdent (Ident 31 "testing" 421)) (Ident 32 "T" 429)))); (NField "" "" [(Ident 33 "dir" 432)] (NIdent (Ident 34 "string" 436))); (NField "" "" [(Ident 35 "cmd" 444)] (NIdent (Ident 36 "string" 448))); (NField "" "" [(Ident 37 "arg" 456)] (NOther 460 [(NIdent (Ident 38 "string" 463))]))]) (NFieldList [])) (Some (NBlockStmt 471 [])))]).
Definition k2 : tpkg := TPkg "sg/sharedtestmodule/cmd/gitserver/server" [SEntry "AnythingAtAll" false (TBasic BInvalid false); SEntry "LiterallyAnything" false (TBasic BInvalid false); SEntry "TestExecRequest" false (TBasic BInvalid false); SEntry "TestStuff" false (TBasic BInvalid false); SEntry "runCmd" false (TBasic BInvalid false)].
Definition o49 : obj := Obj 49 "LiterallyAnything" (Some k2) 108 (OFunc (Some None)) (TSig [] [] false) None.
Definition o50 : obj := Obj 50 "AnythingAtAll" (Some k2) 153 (OFunc (Some None)) (TSig [] [] false) None.
Definition o59 : obj := Obj 59 "TestStuff" (Some k2) 212 (OFunc (Some None)) (TSig [(TPointer (TNamed (TName 53 (Some "testing") "T") []))] [] false) None.
Definition o61 : obj := Obj 61 "TestExecRequest" (Some k2) 349 (OFunc (Some None)) (TSig [(TPointer (TNamed (TName 53 (Some "testing") "T") []))] [] false) None.
Definition o62 : obj := Obj 62 "runCmd" (Some k2) 411 (OFunc (Some None)) (TSig [(TPointer (TNamed (TName 53 (Some "testing") "T") [])); (TBasic BString false); (TBasic BString false); (TSlice (TBasic BString false))] [] true) None.
Definition o63 : obj := Obj 63 "t" (Some k2) 222 (OVar false) (TPointer (TNamed (TName 53 (Some "testing") "T") [])) None.
Definition o64 : obj := Obj 64 "t" (Some k2) 365 (OVar false) (TPointer (TNamed (TName 53 (Some "testing") "T") [])) None.
Definition o65 : obj := Obj 65 "t" (Some k2) 418 (OVar false) (TPointer (TNamed (TName 53 (Some "testing") "T") [])) None.
Definition o66 : obj := Obj 66 "dir" (Some k2) 432 (OVar false) (TBasic BString false) None.
Definition o67 : obj := Obj 67 "cmd" (Some k2) 444 (OVar false) (TBasic BString false) None.
Definition o68 : obj := Obj 68 "arg" (Some k2) 456 (OVar false) (TSlice (TBasic BString false)) None.
Definition o69 : obj := Obj 69 "wd" (Some k2) 239 (OVar false) (TBasic BString false) None.
Definition o70 : obj := Obj 70 "repo" (Some k2) 254 (OVar false) (TBasic BString false) None.
Definition o58 : obj := Obj 58 "testing" (Some k2) 196 (OPkgName "testing") (TBasic BInvalid false) None.
Definition o60 : obj := Obj 60 "testing" (Some k2) 333 (OPkgName "testing") (TBasic BInvalid false) None.
Definition o17 : obj := Obj 17 "string" None 0 OTypeName (TBasic BString false) None.
Definition defs3 : list (nat * obj) := [(6, o49); (8, o50); (11, o59); (23, o61); (29, o62); (12, o63); (24, o64); (30, o65); (33, o66); (35, o67); (37, o68); (15, o69); (16, o70)].
Definition uses3 : list (nat * obj) := [(13, o58); (14, o53); (25, o60); (26, o53); (31, o60); (32, o53); (34, o17); (36, o17); (38, o17); (17, o62); (18, o63); (19, o69); (20, o70); (27, o64); (28, o52)].
Definition canon3 : list (nat * hty) := [].
Definition pkgnames3 : list (nat * obj) := [(10, o58); (22, o60)].
Definition cases3 : list obj := [].
Definition hobjs : list (nat * hobj) := [(47, HObj "LiterallyAnything" (Some (HPkg "sg/sharedtestmodule/cmd/gitserver/server" "server")) true (HFunc None (HSig [] [] [] false)));
  (48, HObj "AnythingAtAll" (Some (HPkg "sg/sharedtestmodule/cmd/gitserver/server" "server")) true (HFunc None (HSig [] [] [] false)));
  (49, HObj "LiterallyAnything" (Some (HPkg "sg/sharedtestmodule/cmd/gitserver/server" "server")) true (HFunc None (HSig [] [] [] false)));
  (50, HObj "AnythingAtAll" (Some (HPkg "sg/sharedtestmodule/cmd/gitserver/server" "server")) true (HFunc None (HSig [] [] [] false)));
  (59, HObj "TestStuff" (Some (HPkg "sg/sharedtestmodule/cmd/gitserver/server" "server")) true (HFunc None (HSig [] [("t", (HPointer (HNamed (HName (Some (HPkg "testing" "testing")) "T") [] [])))] [] false)));
  (61, HObj "TestExecRequest" (Some (HPkg "sg/sharedtestmodule/cmd/gitserver/server" "server")) true (HFunc None (HSig [] [("t", (HPointer (HNamed (HName (Some (HPkg "testing" "testing")) "T") [] [])))] [] false)));
  (62, HObj "runCmd" (Some (HPkg "sg/sharedtestmodule/cmd/gitserver/server" "server")) true (HFunc None (HSig [] [("t", (HPointer (HNamed (HName (Some (HPkg "testing" "testing")) "T") [] []))); ("dir", (HBasic "string")); ("cmd", (HBasic "string")); ("arg", (HSlice (HBasic "string")))] [] true)));
  (63, HObj "t" (Some (HPkg "sg/sharedtestmodule/cmd/gitserver/server" "server")) false (HVar false (HPointer (HNamed (HName (Some (HPkg "testing" "testing")) "T") [] []))));
  (64, HObj "t" (Some (HPkg "sg/sharedtestmodule/cmd/gitserver/server" "server")) false (HVar false (HPointer (HNamed (HName (Some (HPkg "testing" "testing")) "T") [] []))));
  (65, HObj "t" (Some (HPkg "sg/sharedtestmodule/cmd/gitserver/server" "server")) false (HVar false (HPointer (HNamed (HName (Some (HPkg "testing" "testing")) "T") [] []))));
  (66, HObj "dir" (Some (HPkg "sg/sharedtestmodule/cmd/gitserver/server" "server")) false (HVar false (HBasic "string")));
  (67, HObj "cmd" (Some (HPkg "sg/sharedtestmodule/cmd/gitserver/server" "server")) false (HVar false (HBasic "string")));
  (68, HObj "arg" (Some (HPkg "sg/sharedtestmodule/cmd/gitserver/server" "server")) false (HVar false (HSlice (HBasic "string"))));
  (69, HObj "wd" (Some (HPkg "sg/sharedtestmodule/cmd/gitserver/server" "server")) false (HVar false (HBasic "string")));
  (70, HObj "repo" (Some (HPkg "sg/sharedtestmodule/cmd/gitserver/server" "server")) false (HVar false (HBasic "string")))].
Definition unders : list (nat * ty) := [(53, (TStruct [(FHdr 57 "common" (Some "testing") true "", (TNamed (TName 51 (Some "testing") "common") []))]));
  (51, (TStruct [(FHdr 54 "failed" (Some "testing") false "", (TBasic BBool false))]))].
Definition msets : list (nat * (list obj * list obj)) := [(53, ([], [o52]));
  (51, ([], [o52]))].
Definition digests : list (string * string) := [].
Definition formatted : list (string * string) := [].
Definition sources : list src := [Src "/repo/internal/testdata/snapshots/input/sharedtestmodule/cmd/gitserver/server/cleanup.go" 1 "package server

func LiterallyAnything() {}
" [];
  Src "/repo/internal/testdata/snapshots/input/sharedtestmodule/cmd/gitserver/server/server.go" 46 "package server

func AnythingAtAll() {}
" [];
  Src "/repo/internal/testdata/snapshots/input/sharedtestmodule/cmd/gitserver/server/cleanup.go" 87 "package server

func LiterallyAnything() {}
" [];
  Src "/repo/internal/testdata/snapshots/input/sharedtestmodule/cmd/gitserver/server/server.go" 132 "package server

func AnythingAtAll() {}
" [];
  Src "/repo/internal/testdata/snapshots/input/sharedtestmodule/cmd/gitserver/server/cleanup_test.go" 173 "package server

import ""testing""

func TestStuff(t *testing.T) {
	wd := ""hello""
	repo := ""world""

	runCmd(t, wd, ""git"", ""init"", repo)
}
" [];
  Src "/repo/internal/testdata/snapshots/input/sharedtestmodule/cmd/gitserver/server/server_test.go" 310 "package server

import ""testing""

func TestExecRequest(t *testing.T) {
	t.Log(""hello world"")
}

func runCmd(t *testing.T, dir string, cmd string, arg ...string) {}
" []].
Definition gomods : list (string * string) := [].
Definition p1 : gpkg * option raw := (GPkg 1 "sg/sharedtestmodule/cmd/gitserver/server" "server" (Some (GMod "sg/sharedtestmodule" "" "/repo/internal/testdata/snapshots/input/sharedtestmodule" "/repo/internal/testdata/snapshots/input/sharedtestmodule/go.mod" None)) [] [f1_0; f1_1] (Some k0) None, (Some (Raw defs1 uses1 pkgnames1 cases1 canon1))).
Definition p2 : gpkg * option raw := (GPkg 2 "testing" "testing" None [] [] (Some k1) None, None).
Definition p3 : gpkg * option raw := (GPkg 3 "sg/sharedtestmodule/cmd/gitserver/server" "server" (Some (GMod "sg/sharedtestmodule" "" "/repo/internal/testdata/snapshots/input/sharedtestmodule" "/repo/internal/testdata/snapshots/input/sharedtestmodule/go.mod" None)) [("testing", 2)] [f3_0; f3_1; f3_2; f3_3] (Some k2) None, (Some (Raw defs3 uses3 pkgnames3 cases3 canon3))).
Definition packages : list (gpkg * option raw) := [p1; p2; p3].
Definition roots : list nat := [1; 3].
Definition scopes : list (nat * list obj) := [(2, [o53; o51])].
Definition levels : list nat := [].
Definition input : input := Input "/repo/internal/testdata/snapshots/input/sharedtestmodule" "sg/sharedtestmodule" false sources packages roots gomods digests formatted hobjs unders msets scopes levels.
Definition golden : list (string * string) := [("cmd/gitserver/server/cleanup.go", "  package server
//        ^^^^^^ definition 0.1.test `sg/sharedtestmodule/cmd/gitserver/server`/
//               kind Package
//               display_name server
//               signature_documentation
//               > package server
  
//⌄ enclosing_range_start 0.1.test `sg/sharedtestmodule/cmd/gitserver/server`/LiterallyAnything().
  func LiterallyAnything() {}
//     ^^^^^^^^^^^^^^^^^ definition 0.1.test `sg/sharedtestmodule/cmd/gitserver/server`/LiterallyAnything().
//                       kind Function
//                       display_name LiterallyAnything
//                       signature_documentation
//                       > func LiterallyAnything()
//                          ⌃ enclosing_range_end 0.1.test `sg/sharedtestmodule/cmd/gitserver/server`/LiterallyAnything().
  
");
  ("cmd/gitserver/server/cleanup_test.go", "  package server
//        ^^^^^^ definition 0.1.test `sg/sharedtestmodule/cmd/gitserver/server`/
  
  import ""testing""
//        ^^^^^^^ reference github.com/golang/go/src go1.22 testing/
  
//⌄ enclosing_range_start 0.1.test `sg/sharedtestmodule/cmd/gitserver/server`/TestStuff().
  func TestStuff(t *testing.T) {
//     ^^^^^^^^^ definition 0.1.test `sg/sharedtestmodule/cmd/gitserver/server`/TestStuff().
//               kind Function
//               display_name TestStuff
//               signature_documentation
//               > func TestStuff(t *testing.T)
//               ^ definition local 0
//                 kind Variable
//                 display_name t
//                 signature_documentation
//                 > var t *T
//                  ^^^^^^^ reference github.com/golang/go/src go1.22 testing/
//                          ^ reference github.com/golang/go/src go1.22 testing/T#
   wd := ""hello""
// ^^ definition local 1
//    kind Variable
//    display_name wd
//    signature_documentation
//    > var wd string
   repo := ""world""
// ^^^^ definition local 2
//      kind Variable
//      display_name repo
//      signature_documentation
//      > var repo string
  
   runCmd(t, wd, ""git"", ""init"", repo)
// ^^^^^^ reference 0.1.test `sg/sharedtestmodule/cmd/gitserver/server`/runCmd().
//        ^ reference local 0
//           ^^ reference local 1
//                              ^^^^ reference local 2
  }
//⌃ enclosing_range_end 0.1.test `sg/sharedtestmodule/cmd/gitserver/server`/TestStuff().
  
");
  ("cmd/gitserver/server/server.go", "  package server
//        ^^^^^^ definition 0.1.test `sg/sharedtestmodule/cmd/gitserver/server`/
  
//⌄ enclosing_range_start 0.1.test `sg/sharedtestmodule/cmd/gitserver/server`/AnythingAtAll().
  func AnythingAtAll() {}
//     ^^^^^^^^^^^^^ definition 0.1.test `sg/sharedtestmodule/cmd/gitserver/server`/AnythingAtAll().
//                   kind Function
//                   display_name AnythingAtAll
//                   signature_documentation
//                   > func AnythingAtAll()
//                      ⌃ enclosing_range_end 0.1.test `sg/sharedtestmodule/cmd/gitserver/server`/AnythingAtAll().
  
");
  ("cmd/gitserver/server/server_test.go", "  package server
//        ^^^^^^ definition 0.1.test `sg/sharedtestmodule/cmd/gitserver/server`/
  
  import ""testing""
//        ^^^^^^^ reference github.com/golang/go/src go1.22 testing/
  
//⌄ enclosing_range_start 0.1.test `sg/sharedtestmodule/cmd/gitserver/server`/TestExecRequest().
  func TestExecRequest(t *testing.T) {
//     ^^^^^^^^^^^^^^^ definition 0.1.test `sg/sharedtestmodule/cmd/gitserver/server`/TestExecRequest().
//                     kind Function
//                     display_name TestExecRequest
//                     signature_documentation
//                     > func TestExecRequest(t *testing.T)
//                     ^ definition local 0
//                       kind Variable
//                       display_name t
//                       signature_documentation
//                       > var t *T
//                        ^^^^^^^ reference github.com/golang/go/src go1.22 testing/
//                                ^ reference github.com/golang/go/src go1.22 testing/T#
   t.Log(""hello world"")
// ^ reference local 0
//   ^^^ reference github.com/golang/go/src go1.22 testing/common#Log().
  }
//⌃ enclosing_range_end 0.1.test `sg/sharedtestmodule/cmd/gitserver/server`/TestExecRequest().
  
//⌄ enclosing_range_start 0.1.test `sg/sharedtestmodule/cmd/gitserver/server`/runCmd().
  func runCmd(t *testing.T, dir string, cmd string, arg ...string) {}
//     ^^^^^^ definition 0.1.test `sg/sharedtestmodule/cmd/gitserver/server`/runCmd().
//            kind Function
//            display_name runCmd
//            signature_documentation
//            > func runCmd(t *testing.T, dir string, cmd string, arg ...string)
//            ^ definition local 1
//              kind Variable
//              display_name t
//              signature_documentation
//              > var t *T
//               ^^^^^^^ reference github.com/golang/go/src go1.22 testing/
//                       ^ reference github.com/golang/go/src go1.22 testing/T#
//                          ^^^ definition local 2
//                              kind Variable
//                              display_name dir
//                              signature_documentation
//                              > var dir string
//                                      ^^^ definition local 3
//                                          kind Variable
//                                          display_name cmd
//                                          signature_documentation
//                                          > var cmd string
//                                                  ^^^ definition local 4
//                                                      kind Variable
//                                                      display_name arg
//                                                      signature_documentation
//                                                      > var arg []string
//                                                                  ⌃ enclosing_range_end 0.1.test `sg/sharedtestmodule/cmd/gitserver/server`/runCmd().
  
")].

(** The model, run on the input directory, gives the golden files of /repo. *)
Example snapshot_sharedtestmodule : snapshot input = Some golden.
Proof. vm_compute. reflexivity. Qed.
(** The directory meets the hypotheses of the theorems (Contract.scopes_contract_ok). *)
Example snapshot_sharedtestmodule_contract : contract input = true ∧ scopesb input = true.
Proof. split; vm_compute; reflexivity. Qed.
