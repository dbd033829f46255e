(** Generated by tools/snapshot/emit.py from /repo/internal/testdata/snapshots/{input,output}/pr222: what packages.Load
    returns for that directory (syntax, types, modules; dependencies reduced to the declarations used), and the golden output. *)
From Coq Require Import Ascii String.
From stdpp Require Import prelude strings gmap.
From Verif Require Import GoStr Scip GoTypes Ast Packages Source Signature Snapshot Contract.
Open Scope string_scope.
Open Scope list_scope.
Definition k0 : tpkg := TPkg "github.com/example/deplib" [SEntry "Box" true (TNamed (TName 47 (Some "github.com/example/deplib") "Box") []); SEntry "Config" true (TNamed (TName 49 (Some "github.com/example/deplib") "Config") []); SEntry "DefaultName" false (TBasic BInvalid false); SEntry "GlobalCounter" false (TBasic BInvalid false); SEntry "Stringer" true (TNamed (TName 52 (Some "github.com/example/deplib") "Stringer") []); SEntry "Writer" true (TNamed (TName 53 (Some "github.com/example/deplib") "Writer") [])].
Definition o47 : obj := Obj 47 "Box" (Some k0) 10000021 OTypeName (TNamed (TName 47 (Some "github.com/example/deplib") "Box") []) None.
Definition o49 : obj := Obj 49 "Config" (Some k0) 10000103 OTypeName (TNamed (TName 49 (Some "github.com/example/deplib") "Config") []) None.
Definition o50 : obj := Obj 50 "DefaultName" (Some k0) 10000158 OConst (TBasic BUntypedString false) None.
Definition o51 : obj := Obj 51 "GlobalCounter" (Some k0) 10000187 (OVar false) (TBasic BInt false) None.
Definition o52 : obj := Obj 52 "Stringer" (Some k0) 10000211 OTypeName (TNamed (TName 52 (Some "github.com/example/deplib") "Stringer") []) None.
Definition o53 : obj := Obj 53 "Writer" (Some k0) 10000257 OTypeName (TNamed (TName 53 (Some "github.com/example/deplib") "Writer") []) None.
Definition o48 : obj := Obj 48 "Get" (Some k0) 10000069 (OFunc (Some (Some (TNamed (TName 47 (Some "github.com/example/deplib") "Box") [(TTypeParam (TName 56 (Some "github.com/example/deplib") "T") 0)])))) (TSig [] [(TTypeParam (TName 56 (Some "github.com/example/deplib") "T") 0)] false) None.
Definition o61 : obj := Obj 61 "String" (Some k0) 10000233 (OFunc (Some (Some (TNamed (TName 52 (Some "github.com/example/deplib") "Stringer") [])))) (TSig [] [(TBasic BString false)] false) None.
Definition o63 : obj := Obj 63 "Write" (Some k0) 10000277 (OFunc (Some (Some (TNamed (TName 53 (Some "github.com/example/deplib") "Writer") [])))) (TSig [(TSlice (TBasic BUint8 true))] [(TBasic BInt false); (TNamed (TName 21 None "error") [])] false) None.
(* pr222/pr222.go *)
Definition f2_0 : node := (NFile 1 false "" (Ident 1 "pr222" 9)
  [(NGenDecl 16 IMPORT "" [(NImportSpec 2 None 23 """github.com/example/deplib""")]);
   (NFuncDecl "" 52 131 None (Ident 3 "UseGenericField" 57) (NFuncType 52 (NFieldList []) (NFieldList []) (NFieldList [(NField "" "" [] (NIdent (Ident 4 "int" 75)))])) (Some (NBlockStmt 79 [(NOther 82 [(NIdent (Ident 5 "b" 82)); (NOther 87 [(NIndexExpr (NSelectorExpr (NIdent (Ident 6 "deplib" 87)) (Ident 7 "Box" 94)) (NIdent (Ident 8 "int" 98))); (NOther 103 [(NIdent (Ident 9 "Value" 103))])])]); (NOther 115 [(NSelectorExpr (NIdent (Ident 10 "b" 122)) (Ident 11 "Value" 124))])])));
   (NFuncDecl "" 133 224 None (Ident 12 "UseGenericMethod" 138) (NFuncType 133 (NFieldList []) (NFieldList []) (NFieldList [(NField "" "" [] (NIdent (Ident 13 "string" 157)))])) (Some (NBlockStmt 164 [(NOther 167 [(NIdent (Ident 14 "b" 167)); (NOther 172 [(NIndexExpr (NSelectorExpr (NIdent (Ident 15 "deplib" 172)) (Ident 16 "Box" 179)) (NIdent (Ident 17 "string" 183))); (NOther 191 [(NIdent (Ident 18 "Value" 191))])])]); (NOther 208 [(NOther 215 [(NSelectorExpr (NIdent (Ident 19 "b" 215)) (Ident 20 "Get" 217))])])])));
   (NFuncDecl "" 226 326 None (Ident 21 "UseNonGenericField" 231) (NFuncType 226 (NFieldList []) (NFieldList []) (NFieldList [(NField "" "" [] (NIdent (Ident 22 "string" 252)))])) (Some (NBlockStmt 259 [(NOther 262 [(NIdent (Ident 23 "c" 262)); (NOther 267 [(NSelectorExpr (NIdent (Ident 24 "deplib" 267)) (Ident 25 "Config" 274)); (NOther 281 [(NIdent (Ident 26 "Name" 281))]); (NOther 295 [(NIdent (Ident 27 "Verbose" 295)); (NIdent (Ident 28 "true" 304))])])]); (NOther 311 [(NSelectorExpr (NIdent (Ident 29 "c" 318)) (Ident 30 "Name" 320))])])));
   (NFuncDecl "" 328 381 None (Ident 31 "UseConst" 333) (NFuncType 328 (NFieldList []) (NFieldList []) (NFieldList [(NField "" "" [] (NIdent (Ident 32 "string" 344)))])) (Some (NBlockStmt 351 [(NOther 354 [(NSelectorExpr (NIdent (Ident 33 "deplib" 361)) (Ident 34 "DefaultName" 368))])])));
   (NFuncDecl "" 383 433 None (Ident 35 "UseVar" 388) (NFuncType 383 (NFieldList []) (NFieldList []) (NFieldList [(NField "" "" [] (NIdent (Ident 36 "int" 397)))])) (Some (NBlockStmt 401 [(NOther 404 [(NSelectorExpr (NIdent (Ident 37 "deplib" 411)) (Ident 38 "GlobalCounter" 418))])])));
   (NGenDecl 435 TYPE "" [(NTypeSpec "" (Ident 39 "LocalType" 440) (NFieldList []) (NStructType 40 450 (NFieldList [])))]);
   (NFuncDecl "" 460 513 (Some (NFieldList [(NField "" "" [(Ident 41 "l" 466)] (NIdent (Ident 42 "LocalType" 468)))])) (Ident 43 "String" 479) (NFuncType 460 (NFieldList []) (NFieldList []) (NFieldList [(NField "" "" [] (NIdent (Ident 44 "string" 488)))])) (Some (NBlockStmt 495 [(NOther 497 [])])));
   (NGenDecl 515 TYPE "" [(NTypeSpec "" (Ident 45 "EmbeddedStringer" 520) (NFieldList []) (NStructType 46 537 (NFieldList [(NField "" "" [] (NIdent (Ident 47 "LocalType" 547)))])))]);
   (NGenDecl 560 TYPE "" [(NTypeSpec "" (Ident 48 "LocalInterface" 565) (NFieldList []) (NInterfaceType 49 580 (NFieldList [(NField "" "" [(Ident 50 "Get" 593)] (NFuncType 596 (NFieldList []) (NFieldList []) (NFieldList [(NField "" "" [] (NIdent (Ident 51 "int" 599)))])))])))]);
   (NFuncDecl "" 606 658 None (Ident 52 "UseDepWriter" 611) (NFuncType 606 (NFieldList []) (NFieldList [(NField "" "" [(Ident 53 "w" 624)] (NSelectorExpr (NIdent (Ident 54 "deplib" 626)) (Ident 55 "Writer" 633)))]) (NFieldList [])) (Some (NBlockStmt 641 [(NOther 644 [(NOther 644 [(NSelectorExpr (NIdent (Ident 56 "w" 644)) (Ident 57 "Write" 646)); (NIdent (Ident 58 "nil" 652))])])])))]).
Definition k1 : tpkg := TPkg "sg/pr222" [SEntry "EmbeddedStringer" true (TNamed (TName 77 (Some "sg/pr222") "EmbeddedStringer") []); SEntry "LocalInterface" true (TNamed (TName 78 (Some "sg/pr222") "LocalInterface") []); SEntry "LocalType" true (TNamed (TName 75 (Some "sg/pr222") "LocalType") []); SEntry "UseConst" false (TBasic BInvalid false); SEntry "UseDepWriter" false (TBasic BInvalid false); SEntry "UseGenericField" false (TBasic BInvalid false); SEntry "UseGenericMethod" false (TBasic BInvalid false); SEntry "UseNonGenericField" false (TBasic BInvalid false); SEntry "UseVar" false (TBasic BInvalid false)].
Definition o70 : obj := Obj 70 "UseGenericField" (Some k1) 57 (OFunc (Some None)) (TSig [] [(TBasic BInt false)] false) None.
Definition o71 : obj := Obj 71 "UseGenericMethod" (Some k1) 138 (OFunc (Some None)) (TSig [] [(TBasic BString false)] false) None.
Definition o72 : obj := Obj 72 "UseNonGenericField" (Some k1) 231 (OFunc (Some None)) (TSig [] [(TBasic BString false)] false) None.
Definition o73 : obj := Obj 73 "UseConst" (Some k1) 333 (OFunc (Some None)) (TSig [] [(TBasic BString false)] false) None.
Definition o74 : obj := Obj 74 "UseVar" (Some k1) 388 (OFunc (Some None)) (TSig [] [(TBasic BInt false)] false) None.
Definition o75 : obj := Obj 75 "LocalType" (Some k1) 440 OTypeName (TNamed (TName 75 (Some "sg/pr222") "LocalType") []) None.
Definition o76 : obj := Obj 76 "String" (Some k1) 479 (OFunc (Some (Some (TNamed (TName 75 (Some "sg/pr222") "LocalType") [])))) (TSig [] [(TBasic BString false)] false) None.
Definition o77 : obj := Obj 77 "EmbeddedStringer" (Some k1) 520 OTypeName (TNamed (TName 77 (Some "sg/pr222") "EmbeddedStringer") []) None.
Definition o78 : obj := Obj 78 "LocalInterface" (Some k1) 565 OTypeName (TNamed (TName 78 (Some "sg/pr222") "LocalInterface") []) None.
Definition o79 : obj := Obj 79 "UseDepWriter" (Some k1) 611 (OFunc (Some None)) (TSig [(TNamed (TName 53 (Some "github.com/example/deplib") "Writer") [])] [] false) None.
Definition o86 : obj := Obj 86 "l" (Some k1) 466 (OVar false) (TNamed (TName 75 (Some "sg/pr222") "LocalType") []) None.
Definition o87 : obj := Obj 87 "LocalType" (Some k1) 547 (OVar true) (TNamed (TName 75 (Some "sg/pr222") "LocalType") []) None.
Definition o88 : obj := Obj 88 "Get" (Some k1) 593 (OFunc (Some (Some (TNamed (TName 78 (Some "sg/pr222") "LocalInterface") [])))) (TSig [] [(TBasic BInt false)] false) None.
Definition o90 : obj := Obj 90 "w" (Some k1) 624 (OVar false) (TNamed (TName 53 (Some "github.com/example/deplib") "Writer") []) None.
Definition o92 : obj := Obj 92 "b" (Some k1) 82 (OVar false) (TNamed (TName 47 (Some "github.com/example/deplib") "Box") [(TBasic BInt false)]) None.
Definition o97 : obj := Obj 97 "b" (Some k1) 167 (OVar false) (TNamed (TName 47 (Some "github.com/example/deplib") "Box") [(TBasic BString false)]) None.
Definition o100 : obj := Obj 100 "c" (Some k1) 262 (OVar false) (TNamed (TName 49 (Some "github.com/example/deplib") "Config") []) None.
Definition o2 : obj := Obj 2 "int" None 0 OTypeName (TBasic BInt false) None.
Definition o17 : obj := Obj 17 "string" None 0 OTypeName (TBasic BString false) None.
Definition o69 : obj := Obj 69 "deplib" (Some k1) 23 (OPkgName "github.com/example/deplib") (TBasic BInvalid false) None.
Definition o55 : obj := Obj 55 "Value" (Some k0) 10000042 (OVar true) (TTypeParam (TName 54 (Some "github.com/example/deplib") "T") 0) None.
Definition o91 : obj := Obj 91 "Value" (Some k0) 10000042 (OVar true) (TBasic BInt false) (Some o55).
Definition o95 : obj := Obj 95 "Value" (Some k0) 10000042 (OVar true) (TBasic BInt false) (Some o55).
Definition o96 : obj := Obj 96 "Value" (Some k0) 10000042 (OVar true) (TBasic BString false) (Some o55).
Definition o99 : obj := Obj 99 "Get" (Some k0) 10000069 (OFunc (Some (Some (TNamed (TName 47 (Some "github.com/example/deplib") "Box") [(TBasic BString false)])))) (TSig [] [(TBasic BString false)] false) (Some o48).
Definition o59 : obj := Obj 59 "Name" (Some k0) 10000120 (OVar true) (TBasic BString false) None.
Definition o60 : obj := Obj 60 "Verbose" (Some k0) 10000136 (OVar true) (TBasic BBool false) None.
Definition o25 : obj := Obj 25 "true" None 0 OConst (TBasic BUntypedBool false) None.
Definition o28 : obj := Obj 28 "nil" None 0 ONil (TBasic BUntypedNil false) None.
Definition defs2 : list (nat * obj) := [(3, o70); (12, o71); (21, o72); (31, o73); (35, o74); (39, o75); (43, o76); (45, o77); (48, o78); (52, o79); (41, o86); (47, o87); (50, o88); (53, o90); (5, o92); (14, o97); (23, o100)].
Definition uses2 : list (nat * obj) := [(4, o2); (13, o17); (22, o17); (32, o17); (36, o2); (42, o75); (44, o17); (47, o75); (51, o2); (54, o69); (55, o53); (6, o69); (7, o47); (8, o2); (9, o91); (10, o92); (11, o95); (15, o69); (16, o47); (17, o17); (18, o96); (19, o97); (20, o99); (24, o69); (25, o49); (26, o59); (27, o60); (28, o25); (29, o100); (30, o59); (33, o69); (34, o50); (37, o69); (38, o51); (56, o90); (57, o63); (58, o28)].
Definition canon2 : list (nat * hty) := [(40, (HStruct [])); (46, (HStruct [("LocalType", true, "", (HNamed (HName (Some (HPkg "sg/pr222" "pr222")) "LocalType") [] []))])); (49, (HInterface false [("Get", (HSig [] [] [("", (HBasic "int"))] false))] []))].
Definition pkgnames2 : list (nat * obj) := [(2, o69)].
Definition cases2 : list obj := [].
Definition o22 : obj := Obj 22 "Error" None 0 (OFunc (Some (Some (TNamed (TName 21 None "error") [])))) (TSig [] [(TBasic BString false)] false) None.
Definition hobjs : list (nat * hobj) := [(70, HObj "UseGenericField" (Some (HPkg "sg/pr222" "pr222")) true (HFunc None (HSig [] [] [("", (HBasic "int"))] false)));
  (71, HObj "UseGenericMethod" (Some (HPkg "sg/pr222" "pr222")) true (HFunc None (HSig [] [] [("", (HBasic "string"))] false)));
  (72, HObj "UseNonGenericField" (Some (HPkg "sg/pr222" "pr222")) true (HFunc None (HSig [] [] [("", (HBasic "string"))] false)));
  (73, HObj "UseConst" (Some (HPkg "sg/pr222" "pr222")) true (HFunc None (HSig [] [] [("", (HBasic "string"))] false)));
  (74, HObj "UseVar" (Some (HPkg "sg/pr222" "pr222")) true (HFunc None (HSig [] [] [("", (HBasic "int"))] false)));
  (75, HObj "LocalType" (Some (HPkg "sg/pr222" "pr222")) true (HTypeName (DDefined [] (HStruct []))));
  (76, HObj "String" (Some (HPkg "sg/pr222" "pr222")) false (HFunc (Some (HNamed (HName (Some (HPkg "sg/pr222" "pr222")) "LocalType") [] [])) (HSig [] [] [("", (HBasic "string"))] false)));
  (77, HObj "EmbeddedStringer" (Some (HPkg "sg/pr222" "pr222")) true (HTypeName (DDefined [] (HStruct [("LocalType", true, "", (HNamed (HName (Some (HPkg "sg/pr222" "pr222")) "LocalType") [] []))]))));
  (78, HObj "LocalInterface" (Some (HPkg "sg/pr222" "pr222")) true (HTypeName (DDefined [] (HInterface false [("Get", (HSig [] [] [("", (HBasic "int"))] false))] []))));
  (79, HObj "UseDepWriter" (Some (HPkg "sg/pr222" "pr222")) true (HFunc None (HSig [] [("w", (HNamed (HName (Some (HPkg "github.com/example/deplib" "deplib")) "Writer") [] []))] [] false)));
  (86, HObj "l" (Some (HPkg "sg/pr222" "pr222")) false (HVar false (HNamed (HName (Some (HPkg "sg/pr222" "pr222")) "LocalType") [] [])));
  (87, HObj "LocalType" (Some (HPkg "sg/pr222" "pr222")) false (HVar true (HNamed (HName (Some (HPkg "sg/pr222" "pr222")) "LocalType") [] [])));
  (88, HObj "Get" (Some (HPkg "sg/pr222" "pr222")) false (HFunc (Some (HNamed (HName (Some (HPkg "sg/pr222" "pr222")) "LocalInterface") [] [])) (HSig [] [] [("", (HBasic "int"))] false)));
  (90, HObj "w" (Some (HPkg "sg/pr222" "pr222")) false (HVar false (HNamed (HName (Some (HPkg "github.com/example/deplib" "deplib")) "Writer") [] [])));
  (92, HObj "b" (Some (HPkg "sg/pr222" "pr222")) false (HVar false (HNamed (HName (Some (HPkg "github.com/example/deplib" "deplib")) "Box") [(HBasic "int")] [])));
  (97, HObj "b" (Some (HPkg "sg/pr222" "pr222")) false (HVar false (HNamed (HName (Some (HPkg "github.com/example/deplib" "deplib")) "Box") [(HBasic "string")] [])));
  (100, HObj "c" (Some (HPkg "sg/pr222" "pr222")) false (HVar false (HNamed (HName (Some (HPkg "github.com/example/deplib" "deplib")) "Config") [] [])))].
Definition unders : list (nat * ty) := [(47, (TStruct [(FHdr 55 "Value" (Some "github.com/example/deplib") false "", (TTypeParam (TName 54 (Some "github.com/example/deplib") "T") 0))]));
  (49, (TStruct [(FHdr 59 "Name" (Some "github.com/example/deplib") false "", (TBasic BString false)); (FHdr 60 "Verbose" (Some "github.com/example/deplib") false "", (TBasic BBool false))]));
  (52, (TInterface [("String", (TSig [] [(TBasic BString false)] false))] ""));
  (53, (TInterface [("Write", (TSig [(TSlice (TBasic BUint8 true))] [(TBasic BInt false); (TNamed (TName 21 None "error") [])] false))] ""));
  (21, (TInterface [("Error", (TSig [] [(TBasic BString false)] false))] ""));
  (77, (TStruct [(FHdr 87 "LocalType" (Some "sg/pr222") true "", (TNamed (TName 75 (Some "sg/pr222") "LocalType") []))]));
  (75, (TStruct []));
  (78, (TInterface [("Get", (TSig [] [(TBasic BInt false)] false))] ""))].
Definition msets : list (nat * (list obj * list obj)) := [(47, ([o48], [o48]));
  (49, ([], []));
  (52, ([o61], []));
  (53, ([o63], []));
  (75, ([o76], [o76]));
  (77, ([o76], [o76]));
  (78, ([o88], []));
  (21, ([o22], []))].
Definition digests : list (string * string) := [("struct{}", "0d0ad1bdf1affd9c");
  ("struct{sg/pr222.LocalType}", "4ca694523bef8aba");
  ("interface{Get() int}", "db12716c7317ff1b")].
Definition formatted : list (string * string) := [("package p

type _ struct{}
", "package p

type _ struct{}
");
  ("package p

type _ struct{LocalType}
", "package p

type _ struct{ LocalType }
");
  ("package p

type _ interface{Get() int}
", "package p

type _ interface{ Get() int }
")].
Definition sources : list src := [Src "/repo/internal/testdata/snapshots/input/pr222/pr222.go" 1 "package pr222

import ""github.com/example/deplib""

func UseGenericField() int {
	b := deplib.Box[int]{Value: 42}
	return b.Value
}

func UseGenericMethod() string {
	b := deplib.Box[string]{Value: ""hello""}
	return b.Get()
}

func UseNonGenericField() string {
	c := deplib.Config{Name: ""test"", Verbose: true}
	return c.Name
}

func UseConst() string {
	return deplib.DefaultName
}

func UseVar() int {
	return deplib.GlobalCounter
}

type LocalType struct{}

func (l LocalType) String() string { return ""local"" }

type EmbeddedStringer struct {
	LocalType
}

type LocalInterface interface {
	Get() int
}

func UseDepWriter(w deplib.Writer) {
	w.Write(nil)
}
" []].
Definition gomods : list (string * string) := [("/repo/internal/testdata/snapshots/input/pr222/deplib/go.mod", "github.com/example/deplib")].
Definition p1 : gpkg * option raw := (GPkg 1 "github.com/example/deplib" "deplib" (Some (GMod "github.com/example/deplib" "v0.0.0" "/repo/internal/testdata/snapshots/input/pr222/deplib" "/repo/internal/testdata/snapshots/input/pr222/deplib/go.mod" (Some (GMod "./deplib" "" "/repo/internal/testdata/snapshots/input/pr222/deplib" "/repo/internal/testdata/snapshots/input/pr222/deplib/go.mod" None)))) [] [] (Some k0) None, None).
Definition p2 : gpkg * option raw := (GPkg 2 "sg/pr222" "pr222" (Some (GMod "sg/pr222" "" "/repo/internal/testdata/snapshots/input/pr222" "/repo/internal/testdata/snapshots/input/pr222/go.mod" None)) [("github.com/example/deplib", 1)] [f2_0] (Some k1) None, (Some (Raw defs2 uses2 pkgnames2 cases2 canon2))).
Definition packages : list (gpkg * option raw) := [p1; p2].
Definition roots : list nat := [2].
Definition scopes : list (nat * list obj) := [(1, [o47; o49; o50; o51; o52; o53])].
Definition levels : list nat := [75; 77; 78].
Definition input : input := Input "/repo/internal/testdata/snapshots/input/pr222" "sg/pr222" false sources packages roots gomods digests formatted hobjs unders msets scopes levels.
Definition golden : list (string * string) := [("pr222.go", "  package pr222
//        ^^^^^ definition 0.1.test `sg/pr222`/
//              kind Package
//              display_name pr222
//              signature_documentation
//              > package pr222
  
  import ""github.com/example/deplib""
//        ^^^^^^^^^^^^^^^^^^^^^^^^^ reference github.com/example/deplib 0.1.test `github.com/example/deplib`/
  
//⌄ enclosing_range_start 0.1.test `sg/pr222`/UseGenericField().
  func UseGenericField() int {
//     ^^^^^^^^^^^^^^^ definition 0.1.test `sg/pr222`/UseGenericField().
//                     kind Function
//                     display_name UseGenericField
//                     signature_documentation
//                     > func UseGenericField() int
   b := deplib.Box[int]{Value: 42}
// ^ definition local 0
//   kind Variable
//   display_name b
//   signature_documentation
//   > var b Box[int]
//      ^^^^^^ reference github.com/example/deplib 0.1.test `github.com/example/deplib`/
//             ^^^ reference github.com/example/deplib 0.1.test `github.com/example/deplib`/Box#
//                      ^^^^^ reference github.com/example/deplib 0.1.test `github.com/example/deplib`/Box#Value.
   return b.Value
//        ^ reference local 0
//          ^^^^^ reference github.com/example/deplib 0.1.test `github.com/example/deplib`/Box#Value.
  }
//⌃ enclosing_range_end 0.1.test `sg/pr222`/UseGenericField().
  
//⌄ enclosing_range_start 0.1.test `sg/pr222`/UseGenericMethod().
  func UseGenericMethod() string {
//     ^^^^^^^^^^^^^^^^ definition 0.1.test `sg/pr222`/UseGenericMethod().
//                      kind Function
//                      display_name UseGenericMethod
//                      signature_documentation
//                      > func UseGenericMethod() string
   b := deplib.Box[string]{Value: ""hello""}
// ^ definition local 1
//   kind Variable
//   display_name b
//   signature_documentation
//   > var b Box[string]
//      ^^^^^^ reference github.com/example/deplib 0.1.test `github.com/example/deplib`/
//             ^^^ reference github.com/example/deplib 0.1.test `github.com/example/deplib`/Box#
//                         ^^^^^ reference github.com/example/deplib 0.1.test `github.com/example/deplib`/Box#Value.
   return b.Get()
//        ^ reference local 1
//          ^^^ reference github.com/example/deplib 0.1.test `github.com/example/deplib`/Box#Get().
  }
//⌃ enclosing_range_end 0.1.test `sg/pr222`/UseGenericMethod().
  
//⌄ enclosing_range_start 0.1.test `sg/pr222`/UseNonGenericField().
  func UseNonGenericField() string {
//     ^^^^^^^^^^^^^^^^^^ definition 0.1.test `sg/pr222`/UseNonGenericField().
//                        kind Function
//                        display_name UseNonGenericField
//                        signature_documentation
//                        > func UseNonGenericField() string
   c := deplib.Config{Name: ""test"", Verbose: true}
// ^ definition local 2
//   kind Variable
//   display_name c
//   signature_documentation
//   > var c Config
//      ^^^^^^ reference github.com/example/deplib 0.1.test `github.com/example/deplib`/
//             ^^^^^^ reference github.com/example/deplib 0.1.test `github.com/example/deplib`/Config#
//                    ^^^^ reference github.com/example/deplib 0.1.test `github.com/example/deplib`/Config#Name.
//                                  ^^^^^^^ reference github.com/example/deplib 0.1.test `github.com/example/deplib`/Config#Verbose.
   return c.Name
//        ^ reference local 2
//          ^^^^ reference github.com/example/deplib 0.1.test `github.com/example/deplib`/Config#Name.
  }
//⌃ enclosing_range_end 0.1.test `sg/pr222`/UseNonGenericField().
  
//⌄ enclosing_range_start 0.1.test `sg/pr222`/UseConst().
  func UseConst() string {
//     ^^^^^^^^ definition 0.1.test `sg/pr222`/UseConst().
//              kind Function
//              display_name UseConst
//              signature_documentation
//              > func UseConst() string
   return deplib.DefaultName
//        ^^^^^^ reference github.com/example/deplib 0.1.test `github.com/example/deplib`/
//               ^^^^^^^^^^^ reference github.com/example/deplib 0.1.test `github.com/example/deplib`/DefaultName.
  }
//⌃ enclosing_range_end 0.1.test `sg/pr222`/UseConst().
  
//⌄ enclosing_range_start 0.1.test `sg/pr222`/UseVar().
  func UseVar() int {
//     ^^^^^^ definition 0.1.test `sg/pr222`/UseVar().
//            kind Function
//            display_name UseVar
//            signature_documentation
//            > func UseVar() int
   return deplib.GlobalCounter
//        ^^^^^^ reference github.com/example/deplib 0.1.test `github.com/example/deplib`/
//               ^^^^^^^^^^^^^ reference github.com/example/deplib 0.1.test `github.com/example/deplib`/GlobalCounter.
  }
//⌃ enclosing_range_end 0.1.test `sg/pr222`/UseVar().
  
  type LocalType struct{}
//     ^^^^^^^^^ definition 0.1.test `sg/pr222`/LocalType#
//               kind Struct
//               display_name LocalType
//               signature_documentation
//               > type LocalType struct{}
//               relationship github.com/example/deplib 0.1.test `github.com/example/deplib`/Stringer# implementation
  
//⌄ enclosing_range_start 0.1.test `sg/pr222`/LocalType#String().
  func (l LocalType) String() string { return ""local"" }
//      ^ definition local 3
//        kind Variable
//        display_name l
//        signature_documentation
//        > var l LocalType
//        ^^^^^^^^^ reference 0.1.test `sg/pr222`/LocalType#
//                   ^^^^^^ definition 0.1.test `sg/pr222`/LocalType#String().
//                          kind Method
//                          display_name String
//                          signature_documentation
//                          > func (LocalType).String() string
//                          relationship github.com/example/deplib 0.1.test `github.com/example/deplib`/Stringer#String(). implementation
//                                                    ⌃ enclosing_range_end 0.1.test `sg/pr222`/LocalType#String().
  
  type EmbeddedStringer struct {
//     ^^^^^^^^^^^^^^^^ definition 0.1.test `sg/pr222`/EmbeddedStringer#
//                      kind Struct
//                      display_name EmbeddedStringer
//                      signature_documentation
//                      > type EmbeddedStringer struct{ LocalType }
//                      relationship github.com/example/deplib 0.1.test `github.com/example/deplib`/Stringer# implementation
   LocalType
// ^^^^^^^^^ definition 0.1.test `sg/pr222`/EmbeddedStringer#LocalType.
//           kind Field
//           display_name LocalType
//           signature_documentation
//           > struct field LocalType LocalType
// ^^^^^^^^^ reference 0.1.test `sg/pr222`/LocalType#
  }
  
  type LocalInterface interface {
//     ^^^^^^^^^^^^^^ definition 0.1.test `sg/pr222`/LocalInterface#
//                    kind Interface
//                    display_name LocalInterface
//                    signature_documentation
//                    > type LocalInterface interface{ Get() int }
   Get() int
// ^^^ definition 0.1.test `sg/pr222`/LocalInterface#Get.
//     kind MethodSpecification
//     display_name Get
//     signature_documentation
//     > func (LocalInterface).Get() int
  }
  
//⌄ enclosing_range_start 0.1.test `sg/pr222`/UseDepWriter().
  func UseDepWriter(w deplib.Writer) {
//     ^^^^^^^^^^^^ definition 0.1.test `sg/pr222`/UseDepWriter().
//                  kind Function
//                  display_name UseDepWriter
//                  signature_documentation
//                  > func UseDepWriter(w deplib.Writer)
//                  ^ definition local 4
//                    kind Variable
//                    display_name w
//                    signature_documentation
//                    > var w Writer
//                    ^^^^^^ reference github.com/example/deplib 0.1.test `github.com/example/deplib`/
//                           ^^^^^^ reference github.com/example/deplib 0.1.test `github.com/example/deplib`/Writer#
   w.Write(nil)
// ^ reference local 4
//   ^^^^^ reference github.com/example/deplib 0.1.test `github.com/example/deplib`/Writer#Write().
  }
//⌃ enclosing_range_end 0.1.test `sg/pr222`/UseDepWriter().
  
")].

(** The model, run on the input directory, gives the golden files of /repo. *)
Example snapshot_pr222 : snapshot input = Some golden.
Proof. vm_compute. reflexivity. Qed.
(** The directory meets the hypotheses of the theorems (Contract.scopes_contract_ok). *)
Example snapshot_pr222_contract : contract input = true ∧ scopesb input = true.
Proof. split; vm_compute; reflexivity. Qed.
