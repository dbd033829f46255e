(** Generated by tools/snapshot/emit.py from /repo/internal/testdata/snapshots/{input,output}/pr201: what packages.Load
    returns for that directory (syntax, types, modules; dependencies reduced to the declarations used), and the golden output. *)
From Coq Require Import Ascii String.
From stdpp Require Import prelude strings gmap.
From Verif Require Import GoStr Scip GoTypes Ast Packages Source Signature Snapshot Contract.
Open Scope string_scope.
Open Scope list_scope.
Definition k0 : tpkg := TPkg "context" [SEntry "Background" false (TBasic BInvalid false); SEntry "Context" true (TNamed (TName 47 (Some "context") "Context") [])].
Definition o48 : obj := Obj 48 "Background" (Some k0) 10000105 (OFunc (Some None)) (TSig [] [(TNamed (TName 47 (Some "context") "Context") [])] false) None.
Definition o47 : obj := Obj 47 "Context" (Some k0) 10000021 OTypeName (TNamed (TName 47 (Some "context") "Context") []) None.
Definition o49 : obj := Obj 49 "Done" (Some k0) 10000042 (OFunc (Some (Some (TNamed (TName 47 (Some "context") "Context") [])))) (TSig [] [(TChan 2 (TStruct []))] false) None.
Definition o51 : obj := Obj 51 "Err" (Some k0) 10000066 (OFunc (Some (Some (TNamed (TName 47 (Some "context") "Context") [])))) (TSig [] [(TNamed (TName 21 None "error") [])] false) None.
Definition o53 : obj := Obj 53 "Value" (Some k0) 10000079 (OFunc (Some (Some (TNamed (TName 47 (Some "context") "Context") [])))) (TSig [(TAlias (TName 20 None "any") (TInterface [] ""))] [(TAlias (TName 20 None "any") (TInterface [] ""))] false) None.
Definition k1 : tpkg := TPkg "io" [SEntry "Writer" true (TNamed (TName 58 (Some "io") "Writer") [])].
Definition o58 : obj := Obj 58 "Writer" (Some k1) 10000550 OTypeName (TNamed (TName 58 (Some "io") "Writer") []) None.
Definition o59 : obj := Obj 59 "Write" (Some k1) 10000569 (OFunc (Some (Some (TNamed (TName 58 (Some "io") "Writer") [])))) (TSig [(TSlice (TBasic BUint8 true))] [(TBasic BInt false); (TNamed (TName 21 None "error") [])] false) None.
Definition k2 : tpkg := TPkg "net/http" [SEntry "CanonicalHeaderKey" false (TBasic BInvalid false); SEntry "Client" true (TNamed (TName 68 (Some "net/http") "Client") []); SEntry "DefaultClient" false (TBasic BInvalid false); SEntry "Handler" true (TNamed (TName 67 (Some "net/http") "Handler") []); SEntry "Header" true (TNamed (TName 64 (Some "net/http") "Header") []); SEntry "Request" true (TNamed (TName 66 (Some "net/http") "Request") []); SEntry "ResponseWriter" true (TNamed (TName 65 (Some "net/http") "ResponseWriter") []); SEntry "StatusOK" false (TBasic BInvalid false)].
Definition o71 : obj := Obj 71 "CanonicalHeaderKey" (Some k2) 10000497 (OFunc (Some None)) (TSig [(TBasic BString false)] [(TBasic BString false)] false) None.
Definition o68 : obj := Obj 68 "Client" (Some k2) 10000415 OTypeName (TNamed (TName 68 (Some "net/http") "Client") []) None.
Definition o69 : obj := Obj 69 "DefaultClient" (Some k2) 10000445 (OVar false) (TPointer (TNamed (TName 68 (Some "net/http") "Client") [])) None.
Definition o67 : obj := Obj 67 "Handler" (Some k2) 10000352 OTypeName (TNamed (TName 67 (Some "net/http") "Handler") []) None.
Definition o64 : obj := Obj 64 "Header" (Some k2) 10000157 OTypeName (TNamed (TName 64 (Some "net/http") "Header") []) None.
Definition o66 : obj := Obj 66 "Request" (Some k2) 10000297 OTypeName (TNamed (TName 66 (Some "net/http") "Request") []) None.
Definition o65 : obj := Obj 65 "ResponseWriter" (Some k2) 10000189 OTypeName (TNamed (TName 65 (Some "net/http") "ResponseWriter") []) None.
Definition o70 : obj := Obj 70 "StatusOK" (Some k2) 10000477 OConst (TBasic BUntypedInt false) None.
Definition o82 : obj := Obj 82 "ServeHTTP" (Some k2) 10000372 (OFunc (Some (Some (TNamed (TName 67 (Some "net/http") "Handler") [])))) (TSig [(TNamed (TName 65 (Some "net/http") "ResponseWriter") []); (TPointer (TNamed (TName 66 (Some "net/http") "Request") []))] [] false) None.
Definition o72 : obj := Obj 72 "Header" (Some k2) 10000217 (OFunc (Some (Some (TNamed (TName 65 (Some "net/http") "ResponseWriter") [])))) (TSig [] [(TNamed (TName 64 (Some "net/http") "Header") [])] false) None.
Definition o74 : obj := Obj 74 "Write" (Some k2) 10000234 (OFunc (Some (Some (TNamed (TName 65 (Some "net/http") "ResponseWriter") [])))) (TSig [(TSlice (TBasic BUint8 true))] [(TBasic BInt false); (TNamed (TName 21 None "error") [])] false) None.
Definition o78 : obj := Obj 78 "WriteHeader" (Some k2) 10000262 (OFunc (Some (Some (TNamed (TName 65 (Some "net/http") "ResponseWriter") [])))) (TSig [(TBasic BInt false)] [] false) None.
Definition k3 : tpkg := TPkg "embed" [].
Definition k4 : tpkg := TPkg "strings" [SEntry "Contains" false (TBasic BInvalid false)].
Definition o90 : obj := Obj 90 "Contains" (Some k4) 10000643 (OFunc (Some None)) (TSig [(TBasic BString false); (TBasic BString false)] [(TBasic BBool false)] false) None.
Definition k5 : tpkg := TPkg "fmt" [SEntry "Fprint" false (TBasic BInvalid false); SEntry "Print" false (TBasic BInvalid false); SEntry "Printf" false (TBasic BInvalid false); SEntry "Println" false (TBasic BInvalid false); SEntry "Sprintf" false (TBasic BInvalid false); SEntry "Stringer" true (TNamed (TName 96 (Some "fmt") "Stringer") [])].
Definition o101 : obj := Obj 101 "Fprint" (Some k5) 10000932 (OFunc (Some None)) (TSig [(TNamed (TName 58 (Some "io") "Writer") []); (TSlice (TAlias (TName 20 None "any") (TInterface [] "")))] [(TBasic BInt false); (TNamed (TName 21 None "error") [])] true) None.
Definition o97 : obj := Obj 97 "Print" (Some k5) 10000749 (OFunc (Some None)) (TSig [(TSlice (TAlias (TName 20 None "any") (TInterface [] "")))] [(TBasic BInt false); (TNamed (TName 21 None "error") [])] true) None.
Definition o99 : obj := Obj 99 "Printf" (Some k5) 10000831 (OFunc (Some None)) (TSig [(TBasic BString false); (TSlice (TAlias (TName 20 None "any") (TInterface [] "")))] [(TBasic BInt false); (TNamed (TName 21 None "error") [])] true) None.
Definition o98 : obj := Obj 98 "Println" (Some k5) 10000789 (OFunc (Some None)) (TSig [(TSlice (TAlias (TName 20 None "any") (TInterface [] "")))] [(TBasic BInt false); (TNamed (TName 21 None "error") [])] true) None.
Definition o100 : obj := Obj 100 "Sprintf" (Some k5) 10000887 (OFunc (Some None)) (TSig [(TBasic BString false); (TSlice (TAlias (TName 20 None "any") (TInterface [] "")))] [(TBasic BString false)] true) None.
Definition o96 : obj := Obj 96 "Stringer" (Some k5) 10000705 OTypeName (TNamed (TName 96 (Some "fmt") "Stringer") []) None.
Definition o102 : obj := Obj 102 "String" (Some k5) 10000726 (OFunc (Some (Some (TNamed (TName 96 (Some "fmt") "Stringer") [])))) (TSig [] [(TBasic BString false)] false) None.
(* pr201/imports.go *)
Definition f7_0 : node := (NFile 1 false "" (Ident 1 "pr201" 9)
  [(NGenDecl 16 IMPORT "" [(NImportSpec 2 None 26 """context"""); (NImportSpec 3 None 37 """net/http"""); (NImportSpec 4 (Some (Ident 5 "_" 50)) 52 """embed"""); (NImportSpec 6 (Some (Ident 7 "." 62)) 64 """strings"""); (NImportSpec 8 (Some (Ident 9 "fmt" 76)) 80 """fmt"""); (NImportSpec 10 (Some (Ident 11 "h" 87)) 89 """net/http""")]);
   (NFuncDecl "" 103 229 None (Ident 12 "UseImports" 108) (NFuncType 103 (NFieldList []) (NFieldList []) (NFieldList [])) (Some (NBlockStmt 121 [(NOther 124 [(NOther 124 [(NSelectorExpr (NIdent (Ident 13 "fmt" 124)) (Ident 14 "Println" 128)); (NOther 136 [(NSelectorExpr (NIdent (Ident 15 "context" 136)) (Ident 16 "Background" 144))])])]); (NOther 159 [(NIdent (Ident 17 "_" 159)); (NSelectorExpr (NIdent (Ident 18 "http" 163)) (Ident 19 "StatusOK" 168))]); (NOther 178 [(NIdent (Ident 20 "_" 178)); (NSelectorExpr (NIdent (Ident 21 "h" 182)) (Ident 22 "DefaultClient" 184))]); (NOther 199 [(NIdent (Ident 23 "_" 199)); (NOther 203 [(NIdent (Ident 24 "Contains" 203))])])])))]).
Definition k6 : tpkg := TPkg "sg/pr201" [SEntry "UseImports" false (TBasic BInvalid false)].
Definition o89 : obj := Obj 89 "_" (Some k6) 50 (OPkgName "embed") (TBasic BInvalid false) None.
Definition o94 : obj := Obj 94 "." (Some k6) 62 (OPkgName "strings") (TBasic BInvalid false) None.
Definition o121 : obj := Obj 121 "fmt" (Some k6) 76 (OPkgName "fmt") (TBasic BInvalid false) None.
Definition o122 : obj := Obj 122 "h" (Some k6) 87 (OPkgName "net/http") (TBasic BInvalid false) None.
Definition o123 : obj := Obj 123 "UseImports" (Some k6) 108 (OFunc (Some None)) (TSig [] [] false) None.
Definition o57 : obj := Obj 57 "context" (Some k6) 26 (OPkgName "context") (TBasic BInvalid false) None.
Definition o88 : obj := Obj 88 "http" (Some k6) 37 (OPkgName "net/http") (TBasic BInvalid false) None.
Definition defs7 : list (nat * obj) := [(5, o89); (7, o94); (9, o121); (11, o122); (12, o123)].
Definition uses7 : list (nat * obj) := [(13, o121); (14, o98); (15, o57); (16, o48); (18, o88); (19, o70); (21, o122); (22, o69); (24, o90)].
Definition canon7 : list (nat * hty) := [].
Definition pkgnames7 : list (nat * obj) := [(2, o57); (3, o88); (4, o89); (6, o94); (8, o121); (10, o122)].
Definition cases7 : list obj := [].
Definition o22 : obj := Obj 22 "Error" None 0 (OFunc (Some (Some (TNamed (TName 21 None "error") [])))) (TSig [] [(TBasic BString false)] false) None.
Definition hobjs : list (nat * hobj) := [(89, HObj "_" (Some (HPkg "sg/pr201" "pr201")) false (HPkgName "embed"));
  (94, HObj "." (Some (HPkg "sg/pr201" "pr201")) false (HPkgName "strings"));
  (121, HObj "fmt" (Some (HPkg "sg/pr201" "pr201")) false (HPkgName "fmt"));
  (122, HObj "h" (Some (HPkg "sg/pr201" "pr201")) false (HPkgName "net/http"));
  (123, HObj "UseImports" (Some (HPkg "sg/pr201" "pr201")) true (HFunc None (HSig [] [] [] false)))].
Definition unders : list (nat * ty) := [(47, (TInterface [("Done", (TSig [] [(TChan 2 (TStruct []))] false)); ("Err", (TSig [] [(TNamed (TName 21 None "error") [])] false)); ("Value", (TSig [(TAlias (TName 20 None "any") (TInterface [] ""))] [(TAlias (TName 20 None "any") (TInterface [] ""))] false))] ""));
  (21, (TInterface [("Error", (TSig [] [(TBasic BString false)] false))] ""));
  (58, (TInterface [("Write", (TSig [(TSlice (TBasic BUint8 true))] [(TBasic BInt false); (TNamed (TName 21 None "error") [])] false))] ""));
  (68, (TStruct [(FHdr 85 "Jar" (Some "net/http") false "", (TBasic BInt false))]));
  (67, (TInterface [("ServeHTTP", (TSig [(TNamed (TName 65 (Some "net/http") "ResponseWriter") []); (TPointer (TNamed (TName 66 (Some "net/http") "Request") []))] [] false))] ""));
  (65, (TInterface [("Header", (TSig [] [(TNamed (TName 64 (Some "net/http") "Header") [])] false)); ("Write", (TSig [(TSlice (TBasic BUint8 true))] [(TBasic BInt false); (TNamed (TName 21 None "error") [])] false)); ("WriteHeader", (TSig [(TBasic BInt false)] [] false))] ""));
  (64, (TMap (TBasic BString false) (TSlice (TBasic BString false))));
  (66, (TStruct [(FHdr 80 "Method" (Some "net/http") false "", (TBasic BString false)); (FHdr 81 "Body" (Some "net/http") false "", (TNamed (TName 58 (Some "io") "Writer") []))]));
  (96, (TInterface [("String", (TSig [] [(TBasic BString false)] false))] ""))].
Definition msets : list (nat * (list obj * list obj)) := [(47, ([o49; o51; o53], []));
  (58, ([o59], []));
  (68, ([], []));
  (67, ([o82], []));
  (64, ([], []));
  (66, ([], []));
  (65, ([o72; o74; o78], []));
  (96, ([o102], []));
  (21, ([o22], []))].
Definition digests : list (string * string) := [].
Definition formatted : list (string * string) := [].
Definition sources : list src := [Src "/repo/internal/testdata/snapshots/input/pr201/imports.go" 1 "package pr201

import (
	""context""
	""net/http""

	_ ""embed""

	. ""strings""

	fmt ""fmt""
	h ""net/http""
)

func UseImports() {
	fmt.Println(context.Background())
	_ = http.StatusOK
	_ = h.DefaultClient
	_ = Contains(""hello"", ""ell"")
}
" []].
Definition gomods : list (string * string) := [].
Definition p1 : gpkg * option raw := (GPkg 1 "context" "context" None [] [] (Some k0) None, None).
Definition p2 : gpkg * option raw := (GPkg 2 "io" "io" None [] [] (Some k1) None, None).
Definition p3 : gpkg * option raw := (GPkg 3 "net/http" "http" None [("io", 2)] [] (Some k2) None, None).
Definition p4 : gpkg * option raw := (GPkg 4 "embed" "embed" None [] [] (Some k3) None, None).
Definition p5 : gpkg * option raw := (GPkg 5 "strings" "strings" None [] [] (Some k4) None, None).
Definition p6 : gpkg * option raw := (GPkg 6 "fmt" "fmt" None [("io", 2)] [] (Some k5) None, None).
Definition p7 : gpkg * option raw := (GPkg 7 "sg/pr201" "pr201" (Some (GMod "sg/pr201" "" "/repo/internal/testdata/snapshots/input/pr201" "/repo/internal/testdata/snapshots/input/pr201/go.mod" None)) [("context", 1); ("net/http", 3); ("embed", 4); ("strings", 5); ("fmt", 6)] [f7_0] (Some k6) None, (Some (Raw defs7 uses7 pkgnames7 cases7 canon7))).
Definition packages : list (gpkg * option raw) := [p1; p2; p3; p4; p5; p6; p7].
Definition roots : list nat := [7].
Definition scopes : list (nat * list obj) := [(1, [o48; o47]); (2, [o58]); (3, [o71; o68; o69; o67; o64; o66; o65; o70]); (4, []); (5, [o90]); (6, [o101; o97; o99; o98; o100; o96])].
Definition levels : list nat := [].
Definition input : input := Input "/repo/internal/testdata/snapshots/input/pr201" "sg/pr201" false sources packages roots gomods digests formatted hobjs unders msets scopes levels.
Definition golden : list (string * string) := [("imports.go", "  package pr201
//        ^^^^^ definition 0.1.test `sg/pr201`/
//              kind Package
//              display_name pr201
//              signature_documentation
//              > package pr201
  
  import (
   ""context""
//  ^^^^^^^ reference github.com/golang/go/src go1.22 context/
   ""net/http""
//  ^^^^^^^^ reference github.com/golang/go/src go1.22 `net/http`/
  
   _ ""embed""
//    ^^^^^ reference github.com/golang/go/src go1.22 embed/
  
   . ""strings""
//    ^^^^^^^ reference github.com/golang/go/src go1.22 strings/
  
   fmt ""fmt""
// ^^^ reference github.com/golang/go/src go1.22 fmt/
//      ^^^ reference github.com/golang/go/src go1.22 fmt/
   h ""net/http""
// ^ reference github.com/golang/go/src go1.22 `net/http`/
//    ^^^^^^^^ reference github.com/golang/go/src go1.22 `net/http`/
  )
  
//⌄ enclosing_range_start 0.1.test `sg/pr201`/UseImports().
  func UseImports() {
//     ^^^^^^^^^^ definition 0.1.test `sg/pr201`/UseImports().
//                kind Function
//                display_name UseImports
//                signature_documentation
//                > func UseImports()
   fmt.Println(context.Background())
// ^^^ reference github.com/golang/go/src go1.22 fmt/
//     ^^^^^^^ reference github.com/golang/go/src go1.22 fmt/Println().
//             ^^^^^^^ reference github.com/golang/go/src go1.22 context/
//                     ^^^^^^^^^^ reference github.com/golang/go/src go1.22 context/Background().
   _ = http.StatusOK
//     ^^^^ reference github.com/golang/go/src go1.22 `net/http`/
//          ^^^^^^^^ reference github.com/golang/go/src go1.22 `net/http`/StatusOK.
   _ = h.DefaultClient
//     ^ reference github.com/golang/go/src go1.22 `net/http`/
//       ^^^^^^^^^^^^^ reference github.com/golang/go/src go1.22 `net/http`/DefaultClient.
   _ = Contains(""hello"", ""ell"")
//     ^^^^^^^^ reference github.com/golang/go/src go1.22 strings/Contains().
  }
//⌃ enclosing_range_end 0.1.test `sg/pr201`/UseImports().
  
")].

(** The model, run on the input directory, gives the golden files of /repo. *)
Example snapshot_pr201 : snapshot input = Some golden.
Proof. vm_compute. reflexivity. Qed.
(** The directory meets the hypotheses of the theorems (Contract.scopes_contract_ok). *)
Example snapshot_pr201_contract : contract input = true ∧ scopesb input = true.
Proof. split; vm_compute; reflexivity. Qed.
