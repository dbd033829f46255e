(** Generated by tools/snapshot/emit.py from /repo/internal/testdata/snapshots/{input,output}/embedded: what packages.Load
    returns for that directory (syntax, types, modules; dependencies reduced to the declarations used), and the golden output. *)
From Coq Require Import Ascii String.
From stdpp Require Import prelude strings gmap.
From Verif Require Import GoStr Scip GoTypes Ast Packages Source Signature Snapshot Contract.
Open Scope string_scope.
Open Scope list_scope.
Definition k0 : tpkg := TPkg "io" [SEntry "Writer" true (TNamed (TName 47 (Some "io") "Writer") [])].
Definition o47 : obj := Obj 47 "Writer" (Some k0) 10000322 OTypeName (TNamed (TName 47 (Some "io") "Writer") []) None.
Definition o48 : obj := Obj 48 "Write" (Some k0) 10000341 (OFunc (Some (Some (TNamed (TName 47 (Some "io") "Writer") [])))) (TSig [(TSlice (TBasic BUint8 true))] [(TBasic BInt false); (TNamed (TName 21 None "error") [])] false) None.
Definition k1 : tpkg := TPkg "fmt" [SEntry "Fprint" false (TBasic BInvalid false); SEntry "Print" false (TBasic BInvalid false); SEntry "Printf" false (TBasic BInvalid false); SEntry "Println" false (TBasic BInvalid false); SEntry "Sprintf" false (TBasic BInvalid false); SEntry "Stringer" true (TNamed (TName 53 (Some "fmt") "Stringer") [])].
Definition o58 : obj := Obj 58 "Fprint" (Some k1) 10000256 (OFunc (Some None)) (TSig [(TNamed (TName 47 (Some "io") "Writer") []); (TSlice (TAlias (TName 20 None "any") (TInterface [] "")))] [(TBasic BInt false); (TNamed (TName 21 None "error") [])] true) None.
Definition o54 : obj := Obj 54 "Print" (Some k1) 10000073 (OFunc (Some None)) (TSig [(TSlice (TAlias (TName 20 None "any") (TInterface [] "")))] [(TBasic BInt false); (TNamed (TName 21 None "error") [])] true) None.
Definition o56 : obj := Obj 56 "Printf" (Some k1) 10000155 (OFunc (Some None)) (TSig [(TBasic BString false); (TSlice (TAlias (TName 20 None "any") (TInterface [] "")))] [(TBasic BInt false); (TNamed (TName 21 None "error") [])] true) None.
Definition o55 : obj := Obj 55 "Println" (Some k1) 10000113 (OFunc (Some None)) (TSig [(TSlice (TAlias (TName 20 None "any") (TInterface [] "")))] [(TBasic BInt false); (TNamed (TName 21 None "error") [])] true) None.
Definition o57 : obj := Obj 57 "Sprintf" (Some k1) 10000211 (OFunc (Some None)) (TSig [(TBasic BString false); (TSlice (TAlias (TName 20 None "any") (TInterface [] "")))] [(TBasic BString false)] true) None.
Definition o53 : obj := Obj 53 "Stringer" (Some k1) 10000029 OTypeName (TNamed (TName 53 (Some "fmt") "Stringer") []) None.
Definition o59 : obj := Obj 59 "String" (Some k1) 10000050 (OFunc (Some (Some (TNamed (TName 53 (Some "fmt") "Stringer") [])))) (TSig [] [(TBasic BString false)] false) None.
Definition k2 : tpkg := TPkg "os/exec" [SEntry "Cmd" true (TNamed (TName 80 (Some "os/exec") "Cmd") [])].
Definition o80 : obj := Obj 80 "Cmd" (Some k2) 10000409 OTypeName (TNamed (TName 80 (Some "os/exec") "Cmd") []) None.
Definition o82 : obj := Obj 82 "Run" (Some k2) 10000499 (OFunc (Some (Some (TPointer (TNamed (TName 80 (Some "os/exec") "Cmd") []))))) (TSig [] [(TNamed (TName 21 None "error") [])] false) None.
Definition o81 : obj := Obj 81 "String" (Some k2) 10000469 (OFunc (Some (Some (TPointer (TNamed (TName 80 (Some "os/exec") "Cmd") []))))) (TSig [] [(TBasic BString false)] false) None.
Definition k3 : tpkg := TPkg "net/http" [SEntry "CanonicalHeaderKey" false (TBasic BInvalid false); SEntry "Client" true (TNamed (TName 100 (Some "net/http") "Client") []); SEntry "DefaultClient" false (TBasic BInvalid false); SEntry "Handler" true (TNamed (TName 99 (Some "net/http") "Handler") []); SEntry "Header" true (TNamed (TName 96 (Some "net/http") "Header") []); SEntry "Request" true (TNamed (TName 98 (Some "net/http") "Request") []); SEntry "ResponseWriter" true (TNamed (TName 97 (Some "net/http") "ResponseWriter") []); SEntry "StatusOK" false (TBasic BInvalid false)].
Definition o103 : obj := Obj 103 "CanonicalHeaderKey" (Some k3) 10000882 (OFunc (Some None)) (TSig [(TBasic BString false)] [(TBasic BString false)] false) None.
Definition o100 : obj := Obj 100 "Client" (Some k3) 10000800 OTypeName (TNamed (TName 100 (Some "net/http") "Client") []) None.
Definition o101 : obj := Obj 101 "DefaultClient" (Some k3) 10000830 (OVar false) (TPointer (TNamed (TName 100 (Some "net/http") "Client") [])) None.
Definition o99 : obj := Obj 99 "Handler" (Some k3) 10000737 OTypeName (TNamed (TName 99 (Some "net/http") "Handler") []) None.
Definition o96 : obj := Obj 96 "Header" (Some k3) 10000542 OTypeName (TNamed (TName 96 (Some "net/http") "Header") []) None.
Definition o98 : obj := Obj 98 "Request" (Some k3) 10000682 OTypeName (TNamed (TName 98 (Some "net/http") "Request") []) None.
Definition o97 : obj := Obj 97 "ResponseWriter" (Some k3) 10000574 OTypeName (TNamed (TName 97 (Some "net/http") "ResponseWriter") []) None.
Definition o102 : obj := Obj 102 "StatusOK" (Some k3) 10000862 OConst (TBasic BUntypedInt false) None.
Definition o114 : obj := Obj 114 "ServeHTTP" (Some k3) 10000757 (OFunc (Some (Some (TNamed (TName 99 (Some "net/http") "Handler") [])))) (TSig [(TNamed (TName 97 (Some "net/http") "ResponseWriter") []); (TPointer (TNamed (TName 98 (Some "net/http") "Request") []))] [] false) None.
Definition o104 : obj := Obj 104 "Header" (Some k3) 10000602 (OFunc (Some (Some (TNamed (TName 97 (Some "net/http") "ResponseWriter") [])))) (TSig [] [(TNamed (TName 96 (Some "net/http") "Header") [])] false) None.
Definition o106 : obj := Obj 106 "Write" (Some k3) 10000619 (OFunc (Some (Some (TNamed (TName 97 (Some "net/http") "ResponseWriter") [])))) (TSig [(TSlice (TBasic BUint8 true))] [(TBasic BInt false); (TNamed (TName 21 None "error") [])] false) None.
Definition o110 : obj := Obj 110 "WriteHeader" (Some k3) 10000647 (OFunc (Some (Some (TNamed (TName 97 (Some "net/http") "ResponseWriter") [])))) (TSig [(TBasic BInt false)] [] false) None.
(* embedded/embedded.go *)
Definition f5_0 : node := (NFile 1 false "" (Ident 1 "embedded" 9)
  [(NGenDecl 19 IMPORT "" [(NImportSpec 2 None 29 """fmt"""); (NImportSpec 3 None 36 """os/exec""")]);
   (NGenDecl 49 TYPE "" [(NTypeSpec "" (Ident 4 "osExecCommand" 54) (NFieldList []) (NStructType 5 68 (NFieldList [(NField "" "" [] (NStarExpr 78 (NSelectorExpr (NIdent (Ident 6 "exec" 79)) (Ident 7 "Cmd" 84))))])))]);
   (NFuncDecl "" 91 156 None (Ident 8 "wrapExecCommand" 96) (NFuncType 91 (NFieldList []) (NFieldList [(NField "" "" [(Ident 9 "c" 112)] (NStarExpr 114 (NSelectorExpr (NIdent (Ident 10 "exec" 115)) (Ident 11 "Cmd" 120))))]) (NFieldList [])) (Some (NBlockStmt 125 [(NOther 128 [(NIdent (Ident 12 "_" 128)); (NUnaryExpr 132 (NOther 133 [(NIdent (Ident 13 "osExecCommand" 133)); (NOther 147 [(NIdent (Ident 14 "Cmd" 147)); (NIdent (Ident 15 "c" 152))])]))])])));
   (NGenDecl 158 TYPE "" [(NTypeSpec "" (Ident 16 "Inner" 163) (NFieldList []) (NStructType 17 169 (NFieldList [(NField "" "" [(Ident 18 "X" 179)] (NIdent (Ident 19 "int" 181))); (NField "" "" [(Ident 20 "Y" 186)] (NIdent (Ident 21 "int" 188))); (NField "" "" [(Ident 22 "Z" 193)] (NIdent (Ident 23 "int" 195)))])))]);
   (NGenDecl 202 TYPE "" [(NTypeSpec "" (Ident 24 "Outer" 207) (NFieldList []) (NStructType 25 213 (NFieldList [(NField "" "" [] (NIdent (Ident 26 "Inner" 223))); (NField "" "" [(Ident 27 "W" 230)] (NIdent (Ident 28 "int" 232)))])))]);
   (NFuncDecl "" 239 395 None (Ident 29 "useOfCompositeStructs" 244) (NFuncType 239 (NFieldList []) (NFieldList []) (NFieldList [])) (Some (NBlockStmt 268 [(NOther 271 [(NIdent (Ident 30 "o" 271)); (NOther 276 [(NIdent (Ident 31 "Outer" 276)); (NOther 285 [(NIdent (Ident 32 "Inner" 285)); (NOther 292 [(NIdent (Ident 33 "Inner" 292)); (NOther 302 [(NIdent (Ident 34 "X" 302))]); (NOther 311 [(NIdent (Ident 35 "Y" 311))]); (NOther 320 [(NIdent (Ident 36 "Z" 320))])])]); (NOther 333 [(NIdent (Ident 37 "W" 333))])])]); (NOther 344 [(NOther 344 [(NSelectorExpr (NIdent (Ident 38 "fmt" 344)) (Ident 39 "Printf" 348)); (NSelectorExpr (NIdent (Ident 40 "o" 365)) (Ident 41 "X" 367))])]); (NOther 371 [(NOther 371 [(NSelectorExpr (NIdent (Ident 42 "fmt" 371)) (Ident 43 "Println" 375)); (NSelectorExpr (NSelectorExpr (NIdent (Ident 44 "o" 383)) (Ident 45 "Inner" 385)) (Ident 46 "Y" 391))])])])))]).
(* embedded/nested.go *)
Definition f5_1 : node := (NFile 397 false "" (Ident 47 "embedded" 405)
  [(NGenDecl 415 IMPORT "" [(NImportSpec 48 None 422 """net/http""")]);
   (NGenDecl 434 TYPE "" [(NTypeSpec "" (Ident 49 "NestedHandler" 439) (NFieldList []) (NStructType 50 453 (NFieldList [(NField "" "" [] (NSelectorExpr (NIdent (Ident 51 "http" 463)) (Ident 52 "Handler" 468))); (NField "Wow, a great thing for integers
" "" [(Ident 53 "Other" 514)] (NIdent (Ident 54 "int" 520)))])))]);
   (NFuncDecl "" 527 621 None (Ident 55 "NestedExample" 532) (NFuncType 527 (NFieldList []) (NFieldList [(NField "" "" [(Ident 56 "n" 546)] (NIdent (Ident 57 "NestedHandler" 548)))]) (NFieldList [])) (Some (NBlockStmt 563 [(NOther 566 [(NIdent (Ident 58 "_" 566)); (NSelectorExpr (NSelectorExpr (NIdent (Ident 59 "n" 570)) (Ident 60 "Handler" 572)) (Ident 61 "ServeHTTP" 580))]); (NOther 591 [(NIdent (Ident 62 "_" 591)); (NSelectorExpr (NIdent (Ident 63 "n" 595)) (Ident 64 "ServeHTTP" 597))]); (NOther 608 [(NIdent (Ident 65 "_" 608)); (NSelectorExpr (NIdent (Ident 66 "n" 612)) (Ident 67 "Other" 614))])])))]).
(* embedded/something.go *)
Definition f5_2 : node := (NFile 623 false "" (Ident 68 "embedded" 631)
  [(NGenDecl 641 IMPORT "" [(NImportSpec 69 None 648 """fmt""")]);
   (NFuncDecl "" 655 780 (Some (NFieldList [(NField "" "" [(Ident 70 "r" 661)] (NStarExpr 663 (NIdent (Ident 71 "RecentCommittersResults" 664))))])) (Ident 72 "String" 689) (NFuncType 655 (NFieldList []) (NFieldList []) (NFieldList [(NField "" "" [] (NIdent (Ident 73 "string" 698)))])) (Some (NBlockStmt 705 [(NOther 708 [(NOther 715 [(NSelectorExpr (NIdent (Ident 74 "fmt" 715)) (Ident 75 "Sprintf" 719)); (NOther 765 [(NIdent (Ident 76 "len" 765)); (NSelectorExpr (NIdent (Ident 77 "r" 769)) (Ident 78 "Nodes" 771))])])])])));
   (NGenDecl 782 TYPE "" [(NTypeSpec "" (Ident 79 "RecentCommittersResults" 787) (NFieldList []) (NStructType 80 811 (NFieldList [(NField "" "" [(Ident 81 "Nodes" 821)] (NArrayType 827 None (NStructType 82 829 (NFieldList [(NField "" "" [(Ident 83 "Authors" 840)] (NStructType 84 848 (NFieldList [(NField "" "" [(Ident 85 "Nodes" 860)] (NArrayType 866 None (NStructType 86 868 (NFieldList [(NField "" "" [(Ident 87 "Date" 881)] (NIdent (Ident 88 "string" 887))); (NField "" "" [(Ident 89 "Email" 898)] (NIdent (Ident 90 "string" 904))); (NField "" "" [(Ident 91 "Name" 915)] (NIdent (Ident 92 "string" 921))); (NField "" "" [(Ident 93 "User" 932)] (NStructType 94 938 (NFieldList [(NField "" "" [(Ident 95 "Login" 952)] (NIdent (Ident 96 "string" 958)))]))); (NField "" "" [(Ident 97 "AvatarURL" 975)] (NIdent (Ident 98 "string" 985)))]))))])))])))); (NField "" "" [(Ident 99 "PageInfo" 1005)] (NStructType 100 1014 (NFieldList [(NField "" "" [(Ident 101 "HasNextPage" 1025)] (NIdent (Ident 102 "bool" 1037)))])))])))])]).
Definition k4 : tpkg := TPkg "sg/embedded" [SEntry "Inner" true (TNamed (TName 92 (Some "sg/embedded") "Inner") []); SEntry "NestedExample" false (TBasic BInvalid false); SEntry "NestedHandler" true (TNamed (TName 121 (Some "sg/embedded") "NestedHandler") []); SEntry "Outer" true (TNamed (TName 93 (Some "sg/embedded") "Outer") []); SEntry "RecentCommittersResults" true (TNamed (TName 125 (Some "sg/embedded") "RecentCommittersResults") []); SEntry "osExecCommand" true (TNamed (TName 90 (Some "sg/embedded") "osExecCommand") []); SEntry "useOfCompositeStructs" false (TBasic BInvalid false); SEntry "wrapExecCommand" false (TBasic BInvalid false)].
Definition o90 : obj := Obj 90 "osExecCommand" (Some k4) 54 OTypeName (TNamed (TName 90 (Some "sg/embedded") "osExecCommand") []) None.
Definition o91 : obj := Obj 91 "wrapExecCommand" (Some k4) 96 (OFunc (Some None)) (TSig [(TPointer (TNamed (TName 80 (Some "os/exec") "Cmd") []))] [] false) None.
Definition o92 : obj := Obj 92 "Inner" (Some k4) 163 OTypeName (TNamed (TName 92 (Some "sg/embedded") "Inner") []) None.
Definition o93 : obj := Obj 93 "Outer" (Some k4) 207 OTypeName (TNamed (TName 93 (Some "sg/embedded") "Outer") []) None.
Definition o94 : obj := Obj 94 "useOfCompositeStructs" (Some k4) 244 (OFunc (Some None)) (TSig [] [] false) None.
Definition o121 : obj := Obj 121 "NestedHandler" (Some k4) 439 OTypeName (TNamed (TName 121 (Some "sg/embedded") "NestedHandler") []) None.
Definition o122 : obj := Obj 122 "NestedExample" (Some k4) 532 (OFunc (Some None)) (TSig [(TNamed (TName 121 (Some "sg/embedded") "NestedHandler") [])] [] false) None.
Definition o124 : obj := Obj 124 "String" (Some k4) 689 (OFunc (Some (Some (TPointer (TNamed (TName 125 (Some "sg/embedded") "RecentCommittersResults") []))))) (TSig [] [(TBasic BString false)] false) None.
Definition o125 : obj := Obj 125 "RecentCommittersResults" (Some k4) 787 OTypeName (TNamed (TName 125 (Some "sg/embedded") "RecentCommittersResults") []) None.
Definition o126 : obj := Obj 126 "Cmd" (Some k4) 84 (OVar true) (TPointer (TNamed (TName 80 (Some "os/exec") "Cmd") [])) None.
Definition o127 : obj := Obj 127 "c" (Some k4) 112 (OVar false) (TPointer (TNamed (TName 80 (Some "os/exec") "Cmd") [])) None.
Definition o128 : obj := Obj 128 "X" (Some k4) 179 (OVar true) (TBasic BInt false) None.
Definition o129 : obj := Obj 129 "Y" (Some k4) 186 (OVar true) (TBasic BInt false) None.
Definition o130 : obj := Obj 130 "Z" (Some k4) 193 (OVar true) (TBasic BInt false) None.
Definition o131 : obj := Obj 131 "Inner" (Some k4) 223 (OVar true) (TNamed (TName 92 (Some "sg/embedded") "Inner") []) None.
Definition o132 : obj := Obj 132 "W" (Some k4) 230 (OVar true) (TBasic BInt false) None.
Definition o133 : obj := Obj 133 "Handler" (Some k4) 468 (OVar true) (TNamed (TName 99 (Some "net/http") "Handler") []) None.
Definition o134 : obj := Obj 134 "Other" (Some k4) 514 (OVar true) (TBasic BInt false) None.
Definition o135 : obj := Obj 135 "n" (Some k4) 546 (OVar false) (TNamed (TName 121 (Some "sg/embedded") "NestedHandler") []) None.
Definition o136 : obj := Obj 136 "Date" (Some k4) 881 (OVar true) (TBasic BString false) None.
Definition o137 : obj := Obj 137 "Email" (Some k4) 898 (OVar true) (TBasic BString false) None.
Definition o138 : obj := Obj 138 "Name" (Some k4) 915 (OVar true) (TBasic BString false) None.
Definition o139 : obj := Obj 139 "Login" (Some k4) 952 (OVar true) (TBasic BString false) None.
Definition o140 : obj := Obj 140 "User" (Some k4) 932 (OVar true) (TStruct [(FHdr 139 "Login" (Some "sg/embedded") false "", (TBasic BString false))]) None.
Definition o141 : obj := Obj 141 "AvatarURL" (Some k4) 975 (OVar true) (TBasic BString false) None.
Definition o142 : obj := Obj 142 "Nodes" (Some k4) 860 (OVar true) (TSlice (TStruct [(FHdr 136 "Date" (Some "sg/embedded") false "", (TBasic BString false)); (FHdr 137 "Email" (Some "sg/embedded") false "", (TBasic BString false)); (FHdr 138 "Name" (Some "sg/embedded") false "", (TBasic BString false)); (FHdr 140 "User" (Some "sg/embedded") false "", (TStruct [(FHdr 139 "Login" (Some "sg/embedded") false "", (TBasic BString false))])); (FHdr 141 "AvatarURL" (Some "sg/embedded") false "", (TBasic BString false))])) None.
Definition o143 : obj := Obj 143 "Authors" (Some k4) 840 (OVar true) (TStruct [(FHdr 142 "Nodes" (Some "sg/embedded") false "", (TSlice (TStruct [(FHdr 136 "Date" (Some "sg/embedded") false "", (TBasic BString false)); (FHdr 137 "Email" (Some "sg/embedded") false "", (TBasic BString false)); (FHdr 138 "Name" (Some "sg/embedded") false "", (TBasic BString false)); (FHdr 140 "User" (Some "sg/embedded") false "", (TStruct [(FHdr 139 "Login" (Some "sg/embedded") false "", (TBasic BString false))])); (FHdr 141 "AvatarURL" (Some "sg/embedded") false "", (TBasic BString false))])))]) None.
Definition o144 : obj := Obj 144 "Nodes" (Some k4) 821 (OVar true) (TSlice (TStruct [(FHdr 143 "Authors" (Some "sg/embedded") false "", (TStruct [(FHdr 142 "Nodes" (Some "sg/embedded") false "", (TSlice (TStruct [(FHdr 136 "Date" (Some "sg/embedded") false "", (TBasic BString false)); (FHdr 137 "Email" (Some "sg/embedded") false "", (TBasic BString false)); (FHdr 138 "Name" (Some "sg/embedded") false "", (TBasic BString false)); (FHdr 140 "User" (Some "sg/embedded") false "", (TStruct [(FHdr 139 "Login" (Some "sg/embedded") false "", (TBasic BString false))])); (FHdr 141 "AvatarURL" (Some "sg/embedded") false "", (TBasic BString false))])))]))])) None.
Definition o145 : obj := Obj 145 "HasNextPage" (Some k4) 1025 (OVar true) (TBasic BBool false) None.
Definition o146 : obj := Obj 146 "PageInfo" (Some k4) 1005 (OVar true) (TStruct [(FHdr 145 "HasNextPage" (Some "sg/embedded") false "", (TBasic BBool false))]) None.
Definition o148 : obj := Obj 148 "r" (Some k4) 661 (OVar false) (TPointer (TNamed (TName 125 (Some "sg/embedded") "RecentCommittersResults") [])) None.
Definition o149 : obj := Obj 149 "o" (Some k4) 271 (OVar false) (TNamed (TName 93 (Some "sg/embedded") "Outer") []) None.
Definition o89 : obj := Obj 89 "exec" (Some k4) 36 (OPkgName "os/exec") (TBasic BInvalid false) None.
Definition o2 : obj := Obj 2 "int" None 0 OTypeName (TBasic BInt false) None.
Definition o120 : obj := Obj 120 "http" (Some k4) 422 (OPkgName "net/http") (TBasic BInvalid false) None.
Definition o17 : obj := Obj 17 "string" None 0 OTypeName (TBasic BString false) None.
Definition o1 : obj := Obj 1 "bool" None 0 OTypeName (TBasic BBool false) None.
Definition o78 : obj := Obj 78 "fmt" (Some k4) 29 (OPkgName "fmt") (TBasic BInvalid false) None.
Definition o123 : obj := Obj 123 "fmt" (Some k4) 648 (OPkgName "fmt") (TBasic BInvalid false) None.
Definition o37 : obj := Obj 37 "len" None 0 OBuiltin (TBasic BInvalid false) None.
Definition defs5 : list (nat * obj) := [(4, o90); (8, o91); (16, o92); (24, o93); (29, o94); (49, o121); (55, o122); (72, o124); (79, o125); (7, o126); (9, o127); (18, o128); (20, o129); (22, o130); (26, o131); (27, o132); (52, o133); (53, o134); (56, o135); (87, o136); (89, o137); (91, o138); (95, o139); (93, o140); (97, o141); (85, o142); (83, o143); (81, o144); (101, o145); (99, o146); (70, o148); (30, o149)].
Definition uses5 : list (nat * obj) := [(6, o89); (7, o80); (10, o89); (11, o80); (19, o2); (21, o2); (23, o2); (26, o92); (28, o2); (51, o120); (52, o99); (54, o2); (57, o121); (71, o125); (88, o17); (90, o17); (92, o17); (96, o17); (98, o17); (102, o1); (73, o17); (13, o90); (14, o126); (15, o127); (31, o93); (32, o131); (33, o92); (34, o128); (35, o129); (36, o130); (37, o132); (38, o78); (39, o56); (40, o149); (41, o128); (42, o78); (43, o55); (44, o149); (45, o131); (46, o129); (59, o135); (60, o133); (61, o114); (63, o135); (64, o114); (66, o135); (67, o134); (74, o123); (75, o57); (76, o37); (77, o148); (78, o144)].
Definition canon5 : list (nat * hty) := [(5, (HStruct [("Cmd", true, "", (HPointer (HNamed (HName (Some (HPkg "os/exec" "exec")) "Cmd") [] [])))])); (17, (HStruct [("X", false, "", (HBasic "int")); ("Y", false, "", (HBasic "int")); ("Z", false, "", (HBasic "int"))])); (25, (HStruct [("Inner", true, "", (HNamed (HName (Some (HPkg "sg/embedded" "embedded")) "Inner") [] [])); ("W", false, "", (HBasic "int"))])); (50, (HStruct [("Handler", true, "", (HNamed (HName (Some (HPkg "net/http" "http")) "Handler") [] [])); ("Other", false, "", (HBasic "int"))])); (94, (HStruct [("Login", false, "", (HBasic "string"))])); (86, (HStruct [("Date", false, "", (HBasic "string")); ("Email", false, "", (HBasic "string")); ("Name", false, "", (HBasic "string")); ("User", false, "", (HStruct [("Login", false, "", (HBasic "string"))])); ("AvatarURL", false, "", (HBasic "string"))])); (84, (HStruct [("Nodes", false, "", (HSlice (HStruct [("Date", false, "", (HBasic "string")); ("Email", false, "", (HBasic "string")); ("Name", false, "", (HBasic "string")); ("User", false, "", (HStruct [("Login", false, "", (HBasic "string"))])); ("AvatarURL", false, "", (HBasic "string"))])))])); (82, (HStruct [("Authors", false, "", (HStruct [("Nodes", false, "", (HSlice (HStruct [("Date", false, "", (HBasic "string")); ("Email", false, "", (HBasic "string")); ("Name", false, "", (HBasic "string")); ("User", false, "", (HStruct [("Login", false, "", (HBasic "string"))])); ("AvatarURL", false, "", (HBasic "string"))])))]))])); (100, (HStruct [("HasNextPage", false, "", (HBasic "bool"))])); (80, (HStruct [("Nodes", false, "", (HSlice (HStruct [("Authors", false, "", (HStruct [("Nodes", false, "", (HSlice (HStruct [("Date", false, "", (HBasic "string")); ("Email", false, "", (HBasic "string")); ("Name", false, "", (HBasic "string")); ("User", false, "", (HStruct [("Login", false, "", (HBasic "string"))])); ("AvatarURL", false, "", (HBasic "string"))])))]))]))); ("PageInfo", false, "", (HStruct [("HasNextPage", false, "", (HBasic "bool"))]))]))].
Definition pkgnames5 : list (nat * obj) := [(2, o78); (3, o89); (48, o120); (69, o123)].
Definition cases5 : list obj := [].
(* embedded/internal/nested.go *)
Definition f6_0 : node := (NFile 1048 false "" (Ident 103 "nested_internal" 1056)
  [(NGenDecl 1073 IMPORT "" [(NImportSpec 104 None 1083 """fmt"""); (NImportSpec 105 None 1090 """sg/embedded""")]);
   (NFuncDecl "" 1107 1288 None (Ident 106 "Something" 1112) (NFuncType 1107 (NFieldList []) (NFieldList [(NField "" "" [(Ident 107 "recent" 1122)] (NSelectorExpr (NIdent (Ident 108 "embedded" 1129)) (Ident 109 "RecentCommittersResults" 1138)))]) (NFieldList [])) (Some (NBlockStmt 1163 [(NOther 1166 [(NIdent (Ident 110 "_" 1170)); (NIdent (Ident 111 "commit" 1173)); (NSelectorExpr (NIdent (Ident 112 "recent" 1189)) (Ident 113 "Nodes" 1196)); (NBlockStmt 1202 [(NOther 1206 [(NIdent (Ident 114 "_" 1210)); (NIdent (Ident 115 "author" 1213)); (NSelectorExpr (NSelectorExpr (NIdent (Ident 116 "commit" 1229)) (Ident 117 "Authors" 1236)) (Ident 118 "Nodes" 1244)); (NBlockStmt 1250 [(NOther 1255 [(NOther 1255 [(NSelectorExpr (NIdent (Ident 119 "fmt" 1255)) (Ident 120 "Println" 1259)); (NSelectorExpr (NIdent (Ident 121 "author" 1267)) (Ident 122 "Name" 1274))])])])])])])])))]).
Definition k5 : tpkg := TPkg "sg/embedded/internal" [SEntry "Something" false (TBasic BInvalid false)].
Definition o152 : obj := Obj 152 "Something" (Some k5) 1112 (OFunc (Some None)) (TSig [(TNamed (TName 125 (Some "sg/embedded") "RecentCommittersResults") [])] [] false) None.
Definition o153 : obj := Obj 153 "recent" (Some k5) 1122 (OVar false) (TNamed (TName 125 (Some "sg/embedded") "RecentCommittersResults") []) None.
Definition o154 : obj := Obj 154 "_" (Some k5) 1170 (OVar false) (TBasic BInt false) None.
Definition o155 : obj := Obj 155 "commit" (Some k5) 1173 (OVar false) (TStruct [(FHdr 143 "Authors" (Some "sg/embedded") false "", (TStruct [(FHdr 142 "Nodes" (Some "sg/embedded") false "", (TSlice (TStruct [(FHdr 136 "Date" (Some "sg/embedded") false "", (TBasic BString false)); (FHdr 137 "Email" (Some "sg/embedded") false "", (TBasic BString false)); (FHdr 138 "Name" (Some "sg/embedded") false "", (TBasic BString false)); (FHdr 140 "User" (Some "sg/embedded") false "", (TStruct [(FHdr 139 "Login" (Some "sg/embedded") false "", (TBasic BString false))])); (FHdr 141 "AvatarURL" (Some "sg/embedded") false "", (TBasic BString false))])))]))]) None.
Definition o156 : obj := Obj 156 "_" (Some k5) 1210 (OVar false) (TBasic BInt false) None.
Definition o157 : obj := Obj 157 "author" (Some k5) 1213 (OVar false) (TStruct [(FHdr 136 "Date" (Some "sg/embedded") false "", (TBasic BString false)); (FHdr 137 "Email" (Some "sg/embedded") false "", (TBasic BString false)); (FHdr 138 "Name" (Some "sg/embedded") false "", (TBasic BString false)); (FHdr 140 "User" (Some "sg/embedded") false "", (TStruct [(FHdr 139 "Login" (Some "sg/embedded") false "", (TBasic BString false))])); (FHdr 141 "AvatarURL" (Some "sg/embedded") false "", (TBasic BString false))]) None.
Definition o151 : obj := Obj 151 "embedded" (Some k5) 1090 (OPkgName "sg/embedded") (TBasic BInvalid false) None.
Definition o150 : obj := Obj 150 "fmt" (Some k5) 1083 (OPkgName "fmt") (TBasic BInvalid false) None.
Definition defs6 : list (nat * obj) := [(106, o152); (107, o153); (110, o154); (111, o155); (114, o156); (115, o157)].
Definition uses6 : list (nat * obj) := [(108, o151); (109, o125); (112, o153); (113, o144); (116, o155); (117, o143); (118, o142); (119, o150); (120, o55); (121, o157); (122, o138)].
Definition canon6 : list (nat * hty) := [].
Definition pkgnames6 : list (nat * obj) := [(104, o150); (105, o151)].
Definition cases6 : list obj := [].
Definition o22 : obj := Obj 22 "Error" None 0 (OFunc (Some (Some (TNamed (TName 21 None "error") [])))) (TSig [] [(TBasic BString false)] false) None.
Definition hobjs : list (nat * hobj) := [(90, HObj "osExecCommand" (Some (HPkg "sg/embedded" "embedded")) true (HTypeName (DDefined [] (HStruct [("Cmd", true, "", (HPointer (HNamed (HName (Some (HPkg "os/exec" "exec")) "Cmd") [] [])))]))));
  (91, HObj "wrapExecCommand" (Some (HPkg "sg/embedded" "embedded")) true (HFunc None (HSig [] [("c", (HPointer (HNamed (HName (Some (HPkg "os/exec" "exec")) "Cmd") [] [])))] [] false)));
  (92, HObj "Inner" (Some (HPkg "sg/embedded" "embedded")) true (HTypeName (DDefined [] (HStruct [("X", false, "", (HBasic "int")); ("Y", false, "", (HBasic "int")); ("Z", false, "", (HBasic "int"))]))));
  (93, HObj "Outer" (Some (HPkg "sg/embedded" "embedded")) true (HTypeName (DDefined [] (HStruct [("Inner", true, "", (HNamed (HName (Some (HPkg "sg/embedded" "embedded")) "Inner") [] [])); ("W", false, "", (HBasic "int"))]))));
  (94, HObj "useOfCompositeStructs" (Some (HPkg "sg/embedded" "embedded")) true (HFunc None (HSig [] [] [] false)));
  (121, HObj "NestedHandler" (Some (HPkg "sg/embedded" "embedded")) true (HTypeName (DDefined [] (HStruct [("Handler", true, "", (HNamed (HName (Some (HPkg "net/http" "http")) "Handler") [] [])); ("Other", false, "", (HBasic "int"))]))));
  (122, HObj "NestedExample" (Some (HPkg "sg/embedded" "embedded")) true (HFunc None (HSig [] [("n", (HNamed (HName (Some (HPkg "sg/embedded" "embedded")) "NestedHandler") [] []))] [] false)));
  (124, HObj "String" (Some (HPkg "sg/embedded" "embedded")) false (HFunc (Some (HPointer (HNamed (HName (Some (HPkg "sg/embedded" "embedded")) "RecentCommittersResults") [] []))) (HSig [] [] [("", (HBasic "string"))] false)));
  (125, HObj "RecentCommittersResults" (Some (HPkg "sg/embedded" "embedded")) true (HTypeName (DDefined [] (HStruct [("Nodes", false, "", (HSlice (HStruct [("Authors", false, "", (HStruct [("Nodes", false, "", (HSlice (HStruct [("Date", false, "", (HBasic "string")); ("Email", false, "", (HBasic "string")); ("Name", false, "", (HBasic "string")); ("User", false, "", (HStruct [("Login", false, "", (HBasic "string"))])); ("AvatarURL", false, "", (HBasic "string"))])))]))]))); ("PageInfo", false, "", (HStruct [("HasNextPage", false, "", (HBasic "bool"))]))]))));
  (126, HObj "Cmd" (Some (HPkg "sg/embedded" "embedded")) false (HVar true (HPointer (HNamed (HName (Some (HPkg "os/exec" "exec")) "Cmd") [] []))));
  (127, HObj "c" (Some (HPkg "sg/embedded" "embedded")) false (HVar false (HPointer (HNamed (HName (Some (HPkg "os/exec" "exec")) "Cmd") [] []))));
  (128, HObj "X" (Some (HPkg "sg/embedded" "embedded")) false (HVar true (HBasic "int")));
  (129, HObj "Y" (Some (HPkg "sg/embedded" "embedded")) false (HVar true (HBasic "int")));
  (130, HObj "Z" (Some (HPkg "sg/embedded" "embedded")) false (HVar true (HBasic "int")));
  (131, HObj "Inner" (Some (HPkg "sg/embedded" "embedded")) false (HVar true (HNamed (HName (Some (HPkg "sg/embedded" "embedded")) "Inner") [] [])));
  (132, HObj "W" (Some (HPkg "sg/embedded" "embedded")) false (HVar true (HBasic "int")));
  (133, HObj "Handler" (Some (HPkg "sg/embedded" "embedded")) false (HVar true (HNamed (HName (Some (HPkg "net/http" "http")) "Handler") [] [])));
  (134, HObj "Other" (Some (HPkg "sg/embedded" "embedded")) false (HVar true (HBasic "int")));
  (135, HObj "n" (Some (HPkg "sg/embedded" "embedded")) false (HVar false (HNamed (HName (Some (HPkg "sg/embedded" "embedded")) "NestedHandler") [] [])));
  (136, HObj "Date" (Some (HPkg "sg/embedded" "embedded")) false (HVar true (HBasic "string")));
  (137, HObj "Email" (Some (HPkg "sg/embedded" "embedded")) false (HVar true (HBasic "string")));
  (138, HObj "Name" (Some (HPkg "sg/embedded" "embedded")) false (HVar true (HBasic "string")));
  (139, HObj "Login" (Some (HPkg "sg/embedded" "embedded")) false (HVar true (HBasic "string")));
  (140, HObj "User" (Some (HPkg "sg/embedded" "embedded")) false (HVar true (HStruct [("Login", false, "", (HBasic "string"))])));
  (141, HObj "AvatarURL" (Some (HPkg "sg/embedded" "embedded")) false (HVar true (HBasic "string")));
  (142, HObj "Nodes" (Some (HPkg "sg/embedded" "embedded")) false (HVar true (HSlice (HStruct [("Date", false, "", (HBasic "string")); ("Email", false, "", (HBasic "string")); ("Name", false, "", (HBasic "string")); ("User", false, "", (HStruct [("Login", false, "", (HBasic "string"))])); ("AvatarURL", false, "", (HBasic "string"))]))));
  (143, HObj "Authors" (Some (HPkg "sg/embedded" "embedded")) false (HVar true (HStruct [("Nodes", false, "", (HSlice (HStruct [("Date", false, "", (HBasic "string")); ("Email", false, "", (HBasic "string")); ("Name", false, "", (HBasic "string")); ("User", false, "", (HStruct [("Login", false, "", (HBasic "string"))])); ("AvatarURL", false, "", (HBasic "string"))])))])));
  (144, HObj "Nodes" (Some (HPkg "sg/embedded" "embedded")) false (HVar true (HSlice (HStruct [("Authors", false, "", (HStruct [("Nodes", false, "", (HSlice (HStruct [("Date", false, "", (HBasic "string")); ("Email", false, "", (HBasic "string")); ("Name", false, "", (HBasic "string")); ("User", false, "", (HStruct [("Login", false, "", (HBasic "string"))])); ("AvatarURL", false, "", (HBasic "string"))])))]))]))));
  (145, HObj "HasNextPage" (Some (HPkg "sg/embedded" "embedded")) false (HVar true (HBasic "bool")));
  (146, HObj "PageInfo" (Some (HPkg "sg/embedded" "embedded")) false (HVar true (HStruct [("HasNextPage", false, "", (HBasic "bool"))])));
  (148, HObj "r" (Some (HPkg "sg/embedded" "embedded")) false (HVar false (HPointer (HNamed (HName (Some (HPkg "sg/embedded" "embedded")) "RecentCommittersResults") [] []))));
  (149, HObj "o" (Some (HPkg "sg/embedded" "embedded")) false (HVar false (HNamed (HName (Some (HPkg "sg/embedded" "embedded")) "Outer") [] [])));
  (152, HObj "Something" (Some (HPkg "sg/embedded/internal" "nested_internal")) true (HFunc None (HSig [] [("recent", (HNamed (HName (Some (HPkg "sg/embedded" "embedded")) "RecentCommittersResults") [] []))] [] false)));
  (153, HObj "recent" (Some (HPkg "sg/embedded/internal" "nested_internal")) false (HVar false (HNamed (HName (Some (HPkg "sg/embedded" "embedded")) "RecentCommittersResults") [] [])));
  (154, HObj "_" (Some (HPkg "sg/embedded/internal" "nested_internal")) false (HVar false (HBasic "int")));
  (155, HObj "commit" (Some (HPkg "sg/embedded/internal" "nested_internal")) false (HVar false (HStruct [("Authors", false, "", (HStruct [("Nodes", false, "", (HSlice (HStruct [("Date", false, "", (HBasic "string")); ("Email", false, "", (HBasic "string")); ("Name", false, "", (HBasic "string")); ("User", false, "", (HStruct [("Login", false, "", (HBasic "string"))])); ("AvatarURL", false, "", (HBasic "string"))])))]))])));
  (156, HObj "_" (Some (HPkg "sg/embedded/internal" "nested_internal")) false (HVar false (HBasic "int")));
  (157, HObj "author" (Some (HPkg "sg/embedded/internal" "nested_internal")) false (HVar false (HStruct [("Date", false, "", (HBasic "string")); ("Email", false, "", (HBasic "string")); ("Name", false, "", (HBasic "string")); ("User", false, "", (HStruct [("Login", false, "", (HBasic "string"))])); ("AvatarURL", false, "", (HBasic "string"))])))].
Definition unders : list (nat * ty) := [(47, (TInterface [("Write", (TSig [(TSlice (TBasic BUint8 true))] [(TBasic BInt false); (TNamed (TName 21 None "error") [])] false))] ""));
  (21, (TInterface [("Error", (TSig [] [(TBasic BString false)] false))] ""));
  (53, (TInterface [("String", (TSig [] [(TBasic BString false)] false))] ""));
  (80, (TStruct [(FHdr 83 "Path" (Some "os/exec") false "", (TBasic BString false)); (FHdr 84 "Stdout" (Some "os/exec") false "", (TNamed (TName 47 (Some "io") "Writer") []))]));
  (100, (TStruct [(FHdr 117 "Jar" (Some "net/http") false "", (TBasic BInt false))]));
  (99, (TInterface [("ServeHTTP", (TSig [(TNamed (TName 97 (Some "net/http") "ResponseWriter") []); (TPointer (TNamed (TName 98 (Some "net/http") "Request") []))] [] false))] ""));
  (97, (TInterface [("Header", (TSig [] [(TNamed (TName 96 (Some "net/http") "Header") [])] false)); ("Write", (TSig [(TSlice (TBasic BUint8 true))] [(TBasic BInt false); (TNamed (TName 21 None "error") [])] false)); ("WriteHeader", (TSig [(TBasic BInt false)] [] false))] ""));
  (96, (TMap (TBasic BString false) (TSlice (TBasic BString false))));
  (98, (TStruct [(FHdr 112 "Method" (Some "net/http") false "", (TBasic BString false)); (FHdr 113 "Body" (Some "net/http") false "", (TNamed (TName 47 (Some "io") "Writer") []))]));
  (92, (TStruct [(FHdr 128 "X" (Some "sg/embedded") false "", (TBasic BInt false)); (FHdr 129 "Y" (Some "sg/embedded") false "", (TBasic BInt false)); (FHdr 130 "Z" (Some "sg/embedded") false "", (TBasic BInt false))]));
  (121, (TStruct [(FHdr 133 "Handler" (Some "sg/embedded") true "", (TNamed (TName 99 (Some "net/http") "Handler") [])); (FHdr 134 "Other" (Some "sg/embedded") false "", (TBasic BInt false))]));
  (93, (TStruct [(FHdr 131 "Inner" (Some "sg/embedded") true "", (TNamed (TName 92 (Some "sg/embedded") "Inner") [])); (FHdr 132 "W" (Some "sg/embedded") false "", (TBasic BInt false))]));
  (125, (TStruct [(FHdr 144 "Nodes" (Some "sg/embedded") false "", (TSlice (TStruct [(FHdr 143 "Authors" (Some "sg/embedded") false "", (TStruct [(FHdr 142 "Nodes" (Some "sg/embedded") false "", (TSlice (TStruct [(FHdr 136 "Date" (Some "sg/embedded") false "", (TBasic BString false)); (FHdr 137 "Email" (Some "sg/embedded") false "", (TBasic BString false)); (FHdr 138 "Name" (Some "sg/embedded") false "", (TBasic BString false)); (FHdr 140 "User" (Some "sg/embedded") false "", (TStruct [(FHdr 139 "Login" (Some "sg/embedded") false "", (TBasic BString false))])); (FHdr 141 "AvatarURL" (Some "sg/embedded") false "", (TBasic BString false))])))]))]))); (FHdr 146 "PageInfo" (Some "sg/embedded") false "", (TStruct [(FHdr 145 "HasNextPage" (Some "sg/embedded") false "", (TBasic BBool false))]))]));
  (90, (TStruct [(FHdr 126 "Cmd" (Some "sg/embedded") true "", (TPointer (TNamed (TName 80 (Some "os/exec") "Cmd") [])))]))].
Definition msets : list (nat * (list obj * list obj)) := [(47, ([o48], []));
  (53, ([o59], []));
  (80, ([], [o82; o81]));
  (100, ([], []));
  (99, ([o114], []));
  (96, ([], []));
  (98, ([], []));
  (97, ([o104; o106; o110], []));
  (90, ([o82; o81], [o82; o81]));
  (92, ([], []));
  (93, ([], []));
  (121, ([o114], [o114]));
  (125, ([], [o124]));
  (21, ([o22], []))].
Definition digests : list (string * string) := [("struct{*os/exec.Cmd}", "fd29e59e89315424");
  ("struct{X int; Y int; Z int}", "770aa0d497023297");
  ("struct{sg/embedded.Inner; W int}", "ae8fce90da87963e");
  ("struct{net/http.Handler; Other int}", "178590e026ae8c2c");
  ("struct{Login string}", "d4bff1f61f45b2a1");
  ("struct{Date string; Email string; Name string; User struct{Login string}; AvatarURL string}", "b2a8a16c744b2d4b");
  ("struct{Nodes []struct{Date string; Email string; Name string; User struct{Login string}; AvatarURL string}}", "bb290b1f6ea0cf58");
  ("struct{Authors struct{Nodes []struct{Date string; Email string; Name string; User struct{Login string}; AvatarURL string}}}", "90b32de18ec80596");
  ("struct{HasNextPage bool}", "0a5c453971407ce4");
  ("struct{Nodes []struct{Authors struct{Nodes []struct{Date string; Email string; Name string; User struct{Login string}; AvatarURL string}}}; PageInfo struct{HasNextPage bool}}", "e3cd7f1e8608f6b2")].
Definition formatted : list (string * string) := [("package p

type _ struct{*exec.Cmd}
", "package p

type _ struct{ *exec.Cmd }
");
  ("package p

type _ struct{X int; Y int; Z int}
", "package p

type _ struct {
	X int
	Y int
	Z int
}
");
  ("package p

type _ struct{Inner; W int}
", "package p

type _ struct {
	Inner
	W int
}
");
  ("package p

type _ struct{http.Handler; Other int}
", "package p

type _ struct {
	http.Handler
	Other int
}
");
  ("package p

type _ struct{Nodes []struct{Authors struct{Nodes []struct{Date string; Email string; Name string; User struct{Login string}; AvatarURL string}}}; PageInfo struct{HasNextPage bool}}
", "package p

type _ struct {
	Nodes []struct {
		Authors struct {
			Nodes []struct {
				Date      string
				Email     string
				Name      string
				User      struct{ Login string }
				AvatarURL string
			}
		}
	}
	PageInfo struct{ HasNextPage bool }
}
")].
Definition sources : list src := [Src "/repo/internal/testdata/snapshots/input/embedded/embedded.go" 1 "package embedded

import (
	""fmt""
	""os/exec""
)

type osExecCommand struct {
	*exec.Cmd
}

func wrapExecCommand(c *exec.Cmd) {
	_ = &osExecCommand{Cmd: c}
}

type Inner struct {
	X int
	Y int
	Z int
}

type Outer struct {
	Inner
	W int
}

func useOfCompositeStructs() {
	o := Outer{
		Inner: Inner{
			X: 1,
			Y: 2,
			Z: 3,
		},
		W: 4,
	}

	fmt.Printf(""> %d\n"", o.X)
	fmt.Println(o.Inner.Y)
}
" [];
  Src "/repo/internal/testdata/snapshots/input/embedded/nested.go" 397 "package embedded

import ""net/http""

type NestedHandler struct {
	http.Handler

	// Wow, a great thing for integers
	Other int
}

func NestedExample(n NestedHandler) {
	_ = n.Handler.ServeHTTP
	_ = n.ServeHTTP
	_ = n.Other
}
" [];
  Src "/repo/internal/testdata/snapshots/input/embedded/something.go" 623 "package embedded

import ""fmt""

func (r *RecentCommittersResults) String() string {
	return fmt.Sprintf(""RecentCommittersResults{Nodes: %d}"", len(r.Nodes))
}

type RecentCommittersResults struct {
	Nodes []struct {
		Authors struct {
			Nodes []struct {
				Date  string
				Email string
				Name  string
				User  struct {
					Login string
				}
				AvatarURL string
			}
		}
	}
	PageInfo struct {
		HasNextPage bool
	}
}
" [];
  Src "/repo/internal/testdata/snapshots/input/embedded/internal/nested.go" 1048 "package nested_internal

import (
	""fmt""
	""sg/embedded""
)

func Something(recent embedded.RecentCommittersResults) {
	for _, commit := range recent.Nodes {
		for _, author := range commit.Authors.Nodes {
			fmt.Println(author.Name)
		}
	}
}
" []].
Definition gomods : list (string * string) := [].
Definition p1 : gpkg * option raw := (GPkg 1 "io" "io" None [] [] (Some k0) None, None).
Definition p2 : gpkg * option raw := (GPkg 2 "fmt" "fmt" None [("io", 1)] [] (Some k1) None, None).
Definition p3 : gpkg * option raw := (GPkg 3 "os/exec" "exec" None [("io", 1)] [] (Some k2) None, None).
Definition p4 : gpkg * option raw := (GPkg 4 "net/http" "http" None [("io", 1)] [] (Some k3) None, None).
Definition p5 : gpkg * option raw := (GPkg 5 "sg/embedded" "embedded" (Some (GMod "sg/embedded" "" "/repo/internal/testdata/snapshots/input/embedded" "/repo/internal/testdata/snapshots/input/embedded/go.mod" None)) [("fmt", 2); ("os/exec", 3); ("net/http", 4)] [f5_0; f5_1; f5_2] (Some k4) None, (Some (Raw defs5 uses5 pkgnames5 cases5 canon5))).
Definition p6 : gpkg * option raw := (GPkg 6 "sg/embedded/internal" "nested_internal" (Some (GMod "sg/embedded" "" "/repo/internal/testdata/snapshots/input/embedded" "/repo/internal/testdata/snapshots/input/embedded/go.mod" None)) [("fmt", 2); ("sg/embedded", 5)] [f6_0] (Some k5) None, (Some (Raw defs6 uses6 pkgnames6 cases6 canon6))).
Definition packages : list (gpkg * option raw) := [p1; p2; p3; p4; p5; p6].
Definition roots : list nat := [5; 6].
Definition scopes : list (nat * list obj) := [(1, [o47]); (2, [o58; o54; o56; o55; o57; o53]); (3, [o80]); (4, [o103; o100; o101; o99; o96; o98; o97; o102])].
Definition levels : list nat := [90; 92; 93; 121; 125].
Definition input : input := Input "/repo/internal/testdata/snapshots/input/embedded" "sg/embedded" false sources packages roots gomods digests formatted hobjs unders msets scopes levels.
Definition golden : list (string * string) := [("embedded.go", "  package embedded
//        ^^^^^^^^ definition 0.1.test `sg/embedded`/
//                 kind Package
//                 display_name embedded
//                 signature_documentation
//                 > package embedded
  
  import (
   ""fmt""
//  ^^^ reference github.com/golang/go/src go1.22 fmt/
   ""os/exec""
//  ^^^^^^^ reference github.com/golang/go/src go1.22 `os/exec`/
  )
  
  type osExecCommand struct {
//     ^^^^^^^^^^^^^ definition 0.1.test `sg/embedded`/osExecCommand#
//                   kind Struct
//                   display_name osExecCommand
//                   signature_documentation
//                   > type osExecCommand struct{ *exec.Cmd }
//                   relationship github.com/golang/go/src go1.22 fmt/Stringer# implementation
   *exec.Cmd
//  ^^^^ reference github.com/golang/go/src go1.22 `os/exec`/
//       ^^^ definition 0.1.test `sg/embedded`/osExecCommand#Cmd.
//           kind Field
//           display_name Cmd
//           signature_documentation
//           > struct field Cmd *exec.Cmd
//       ^^^ reference github.com/golang/go/src go1.22 `os/exec`/Cmd#
  }
  
//⌄ enclosing_range_start 0.1.test `sg/embedded`/wrapExecCommand().
  func wrapExecCommand(c *exec.Cmd) {
//     ^^^^^^^^^^^^^^^ definition 0.1.test `sg/embedded`/wrapExecCommand().
//                     kind Function
//                     display_name wrapExecCommand
//                     signature_documentation
//                     > func wrapExecCommand(c *exec.Cmd)
//                     ^ definition local 0
//                       kind Variable
//                       display_name c
//                       signature_documentation
//                       > var c *Cmd
//                        ^^^^ reference github.com/golang/go/src go1.22 `os/exec`/
//                             ^^^ reference github.com/golang/go/src go1.22 `os/exec`/Cmd#
   _ = &osExecCommand{Cmd: c}
//      ^^^^^^^^^^^^^ reference 0.1.test `sg/embedded`/osExecCommand#
//                    ^^^ reference 0.1.test `sg/embedded`/osExecCommand#Cmd.
//                         ^ reference local 0
  }
//⌃ enclosing_range_end 0.1.test `sg/embedded`/wrapExecCommand().
  
  type Inner struct {
//     ^^^^^ definition 0.1.test `sg/embedded`/Inner#
//           kind Struct
//           display_name Inner
//           signature_documentation
//           > type Inner struct {
//           >     X int
//           >     Y int
//           >     Z int
//           > }
   X int
// ^ definition 0.1.test `sg/embedded`/Inner#X.
//   kind Field
//   display_name X
//   signature_documentation
//   > struct field X int
   Y int
// ^ definition 0.1.test `sg/embedded`/Inner#Y.
//   kind Field
//   display_name Y
//   signature_documentation
//   > struct field Y int
   Z int
// ^ definition 0.1.test `sg/embedded`/Inner#Z.
//   kind Field
//   display_name Z
//   signature_documentation
//   > struct field Z int
  }
  
  type Outer struct {
//     ^^^^^ definition 0.1.test `sg/embedded`/Outer#
//           kind Struct
//           display_name Outer
//           signature_documentation
//           > type Outer struct {
//           >     Inner
//           >     W int
//           > }
   Inner
// ^^^^^ definition 0.1.test `sg/embedded`/Outer#Inner.
//       kind Field
//       display_name Inner
//       signature_documentation
//       > struct field Inner Inner
// ^^^^^ reference 0.1.test `sg/embedded`/Inner#
   W int
// ^ definition 0.1.test `sg/embedded`/Outer#W.
//   kind Field
//   display_name W
//   signature_documentation
//   > struct field W int
  }
  
//⌄ enclosing_range_start 0.1.test `sg/embedded`/useOfCompositeStructs().
  func useOfCompositeStructs() {
//     ^^^^^^^^^^^^^^^^^^^^^ definition 0.1.test `sg/embedded`/useOfCompositeStructs().
//                           kind Function
//                           display_name useOfCompositeStructs
//                           signature_documentation
//                           > func useOfCompositeStructs()
   o := Outer{
// ^ definition local 1
//   kind Variable
//   display_name o
//   signature_documentation
//   > var o Outer
//      ^^^^^ reference 0.1.test `sg/embedded`/Outer#
    Inner: Inner{
//  ^^^^^ reference 0.1.test `sg/embedded`/Outer#Inner.
//         ^^^^^ reference 0.1.test `sg/embedded`/Inner#
     X: 1,
//   ^ reference 0.1.test `sg/embedded`/Inner#X.
     Y: 2,
//   ^ reference 0.1.test `sg/embedded`/Inner#Y.
     Z: 3,
//   ^ reference 0.1.test `sg/embedded`/Inner#Z.
    },
    W: 4,
//  ^ reference 0.1.test `sg/embedded`/Outer#W.
   }
  
   fmt.Printf(""> %d\n"", o.X)
// ^^^ reference github.com/golang/go/src go1.22 fmt/
//     ^^^^^^ reference github.com/golang/go/src go1.22 fmt/Printf().
//                      ^ reference local 1
//                        ^ reference 0.1.test `sg/embedded`/Inner#X.
   fmt.Println(o.Inner.Y)
// ^^^ reference github.com/golang/go/src go1.22 fmt/
//     ^^^^^^^ reference github.com/golang/go/src go1.22 fmt/Println().
//             ^ reference local 1
//               ^^^^^ reference 0.1.test `sg/embedded`/Outer#Inner.
//                     ^ reference 0.1.test `sg/embedded`/Inner#Y.
  }
//⌃ enclosing_range_end 0.1.test `sg/embedded`/useOfCompositeStructs().
  
");
  ("internal/nested.go", "  package nested_internal
//        ^^^^^^^^^^^^^^^ definition 0.1.test `sg/embedded/internal`/
//                        kind Package
//                        display_name nested_internal
//                        signature_documentation
//                        > package nested_internal
  
  import (
   ""fmt""
//  ^^^ reference github.com/golang/go/src go1.22 fmt/
   ""sg/embedded""
//  ^^^^^^^^^^^ reference 0.1.test `sg/embedded`/
  )
  
//⌄ enclosing_range_start 0.1.test `sg/embedded/internal`/Something().
  func Something(recent embedded.RecentCommittersResults) {
//     ^^^^^^^^^ definition 0.1.test `sg/embedded/internal`/Something().
//               kind Function
//               display_name Something
//               signature_documentation
//               > func Something(recent embedded.RecentCommittersResults)
//               ^^^^^^ definition local 0
//                      kind Variable
//                      display_name recent
//                      signature_documentation
//                      > var recent RecentCommittersResults
//                      ^^^^^^^^ reference 0.1.test `sg/embedded`/
//                               ^^^^^^^^^^^^^^^^^^^^^^^ reference 0.1.test `sg/embedded`/RecentCommittersResults#
   for _, commit := range recent.Nodes {
//        ^^^^^^ definition local 1
//               kind Variable
//               display_name commit
//               signature_documentation
//               > var commit struct{Authors struct{Nodes []struct{Date string; Email string; Name string; User struct{Login string}; AvatarURL string}}}
//                        ^^^^^^ reference local 0
//                               ^^^^^ reference 0.1.test `sg/embedded`/RecentCommittersResults#Nodes.
    for _, author := range commit.Authors.Nodes {
//         ^^^^^^ definition local 2
//                kind Variable
//                display_name author
//                signature_documentation
//                > var author struct{Date string; Email string; Name string; User struct{Login string}; AvatarURL string}
//                         ^^^^^^ reference local 1
//                                ^^^^^^^ reference 0.1.test `sg/embedded`/RecentCommittersResults#$anon_90b32de18ec80596#Authors.
//                                        ^^^^^ reference 0.1.test `sg/embedded`/RecentCommittersResults#$anon_90b32de18ec80596#$anon_bb290b1f6ea0cf58#Nodes.
     fmt.Println(author.Name)
//   ^^^ reference github.com/golang/go/src go1.22 fmt/
//       ^^^^^^^ reference github.com/golang/go/src go1.22 fmt/Println().
//               ^^^^^^ reference local 2
//                      ^^^^ reference 0.1.test `sg/embedded`/RecentCommittersResults#$anon_90b32de18ec80596#$anon_bb290b1f6ea0cf58#$anon_b2a8a16c744b2d4b#Name.
    }
   }
  }
//⌃ enclosing_range_end 0.1.test `sg/embedded/internal`/Something().
  
");
  ("nested.go", "  package embedded
//        ^^^^^^^^ definition 0.1.test `sg/embedded`/
  
  import ""net/http""
//        ^^^^^^^^ reference github.com/golang/go/src go1.22 `net/http`/
  
  type NestedHandler struct {
//     ^^^^^^^^^^^^^ definition 0.1.test `sg/embedded`/NestedHandler#
//                   kind Struct
//                   display_name NestedHandler
//                   signature_documentation
//                   > type NestedHandler struct {
//                   >     http.Handler
//                   >     Other int
//                   > }
//                   relationship github.com/golang/go/src go1.22 `net/http`/Handler# implementation
   http.Handler
// ^^^^ reference github.com/golang/go/src go1.22 `net/http`/
//      ^^^^^^^ definition 0.1.test `sg/embedded`/NestedHandler#Handler.
//              kind Field
//              display_name Handler
//              signature_documentation
//              > struct field Handler http.Handler
//      ^^^^^^^ reference github.com/golang/go/src go1.22 `net/http`/Handler#
  
   // Wow, a great thing for integers
   Other int
// ^^^^^ definition 0.1.test `sg/embedded`/NestedHandler#Other.
//       kind Field
//       display_name Other
//       signature_documentation
//       > struct field Other int
//       documentation
//       > Wow, a great thing for integers
  }
  
//⌄ enclosing_range_start 0.1.test `sg/embedded`/NestedExample().
  func NestedExample(n NestedHandler) {
//     ^^^^^^^^^^^^^ definition 0.1.test `sg/embedded`/NestedExample().
//                   kind Function
//                   display_name NestedExample
//                   signature_documentation
//                   > func NestedExample(n NestedHandler)
//                   ^ definition local 0
//                     kind Variable
//                     display_name n
//                     signature_documentation
//                     > var n NestedHandler
//                     ^^^^^^^^^^^^^ reference 0.1.test `sg/embedded`/NestedHandler#
   _ = n.Handler.ServeHTTP
//     ^ reference local 0
//       ^^^^^^^ reference 0.1.test `sg/embedded`/NestedHandler#Handler.
//               ^^^^^^^^^ reference github.com/golang/go/src go1.22 `net/http`/Handler#ServeHTTP().
   _ = n.ServeHTTP
//     ^ reference local 0
//       ^^^^^^^^^ reference github.com/golang/go/src go1.22 `net/http`/Handler#ServeHTTP().
   _ = n.Other
//     ^ reference local 0
//       ^^^^^ reference 0.1.test `sg/embedded`/NestedHandler#Other.
  }
//⌃ enclosing_range_end 0.1.test `sg/embedded`/NestedExample().
  
");
  ("something.go", "  package embedded
//        ^^^^^^^^ definition 0.1.test `sg/embedded`/
  
  import ""fmt""
//        ^^^ reference github.com/golang/go/src go1.22 fmt/
  
//⌄ enclosing_range_start 0.1.test `sg/embedded`/RecentCommittersResults#String().
  func (r *RecentCommittersResults) String() string {
//      ^ definition local 0
//        kind Variable
//        display_name r
//        signature_documentation
//        > var r *RecentCommittersResults
//         ^^^^^^^^^^^^^^^^^^^^^^^ reference 0.1.test `sg/embedded`/RecentCommittersResults#
//                                  ^^^^^^ definition 0.1.test `sg/embedded`/RecentCommittersResults#String().
//                                         kind Method
//                                         display_name String
//                                         signature_documentation
//                                         > func (*RecentCommittersResults).String() string
//                                         relationship github.com/golang/go/src go1.22 fmt/Stringer#String(). implementation
   return fmt.Sprintf(""RecentCommittersResults{Nodes: %d}"", len(r.Nodes))
//        ^^^ reference github.com/golang/go/src go1.22 fmt/
//            ^^^^^^^ reference github.com/golang/go/src go1.22 fmt/Sprintf().
//                                                              ^ reference local 0
//                                                                ^^^^^ reference 0.1.test `sg/embedded`/RecentCommittersResults#Nodes.
  }
//⌃ enclosing_range_end 0.1.test `sg/embedded`/RecentCommittersResults#String().
  
  type RecentCommittersResults struct {
//     ^^^^^^^^^^^^^^^^^^^^^^^ definition 0.1.test `sg/embedded`/RecentCommittersResults#
//                             kind Struct
//                             display_name RecentCommittersResults
//                             signature_documentation
//                             > type RecentCommittersResults struct {
//                             >     Nodes []struct {
//                             >         Authors struct {
//                             >             Nodes []struct {
//                             >                 Date      string
//                             >                 Email     string
//                             >                 Name      string
//                             >                 User      struct{ Login string }
//                             >                 AvatarURL string
//                             >             }
//                             >         }
//                             >     }
//                             >     PageInfo struct{ HasNextPage bool }
//                             > }
//                             relationship github.com/golang/go/src go1.22 fmt/Stringer# implementation
   Nodes []struct {
// ^^^^^ definition 0.1.test `sg/embedded`/RecentCommittersResults#Nodes.
//       kind Field
//       display_name Nodes
//       signature_documentation
//       > struct field Nodes []struct{Authors struct{Nodes []struct{Date string; Email string; Name string; User struct{Login string}; AvatarURL string}}}
    Authors struct {
//  ^^^^^^^ definition 0.1.test `sg/embedded`/RecentCommittersResults#$anon_90b32de18ec80596#Authors.
//          kind Field
//          display_name Authors
//          signature_documentation
//          > struct field Authors struct{Nodes []struct{Date string; Email string; Name string; User struct{Login string}; AvatarURL string}}
     Nodes []struct {
//   ^^^^^ definition 0.1.test `sg/embedded`/RecentCommittersResults#$anon_90b32de18ec80596#$anon_bb290b1f6ea0cf58#Nodes.
//         kind Field
//         display_name Nodes
//         signature_documentation
//         > struct field Nodes []struct{Date string; Email string; Name string; User struct{Login string}; AvatarURL string}
      Date  string
//    ^^^^ definition 0.1.test `sg/embedded`/RecentCommittersResults#$anon_90b32de18ec80596#$anon_bb290b1f6ea0cf58#$anon_b2a8a16c744b2d4b#Date.
//         kind Field
//         display_name Date
//         signature_documentation
//         > struct field Date string
      Email string
//    ^^^^^ definition 0.1.test `sg/embedded`/RecentCommittersResults#$anon_90b32de18ec80596#$anon_bb290b1f6ea0cf58#$anon_b2a8a16c744b2d4b#Email.
//          kind Field
//          display_name Email
//          signature_documentation
//          > struct field Email string
      Name  string
//    ^^^^ definition 0.1.test `sg/embedded`/RecentCommittersResults#$anon_90b32de18ec80596#$anon_bb290b1f6ea0cf58#$anon_b2a8a16c744b2d4b#Name.
//         kind Field
//         display_name Name
//         signature_documentation
//         > struct field Name string
      User  struct {
//    ^^^^ definition 0.1.test `sg/embedded`/RecentCommittersResults#$anon_90b32de18ec80596#$anon_bb290b1f6ea0cf58#$anon_b2a8a16c744b2d4b#User.
//         kind Field
//         display_name User
//         signature_documentation
//         > struct field User struct{Login string}
       Login string
//     ^^^^^ definition 0.1.test `sg/embedded`/RecentCommittersResults#$anon_90b32de18ec80596#$anon_bb290b1f6ea0cf58#$anon_b2a8a16c744b2d4b#$anon_d4bff1f61f45b2a1#Login.
//           kind Field
//           display_name Login
//           signature_documentation
//           > struct field Login string
      }
      AvatarURL string
//    ^^^^^^^^^ definition 0.1.test `sg/embedded`/RecentCommittersResults#$anon_90b32de18ec80596#$anon_bb290b1f6ea0cf58#$anon_b2a8a16c744b2d4b#AvatarURL.
//              kind Field
//              display_name AvatarURL
//              signature_documentation
//              > struct field AvatarURL string
     }
    }
   }
   PageInfo struct {
// ^^^^^^^^ definition 0.1.test `sg/embedded`/RecentCommittersResults#PageInfo.
//          kind Field
//          display_name PageInfo
//          signature_documentation
//          > struct field PageInfo struct{HasNextPage bool}
    HasNextPage bool
//  ^^^^^^^^^^^ definition 0.1.test `sg/embedded`/RecentCommittersResults#$anon_0a5c453971407ce4#HasNextPage.
//              kind Field
//              display_name HasNextPage
//              signature_documentation
//              > struct field HasNextPage bool
   }
  }
  
")].

(** The model, run on the input directory, gives the golden files of /repo. *)
Example snapshot_embedded : snapshot input = Some golden.
Proof. vm_compute. reflexivity. Qed.
(** The directory meets the hypotheses of the theorems (Contract.scopes_contract_ok). *)
Example snapshot_embedded_contract : contract input = true ∧ scopesb input = true.
Proof. split; vm_compute; reflexivity. Qed.
