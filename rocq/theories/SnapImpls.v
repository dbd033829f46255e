(** Generated by tools/snapshot/emit.py from /repo/internal/testdata/snapshots/{input,output}/impls: what packages.Load
    returns for that directory (syntax, types, modules; dependencies reduced to the declarations used), and the golden output. *)
From Coq Require Import Ascii String.
From stdpp Require Import prelude strings gmap.
From Verif Require Import GoStr Scip GoTypes Ast Packages Source Signature Snapshot Contract.
Open Scope string_scope.
Open Scope list_scope.
Definition k0 : tpkg := TPkg "io" [SEntry "Writer" true (TNamed (TName 55 (Some "io") "Writer") [])].
Definition o55 : obj := Obj 55 "Writer" (Some k0) 10000423 OTypeName (TNamed (TName 55 (Some "io") "Writer") []) None.
Definition o56 : obj := Obj 56 "Write" (Some k0) 10000442 (OFunc (Some (Some (TNamed (TName 55 (Some "io") "Writer") [])))) (TSig [(TSlice (TBasic BUint8 true))] [(TBasic BInt false); (TNamed (TName 21 None "error") [])] false) None.
Definition k1 : tpkg := TPkg "net/http" [SEntry "CanonicalHeaderKey" false (TBasic BInvalid false); SEntry "Client" true (TNamed (TName 65 (Some "net/http") "Client") []); SEntry "DefaultClient" false (TBasic BInvalid false); SEntry "Handler" true (TNamed (TName 64 (Some "net/http") "Handler") []); SEntry "Header" true (TNamed (TName 61 (Some "net/http") "Header") []); SEntry "Request" true (TNamed (TName 63 (Some "net/http") "Request") []); SEntry "ResponseWriter" true (TNamed (TName 62 (Some "net/http") "ResponseWriter") []); SEntry "StatusOK" false (TBasic BInvalid false)].
Definition o68 : obj := Obj 68 "CanonicalHeaderKey" (Some k1) 10000370 (OFunc (Some None)) (TSig [(TBasic BString false)] [(TBasic BString false)] false) None.
Definition o65 : obj := Obj 65 "Client" (Some k1) 10000288 OTypeName (TNamed (TName 65 (Some "net/http") "Client") []) None.
Definition o66 : obj := Obj 66 "DefaultClient" (Some k1) 10000318 (OVar false) (TPointer (TNamed (TName 65 (Some "net/http") "Client") [])) None.
Definition o64 : obj := Obj 64 "Handler" (Some k1) 10000225 OTypeName (TNamed (TName 64 (Some "net/http") "Handler") []) None.
Definition o61 : obj := Obj 61 "Header" (Some k1) 10000030 OTypeName (TNamed (TName 61 (Some "net/http") "Header") []) None.
Definition o63 : obj := Obj 63 "Request" (Some k1) 10000170 OTypeName (TNamed (TName 63 (Some "net/http") "Request") []) None.
Definition o62 : obj := Obj 62 "ResponseWriter" (Some k1) 10000062 OTypeName (TNamed (TName 62 (Some "net/http") "ResponseWriter") []) None.
Definition o67 : obj := Obj 67 "StatusOK" (Some k1) 10000350 OConst (TBasic BUntypedInt false) None.
Definition o79 : obj := Obj 79 "ServeHTTP" (Some k1) 10000245 (OFunc (Some (Some (TNamed (TName 64 (Some "net/http") "Handler") [])))) (TSig [(TNamed (TName 62 (Some "net/http") "ResponseWriter") []); (TPointer (TNamed (TName 63 (Some "net/http") "Request") []))] [] false) None.
Definition o69 : obj := Obj 69 "Header" (Some k1) 10000090 (OFunc (Some (Some (TNamed (TName 62 (Some "net/http") "ResponseWriter") [])))) (TSig [] [(TNamed (TName 61 (Some "net/http") "Header") [])] false) None.
Definition o71 : obj := Obj 71 "Write" (Some k1) 10000107 (OFunc (Some (Some (TNamed (TName 62 (Some "net/http") "ResponseWriter") [])))) (TSig [(TSlice (TBasic BUint8 true))] [(TBasic BInt false); (TNamed (TName 21 None "error") [])] false) None.
Definition o75 : obj := Obj 75 "WriteHeader" (Some k1) 10000135 (OFunc (Some (Some (TNamed (TName 62 (Some "net/http") "ResponseWriter") [])))) (TSig [(TBasic BInt false)] [] false) None.
(* impls/impls.go *)
Definition f3_0 : node := (NFile 1 false "" (Ident 1 "impls" 9)
  [(NGenDecl 16 TYPE "" [(NTypeSpec "" (Ident 2 "I1" 21) (NFieldList []) (NInterfaceType 3 24 (NFieldList [(NField "" "" [(Ident 4 "F1" 37)] (NFuncType 39 (NFieldList []) (NFieldList []) (NFieldList [])))])))]);
   (NGenDecl 45 TYPE "" [(NTypeSpec "" (Ident 5 "I1Clone" 50) (NFieldList []) (NInterfaceType 6 58 (NFieldList [(NField "" "" [(Ident 7 "F1" 71)] (NFuncType 73 (NFieldList []) (NFieldList []) (NFieldList [])))])))]);
   (NGenDecl 79 TYPE "" [(NTypeSpec "" (Ident 8 "IfaceOther" 84) (NFieldList []) (NInterfaceType 9 95 (NFieldList [(NField "" "" [(Ident 10 "Something" 108)] (NFuncType 117 (NFieldList []) (NFieldList []) (NFieldList []))); (NField "" "" [(Ident 11 "Another" 121)] (NFuncType 128 (NFieldList []) (NFieldList []) (NFieldList [])))])))]);
   (NGenDecl 134 TYPE "" [(NTypeSpec "" (Ident 12 "T1" 139) (NFieldList []) (NIdent (Ident 13 "int" 142)))]);
   (NFuncDecl "" 147 166 (Some (NFieldList [(NField "" "" [(Ident 14 "r" 153)] (NIdent (Ident 15 "T1" 155)))])) (Ident 16 "F1" 159) (NFuncType 147 (NFieldList []) (NFieldList []) (NFieldList [])) (Some (NBlockStmt 164 [])));
   (NGenDecl 168 TYPE "" [(NTypeSpec "" (Ident 17 "T2" 173) (NFieldList []) (NIdent (Ident 18 "int" 176)))]);
   (NFuncDecl "" 181 200 (Some (NFieldList [(NField "" "" [(Ident 19 "r" 187)] (NIdent (Ident 20 "T2" 189)))])) (Ident 21 "F1" 193) (NFuncType 181 (NFieldList []) (NFieldList []) (NFieldList [])) (Some (NBlockStmt 198 [])));
   (NFuncDecl "" 201 220 (Some (NFieldList [(NField "" "" [(Ident 22 "r" 207)] (NIdent (Ident 23 "T2" 209)))])) (Ident 24 "F2" 213) (NFuncType 201 (NFieldList []) (NFieldList []) (NFieldList [])) (Some (NBlockStmt 218 [])))]).
(* impls/remote_impls.go *)
Definition f3_1 : node := (NFile 222 false "" (Ident 25 "impls" 230)
  [(NGenDecl 237 IMPORT "" [(NImportSpec 26 None 244 """net/http""")]);
   (NFuncDecl "" 256 296 None (Ident 27 "Something" 261) (NFuncType 256 (NFieldList []) (NFieldList [(NField "" "" [(Ident 28 "r" 271)] (NSelectorExpr (NIdent (Ident 29 "http" 273)) (Ident 30 "ResponseWriter" 278)))]) (NFieldList [])) (Some (NBlockStmt 294 [])));
   (NGenDecl 298 TYPE "" [(NTypeSpec "" (Ident 31 "MyWriter" 303) (NFieldList []) (NStructType 32 312 (NFieldList [])))]);
   (NFuncDecl "" 322 381 (Some (NFieldList [(NField "" "" [(Ident 33 "w" 328)] (NIdent (Ident 34 "MyWriter" 330)))])) (Ident 35 "Header" 340) (NFuncType 322 (NFieldList []) (NFieldList []) (NFieldList [(NField "" "" [] (NSelectorExpr (NIdent (Ident 36 "http" 349)) (Ident 37 "Header" 354)))])) (Some (NBlockStmt 368 [(NOther 370 [(NOther 370 [(NIdent (Ident 38 "panic" 370))])])])));
   (NFuncDecl "" 382 441 (Some (NFieldList [(NField "" "" [(Ident 39 "w" 388)] (NIdent (Ident 40 "MyWriter" 390)))])) (Ident 41 "Write" 400) (NFuncType 382 (NFieldList []) (NFieldList [(NField "" "" [] (NArrayType 406 None (NIdent (Ident 42 "byte" 408))))]) (NFieldList [(NField "" "" [] (NIdent (Ident 43 "int" 415))); (NField "" "" [] (NIdent (Ident 44 "error" 420)))])) (Some (NBlockStmt 428 [(NOther 430 [(NOther 430 [(NIdent (Ident 45 "panic" 430))])])])));
   (NFuncDecl "" 442 501 (Some (NFieldList [(NField "" "" [(Ident 46 "w" 448)] (NIdent (Ident 47 "MyWriter" 450)))])) (Ident 48 "WriteHeader" 460) (NFuncType 442 (NFieldList []) (NFieldList [(NField "" "" [(Ident 49 "statusCode" 472)] (NIdent (Ident 50 "int" 483)))]) (NFieldList [])) (Some (NBlockStmt 488 [(NOther 490 [(NOther 490 [(NIdent (Ident 51 "panic" 490))])])])));
   (NFuncDecl "" 503 544 None (Ident 52 "Another" 508) (NFuncType 503 (NFieldList []) (NFieldList []) (NFieldList [])) (Some (NBlockStmt 518 [(NOther 521 [(NOther 521 [(NIdent (Ident 53 "Something" 521)); (NOther 531 [(NIdent (Ident 54 "MyWriter" 531))])])])])))]).
Definition k2 : tpkg := TPkg "sg/impls" [SEntry "Another" false (TBasic BInvalid false); SEntry "I1" true (TNamed (TName 47 (Some "sg/impls") "I1") []); SEntry "I1Clone" true (TNamed (TName 48 (Some "sg/impls") "I1Clone") []); SEntry "IfaceOther" true (TNamed (TName 49 (Some "sg/impls") "IfaceOther") []); SEntry "MyWriter" true (TNamed (TName 87 (Some "sg/impls") "MyWriter") []); SEntry "Something" false (TBasic BInvalid false); SEntry "T1" true (TNamed (TName 50 (Some "sg/impls") "T1") []); SEntry "T2" true (TNamed (TName 52 (Some "sg/impls") "T2") [])].
Definition o47 : obj := Obj 47 "I1" (Some k2) 21 OTypeName (TNamed (TName 47 (Some "sg/impls") "I1") []) None.
Definition o48 : obj := Obj 48 "I1Clone" (Some k2) 50 OTypeName (TNamed (TName 48 (Some "sg/impls") "I1Clone") []) None.
Definition o49 : obj := Obj 49 "IfaceOther" (Some k2) 84 OTypeName (TNamed (TName 49 (Some "sg/impls") "IfaceOther") []) None.
Definition o50 : obj := Obj 50 "T1" (Some k2) 139 OTypeName (TNamed (TName 50 (Some "sg/impls") "T1") []) None.
Definition o51 : obj := Obj 51 "F1" (Some k2) 159 (OFunc (Some (Some (TNamed (TName 50 (Some "sg/impls") "T1") [])))) (TSig [] [] false) None.
Definition o52 : obj := Obj 52 "T2" (Some k2) 173 OTypeName (TNamed (TName 52 (Some "sg/impls") "T2") []) None.
Definition o53 : obj := Obj 53 "F1" (Some k2) 193 (OFunc (Some (Some (TNamed (TName 52 (Some "sg/impls") "T2") [])))) (TSig [] [] false) None.
Definition o54 : obj := Obj 54 "F2" (Some k2) 213 (OFunc (Some (Some (TNamed (TName 52 (Some "sg/impls") "T2") [])))) (TSig [] [] false) None.
Definition o86 : obj := Obj 86 "Something" (Some k2) 261 (OFunc (Some None)) (TSig [(TNamed (TName 62 (Some "net/http") "ResponseWriter") [])] [] false) None.
Definition o87 : obj := Obj 87 "MyWriter" (Some k2) 303 OTypeName (TNamed (TName 87 (Some "sg/impls") "MyWriter") []) None.
Definition o88 : obj := Obj 88 "Header" (Some k2) 340 (OFunc (Some (Some (TNamed (TName 87 (Some "sg/impls") "MyWriter") [])))) (TSig [] [(TNamed (TName 61 (Some "net/http") "Header") [])] false) None.
Definition o89 : obj := Obj 89 "Write" (Some k2) 400 (OFunc (Some (Some (TNamed (TName 87 (Some "sg/impls") "MyWriter") [])))) (TSig [(TSlice (TBasic BUint8 true))] [(TBasic BInt false); (TNamed (TName 21 None "error") [])] false) None.
Definition o90 : obj := Obj 90 "WriteHeader" (Some k2) 460 (OFunc (Some (Some (TNamed (TName 87 (Some "sg/impls") "MyWriter") [])))) (TSig [(TBasic BInt false)] [] false) None.
Definition o91 : obj := Obj 91 "Another" (Some k2) 508 (OFunc (Some None)) (TSig [] [] false) None.
Definition o92 : obj := Obj 92 "F1" (Some k2) 37 (OFunc (Some (Some (TNamed (TName 47 (Some "sg/impls") "I1") [])))) (TSig [] [] false) None.
Definition o93 : obj := Obj 93 "F1" (Some k2) 71 (OFunc (Some (Some (TNamed (TName 48 (Some "sg/impls") "I1Clone") [])))) (TSig [] [] false) None.
Definition o94 : obj := Obj 94 "Something" (Some k2) 108 (OFunc (Some (Some (TNamed (TName 49 (Some "sg/impls") "IfaceOther") [])))) (TSig [] [] false) None.
Definition o95 : obj := Obj 95 "Another" (Some k2) 121 (OFunc (Some (Some (TNamed (TName 49 (Some "sg/impls") "IfaceOther") [])))) (TSig [] [] false) None.
Definition o96 : obj := Obj 96 "r" (Some k2) 153 (OVar false) (TNamed (TName 50 (Some "sg/impls") "T1") []) None.
Definition o97 : obj := Obj 97 "r" (Some k2) 187 (OVar false) (TNamed (TName 52 (Some "sg/impls") "T2") []) None.
Definition o98 : obj := Obj 98 "r" (Some k2) 207 (OVar false) (TNamed (TName 52 (Some "sg/impls") "T2") []) None.
Definition o99 : obj := Obj 99 "r" (Some k2) 271 (OVar false) (TNamed (TName 62 (Some "net/http") "ResponseWriter") []) None.
Definition o101 : obj := Obj 101 "w" (Some k2) 328 (OVar false) (TNamed (TName 87 (Some "sg/impls") "MyWriter") []) None.
Definition o105 : obj := Obj 105 "w" (Some k2) 388 (OVar false) (TNamed (TName 87 (Some "sg/impls") "MyWriter") []) None.
Definition o106 : obj := Obj 106 "statusCode" (Some k2) 472 (OVar false) (TBasic BInt false) None.
Definition o107 : obj := Obj 107 "w" (Some k2) 448 (OVar false) (TNamed (TName 87 (Some "sg/impls") "MyWriter") []) None.
Definition o2 : obj := Obj 2 "int" None 0 OTypeName (TBasic BInt false) None.
Definition o85 : obj := Obj 85 "http" (Some k2) 244 (OPkgName "net/http") (TBasic BInvalid false) None.
Definition o18 : obj := Obj 18 "byte" None 0 OTypeName (TBasic BUint8 true) None.
Definition o21 : obj := Obj 21 "error" None 0 OTypeName (TNamed (TName 21 None "error") []) None.
Definition o42 : obj := Obj 42 "panic" None 0 OBuiltin (TBasic BInvalid false) None.
Definition defs3 : list (nat * obj) := [(2, o47); (5, o48); (8, o49); (12, o50); (16, o51); (17, o52); (21, o53); (24, o54); (27, o86); (31, o87); (35, o88); (41, o89); (48, o90); (52, o91); (4, o92); (7, o93); (10, o94); (11, o95); (14, o96); (19, o97); (22, o98); (28, o99); (33, o101); (39, o105); (49, o106); (46, o107)].
Definition uses3 : list (nat * obj) := [(13, o2); (15, o50); (18, o2); (20, o52); (23, o52); (29, o85); (30, o62); (34, o87); (36, o85); (37, o61); (40, o87); (42, o18); (43, o2); (44, o21); (47, o87); (50, o2); (38, o42); (45, o42); (51, o42); (53, o86); (54, o87)].
Definition canon3 : list (nat * hty) := [(3, (HInterface false [("F1", (HSig [] [] [] false))] [])); (6, (HInterface false [("F1", (HSig [] [] [] false))] [])); (9, (HInterface false [("Another", (HSig [] [] [] false)); ("Something", (HSig [] [] [] false))] [])); (32, (HStruct []))].
Definition pkgnames3 : list (nat * obj) := [(26, o85)].
Definition cases3 : list obj := [].
Definition o22 : obj := Obj 22 "Error" None 0 (OFunc (Some (Some (TNamed (TName 21 None "error") [])))) (TSig [] [(TBasic BString false)] false) None.
Definition hobjs : list (nat * hobj) := [(47, HObj "I1" (Some (HPkg "sg/impls" "impls")) true (HTypeName (DDefined [] (HInterface false [("F1", (HSig [] [] [] false))] []))));
  (48, HObj "I1Clone" (Some (HPkg "sg/impls" "impls")) true (HTypeName (DDefined [] (HInterface false [("F1", (HSig [] [] [] false))] []))));
  (49, HObj "IfaceOther" (Some (HPkg "sg/impls" "impls")) true (HTypeName (DDefined [] (HInterface false [("Another", (HSig [] [] [] false)); ("Something", (HSig [] [] [] false))] []))));
  (50, HObj "T1" (Some (HPkg "sg/impls" "impls")) true (HTypeName (DDefined [] (HBasic "int"))));
  (51, HObj "F1" (Some (HPkg "sg/impls" "impls")) false (HFunc (Some (HNamed (HName (Some (HPkg "sg/impls" "impls")) "T1") [] [])) (HSig [] [] [] false)));
  (52, HObj "T2" (Some (HPkg "sg/impls" "impls")) true (HTypeName (DDefined [] (HBasic "int"))));
  (53, HObj "F1" (Some (HPkg "sg/impls" "impls")) false (HFunc (Some (HNamed (HName (Some (HPkg "sg/impls" "impls")) "T2") [] [])) (HSig [] [] [] false)));
  (54, HObj "F2" (Some (HPkg "sg/impls" "impls")) false (HFunc (Some (HNamed (HName (Some (HPkg "sg/impls" "impls")) "T2") [] [])) (HSig [] [] [] false)));
  (86, HObj "Something" (Some (HPkg "sg/impls" "impls")) true (HFunc None (HSig [] [("r", (HNamed (HName (Some (HPkg "net/http" "http")) "ResponseWriter") [] []))] [] false)));
  (87, HObj "MyWriter" (Some (HPkg "sg/impls" "impls")) true (HTypeName (DDefined [] (HStruct []))));
  (88, HObj "Header" (Some (HPkg "sg/impls" "impls")) false (HFunc (Some (HNamed (HName (Some (HPkg "sg/impls" "impls")) "MyWriter") [] [])) (HSig [] [] [("", (HNamed (HName (Some (HPkg "net/http" "http")) "Header") [] []))] false)));
  (89, HObj "Write" (Some (HPkg "sg/impls" "impls")) false (HFunc (Some (HNamed (HName (Some (HPkg "sg/impls" "impls")) "MyWriter") [] [])) (HSig [] [("", (HSlice (HBasic "byte")))] [("", (HBasic "int")); ("", (HNamed (HName None "error") [] []))] false)));
  (90, HObj "WriteHeader" (Some (HPkg "sg/impls" "impls")) false (HFunc (Some (HNamed (HName (Some (HPkg "sg/impls" "impls")) "MyWriter") [] [])) (HSig [] [("statusCode", (HBasic "int"))] [] false)));
  (91, HObj "Another" (Some (HPkg "sg/impls" "impls")) true (HFunc None (HSig [] [] [] false)));
  (92, HObj "F1" (Some (HPkg "sg/impls" "impls")) false (HFunc (Some (HNamed (HName (Some (HPkg "sg/impls" "impls")) "I1") [] [])) (HSig [] [] [] false)));
  (93, HObj "F1" (Some (HPkg "sg/impls" "impls")) false (HFunc (Some (HNamed (HName (Some (HPkg "sg/impls" "impls")) "I1Clone") [] [])) (HSig [] [] [] false)));
  (94, HObj "Something" (Some (HPkg "sg/impls" "impls")) false (HFunc (Some (HNamed (HName (Some (HPkg "sg/impls" "impls")) "IfaceOther") [] [])) (HSig [] [] [] false)));
  (95, HObj "Another" (Some (HPkg "sg/impls" "impls")) false (HFunc (Some (HNamed (HName (Some (HPkg "sg/impls" "impls")) "IfaceOther") [] [])) (HSig [] [] [] false)));
  (96, HObj "r" (Some (HPkg "sg/impls" "impls")) false (HVar false (HNamed (HName (Some (HPkg "sg/impls" "impls")) "T1") [] [])));
  (97, HObj "r" (Some (HPkg "sg/impls" "impls")) false (HVar false (HNamed (HName (Some (HPkg "sg/impls" "impls")) "T2") [] [])));
  (98, HObj "r" (Some (HPkg "sg/impls" "impls")) false (HVar false (HNamed (HName (Some (HPkg "sg/impls" "impls")) "T2") [] [])));
  (99, HObj "r" (Some (HPkg "sg/impls" "impls")) false (HVar false (HNamed (HName (Some (HPkg "net/http" "http")) "ResponseWriter") [] [])));
  (101, HObj "w" (Some (HPkg "sg/impls" "impls")) false (HVar false (HNamed (HName (Some (HPkg "sg/impls" "impls")) "MyWriter") [] [])));
  (105, HObj "w" (Some (HPkg "sg/impls" "impls")) false (HVar false (HNamed (HName (Some (HPkg "sg/impls" "impls")) "MyWriter") [] [])));
  (106, HObj "statusCode" (Some (HPkg "sg/impls" "impls")) false (HVar false (HBasic "int")));
  (107, HObj "w" (Some (HPkg "sg/impls" "impls")) false (HVar false (HNamed (HName (Some (HPkg "sg/impls" "impls")) "MyWriter") [] [])))].
Definition unders : list (nat * ty) := [(55, (TInterface [("Write", (TSig [(TSlice (TBasic BUint8 true))] [(TBasic BInt false); (TNamed (TName 21 None "error") [])] false))] ""));
  (21, (TInterface [("Error", (TSig [] [(TBasic BString false)] false))] ""));
  (65, (TStruct [(FHdr 82 "Jar" (Some "net/http") false "", (TBasic BInt false))]));
  (64, (TInterface [("ServeHTTP", (TSig [(TNamed (TName 62 (Some "net/http") "ResponseWriter") []); (TPointer (TNamed (TName 63 (Some "net/http") "Request") []))] [] false))] ""));
  (62, (TInterface [("Header", (TSig [] [(TNamed (TName 61 (Some "net/http") "Header") [])] false)); ("Write", (TSig [(TSlice (TBasic BUint8 true))] [(TBasic BInt false); (TNamed (TName 21 None "error") [])] false)); ("WriteHeader", (TSig [(TBasic BInt false)] [] false))] ""));
  (61, (TMap (TBasic BString false) (TSlice (TBasic BString false))));
  (63, (TStruct [(FHdr 77 "Method" (Some "net/http") false "", (TBasic BString false)); (FHdr 78 "Body" (Some "net/http") false "", (TNamed (TName 55 (Some "io") "Writer") []))]));
  (47, (TInterface [("F1", (TSig [] [] false))] ""));
  (48, (TInterface [("F1", (TSig [] [] false))] ""));
  (49, (TInterface [("Another", (TSig [] [] false)); ("Something", (TSig [] [] false))] ""));
  (87, (TStruct []));
  (50, (TBasic BInt false));
  (52, (TBasic BInt false))].
Definition msets : list (nat * (list obj * list obj)) := [(55, ([o56], []));
  (65, ([], []));
  (64, ([o79], []));
  (61, ([], []));
  (63, ([], []));
  (62, ([o69; o71; o75], []));
  (47, ([o92], []));
  (48, ([o93], []));
  (49, ([o95; o94], []));
  (50, ([o51], [o51]));
  (52, ([o53; o54], [o53; o54]));
  (87, ([o88; o89; o90], [o88; o89; o90]));
  (21, ([o22], []))].
Definition digests : list (string * string) := [("interface{F1()}", "998976d45af94c04");
  ("interface{Another(); Something()}", "00cbb47cb979bb56");
  ("struct{}", "0d0ad1bdf1affd9c")].
Definition formatted : list (string * string) := [("package p

type _ interface{F1()}
", "package p

type _ interface{ F1() }
");
  ("package p

type _ interface{Another(); Something()}
", "package p

type _ interface {
	Another()
	Something()
}
");
  ("package p

type _ struct{}
", "package p

type _ struct{}
")].
Definition sources : list src := [Src "/repo/internal/testdata/snapshots/input/impls/impls.go" 1 "package impls

type I1 interface {
	F1()
}

type I1Clone interface {
	F1()
}

type IfaceOther interface {
	Something()
	Another()
}

type T1 int

func (r T1) F1() {}

type T2 int

func (r T2) F1() {}
func (r T2) F2() {}
" [];
  Src "/repo/internal/testdata/snapshots/input/impls/remote_impls.go" 222 "package impls

import ""net/http""

func Something(r http.ResponseWriter) {}

type MyWriter struct{}

func (w MyWriter) Header() http.Header        { panic("""") }
func (w MyWriter) Write([]byte) (int, error)  { panic("""") }
func (w MyWriter) WriteHeader(statusCode int) { panic("""") }

func Another() {
	Something(MyWriter{})
}
" []].
Definition gomods : list (string * string) := [].
Definition p1 : gpkg * option raw := (GPkg 1 "io" "io" None [] [] (Some k0) None, None).
Definition p2 : gpkg * option raw := (GPkg 2 "net/http" "http" None [("io", 1)] [] (Some k1) None, None).
Definition p3 : gpkg * option raw := (GPkg 3 "sg/impls" "impls" (Some (GMod "sg/impls" "" "/repo/internal/testdata/snapshots/input/impls" "/repo/internal/testdata/snapshots/input/impls/go.mod" None)) [("net/http", 2)] [f3_0; f3_1] (Some k2) None, (Some (Raw defs3 uses3 pkgnames3 cases3 canon3))).
Definition packages : list (gpkg * option raw) := [p1; p2; p3].
Definition roots : list nat := [3].
Definition scopes : list (nat * list obj) := [(1, [o55]); (2, [o68; o65; o66; o64; o61; o63; o62; o67])].
Definition levels : list nat := [47; 48; 49; 50; 52; 87].
Definition input : input := Input "/repo/internal/testdata/snapshots/input/impls" "sg/impls" false sources packages roots gomods digests formatted hobjs unders msets scopes levels.
Definition golden : list (string * string) := [("impls.go", "  package impls
//        ^^^^^ definition 0.1.test `sg/impls`/
//              kind Package
//              display_name impls
//              signature_documentation
//              > package impls
  
  type I1 interface {
//     ^^ definition 0.1.test `sg/impls`/I1#
//        kind Interface
//        display_name I1
//        signature_documentation
//        > type I1 interface{ F1() }
   F1()
// ^^ definition 0.1.test `sg/impls`/I1#F1.
//    kind MethodSpecification
//    display_name F1
//    signature_documentation
//    > func (I1).F1()
  }
  
  type I1Clone interface {
//     ^^^^^^^ definition 0.1.test `sg/impls`/I1Clone#
//             kind Interface
//             display_name I1Clone
//             signature_documentation
//             > type I1Clone interface{ F1() }
   F1()
// ^^ definition 0.1.test `sg/impls`/I1Clone#F1.
//    kind MethodSpecification
//    display_name F1
//    signature_documentation
//    > func (I1Clone).F1()
  }
  
  type IfaceOther interface {
//     ^^^^^^^^^^ definition 0.1.test `sg/impls`/IfaceOther#
//                kind Interface
//                display_name IfaceOther
//                signature_documentation
//                > type IfaceOther interface {
//                >     Another()
//                >     Something()
//                > }
   Something()
// ^^^^^^^^^ definition 0.1.test `sg/impls`/IfaceOther#Something.
//           kind MethodSpecification
//           display_name Something
//           signature_documentation
//           > func (IfaceOther).Something()
   Another()
// ^^^^^^^ definition 0.1.test `sg/impls`/IfaceOther#Another.
//         kind MethodSpecification
//         display_name Another
//         signature_documentation
//         > func (IfaceOther).Another()
  }
  
  type T1 int
//     ^^ definition 0.1.test `sg/impls`/T1#
//        kind Type
//        display_name T1
//        signature_documentation
//        > type T1 int
//        relationship 0.1.test `sg/impls`/I1# implementation
//        relationship 0.1.test `sg/impls`/I1Clone# implementation
  
//⌄ enclosing_range_start 0.1.test `sg/impls`/T1#F1().
  func (r T1) F1() {}
//      ^ definition local 0
//        kind Variable
//        display_name r
//        signature_documentation
//        > var r T1
//        ^^ reference 0.1.test `sg/impls`/T1#
//            ^^ definition 0.1.test `sg/impls`/T1#F1().
//               kind Method
//               display_name F1
//               signature_documentation
//               > func (T1).F1()
//               relationship 0.1.test `sg/impls`/I1#F1. implementation
//               relationship 0.1.test `sg/impls`/I1Clone#F1. implementation
//                  ⌃ enclosing_range_end 0.1.test `sg/impls`/T1#F1().
  
  type T2 int
//     ^^ definition 0.1.test `sg/impls`/T2#
//        kind Type
//        display_name T2
//        signature_documentation
//        > type T2 int
//        relationship 0.1.test `sg/impls`/I1# implementation
//        relationship 0.1.test `sg/impls`/I1Clone# implementation
  
//⌄ enclosing_range_start 0.1.test `sg/impls`/T2#F1().
  func (r T2) F1() {}
//      ^ definition local 1
//        kind Variable
//        display_name r
//        signature_documentation
//        > var r T2
//        ^^ reference 0.1.test `sg/impls`/T2#
//            ^^ definition 0.1.test `sg/impls`/T2#F1().
//               kind Method
//               display_name F1
//               signature_documentation
//               > func (T2).F1()
//               relationship 0.1.test `sg/impls`/I1#F1. implementation
//               relationship 0.1.test `sg/impls`/I1Clone#F1. implementation
//                  ⌃ enclosing_range_end 0.1.test `sg/impls`/T2#F1().
//⌄ enclosing_range_start 0.1.test `sg/impls`/T2#F2().
  func (r T2) F2() {}
//      ^ definition local 2
//        kind Variable
//        display_name r
//        signature_documentation
//        > var r T2
//        ^^ reference 0.1.test `sg/impls`/T2#
//            ^^ definition 0.1.test `sg/impls`/T2#F2().
//               kind Method
//               display_name F2
//               signature_documentation
//               > func (T2).F2()
//                  ⌃ enclosing_range_end 0.1.test `sg/impls`/T2#F2().
  
");
  ("remote_impls.go", "  package impls
//        ^^^^^ definition 0.1.test `sg/impls`/
  
  import ""net/http""
//        ^^^^^^^^ reference github.com/golang/go/src go1.22 `net/http`/
  
//⌄ enclosing_range_start 0.1.test `sg/impls`/Something().
  func Something(r http.ResponseWriter) {}
//     ^^^^^^^^^ definition 0.1.test `sg/impls`/Something().
//               kind Function
//               display_name Something
//               signature_documentation
//               > func Something(r http.ResponseWriter)
//               ^ definition local 0
//                 kind Variable
//                 display_name r
//                 signature_documentation
//                 > var r ResponseWriter
//                 ^^^^ reference github.com/golang/go/src go1.22 `net/http`/
//                      ^^^^^^^^^^^^^^ reference github.com/golang/go/src go1.22 `net/http`/ResponseWriter#
//                                       ⌃ enclosing_range_end 0.1.test `sg/impls`/Something().
  
  type MyWriter struct{}
//     ^^^^^^^^ definition 0.1.test `sg/impls`/MyWriter#
//              kind Struct
//              display_name MyWriter
//              signature_documentation
//              > type MyWriter struct{}
//              relationship github.com/golang/go/src go1.22 `net/http`/ResponseWriter# implementation
//              relationship github.com/golang/go/src go1.22 io/Writer# implementation
  
//⌄ enclosing_range_start 0.1.test `sg/impls`/MyWriter#Header().
  func (w MyWriter) Header() http.Header        { panic("""") }
//      ^ definition local 1
//        kind Variable
//        display_name w
//        signature_documentation
//        > var w MyWriter
//        ^^^^^^^^ reference 0.1.test `sg/impls`/MyWriter#
//                  ^^^^^^ definition 0.1.test `sg/impls`/MyWriter#Header().
//                         kind Method
//                         display_name Header
//                         signature_documentation
//                         > func (MyWriter).Header() http.Header
//                         relationship github.com/golang/go/src go1.22 `net/http`/ResponseWriter#Header(). implementation
//                           ^^^^ reference github.com/golang/go/src go1.22 `net/http`/
//                                ^^^^^^ reference github.com/golang/go/src go1.22 `net/http`/Header#
//                                                          ⌃ enclosing_range_end 0.1.test `sg/impls`/MyWriter#Header().
//⌄ enclosing_range_start 0.1.test `sg/impls`/MyWriter#Write().
  func (w MyWriter) Write([]byte) (int, error)  { panic("""") }
//      ^ definition local 2
//        kind Variable
//        display_name w
//        signature_documentation
//        > var w MyWriter
//        ^^^^^^^^ reference 0.1.test `sg/impls`/MyWriter#
//                  ^^^^^ definition 0.1.test `sg/impls`/MyWriter#Write().
//                        kind Method
//                        display_name Write
//                        signature_documentation
//                        > func (MyWriter).Write([]byte) (int, error)
//                        relationship github.com/golang/go/src go1.22 `net/http`/ResponseWriter#Write(). implementation
//                        relationship github.com/golang/go/src go1.22 io/Writer#Write(). implementation
//                                                          ⌃ enclosing_range_end 0.1.test `sg/impls`/MyWriter#Write().
//⌄ enclosing_range_start 0.1.test `sg/impls`/MyWriter#WriteHeader().
  func (w MyWriter) WriteHeader(statusCode int) { panic("""") }
//      ^ definition local 3
//        kind Variable
//        display_name w
//        signature_documentation
//        > var w MyWriter
//        ^^^^^^^^ reference 0.1.test `sg/impls`/MyWriter#
//                  ^^^^^^^^^^^ definition 0.1.test `sg/impls`/MyWriter#WriteHeader().
//                              kind Method
//                              display_name WriteHeader
//                              signature_documentation
//                              > func (MyWriter).WriteHeader(statusCode int)
//                              relationship github.com/golang/go/src go1.22 `net/http`/ResponseWriter#WriteHeader(). implementation
//                              ^^^^^^^^^^ definition local 4
//                                         kind Variable
//                                         display_name statusCode
//                                         signature_documentation
//                                         > var statusCode int
//                                                          ⌃ enclosing_range_end 0.1.test `sg/impls`/MyWriter#WriteHeader().
  
//⌄ enclosing_range_start 0.1.test `sg/impls`/Another().
  func Another() {
//     ^^^^^^^ definition 0.1.test `sg/impls`/Another().
//             kind Function
//             display_name Another
//             signature_documentation
//             > func Another()
   Something(MyWriter{})
// ^^^^^^^^^ reference 0.1.test `sg/impls`/Something().
//           ^^^^^^^^ reference 0.1.test `sg/impls`/MyWriter#
  }
//⌃ enclosing_range_end 0.1.test `sg/impls`/Another().
  
")].

(** The model, run on the input directory, gives the golden files of /repo. *)
Example snapshot_impls : snapshot input = Some golden.
Proof. vm_compute. reflexivity. Qed.
(** The directory meets the hypotheses of the theorems (Contract.scopes_contract_ok). *)
Example snapshot_impls_contract : contract input = true ∧ scopesb input = true.
Proof. split; vm_compute; reflexivity. Qed.
