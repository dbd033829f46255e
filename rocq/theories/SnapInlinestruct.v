(** Generated by tools/snapshot/emit.py from /repo/internal/testdata/snapshots/{input,output}/inlinestruct: what packages.Load
    returns for that directory (syntax, types, modules; dependencies reduced to the declarations used), and the golden output. *)
From Coq Require Import Ascii String.
From stdpp Require Import prelude strings gmap.
From Verif Require Import GoStr Scip GoTypes Ast Packages Source Signature Snapshot Contract.
Open Scope string_scope.
Open Scope list_scope.
Definition k0 : tpkg := TPkg "context" [SEntry "Background" false (TBasic BInvalid false); SEntry "Context" true (TNamed (TName 58 (Some "context") "Context") [])].
Definition o59 : obj := Obj 59 "Background" (Some k0) 10000105 (OFunc (Some None)) (TSig [] [(TNamed (TName 58 (Some "context") "Context") [])] false) None.
Definition o58 : obj := Obj 58 "Context" (Some k0) 10000021 OTypeName (TNamed (TName 58 (Some "context") "Context") []) None.
Definition o60 : obj := Obj 60 "Done" (Some k0) 10000042 (OFunc (Some (Some (TNamed (TName 58 (Some "context") "Context") [])))) (TSig [] [(TChan 2 (TStruct []))] false) None.
Definition o62 : obj := Obj 62 "Err" (Some k0) 10000066 (OFunc (Some (Some (TNamed (TName 58 (Some "context") "Context") [])))) (TSig [] [(TNamed (TName 21 None "error") [])] false) None.
Definition o64 : obj := Obj 64 "Value" (Some k0) 10000079 (OFunc (Some (Some (TNamed (TName 58 (Some "context") "Context") [])))) (TSig [(TAlias (TName 20 None "any") (TInterface [] ""))] [(TAlias (TName 20 None "any") (TInterface [] ""))] false) None.
(* inlinestruct/inlinestruct.go *)
Definition f2_0 : node := (NFile 1 false "" (Ident 1 "inlinestruct" 9)
  [(NGenDecl 23 TYPE "" [(NTypeSpec "" (Ident 2 "FieldInterface" 28) (NFieldList []) (NInterfaceType 3 43 (NFieldList [(NField "" "" [(Ident 4 "SomeMethod" 56)] (NFuncType 66 (NFieldList []) (NFieldList []) (NFieldList [(NField "" "" [] (NIdent (Ident 5 "string" 69)))])))])))]);
   (NGenDecl 79 VAR "" [(NValueSpec "" "" [(Ident 6 "MyInline" 83)] None [(NOther 94 [(NStructType 7 94 (NFieldList [(NField "" "" [(Ident 8 "privateField" 104)] (NIdent (Ident 9 "FieldInterface" 117))); (NField "" "" [(Ident 10 "PublicField" 133)] (NIdent (Ident 11 "FieldInterface" 146)))]))])])]);
   (NFuncDecl "" 166 236 None (Ident 12 "MyFunc" 171) (NFuncType 166 (NFieldList []) (NFieldList []) (NFieldList [])) (Some (NBlockStmt 180 [(NOther 183 [(NIdent (Ident 13 "_" 183)); (NSelectorExpr (NIdent (Ident 14 "MyInline" 187)) (Ident 15 "privateField" 196))]); (NOther 210 [(NIdent (Ident 16 "_" 210)); (NSelectorExpr (NIdent (Ident 17 "MyInline" 214)) (Ident 18 "PublicField" 223))])])))]).
(* inlinestruct/inlinestruct_func.go *)
Definition f2_1 : node := (NFile 238 false "" (Ident 19 "inlinestruct" 246)
  [(NGenDecl 260 TYPE "" [(NTypeSpec "" (Ident 20 "InFuncSig" 265) (NFieldList []) (NStructType 21 275 (NFieldList [(NField "" "" [(Ident 22 "value" 285)] (NIdent (Ident 23 "bool" 291)))])))]);
   (NGenDecl 299 VAR "" [(NValueSpec "" "" [(Ident 24 "rowsCloseHook" 303)] None [(NFuncLit (NFuncType 319 (NFieldList []) (NFieldList []) (NFieldList [(NField "" "" [] (NFuncType 326 (NFieldList []) (NFieldList [(NField "" "" [] (NIdent (Ident 25 "InFuncSig" 331))); (NField "" "" [] (NStarExpr 342 (NIdent (Ident 26 "error" 343))))]) (NFieldList [])))])) (NBlockStmt 350 [(NOther 352 [(NIdent (Ident 27 "nil" 359))])]))])])]).
(* inlinestruct/inlinestruct_genericindex.go *)
Definition f2_2 : node := (NFile 366 false "" (Ident 28 "inlinestruct" 374)
  [(NGenDecl 388 TYPE "" [(NTypeSpec "" (Ident 29 "Processor" 393) (NFieldList [(NField "" "" [(Ident 30 "T" 403)] (NIdent (Ident 31 "any" 405)))]) (NInterfaceType 32 410 (NFieldList [(NField "" "" [(Ident 33 "Process" 423)] (NFuncType 430 (NFieldList []) (NFieldList [(NField "" "" [(Ident 34 "payload" 431)] (NIdent (Ident 35 "T" 439)))]) (NFieldList []))); (NField "" "" [(Ident 36 "ProcessorType" 443)] (NFuncType 456 (NFieldList []) (NFieldList []) (NFieldList [(NField "" "" [] (NIdent (Ident 37 "string" 459)))])))])))]);
   (NGenDecl 469 TYPE "" [(NTypeSpec "" (Ident 38 "Limit" 474) (NFieldList []) (NIdent (Ident 39 "int" 480)))]);
   (NGenDecl 485 TYPE "" [(NTypeSpec "" (Ident 40 "ProcessImpl" 490) (NFieldList []) (NStructType 41 502 (NFieldList [])))]);
   (NFuncDecl "" 512 585 (Some (NFieldList [(NField "" "" [(Ident 42 "p" 518)] (NStarExpr 520 (NIdent (Ident 43 "ProcessImpl" 521))))])) (Ident 44 "Process" 534) (NFuncType 512 (NFieldList []) (NFieldList [(NField "" "" [(Ident 45 "payload" 542)] (NIdent (Ident 46 "Limit" 550)))]) (NFieldList [])) (Some (NBlockStmt 557 [(NOther 559 [(NOther 559 [(NIdent (Ident 47 "panic" 559))])])])));
   (NFuncDecl "" 586 659 (Some (NFieldList [(NField "" "" [(Ident 48 "p" 592)] (NStarExpr 594 (NIdent (Ident 49 "ProcessImpl" 595))))])) (Ident 50 "ProcessorType" 608) (NFuncType 586 (NFieldList []) (NFieldList []) (NFieldList [(NField "" "" [] (NIdent (Ident 51 "string" 624)))])) (Some (NBlockStmt 631 [(NOther 633 [(NOther 633 [(NIdent (Ident 52 "panic" 633))])])])));
   (NGenDecl 661 VAR "" [(NValueSpec "" "" [(Ident 53 "_" 665)] (Some (NIndexExpr (NIdent (Ident 54 "Processor" 667)) (NIdent (Ident 55 "Limit" 677)))) [(NUnaryExpr 686 (NOther 687 [(NIdent (Ident 56 "ProcessImpl" 687))]))])])]).
(* inlinestruct/inlinestruct_interface.go *)
Definition f2_3 : node := (NFile 702 false "" (Ident 57 "inlinestruct" 710)
  [(NGenDecl 724 IMPORT "" [(NImportSpec 58 None 731 """context""")]);
   (NFuncDecl "" 742 960 None (Ident 59 "Target" 747) (NFuncType 742 (NFieldList []) (NFieldList []) (NFieldList [(NField "" "" [] (NInterfaceType 60 756 (NFieldList [(NField "" "" [(Ident 61 "OID" 769)] (NFuncType 772 (NFieldList []) (NFieldList [(NField "" "" [] (NSelectorExpr (NIdent (Ident 62 "context" 773)) (Ident 63 "Context" 781)))]) (NFieldList [(NField "" "" [] (NIdent (Ident 64 "int" 791))); (NField "" "" [] (NIdent (Ident 65 "error" 796)))]))); (NField "" "" [(Ident 66 "AbbreviatedOID" 804)] (NFuncType 818 (NFieldList []) (NFieldList [(NField "" "" [] (NSelectorExpr (NIdent (Ident 67 "context" 819)) (Ident 68 "Context" 827)))]) (NFieldList [(NField "" "" [] (NIdent (Ident 69 "string" 837))); (NField "" "" [] (NIdent (Ident 70 "error" 845)))]))); (NField "" "" [(Ident 71 "Commit" 853)] (NFuncType 859 (NFieldList []) (NFieldList [(NField "" "" [] (NSelectorExpr (NIdent (Ident 72 "context" 860)) (Ident 73 "Context" 868)))]) (NFieldList [(NField "" "" [] (NIdent (Ident 74 "string" 878))); (NField "" "" [] (NIdent (Ident 75 "error" 886)))]))); (NField "" "" [(Ident 76 "Type" 894)] (NFuncType 898 (NFieldList []) (NFieldList [(NField "" "" [] (NSelectorExpr (NIdent (Ident 77 "context" 899)) (Ident 78 "Context" 907)))]) (NFieldList [(NField "" "" [] (NIdent (Ident 79 "int" 917))); (NField "" "" [] (NIdent (Ident 80 "error" 922)))])))])))])) (Some (NBlockStmt 931 [(NOther 934 [(NOther 934 [(NIdent (Ident 81 "panic" 934))])])])));
   (NFuncDecl "" 962 1026 None (Ident 82 "something" 967) (NFuncType 962 (NFieldList []) (NFieldList []) (NFieldList [])) (Some (NBlockStmt 979 [(NOther 982 [(NIdent (Ident 83 "x" 982)); (NOther 987 [(NIdent (Ident 84 "Target" 987))])]); (NOther 997 [(NOther 997 [(NSelectorExpr (NIdent (Ident 85 "x" 997)) (Ident 86 "OID" 999)); (NOther 1003 [(NSelectorExpr (NIdent (Ident 87 "context" 1003)) (Ident 88 "Background" 1011))])])])])))]).
(* inlinestruct/inlinestruct_map.go *)
Definition f2_4 : node := (NFile 1028 false "" (Ident 89 "inlinestruct" 1036)
  [(NGenDecl 1050 VAR "" [(NValueSpec "" "" [(Ident 90 "testHook" 1054)] None [(NFuncLit (NFuncType 1065 (NFieldList []) (NFieldList [(NField "" "" [] (NMapType 1070 (NIdent (Ident 91 "string" 1074)) (NIdent (Ident 92 "string" 1081))))]) (NFieldList [])) (NBlockStmt 1089 []))])])]).
(* inlinestruct/inlinestruct_multivar.go *)
Definition f2_5 : node := (NFile 1093 false "" (Ident 93 "inlinestruct" 1101)
  [(NGenDecl 1115 TYPE "" [(NTypeSpec "" (Ident 94 "Params" 1120) (NFieldList []) (NStructType 95 1127 (NFieldList [])))]);
   (NGenDecl 1136 TYPE "" [(NTypeSpec "" (Ident 96 "HighlightedCode" 1141) (NFieldList []) (NStructType 97 1157 (NFieldList [])))]);
   (NGenDecl 1167 VAR "" [(NValueSpec "" "" [(Ident 98 "Mocks" 1171); (Ident 99 "emptyMocks" 1178)] (Some (NStructType 100 1189 (NFieldList [(NField "" "" [(Ident 101 "Code" 1199)] (NFuncType 1204 (NFieldList []) (NFieldList [(NField "" "" [(Ident 102 "p" 1209)] (NIdent (Ident 103 "Params" 1211)))]) (NFieldList [(NField "" "" [(Ident 104 "response" 1220)] (NStarExpr 1229 (NIdent (Ident 105 "HighlightedCode" 1230)))); (NField "" "" [(Ident 106 "aborted" 1247)] (NIdent (Ident 107 "bool" 1255))); (NField "" "" [(Ident 108 "err" 1261)] (NIdent (Ident 109 "error" 1265)))])))]))) [])]);
   (NGenDecl 1275 VAR "" [(NValueSpec "" "" [(Ident 110 "MocksSingle" 1279)] (Some (NStructType 111 1291 (NFieldList [(NField "" "" [(Ident 112 "Code" 1301)] (NFuncType 1306 (NFieldList []) (NFieldList [(NField "" "" [(Ident 113 "p" 1311)] (NIdent (Ident 114 "Params" 1313)))]) (NFieldList [(NField "" "" [(Ident 115 "response" 1322)] (NStarExpr 1331 (NIdent (Ident 116 "HighlightedCode" 1332)))); (NField "" "" [(Ident 117 "aborted" 1349)] (NIdent (Ident 118 "bool" 1357))); (NField "" "" [(Ident 119 "err" 1363)] (NIdent (Ident 120 "error" 1367)))])))]))) [])]);
   (NGenDecl 1377 VAR "" [(NValueSpec "" "" [(Ident 121 "okReply" 1384)] (Some (NInterfaceType 122 1394 (NFieldList []))) []); (NValueSpec "" "" [(Ident 123 "pongReply" 1414)] (Some (NInterfaceType 124 1424 (NFieldList []))) [])])]).
Definition k1 : tpkg := TPkg "sg/inlinestruct" [SEntry "FieldInterface" true (TNamed (TName 47 (Some "sg/inlinestruct") "FieldInterface") []); SEntry "HighlightedCode" true (TNamed (TName 73 (Some "sg/inlinestruct") "HighlightedCode") []); SEntry "InFuncSig" true (TNamed (TName 50 (Some "sg/inlinestruct") "InFuncSig") []); SEntry "Limit" true (TNamed (TName 53 (Some "sg/inlinestruct") "Limit") []); SEntry "Mocks" false (TBasic BInvalid false); SEntry "MocksSingle" false (TBasic BInvalid false); SEntry "MyFunc" false (TBasic BInvalid false); SEntry "MyInline" false (TBasic BInvalid false); SEntry "Params" true (TNamed (TName 72 (Some "sg/inlinestruct") "Params") []); SEntry "ProcessImpl" true (TNamed (TName 54 (Some "sg/inlinestruct") "ProcessImpl") []); SEntry "Processor" true (TNamed (TName 52 (Some "sg/inlinestruct") "Processor") []); SEntry "Target" false (TBasic BInvalid false); SEntry "emptyMocks" false (TBasic BInvalid false); SEntry "okReply" false (TBasic BInvalid false); SEntry "pongReply" false (TBasic BInvalid false); SEntry "rowsCloseHook" false (TBasic BInvalid false); SEntry "something" false (TBasic BInvalid false); SEntry "testHook" false (TBasic BInvalid false)].
Definition o47 : obj := Obj 47 "FieldInterface" (Some k1) 28 OTypeName (TNamed (TName 47 (Some "sg/inlinestruct") "FieldInterface") []) None.
Definition o48 : obj := Obj 48 "MyInline" (Some k1) 83 (OVar false) (TStruct [(FHdr 81 "privateField" (Some "sg/inlinestruct") false "", (TNamed (TName 47 (Some "sg/inlinestruct") "FieldInterface") [])); (FHdr 82 "PublicField" (Some "sg/inlinestruct") false "", (TNamed (TName 47 (Some "sg/inlinestruct") "FieldInterface") []))]) None.
Definition o49 : obj := Obj 49 "MyFunc" (Some k1) 171 (OFunc (Some None)) (TSig [] [] false) None.
Definition o50 : obj := Obj 50 "InFuncSig" (Some k1) 265 OTypeName (TNamed (TName 50 (Some "sg/inlinestruct") "InFuncSig") []) None.
Definition o51 : obj := Obj 51 "rowsCloseHook" (Some k1) 303 (OVar false) (TSig [] [(TSig [(TNamed (TName 50 (Some "sg/inlinestruct") "InFuncSig") []); (TPointer (TNamed (TName 21 None "error") []))] [] false)] false) None.
Definition o52 : obj := Obj 52 "Processor" (Some k1) 393 OTypeName (TNamed (TName 52 (Some "sg/inlinestruct") "Processor") []) None.
Definition o53 : obj := Obj 53 "Limit" (Some k1) 474 OTypeName (TNamed (TName 53 (Some "sg/inlinestruct") "Limit") []) None.
Definition o54 : obj := Obj 54 "ProcessImpl" (Some k1) 490 OTypeName (TNamed (TName 54 (Some "sg/inlinestruct") "ProcessImpl") []) None.
Definition o55 : obj := Obj 55 "Process" (Some k1) 534 (OFunc (Some (Some (TPointer (TNamed (TName 54 (Some "sg/inlinestruct") "ProcessImpl") []))))) (TSig [(TNamed (TName 53 (Some "sg/inlinestruct") "Limit") [])] [] false) None.
Definition o56 : obj := Obj 56 "ProcessorType" (Some k1) 608 (OFunc (Some (Some (TPointer (TNamed (TName 54 (Some "sg/inlinestruct") "ProcessImpl") []))))) (TSig [] [(TBasic BString false)] false) None.
Definition o57 : obj := Obj 57 "_" (Some k1) 665 (OVar false) (TNamed (TName 52 (Some "sg/inlinestruct") "Processor") [(TNamed (TName 53 (Some "sg/inlinestruct") "Limit") [])]) None.
Definition o69 : obj := Obj 69 "Target" (Some k1) 747 (OFunc (Some None)) (TSig [] [(TInterface [("AbbreviatedOID", (TSig [(TNamed (TName 58 (Some "context") "Context") [])] [(TBasic BString false); (TNamed (TName 21 None "error") [])] false)); ("Commit", (TSig [(TNamed (TName 58 (Some "context") "Context") [])] [(TBasic BString false); (TNamed (TName 21 None "error") [])] false)); ("OID", (TSig [(TNamed (TName 58 (Some "context") "Context") [])] [(TBasic BInt false); (TNamed (TName 21 None "error") [])] false)); ("Type", (TSig [(TNamed (TName 58 (Some "context") "Context") [])] [(TBasic BInt false); (TNamed (TName 21 None "error") [])] false))] "")] false) None.
Definition o70 : obj := Obj 70 "something" (Some k1) 967 (OFunc (Some None)) (TSig [] [] false) None.
Definition o71 : obj := Obj 71 "testHook" (Some k1) 1054 (OVar false) (TSig [(TMap (TBasic BString false) (TBasic BString false))] [] false) None.
Definition o72 : obj := Obj 72 "Params" (Some k1) 1120 OTypeName (TNamed (TName 72 (Some "sg/inlinestruct") "Params") []) None.
Definition o73 : obj := Obj 73 "HighlightedCode" (Some k1) 1141 OTypeName (TNamed (TName 73 (Some "sg/inlinestruct") "HighlightedCode") []) None.
Definition o74 : obj := Obj 74 "Mocks" (Some k1) 1171 (OVar false) (TStruct [(FHdr 118 "Code" (Some "sg/inlinestruct") false "", (TSig [(TNamed (TName 72 (Some "sg/inlinestruct") "Params") [])] [(TPointer (TNamed (TName 73 (Some "sg/inlinestruct") "HighlightedCode") [])); (TBasic BBool false); (TNamed (TName 21 None "error") [])] false))]) None.
Definition o75 : obj := Obj 75 "emptyMocks" (Some k1) 1178 (OVar false) (TStruct [(FHdr 118 "Code" (Some "sg/inlinestruct") false "", (TSig [(TNamed (TName 72 (Some "sg/inlinestruct") "Params") [])] [(TPointer (TNamed (TName 73 (Some "sg/inlinestruct") "HighlightedCode") [])); (TBasic BBool false); (TNamed (TName 21 None "error") [])] false))]) None.
Definition o76 : obj := Obj 76 "MocksSingle" (Some k1) 1279 (OVar false) (TStruct [(FHdr 123 "Code" (Some "sg/inlinestruct") false "", (TSig [(TNamed (TName 72 (Some "sg/inlinestruct") "Params") [])] [(TPointer (TNamed (TName 73 (Some "sg/inlinestruct") "HighlightedCode") [])); (TBasic BBool false); (TNamed (TName 21 None "error") [])] false))]) None.
Definition o77 : obj := Obj 77 "okReply" (Some k1) 1384 (OVar false) (TInterface [] "") None.
Definition o78 : obj := Obj 78 "pongReply" (Some k1) 1414 (OVar false) (TInterface [] "") None.
Definition o79 : obj := Obj 79 "SomeMethod" (Some k1) 56 (OFunc (Some (Some (TNamed (TName 47 (Some "sg/inlinestruct") "FieldInterface") [])))) (TSig [] [(TBasic BString false)] false) None.
Definition o81 : obj := Obj 81 "privateField" (Some k1) 104 (OVar true) (TNamed (TName 47 (Some "sg/inlinestruct") "FieldInterface") []) None.
Definition o82 : obj := Obj 82 "PublicField" (Some k1) 133 (OVar true) (TNamed (TName 47 (Some "sg/inlinestruct") "FieldInterface") []) None.
Definition o83 : obj := Obj 83 "value" (Some k1) 285 (OVar true) (TBasic BBool false) None.
Definition o87 : obj := Obj 87 "T" (Some k1) 403 OTypeName (TTypeParam (TName 87 (Some "sg/inlinestruct") "T") 0) None.
Definition o88 : obj := Obj 88 "Process" (Some k1) 423 (OFunc (Some (Some (TNamed (TName 52 (Some "sg/inlinestruct") "Processor") [])))) (TSig [(TTypeParam (TName 87 (Some "sg/inlinestruct") "T") 0)] [] false) None.
Definition o89 : obj := Obj 89 "payload" (Some k1) 431 (OVar false) (TTypeParam (TName 87 (Some "sg/inlinestruct") "T") 0) None.
Definition o90 : obj := Obj 90 "ProcessorType" (Some k1) 443 (OFunc (Some (Some (TNamed (TName 52 (Some "sg/inlinestruct") "Processor") [])))) (TSig [] [(TBasic BString false)] false) None.
Definition o92 : obj := Obj 92 "payload" (Some k1) 542 (OVar false) (TNamed (TName 53 (Some "sg/inlinestruct") "Limit") []) None.
Definition o93 : obj := Obj 93 "p" (Some k1) 518 (OVar false) (TPointer (TNamed (TName 54 (Some "sg/inlinestruct") "ProcessImpl") [])) None.
Definition o95 : obj := Obj 95 "p" (Some k1) 592 (OVar false) (TPointer (TNamed (TName 54 (Some "sg/inlinestruct") "ProcessImpl") [])) None.
Definition o96 : obj := Obj 96 "OID" (Some k1) 769 (OFunc (Some (Some (TInterface [("AbbreviatedOID", (TSig [(TNamed (TName 58 (Some "context") "Context") [])] [(TBasic BString false); (TNamed (TName 21 None "error") [])] false)); ("Commit", (TSig [(TNamed (TName 58 (Some "context") "Context") [])] [(TBasic BString false); (TNamed (TName 21 None "error") [])] false)); ("OID", (TSig [(TNamed (TName 58 (Some "context") "Context") [])] [(TBasic BInt false); (TNamed (TName 21 None "error") [])] false)); ("Type", (TSig [(TNamed (TName 58 (Some "context") "Context") [])] [(TBasic BInt false); (TNamed (TName 21 None "error") [])] false))] "")))) (TSig [(TNamed (TName 58 (Some "context") "Context") [])] [(TBasic BInt false); (TNamed (TName 21 None "error") [])] false) None.
Definition o100 : obj := Obj 100 "AbbreviatedOID" (Some k1) 804 (OFunc (Some (Some (TInterface [("AbbreviatedOID", (TSig [(TNamed (TName 58 (Some "context") "Context") [])] [(TBasic BString false); (TNamed (TName 21 None "error") [])] false)); ("Commit", (TSig [(TNamed (TName 58 (Some "context") "Context") [])] [(TBasic BString false); (TNamed (TName 21 None "error") [])] false)); ("OID", (TSig [(TNamed (TName 58 (Some "context") "Context") [])] [(TBasic BInt false); (TNamed (TName 21 None "error") [])] false)); ("Type", (TSig [(TNamed (TName 58 (Some "context") "Context") [])] [(TBasic BInt false); (TNamed (TName 21 None "error") [])] false))] "")))) (TSig [(TNamed (TName 58 (Some "context") "Context") [])] [(TBasic BString false); (TNamed (TName 21 None "error") [])] false) None.
Definition o104 : obj := Obj 104 "Commit" (Some k1) 853 (OFunc (Some (Some (TInterface [("AbbreviatedOID", (TSig [(TNamed (TName 58 (Some "context") "Context") [])] [(TBasic BString false); (TNamed (TName 21 None "error") [])] false)); ("Commit", (TSig [(TNamed (TName 58 (Some "context") "Context") [])] [(TBasic BString false); (TNamed (TName 21 None "error") [])] false)); ("OID", (TSig [(TNamed (TName 58 (Some "context") "Context") [])] [(TBasic BInt false); (TNamed (TName 21 None "error") [])] false)); ("Type", (TSig [(TNamed (TName 58 (Some "context") "Context") [])] [(TBasic BInt false); (TNamed (TName 21 None "error") [])] false))] "")))) (TSig [(TNamed (TName 58 (Some "context") "Context") [])] [(TBasic BString false); (TNamed (TName 21 None "error") [])] false) None.
Definition o108 : obj := Obj 108 "Type" (Some k1) 894 (OFunc (Some (Some (TInterface [("AbbreviatedOID", (TSig [(TNamed (TName 58 (Some "context") "Context") [])] [(TBasic BString false); (TNamed (TName 21 None "error") [])] false)); ("Commit", (TSig [(TNamed (TName 58 (Some "context") "Context") [])] [(TBasic BString false); (TNamed (TName 21 None "error") [])] false)); ("OID", (TSig [(TNamed (TName 58 (Some "context") "Context") [])] [(TBasic BInt false); (TNamed (TName 21 None "error") [])] false)); ("Type", (TSig [(TNamed (TName 58 (Some "context") "Context") [])] [(TBasic BInt false); (TNamed (TName 21 None "error") [])] false))] "")))) (TSig [(TNamed (TName 58 (Some "context") "Context") [])] [(TBasic BInt false); (TNamed (TName 21 None "error") [])] false) None.
Definition o114 : obj := Obj 114 "p" (Some k1) 1209 (OVar false) (TNamed (TName 72 (Some "sg/inlinestruct") "Params") []) None.
Definition o115 : obj := Obj 115 "response" (Some k1) 1220 (OVar false) (TPointer (TNamed (TName 73 (Some "sg/inlinestruct") "HighlightedCode") [])) None.
Definition o116 : obj := Obj 116 "aborted" (Some k1) 1247 (OVar false) (TBasic BBool false) None.
Definition o117 : obj := Obj 117 "err" (Some k1) 1261 (OVar false) (TNamed (TName 21 None "error") []) None.
Definition o118 : obj := Obj 118 "Code" (Some k1) 1199 (OVar true) (TSig [(TNamed (TName 72 (Some "sg/inlinestruct") "Params") [])] [(TPointer (TNamed (TName 73 (Some "sg/inlinestruct") "HighlightedCode") [])); (TBasic BBool false); (TNamed (TName 21 None "error") [])] false) None.
Definition o119 : obj := Obj 119 "p" (Some k1) 1311 (OVar false) (TNamed (TName 72 (Some "sg/inlinestruct") "Params") []) None.
Definition o120 : obj := Obj 120 "response" (Some k1) 1322 (OVar false) (TPointer (TNamed (TName 73 (Some "sg/inlinestruct") "HighlightedCode") [])) None.
Definition o121 : obj := Obj 121 "aborted" (Some k1) 1349 (OVar false) (TBasic BBool false) None.
Definition o122 : obj := Obj 122 "err" (Some k1) 1363 (OVar false) (TNamed (TName 21 None "error") []) None.
Definition o123 : obj := Obj 123 "Code" (Some k1) 1301 (OVar true) (TSig [(TNamed (TName 72 (Some "sg/inlinestruct") "Params") [])] [(TPointer (TNamed (TName 73 (Some "sg/inlinestruct") "HighlightedCode") [])); (TBasic BBool false); (TNamed (TName 21 None "error") [])] false) None.
Definition o124 : obj := Obj 124 "x" (Some k1) 982 (OVar false) (TInterface [("AbbreviatedOID", (TSig [(TNamed (TName 58 (Some "context") "Context") [])] [(TBasic BString false); (TNamed (TName 21 None "error") [])] false)); ("Commit", (TSig [(TNamed (TName 58 (Some "context") "Context") [])] [(TBasic BString false); (TNamed (TName 21 None "error") [])] false)); ("OID", (TSig [(TNamed (TName 58 (Some "context") "Context") [])] [(TBasic BInt false); (TNamed (TName 21 None "error") [])] false)); ("Type", (TSig [(TNamed (TName 58 (Some "context") "Context") [])] [(TBasic BInt false); (TNamed (TName 21 None "error") [])] false))] "") None.
Definition o17 : obj := Obj 17 "string" None 0 OTypeName (TBasic BString false) None.
Definition o1 : obj := Obj 1 "bool" None 0 OTypeName (TBasic BBool false) None.
Definition o21 : obj := Obj 21 "error" None 0 OTypeName (TNamed (TName 21 None "error") []) None.
Definition o28 : obj := Obj 28 "nil" None 0 ONil (TBasic BUntypedNil false) None.
Definition o20 : obj := Obj 20 "any" None 0 OTypeName (TAlias (TName 20 None "any") (TInterface [] "")) None.
Definition o2 : obj := Obj 2 "int" None 0 OTypeName (TBasic BInt false) None.
Definition o68 : obj := Obj 68 "context" (Some k1) 731 (OPkgName "context") (TBasic BInvalid false) None.
Definition o42 : obj := Obj 42 "panic" None 0 OBuiltin (TBasic BInvalid false) None.
Definition defs2 : list (nat * obj) := [(2, o47); (6, o48); (12, o49); (20, o50); (24, o51); (29, o52); (38, o53); (40, o54); (44, o55); (50, o56); (53, o57); (59, o69); (82, o70); (90, o71); (94, o72); (96, o73); (98, o74); (99, o75); (110, o76); (121, o77); (123, o78); (4, o79); (8, o81); (10, o82); (22, o83); (30, o87); (33, o88); (34, o89); (36, o90); (45, o92); (42, o93); (48, o95); (61, o96); (66, o100); (71, o104); (76, o108); (102, o114); (104, o115); (106, o116); (108, o117); (101, o118); (113, o119); (115, o120); (117, o121); (119, o122); (112, o123); (83, o124)].
Definition uses2 : list (nat * obj) := [(5, o17); (9, o47); (11, o47); (23, o1); (25, o50); (26, o21); (27, o28); (31, o20); (35, o87); (37, o17); (39, o2); (43, o54); (46, o53); (49, o54); (51, o17); (54, o52); (55, o53); (56, o54); (62, o68); (63, o58); (64, o2); (65, o21); (67, o68); (68, o58); (69, o17); (70, o21); (72, o68); (73, o58); (74, o17); (75, o21); (77, o68); (78, o58); (79, o2); (80, o21); (91, o17); (92, o17); (103, o72); (105, o73); (107, o1); (109, o21); (114, o72); (116, o73); (118, o1); (120, o21); (14, o48); (15, o81); (17, o48); (18, o82); (47, o42); (52, o42); (81, o42); (84, o69); (85, o124); (86, o96); (87, o68); (88, o59)].
Definition canon2 : list (nat * hty) := [(3, (HInterface false [("SomeMethod", (HSig [] [] [("", (HBasic "string"))] false))] [])); (7, (HStruct [("privateField", false, "", (HNamed (HName (Some (HPkg "sg/inlinestruct" "inlinestruct")) "FieldInterface") [] [])); ("PublicField", false, "", (HNamed (HName (Some (HPkg "sg/inlinestruct" "inlinestruct")) "FieldInterface") [] []))])); (21, (HStruct [("value", false, "", (HBasic "bool"))])); (32, (HInterface false [("Process", (HSig [] [("payload", (HTypeParam "T"))] [] false)); ("ProcessorType", (HSig [] [] [("", (HBasic "string"))] false))] [])); (41, (HStruct [])); (60, (HInterface false [("AbbreviatedOID", (HSig [] [("", (HNamed (HName (Some (HPkg "context" "context")) "Context") [] []))] [("", (HBasic "string")); ("", (HNamed (HName None "error") [] []))] false)); ("Commit", (HSig [] [("", (HNamed (HName (Some (HPkg "context" "context")) "Context") [] []))] [("", (HBasic "string")); ("", (HNamed (HName None "error") [] []))] false)); ("OID", (HSig [] [("", (HNamed (HName (Some (HPkg "context" "context")) "Context") [] []))] [("", (HBasic "int")); ("", (HNamed (HName None "error") [] []))] false)); ("Type", (HSig [] [("", (HNamed (HName (Some (HPkg "context" "context")) "Context") [] []))] [("", (HBasic "int")); ("", (HNamed (HName None "error") [] []))] false))] [])); (95, (HStruct [])); (97, (HStruct [])); (100, (HStruct [("Code", false, "", (HSig [] [("p", (HNamed (HName (Some (HPkg "sg/inlinestruct" "inlinestruct")) "Params") [] []))] [("response", (HPointer (HNamed (HName (Some (HPkg "sg/inlinestruct" "inlinestruct")) "HighlightedCode") [] []))); ("aborted", (HBasic "bool")); ("err", (HNamed (HName None "error") [] []))] false))])); (111, (HStruct [("Code", false, "", (HSig [] [("p", (HNamed (HName (Some (HPkg "sg/inlinestruct" "inlinestruct")) "Params") [] []))] [("response", (HPointer (HNamed (HName (Some (HPkg "sg/inlinestruct" "inlinestruct")) "HighlightedCode") [] []))); ("aborted", (HBasic "bool")); ("err", (HNamed (HName None "error") [] []))] false))])); (122, (HInterface false [] [])); (124, (HInterface false [] []))].
Definition pkgnames2 : list (nat * obj) := [(58, o68)].
Definition cases2 : list obj := [].
Definition o22 : obj := Obj 22 "Error" None 0 (OFunc (Some (Some (TNamed (TName 21 None "error") [])))) (TSig [] [(TBasic BString false)] false) None.
Definition hobjs : list (nat * hobj) := [(47, HObj "FieldInterface" (Some (HPkg "sg/inlinestruct" "inlinestruct")) true (HTypeName (DDefined [] (HInterface false [("SomeMethod", (HSig [] [] [("", (HBasic "string"))] false))] []))));
  (48, HObj "MyInline" (Some (HPkg "sg/inlinestruct" "inlinestruct")) true (HVar false (HStruct [("privateField", false, "", (HNamed (HName (Some (HPkg "sg/inlinestruct" "inlinestruct")) "FieldInterface") [] [])); ("PublicField", false, "", (HNamed (HName (Some (HPkg "sg/inlinestruct" "inlinestruct")) "FieldInterface") [] []))])));
  (49, HObj "MyFunc" (Some (HPkg "sg/inlinestruct" "inlinestruct")) true (HFunc None (HSig [] [] [] false)));
  (50, HObj "InFuncSig" (Some (HPkg "sg/inlinestruct" "inlinestruct")) true (HTypeName (DDefined [] (HStruct [("value", false, "", (HBasic "bool"))]))));
  (51, HObj "rowsCloseHook" (Some (HPkg "sg/inlinestruct" "inlinestruct")) true (HVar false (HSig [] [] [("", (HSig [] [("", (HNamed (HName (Some (HPkg "sg/inlinestruct" "inlinestruct")) "InFuncSig") [] [])); ("", (HPointer (HNamed (HName None "error") [] [])))] [] false))] false)));
  (52, HObj "Processor" (Some (HPkg "sg/inlinestruct" "inlinestruct")) true (HTypeName (DDefined [(["T"], HAny)] (HInterface false [("Process", (HSig [] [("payload", (HTypeParam "T"))] [] false)); ("ProcessorType", (HSig [] [] [("", (HBasic "string"))] false))] []))));
  (53, HObj "Limit" (Some (HPkg "sg/inlinestruct" "inlinestruct")) true (HTypeName (DDefined [] (HBasic "int"))));
  (54, HObj "ProcessImpl" (Some (HPkg "sg/inlinestruct" "inlinestruct")) true (HTypeName (DDefined [] (HStruct []))));
  (55, HObj "Process" (Some (HPkg "sg/inlinestruct" "inlinestruct")) false (HFunc (Some (HPointer (HNamed (HName (Some (HPkg "sg/inlinestruct" "inlinestruct")) "ProcessImpl") [] []))) (HSig [] [("payload", (HNamed (HName (Some (HPkg "sg/inlinestruct" "inlinestruct")) "Limit") [] []))] [] false)));
  (56, HObj "ProcessorType" (Some (HPkg "sg/inlinestruct" "inlinestruct")) false (HFunc (Some (HPointer (HNamed (HName (Some (HPkg "sg/inlinestruct" "inlinestruct")) "ProcessImpl") [] []))) (HSig [] [] [("", (HBasic "string"))] false)));
  (57, HObj "_" (Some (HPkg "sg/inlinestruct" "inlinestruct")) false (HVar false (HNamed (HName (Some (HPkg "sg/inlinestruct" "inlinestruct")) "Processor") [(HNamed (HName (Some (HPkg "sg/inlinestruct" "inlinestruct")) "Limit") [] [])] [])));
  (69, HObj "Target" (Some (HPkg "sg/inlinestruct" "inlinestruct")) true (HFunc None (HSig [] [] [("", (HInterface false [("AbbreviatedOID", (HSig [] [("", (HNamed (HName (Some (HPkg "context" "context")) "Context") [] []))] [("", (HBasic "string")); ("", (HNamed (HName None "error") [] []))] false)); ("Commit", (HSig [] [("", (HNamed (HName (Some (HPkg "context" "context")) "Context") [] []))] [("", (HBasic "string")); ("", (HNamed (HName None "error") [] []))] false)); ("OID", (HSig [] [("", (HNamed (HName (Some (HPkg "context" "context")) "Context") [] []))] [("", (HBasic "int")); ("", (HNamed (HName None "error") [] []))] false)); ("Type", (HSig [] [("", (HNamed (HName (Some (HPkg "context" "context")) "Context") [] []))] [("", (HBasic "int")); ("", (HNamed (HName None "error") [] []))] false))] []))] false)));
  (70, HObj "something" (Some (HPkg "sg/inlinestruct" "inlinestruct")) true (HFunc None (HSig [] [] [] false)));
  (71, HObj "testHook" (Some (HPkg "sg/inlinestruct" "inlinestruct")) true (HVar false (HSig [] [("", (HMap (HBasic "string") (HBasic "string")))] [] false)));
  (72, HObj "Params" (Some (HPkg "sg/inlinestruct" "inlinestruct")) true (HTypeName (DDefined [] (HStruct []))));
  (73, HObj "HighlightedCode" (Some (HPkg "sg/inlinestruct" "inlinestruct")) true (HTypeName (DDefined [] (HStruct []))));
  (74, HObj "Mocks" (Some (HPkg "sg/inlinestruct" "inlinestruct")) true (HVar false (HStruct [("Code", false, "", (HSig [] [("p", (HNamed (HName (Some (HPkg "sg/inlinestruct" "inlinestruct")) "Params") [] []))] [("response", (HPointer (HNamed (HName (Some (HPkg "sg/inlinestruct" "inlinestruct")) "HighlightedCode") [] []))); ("aborted", (HBasic "bool")); ("err", (HNamed (HName None "error") [] []))] false))])));
  (75, HObj "emptyMocks" (Some (HPkg "sg/inlinestruct" "inlinestruct")) true (HVar false (HStruct [("Code", false, "", (HSig [] [("p", (HNamed (HName (Some (HPkg "sg/inlinestruct" "inlinestruct")) "Params") [] []))] [("response", (HPointer (HNamed (HName (Some (HPkg "sg/inlinestruct" "inlinestruct")) "HighlightedCode") [] []))); ("aborted", (HBasic "bool")); ("err", (HNamed (HName None "error") [] []))] false))])));
  (76, HObj "MocksSingle" (Some (HPkg "sg/inlinestruct" "inlinestruct")) true (HVar false (HStruct [("Code", false, "", (HSig [] [("p", (HNamed (HName (Some (HPkg "sg/inlinestruct" "inlinestruct")) "Params") [] []))] [("response", (HPointer (HNamed (HName (Some (HPkg "sg/inlinestruct" "inlinestruct")) "HighlightedCode") [] []))); ("aborted", (HBasic "bool")); ("err", (HNamed (HName None "error") [] []))] false))])));
  (77, HObj "okReply" (Some (HPkg "sg/inlinestruct" "inlinestruct")) true (HVar false (HInterface false [] [])));
  (78, HObj "pongReply" (Some (HPkg "sg/inlinestruct" "inlinestruct")) true (HVar false (HInterface false [] [])));
  (79, HObj "SomeMethod" (Some (HPkg "sg/inlinestruct" "inlinestruct")) false (HFunc (Some (HNamed (HName (Some (HPkg "sg/inlinestruct" "inlinestruct")) "FieldInterface") [] [])) (HSig [] [] [("", (HBasic "string"))] false)));
  (81, HObj "privateField" (Some (HPkg "sg/inlinestruct" "inlinestruct")) false (HVar true (HNamed (HName (Some (HPkg "sg/inlinestruct" "inlinestruct")) "FieldInterface") [] [])));
  (82, HObj "PublicField" (Some (HPkg "sg/inlinestruct" "inlinestruct")) false (HVar true (HNamed (HName (Some (HPkg "sg/inlinestruct" "inlinestruct")) "FieldInterface") [] [])));
  (83, HObj "value" (Some (HPkg "sg/inlinestruct" "inlinestruct")) false (HVar true (HBasic "bool")));
  (87, HObj "T" (Some (HPkg "sg/inlinestruct" "inlinestruct")) false (HTypeName (DTypeParam HAny HAny)));
  (88, HObj "Process" (Some (HPkg "sg/inlinestruct" "inlinestruct")) false (HFunc (Some (HNamed (HName (Some (HPkg "sg/inlinestruct" "inlinestruct")) "Processor") [] [(["T"], HAny)])) (HSig [] [("payload", (HTypeParam "T"))] [] false)));
  (89, HObj "payload" (Some (HPkg "sg/inlinestruct" "inlinestruct")) false (HVar false (HTypeParam "T")));
  (90, HObj "ProcessorType" (Some (HPkg "sg/inlinestruct" "inlinestruct")) false (HFunc (Some (HNamed (HName (Some (HPkg "sg/inlinestruct" "inlinestruct")) "Processor") [] [(["T"], HAny)])) (HSig [] [] [("", (HBasic "string"))] false)));
  (92, HObj "payload" (Some (HPkg "sg/inlinestruct" "inlinestruct")) false (HVar false (HNamed (HName (Some (HPkg "sg/inlinestruct" "inlinestruct")) "Limit") [] [])));
  (93, HObj "p" (Some (HPkg "sg/inlinestruct" "inlinestruct")) false (HVar false (HPointer (HNamed (HName (Some (HPkg "sg/inlinestruct" "inlinestruct")) "ProcessImpl") [] []))));
  (95, HObj "p" (Some (HPkg "sg/inlinestruct" "inlinestruct")) false (HVar false (HPointer (HNamed (HName (Some (HPkg "sg/inlinestruct" "inlinestruct")) "ProcessImpl") [] []))));
  (96, HObj "OID" (Some (HPkg "sg/inlinestruct" "inlinestruct")) false (HFunc (Some (HInterface false [("AbbreviatedOID", (HSig [] [("", (HNamed (HName (Some (HPkg "context" "context")) "Context") [] []))] [("", (HBasic "string")); ("", (HNamed (HName None "error") [] []))] false)); ("Commit", (HSig [] [("", (HNamed (HName (Some (HPkg "context" "context")) "Context") [] []))] [("", (HBasic "string")); ("", (HNamed (HName None "error") [] []))] false)); ("OID", (HSig [] [("", (HNamed (HName (Some (HPkg "context" "context")) "Context") [] []))] [("", (HBasic "int")); ("", (HNamed (HName None "error") [] []))] false)); ("Type", (HSig [] [("", (HNamed (HName (Some (HPkg "context" "context")) "Context") [] []))] [("", (HBasic "int")); ("", (HNamed (HName None "error") [] []))] false))] [])) (HSig [] [("", (HNamed (HName (Some (HPkg "context" "context")) "Context") [] []))] [("", (HBasic "int")); ("", (HNamed (HName None "error") [] []))] false)));
  (100, HObj "AbbreviatedOID" (Some (HPkg "sg/inlinestruct" "inlinestruct")) false (HFunc (Some (HInterface false [("AbbreviatedOID", (HSig [] [("", (HNamed (HName (Some (HPkg "context" "context")) "Context") [] []))] [("", (HBasic "string")); ("", (HNamed (HName None "error") [] []))] false)); ("Commit", (HSig [] [("", (HNamed (HName (Some (HPkg "context" "context")) "Context") [] []))] [("", (HBasic "string")); ("", (HNamed (HName None "error") [] []))] false)); ("OID", (HSig [] [("", (HNamed (HName (Some (HPkg "context" "context")) "Context") [] []))] [("", (HBasic "int")); ("", (HNamed (HName None "error") [] []))] false)); ("Type", (HSig [] [("", (HNamed (HName (Some (HPkg "context" "context")) "Context") [] []))] [("", (HBasic "int")); ("", (HNamed (HName None "error") [] []))] false))] [])) (HSig [] [("", (HNamed (HName (Some (HPkg "context" "context")) "Context") [] []))] [("", (HBasic "string")); ("", (HNamed (HName None "error") [] []))] false)));
  (104, HObj "Commit" (Some (HPkg "sg/inlinestruct" "inlinestruct")) false (HFunc (Some (HInterface false [("AbbreviatedOID", (HSig [] [("", (HNamed (HName (Some (HPkg "context" "context")) "Context") [] []))] [("", (HBasic "string")); ("", (HNamed (HName None "error") [] []))] false)); ("Commit", (HSig [] [("", (HNamed (HName (Some (HPkg "context" "context")) "Context") [] []))] [("", (HBasic "string")); ("", (HNamed (HName None "error") [] []))] false)); ("OID", (HSig [] [("", (HNamed (HName (Some (HPkg "context" "context")) "Context") [] []))] [("", (HBasic "int")); ("", (HNamed (HName None "error") [] []))] false)); ("Type", (HSig [] [("", (HNamed (HName (Some (HPkg "context" "context")) "Context") [] []))] [("", (HBasic "int")); ("", (HNamed (HName None "error") [] []))] false))] [])) (HSig [] [("", (HNamed (HName (Some (HPkg "context" "context")) "Context") [] []))] [("", (HBasic "string")); ("", (HNamed (HName None "error") [] []))] false)));
  (108, HObj "Type" (Some (HPkg "sg/inlinestruct" "inlinestruct")) false (HFunc (Some (HInterface false [("AbbreviatedOID", (HSig [] [("", (HNamed (HName (Some (HPkg "context" "context")) "Context") [] []))] [("", (HBasic "string")); ("", (HNamed (HName None "error") [] []))] false)); ("Commit", (HSig [] [("", (HNamed (HName (Some (HPkg "context" "context")) "Context") [] []))] [("", (HBasic "string")); ("", (HNamed (HName None "error") [] []))] false)); ("OID", (HSig [] [("", (HNamed (HName (Some (HPkg "context" "context")) "Context") [] []))] [("", (HBasic "int")); ("", (HNamed (HName None "error") [] []))] false)); ("Type", (HSig [] [("", (HNamed (HName (Some (HPkg "context" "context")) "Context") [] []))] [("", (HBasic "int")); ("", (HNamed (HName None "error") [] []))] false))] [])) (HSig [] [("", (HNamed (HName (Some (HPkg "context" "context")) "Context") [] []))] [("", (HBasic "int")); ("", (HNamed (HName None "error") [] []))] false)));
  (114, HObj "p" (Some (HPkg "sg/inlinestruct" "inlinestruct")) false (HVar false (HNamed (HName (Some (HPkg "sg/inlinestruct" "inlinestruct")) "Params") [] [])));
  (115, HObj "response" (Some (HPkg "sg/inlinestruct" "inlinestruct")) false (HVar false (HPointer (HNamed (HName (Some (HPkg "sg/inlinestruct" "inlinestruct")) "HighlightedCode") [] []))));
  (116, HObj "aborted" (Some (HPkg "sg/inlinestruct" "inlinestruct")) false (HVar false (HBasic "bool")));
  (117, HObj "err" (Some (HPkg "sg/inlinestruct" "inlinestruct")) false (HVar false (HNamed (HName None "error") [] [])));
  (118, HObj "Code" (Some (HPkg "sg/inlinestruct" "inlinestruct")) false (HVar true (HSig [] [("p", (HNamed (HName (Some (HPkg "sg/inlinestruct" "inlinestruct")) "Params") [] []))] [("response", (HPointer (HNamed (HName (Some (HPkg "sg/inlinestruct" "inlinestruct")) "HighlightedCode") [] []))); ("aborted", (HBasic "bool")); ("err", (HNamed (HName None "error") [] []))] false)));
  (119, HObj "p" (Some (HPkg "sg/inlinestruct" "inlinestruct")) false (HVar false (HNamed (HName (Some (HPkg "sg/inlinestruct" "inlinestruct")) "Params") [] [])));
  (120, HObj "response" (Some (HPkg "sg/inlinestruct" "inlinestruct")) false (HVar false (HPointer (HNamed (HName (Some (HPkg "sg/inlinestruct" "inlinestruct")) "HighlightedCode") [] []))));
  (121, HObj "aborted" (Some (HPkg "sg/inlinestruct" "inlinestruct")) false (HVar false (HBasic "bool")));
  (122, HObj "err" (Some (HPkg "sg/inlinestruct" "inlinestruct")) false (HVar false (HNamed (HName None "error") [] [])));
  (123, HObj "Code" (Some (HPkg "sg/inlinestruct" "inlinestruct")) false (HVar true (HSig [] [("p", (HNamed (HName (Some (HPkg "sg/inlinestruct" "inlinestruct")) "Params") [] []))] [("response", (HPointer (HNamed (HName (Some (HPkg "sg/inlinestruct" "inlinestruct")) "HighlightedCode") [] []))); ("aborted", (HBasic "bool")); ("err", (HNamed (HName None "error") [] []))] false)));
  (124, HObj "x" (Some (HPkg "sg/inlinestruct" "inlinestruct")) false (HVar false (HInterface false [("AbbreviatedOID", (HSig [] [("", (HNamed (HName (Some (HPkg "context" "context")) "Context") [] []))] [("", (HBasic "string")); ("", (HNamed (HName None "error") [] []))] false)); ("Commit", (HSig [] [("", (HNamed (HName (Some (HPkg "context" "context")) "Context") [] []))] [("", (HBasic "string")); ("", (HNamed (HName None "error") [] []))] false)); ("OID", (HSig [] [("", (HNamed (HName (Some (HPkg "context" "context")) "Context") [] []))] [("", (HBasic "int")); ("", (HNamed (HName None "error") [] []))] false)); ("Type", (HSig [] [("", (HNamed (HName (Some (HPkg "context" "context")) "Context") [] []))] [("", (HBasic "int")); ("", (HNamed (HName None "error") [] []))] false))] [])))].
Definition unders : list (nat * ty) := [(58, (TInterface [("Done", (TSig [] [(TChan 2 (TStruct []))] false)); ("Err", (TSig [] [(TNamed (TName 21 None "error") [])] false)); ("Value", (TSig [(TAlias (TName 20 None "any") (TInterface [] ""))] [(TAlias (TName 20 None "any") (TInterface [] ""))] false))] ""));
  (21, (TInterface [("Error", (TSig [] [(TBasic BString false)] false))] ""));
  (47, (TInterface [("SomeMethod", (TSig [] [(TBasic BString false)] false))] ""));
  (73, (TStruct []));
  (50, (TStruct [(FHdr 83 "value" (Some "sg/inlinestruct") false "", (TBasic BBool false))]));
  (53, (TBasic BInt false));
  (72, (TStruct []));
  (54, (TStruct []));
  (52, (TInterface [("Process", (TSig [(TTypeParam (TName 87 (Some "sg/inlinestruct") "T") 0)] [] false)); ("ProcessorType", (TSig [] [(TBasic BString false)] false))] ""))].
Definition msets : list (nat * (list obj * list obj)) := [(58, ([o60; o62; o64], []));
  (47, ([o79], []));
  (50, ([], []));
  (52, ([o88; o90], []));
  (53, ([], []));
  (54, ([], [o55; o56]));
  (72, ([], []));
  (73, ([], []));
  (21, ([o22], []))].
Definition digests : list (string * string) := [("interface{SomeMethod() string}", "e6d3037e6400f685");
  ("struct{privateField sg/inlinestruct.FieldInterface; PublicField sg/inlinestruct.FieldInterface}", "a8952cabc7fd3326");
  ("struct{value bool}", "834f0b7b00d98d1c");
  ("interface{Process(payload T); ProcessorType() string}", "d9947acbefd00d29");
  ("struct{}", "0d0ad1bdf1affd9c");
  ("interface{AbbreviatedOID(context.Context) (string, error); Commit(context.Context) (string, error); OID(context.Context) (int, error); Type(context.Context) (int, error)}", "84809fbe7359a471");
  ("struct{Code func(p sg/inlinestruct.Params) (response *sg/inlinestruct.HighlightedCode, aborted bool, err error)}", "8483428d6f854b6e");
  ("interface{}", "add049cfe3c2b217")].
Definition formatted : list (string * string) := [("package p

type _ interface{SomeMethod() string}
", "package p

type _ interface{ SomeMethod() string }
");
  ("package p

type _ struct{value bool}
", "package p

type _ struct{ value bool }
");
  ("package p

type _ interface{Process(payload T); ProcessorType() string}
", "package p

type _ interface {
	Process(payload T)
	ProcessorType() string
}
");
  ("package p

type _ struct{}
", "package p

type _ struct{}
")].
Definition sources : list src := [Src "/repo/internal/testdata/snapshots/input/inlinestruct/inlinestruct.go" 1 "package inlinestruct

type FieldInterface interface {
	SomeMethod() string
}

var MyInline = struct {
	privateField FieldInterface
	PublicField  FieldInterface
}{}

func MyFunc() {
	_ = MyInline.privateField
	_ = MyInline.PublicField
}
" [];
  Src "/repo/internal/testdata/snapshots/input/inlinestruct/inlinestruct_func.go" 238 "package inlinestruct

type InFuncSig struct {
	value bool
}

var rowsCloseHook = func() func(InFuncSig, *error) { return nil }
" [];
  Src "/repo/internal/testdata/snapshots/input/inlinestruct/inlinestruct_genericindex.go" 366 "package inlinestruct

type Processor[T any] interface {
	Process(payload T)
	ProcessorType() string
}

type Limit int

type ProcessImpl struct{}

func (p *ProcessImpl) Process(payload Limit) { panic(""not implemented"") }
func (p *ProcessImpl) ProcessorType() string { panic(""not implemented"") }

var _ Processor[Limit] = &ProcessImpl{}
" [];
  Src "/repo/internal/testdata/snapshots/input/inlinestruct/inlinestruct_interface.go" 702 "package inlinestruct

import ""context""

func Target() interface {
	OID(context.Context) (int, error)
	AbbreviatedOID(context.Context) (string, error)
	Commit(context.Context) (string, error)
	Type(context.Context) (int, error)
} {
	panic(""not implemented"")
}

func something() {
	x := Target()
	x.OID(context.Background())
}
" [];
  Src "/repo/internal/testdata/snapshots/input/inlinestruct/inlinestruct_map.go" 1028 "package inlinestruct

var testHook = func(map[string]string) {}
" [];
  Src "/repo/internal/testdata/snapshots/input/inlinestruct/inlinestruct_multivar.go" 1093 "package inlinestruct

type Params struct{}
type HighlightedCode struct{}

var Mocks, emptyMocks struct {
	Code func(p Params) (response *HighlightedCode, aborted bool, err error)
}

var MocksSingle struct {
	Code func(p Params) (response *HighlightedCode, aborted bool, err error)
}

var (
	okReply   interface{} = ""OK""
	pongReply interface{} = ""PONG""
)
" []].
Definition gomods : list (string * string) := [].
Definition p1 : gpkg * option raw := (GPkg 1 "context" "context" None [] [] (Some k0) None, None).
Definition p2 : gpkg * option raw := (GPkg 2 "sg/inlinestruct" "inlinestruct" (Some (GMod "sg/inlinestruct" "" "/repo/internal/testdata/snapshots/input/inlinestruct" "/repo/internal/testdata/snapshots/input/inlinestruct/go.mod" None)) [("context", 1)] [f2_0; f2_1; f2_2; f2_3; f2_4; f2_5] (Some k1) None, (Some (Raw defs2 uses2 pkgnames2 cases2 canon2))).
Definition packages : list (gpkg * option raw) := [p1; p2].
Definition roots : list nat := [2].
Definition scopes : list (nat * list obj) := [(1, [o59; o58])].
Definition levels : list nat := [47; 50; 52; 53; 54; 72; 73].
Definition input : input := Input "/repo/internal/testdata/snapshots/input/inlinestruct" "sg/inlinestruct" false sources packages roots gomods digests formatted hobjs unders msets scopes levels.
Definition golden : list (string * string) := [("inlinestruct.go", "  package inlinestruct
//        ^^^^^^^^^^^^ definition 0.1.test `sg/inlinestruct`/
//                     kind Package
//                     display_name inlinestruct
//                     signature_documentation
//                     > package inlinestruct
  
  type FieldInterface interface {
//     ^^^^^^^^^^^^^^ definition 0.1.test `sg/inlinestruct`/FieldInterface#
//                    kind Interface
//                    display_name FieldInterface
//                    signature_documentation
//                    > type FieldInterface interface{ SomeMethod() string }
   SomeMethod() string
// ^^^^^^^^^^ definition 0.1.test `sg/inlinestruct`/FieldInterface#SomeMethod.
//            kind MethodSpecification
//            display_name SomeMethod
//            signature_documentation
//            > func (FieldInterface).SomeMethod() string
  }
  
  var MyInline = struct {
//    ^^^^^^^^ definition 0.1.test `sg/inlinestruct`/MyInline.
//             kind Variable
//             display_name MyInline
//             signature_documentation
//             > var MyInline struct{privateField FieldInterface; PublicField FieldInterface}
   privateField FieldInterface
// ^^^^^^^^^^^^ definition 0.1.test `sg/inlinestruct`/MyInline:privateField.
//              kind Field
//              display_name privateField
//              signature_documentation
//              > struct field privateField FieldInterface
//              ^^^^^^^^^^^^^^ reference 0.1.test `sg/inlinestruct`/FieldInterface#
   PublicField  FieldInterface
// ^^^^^^^^^^^ definition 0.1.test `sg/inlinestruct`/MyInline:PublicField.
//             kind Field
//             display_name PublicField
//             signature_documentation
//             > struct field PublicField FieldInterface
//              ^^^^^^^^^^^^^^ reference 0.1.test `sg/inlinestruct`/FieldInterface#
  }{}
  
//⌄ enclosing_range_start 0.1.test `sg/inlinestruct`/MyFunc().
  func MyFunc() {
//     ^^^^^^ definition 0.1.test `sg/inlinestruct`/MyFunc().
//            kind Function
//            display_name MyFunc
//            signature_documentation
//            > func MyFunc()
   _ = MyInline.privateField
//     ^^^^^^^^ reference 0.1.test `sg/inlinestruct`/MyInline.
//              ^^^^^^^^^^^^ reference 0.1.test `sg/inlinestruct`/MyInline:privateField.
   _ = MyInline.PublicField
//     ^^^^^^^^ reference 0.1.test `sg/inlinestruct`/MyInline.
//              ^^^^^^^^^^^ reference 0.1.test `sg/inlinestruct`/MyInline:PublicField.
  }
//⌃ enclosing_range_end 0.1.test `sg/inlinestruct`/MyFunc().
  
");
  ("inlinestruct_func.go", "  package inlinestruct
//        ^^^^^^^^^^^^ definition 0.1.test `sg/inlinestruct`/
  
  type InFuncSig struct {
//     ^^^^^^^^^ definition 0.1.test `sg/inlinestruct`/InFuncSig#
//               kind Struct
//               display_name InFuncSig
//               signature_documentation
//               > type InFuncSig struct{ value bool }
   value bool
// ^^^^^ definition 0.1.test `sg/inlinestruct`/InFuncSig#value.
//       kind Field
//       display_name value
//       signature_documentation
//       > struct field value bool
  }
  
  var rowsCloseHook = func() func(InFuncSig, *error) { return nil }
//    ^^^^^^^^^^^^^ definition 0.1.test `sg/inlinestruct`/rowsCloseHook.
//                  kind Variable
//                  display_name rowsCloseHook
//                  signature_documentation
//                  > var rowsCloseHook func() func(InFuncSig, *error)
//                                ^^^^^^^^^ reference 0.1.test `sg/inlinestruct`/InFuncSig#
  
");
  ("inlinestruct_genericindex.go", "  package inlinestruct
//        ^^^^^^^^^^^^ definition 0.1.test `sg/inlinestruct`/
  
  type Processor[T any] interface {
//     ^^^^^^^^^ definition 0.1.test `sg/inlinestruct`/Processor#
//               kind Interface
//               display_name Processor
//               signature_documentation
//               > type Processor interface {
//               >     Process(payload T)
//               >     ProcessorType() string
//               > }
//               ^ definition local 0
//                 kind Interface
//                 display_name T
//                 signature_documentation
//                 > type parameter T any
   Process(payload T)
// ^^^^^^^ definition 0.1.test `sg/inlinestruct`/Processor#Process.
//         kind MethodSpecification
//         display_name Process
//         signature_documentation
//         > func (Processor[T any]).Process(payload T)
//         ^^^^^^^ definition local 1
//                 kind Variable
//                 display_name payload
//                 signature_documentation
//                 > var payload T
//                 ^ reference local 0
   ProcessorType() string
// ^^^^^^^^^^^^^ definition 0.1.test `sg/inlinestruct`/Processor#ProcessorType.
//               kind MethodSpecification
//               display_name ProcessorType
//               signature_documentation
//               > func (Processor[T any]).ProcessorType() string
  }
  
  type Limit int
//     ^^^^^ definition 0.1.test `sg/inlinestruct`/Limit#
//           kind Type
//           display_name Limit
//           signature_documentation
//           > type Limit int
  
  type ProcessImpl struct{}
//     ^^^^^^^^^^^ definition 0.1.test `sg/inlinestruct`/ProcessImpl#
//                 kind Struct
//                 display_name ProcessImpl
//                 signature_documentation
//                 > type ProcessImpl struct{}
  
//⌄ enclosing_range_start 0.1.test `sg/inlinestruct`/ProcessImpl#Process().
  func (p *ProcessImpl) Process(payload Limit) { panic(""not implemented"") }
//      ^ definition local 2
//        kind Variable
//        display_name p
//        signature_documentation
//        > var p *ProcessImpl
//         ^^^^^^^^^^^ reference 0.1.test `sg/inlinestruct`/ProcessImpl#
//                      ^^^^^^^ definition 0.1.test `sg/inlinestruct`/ProcessImpl#Process().
//                              kind Method
//                              display_name Process
//                              signature_documentation
//                              > func (*ProcessImpl).Process(payload Limit)
//                              ^^^^^^^ definition local 3
//                                      kind Variable
//                                      display_name payload
//                                      signature_documentation
//                                      > var payload Limit
//                                      ^^^^^ reference 0.1.test `sg/inlinestruct`/Limit#
//                                                                        ⌃ enclosing_range_end 0.1.test `sg/inlinestruct`/ProcessImpl#Process().
//⌄ enclosing_range_start 0.1.test `sg/inlinestruct`/ProcessImpl#ProcessorType().
  func (p *ProcessImpl) ProcessorType() string { panic(""not implemented"") }
//      ^ definition local 4
//        kind Variable
//        display_name p
//        signature_documentation
//        > var p *ProcessImpl
//         ^^^^^^^^^^^ reference 0.1.test `sg/inlinestruct`/ProcessImpl#
//                      ^^^^^^^^^^^^^ definition 0.1.test `sg/inlinestruct`/ProcessImpl#ProcessorType().
//                                    kind Method
//                                    display_name ProcessorType
//                                    signature_documentation
//                                    > func (*ProcessImpl).ProcessorType() string
//                                                                        ⌃ enclosing_range_end 0.1.test `sg/inlinestruct`/ProcessImpl#ProcessorType().
  
  var _ Processor[Limit] = &ProcessImpl{}
//      ^^^^^^^^^ reference 0.1.test `sg/inlinestruct`/Processor#
//                ^^^^^ reference 0.1.test `sg/inlinestruct`/Limit#
//                          ^^^^^^^^^^^ reference 0.1.test `sg/inlinestruct`/ProcessImpl#
  
");
  ("inlinestruct_interface.go", "  package inlinestruct
//        ^^^^^^^^^^^^ definition 0.1.test `sg/inlinestruct`/
  
  import ""context""
//        ^^^^^^^ reference github.com/golang/go/src go1.22 context/
  
//⌄ enclosing_range_start 0.1.test `sg/inlinestruct`/Target().
  func Target() interface {
//     ^^^^^^ definition 0.1.test `sg/inlinestruct`/Target().
//            kind Function
//            display_name Target
//            signature_documentation
//            > func Target() interface{AbbreviatedOID(context.Context) (string, error); Commit(context.Context) (string, error); OID(context.Context) (int, error); Type(context.Context) (int, error)}
   OID(context.Context) (int, error)
// ^^^ definition 0.1.test `sg/inlinestruct`/func:Target:OID().
//     kind MethodSpecification
//     display_name OID
//     signature_documentation
//     > func (interface).OID(context.Context) (int, error)
//     ^^^^^^^ reference github.com/golang/go/src go1.22 context/
//             ^^^^^^^ reference github.com/golang/go/src go1.22 context/Context#
   AbbreviatedOID(context.Context) (string, error)
// ^^^^^^^^^^^^^^ definition 0.1.test `sg/inlinestruct`/func:Target:AbbreviatedOID().
//                kind MethodSpecification
//                display_name AbbreviatedOID
//                signature_documentation
//                > func (interface).AbbreviatedOID(context.Context) (string, error)
//                ^^^^^^^ reference github.com/golang/go/src go1.22 context/
//                        ^^^^^^^ reference github.com/golang/go/src go1.22 context/Context#
   Commit(context.Context) (string, error)
// ^^^^^^ definition 0.1.test `sg/inlinestruct`/func:Target:Commit().
//        kind MethodSpecification
//        display_name Commit
//        signature_documentation
//        > func (interface).Commit(context.Context) (string, error)
//        ^^^^^^^ reference github.com/golang/go/src go1.22 context/
//                ^^^^^^^ reference github.com/golang/go/src go1.22 context/Context#
   Type(context.Context) (int, error)
// ^^^^ definition 0.1.test `sg/inlinestruct`/func:Target:Type().
//      kind MethodSpecification
//      display_name Type
//      signature_documentation
//      > func (interface).Type(context.Context) (int, error)
//      ^^^^^^^ reference github.com/golang/go/src go1.22 context/
//              ^^^^^^^ reference github.com/golang/go/src go1.22 context/Context#
  } {
   panic(""not implemented"")
  }
//⌃ enclosing_range_end 0.1.test `sg/inlinestruct`/Target().
  
//⌄ enclosing_range_start 0.1.test `sg/inlinestruct`/something().
  func something() {
//     ^^^^^^^^^ definition 0.1.test `sg/inlinestruct`/something().
//               kind Function
//               display_name something
//               signature_documentation
//               > func something()
   x := Target()
// ^ definition local 0
//   kind Variable
//   display_name x
//   signature_documentation
//   > var x interface{AbbreviatedOID(Context) (string, error); Commit(Context) (string, error); OID(Context) (int, error); Type(Context) (int, error)}
//      ^^^^^^ reference 0.1.test `sg/inlinestruct`/Target().
   x.OID(context.Background())
// ^ reference local 0
//   ^^^ reference 0.1.test `sg/inlinestruct`/func:Target:OID().
//       ^^^^^^^ reference github.com/golang/go/src go1.22 context/
//               ^^^^^^^^^^ reference github.com/golang/go/src go1.22 context/Background().
  }
//⌃ enclosing_range_end 0.1.test `sg/inlinestruct`/something().
  
");
  ("inlinestruct_map.go", "  package inlinestruct
//        ^^^^^^^^^^^^ definition 0.1.test `sg/inlinestruct`/
  
  var testHook = func(map[string]string) {}
//    ^^^^^^^^ definition 0.1.test `sg/inlinestruct`/testHook.
//             kind Variable
//             display_name testHook
//             signature_documentation
//             > var testHook func(map[string]string)
  
");
  ("inlinestruct_multivar.go", "  package inlinestruct
//        ^^^^^^^^^^^^ definition 0.1.test `sg/inlinestruct`/
  
  type Params struct{}
//     ^^^^^^ definition 0.1.test `sg/inlinestruct`/Params#
//            kind Struct
//            display_name Params
//            signature_documentation
//            > type Params struct{}
  type HighlightedCode struct{}
//     ^^^^^^^^^^^^^^^ definition 0.1.test `sg/inlinestruct`/HighlightedCode#
//                     kind Struct
//                     display_name HighlightedCode
//                     signature_documentation
//                     > type HighlightedCode struct{}
  
  var Mocks, emptyMocks struct {
//    ^^^^^ definition 0.1.test `sg/inlinestruct`/Mocks.
//          kind Variable
//          display_name Mocks
//          signature_documentation
//          > var Mocks struct{Code func(p Params) (response *HighlightedCode, aborted bool, err error)}
//           ^^^^^^^^^^ definition 0.1.test `sg/inlinestruct`/emptyMocks.
//                      kind Variable
//                      display_name emptyMocks
//                      signature_documentation
//                      > var emptyMocks struct{Code func(p Params) (response *HighlightedCode, aborted bool, err error)}
   Code func(p Params) (response *HighlightedCode, aborted bool, err error)
// ^^^^ definition 0.1.test `sg/inlinestruct`/inline-6-5:Code.
//      kind Field
//      display_name Code
//      signature_documentation
//      > struct field Code func(p Params) (response *HighlightedCode, aborted bool, err error)
//           ^ definition local 0
//             kind Variable
//             display_name p
//             signature_documentation
//             > var p Params
//             ^^^^^^ reference 0.1.test `sg/inlinestruct`/Params#
//                      ^^^^^^^^ definition local 1
//                               kind Variable
//                               display_name response
//                               signature_documentation
//                               > var response *HighlightedCode
//                                ^^^^^^^^^^^^^^^ reference 0.1.test `sg/inlinestruct`/HighlightedCode#
//                                                 ^^^^^^^ definition local 2
//                                                         kind Variable
//                                                         display_name aborted
//                                                         signature_documentation
//                                                         > var aborted bool
//                                                               ^^^ definition local 3
//                                                                   kind Variable
//                                                                   display_name err
//                                                                   signature_documentation
//                                                                   > var err error
  }
  
  var MocksSingle struct {
//    ^^^^^^^^^^^ definition 0.1.test `sg/inlinestruct`/MocksSingle.
//                kind Variable
//                display_name MocksSingle
//                signature_documentation
//                > var MocksSingle struct{Code func(p Params) (response *HighlightedCode, aborted bool, err error)}
   Code func(p Params) (response *HighlightedCode, aborted bool, err error)
// ^^^^ definition 0.1.test `sg/inlinestruct`/MocksSingle:Code.
//      kind Field
//      display_name Code
//      signature_documentation
//      > struct field Code func(p Params) (response *HighlightedCode, aborted bool, err error)
//           ^ definition local 4
//             kind Variable
//             display_name p
//             signature_documentation
//             > var p Params
//             ^^^^^^ reference 0.1.test `sg/inlinestruct`/Params#
//                      ^^^^^^^^ definition local 5
//                               kind Variable
//                               display_name response
//                               signature_documentation
//                               > var response *HighlightedCode
//                                ^^^^^^^^^^^^^^^ reference 0.1.test `sg/inlinestruct`/HighlightedCode#
//                                                 ^^^^^^^ definition local 6
//                                                         kind Variable
//                                                         display_name aborted
//                                                         signature_documentation
//                                                         > var aborted bool
//                                                               ^^^ definition local 7
//                                                                   kind Variable
//                                                                   display_name err
//                                                                   signature_documentation
//                                                                   > var err error
  }
  
  var (
   okReply   interface{} = ""OK""
// ^^^^^^^ definition 0.1.test `sg/inlinestruct`/okReply.
//         kind Variable
//         display_name okReply
//         signature_documentation
//         > var okReply interface{}
   pongReply interface{} = ""PONG""
// ^^^^^^^^^ definition 0.1.test `sg/inlinestruct`/pongReply.
//           kind Variable
//           display_name pongReply
//           signature_documentation
//           > var pongReply interface{}
  )
  
")].

(** The model, run on the input directory, gives the golden files of /repo. *)
Example snapshot_inlinestruct : snapshot input = Some golden.
Proof. vm_compute. reflexivity. Qed.
(** The directory meets the hypotheses of the theorems (Contract.scopes_contract_ok). *)
Example snapshot_inlinestruct_contract : contract input = true ∧ scopesb input = true.
Proof. split; vm_compute; reflexivity. Qed.
