(** Generated by tools/snapshot/emit.py from /repo/internal/testdata/snapshots/{input,output}/generallyeric: what packages.Load
    returns for that directory (syntax, types, modules; dependencies reduced to the declarations used), and the golden output. *)
From Coq Require Import Ascii String.
From stdpp Require Import prelude strings gmap.
From Verif Require Import GoStr Scip GoTypes Ast Packages Source Signature Snapshot Contract.
Open Scope string_scope.
Open Scope list_scope.
Definition k0 : tpkg := TPkg "io" [SEntry "Writer" true (TNamed (TName 47 (Some "io") "Writer") [])].
Definition o47 : obj := Obj 47 "Writer" (Some k0) 10000322 OTypeName (TNamed (TName 47 (Some "io") "Writer") []) None.
Definition o48 : obj := Obj 48 "Write" (Some k0) 10000341 (OFunc (Some (Some (TNamed (TName 47 (Some "io") "Writer") [])))) (TSig [(TSlice (TBasic BUint8 true))] [(TBasic BInt false); (TNamed (TName 21 None "error") [])] false) None.
Definition k1 : tpkg := TPkg "fmt" [SEntry "Fprint" false (TBasic BInvalid false); SEntry "Print" false (TBasic BInvalid false); SEntry "Printf" false (TBasic BInvalid false); SEntry "Println" false (TBasic BInvalid false); SEntry "Sprintf" false (TBasic BInvalid false); SEntry "Stringer" true (TNamed (TName 53 (Some "fmt") "Stringer") [])].
Definition o58 : obj := Obj 58 "Fprint" (Some k1) 10000256 (OFunc (Some None)) (TSig [(TNamed (TName 47 (Some "io") "Writer") []); (TSlice (TAlias (TName 20 None "any") (TInterface [] "")))] [(TBasic BInt false); (TNamed (TName 21 None "error") [])] true) None.
Definition o54 : obj := Obj 54 "Print" (Some k1) 10000073 (OFunc (Some None)) (TSig [(TSlice (TAlias (TName 20 None "any") (TInterface [] "")))] [(TBasic BInt false); (TNamed (TName 21 None "error") [])] true) None.
Definition o56 : obj := Obj 56 "Printf" (Some k1) 10000155 (OFunc (Some None)) (TSig [(TBasic BString false); (TSlice (TAlias (TName 20 None "any") (TInterface [] "")))] [(TBasic BInt false); (TNamed (TName 21 None "error") [])] true) None.
Definition o55 : obj := Obj 55 "Println" (Some k1) 10000113 (OFunc (Some None)) (TSig [(TSlice (TAlias (TName 20 None "any") (TInterface [] "")))] [(TBasic BInt false); (TNamed (TName 21 None "error") [])] true) None.
Definition o57 : obj := Obj 57 "Sprintf" (Some k1) 10000211 (OFunc (Some None)) (TSig [(TBasic BString false); (TSlice (TAlias (TName 20 None "any") (TInterface [] "")))] [(TBasic BString false)] true) None.
Definition o53 : obj := Obj 53 "Stringer" (Some k1) 10000029 OTypeName (TNamed (TName 53 (Some "fmt") "Stringer") []) None.
Definition o59 : obj := Obj 59 "String" (Some k1) 10000050 (OFunc (Some (Some (TNamed (TName 53 (Some "fmt") "Stringer") [])))) (TSig [] [(TBasic BString false)] false) None.
(* generallyeric/generallyeric.go *)
Definition f3_0 : node := (NFile 39 true "generallyeric -> generic for short
" (Ident 1 "generallyeric" 47)
  [(NGenDecl 62 IMPORT "" [(NImportSpec 2 None 69 """fmt""")]);
   (NFuncDecl "" 76 145 None (Ident 3 "Print" 81) (NFuncType 76 (NFieldList [(NField "" "" [(Ident 4 "T" 87)] (NIdent (Ident 5 "any" 89)))]) (NFieldList [(NField "" "" [(Ident 6 "s" 94)] (NArrayType 96 None (NIdent (Ident 7 "T" 98))))]) (NFieldList [])) (Some (NBlockStmt 101 [(NOther 104 [(NIdent (Ident 8 "_" 108)); (NIdent (Ident 9 "v" 111)); (NIdent (Ident 10 "s" 122)); (NBlockStmt 124 [(NOther 128 [(NOther 128 [(NSelectorExpr (NIdent (Ident 11 "fmt" 128)) (Ident 12 "Print" 132)); (NIdent (Ident 13 "v" 138))])])])])])))]).
(* generallyeric/new_operators.go *)
Definition f3_1 : node := (NFile 147 false "" (Ident 14 "generallyeric" 155)
  [(NGenDecl 170 TYPE "" [(NTypeSpec "" (Ident 15 "Number" 175) (NFieldList []) (NInterfaceType 16 182 (NFieldList [(NField "" "" [] (NBinaryExpr (NBinaryExpr (NBinaryExpr (NBinaryExpr (NBinaryExpr (NBinaryExpr (NUnaryExpr 195 (NIdent (Ident 17 "int" 196))) (NUnaryExpr 202 (NIdent (Ident 18 "int8" 203)))) (NUnaryExpr 210 (NIdent (Ident 19 "int16" 211)))) (NUnaryExpr 219 (NIdent (Ident 20 "int32" 220)))) (NUnaryExpr 228 (NIdent (Ident 21 "int64" 229)))) (NUnaryExpr 239 (NIdent (Ident 22 "float32" 240)))) (NUnaryExpr 250 (NIdent (Ident 23 "float64" 251)))))])))]);
   (NFuncDecl "" 262 316 None (Ident 24 "Double" 267) (NFuncType 262 (NFieldList [(NField "" "" [(Ident 25 "T" 274)] (NIdent (Ident 26 "Number" 276)))]) (NFieldList [(NField "" "" [(Ident 27 "value" 284)] (NIdent (Ident 28 "T" 290)))]) (NFieldList [(NField "" "" [] (NIdent (Ident 29 "T" 293)))])) (Some (NBlockStmt 295 [(NOther 298 [(NBinaryExpr (NIdent (Ident 30 "value" 305)) (NOther 313 []))])])));
   (NGenDecl 318 TYPE "" [(NTypeSpec "" (Ident 31 "Box" 323) (NFieldList [(NField "" "" [(Ident 32 "T" 327)] (NIdent (Ident 33 "any" 329)))]) (NStructType 34 334 (NFieldList [(NField "" "" [(Ident 35 "Something" 344)] (NIdent (Ident 36 "T" 354)))])))]);
   (NGenDecl 359 TYPE "" [(NTypeSpec "" (Ident 37 "handler" 364) (NFieldList [(NField "" "" [(Ident 38 "T" 372)] (NIdent (Ident 39 "any" 374)))]) (NStructType 40 379 (NFieldList [(NField "" "" [] (NIndexExpr (NIdent (Ident 41 "Box" 389)) (NIdent (Ident 42 "T" 393)))); (NField "" "" [(Ident 43 "Another" 397)] (NIdent (Ident 44 "string" 405)))])))])]).
(* generallyeric/person.go *)
Definition f3_2 : node := (NFile 415 false "" (Ident 45 "generallyeric" 423)
  [(NGenDecl 438 IMPORT "" [(NImportSpec 46 None 445 """fmt""")]);
   (NGenDecl 452 TYPE "" [(NTypeSpec "" (Ident 47 "Person" 457) (NFieldList []) (NInterfaceType 48 464 (NFieldList [(NField "" "" [(Ident 49 "Work" 477)] (NFuncType 481 (NFieldList []) (NFieldList []) (NFieldList [])))])))]);
   (NGenDecl 487 TYPE "" [(NTypeSpec "" (Ident 50 "worker" 492) (NFieldList []) (NIdent (Ident 51 "string" 499)))]);
   (NFuncDecl "" 507 567 (Some (NFieldList [(NField "" "" [(Ident 52 "w" 513)] (NIdent (Ident 53 "worker" 515)))])) (Ident 54 "Work" 523) (NFuncType 507 (NFieldList []) (NFieldList []) (NFieldList [])) (Some (NBlockStmt 530 [(NOther 533 [(NOther 533 [(NSelectorExpr (NIdent (Ident 55 "fmt" 533)) (Ident 56 "Printf" 537)); (NIdent (Ident 57 "w" 563))])])])));
   (NFuncDecl "" 569 648 None (Ident 58 "DoWork" 574) (NFuncType 569 (NFieldList [(NField "" "" [(Ident 59 "T" 581)] (NIdent (Ident 60 "Person" 583)))]) (NFieldList [(NField "" "" [(Ident 61 "things" 591)] (NArrayType 598 None (NIdent (Ident 62 "T" 600))))]) (NFieldList [])) (Some (NBlockStmt 603 [(NOther 606 [(NIdent (Ident 63 "_" 610)); (NIdent (Ident 64 "v" 613)); (NIdent (Ident 65 "things" 624)); (NBlockStmt 631 [(NOther 635 [(NOther 635 [(NSelectorExpr (NIdent (Ident 66 "v" 635)) (Ident 67 "Work" 637))])])])])])));
   (NFuncDecl "" 650 739 None (Ident 68 "main" 655) (NFuncType 650 (NFieldList []) (NFieldList []) (NFieldList [])) (Some (NBlockStmt 662 [(NOther 665 [(NGenDecl 665 VAR "" [(NValueSpec "" "" [(Ident 69 "a" 669); (Ident 70 "b" 672); (Ident 71 "c" 675)] (Some (NIdent (Ident 72 "worker" 677))) [])])]); (NOther 685 [(NIdent (Ident 73 "a" 685))]); (NOther 694 [(NIdent (Ident 74 "b" 694))]); (NOther 703 [(NIdent (Ident 75 "c" 703))]); (NOther 712 [(NOther 712 [(NIdent (Ident 76 "DoWork" 712)); (NOther 719 [(NArrayType 719 None (NIdent (Ident 77 "worker" 721))); (NIdent (Ident 78 "a" 728)); (NIdent (Ident 79 "b" 731)); (NIdent (Ident 80 "c" 734))])])])])))]).
Definition k2 : tpkg := TPkg "sg/generallyeric" [SEntry "Box" true (TNamed (TName 82 (Some "sg/generallyeric") "Box") []); SEntry "DoWork" false (TBasic BInvalid false); SEntry "Double" false (TBasic BInvalid false); SEntry "Number" true (TNamed (TName 80 (Some "sg/generallyeric") "Number") []); SEntry "Person" true (TNamed (TName 85 (Some "sg/generallyeric") "Person") []); SEntry "Print" false (TBasic BInvalid false); SEntry "handler" true (TNamed (TName 83 (Some "sg/generallyeric") "handler") []); SEntry "main" false (TBasic BInvalid false); SEntry "worker" true (TNamed (TName 86 (Some "sg/generallyeric") "worker") [])].
Definition o79 : obj := Obj 79 "Print" (Some k2) 81 (OFunc (Some None)) (TSig [(TSlice (TTypeParam (TName 90 (Some "sg/generallyeric") "T") 0))] [] false) None.
Definition o80 : obj := Obj 80 "Number" (Some k2) 175 OTypeName (TNamed (TName 80 (Some "sg/generallyeric") "Number") []) None.
Definition o81 : obj := Obj 81 "Double" (Some k2) 267 (OFunc (Some None)) (TSig [(TTypeParam (TName 92 (Some "sg/generallyeric") "T") 0)] [(TTypeParam (TName 92 (Some "sg/generallyeric") "T") 0)] false) None.
Definition o82 : obj := Obj 82 "Box" (Some k2) 323 OTypeName (TNamed (TName 82 (Some "sg/generallyeric") "Box") []) None.
Definition o83 : obj := Obj 83 "handler" (Some k2) 364 OTypeName (TNamed (TName 83 (Some "sg/generallyeric") "handler") []) None.
Definition o85 : obj := Obj 85 "Person" (Some k2) 457 OTypeName (TNamed (TName 85 (Some "sg/generallyeric") "Person") []) None.
Definition o86 : obj := Obj 86 "worker" (Some k2) 492 OTypeName (TNamed (TName 86 (Some "sg/generallyeric") "worker") []) None.
Definition o87 : obj := Obj 87 "Work" (Some k2) 523 (OFunc (Some (Some (TNamed (TName 86 (Some "sg/generallyeric") "worker") [])))) (TSig [] [] false) None.
Definition o88 : obj := Obj 88 "DoWork" (Some k2) 574 (OFunc (Some None)) (TSig [(TSlice (TTypeParam (TName 102 (Some "sg/generallyeric") "T") 0))] [] false) None.
Definition o89 : obj := Obj 89 "main" (Some k2) 655 (OFunc (Some None)) (TSig [] [] false) None.
Definition o90 : obj := Obj 90 "T" (Some k2) 87 OTypeName (TTypeParam (TName 90 (Some "sg/generallyeric") "T") 0) None.
Definition o91 : obj := Obj 91 "s" (Some k2) 94 (OVar false) (TSlice (TTypeParam (TName 90 (Some "sg/generallyeric") "T") 0)) None.
Definition o92 : obj := Obj 92 "T" (Some k2) 274 OTypeName (TTypeParam (TName 92 (Some "sg/generallyeric") "T") 0) None.
Definition o93 : obj := Obj 93 "value" (Some k2) 284 (OVar false) (TTypeParam (TName 92 (Some "sg/generallyeric") "T") 0) None.
Definition o95 : obj := Obj 95 "T" (Some k2) 327 OTypeName (TTypeParam (TName 95 (Some "sg/generallyeric") "T") 0) None.
Definition o96 : obj := Obj 96 "Something" (Some k2) 344 (OVar true) (TTypeParam (TName 95 (Some "sg/generallyeric") "T") 0) None.
Definition o97 : obj := Obj 97 "T" (Some k2) 372 OTypeName (TTypeParam (TName 97 (Some "sg/generallyeric") "T") 0) None.
Definition o98 : obj := Obj 98 "Box" (Some k2) 389 (OVar true) (TNamed (TName 82 (Some "sg/generallyeric") "Box") [(TTypeParam (TName 97 (Some "sg/generallyeric") "T") 0)]) None.
Definition o99 : obj := Obj 99 "Another" (Some k2) 397 (OVar true) (TBasic BString false) None.
Definition o100 : obj := Obj 100 "Work" (Some k2) 477 (OFunc (Some (Some (TNamed (TName 85 (Some "sg/generallyeric") "Person") [])))) (TSig [] [] false) None.
Definition o101 : obj := Obj 101 "w" (Some k2) 513 (OVar false) (TNamed (TName 86 (Some "sg/generallyeric") "worker") []) None.
Definition o102 : obj := Obj 102 "T" (Some k2) 581 OTypeName (TTypeParam (TName 102 (Some "sg/generallyeric") "T") 0) None.
Definition o103 : obj := Obj 103 "things" (Some k2) 591 (OVar false) (TSlice (TTypeParam (TName 102 (Some "sg/generallyeric") "T") 0)) None.
Definition o104 : obj := Obj 104 "_" (Some k2) 108 (OVar false) (TBasic BInt false) None.
Definition o105 : obj := Obj 105 "v" (Some k2) 111 (OVar false) (TTypeParam (TName 90 (Some "sg/generallyeric") "T") 0) None.
Definition o106 : obj := Obj 106 "_" (Some k2) 610 (OVar false) (TBasic BInt false) None.
Definition o107 : obj := Obj 107 "v" (Some k2) 613 (OVar false) (TTypeParam (TName 102 (Some "sg/generallyeric") "T") 0) None.
Definition o108 : obj := Obj 108 "a" (Some k2) 669 (OVar false) (TNamed (TName 86 (Some "sg/generallyeric") "worker") []) None.
Definition o109 : obj := Obj 109 "b" (Some k2) 672 (OVar false) (TNamed (TName 86 (Some "sg/generallyeric") "worker") []) None.
Definition o110 : obj := Obj 110 "c" (Some k2) 675 (OVar false) (TNamed (TName 86 (Some "sg/generallyeric") "worker") []) None.
Definition o20 : obj := Obj 20 "any" None 0 OTypeName (TAlias (TName 20 None "any") (TInterface [] "")) None.
Definition o2 : obj := Obj 2 "int" None 0 OTypeName (TBasic BInt false) None.
Definition o3 : obj := Obj 3 "int8" None 0 OTypeName (TBasic BInt8 false) None.
Definition o4 : obj := Obj 4 "int16" None 0 OTypeName (TBasic BInt16 false) None.
Definition o5 : obj := Obj 5 "int32" None 0 OTypeName (TBasic BInt32 false) None.
Definition o6 : obj := Obj 6 "int64" None 0 OTypeName (TBasic BInt64 false) None.
Definition o13 : obj := Obj 13 "float32" None 0 OTypeName (TBasic BFloat32 false) None.
Definition o14 : obj := Obj 14 "float64" None 0 OTypeName (TBasic BFloat64 false) None.
Definition o17 : obj := Obj 17 "string" None 0 OTypeName (TBasic BString false) None.
Definition o78 : obj := Obj 78 "fmt" (Some k2) 69 (OPkgName "fmt") (TBasic BInvalid false) None.
Definition o84 : obj := Obj 84 "fmt" (Some k2) 445 (OPkgName "fmt") (TBasic BInvalid false) None.
Definition defs3 : list (nat * obj) := [(3, o79); (15, o80); (24, o81); (31, o82); (37, o83); (47, o85); (50, o86); (54, o87); (58, o88); (68, o89); (4, o90); (6, o91); (25, o92); (27, o93); (32, o95); (35, o96); (38, o97); (41, o98); (43, o99); (49, o100); (52, o101); (59, o102); (61, o103); (8, o104); (9, o105); (63, o106); (64, o107); (69, o108); (70, o109); (71, o110)].
Definition uses3 : list (nat * obj) := [(5, o20); (7, o90); (17, o2); (18, o3); (19, o4); (20, o5); (21, o6); (22, o13); (23, o14); (26, o80); (28, o92); (29, o92); (33, o20); (36, o95); (39, o20); (41, o82); (42, o97); (44, o17); (51, o17); (53, o86); (60, o85); (62, o102); (10, o91); (11, o78); (12, o54); (13, o105); (30, o93); (55, o84); (56, o56); (57, o101); (65, o103); (66, o107); (67, o100); (72, o86); (73, o108); (74, o109); (75, o110); (76, o88); (77, o86); (78, o108); (79, o109); (80, o110)].
Definition canon3 : list (nat * hty) := [(16, (HInterface false [] [(HUnion [(true, (HBasic "int")); (true, (HBasic "int8")); (true, (HBasic "int16")); (true, (HBasic "int32")); (true, (HBasic "int64")); (true, (HBasic "float32")); (true, (HBasic "float64"))])])); (34, (HStruct [("Something", false, "", (HTypeParam "T"))])); (40, (HStruct [("Box", true, "", (HNamed (HName (Some (HPkg "sg/generallyeric" "generallyeric")) "Box") [(HTypeParam "T")] [])); ("Another", false, "", (HBasic "string"))])); (48, (HInterface false [("Work", (HSig [] [] [] false))] []))].
Definition pkgnames3 : list (nat * obj) := [(2, o78); (46, o84)].
Definition cases3 : list obj := [].
Definition o22 : obj := Obj 22 "Error" None 0 (OFunc (Some (Some (TNamed (TName 21 None "error") [])))) (TSig [] [(TBasic BString false)] false) None.
Definition hobjs : list (nat * hobj) := [(79, HObj "Print" (Some (HPkg "sg/generallyeric" "generallyeric")) true (HFunc None (HSig [(["T"], HAny)] [("s", (HSlice (HTypeParam "T")))] [] false)));
  (80, HObj "Number" (Some (HPkg "sg/generallyeric" "generallyeric")) true (HTypeName (DDefined [] (HInterface false [] [(HUnion [(true, (HBasic "int")); (true, (HBasic "int8")); (true, (HBasic "int16")); (true, (HBasic "int32")); (true, (HBasic "int64")); (true, (HBasic "float32")); (true, (HBasic "float64"))])]))));
  (81, HObj "Double" (Some (HPkg "sg/generallyeric" "generallyeric")) true (HFunc None (HSig [(["T"], (HNamed (HName (Some (HPkg "sg/generallyeric" "generallyeric")) "Number") [] []))] [("value", (HTypeParam "T"))] [("", (HTypeParam "T"))] false)));
  (82, HObj "Box" (Some (HPkg "sg/generallyeric" "generallyeric")) true (HTypeName (DDefined [(["T"], HAny)] (HStruct [("Something", false, "", (HTypeParam "T"))]))));
  (83, HObj "handler" (Some (HPkg "sg/generallyeric" "generallyeric")) true (HTypeName (DDefined [(["T"], HAny)] (HStruct [("Box", true, "", (HNamed (HName (Some (HPkg "sg/generallyeric" "generallyeric")) "Box") [(HTypeParam "T")] [])); ("Another", false, "", (HBasic "string"))]))));
  (85, HObj "Person" (Some (HPkg "sg/generallyeric" "generallyeric")) true (HTypeName (DDefined [] (HInterface false [("Work", (HSig [] [] [] false))] []))));
  (86, HObj "worker" (Some (HPkg "sg/generallyeric" "generallyeric")) true (HTypeName (DDefined [] (HBasic "string"))));
  (87, HObj "Work" (Some (HPkg "sg/generallyeric" "generallyeric")) false (HFunc (Some (HNamed (HName (Some (HPkg "sg/generallyeric" "generallyeric")) "worker") [] [])) (HSig [] [] [] false)));
  (88, HObj "DoWork" (Some (HPkg "sg/generallyeric" "generallyeric")) true (HFunc None (HSig [(["T"], (HNamed (HName (Some (HPkg "sg/generallyeric" "generallyeric")) "Person") [] []))] [("things", (HSlice (HTypeParam "T")))] [] false)));
  (89, HObj "main" (Some (HPkg "sg/generallyeric" "generallyeric")) true (HFunc None (HSig [] [] [] false)));
  (90, HObj "T" (Some (HPkg "sg/generallyeric" "generallyeric")) false (HTypeName (DTypeParam HAny HAny)));
  (91, HObj "s" (Some (HPkg "sg/generallyeric" "generallyeric")) false (HVar false (HSlice (HTypeParam "T"))));
  (92, HObj "T" (Some (HPkg "sg/generallyeric" "generallyeric")) false (HTypeName (DTypeParam (HNamed (HName (Some (HPkg "sg/generallyeric" "generallyeric")) "Number") [] []) (HInterface false [] [(HUnion [(true, (HBasic "int")); (true, (HBasic "int8")); (true, (HBasic "int16")); (true, (HBasic "int32")); (true, (HBasic "int64")); (true, (HBasic "float32")); (true, (HBasic "float64"))])]))));
  (93, HObj "value" (Some (HPkg "sg/generallyeric" "generallyeric")) false (HVar false (HTypeParam "T")));
  (95, HObj "T" (Some (HPkg "sg/generallyeric" "generallyeric")) false (HTypeName (DTypeParam HAny HAny)));
  (96, HObj "Something" (Some (HPkg "sg/generallyeric" "generallyeric")) false (HVar true (HTypeParam "T")));
  (97, HObj "T" (Some (HPkg "sg/generallyeric" "generallyeric")) false (HTypeName (DTypeParam HAny HAny)));
  (98, HObj "Box" (Some (HPkg "sg/generallyeric" "generallyeric")) false (HVar true (HNamed (HName (Some (HPkg "sg/generallyeric" "generallyeric")) "Box") [(HTypeParam "T")] [])));
  (99, HObj "Another" (Some (HPkg "sg/generallyeric" "generallyeric")) false (HVar true (HBasic "string")));
  (100, HObj "Work" (Some (HPkg "sg/generallyeric" "generallyeric")) false (HFunc (Some (HNamed (HName (Some (HPkg "sg/generallyeric" "generallyeric")) "Person") [] [])) (HSig [] [] [] false)));
  (101, HObj "w" (Some (HPkg "sg/generallyeric" "generallyeric")) false (HVar false (HNamed (HName (Some (HPkg "sg/generallyeric" "generallyeric")) "worker") [] [])));
  (102, HObj "T" (Some (HPkg "sg/generallyeric" "generallyeric")) false (HTypeName (DTypeParam (HNamed (HName (Some (HPkg "sg/generallyeric" "generallyeric")) "Person") [] []) (HInterface false [("Work", (HSig [] [] [] false))] []))));
  (103, HObj "things" (Some (HPkg "sg/generallyeric" "generallyeric")) false (HVar false (HSlice (HTypeParam "T"))));
  (104, HObj "_" (Some (HPkg "sg/generallyeric" "generallyeric")) false (HVar false (HBasic "int")));
  (105, HObj "v" (Some (HPkg "sg/generallyeric" "generallyeric")) false (HVar false (HTypeParam "T")));
  (106, HObj "_" (Some (HPkg "sg/generallyeric" "generallyeric")) false (HVar false (HBasic "int")));
  (107, HObj "v" (Some (HPkg "sg/generallyeric" "generallyeric")) false (HVar false (HTypeParam "T")));
  (108, HObj "a" (Some (HPkg "sg/generallyeric" "generallyeric")) false (HVar false (HNamed (HName (Some (HPkg "sg/generallyeric" "generallyeric")) "worker") [] [])));
  (109, HObj "b" (Some (HPkg "sg/generallyeric" "generallyeric")) false (HVar false (HNamed (HName (Some (HPkg "sg/generallyeric" "generallyeric")) "worker") [] [])));
  (110, HObj "c" (Some (HPkg "sg/generallyeric" "generallyeric")) false (HVar false (HNamed (HName (Some (HPkg "sg/generallyeric" "generallyeric")) "worker") [] [])))].
Definition unders : list (nat * ty) := [(47, (TInterface [("Write", (TSig [(TSlice (TBasic BUint8 true))] [(TBasic BInt false); (TNamed (TName 21 None "error") [])] false))] ""));
  (21, (TInterface [("Error", (TSig [] [(TBasic BString false)] false))] ""));
  (53, (TInterface [("String", (TSig [] [(TBasic BString false)] false))] ""));
  (82, (TStruct [(FHdr 96 "Something" (Some "sg/generallyeric") false "", (TTypeParam (TName 95 (Some "sg/generallyeric") "T") 0))]));
  (80, (TInterface [] "~int | ~int8 | ~int16 | ~int32 | ~int64 | ~float32 | ~float64"));
  (85, (TInterface [("Work", (TSig [] [] false))] ""));
  (83, (TStruct [(FHdr 98 "Box" (Some "sg/generallyeric") true "", (TNamed (TName 82 (Some "sg/generallyeric") "Box") [(TTypeParam (TName 97 (Some "sg/generallyeric") "T") 0)])); (FHdr 99 "Another" (Some "sg/generallyeric") false "", (TBasic BString false))]));
  (86, (TBasic BString false))].
Definition msets : list (nat * (list obj * list obj)) := [(47, ([o48], []));
  (53, ([o59], []));
  (80, ([], []));
  (82, ([], []));
  (83, ([], []));
  (85, ([o100], []));
  (86, ([o87], [o87]));
  (21, ([o22], []))].
Definition digests : list (string * string) := [("interface{~int | ~int8 | ~int16 | ~int32 | ~int64 | ~float32 | ~float64}", "54cb455dca65fa49");
  ("struct{Something T}", "69ba7167a316879f");
  ("struct{sg/generallyeric.Box[T]; Another string}", "5f00beb10b6c5855");
  ("interface{Work()}", "211a912ed1cca74e")].
Definition formatted : list (string * string) := [("package p

type _ interface{~int | ~int8 | ~int16 | ~int32 | ~int64 | ~float32 | ~float64}
", "package p

type _ interface {
	~int | ~int8 | ~int16 | ~int32 | ~int64 | ~float32 | ~float64
}
");
  ("package p

type _ struct{Something T}
", "package p

type _ struct{ Something T }
");
  ("package p

type _ struct{Box[T]; Another string}
", "package p

type _ struct {
	Box[T]
	Another string
}
");
  ("package p

type _ interface{Work()}
", "package p

type _ interface{ Work() }
")].
Definition sources : list src := [Src "/repo/internal/testdata/snapshots/input/generallyeric/generallyeric.go" 1 "// generallyeric -> generic for short
package generallyeric

import ""fmt""

func Print[T any](s []T) {
	for _, v := range s {
		fmt.Print(v)
	}
}
" [];
  Src "/repo/internal/testdata/snapshots/input/generallyeric/new_operators.go" 147 "package generallyeric

type Number interface {
	~int | ~int8 | ~int16 | ~int32 | ~int64 |
		~float32 | ~float64
}

func Double[T Number](value T) T {
	return value * 2
}

type Box[T any] struct {
	Something T
}

type handler[T any] struct {
	Box[T]
	Another string
}
" [];
  Src "/repo/internal/testdata/snapshots/input/generallyeric/person.go" 415 "package generallyeric

import ""fmt""

type Person interface {
	Work()
}

type worker string

func (w worker) Work() {
	fmt.Printf(""%s is working\n"", w)
}

func DoWork[T Person](things []T) {
	for _, v := range things {
		v.Work()
	}
}

func main() {
	var a, b, c worker
	a = ""A""
	b = ""B""
	c = ""C""
	DoWork([]worker{a, b, c})
}
" []].
Definition gomods : list (string * string) := [].
Definition p1 : gpkg * option raw := (GPkg 1 "io" "io" None [] [] (Some k0) None, None).
Definition p2 : gpkg * option raw := (GPkg 2 "fmt" "fmt" None [("io", 1)] [] (Some k1) None, None).
Definition p3 : gpkg * option raw := (GPkg 3 "sg/generallyeric" "generallyeric" (Some (GMod "sg/generallyeric" "" "/repo/internal/testdata/snapshots/input/generallyeric" "/repo/internal/testdata/snapshots/input/generallyeric/go.mod" None)) [("fmt", 2)] [f3_0; f3_1; f3_2] (Some k2) None, (Some (Raw defs3 uses3 pkgnames3 cases3 canon3))).
Definition packages : list (gpkg * option raw) := [p1; p2; p3].
Definition roots : list nat := [3].
Definition scopes : list (nat * list obj) := [(1, [o47]); (2, [o58; o54; o56; o55; o57; o53])].
Definition levels : list nat := [80; 82; 83; 85; 86].
Definition input : input := Input "/repo/internal/testdata/snapshots/input/generallyeric" "sg/generallyeric" false sources packages roots gomods digests formatted hobjs unders msets scopes levels.
Definition golden : list (string * string) := [("generallyeric.go", "  // generallyeric -> generic for short
  package generallyeric
//        ^^^^^^^^^^^^^ definition 0.1.test `sg/generallyeric`/
//                      kind Package
//                      display_name generallyeric
//                      signature_documentation
//                      > package generallyeric
//                      documentation
//                      > generallyeric -> generic for short
  
  import ""fmt""
//        ^^^ reference github.com/golang/go/src go1.22 fmt/
  
//⌄ enclosing_range_start 0.1.test `sg/generallyeric`/Print().
  func Print[T any](s []T) {
//     ^^^^^ definition 0.1.test `sg/generallyeric`/Print().
//           kind Function
//           display_name Print
//           signature_documentation
//           > func Print[T any](s []T)
//           ^ definition local 0
//             kind Interface
//             display_name T
//             signature_documentation
//             > type parameter T any
//                  ^ definition local 1
//                    kind Variable
//                    display_name s
//                    signature_documentation
//                    > var s []T
//                      ^ reference local 0
   for _, v := range s {
//        ^ definition local 2
//          kind Variable
//          display_name v
//          signature_documentation
//          > var v T
//                   ^ reference local 1
    fmt.Print(v)
//  ^^^ reference github.com/golang/go/src go1.22 fmt/
//      ^^^^^ reference github.com/golang/go/src go1.22 fmt/Print().
//            ^ reference local 2
   }
  }
//⌃ enclosing_range_end 0.1.test `sg/generallyeric`/Print().
  
");
  ("new_operators.go", "  package generallyeric
//        ^^^^^^^^^^^^^ definition 0.1.test `sg/generallyeric`/
  
  type Number interface {
//     ^^^^^^ definition 0.1.test `sg/generallyeric`/Number#
//            kind Interface
//            display_name Number
//            signature_documentation
//            > type Number interface {
//            >     ~int | ~int8 | ~int16 | ~int32 | ~int64 | ~float32 | ~float64
//            > }
   ~int | ~int8 | ~int16 | ~int32 | ~int64 |
    ~float32 | ~float64
  }
  
//⌄ enclosing_range_start 0.1.test `sg/generallyeric`/Double().
  func Double[T Number](value T) T {
//     ^^^^^^ definition 0.1.test `sg/generallyeric`/Double().
//            kind Function
//            display_name Double
//            signature_documentation
//            > func Double[T Number](value T) T
//            ^ definition local 0
//              kind Interface
//              display_name T
//              signature_documentation
//              > type parameter T Number
//              ^^^^^^ reference 0.1.test `sg/generallyeric`/Number#
//                      ^^^^^ definition local 1
//                            kind Variable
//                            display_name value
//                            signature_documentation
//                            > var value T
//                            ^ reference local 0
//                               ^ reference local 0
   return value * 2
//        ^^^^^ reference local 1
  }
//⌃ enclosing_range_end 0.1.test `sg/generallyeric`/Double().
  
  type Box[T any] struct {
//     ^^^ definition 0.1.test `sg/generallyeric`/Box#
//         kind Struct
//         display_name Box
//         signature_documentation
//         > type Box struct{ Something T }
//         ^ definition local 2
//           kind Interface
//           display_name T
//           signature_documentation
//           > type parameter T any
   Something T
// ^^^^^^^^^ definition 0.1.test `sg/generallyeric`/Box#Something.
//           kind Field
//           display_name Something
//           signature_documentation
//           > struct field Something T
//           ^ reference local 2
  }
  
  type handler[T any] struct {
//     ^^^^^^^ definition 0.1.test `sg/generallyeric`/handler#
//             kind Struct
//             display_name handler
//             signature_documentation
//             > type handler struct {
//             >     Box[T]
//             >     Another string
//             > }
//             ^ definition local 3
//               kind Interface
//               display_name T
//               signature_documentation
//               > type parameter T any
   Box[T]
// ^^^ definition 0.1.test `sg/generallyeric`/handler#Box.
//     kind Field
//     display_name Box
//     signature_documentation
//     > struct field Box Box[T]
// ^^^ reference 0.1.test `sg/generallyeric`/Box#
//     ^ reference local 3
   Another string
// ^^^^^^^ definition 0.1.test `sg/generallyeric`/handler#Another.
//         kind Field
//         display_name Another
//         signature_documentation
//         > struct field Another string
  }
  
");
  ("person.go", "  package generallyeric
//        ^^^^^^^^^^^^^ definition 0.1.test `sg/generallyeric`/
  
  import ""fmt""
//        ^^^ reference github.com/golang/go/src go1.22 fmt/
  
  type Person interface {
//     ^^^^^^ definition 0.1.test `sg/generallyeric`/Person#
//            kind Interface
//            display_name Person
//            signature_documentation
//            > type Person interface{ Work() }
   Work()
// ^^^^ definition 0.1.test `sg/generallyeric`/Person#Work.
//      kind MethodSpecification
//      display_name Work
//      signature_documentation
//      > func (Person).Work()
  }
  
  type worker string
//     ^^^^^^ definition 0.1.test `sg/generallyeric`/worker#
//            kind Type
//            display_name worker
//            signature_documentation
//            > type worker string
//            relationship 0.1.test `sg/generallyeric`/Person# implementation
  
//⌄ enclosing_range_start 0.1.test `sg/generallyeric`/worker#Work().
  func (w worker) Work() {
//      ^ definition local 0
//        kind Variable
//        display_name w
//        signature_documentation
//        > var w worker
//        ^^^^^^ reference 0.1.test `sg/generallyeric`/worker#
//                ^^^^ definition 0.1.test `sg/generallyeric`/worker#Work().
//                     kind Method
//                     display_name Work
//                     signature_documentation
//                     > func (worker).Work()
//                     relationship 0.1.test `sg/generallyeric`/Person#Work. implementation
   fmt.Printf(""%s is working\n"", w)
// ^^^ reference github.com/golang/go/src go1.22 fmt/
//     ^^^^^^ reference github.com/golang/go/src go1.22 fmt/Printf().
//                               ^ reference local 0
  }
//⌃ enclosing_range_end 0.1.test `sg/generallyeric`/worker#Work().
  
//⌄ enclosing_range_start 0.1.test `sg/generallyeric`/DoWork().
  func DoWork[T Person](things []T) {
//     ^^^^^^ definition 0.1.test `sg/generallyeric`/DoWork().
//            kind Function
//            display_name DoWork
//            signature_documentation
//            > func DoWork[T Person](things []T)
//            ^ definition local 1
//              kind Interface
//              display_name T
//              signature_documentation
//              > type parameter T Person
//              ^^^^^^ reference 0.1.test `sg/generallyeric`/Person#
//                      ^^^^^^ definition local 2
//                             kind Variable
//                             display_name things
//                             signature_documentation
//                             > var things []T
//                               ^ reference local 1
   for _, v := range things {
//        ^ definition local 3
//          kind Variable
//          display_name v
//          signature_documentation
//          > var v T
//                   ^^^^^^ reference local 2
    v.Work()
//  ^ reference local 3
//    ^^^^ reference 0.1.test `sg/generallyeric`/Person#Work.
   }
  }
//⌃ enclosing_range_end 0.1.test `sg/generallyeric`/DoWork().
  
//⌄ enclosing_range_start 0.1.test `sg/generallyeric`/main().
  func main() {
//     ^^^^ definition 0.1.test `sg/generallyeric`/main().
//          kind Function
//          display_name main
//          signature_documentation
//          > func main()
   var a, b, c worker
//     ^ definition local 4
//       kind Variable
//       display_name a
//       signature_documentation
//       > var a worker
//        ^ definition local 5
//          kind Variable
//          display_name b
//          signature_documentation
//          > var b worker
//           ^ definition local 6
//             kind Variable
//             display_name c
//             signature_documentation
//             > var c worker
//             ^^^^^^ reference 0.1.test `sg/generallyeric`/worker#
   a = ""A""
// ^ reference local 4
   b = ""B""
// ^ reference local 5
   c = ""C""
// ^ reference local 6
   DoWork([]worker{a, b, c})
// ^^^^^^ reference 0.1.test `sg/generallyeric`/DoWork().
//          ^^^^^^ reference 0.1.test `sg/generallyeric`/worker#
//                 ^ reference local 4
//                    ^ reference local 5
//                       ^ reference local 6
  }
//⌃ enclosing_range_end 0.1.test `sg/generallyeric`/main().
  
")].

(** The model, run on the input directory, gives the golden files of /repo. *)
Example snapshot_generallyeric : snapshot input = Some golden.
Proof. vm_compute. reflexivity. Qed.
(** The directory meets the hypotheses of the theorems (Contract.scopes_contract_ok). *)
Example snapshot_generallyeric_contract : contract input = true ∧ scopesb input = true.
Proof. split; vm_compute; reflexivity. Qed.
