(** Generated by tools/snapshot/emit.py from /repo/internal/testdata/snapshots/{input,output}/pr202: what packages.Load
    returns for that directory (syntax, types, modules; dependencies reduced to the declarations used), and the golden output. *)
From Coq Require Import Ascii String.
From stdpp Require Import prelude strings gmap.
From Verif Require Import GoStr Scip GoTypes Ast Packages Source Signature Snapshot Contract.
Open Scope string_scope.
Open Scope list_scope.
(* pr202/identical_anon_types.go *)
Definition f1_0 : node := (NFile 1 false "" (Ident 1 "pr202" 9)
  [(NGenDecl 93 TYPE "" [(NTypeSpec "" (Ident 2 "IdenticalAnonFields" 98) (NFieldList []) (NStructType 3 118 (NFieldList [(NField "" "" [(Ident 4 "x" 128)] (NStructType 5 130 (NFieldList [(NField "" "" [(Ident 6 "t" 138)] (NIdent (Ident 7 "int" 140)))]))); (NField "" "" [(Ident 8 "z" 147)] (NStructType 9 149 (NFieldList [(NField "" "" [(Ident 10 "t" 157)] (NIdent (Ident 11 "int" 159)))])))])))]);
   (NFuncDecl "" 168 261 None (Ident 12 "useIdenticalAnonFields" 173) (NFuncType 168 (NFieldList []) (NFieldList []) (NFieldList [])) (Some (NBlockStmt 198 [(NOther 201 [(NGenDecl 201 VAR "" [(NValueSpec "" "" [(Ident 13 "y" 205)] (Some (NIdent (Ident 14 "IdenticalAnonFields" 207))) [])])]); (NOther 228 [(NSelectorExpr (NIdent (Ident 15 "y" 228)) (Ident 16 "x" 230)); (NSelectorExpr (NIdent (Ident 17 "y" 234)) (Ident 18 "z" 236))]); (NOther 239 [(NSelectorExpr (NSelectorExpr (NIdent (Ident 19 "y" 239)) (Ident 20 "x" 241)) (Ident 21 "t" 243))]); (NOther 250 [(NSelectorExpr (NSelectorExpr (NIdent (Ident 22 "y" 250)) (Ident 23 "z" 252)) (Ident 24 "t" 254))])])));
   (NGenDecl 337 TYPE "Different field order means different type — symbols must NOT unify.
" [(NTypeSpec "" (Ident 25 "FieldOrderMatters" 342) (NFieldList []) (NStructType 26 360 (NFieldList [(NField "" "" [(Ident 27 "a" 370)] (NStructType 28 372 (NFieldList [(NField "" "" [(Ident 29 "x" 383)] (NIdent (Ident 30 "int" 385))); (NField "" "" [(Ident 31 "y" 391)] (NIdent (Ident 32 "string" 393)))]))); (NField "" "" [(Ident 33 "b" 404)] (NStructType 34 406 (NFieldList [(NField "" "" [(Ident 35 "y" 417)] (NIdent (Ident 36 "string" 419))); (NField "" "" [(Ident 37 "x" 428)] (NIdent (Ident 38 "int" 430)))])))])))]);
   (NGenDecl 493 TYPE "Different struct tags — symbols must NOT unify.
" [(NTypeSpec "" (Ident 39 "DifferentTags" 498) (NFieldList []) (NStructType 40 512 (NFieldList [(NField "" "" [(Ident 41 "a" 522)] (NStructType 42 524 (NFieldList [(NField "" "" [(Ident 43 "Name" 535)] (NIdent (Ident 44 "string" 540)))]))); (NField "" "" [(Ident 45 "b" 565)] (NStructType 46 567 (NFieldList [(NField "" "" [(Ident 47 "Name" 578)] (NIdent (Ident 48 "string" 583)))])))])))])]).
(* pr202/local_anon.go *)
Definition f1_1 : node := (NFile 615 false "" (Ident 49 "pr202" 623)
  [(NFuncDecl "" 677 783 None (Ident 50 "localAnonymousStructs" 682) (NFuncType 677 (NFieldList []) (NFieldList []) (NFieldList [])) (Some (NBlockStmt 706 [(NOther 709 [(NIdent (Ident 51 "a" 709)); (NOther 714 [(NStructType 52 714 (NFieldList [(NField "" "" [(Ident 53 "x" 722)] (NIdent (Ident 54 "int" 724)))])); (NOther 730 [(NIdent (Ident 55 "x" 730))])])]); (NOther 737 [(NIdent (Ident 56 "b" 737)); (NOther 742 [(NStructType 57 742 (NFieldList [(NField "" "" [(Ident 58 "x" 750)] (NIdent (Ident 59 "int" 752)))])); (NOther 758 [(NIdent (Ident 60 "x" 758))])])]); (NOther 765 [(NIdent (Ident 61 "_" 765)); (NSelectorExpr (NIdent (Ident 62 "a" 769)) (Ident 63 "x" 771))]); (NOther 774 [(NIdent (Ident 64 "_" 774)); (NSelectorExpr (NIdent (Ident 65 "b" 778)) (Ident 66 "x" 780))])])));
   (NFuncDecl "" 785 849 None (Ident 67 "paramAnonymousStruct" 790) (NFuncType 785 (NFieldList []) (NFieldList [(NField "" "" [(Ident 68 "p" 811)] (NStructType 69 813 (NFieldList [(NField "" "" [(Ident 70 "x" 821)] (NIdent (Ident 71 "int" 823)))])))]) (NFieldList [(NField "" "" [] (NIdent (Ident 72 "int" 830)))])) (Some (NBlockStmt 834 [(NOther 837 [(NSelectorExpr (NIdent (Ident 73 "p" 844)) (Ident 74 "x" 846))])])))]).
(* pr202/multiname_fields.go *)
Definition f1_2 : node := (NFile 851 false "" (Ident 75 "pr202" 859)
  [(NGenDecl 941 TYPE "" [(NTypeSpec "" (Ident 76 "MultiNameStruct" 946) (NFieldList []) (NStructType 77 962 (NFieldList [(NField "" "" [(Ident 78 "a" 972); (Ident 79 "b" 975)] (NStructType 80 977 (NFieldList [(NField "" "" [(Ident 81 "x" 988)] (NIdent (Ident 82 "int" 990))); (NField "" "" [(Ident 83 "y" 996)] (NIdent (Ident 84 "string" 998)))])))])))]);
   (NFuncDecl "" 1011 1096 None (Ident 85 "useMultiNameFields" 1016) (NFuncType 1011 (NFieldList []) (NFieldList []) (NFieldList [])) (Some (NBlockStmt 1037 [(NOther 1040 [(NGenDecl 1040 VAR "" [(NValueSpec "" "" [(Ident 86 "m" 1044)] (Some (NIdent (Ident 87 "MultiNameStruct" 1046))) [])])]); (NOther 1063 [(NSelectorExpr (NSelectorExpr (NIdent (Ident 88 "m" 1063)) (Ident 89 "a" 1065)) (Ident 90 "x" 1067))]); (NOther 1074 [(NSelectorExpr (NSelectorExpr (NIdent (Ident 91 "m" 1074)) (Ident 92 "b" 1076)) (Ident 93 "x" 1078))]); (NOther 1085 [(NSelectorExpr (NIdent (Ident 94 "m" 1085)) (Ident 95 "a" 1087)); (NSelectorExpr (NIdent (Ident 96 "m" 1091)) (Ident 97 "b" 1093))])])))]).
(* pr202/nested_anon.go *)
Definition f1_3 : node := (NFile 1098 false "" (Ident 98 "pr202" 1106)
  [(NGenDecl 1178 TYPE "" [(NTypeSpec "" (Ident 99 "ContainerAnon" 1183) (NFieldList []) (NStructType 100 1197 (NFieldList [(NField "" "" [(Ident 101 "items" 1207)] (NArrayType 1215 None (NStructType 102 1217 (NFieldList [(NField "" "" [(Ident 103 "id" 1225)] (NIdent (Ident 104 "int" 1228)))])))); (NField "" "" [(Ident 105 "entries" 1235)] (NMapType 1243 (NIdent (Ident 106 "string" 1247)) (NStructType 107 1254 (NFieldList [(NField "" "" [(Ident 108 "count" 1262)] (NIdent (Ident 109 "int" 1268)))])))); (NField "" "" [(Ident 110 "ptr" 1275)] (NStarExpr 1283 (NStructType 111 1284 (NFieldList [(NField "" "" [(Ident 112 "data" 1292)] (NIdent (Ident 113 "int" 1297)))]))))])))]);
   (NGenDecl 1306 TYPE "" [(NTypeSpec "" (Ident 114 "DeepNested" 1311) (NFieldList []) (NStructType 115 1322 (NFieldList [(NField "" "" [(Ident 116 "outer" 1332)] (NStructType 117 1338 (NFieldList [(NField "" "" [(Ident 118 "inner" 1349)] (NStructType 119 1355 (NFieldList [(NField "" "" [(Ident 120 "value" 1367)] (NIdent (Ident 121 "int" 1373)))])))])))])))]);
   (NGenDecl 1448 TYPE "Two fields with identical slice-of-anonymous-struct type.
" [(NTypeSpec "" (Ident 122 "SliceAnonShared" 1453) (NFieldList []) (NStructType 123 1469 (NFieldList [(NField "" "" [(Ident 124 "a" 1479)] (NArrayType 1481 None (NStructType 125 1483 (NFieldList [(NField "" "" [(Ident 126 "v" 1491)] (NIdent (Ident 127 "int" 1493)))])))); (NField "" "" [(Ident 128 "b" 1500)] (NArrayType 1502 None (NStructType 129 1504 (NFieldList [(NField "" "" [(Ident 130 "v" 1512)] (NIdent (Ident 131 "int" 1514)))]))))])))]);
   (NFuncDecl "" 1523 1745 None (Ident 132 "useContainerAnon" 1528) (NFuncType 1523 (NFieldList []) (NFieldList []) (NFieldList [])) (Some (NBlockStmt 1547 [(NOther 1550 [(NGenDecl 1550 VAR "" [(NValueSpec "" "" [(Ident 133 "c" 1554)] (Some (NIdent (Ident 134 "ContainerAnon" 1556))) [])])]); (NOther 1571 [(NBinaryExpr (NOther 1574 [(NIdent (Ident 135 "len" 1574)); (NSelectorExpr (NIdent (Ident 136 "c" 1578)) (Ident 137 "items" 1580))]) (NOther 1589 [])); (NBlockStmt 1591 [(NOther 1595 [(NIdent (Ident 138 "_" 1595)); (NSelectorExpr (NIndexExpr (NSelectorExpr (NIdent (Ident 139 "c" 1599)) (Ident 140 "items" 1601)) (NOther 1607 [])) (Ident 141 "id" 1610))])])]); (NOther 1617 [(NIdent (Ident 142 "entry" 1617)); (NIndexExpr (NSelectorExpr (NIdent (Ident 143 "c" 1626)) (Ident 144 "entries" 1628)) (NOther 1636 []))]); (NOther 1644 [(NIdent (Ident 145 "_" 1644)); (NSelectorExpr (NIdent (Ident 146 "entry" 1648)) (Ident 147 "count" 1654))]); (NOther 1661 [(NBinaryExpr (NSelectorExpr (NIdent (Ident 148 "c" 1664)) (Ident 149 "ptr" 1666)) (NIdent (Ident 150 "nil" 1673))); (NBlockStmt 1677 [(NOther 1681 [(NIdent (Ident 151 "_" 1681)); (NSelectorExpr (NSelectorExpr (NIdent (Ident 152 "c" 1685)) (Ident 153 "ptr" 1687)) (Ident 154 "data" 1691))])])]); (NOther 1701 [(NGenDecl 1701 VAR "" [(NValueSpec "" "" [(Ident 155 "d" 1705)] (Some (NIdent (Ident 156 "DeepNested" 1707))) [])])]); (NOther 1719 [(NSelectorExpr (NSelectorExpr (NSelectorExpr (NIdent (Ident 157 "d" 1719)) (Ident 158 "outer" 1721)) (Ident 159 "inner" 1727)) (Ident 160 "value" 1733))])])))]).
Definition k0 : tpkg := TPkg "sg/pr202" [SEntry "ContainerAnon" true (TNamed (TName 55 (Some "sg/pr202") "ContainerAnon") []); SEntry "DeepNested" true (TNamed (TName 56 (Some "sg/pr202") "DeepNested") []); SEntry "DifferentTags" true (TNamed (TName 50 (Some "sg/pr202") "DifferentTags") []); SEntry "FieldOrderMatters" true (TNamed (TName 49 (Some "sg/pr202") "FieldOrderMatters") []); SEntry "IdenticalAnonFields" true (TNamed (TName 47 (Some "sg/pr202") "IdenticalAnonFields") []); SEntry "MultiNameStruct" true (TNamed (TName 53 (Some "sg/pr202") "MultiNameStruct") []); SEntry "SliceAnonShared" true (TNamed (TName 57 (Some "sg/pr202") "SliceAnonShared") []); SEntry "localAnonymousStructs" false (TBasic BInvalid false); SEntry "paramAnonymousStruct" false (TBasic BInvalid false); SEntry "useContainerAnon" false (TBasic BInvalid false); SEntry "useIdenticalAnonFields" false (TBasic BInvalid false); SEntry "useMultiNameFields" false (TBasic BInvalid false)].
Definition o47 : obj := Obj 47 "IdenticalAnonFields" (Some k0) 98 OTypeName (TNamed (TName 47 (Some "sg/pr202") "IdenticalAnonFields") []) None.
Definition o48 : obj := Obj 48 "useIdenticalAnonFields" (Some k0) 173 (OFunc (Some None)) (TSig [] [] false) None.
Definition o49 : obj := Obj 49 "FieldOrderMatters" (Some k0) 342 OTypeName (TNamed (TName 49 (Some "sg/pr202") "FieldOrderMatters") []) None.
Definition o50 : obj := Obj 50 "DifferentTags" (Some k0) 498 OTypeName (TNamed (TName 50 (Some "sg/pr202") "DifferentTags") []) None.
Definition o51 : obj := Obj 51 "localAnonymousStructs" (Some k0) 682 (OFunc (Some None)) (TSig [] [] false) None.
Definition o52 : obj := Obj 52 "paramAnonymousStruct" (Some k0) 790 (OFunc (Some None)) (TSig [(TStruct [(FHdr 73 "x" (Some "sg/pr202") false "", (TBasic BInt false))])] [(TBasic BInt false)] false) None.
Definition o53 : obj := Obj 53 "MultiNameStruct" (Some k0) 946 OTypeName (TNamed (TName 53 (Some "sg/pr202") "MultiNameStruct") []) None.
Definition o54 : obj := Obj 54 "useMultiNameFields" (Some k0) 1016 (OFunc (Some None)) (TSig [] [] false) None.
Definition o55 : obj := Obj 55 "ContainerAnon" (Some k0) 1183 OTypeName (TNamed (TName 55 (Some "sg/pr202") "ContainerAnon") []) None.
Definition o56 : obj := Obj 56 "DeepNested" (Some k0) 1311 OTypeName (TNamed (TName 56 (Some "sg/pr202") "DeepNested") []) None.
Definition o57 : obj := Obj 57 "SliceAnonShared" (Some k0) 1453 OTypeName (TNamed (TName 57 (Some "sg/pr202") "SliceAnonShared") []) None.
Definition o58 : obj := Obj 58 "useContainerAnon" (Some k0) 1528 (OFunc (Some None)) (TSig [] [] false) None.
Definition o59 : obj := Obj 59 "t" (Some k0) 138 (OVar true) (TBasic BInt false) None.
Definition o60 : obj := Obj 60 "x" (Some k0) 128 (OVar true) (TStruct [(FHdr 59 "t" (Some "sg/pr202") false "", (TBasic BInt false))]) None.
Definition o61 : obj := Obj 61 "t" (Some k0) 157 (OVar true) (TBasic BInt false) None.
Definition o62 : obj := Obj 62 "z" (Some k0) 147 (OVar true) (TStruct [(FHdr 61 "t" (Some "sg/pr202") false "", (TBasic BInt false))]) None.
Definition o63 : obj := Obj 63 "x" (Some k0) 383 (OVar true) (TBasic BInt false) None.
Definition o64 : obj := Obj 64 "y" (Some k0) 391 (OVar true) (TBasic BString false) None.
Definition o65 : obj := Obj 65 "a" (Some k0) 370 (OVar true) (TStruct [(FHdr 63 "x" (Some "sg/pr202") false "", (TBasic BInt false)); (FHdr 64 "y" (Some "sg/pr202") false "", (TBasic BString false))]) None.
Definition o66 : obj := Obj 66 "y" (Some k0) 417 (OVar true) (TBasic BString false) None.
Definition o67 : obj := Obj 67 "x" (Some k0) 428 (OVar true) (TBasic BInt false) None.
Definition o68 : obj := Obj 68 "b" (Some k0) 404 (OVar true) (TStruct [(FHdr 66 "y" (Some "sg/pr202") false "", (TBasic BString false)); (FHdr 67 "x" (Some "sg/pr202") false "", (TBasic BInt false))]) None.
Definition o69 : obj := Obj 69 "Name" (Some k0) 535 (OVar true) (TBasic BString false) None.
Definition o70 : obj := Obj 70 "a" (Some k0) 522 (OVar true) (TStruct [(FHdr 69 "Name" (Some "sg/pr202") false "json:""name""", (TBasic BString false))]) None.
Definition o71 : obj := Obj 71 "Name" (Some k0) 578 (OVar true) (TBasic BString false) None.
Definition o72 : obj := Obj 72 "b" (Some k0) 565 (OVar true) (TStruct [(FHdr 71 "Name" (Some "sg/pr202") false "json:""full_name""", (TBasic BString false))]) None.
Definition o73 : obj := Obj 73 "x" (Some k0) 821 (OVar true) (TBasic BInt false) None.
Definition o74 : obj := Obj 74 "p" (Some k0) 811 (OVar false) (TStruct [(FHdr 73 "x" (Some "sg/pr202") false "", (TBasic BInt false))]) None.
Definition o76 : obj := Obj 76 "x" (Some k0) 988 (OVar true) (TBasic BInt false) None.
Definition o77 : obj := Obj 77 "y" (Some k0) 996 (OVar true) (TBasic BString false) None.
Definition o78 : obj := Obj 78 "a" (Some k0) 972 (OVar true) (TStruct [(FHdr 76 "x" (Some "sg/pr202") false "", (TBasic BInt false)); (FHdr 77 "y" (Some "sg/pr202") false "", (TBasic BString false))]) None.
Definition o79 : obj := Obj 79 "b" (Some k0) 975 (OVar true) (TStruct [(FHdr 76 "x" (Some "sg/pr202") false "", (TBasic BInt false)); (FHdr 77 "y" (Some "sg/pr202") false "", (TBasic BString false))]) None.
Definition o80 : obj := Obj 80 "id" (Some k0) 1225 (OVar true) (TBasic BInt false) None.
Definition o81 : obj := Obj 81 "items" (Some k0) 1207 (OVar true) (TSlice (TStruct [(FHdr 80 "id" (Some "sg/pr202") false "", (TBasic BInt false))])) None.
Definition o82 : obj := Obj 82 "count" (Some k0) 1262 (OVar true) (TBasic BInt false) None.
Definition o83 : obj := Obj 83 "entries" (Some k0) 1235 (OVar true) (TMap (TBasic BString false) (TStruct [(FHdr 82 "count" (Some "sg/pr202") false "", (TBasic BInt false))])) None.
Definition o84 : obj := Obj 84 "data" (Some k0) 1292 (OVar true) (TBasic BInt false) None.
Definition o85 : obj := Obj 85 "ptr" (Some k0) 1275 (OVar true) (TPointer (TStruct [(FHdr 84 "data" (Some "sg/pr202") false "", (TBasic BInt false))])) None.
Definition o86 : obj := Obj 86 "value" (Some k0) 1367 (OVar true) (TBasic BInt false) None.
Definition o87 : obj := Obj 87 "inner" (Some k0) 1349 (OVar true) (TStruct [(FHdr 86 "value" (Some "sg/pr202") false "", (TBasic BInt false))]) None.
Definition o88 : obj := Obj 88 "outer" (Some k0) 1332 (OVar true) (TStruct [(FHdr 87 "inner" (Some "sg/pr202") false "", (TStruct [(FHdr 86 "value" (Some "sg/pr202") false "", (TBasic BInt false))]))]) None.
Definition o89 : obj := Obj 89 "v" (Some k0) 1491 (OVar true) (TBasic BInt false) None.
Definition o90 : obj := Obj 90 "a" (Some k0) 1479 (OVar true) (TSlice (TStruct [(FHdr 89 "v" (Some "sg/pr202") false "", (TBasic BInt false))])) None.
Definition o91 : obj := Obj 91 "v" (Some k0) 1512 (OVar true) (TBasic BInt false) None.
Definition o92 : obj := Obj 92 "b" (Some k0) 1500 (OVar true) (TSlice (TStruct [(FHdr 91 "v" (Some "sg/pr202") false "", (TBasic BInt false))])) None.
Definition o93 : obj := Obj 93 "y" (Some k0) 205 (OVar false) (TNamed (TName 47 (Some "sg/pr202") "IdenticalAnonFields") []) None.
Definition o94 : obj := Obj 94 "x" (Some k0) 722 (OVar true) (TBasic BInt false) None.
Definition o95 : obj := Obj 95 "a" (Some k0) 709 (OVar false) (TStruct [(FHdr 94 "x" (Some "sg/pr202") false "", (TBasic BInt false))]) None.
Definition o96 : obj := Obj 96 "x" (Some k0) 750 (OVar true) (TBasic BInt false) None.
Definition o97 : obj := Obj 97 "b" (Some k0) 737 (OVar false) (TStruct [(FHdr 96 "x" (Some "sg/pr202") false "", (TBasic BInt false))]) None.
Definition o98 : obj := Obj 98 "m" (Some k0) 1044 (OVar false) (TNamed (TName 53 (Some "sg/pr202") "MultiNameStruct") []) None.
Definition o99 : obj := Obj 99 "c" (Some k0) 1554 (OVar false) (TNamed (TName 55 (Some "sg/pr202") "ContainerAnon") []) None.
Definition o100 : obj := Obj 100 "entry" (Some k0) 1617 (OVar false) (TStruct [(FHdr 82 "count" (Some "sg/pr202") false "", (TBasic BInt false))]) None.
Definition o101 : obj := Obj 101 "d" (Some k0) 1705 (OVar false) (TNamed (TName 56 (Some "sg/pr202") "DeepNested") []) None.
Definition o2 : obj := Obj 2 "int" None 0 OTypeName (TBasic BInt false) None.
Definition o17 : obj := Obj 17 "string" None 0 OTypeName (TBasic BString false) None.
Definition o37 : obj := Obj 37 "len" None 0 OBuiltin (TBasic BInvalid false) None.
Definition o28 : obj := Obj 28 "nil" None 0 ONil (TBasic BUntypedNil false) None.
Definition defs1 : list (nat * obj) := [(2, o47); (12, o48); (25, o49); (39, o50); (50, o51); (67, o52); (76, o53); (85, o54); (99, o55); (114, o56); (122, o57); (132, o58); (6, o59); (4, o60); (10, o61); (8, o62); (29, o63); (31, o64); (27, o65); (35, o66); (37, o67); (33, o68); (43, o69); (41, o70); (47, o71); (45, o72); (70, o73); (68, o74); (81, o76); (83, o77); (78, o78); (79, o79); (103, o80); (101, o81); (108, o82); (105, o83); (112, o84); (110, o85); (120, o86); (118, o87); (116, o88); (126, o89); (124, o90); (130, o91); (128, o92); (13, o93); (53, o94); (51, o95); (58, o96); (56, o97); (86, o98); (133, o99); (142, o100); (155, o101)].
Definition uses1 : list (nat * obj) := [(7, o2); (11, o2); (30, o2); (32, o17); (36, o17); (38, o2); (44, o17); (48, o17); (71, o2); (72, o2); (82, o2); (84, o17); (104, o2); (106, o17); (109, o2); (113, o2); (121, o2); (127, o2); (131, o2); (14, o47); (15, o93); (16, o60); (17, o93); (18, o62); (19, o93); (20, o60); (21, o59); (22, o93); (23, o62); (24, o61); (54, o2); (55, o94); (59, o2); (60, o96); (62, o95); (63, o94); (65, o97); (66, o96); (73, o74); (74, o73); (87, o53); (88, o98); (89, o78); (90, o76); (91, o98); (92, o79); (93, o76); (94, o98); (95, o78); (96, o98); (97, o79); (134, o55); (135, o37); (136, o99); (137, o81); (139, o99); (140, o81); (141, o80); (143, o99); (144, o83); (146, o100); (147, o82); (148, o99); (149, o85); (150, o28); (152, o99); (153, o85); (154, o84); (156, o56); (157, o101); (158, o88); (159, o87); (160, o86)].
Definition canon1 : list (nat * hty) := [(5, (HStruct [("t", false, "", (HBasic "int"))])); (9, (HStruct [("t", false, "", (HBasic "int"))])); (3, (HStruct [("x", false, "", (HStruct [("t", false, "", (HBasic "int"))])); ("z", false, "", (HStruct [("t", false, "", (HBasic "int"))]))])); (28, (HStruct [("x", false, "", (HBasic "int")); ("y", false, "", (HBasic "string"))])); (34, (HStruct [("y", false, "", (HBasic "string")); ("x", false, "", (HBasic "int"))])); (26, (HStruct [("a", false, "", (HStruct [("x", false, "", (HBasic "int")); ("y", false, "", (HBasic "string"))])); ("b", false, "", (HStruct [("y", false, "", (HBasic "string")); ("x", false, "", (HBasic "int"))]))])); (42, (HStruct [("Name", false, "json:""name""", (HBasic "string"))])); (46, (HStruct [("Name", false, "json:""full_name""", (HBasic "string"))])); (40, (HStruct [("a", false, "", (HStruct [("Name", false, "json:""name""", (HBasic "string"))])); ("b", false, "", (HStruct [("Name", false, "json:""full_name""", (HBasic "string"))]))])); (69, (HStruct [("x", false, "", (HBasic "int"))])); (80, (HStruct [("x", false, "", (HBasic "int")); ("y", false, "", (HBasic "string"))])); (77, (HStruct [("a", false, "", (HStruct [("x", false, "", (HBasic "int")); ("y", false, "", (HBasic "string"))])); ("b", false, "", (HStruct [("x", false, "", (HBasic "int")); ("y", false, "", (HBasic "string"))]))])); (102, (HStruct [("id", false, "", (HBasic "int"))])); (107, (HStruct [("count", false, "", (HBasic "int"))])); (111, (HStruct [("data", false, "", (HBasic "int"))])); (100, (HStruct [("items", false, "", (HSlice (HStruct [("id", false, "", (HBasic "int"))]))); ("entries", false, "", (HMap (HBasic "string") (HStruct [("count", false, "", (HBasic "int"))]))); ("ptr", false, "", (HPointer (HStruct [("data", false, "", (HBasic "int"))])))])); (119, (HStruct [("value", false, "", (HBasic "int"))])); (117, (HStruct [("inner", false, "", (HStruct [("value", false, "", (HBasic "int"))]))])); (115, (HStruct [("outer", false, "", (HStruct [("inner", false, "", (HStruct [("value", false, "", (HBasic "int"))]))]))])); (125, (HStruct [("v", false, "", (HBasic "int"))])); (129, (HStruct [("v", false, "", (HBasic "int"))])); (123, (HStruct [("a", false, "", (HSlice (HStruct [("v", false, "", (HBasic "int"))]))); ("b", false, "", (HSlice (HStruct [("v", false, "", (HBasic "int"))])))])); (52, (HStruct [("x", false, "", (HBasic "int"))])); (57, (HStruct [("x", false, "", (HBasic "int"))]))].
Definition pkgnames1 : list (nat * obj) := [].
Definition cases1 : list obj := [].
Definition hobjs : list (nat * hobj) := [(47, HObj "IdenticalAnonFields" (Some (HPkg "sg/pr202" "pr202")) true (HTypeName (DDefined [] (HStruct [("x", false, "", (HStruct [("t", false, "", (HBasic "int"))])); ("z", false, "", (HStruct [("t", false, "", (HBasic "int"))]))]))));
  (48, HObj "useIdenticalAnonFields" (Some (HPkg "sg/pr202" "pr202")) true (HFunc None (HSig [] [] [] false)));
  (49, HObj "FieldOrderMatters" (Some (HPkg "sg/pr202" "pr202")) true (HTypeName (DDefined [] (HStruct [("a", false, "", (HStruct [("x", false, "", (HBasic "int")); ("y", false, "", (HBasic "string"))])); ("b", false, "", (HStruct [("y", false, "", (HBasic "string")); ("x", false, "", (HBasic "int"))]))]))));
  (50, HObj "DifferentTags" (Some (HPkg "sg/pr202" "pr202")) true (HTypeName (DDefined [] (HStruct [("a", false, "", (HStruct [("Name", false, "json:""name""", (HBasic "string"))])); ("b", false, "", (HStruct [("Name", false, "json:""full_name""", (HBasic "string"))]))]))));
  (51, HObj "localAnonymousStructs" (Some (HPkg "sg/pr202" "pr202")) true (HFunc None (HSig [] [] [] false)));
  (52, HObj "paramAnonymousStruct" (Some (HPkg "sg/pr202" "pr202")) true (HFunc None (HSig [] [("p", (HStruct [("x", false, "", (HBasic "int"))]))] [("", (HBasic "int"))] false)));
  (53, HObj "MultiNameStruct" (Some (HPkg "sg/pr202" "pr202")) true (HTypeName (DDefined [] (HStruct [("a", false, "", (HStruct [("x", false, "", (HBasic "int")); ("y", false, "", (HBasic "string"))])); ("b", false, "", (HStruct [("x", false, "", (HBasic "int")); ("y", false, "", (HBasic "string"))]))]))));
  (54, HObj "useMultiNameFields" (Some (HPkg "sg/pr202" "pr202")) true (HFunc None (HSig [] [] [] false)));
  (55, HObj "ContainerAnon" (Some (HPkg "sg/pr202" "pr202")) true (HTypeName (DDefined [] (HStruct [("items", false, "", (HSlice (HStruct [("id", false, "", (HBasic "int"))]))); ("entries", false, "", (HMap (HBasic "string") (HStruct [("count", false, "", (HBasic "int"))]))); ("ptr", false, "", (HPointer (HStruct [("data", false, "", (HBasic "int"))])))]))));
  (56, HObj "DeepNested" (Some (HPkg "sg/pr202" "pr202")) true (HTypeName (DDefined [] (HStruct [("outer", false, "", (HStruct [("inner", false, "", (HStruct [("value", false, "", (HBasic "int"))]))]))]))));
  (57, HObj "SliceAnonShared" (Some (HPkg "sg/pr202" "pr202")) true (HTypeName (DDefined [] (HStruct [("a", false, "", (HSlice (HStruct [("v", false, "", (HBasic "int"))]))); ("b", false, "", (HSlice (HStruct [("v", false, "", (HBasic "int"))])))]))));
  (58, HObj "useContainerAnon" (Some (HPkg "sg/pr202" "pr202")) true (HFunc None (HSig [] [] [] false)));
  (59, HObj "t" (Some (HPkg "sg/pr202" "pr202")) false (HVar true (HBasic "int")));
  (60, HObj "x" (Some (HPkg "sg/pr202" "pr202")) false (HVar true (HStruct [("t", false, "", (HBasic "int"))])));
  (61, HObj "t" (Some (HPkg "sg/pr202" "pr202")) false (HVar true (HBasic "int")));
  (62, HObj "z" (Some (HPkg "sg/pr202" "pr202")) false (HVar true (HStruct [("t", false, "", (HBasic "int"))])));
  (63, HObj "x" (Some (HPkg "sg/pr202" "pr202")) false (HVar true (HBasic "int")));
  (64, HObj "y" (Some (HPkg "sg/pr202" "pr202")) false (HVar true (HBasic "string")));
  (65, HObj "a" (Some (HPkg "sg/pr202" "pr202")) false (HVar true (HStruct [("x", false, "", (HBasic "int")); ("y", false, "", (HBasic "string"))])));
  (66, HObj "y" (Some (HPkg "sg/pr202" "pr202")) false (HVar true (HBasic "string")));
  (67, HObj "x" (Some (HPkg "sg/pr202" "pr202")) false (HVar true (HBasic "int")));
  (68, HObj "b" (Some (HPkg "sg/pr202" "pr202")) false (HVar true (HStruct [("y", false, "", (HBasic "string")); ("x", false, "", (HBasic "int"))])));
  (69, HObj "Name" (Some (HPkg "sg/pr202" "pr202")) false (HVar true (HBasic "string")));
  (70, HObj "a" (Some (HPkg "sg/pr202" "pr202")) false (HVar true (HStruct [("Name", false, "json:""name""", (HBasic "string"))])));
  (71, HObj "Name" (Some (HPkg "sg/pr202" "pr202")) false (HVar true (HBasic "string")));
  (72, HObj "b" (Some (HPkg "sg/pr202" "pr202")) false (HVar true (HStruct [("Name", false, "json:""full_name""", (HBasic "string"))])));
  (73, HObj "x" (Some (HPkg "sg/pr202" "pr202")) false (HVar true (HBasic "int")));
  (74, HObj "p" (Some (HPkg "sg/pr202" "pr202")) false (HVar false (HStruct [("x", false, "", (HBasic "int"))])));
  (76, HObj "x" (Some (HPkg "sg/pr202" "pr202")) false (HVar true (HBasic "int")));
  (77, HObj "y" (Some (HPkg "sg/pr202" "pr202")) false (HVar true (HBasic "string")));
  (78, HObj "a" (Some (HPkg "sg/pr202" "pr202")) false (HVar true (HStruct [("x", false, "", (HBasic "int")); ("y", false, "", (HBasic "string"))])));
  (79, HObj "b" (Some (HPkg "sg/pr202" "pr202")) false (HVar true (HStruct [("x", false, "", (HBasic "int")); ("y", false, "", (HBasic "string"))])));
  (80, HObj "id" (Some (HPkg "sg/pr202" "pr202")) false (HVar true (HBasic "int")));
  (81, HObj "items" (Some (HPkg "sg/pr202" "pr202")) false (HVar true (HSlice (HStruct [("id", false, "", (HBasic "int"))]))));
  (82, HObj "count" (Some (HPkg "sg/pr202" "pr202")) false (HVar true (HBasic "int")));
  (83, HObj "entries" (Some (HPkg "sg/pr202" "pr202")) false (HVar true (HMap (HBasic "string") (HStruct [("count", false, "", (HBasic "int"))]))));
  (84, HObj "data" (Some (HPkg "sg/pr202" "pr202")) false (HVar true (HBasic "int")));
  (85, HObj "ptr" (Some (HPkg "sg/pr202" "pr202")) false (HVar true (HPointer (HStruct [("data", false, "", (HBasic "int"))]))));
  (86, HObj "value" (Some (HPkg "sg/pr202" "pr202")) false (HVar true (HBasic "int")));
  (87, HObj "inner" (Some (HPkg "sg/pr202" "pr202")) false (HVar true (HStruct [("value", false, "", (HBasic "int"))])));
  (88, HObj "outer" (Some (HPkg "sg/pr202" "pr202")) false (HVar true (HStruct [("inner", false, "", (HStruct [("value", false, "", (HBasic "int"))]))])));
  (89, HObj "v" (Some (HPkg "sg/pr202" "pr202")) false (HVar true (HBasic "int")));
  (90, HObj "a" (Some (HPkg "sg/pr202" "pr202")) false (HVar true (HSlice (HStruct [("v", false, "", (HBasic "int"))]))));
  (91, HObj "v" (Some (HPkg "sg/pr202" "pr202")) false (HVar true (HBasic "int")));
  (92, HObj "b" (Some (HPkg "sg/pr202" "pr202")) false (HVar true (HSlice (HStruct [("v", false, "", (HBasic "int"))]))));
  (93, HObj "y" (Some (HPkg "sg/pr202" "pr202")) false (HVar false (HNamed (HName (Some (HPkg "sg/pr202" "pr202")) "IdenticalAnonFields") [] [])));
  (94, HObj "x" (Some (HPkg "sg/pr202" "pr202")) false (HVar true (HBasic "int")));
  (95, HObj "a" (Some (HPkg "sg/pr202" "pr202")) false (HVar false (HStruct [("x", false, "", (HBasic "int"))])));
  (96, HObj "x" (Some (HPkg "sg/pr202" "pr202")) false (HVar true (HBasic "int")));
  (97, HObj "b" (Some (HPkg "sg/pr202" "pr202")) false (HVar false (HStruct [("x", false, "", (HBasic "int"))])));
  (98, HObj "m" (Some (HPkg "sg/pr202" "pr202")) false (HVar false (HNamed (HName (Some (HPkg "sg/pr202" "pr202")) "MultiNameStruct") [] [])));
  (99, HObj "c" (Some (HPkg "sg/pr202" "pr202")) false (HVar false (HNamed (HName (Some (HPkg "sg/pr202" "pr202")) "ContainerAnon") [] [])));
  (100, HObj "entry" (Some (HPkg "sg/pr202" "pr202")) false (HVar false (HStruct [("count", false, "", (HBasic "int"))])));
  (101, HObj "d" (Some (HPkg "sg/pr202" "pr202")) false (HVar false (HNamed (HName (Some (HPkg "sg/pr202" "pr202")) "DeepNested") [] [])))].
Definition unders : list (nat * ty) := [(55, (TStruct [(FHdr 81 "items" (Some "sg/pr202") false "", (TSlice (TStruct [(FHdr 80 "id" (Some "sg/pr202") false "", (TBasic BInt false))]))); (FHdr 83 "entries" (Some "sg/pr202") false "", (TMap (TBasic BString false) (TStruct [(FHdr 82 "count" (Some "sg/pr202") false "", (TBasic BInt false))]))); (FHdr 85 "ptr" (Some "sg/pr202") false "", (TPointer (TStruct [(FHdr 84 "data" (Some "sg/pr202") false "", (TBasic BInt false))])))]));
  (56, (TStruct [(FHdr 88 "outer" (Some "sg/pr202") false "", (TStruct [(FHdr 87 "inner" (Some "sg/pr202") false "", (TStruct [(FHdr 86 "value" (Some "sg/pr202") false "", (TBasic BInt false))]))]))]));
  (50, (TStruct [(FHdr 70 "a" (Some "sg/pr202") false "", (TStruct [(FHdr 69 "Name" (Some "sg/pr202") false "json:""name""", (TBasic BString false))])); (FHdr 72 "b" (Some "sg/pr202") false "", (TStruct [(FHdr 71 "Name" (Some "sg/pr202") false "json:""full_name""", (TBasic BString false))]))]));
  (49, (TStruct [(FHdr 65 "a" (Some "sg/pr202") false "", (TStruct [(FHdr 63 "x" (Some "sg/pr202") false "", (TBasic BInt false)); (FHdr 64 "y" (Some "sg/pr202") false "", (TBasic BString false))])); (FHdr 68 "b" (Some "sg/pr202") false "", (TStruct [(FHdr 66 "y" (Some "sg/pr202") false "", (TBasic BString false)); (FHdr 67 "x" (Some "sg/pr202") false "", (TBasic BInt false))]))]));
  (47, (TStruct [(FHdr 60 "x" (Some "sg/pr202") false "", (TStruct [(FHdr 59 "t" (Some "sg/pr202") false "", (TBasic BInt false))])); (FHdr 62 "z" (Some "sg/pr202") false "", (TStruct [(FHdr 61 "t" (Some "sg/pr202") false "", (TBasic BInt false))]))]));
  (53, (TStruct [(FHdr 78 "a" (Some "sg/pr202") false "", (TStruct [(FHdr 76 "x" (Some "sg/pr202") false "", (TBasic BInt false)); (FHdr 77 "y" (Some "sg/pr202") false "", (TBasic BString false))])); (FHdr 79 "b" (Some "sg/pr202") false "", (TStruct [(FHdr 76 "x" (Some "sg/pr202") false "", (TBasic BInt false)); (FHdr 77 "y" (Some "sg/pr202") false "", (TBasic BString false))]))]));
  (57, (TStruct [(FHdr 90 "a" (Some "sg/pr202") false "", (TSlice (TStruct [(FHdr 89 "v" (Some "sg/pr202") false "", (TBasic BInt false))]))); (FHdr 92 "b" (Some "sg/pr202") false "", (TSlice (TStruct [(FHdr 91 "v" (Some "sg/pr202") false "", (TBasic BInt false))])))]))].
Definition msets : list (nat * (list obj * list obj)) := [(47, ([], []));
  (49, ([], []));
  (50, ([], []));
  (53, ([], []));
  (55, ([], []));
  (56, ([], []));
  (57, ([], []))].
Definition digests : list (string * string) := [("struct{t int}", "44af0565eb406c15");
  ("struct{x struct{t int}; z struct{t int}}", "5489055c350650a6");
  ("struct{x int; y string}", "c0a8952b3a214f68");
  ("struct{y string; x int}", "b8d88f3211c0d7a4");
  ("struct{a struct{x int; y string}; b struct{y string; x int}}", "8044b81fd468dcd0");
  ("struct{Name string ""json:\""name\""""}", "ed545d904f2246eb");
  ("struct{Name string ""json:\""full_name\""""}", "29f1ad2683b11ed0");
  ("struct{a struct{Name string ""json:\""name\""""}; b struct{Name string ""json:\""full_name\""""}}", "91b5443b9f5f3c5f");
  ("struct{x int}", "3819980ad7cf69db");
  ("struct{a struct{x int; y string}; b struct{x int; y string}}", "3932c4a8d4cf3c87");
  ("struct{id int}", "71c5ea8d9342795c");
  ("struct{count int}", "721f9800014370ac");
  ("struct{data int}", "944f727740dfb75d");
  ("struct{items []struct{id int}; entries map[string]struct{count int}; ptr *struct{data int}}", "77397f11ec3818e2");
  ("struct{value int}", "77e42bf2e5c84d1a");
  ("struct{inner struct{value int}}", "5ee0364e53e1abd6");
  ("struct{outer struct{inner struct{value int}}}", "a2340168baf508e3");
  ("struct{v int}", "358bfde4cba1ecae");
  ("struct{a []struct{v int}; b []struct{v int}}", "12185ef9fb8c49f9")].
Definition formatted : list (string * string) := [("package p

type _ struct{x struct{t int}; z struct{t int}}
", "package p

type _ struct {
	x struct{ t int }
	z struct{ t int }
}
");
  ("package p

type _ struct{a struct{x int; y string}; b struct{y string; x int}}
", "package p

type _ struct {
	a struct {
		x int
		y string
	}
	b struct {
		y string
		x int
	}
}
");
  ("package p

type _ struct{a struct{Name string ""json:\""name\""""}; b struct{Name string ""json:\""full_name\""""}}
", "package p

type _ struct {
	a struct {
		Name string ""json:\""name\""""
	}
	b struct {
		Name string ""json:\""full_name\""""
	}
}
");
  ("package p

type _ struct{a struct{x int; y string}; b struct{x int; y string}}
", "package p

type _ struct {
	a struct {
		x int
		y string
	}
	b struct {
		x int
		y string
	}
}
");
  ("package p

type _ struct{items []struct{id int}; entries map[string]struct{count int}; ptr *struct{data int}}
", "package p

type _ struct {
	items   []struct{ id int }
	entries map[string]struct{ count int }
	ptr     *struct{ data int }
}
");
  ("package p

type _ struct{outer struct{inner struct{value int}}}
", "package p

type _ struct {
	outer struct{ inner struct{ value int } }
}
");
  ("package p

type _ struct{a []struct{v int}; b []struct{v int}}
", "package p

type _ struct {
	a []struct{ v int }
	b []struct{ v int }
}
")].
Definition sources : list src := [Src "/repo/internal/testdata/snapshots/input/pr202/identical_anon_types.go" 1 "package pr202

// Identical anonymous struct types should share symbols for nested fields.

type IdenticalAnonFields struct {
	x struct{ t int }
	z struct{ t int }
}

func useIdenticalAnonFields() {
	var y IdenticalAnonFields
	y.x = y.z
	y.x.t = 1
	y.z.t = 2
}

// Different field order means different type — symbols must NOT unify.
type FieldOrderMatters struct {
	a struct {
		x int
		y string
	}
	b struct {
		y string
		x int
	}
}

// Different struct tags — symbols must NOT unify.
type DifferentTags struct {
	a struct {
		Name string `json:""name""`
	}
	b struct {
		Name string `json:""full_name""`
	}
}
" [];
  Src "/repo/internal/testdata/snapshots/input/pr202/local_anon.go" 615 "package pr202

// Anonymous structs in local/function scope.

func localAnonymousStructs() {
	a := struct{ x int }{x: 1}
	b := struct{ x int }{x: 2}
	_ = a.x
	_ = b.x
}

func paramAnonymousStruct(p struct{ x int }) int {
	return p.x
}
" [];
  Src "/repo/internal/testdata/snapshots/input/pr202/multiname_fields.go" 851 "package pr202

// Multi-name field declarations: a, b share a type and must be siblings.

type MultiNameStruct struct {
	a, b struct {
		x int
		y string
	}
}

func useMultiNameFields() {
	var m MultiNameStruct
	m.a.x = 1
	m.b.x = 2
	m.a = m.b
}
" [];
  Src "/repo/internal/testdata/snapshots/input/pr202/nested_anon.go" 1098 "package pr202

// Anonymous structs inside container types and nested structs.

type ContainerAnon struct {
	items   []struct{ id int }
	entries map[string]struct{ count int }
	ptr     *struct{ data int }
}

type DeepNested struct {
	outer struct {
		inner struct {
			value int
		}
	}
}

// Two fields with identical slice-of-anonymous-struct type.
type SliceAnonShared struct {
	a []struct{ v int }
	b []struct{ v int }
}

func useContainerAnon() {
	var c ContainerAnon
	if len(c.items) > 0 {
		_ = c.items[0].id
	}
	entry := c.entries[""key""]
	_ = entry.count
	if c.ptr != nil {
		_ = c.ptr.data
	}

	var d DeepNested
	d.outer.inner.value = 42
}
" []].
Definition gomods : list (string * string) := [].
Definition p1 : gpkg * option raw := (GPkg 1 "sg/pr202" "pr202" (Some (GMod "sg/pr202" "" "/repo/internal/testdata/snapshots/input/pr202" "/repo/internal/testdata/snapshots/input/pr202/go.mod" None)) [] [f1_0; f1_1; f1_2; f1_3] (Some k0) None, (Some (Raw defs1 uses1 pkgnames1 cases1 canon1))).
Definition packages : list (gpkg * option raw) := [p1].
Definition roots : list nat := [1].
Definition scopes : list (nat * list obj) := [].
Definition levels : list nat := [47; 49; 50; 53; 55; 56; 57].
Definition input : input := Input "/repo/internal/testdata/snapshots/input/pr202" "sg/pr202" false sources packages roots gomods digests formatted hobjs unders msets scopes levels.
Definition golden : list (string * string) := [("identical_anon_types.go", "  package pr202
//        ^^^^^ definition 0.1.test `sg/pr202`/
//              kind Package
//              display_name pr202
//              signature_documentation
//              > package pr202
  
  // Identical anonymous struct types should share symbols for nested fields.
  
  type IdenticalAnonFields struct {
//     ^^^^^^^^^^^^^^^^^^^ definition 0.1.test `sg/pr202`/IdenticalAnonFields#
//                         kind Struct
//                         display_name IdenticalAnonFields
//                         signature_documentation
//                         > type IdenticalAnonFields struct {
//                         >     x struct{ t int }
//                         >     z struct{ t int }
//                         > }
   x struct{ t int }
// ^ definition 0.1.test `sg/pr202`/IdenticalAnonFields#x.
//   kind Field
//   display_name x
//   signature_documentation
//   > struct field x struct{t int}
//           ^ definition 0.1.test `sg/pr202`/IdenticalAnonFields#$anon_44af0565eb406c15#t.
//             kind Field
//             display_name t
//             signature_documentation
//             > struct field t int
   z struct{ t int }
// ^ definition 0.1.test `sg/pr202`/IdenticalAnonFields#z.
//   kind Field
//   display_name z
//   signature_documentation
//   > struct field z struct{t int}
//           ^ definition 0.1.test `sg/pr202`/IdenticalAnonFields#$anon_44af0565eb406c15#t.
//             kind Field
//             display_name t
//             signature_documentation
//             > struct field t int
  }
  
//⌄ enclosing_range_start 0.1.test `sg/pr202`/useIdenticalAnonFields().
  func useIdenticalAnonFields() {
//     ^^^^^^^^^^^^^^^^^^^^^^ definition 0.1.test `sg/pr202`/useIdenticalAnonFields().
//                            kind Function
//                            display_name useIdenticalAnonFields
//                            signature_documentation
//                            > func useIdenticalAnonFields()
   var y IdenticalAnonFields
//     ^ definition local 0
//       kind Variable
//       display_name y
//       signature_documentation
//       > var y IdenticalAnonFields
//       ^^^^^^^^^^^^^^^^^^^ reference 0.1.test `sg/pr202`/IdenticalAnonFields#
   y.x = y.z
// ^ reference local 0
//   ^ reference 0.1.test `sg/pr202`/IdenticalAnonFields#x.
//       ^ reference local 0
//         ^ reference 0.1.test `sg/pr202`/IdenticalAnonFields#z.
   y.x.t = 1
// ^ reference local 0
//   ^ reference 0.1.test `sg/pr202`/IdenticalAnonFields#x.
//     ^ reference 0.1.test `sg/pr202`/IdenticalAnonFields#$anon_44af0565eb406c15#t.
   y.z.t = 2
// ^ reference local 0
//   ^ reference 0.1.test `sg/pr202`/IdenticalAnonFields#z.
//     ^ reference 0.1.test `sg/pr202`/IdenticalAnonFields#$anon_44af0565eb406c15#t.
  }
//⌃ enclosing_range_end 0.1.test `sg/pr202`/useIdenticalAnonFields().
  
  // Different field order means different type — symbols must NOT unify.
  type FieldOrderMatters struct {
//     ^^^^^^^^^^^^^^^^^ definition 0.1.test `sg/pr202`/FieldOrderMatters#
//                       kind Struct
//                       display_name FieldOrderMatters
//                       signature_documentation
//                       > type FieldOrderMatters struct {
//                       >     a struct {
//                       >         x int
//                       >         y string
//                       >     }
//                       >     b struct {
//                       >         y string
//                       >         x int
//                       >     }
//                       > }
//                       documentation
//                       > Different field order means different type — symbols must NOT unify.
   a struct {
// ^ definition 0.1.test `sg/pr202`/FieldOrderMatters#a.
//   kind Field
//   display_name a
//   signature_documentation
//   > struct field a struct{x int; y string}
    x int
//  ^ definition 0.1.test `sg/pr202`/FieldOrderMatters#$anon_c0a8952b3a214f68#x.
//    kind Field
//    display_name x
//    signature_documentation
//    > struct field x int
    y string
//  ^ definition 0.1.test `sg/pr202`/FieldOrderMatters#$anon_c0a8952b3a214f68#y.
//    kind Field
//    display_name y
//    signature_documentation
//    > struct field y string
   }
   b struct {
// ^ definition 0.1.test `sg/pr202`/FieldOrderMatters#b.
//   kind Field
//   display_name b
//   signature_documentation
//   > struct field b struct{y string; x int}
    y string
//  ^ definition 0.1.test `sg/pr202`/FieldOrderMatters#$anon_b8d88f3211c0d7a4#y.
//    kind Field
//    display_name y
//    signature_documentation
//    > struct field y string
    x int
//  ^ definition 0.1.test `sg/pr202`/FieldOrderMatters#$anon_b8d88f3211c0d7a4#x.
//    kind Field
//    display_name x
//    signature_documentation
//    > struct field x int
   }
  }
  
  // Different struct tags — symbols must NOT unify.
  type DifferentTags struct {
//     ^^^^^^^^^^^^^ definition 0.1.test `sg/pr202`/DifferentTags#
//                   kind Struct
//                   display_name DifferentTags
//                   signature_documentation
//                   > type DifferentTags struct {
//                   >     a struct {
//                   >         Name string ""json:\""name\""""
//                   >     }
//                   >     b struct {
//                   >         Name string ""json:\""full_name\""""
//                   >     }
//                   > }
//                   documentation
//                   > Different struct tags — symbols must NOT unify.
   a struct {
// ^ definition 0.1.test `sg/pr202`/DifferentTags#a.
//   kind Field
//   display_name a
//   signature_documentation
//   > struct field a struct{Name string `json:""name""`}
    Name string `json:""name""`
//  ^^^^ definition 0.1.test `sg/pr202`/DifferentTags#$anon_ed545d904f2246eb#Name.
//       kind Field
//       display_name Name
//       signature_documentation
//       > struct field Name string
   }
   b struct {
// ^ definition 0.1.test `sg/pr202`/DifferentTags#b.
//   kind Field
//   display_name b
//   signature_documentation
//   > struct field b struct{Name string `json:""full_name""`}
    Name string `json:""full_name""`
//  ^^^^ definition 0.1.test `sg/pr202`/DifferentTags#$anon_29f1ad2683b11ed0#Name.
//       kind Field
//       display_name Name
//       signature_documentation
//       > struct field Name string
   }
  }
  
");
  ("local_anon.go", "  package pr202
//        ^^^^^ definition 0.1.test `sg/pr202`/
  
  // Anonymous structs in local/function scope.
  
//⌄ enclosing_range_start 0.1.test `sg/pr202`/localAnonymousStructs().
  func localAnonymousStructs() {
//     ^^^^^^^^^^^^^^^^^^^^^ definition 0.1.test `sg/pr202`/localAnonymousStructs().
//                           kind Function
//                           display_name localAnonymousStructs
//                           signature_documentation
//                           > func localAnonymousStructs()
   a := struct{ x int }{x: 1}
// ^ definition local 0
//   kind Variable
//   display_name a
//   signature_documentation
//   > var a struct{x int}
//              ^ definition local 1
//                kind Field
//                display_name x
//                signature_documentation
//                > field x int
//                      ^ reference local 1
   b := struct{ x int }{x: 2}
// ^ definition local 2
//   kind Variable
//   display_name b
//   signature_documentation
//   > var b struct{x int}
//              ^ definition local 3
//                kind Field
//                display_name x
//                signature_documentation
//                > field x int
//                      ^ reference local 3
   _ = a.x
//     ^ reference local 0
//       ^ reference local 1
   _ = b.x
//     ^ reference local 2
//       ^ reference local 3
  }
//⌃ enclosing_range_end 0.1.test `sg/pr202`/localAnonymousStructs().
  
//⌄ enclosing_range_start 0.1.test `sg/pr202`/paramAnonymousStruct().
  func paramAnonymousStruct(p struct{ x int }) int {
//     ^^^^^^^^^^^^^^^^^^^^ definition 0.1.test `sg/pr202`/paramAnonymousStruct().
//                          kind Function
//                          display_name paramAnonymousStruct
//                          signature_documentation
//                          > func paramAnonymousStruct(p struct{x int}) int
//                          ^ definition local 4
//                            kind Variable
//                            display_name p
//                            signature_documentation
//                            > var p struct{x int}
//                                    ^ definition local 5
//                                      kind Field
//                                      display_name x
//                                      signature_documentation
//                                      > field x int
   return p.x
//        ^ reference local 4
//          ^ reference local 5
  }
//⌃ enclosing_range_end 0.1.test `sg/pr202`/paramAnonymousStruct().
  
");
  ("multiname_fields.go", "  package pr202
//        ^^^^^ definition 0.1.test `sg/pr202`/
  
  // Multi-name field declarations: a, b share a type and must be siblings.
  
  type MultiNameStruct struct {
//     ^^^^^^^^^^^^^^^ definition 0.1.test `sg/pr202`/MultiNameStruct#
//                     kind Struct
//                     display_name MultiNameStruct
//                     signature_documentation
//                     > type MultiNameStruct struct {
//                     >     a struct {
//                     >         x int
//                     >         y string
//                     >     }
//                     >     b struct {
//                     >         x int
//                     >         y string
//                     >     }
//                     > }
   a, b struct {
// ^ definition 0.1.test `sg/pr202`/MultiNameStruct#a.
//   kind Field
//   display_name a
//   signature_documentation
//   > struct field a struct{x int; y string}
//    ^ definition 0.1.test `sg/pr202`/MultiNameStruct#b.
//      kind Field
//      display_name b
//      signature_documentation
//      > struct field b struct{x int; y string}
    x int
//  ^ definition 0.1.test `sg/pr202`/MultiNameStruct#$anon_c0a8952b3a214f68#x.
//    kind Field
//    display_name x
//    signature_documentation
//    > struct field x int
    y string
//  ^ definition 0.1.test `sg/pr202`/MultiNameStruct#$anon_c0a8952b3a214f68#y.
//    kind Field
//    display_name y
//    signature_documentation
//    > struct field y string
   }
  }
  
//⌄ enclosing_range_start 0.1.test `sg/pr202`/useMultiNameFields().
  func useMultiNameFields() {
//     ^^^^^^^^^^^^^^^^^^ definition 0.1.test `sg/pr202`/useMultiNameFields().
//                        kind Function
//                        display_name useMultiNameFields
//                        signature_documentation
//                        > func useMultiNameFields()
   var m MultiNameStruct
//     ^ definition local 0
//       kind Variable
//       display_name m
//       signature_documentation
//       > var m MultiNameStruct
//       ^^^^^^^^^^^^^^^ reference 0.1.test `sg/pr202`/MultiNameStruct#
   m.a.x = 1
// ^ reference local 0
//   ^ reference 0.1.test `sg/pr202`/MultiNameStruct#a.
//     ^ reference 0.1.test `sg/pr202`/MultiNameStruct#$anon_c0a8952b3a214f68#x.
   m.b.x = 2
// ^ reference local 0
//   ^ reference 0.1.test `sg/pr202`/MultiNameStruct#b.
//     ^ reference 0.1.test `sg/pr202`/MultiNameStruct#$anon_c0a8952b3a214f68#x.
   m.a = m.b
// ^ reference local 0
//   ^ reference 0.1.test `sg/pr202`/MultiNameStruct#a.
//       ^ reference local 0
//         ^ reference 0.1.test `sg/pr202`/MultiNameStruct#b.
  }
//⌃ enclosing_range_end 0.1.test `sg/pr202`/useMultiNameFields().
  
");
  ("nested_anon.go", "  package pr202
//        ^^^^^ definition 0.1.test `sg/pr202`/
  
  // Anonymous structs inside container types and nested structs.
  
  type ContainerAnon struct {
//     ^^^^^^^^^^^^^ definition 0.1.test `sg/pr202`/ContainerAnon#
//                   kind Struct
//                   display_name ContainerAnon
//                   signature_documentation
//                   > type ContainerAnon struct {
//                   >     items   []struct{ id int }
//                   >     entries map[string]struct{ count int }
//                   >     ptr     *struct{ data int }
//                   > }
   items   []struct{ id int }
// ^^^^^ definition 0.1.test `sg/pr202`/ContainerAnon#items.
//       kind Field
//       display_name items
//       signature_documentation
//       > struct field items []struct{id int}
//                   ^^ definition 0.1.test `sg/pr202`/ContainerAnon#$anon_71c5ea8d9342795c#id.
//                      kind Field
//                      display_name id
//                      signature_documentation
//                      > struct field id int
   entries map[string]struct{ count int }
// ^^^^^^^ definition 0.1.test `sg/pr202`/ContainerAnon#entries.
//         kind Field
//         display_name entries
//         signature_documentation
//         > struct field entries map[string]struct{count int}
//                            ^^^^^ definition 0.1.test `sg/pr202`/ContainerAnon#$anon_721f9800014370ac#count.
//                                  kind Field
//                                  display_name count
//                                  signature_documentation
//                                  > struct field count int
   ptr     *struct{ data int }
// ^^^ definition 0.1.test `sg/pr202`/ContainerAnon#ptr.
//     kind Field
//     display_name ptr
//     signature_documentation
//     > struct field ptr *struct{data int}
//                  ^^^^ definition 0.1.test `sg/pr202`/ContainerAnon#$anon_944f727740dfb75d#data.
//                       kind Field
//                       display_name data
//                       signature_documentation
//                       > struct field data int
  }
  
  type DeepNested struct {
//     ^^^^^^^^^^ definition 0.1.test `sg/pr202`/DeepNested#
//                kind Struct
//                display_name DeepNested
//                signature_documentation
//                > type DeepNested struct {
//                >     outer struct{ inner struct{ value int } }
//                > }
   outer struct {
// ^^^^^ definition 0.1.test `sg/pr202`/DeepNested#outer.
//       kind Field
//       display_name outer
//       signature_documentation
//       > struct field outer struct{inner struct{value int}}
    inner struct {
//  ^^^^^ definition 0.1.test `sg/pr202`/DeepNested#$anon_5ee0364e53e1abd6#inner.
//        kind Field
//        display_name inner
//        signature_documentation
//        > struct field inner struct{value int}
     value int
//   ^^^^^ definition 0.1.test `sg/pr202`/DeepNested#$anon_5ee0364e53e1abd6#$anon_77e42bf2e5c84d1a#value.
//         kind Field
//         display_name value
//         signature_documentation
//         > struct field value int
    }
   }
  }
  
  // Two fields with identical slice-of-anonymous-struct type.
  type SliceAnonShared struct {
//     ^^^^^^^^^^^^^^^ definition 0.1.test `sg/pr202`/SliceAnonShared#
//                     kind Struct
//                     display_name SliceAnonShared
//                     signature_documentation
//                     > type SliceAnonShared struct {
//                     >     a []struct{ v int }
//                     >     b []struct{ v int }
//                     > }
//                     documentation
//                     > Two fields with identical slice-of-anonymous-struct type.
   a []struct{ v int }
// ^ definition 0.1.test `sg/pr202`/SliceAnonShared#a.
//   kind Field
//   display_name a
//   signature_documentation
//   > struct field a []struct{v int}
//             ^ definition 0.1.test `sg/pr202`/SliceAnonShared#$anon_358bfde4cba1ecae#v.
//               kind Field
//               display_name v
//               signature_documentation
//               > struct field v int
   b []struct{ v int }
// ^ definition 0.1.test `sg/pr202`/SliceAnonShared#b.
//   kind Field
//   display_name b
//   signature_documentation
//   > struct field b []struct{v int}
//             ^ definition 0.1.test `sg/pr202`/SliceAnonShared#$anon_358bfde4cba1ecae#v.
//               kind Field
//               display_name v
//               signature_documentation
//               > struct field v int
  }
  
//⌄ enclosing_range_start 0.1.test `sg/pr202`/useContainerAnon().
  func useContainerAnon() {
//     ^^^^^^^^^^^^^^^^ definition 0.1.test `sg/pr202`/useContainerAnon().
//                      kind Function
//                      display_name useContainerAnon
//                      signature_documentation
//                      > func useContainerAnon()
   var c ContainerAnon
//     ^ definition local 0
//       kind Variable
//       display_name c
//       signature_documentation
//       > var c ContainerAnon
//       ^^^^^^^^^^^^^ reference 0.1.test `sg/pr202`/ContainerAnon#
   if len(c.items) > 0 {
//        ^ reference local 0
//          ^^^^^ reference 0.1.test `sg/pr202`/ContainerAnon#items.
    _ = c.items[0].id
//      ^ reference local 0
//        ^^^^^ reference 0.1.test `sg/pr202`/ContainerAnon#items.
//                 ^^ reference 0.1.test `sg/pr202`/ContainerAnon#$anon_71c5ea8d9342795c#id.
   }
   entry := c.entries[""key""]
// ^^^^^ definition local 1
//       kind Variable
//       display_name entry
//       signature_documentation
//       > var entry struct{count int}
//          ^ reference local 0
//            ^^^^^^^ reference 0.1.test `sg/pr202`/ContainerAnon#entries.
   _ = entry.count
//     ^^^^^ reference local 1
//           ^^^^^ reference 0.1.test `sg/pr202`/ContainerAnon#$anon_721f9800014370ac#count.
   if c.ptr != nil {
//    ^ reference local 0
//      ^^^ reference 0.1.test `sg/pr202`/ContainerAnon#ptr.
    _ = c.ptr.data
//      ^ reference local 0
//        ^^^ reference 0.1.test `sg/pr202`/ContainerAnon#ptr.
//            ^^^^ reference 0.1.test `sg/pr202`/ContainerAnon#$anon_944f727740dfb75d#data.
   }
  
   var d DeepNested
//     ^ definition local 2
//       kind Variable
//       display_name d
//       signature_documentation
//       > var d DeepNested
//       ^^^^^^^^^^ reference 0.1.test `sg/pr202`/DeepNested#
   d.outer.inner.value = 42
// ^ reference local 2
//   ^^^^^ reference 0.1.test `sg/pr202`/DeepNested#outer.
//         ^^^^^ reference 0.1.test `sg/pr202`/DeepNested#$anon_5ee0364e53e1abd6#inner.
//               ^^^^^ reference 0.1.test `sg/pr202`/DeepNested#$anon_5ee0364e53e1abd6#$anon_77e42bf2e5c84d1a#value.
  }
//⌃ enclosing_range_end 0.1.test `sg/pr202`/useContainerAnon().
  
")].

(** The model, run on the input directory, gives the golden files of /repo. *)
Example snapshot_pr202 : snapshot input = Some golden.
Proof. vm_compute. reflexivity. Qed.
(** The directory meets the hypotheses of the theorems (Contract.scopes_contract_ok). *)
Example snapshot_pr202_contract : contract input = true ∧ scopesb input = true.
Proof. split; vm_compute; reflexivity. Qed.
