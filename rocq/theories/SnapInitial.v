(** Generated by tools/snapshot/emit.py from /repo/internal/testdata/snapshots/{input,output}/initial: what packages.Load
    returns for that directory (syntax, types, modules; dependencies reduced to the declarations used), and the golden output. *)
From Coq Require Import Ascii String.
From stdpp Require Import prelude strings gmap.
From Verif Require Import GoStr Scip GoTypes Ast Packages Source Signature Snapshot Contract.
Open Scope string_scope.
Open Scope list_scope.
Definition k0 : tpkg := TPkg "io" [SEntry "Writer" true (TNamed (TName 74 (Some "io") "Writer") [])].
Definition o74 : obj := Obj 74 "Writer" (Some k0) 10000322 OTypeName (TNamed (TName 74 (Some "io") "Writer") []) None.
Definition o75 : obj := Obj 75 "Write" (Some k0) 10000341 (OFunc (Some (Some (TNamed (TName 74 (Some "io") "Writer") [])))) (TSig [(TSlice (TBasic BUint8 true))] [(TBasic BInt false); (TNamed (TName 21 None "error") [])] false) None.
Definition k1 : tpkg := TPkg "fmt" [SEntry "Fprint" false (TBasic BInvalid false); SEntry "Print" false (TBasic BInvalid false); SEntry "Printf" false (TBasic BInvalid false); SEntry "Println" false (TBasic BInvalid false); SEntry "Sprintf" false (TBasic BInvalid false); SEntry "Stringer" true (TNamed (TName 80 (Some "fmt") "Stringer") [])].
Definition o85 : obj := Obj 85 "Fprint" (Some k1) 10000256 (OFunc (Some None)) (TSig [(TNamed (TName 74 (Some "io") "Writer") []); (TSlice (TAlias (TName 20 None "any") (TInterface [] "")))] [(TBasic BInt false); (TNamed (TName 21 None "error") [])] true) None.
Definition o81 : obj := Obj 81 "Print" (Some k1) 10000073 (OFunc (Some None)) (TSig [(TSlice (TAlias (TName 20 None "any") (TInterface [] "")))] [(TBasic BInt false); (TNamed (TName 21 None "error") [])] true) None.
Definition o83 : obj := Obj 83 "Printf" (Some k1) 10000155 (OFunc (Some None)) (TSig [(TBasic BString false); (TSlice (TAlias (TName 20 None "any") (TInterface [] "")))] [(TBasic BInt false); (TNamed (TName 21 None "error") [])] true) None.
Definition o82 : obj := Obj 82 "Println" (Some k1) 10000113 (OFunc (Some None)) (TSig [(TSlice (TAlias (TName 20 None "any") (TInterface [] "")))] [(TBasic BInt false); (TNamed (TName 21 None "error") [])] true) None.
Definition o84 : obj := Obj 84 "Sprintf" (Some k1) 10000211 (OFunc (Some None)) (TSig [(TBasic BString false); (TSlice (TAlias (TName 20 None "any") (TInterface [] "")))] [(TBasic BString false)] true) None.
Definition o80 : obj := Obj 80 "Stringer" (Some k1) 10000029 OTypeName (TNamed (TName 80 (Some "fmt") "Stringer") []) None.
Definition o86 : obj := Obj 86 "String" (Some k1) 10000050 (OFunc (Some (Some (TNamed (TName 80 (Some "fmt") "Stringer") [])))) (TSig [] [(TBasic BString false)] false) None.
Definition k2 : tpkg := TPkg "slices" [SEntry "All" false (TBasic BInvalid false)].
Definition o109 : obj := Obj 109 "All" (Some k2) 10000399 (OFunc (Some None)) (TSig [(TSlice (TTypeParam (TName 110 (Some "slices") "E") 0))] [(TSig [(TSig [(TBasic BInt false); (TTypeParam (TName 110 (Some "slices") "E") 0)] [(TBasic BBool false)] false)] [] false)] false) None.
(* initial/builtin_types.go *)
Definition f4_0 : node := (NFile 1 false "" (Ident 1 "initial" 9)
  [(NFuncDecl "" 18 69 None (Ident 2 "UsesBuiltin" 23) (NFuncType 18 (NFieldList []) (NFieldList []) (NFieldList [(NField "" "" [] (NIdent (Ident 3 "int" 37)))])) (Some (NBlockStmt 41 [(NOther 44 [(NGenDecl 44 VAR "" [(NValueSpec "" "" [(Ident 4 "x" 48)] (Some (NIdent (Ident 5 "int" 50))) [])])]); (NOther 59 [(NIdent (Ident 6 "x" 66))])])))]).
(* initial/child_symbols.go *)
Definition f4_1 : node := (NFile 71 false "" (Ident 7 "initial" 79)
  [(NGenDecl 170 CONST "Const is a constant equal to 5. It's the best constant I've ever written. 😹
" [(NValueSpec "" "" [(Ident 8 "Const" 176)] None [])]);
   (NGenDecl 223 CONST "Docs for the const block itself.
" [(NValueSpec "ConstBlock1 is a constant in a block.
" "" [(Ident 9 "ConstBlock1" 274)] None []); (NValueSpec "ConstBlock2 is a constant in a block.
" "" [(Ident 10 "ConstBlock2" 334)] None [])]);
   (NGenDecl 385 VAR "Var is a variable interface.
" [(NValueSpec "" "" [(Ident 11 "Var" 389)] (Some (NIdent (Ident 12 "Interface" 393))) [(NUnaryExpr 405 (NOther 406 [(NIdent (Ident 13 "Struct" 406)); (NOther 413 [(NIdent (Ident 14 "Field" 413))])]))])]);
   (NGenDecl 483 VAR "unexportedVar is an unexported variable interface.
" [(NValueSpec "" "" [(Ident 15 "unexportedVar" 487)] (Some (NIdent (Ident 16 "Interface" 501))) [(NUnaryExpr 513 (NOther 514 [(NIdent (Ident 17 "Struct" 514)); (NOther 521 [(NIdent (Ident 18 "Field" 521))])]))])]);
   (NGenDecl 567 VAR "x has a builtin error type
" [(NValueSpec "" "" [(Ident 19 "x" 571)] (Some (NIdent (Ident 20 "error" 573))) [])]);
   (NGenDecl 580 VAR "" [(NValueSpec "" "" [(Ident 21 "BigVar" 584)] (Some (NIdent (Ident 22 "Interface" 591))) [(NUnaryExpr 603 (NOther 604 [(NIdent (Ident 23 "Struct" 604)); (NOther 613 [(NIdent (Ident 24 "Field" 613))]); (NOther 629 [(NIdent (Ident 25 "Anonymous" 629)); (NOther 640 [(NStructType 26 640 (NFieldList [(NField "" "" [(Ident 27 "FieldA" 651)] (NIdent (Ident 28 "int" 658))); (NField "" "" [(Ident 29 "FieldB" 664)] (NIdent (Ident 30 "int" 671))); (NField "" "" [(Ident 31 "FieldC" 677)] (NIdent (Ident 32 "int" 684)))])); (NOther 691 [(NIdent (Ident 33 "FieldA" 691))])])])]))])]);
   (NGenDecl 1044 VAR "What are docs, really?
I can't say for sure, I don't write any.
But look, a CAT!

	      |\      _,,,---,,_
	ZZZzz /,`.-'`'    -.  ;-;;,_
	     |,4-  ) )-,_. ,\ (  `'-'
	    '---''(_/--'  `-'\_)

It's sleeping! Some people write that as `sleeping` but Markdown
isn't allowed in Go docstrings, right? right?!
" [(NValueSpec "This has some docs
" "" [(Ident 34 "VarBlock1" 1074)] None []); (NValueSpec "" "" [(Ident 35 "VarBlock2" 1113)] None [])]);
   (NGenDecl 1192 TYPE "Embedded is a struct, to be embedded in another struct.
" [(NTypeSpec "" (Ident 36 "Embedded" 1197) (NFieldList []) (NStructType 37 1206 (NFieldList [(NField "EmbeddedField has some docs!
" "" [(Ident 38 "EmbeddedField" 1249)] (NIdent (Ident 39 "string" 1263))); (NField "" "conflicts with parent ""Field""
" [(Ident 40 "Field" 1271)] (NIdent (Ident 41 "string" 1285)))])))]);
   (NGenDecl 1328 TYPE "" [(NTypeSpec "" (Ident 42 "Struct" 1333) (NFieldList []) (NStructType 43 1340 (NFieldList [(NField "" "" [] (NStarExpr 1350 (NIdent (Ident 44 "Embedded" 1351)))); (NField "" "" [(Ident 45 "Field" 1361)] (NIdent (Ident 46 "string" 1371))); (NField "" "" [(Ident 47 "Anonymous" 1379)] (NStructType 48 1389 (NFieldList [(NField "" "" [(Ident 49 "FieldA" 1400)] (NIdent (Ident 50 "int" 1407))); (NField "" "" [(Ident 51 "FieldB" 1413)] (NIdent (Ident 52 "int" 1420))); (NField "" "" [(Ident 53 "FieldC" 1426)] (NIdent (Ident 54 "int" 1433)))])))])))]);
   (NFuncDecl "StructMethod has some docs!
" 1474 1508 (Some (NFieldList [(NField "" "" [(Ident 55 "s" 1480)] (NStarExpr 1482 (NIdent (Ident 56 "Struct" 1483))))])) (Ident 57 "StructMethod" 1491) (NFuncType 1474 (NFieldList []) (NFieldList []) (NFieldList [])) (Some (NBlockStmt 1506 [])));
   (NFuncDecl "" 1510 1572 (Some (NFieldList [(NField "" "" [(Ident 58 "s" 1516)] (NStarExpr 1518 (NIdent (Ident 59 "Struct" 1519))))])) (Ident 60 "ImplementsInterface" 1527) (NFuncType 1510 (NFieldList []) (NFieldList []) (NFieldList [(NField "" "" [] (NIdent (Ident 61 "string" 1549)))])) (Some (NBlockStmt 1556 [(NOther 1558 [])])));
   (NFuncDecl "" 1574 2734 (Some (NFieldList [(NField "" "" [(Ident 62 "s" 1580)] (NStarExpr 1582 (NIdent (Ident 63 "Struct" 1583))))])) (Ident 64 "MachineLearning" 1591) (NFuncType 1574 (NFieldList []) (NFieldList [(NField "" "" [(Ident 65 "param1" 1609)] (NIdent (Ident 66 "float32" 1616))); (NField "" "" [(Ident 67 "hyperparam2" 2108)] (NIdent (Ident 68 "float32" 2120))); (NField "" "" [(Ident 69 "hyperparam3" 2130)] (NIdent (Ident 70 "float32" 2142)))]) (NFieldList [(NField "" "" [] (NIdent (Ident 71 "float32" 2153)))])) (Some (NBlockStmt 2161 [(NOther 2237 [(NGenDecl 2237 VAR "varShouldNotHaveDocs is in a function, should not have docs emitted.
" [(NValueSpec "" "" [(Ident 72 "varShouldNotHaveDocs" 2241)] (Some (NIdent (Ident 73 "int32" 2262))) [])])]); (NOther 2345 [(NGenDecl 2345 CONST "constShouldNotHaveDocs is in a function, should not have docs emitted.
" [(NValueSpec "" "" [(Ident 74 "constShouldNotHaveDocs" 2351)] None [])])]); (NOther 2454 [(NGenDecl 2454 TYPE "typeShouldNotHaveDocs is in a function, should not have docs emitted.
" [(NTypeSpec "" (Ident 75 "typeShouldNotHaveDocs" 2459) (NFieldList []) (NStructType 76 2481 (NFieldList [(NField "" "" [(Ident 77 "a" 2489)] (NIdent (Ident 78 "string" 2491)))])))])]); (NOther 2576 [(NIdent (Ident 79 "funcShouldNotHaveDocs" 2576)); (NFuncLit (NFuncType 2601 (NFieldList []) (NFieldList [(NField "" "" [(Ident 80 "a" 2606)] (NIdent (Ident 81 "string" 2608)))]) (NFieldList [(NField "" "" [] (NIdent (Ident 82 "string" 2616)))])) (NBlockStmt 2623 [(NOther 2625 [])]))]); (NOther 2644 [(NBinaryExpr (NIdent (Ident 83 "param1" 2651)) (NParenExpr 2660 (NBinaryExpr (NIdent (Ident 84 "hyperparam2" 2661)) (NStarExpr 2675 (NIdent (Ident 85 "hyperparam3" 2676))))))])])));
   (NGenDecl 2762 TYPE "Interface has docs too
" [(NTypeSpec "" (Ident 86 "Interface" 2767) (NFieldList []) (NInterfaceType 87 2777 (NFieldList [(NField "" "" [(Ident 88 "ImplementsInterface" 2790)] (NFuncType 2809 (NFieldList []) (NFieldList []) (NFieldList [(NField "" "" [] (NIdent (Ident 89 "string" 2812)))])))])))]);
   (NFuncDecl "" 2822 2866 None (Ident 90 "NewInterface" 2827) (NFuncType 2822 (NFieldList []) (NFieldList []) (NFieldList [(NField "" "" [] (NIdent (Ident 91 "Interface" 2842)))])) (Some (NBlockStmt 2852 [(NOther 2854 [(NIdent (Ident 92 "nil" 2861))])])));
   (NGenDecl 2868 VAR "" [(NValueSpec "" "" [(Ident 93 "SortExportedFirst" 2872)] None [])]);
   (NGenDecl 2895 VAR "" [(NValueSpec "" "" [(Ident 94 "sortUnexportedSecond" 2899)] None [])]);
   (NGenDecl 2925 VAR "" [(NValueSpec "" "" [(Ident 95 "_sortUnderscoreLast" 2929)] None [])]);
   (NGenDecl 3194 VAR "Yeah this is some Go magic incantation which is common.

	 ,_     _
	 |\\_,-~/
	 / _  _ |    ,--.
	(  @  @ )   / ,-'
	 \  _T_/-._( (
	/         `. \
	|         _  \ |
	\ \ ,  /      |
	 || |-_\__   /
	((_/`(____,-'
" [(NValueSpec "" "" [(Ident 96 "_" 3198)] None [(NOther 3202 [(NIdent (Ident 97 "Interface" 3202)); (NUnaryExpr 3212 (NOther 3213 [(NIdent (Ident 98 "Struct" 3213))]))])])]);
   (NGenDecl 3224 TYPE "" [(NTypeSpec "" (Ident 99 "_" 3229) (NFieldList []) (NStructType 100 3233 (NFieldList [])))]);
   (NFuncDecl "crypto/tls/common_string.go uses this pattern..
" 3294 3306 None (Ident 101 "_" 3299) (NFuncType 3294 (NFieldList []) (NFieldList []) (NFieldList [])) (Some (NBlockStmt 3303 [])));
   (NGenDecl 3325 TYPE "Go can be fun
" [(NTypeSpec "And confusing
" (Ident 102 "X" 3351) (NFieldList []) (NStructType 103 3353 (NFieldList [(NField "" "" [(Ident 104 "bar" 3364)] (NIdent (Ident 105 "string" 3368)))]))); (NTypeSpec "" (Ident 106 "Y" 3380) (NFieldList []) (NStructType 107 3382 (NFieldList [(NField "" "" [(Ident 108 "baz" 3393)] (NIdent (Ident 109 "float64" 3397)))])))])]).
(* initial/func_declarations.go *)
Definition f4_2 : node := (NFile 3411 false "" (Ident 110 "initial" 3419)
  [(NFuncDecl "" 3428 3464 None (Ident 111 "UsesLater" 3433) (NFuncType 3428 (NFieldList []) (NFieldList []) (NFieldList [])) (Some (NBlockStmt 3445 [(NOther 3448 [(NOther 3448 [(NIdent (Ident 112 "DefinedLater" 3448))])])])));
   (NFuncDecl "" 3466 3488 None (Ident 113 "DefinedLater" 3471) (NFuncType 3466 (NFieldList []) (NFieldList []) (NFieldList [])) (Some (NBlockStmt 3486 [])))]).
(* initial/methods_and_receivers.go *)
Definition f4_3 : node := (NFile 3490 false "" (Ident 114 "initial" 3498)
  [(NGenDecl 3507 IMPORT "" [(NImportSpec 115 None 3514 """fmt""")]);
   (NGenDecl 3521 TYPE "" [(NTypeSpec "" (Ident 116 "MyStruct" 3526) (NFieldList []) (NStructType 117 3535 (NFieldList [(NField "" "" [(Ident 118 "f" 3543); (Ident 119 "y" 3546)] (NIdent (Ident 120 "int" 3548)))])))]);
   (NFuncDecl "" 3555 3615 (Some (NFieldList [(NField "" "" [(Ident 121 "m" 3561)] (NIdent (Ident 122 "MyStruct" 3563)))])) (Ident 123 "RecvFunction" 3573) (NFuncType 3555 (NFieldList []) (NFieldList [(NField "" "" [(Ident 124 "b" 3586)] (NIdent (Ident 125 "int" 3588)))]) (NFieldList [(NField "" "" [] (NIdent (Ident 126 "int" 3593)))])) (Some (NBlockStmt 3597 [(NOther 3599 [(NBinaryExpr (NSelectorExpr (NIdent (Ident 127 "m" 3606)) (Ident 128 "f" 3608)) (NIdent (Ident 129 "b" 3612)))])])));
   (NFuncDecl "" 3617 3678 None (Ident 130 "SomethingElse" 3622) (NFuncType 3617 (NFieldList []) (NFieldList []) (NFieldList [])) (Some (NBlockStmt 3638 [(NOther 3641 [(NIdent (Ident 131 "s" 3641)); (NOther 3646 [(NIdent (Ident 132 "MyStruct" 3646)); (NOther 3655 [(NIdent (Ident 133 "f" 3655))])])]); (NOther 3662 [(NOther 3662 [(NSelectorExpr (NIdent (Ident 134 "fmt" 3662)) (Ident 135 "Println" 3666)); (NIdent (Ident 136 "s" 3674))])])])))]).
(* initial/package_definition.go *)
Definition f4_4 : node := (NFile 3776 true "This is a module for testing purposes.
This should now be the place that has a definition
" (Ident 137 "initial" 3784)
  []).
(* initial/rangefunc.go *)
Definition f4_5 : node := (NFile 3793 false "" (Ident 138 "initial" 3801)
  [(NGenDecl 3810 IMPORT "" [(NImportSpec 139 None 3820 """slices""")]);
   (NFuncDecl "" 3832 3917 None (Ident 140 "f" 3837) (NFuncType 3832 (NFieldList []) (NFieldList [(NField "" "" [(Ident 141 "xs" 3839)] (NArrayType 3842 None (NIdent (Ident 142 "int" 3844))))]) (NFieldList [(NField "" "" [] (NIdent (Ident 143 "int" 3849)))])) (Some (NBlockStmt 3853 [(NOther 3856 [(NIdent (Ident 144 "_" 3860)); (NIdent (Ident 145 "x" 3863)); (NOther 3874 [(NSelectorExpr (NIdent (Ident 146 "slices" 3874)) (Ident 147 "All" 3881)); (NIdent (Ident 148 "xs" 3885))]); (NBlockStmt 3889 [(NOther 3893 [(NIdent (Ident 149 "x" 3900))])])]); (NOther 3906 [(NUnaryExpr 3913 (NOther 3914 []))])])))]).
(* initial/toplevel_decls.go *)
Definition f4_6 : node := (NFile 3919 false "" (Ident 150 "initial" 3927)
  [(NGenDecl 3936 CONST "" [(NValueSpec "" "" [(Ident 151 "MY_THING" 3942)] None [])]);
   (NGenDecl 3956 CONST "" [(NValueSpec "" "" [(Ident 152 "OTHER_THING" 3962)] None [(NIdent (Ident 153 "MY_THING" 3976))])]);
   (NFuncDecl "" 3986 4022 None (Ident 154 "usesMyThing" 3991) (NFuncType 3986 (NFieldList []) (NFieldList []) (NFieldList [])) (Some (NBlockStmt 4005 [(NOther 4008 [(NIdent (Ident 155 "_" 4008)); (NIdent (Ident 156 "MY_THING" 4012))])])));
   (NGenDecl 4024 VAR "" [(NValueSpec "" "" [(Ident 157 "initFunctions" 4028)] None [(NOther 4044 [(NMapType 4044 (NIdent (Ident 158 "string" 4048)) (NIdent (Ident 159 "int" 4055)))])])])]).
(* initial/type_declarations.go *)
Definition f4_7 : node := (NFile 4062 false "" (Ident 160 "initial" 4070)
  [(NGenDecl 4079 TYPE "" [(NTypeSpec "" (Ident 161 "LiteralType" 4084) (NFieldList []) (NIdent (Ident 162 "int" 4096)))]);
   (NGenDecl 4101 TYPE "" [(NTypeSpec "" (Ident 163 "FuncType" 4106) (NFieldList []) (NFuncType 4115 (NFieldList []) (NFieldList [(NField "" "" [] (NIdent (Ident 164 "LiteralType" 4120))); (NField "" "" [] (NIdent (Ident 165 "int" 4133)))]) (NFieldList [(NField "" "" [] (NIdent (Ident 166 "bool" 4138)))])))]);
   (NGenDecl 4144 TYPE "" [(NTypeSpec "" (Ident 167 "IfaceType" 4149) (NFieldList []) (NInterfaceType 168 4159 (NFieldList [(NField "" "" [(Ident 169 "Method" 4172)] (NFuncType 4178 (NFieldList []) (NFieldList []) (NFieldList [(NField "" "" [] (NIdent (Ident 170 "LiteralType" 4181)))])))])))]);
   (NGenDecl 4196 TYPE "" [(NTypeSpec "" (Ident 171 "StructType" 4201) (NFieldList []) (NStructType 172 4212 (NFieldList [(NField "" "" [(Ident 173 "m" 4222)] (NIdent (Ident 174 "IfaceType" 4224))); (NField "" "" [(Ident 175 "f" 4235)] (NIdent (Ident 176 "LiteralType" 4237))); (NField "anonymous struct
" "" [(Ident 177 "anon" 4272)] (NStructType 178 4277 (NFieldList [(NField "" "" [(Ident 179 "sub" 4288)] (NIdent (Ident 180 "int" 4292)))]))); (NField "interface within struct
" "" [(Ident 181 "i" 4329)] (NInterfaceType 182 4331 (NFieldList [(NField "" "" [(Ident 183 "AnonMethod" 4345)] (NFuncType 4355 (NFieldList []) (NFieldList []) (NFieldList [(NField "" "" [] (NIdent (Ident 184 "bool" 4358)))])))])))])))]);
   (NGenDecl 4369 TYPE "" [(NTypeSpec "" (Ident 185 "DeclaredBefore" 4374) (NFieldList []) (NStructType 186 4389 (NFieldList [(NField "" "" [] (NIdent (Ident 187 "DeclaredAfter" 4397)))])))]);
   (NGenDecl 4413 TYPE "" [(NTypeSpec "" (Ident 188 "DeclaredAfter" 4418) (NFieldList []) (NStructType 189 4432 (NFieldList [])))])]).
(* initial/type_hovers.go *)
Definition f4_8 : node := (NFile 4442 false "" (Ident 190 "initial" 4450)
  [(NGenDecl 4459 TYPE "" [(NTypeSpec "HoverTypeList is a cool struct
" (Ident 191 "HoverTypeList" 4502) (NFieldList []) (NStructType 192 4516 (NFieldList [])))]);
   (NGenDecl 4559 TYPE "This should show up as well
" [(NTypeSpec "" (Ident 193 "HoverType" 4564) (NFieldList []) (NStructType 194 4574 (NFieldList [])))])]).
Definition k3 : tpkg := TPkg "sg/initial" [SEntry "BigVar" false (TBasic BInvalid false); SEntry "Const" false (TBasic BInvalid false); SEntry "ConstBlock1" false (TBasic BInvalid false); SEntry "ConstBlock2" false (TBasic BInvalid false); SEntry "DeclaredAfter" true (TNamed (TName 128 (Some "sg/initial") "DeclaredAfter") []); SEntry "DeclaredBefore" true (TNamed (TName 127 (Some "sg/initial") "DeclaredBefore") []); SEntry "DefinedLater" false (TBasic BInvalid false); SEntry "Embedded" true (TNamed (TName 57 (Some "sg/initial") "Embedded") []); SEntry "FuncType" true (TNamed (TName 124 (Some "sg/initial") "FuncType") []); SEntry "HoverType" true (TNamed (TName 130 (Some "sg/initial") "HoverType") []); SEntry "HoverTypeList" true (TNamed (TName 129 (Some "sg/initial") "HoverTypeList") []); SEntry "IfaceType" true (TNamed (TName 125 (Some "sg/initial") "IfaceType") []); SEntry "Interface" true (TNamed (TName 62 (Some "sg/initial") "Interface") []); SEntry "LiteralType" true (TNamed (TName 123 (Some "sg/initial") "LiteralType") []); SEntry "MY_THING" false (TBasic BInvalid false); SEntry "MyStruct" true (TNamed (TName 106 (Some "sg/initial") "MyStruct") []); SEntry "NewInterface" false (TBasic BInvalid false); SEntry "OTHER_THING" false (TBasic BInvalid false); SEntry "SomethingElse" false (TBasic BInvalid false); SEntry "SortExportedFirst" false (TBasic BInvalid false); SEntry "Struct" true (TNamed (TName 58 (Some "sg/initial") "Struct") []); SEntry "StructType" true (TNamed (TName 126 (Some "sg/initial") "StructType") []); SEntry "UsesBuiltin" false (TBasic BInvalid false); SEntry "UsesLater" false (TBasic BInvalid false); SEntry "Var" false (TBasic BInvalid false); SEntry "VarBlock1" false (TBasic BInvalid false); SEntry "VarBlock2" false (TBasic BInvalid false); SEntry "X" true (TNamed (TName 70 (Some "sg/initial") "X") []); SEntry "Y" true (TNamed (TName 71 (Some "sg/initial") "Y") []); SEntry "_sortUnderscoreLast" false (TBasic BInvalid false); SEntry "f" false (TBasic BInvalid false); SEntry "initFunctions" false (TBasic BInvalid false); SEntry "sortUnexportedSecond" false (TBasic BInvalid false); SEntry "unexportedVar" false (TBasic BInvalid false); SEntry "usesMyThing" false (TBasic BInvalid false); SEntry "x" false (TBasic BInvalid false)].
Definition o47 : obj := Obj 47 "UsesBuiltin" (Some k3) 23 (OFunc (Some None)) (TSig [] [(TBasic BInt false)] false) None.
Definition o48 : obj := Obj 48 "Const" (Some k3) 176 OConst (TBasic BUntypedInt false) None.
Definition o49 : obj := Obj 49 "ConstBlock1" (Some k3) 274 OConst (TBasic BUntypedInt false) None.
Definition o50 : obj := Obj 50 "ConstBlock2" (Some k3) 334 OConst (TBasic BUntypedInt false) None.
Definition o51 : obj := Obj 51 "Var" (Some k3) 389 (OVar false) (TNamed (TName 62 (Some "sg/initial") "Interface") []) None.
Definition o52 : obj := Obj 52 "unexportedVar" (Some k3) 487 (OVar false) (TNamed (TName 62 (Some "sg/initial") "Interface") []) None.
Definition o53 : obj := Obj 53 "x" (Some k3) 571 (OVar false) (TNamed (TName 21 None "error") []) None.
Definition o54 : obj := Obj 54 "BigVar" (Some k3) 584 (OVar false) (TNamed (TName 62 (Some "sg/initial") "Interface") []) None.
Definition o55 : obj := Obj 55 "VarBlock1" (Some k3) 1074 (OVar false) (TBasic BString false) None.
Definition o56 : obj := Obj 56 "VarBlock2" (Some k3) 1113 (OVar false) (TBasic BString false) None.
Definition o57 : obj := Obj 57 "Embedded" (Some k3) 1197 OTypeName (TNamed (TName 57 (Some "sg/initial") "Embedded") []) None.
Definition o58 : obj := Obj 58 "Struct" (Some k3) 1333 OTypeName (TNamed (TName 58 (Some "sg/initial") "Struct") []) None.
Definition o59 : obj := Obj 59 "StructMethod" (Some k3) 1491 (OFunc (Some (Some (TPointer (TNamed (TName 58 (Some "sg/initial") "Struct") []))))) (TSig [] [] false) None.
Definition o60 : obj := Obj 60 "ImplementsInterface" (Some k3) 1527 (OFunc (Some (Some (TPointer (TNamed (TName 58 (Some "sg/initial") "Struct") []))))) (TSig [] [(TBasic BString false)] false) None.
Definition o61 : obj := Obj 61 "MachineLearning" (Some k3) 1591 (OFunc (Some (Some (TPointer (TNamed (TName 58 (Some "sg/initial") "Struct") []))))) (TSig [(TBasic BFloat32 false); (TBasic BFloat32 false); (TBasic BFloat32 false)] [(TBasic BFloat32 false)] false) None.
Definition o62 : obj := Obj 62 "Interface" (Some k3) 2767 OTypeName (TNamed (TName 62 (Some "sg/initial") "Interface") []) None.
Definition o63 : obj := Obj 63 "NewInterface" (Some k3) 2827 (OFunc (Some None)) (TSig [] [(TNamed (TName 62 (Some "sg/initial") "Interface") [])] false) None.
Definition o64 : obj := Obj 64 "SortExportedFirst" (Some k3) 2872 (OVar false) (TBasic BInt false) None.
Definition o65 : obj := Obj 65 "sortUnexportedSecond" (Some k3) 2899 (OVar false) (TBasic BInt false) None.
Definition o66 : obj := Obj 66 "_sortUnderscoreLast" (Some k3) 2929 (OVar false) (TBasic BInt false) None.
Definition o67 : obj := Obj 67 "_" (Some k3) 3198 (OVar false) (TNamed (TName 62 (Some "sg/initial") "Interface") []) None.
Definition o68 : obj := Obj 68 "_" (Some k3) 3229 OTypeName (TAlias (TName 68 (Some "sg/initial") "_") (TStruct [])) None.
Definition o69 : obj := Obj 69 "_" (Some k3) 3299 (OFunc (Some None)) (TSig [] [] false) None.
Definition o70 : obj := Obj 70 "X" (Some k3) 3351 OTypeName (TNamed (TName 70 (Some "sg/initial") "X") []) None.
Definition o71 : obj := Obj 71 "Y" (Some k3) 3380 OTypeName (TNamed (TName 71 (Some "sg/initial") "Y") []) None.
Definition o72 : obj := Obj 72 "UsesLater" (Some k3) 3433 (OFunc (Some None)) (TSig [] [] false) None.
Definition o73 : obj := Obj 73 "DefinedLater" (Some k3) 3471 (OFunc (Some None)) (TSig [] [] false) None.
Definition o106 : obj := Obj 106 "MyStruct" (Some k3) 3526 OTypeName (TNamed (TName 106 (Some "sg/initial") "MyStruct") []) None.
Definition o107 : obj := Obj 107 "RecvFunction" (Some k3) 3573 (OFunc (Some (Some (TNamed (TName 106 (Some "sg/initial") "MyStruct") [])))) (TSig [(TBasic BInt false)] [(TBasic BInt false)] false) None.
Definition o108 : obj := Obj 108 "SomethingElse" (Some k3) 3622 (OFunc (Some None)) (TSig [] [] false) None.
Definition o118 : obj := Obj 118 "f" (Some k3) 3837 (OFunc (Some None)) (TSig [(TSlice (TBasic BInt false))] [(TBasic BInt false)] false) None.
Definition o119 : obj := Obj 119 "MY_THING" (Some k3) 3942 OConst (TBasic BUntypedInt false) None.
Definition o120 : obj := Obj 120 "OTHER_THING" (Some k3) 3962 OConst (TBasic BUntypedInt false) None.
Definition o121 : obj := Obj 121 "usesMyThing" (Some k3) 3991 (OFunc (Some None)) (TSig [] [] false) None.
Definition o122 : obj := Obj 122 "initFunctions" (Some k3) 4028 (OVar false) (TMap (TBasic BString false) (TBasic BInt false)) None.
Definition o123 : obj := Obj 123 "LiteralType" (Some k3) 4084 OTypeName (TNamed (TName 123 (Some "sg/initial") "LiteralType") []) None.
Definition o124 : obj := Obj 124 "FuncType" (Some k3) 4106 OTypeName (TNamed (TName 124 (Some "sg/initial") "FuncType") []) None.
Definition o125 : obj := Obj 125 "IfaceType" (Some k3) 4149 OTypeName (TNamed (TName 125 (Some "sg/initial") "IfaceType") []) None.
Definition o126 : obj := Obj 126 "StructType" (Some k3) 4201 OTypeName (TNamed (TName 126 (Some "sg/initial") "StructType") []) None.
Definition o127 : obj := Obj 127 "DeclaredBefore" (Some k3) 4374 OTypeName (TNamed (TName 127 (Some "sg/initial") "DeclaredBefore") []) None.
Definition o128 : obj := Obj 128 "DeclaredAfter" (Some k3) 4418 OTypeName (TNamed (TName 128 (Some "sg/initial") "DeclaredAfter") []) None.
Definition o129 : obj := Obj 129 "HoverTypeList" (Some k3) 4502 OTypeName (TNamed (TName 129 (Some "sg/initial") "HoverTypeList") []) None.
Definition o130 : obj := Obj 130 "HoverType" (Some k3) 4564 OTypeName (TNamed (TName 130 (Some "sg/initial") "HoverType") []) None.
Definition o132 : obj := Obj 132 "ImplementsInterface" (Some k3) 2790 (OFunc (Some (Some (TNamed (TName 62 (Some "sg/initial") "Interface") [])))) (TSig [] [(TBasic BString false)] false) None.
Definition o134 : obj := Obj 134 "EmbeddedField" (Some k3) 1249 (OVar true) (TBasic BString false) None.
Definition o135 : obj := Obj 135 "Field" (Some k3) 1271 (OVar true) (TBasic BString false) None.
Definition o136 : obj := Obj 136 "Embedded" (Some k3) 1351 (OVar true) (TPointer (TNamed (TName 57 (Some "sg/initial") "Embedded") [])) None.
Definition o137 : obj := Obj 137 "Field" (Some k3) 1361 (OVar true) (TBasic BString false) None.
Definition o138 : obj := Obj 138 "FieldA" (Some k3) 1400 (OVar true) (TBasic BInt false) None.
Definition o139 : obj := Obj 139 "FieldB" (Some k3) 1413 (OVar true) (TBasic BInt false) None.
Definition o140 : obj := Obj 140 "FieldC" (Some k3) 1426 (OVar true) (TBasic BInt false) None.
Definition o141 : obj := Obj 141 "Anonymous" (Some k3) 1379 (OVar true) (TStruct [(FHdr 138 "FieldA" (Some "sg/initial") false "", (TBasic BInt false)); (FHdr 139 "FieldB" (Some "sg/initial") false "", (TBasic BInt false)); (FHdr 140 "FieldC" (Some "sg/initial") false "", (TBasic BInt false))]) None.
Definition o142 : obj := Obj 142 "FieldA" (Some k3) 651 (OVar true) (TBasic BInt false) None.
Definition o143 : obj := Obj 143 "FieldB" (Some k3) 664 (OVar true) (TBasic BInt false) None.
Definition o144 : obj := Obj 144 "FieldC" (Some k3) 677 (OVar true) (TBasic BInt false) None.
Definition o145 : obj := Obj 145 "s" (Some k3) 1480 (OVar false) (TPointer (TNamed (TName 58 (Some "sg/initial") "Struct") [])) None.
Definition o147 : obj := Obj 147 "s" (Some k3) 1516 (OVar false) (TPointer (TNamed (TName 58 (Some "sg/initial") "Struct") [])) None.
Definition o148 : obj := Obj 148 "param1" (Some k3) 1609 (OVar false) (TBasic BFloat32 false) None.
Definition o149 : obj := Obj 149 "hyperparam2" (Some k3) 2108 (OVar false) (TBasic BFloat32 false) None.
Definition o150 : obj := Obj 150 "hyperparam3" (Some k3) 2130 (OVar false) (TBasic BFloat32 false) None.
Definition o152 : obj := Obj 152 "s" (Some k3) 1580 (OVar false) (TPointer (TNamed (TName 58 (Some "sg/initial") "Struct") [])) None.
Definition o154 : obj := Obj 154 "bar" (Some k3) 3364 (OVar true) (TBasic BString false) None.
Definition o155 : obj := Obj 155 "baz" (Some k3) 3393 (OVar true) (TBasic BFloat64 false) None.
Definition o156 : obj := Obj 156 "f" (Some k3) 3543 (OVar true) (TBasic BInt false) None.
Definition o157 : obj := Obj 157 "y" (Some k3) 3546 (OVar true) (TBasic BInt false) None.
Definition o158 : obj := Obj 158 "b" (Some k3) 3586 (OVar false) (TBasic BInt false) None.
Definition o160 : obj := Obj 160 "m" (Some k3) 3561 (OVar false) (TNamed (TName 106 (Some "sg/initial") "MyStruct") []) None.
Definition o161 : obj := Obj 161 "xs" (Some k3) 3839 (OVar false) (TSlice (TBasic BInt false)) None.
Definition o166 : obj := Obj 166 "Method" (Some k3) 4172 (OFunc (Some (Some (TNamed (TName 125 (Some "sg/initial") "IfaceType") [])))) (TSig [] [(TNamed (TName 123 (Some "sg/initial") "LiteralType") [])] false) None.
Definition o168 : obj := Obj 168 "m" (Some k3) 4222 (OVar true) (TNamed (TName 125 (Some "sg/initial") "IfaceType") []) None.
Definition o169 : obj := Obj 169 "f" (Some k3) 4235 (OVar true) (TNamed (TName 123 (Some "sg/initial") "LiteralType") []) None.
Definition o170 : obj := Obj 170 "sub" (Some k3) 4288 (OVar true) (TBasic BInt false) None.
Definition o171 : obj := Obj 171 "anon" (Some k3) 4272 (OVar true) (TStruct [(FHdr 170 "sub" (Some "sg/initial") false "", (TBasic BInt false))]) None.
Definition o172 : obj := Obj 172 "AnonMethod" (Some k3) 4345 (OFunc (Some (Some (TInterface [("AnonMethod", (TSig [] [(TBasic BBool false)] false))] "")))) (TSig [] [(TBasic BBool false)] false) None.
Definition o174 : obj := Obj 174 "i" (Some k3) 4329 (OVar true) (TInterface [("AnonMethod", (TSig [] [(TBasic BBool false)] false))] "") None.
Definition o175 : obj := Obj 175 "DeclaredAfter" (Some k3) 4397 (OVar true) (TNamed (TName 128 (Some "sg/initial") "DeclaredAfter") []) None.
Definition o176 : obj := Obj 176 "x" (Some k3) 48 (OVar false) (TBasic BInt false) None.
Definition o177 : obj := Obj 177 "varShouldNotHaveDocs" (Some k3) 2241 (OVar false) (TBasic BInt32 false) None.
Definition o178 : obj := Obj 178 "constShouldNotHaveDocs" (Some k3) 2351 OConst (TBasic BUntypedInt false) None.
Definition o179 : obj := Obj 179 "typeShouldNotHaveDocs" (Some k3) 2459 OTypeName (TNamed (TName 179 (Some "sg/initial") "typeShouldNotHaveDocs") []) None.
Definition o180 : obj := Obj 180 "a" (Some k3) 2489 (OVar true) (TBasic BString false) None.
Definition o181 : obj := Obj 181 "a" (Some k3) 2606 (OVar false) (TBasic BString false) None.
Definition o183 : obj := Obj 183 "funcShouldNotHaveDocs" (Some k3) 2576 (OVar false) (TSig [(TBasic BString false)] [(TBasic BString false)] false) None.
Definition o184 : obj := Obj 184 "s" (Some k3) 3641 (OVar false) (TNamed (TName 106 (Some "sg/initial") "MyStruct") []) None.
Definition o189 : obj := Obj 189 "_" (Some k3) 3860 (OVar false) (TBasic BInt false) None.
Definition o190 : obj := Obj 190 "x" (Some k3) 3863 (OVar false) (TBasic BInt false) None.
Definition o2 : obj := Obj 2 "int" None 0 OTypeName (TBasic BInt false) None.
Definition o17 : obj := Obj 17 "string" None 0 OTypeName (TBasic BString false) None.
Definition o21 : obj := Obj 21 "error" None 0 OTypeName (TNamed (TName 21 None "error") []) None.
Definition o13 : obj := Obj 13 "float32" None 0 OTypeName (TBasic BFloat32 false) None.
Definition o14 : obj := Obj 14 "float64" None 0 OTypeName (TBasic BFloat64 false) None.
Definition o1 : obj := Obj 1 "bool" None 0 OTypeName (TBasic BBool false) None.
Definition o5 : obj := Obj 5 "int32" None 0 OTypeName (TBasic BInt32 false) None.
Definition o28 : obj := Obj 28 "nil" None 0 ONil (TBasic BUntypedNil false) None.
Definition o105 : obj := Obj 105 "fmt" (Some k3) 3514 (OPkgName "fmt") (TBasic BInvalid false) None.
Definition o117 : obj := Obj 117 "slices" (Some k3) 3820 (OPkgName "slices") (TBasic BInvalid false) None.
Definition defs4 : list (nat * obj) := [(2, o47); (8, o48); (9, o49); (10, o50); (11, o51); (15, o52); (19, o53); (21, o54); (34, o55); (35, o56); (36, o57); (42, o58); (57, o59); (60, o60); (64, o61); (86, o62); (90, o63); (93, o64); (94, o65); (95, o66); (96, o67); (99, o68); (101, o69); (102, o70); (106, o71); (111, o72); (113, o73); (116, o106); (123, o107); (130, o108); (140, o118); (151, o119); (152, o120); (154, o121); (157, o122); (161, o123); (163, o124); (167, o125); (171, o126); (185, o127); (188, o128); (191, o129); (193, o130); (88, o132); (38, o134); (40, o135); (44, o136); (45, o137); (49, o138); (51, o139); (53, o140); (47, o141); (27, o142); (29, o143); (31, o144); (55, o145); (58, o147); (65, o148); (67, o149); (69, o150); (62, o152); (104, o154); (108, o155); (118, o156); (119, o157); (124, o158); (121, o160); (141, o161); (169, o166); (173, o168); (175, o169); (179, o170); (177, o171); (183, o172); (181, o174); (187, o175); (4, o176); (72, o177); (74, o178); (75, o179); (77, o180); (80, o181); (79, o183); (131, o184); (144, o189); (145, o190)].
Definition uses4 : list (nat * obj) := [(3, o2); (12, o62); (89, o17); (13, o58); (44, o57); (39, o17); (41, o17); (46, o17); (50, o2); (52, o2); (54, o2); (14, o137); (16, o62); (17, o58); (18, o137); (20, o21); (22, o62); (23, o58); (24, o137); (25, o141); (28, o2); (30, o2); (32, o2); (33, o142); (56, o58); (59, o58); (61, o17); (63, o58); (66, o13); (68, o13); (70, o13); (71, o13); (91, o62); (97, o62); (98, o58); (105, o17); (109, o14); (120, o2); (122, o106); (125, o2); (126, o2); (142, o2); (143, o2); (153, o119); (158, o17); (159, o2); (162, o2); (164, o123); (165, o2); (166, o1); (170, o123); (174, o125); (176, o123); (180, o2); (184, o1); (187, o128); (5, o2); (6, o176); (73, o5); (78, o17); (81, o17); (82, o17); (83, o148); (84, o149); (85, o150); (92, o28); (112, o73); (127, o160); (128, o156); (129, o158); (132, o106); (133, o156); (134, o105); (135, o82); (136, o184); (146, o117); (147, o109); (148, o161); (149, o190); (156, o119)].
Definition canon4 : list (nat * hty) := [(87, (HInterface false [("ImplementsInterface", (HSig [] [] [("", (HBasic "string"))] false))] [])); (37, (HStruct [("EmbeddedField", false, "", (HBasic "string")); ("Field", false, "", (HBasic "string"))])); (48, (HStruct [("FieldA", false, "", (HBasic "int")); ("FieldB", false, "", (HBasic "int")); ("FieldC", false, "", (HBasic "int"))])); (43, (HStruct [("Embedded", true, "", (HPointer (HNamed (HName (Some (HPkg "sg/initial" "initial")) "Embedded") [] []))); ("Field", false, "", (HBasic "string")); ("Anonymous", false, "", (HStruct [("FieldA", false, "", (HBasic "int")); ("FieldB", false, "", (HBasic "int")); ("FieldC", false, "", (HBasic "int"))]))])); (26, (HStruct [("FieldA", false, "", (HBasic "int")); ("FieldB", false, "", (HBasic "int")); ("FieldC", false, "", (HBasic "int"))])); (100, (HStruct [])); (103, (HStruct [("bar", false, "", (HBasic "string"))])); (107, (HStruct [("baz", false, "", (HBasic "float64"))])); (117, (HStruct [("f", false, "", (HBasic "int")); ("y", false, "", (HBasic "int"))])); (168, (HInterface false [("Method", (HSig [] [] [("", (HNamed (HName (Some (HPkg "sg/initial" "initial")) "LiteralType") [] []))] false))] [])); (178, (HStruct [("sub", false, "", (HBasic "int"))])); (182, (HInterface false [("AnonMethod", (HSig [] [] [("", (HBasic "bool"))] false))] [])); (172, (HStruct [("m", false, "", (HNamed (HName (Some (HPkg "sg/initial" "initial")) "IfaceType") [] [])); ("f", false, "", (HNamed (HName (Some (HPkg "sg/initial" "initial")) "LiteralType") [] [])); ("anon", false, "", (HStruct [("sub", false, "", (HBasic "int"))])); ("i", false, "", (HInterface false [("AnonMethod", (HSig [] [] [("", (HBasic "bool"))] false))] []))])); (189, (HStruct [])); (186, (HStruct [("DeclaredAfter", true, "", (HNamed (HName (Some (HPkg "sg/initial" "initial")) "DeclaredAfter") [] []))])); (192, (HStruct [])); (194, (HStruct [])); (76, (HStruct [("a", false, "", (HBasic "string"))]))].
Definition pkgnames4 : list (nat * obj) := [(115, o105); (139, o117)].
Definition cases4 : list obj := [].
Definition o22 : obj := Obj 22 "Error" None 0 (OFunc (Some (Some (TNamed (TName 21 None "error") [])))) (TSig [] [(TBasic BString false)] false) None.
Definition hobjs : list (nat * hobj) := [(47, HObj "UsesBuiltin" (Some (HPkg "sg/initial" "initial")) true (HFunc None (HSig [] [] [("", (HBasic "int"))] false)));
  (48, HObj "Const" (Some (HPkg "sg/initial" "initial")) true (HConst (HBasic "untyped int") "5"));
  (49, HObj "ConstBlock1" (Some (HPkg "sg/initial" "initial")) true (HConst (HBasic "untyped int") "1"));
  (50, HObj "ConstBlock2" (Some (HPkg "sg/initial" "initial")) true (HConst (HBasic "untyped int") "2"));
  (51, HObj "Var" (Some (HPkg "sg/initial" "initial")) true (HVar false (HNamed (HName (Some (HPkg "sg/initial" "initial")) "Interface") [] [])));
  (52, HObj "unexportedVar" (Some (HPkg "sg/initial" "initial")) true (HVar false (HNamed (HName (Some (HPkg "sg/initial" "initial")) "Interface") [] [])));
  (53, HObj "x" (Some (HPkg "sg/initial" "initial")) true (HVar false (HNamed (HName None "error") [] [])));
  (54, HObj "BigVar" (Some (HPkg "sg/initial" "initial")) true (HVar false (HNamed (HName (Some (HPkg "sg/initial" "initial")) "Interface") [] [])));
  (55, HObj "VarBlock1" (Some (HPkg "sg/initial" "initial")) true (HVar false (HBasic "string")));
  (56, HObj "VarBlock2" (Some (HPkg "sg/initial" "initial")) true (HVar false (HBasic "string")));
  (57, HObj "Embedded" (Some (HPkg "sg/initial" "initial")) true (HTypeName (DDefined [] (HStruct [("EmbeddedField", false, "", (HBasic "string")); ("Field", false, "", (HBasic "string"))]))));
  (58, HObj "Struct" (Some (HPkg "sg/initial" "initial")) true (HTypeName (DDefined [] (HStruct [("Embedded", true, "", (HPointer (HNamed (HName (Some (HPkg "sg/initial" "initial")) "Embedded") [] []))); ("Field", false, "", (HBasic "string")); ("Anonymous", false, "", (HStruct [("FieldA", false, "", (HBasic "int")); ("FieldB", false, "", (HBasic "int")); ("FieldC", false, "", (HBasic "int"))]))]))));
  (59, HObj "StructMethod" (Some (HPkg "sg/initial" "initial")) false (HFunc (Some (HPointer (HNamed (HName (Some (HPkg "sg/initial" "initial")) "Struct") [] []))) (HSig [] [] [] false)));
  (60, HObj "ImplementsInterface" (Some (HPkg "sg/initial" "initial")) false (HFunc (Some (HPointer (HNamed (HName (Some (HPkg "sg/initial" "initial")) "Struct") [] []))) (HSig [] [] [("", (HBasic "string"))] false)));
  (61, HObj "MachineLearning" (Some (HPkg "sg/initial" "initial")) false (HFunc (Some (HPointer (HNamed (HName (Some (HPkg "sg/initial" "initial")) "Struct") [] []))) (HSig [] [("param1", (HBasic "float32")); ("hyperparam2", (HBasic "float32")); ("hyperparam3", (HBasic "float32"))] [("", (HBasic "float32"))] false)));
  (62, HObj "Interface" (Some (HPkg "sg/initial" "initial")) true (HTypeName (DDefined [] (HInterface false [("ImplementsInterface", (HSig [] [] [("", (HBasic "string"))] false))] []))));
  (63, HObj "NewInterface" (Some (HPkg "sg/initial" "initial")) true (HFunc None (HSig [] [] [("", (HNamed (HName (Some (HPkg "sg/initial" "initial")) "Interface") [] []))] false)));
  (64, HObj "SortExportedFirst" (Some (HPkg "sg/initial" "initial")) true (HVar false (HBasic "int")));
  (65, HObj "sortUnexportedSecond" (Some (HPkg "sg/initial" "initial")) true (HVar false (HBasic "int")));
  (66, HObj "_sortUnderscoreLast" (Some (HPkg "sg/initial" "initial")) true (HVar false (HBasic "int")));
  (67, HObj "_" (Some (HPkg "sg/initial" "initial")) false (HVar false (HNamed (HName (Some (HPkg "sg/initial" "initial")) "Interface") [] [])));
  (68, HObj "_" (Some (HPkg "sg/initial" "initial")) false (HTypeName (DAlias [] (HStruct []))));
  (69, HObj "_" (Some (HPkg "sg/initial" "initial")) false (HFunc None (HSig [] [] [] false)));
  (70, HObj "X" (Some (HPkg "sg/initial" "initial")) true (HTypeName (DDefined [] (HStruct [("bar", false, "", (HBasic "string"))]))));
  (71, HObj "Y" (Some (HPkg "sg/initial" "initial")) true (HTypeName (DDefined [] (HStruct [("baz", false, "", (HBasic "float64"))]))));
  (72, HObj "UsesLater" (Some (HPkg "sg/initial" "initial")) true (HFunc None (HSig [] [] [] false)));
  (73, HObj "DefinedLater" (Some (HPkg "sg/initial" "initial")) true (HFunc None (HSig [] [] [] false)));
  (106, HObj "MyStruct" (Some (HPkg "sg/initial" "initial")) true (HTypeName (DDefined [] (HStruct [("f", false, "", (HBasic "int")); ("y", false, "", (HBasic "int"))]))));
  (107, HObj "RecvFunction" (Some (HPkg "sg/initial" "initial")) false (HFunc (Some (HNamed (HName (Some (HPkg "sg/initial" "initial")) "MyStruct") [] [])) (HSig [] [("b", (HBasic "int"))] [("", (HBasic "int"))] false)));
  (108, HObj "SomethingElse" (Some (HPkg "sg/initial" "initial")) true (HFunc None (HSig [] [] [] false)));
  (118, HObj "f" (Some (HPkg "sg/initial" "initial")) true (HFunc None (HSig [] [("xs", (HSlice (HBasic "int")))] [("", (HBasic "int"))] false)));
  (119, HObj "MY_THING" (Some (HPkg "sg/initial" "initial")) true (HConst (HBasic "untyped int") "10"));
  (120, HObj "OTHER_THING" (Some (HPkg "sg/initial" "initial")) true (HConst (HBasic "untyped int") "10"));
  (121, HObj "usesMyThing" (Some (HPkg "sg/initial" "initial")) true (HFunc None (HSig [] [] [] false)));
  (122, HObj "initFunctions" (Some (HPkg "sg/initial" "initial")) true (HVar false (HMap (HBasic "string") (HBasic "int"))));
  (123, HObj "LiteralType" (Some (HPkg "sg/initial" "initial")) true (HTypeName (DDefined [] (HBasic "int"))));
  (124, HObj "FuncType" (Some (HPkg "sg/initial" "initial")) true (HTypeName (DDefined [] (HSig [] [("", (HNamed (HName (Some (HPkg "sg/initial" "initial")) "LiteralType") [] [])); ("", (HBasic "int"))] [("", (HBasic "bool"))] false))));
  (125, HObj "IfaceType" (Some (HPkg "sg/initial" "initial")) true (HTypeName (DDefined [] (HInterface false [("Method", (HSig [] [] [("", (HNamed (HName (Some (HPkg "sg/initial" "initial")) "LiteralType") [] []))] false))] []))));
  (126, HObj "StructType" (Some (HPkg "sg/initial" "initial")) true (HTypeName (DDefined [] (HStruct [("m", false, "", (HNamed (HName (Some (HPkg "sg/initial" "initial")) "IfaceType") [] [])); ("f", false, "", (HNamed (HName (Some (HPkg "sg/initial" "initial")) "LiteralType") [] [])); ("anon", false, "", (HStruct [("sub", false, "", (HBasic "int"))])); ("i", false, "", (HInterface false [("AnonMethod", (HSig [] [] [("", (HBasic "bool"))] false))] []))]))));
  (127, HObj "DeclaredBefore" (Some (HPkg "sg/initial" "initial")) true (HTypeName (DDefined [] (HStruct [("DeclaredAfter", true, "", (HNamed (HName (Some (HPkg "sg/initial" "initial")) "DeclaredAfter") [] []))]))));
  (128, HObj "DeclaredAfter" (Some (HPkg "sg/initial" "initial")) true (HTypeName (DDefined [] (HStruct []))));
  (129, HObj "HoverTypeList" (Some (HPkg "sg/initial" "initial")) true (HTypeName (DDefined [] (HStruct []))));
  (130, HObj "HoverType" (Some (HPkg "sg/initial" "initial")) true (HTypeName (DDefined [] (HStruct []))));
  (132, HObj "ImplementsInterface" (Some (HPkg "sg/initial" "initial")) false (HFunc (Some (HNamed (HName (Some (HPkg "sg/initial" "initial")) "Interface") [] [])) (HSig [] [] [("", (HBasic "string"))] false)));
  (134, HObj "EmbeddedField" (Some (HPkg "sg/initial" "initial")) false (HVar true (HBasic "string")));
  (135, HObj "Field" (Some (HPkg "sg/initial" "initial")) false (HVar true (HBasic "string")));
  (136, HObj "Embedded" (Some (HPkg "sg/initial" "initial")) false (HVar true (HPointer (HNamed (HName (Some (HPkg "sg/initial" "initial")) "Embedded") [] []))));
  (137, HObj "Field" (Some (HPkg "sg/initial" "initial")) false (HVar true (HBasic "string")));
  (138, HObj "FieldA" (Some (HPkg "sg/initial" "initial")) false (HVar true (HBasic "int")));
  (139, HObj "FieldB" (Some (HPkg "sg/initial" "initial")) false (HVar true (HBasic "int")));
  (140, HObj "FieldC" (Some (HPkg "sg/initial" "initial")) false (HVar true (HBasic "int")));
  (141, HObj "Anonymous" (Some (HPkg "sg/initial" "initial")) false (HVar true (HStruct [("FieldA", false, "", (HBasic "int")); ("FieldB", false, "", (HBasic "int")); ("FieldC", false, "", (HBasic "int"))])));
  (142, HObj "FieldA" (Some (HPkg "sg/initial" "initial")) false (HVar true (HBasic "int")));
  (143, HObj "FieldB" (Some (HPkg "sg/initial" "initial")) false (HVar true (HBasic "int")));
  (144, HObj "FieldC" (Some (HPkg "sg/initial" "initial")) false (HVar true (HBasic "int")));
  (145, HObj "s" (Some (HPkg "sg/initial" "initial")) false (HVar false (HPointer (HNamed (HName (Some (HPkg "sg/initial" "initial")) "Struct") [] []))));
  (147, HObj "s" (Some (HPkg "sg/initial" "initial")) false (HVar false (HPointer (HNamed (HName (Some (HPkg "sg/initial" "initial")) "Struct") [] []))));
  (148, HObj "param1" (Some (HPkg "sg/initial" "initial")) false (HVar false (HBasic "float32")));
  (149, HObj "hyperparam2" (Some (HPkg "sg/initial" "initial")) false (HVar false (HBasic "float32")));
  (150, HObj "hyperparam3" (Some (HPkg "sg/initial" "initial")) false (HVar false (HBasic "float32")));
  (152, HObj "s" (Some (HPkg "sg/initial" "initial")) false (HVar false (HPointer (HNamed (HName (Some (HPkg "sg/initial" "initial")) "Struct") [] []))));
  (154, HObj "bar" (Some (HPkg "sg/initial" "initial")) false (HVar true (HBasic "string")));
  (155, HObj "baz" (Some (HPkg "sg/initial" "initial")) false (HVar true (HBasic "float64")));
  (156, HObj "f" (Some (HPkg "sg/initial" "initial")) false (HVar true (HBasic "int")));
  (157, HObj "y" (Some (HPkg "sg/initial" "initial")) false (HVar true (HBasic "int")));
  (158, HObj "b" (Some (HPkg "sg/initial" "initial")) false (HVar false (HBasic "int")));
  (160, HObj "m" (Some (HPkg "sg/initial" "initial")) false (HVar false (HNamed (HName (Some (HPkg "sg/initial" "initial")) "MyStruct") [] [])));
  (161, HObj "xs" (Some (HPkg "sg/initial" "initial")) false (HVar false (HSlice (HBasic "int"))));
  (166, HObj "Method" (Some (HPkg "sg/initial" "initial")) false (HFunc (Some (HNamed (HName (Some (HPkg "sg/initial" "initial")) "IfaceType") [] [])) (HSig [] [] [("", (HNamed (HName (Some (HPkg "sg/initial" "initial")) "LiteralType") [] []))] false)));
  (168, HObj "m" (Some (HPkg "sg/initial" "initial")) false (HVar true (HNamed (HName (Some (HPkg "sg/initial" "initial")) "IfaceType") [] [])));
  (169, HObj "f" (Some (HPkg "sg/initial" "initial")) false (HVar true (HNamed (HName (Some (HPkg "sg/initial" "initial")) "LiteralType") [] [])));
  (170, HObj "sub" (Some (HPkg "sg/initial" "initial")) false (HVar true (HBasic "int")));
  (171, HObj "anon" (Some (HPkg "sg/initial" "initial")) false (HVar true (HStruct [("sub", false, "", (HBasic "int"))])));
  (172, HObj "AnonMethod" (Some (HPkg "sg/initial" "initial")) false (HFunc (Some (HInterface false [("AnonMethod", (HSig [] [] [("", (HBasic "bool"))] false))] [])) (HSig [] [] [("", (HBasic "bool"))] false)));
  (174, HObj "i" (Some (HPkg "sg/initial" "initial")) false (HVar true (HInterface false [("AnonMethod", (HSig [] [] [("", (HBasic "bool"))] false))] [])));
  (175, HObj "DeclaredAfter" (Some (HPkg "sg/initial" "initial")) false (HVar true (HNamed (HName (Some (HPkg "sg/initial" "initial")) "DeclaredAfter") [] [])));
  (176, HObj "x" (Some (HPkg "sg/initial" "initial")) false (HVar false (HBasic "int")));
  (177, HObj "varShouldNotHaveDocs" (Some (HPkg "sg/initial" "initial")) false (HVar false (HBasic "int32")));
  (178, HObj "constShouldNotHaveDocs" (Some (HPkg "sg/initial" "initial")) false (HConst (HBasic "untyped int") "5"));
  (179, HObj "typeShouldNotHaveDocs" (Some (HPkg "sg/initial" "initial")) false (HTypeName (DDefined [] (HStruct [("a", false, "", (HBasic "string"))]))));
  (180, HObj "a" (Some (HPkg "sg/initial" "initial")) false (HVar true (HBasic "string")));
  (181, HObj "a" (Some (HPkg "sg/initial" "initial")) false (HVar false (HBasic "string")));
  (183, HObj "funcShouldNotHaveDocs" (Some (HPkg "sg/initial" "initial")) false (HVar false (HSig [] [("a", (HBasic "string"))] [("", (HBasic "string"))] false)));
  (184, HObj "s" (Some (HPkg "sg/initial" "initial")) false (HVar false (HNamed (HName (Some (HPkg "sg/initial" "initial")) "MyStruct") [] [])));
  (189, HObj "_" (Some (HPkg "sg/initial" "initial")) false (HVar false (HBasic "int")));
  (190, HObj "x" (Some (HPkg "sg/initial" "initial")) false (HVar false (HBasic "int")))].
Definition unders : list (nat * ty) := [(74, (TInterface [("Write", (TSig [(TSlice (TBasic BUint8 true))] [(TBasic BInt false); (TNamed (TName 21 None "error") [])] false))] ""));
  (21, (TInterface [("Error", (TSig [] [(TBasic BString false)] false))] ""));
  (80, (TInterface [("String", (TSig [] [(TBasic BString false)] false))] ""));
  (128, (TStruct []));
  (127, (TStruct [(FHdr 175 "DeclaredAfter" (Some "sg/initial") true "", (TNamed (TName 128 (Some "sg/initial") "DeclaredAfter") []))]));
  (57, (TStruct [(FHdr 134 "EmbeddedField" (Some "sg/initial") false "", (TBasic BString false)); (FHdr 135 "Field" (Some "sg/initial") false "", (TBasic BString false))]));
  (124, (TSig [(TNamed (TName 123 (Some "sg/initial") "LiteralType") []); (TBasic BInt false)] [(TBasic BBool false)] false));
  (123, (TBasic BInt false));
  (130, (TStruct []));
  (129, (TStruct []));
  (125, (TInterface [("Method", (TSig [] [(TNamed (TName 123 (Some "sg/initial") "LiteralType") [])] false))] ""));
  (62, (TInterface [("ImplementsInterface", (TSig [] [(TBasic BString false)] false))] ""));
  (106, (TStruct [(FHdr 156 "f" (Some "sg/initial") false "", (TBasic BInt false)); (FHdr 157 "y" (Some "sg/initial") false "", (TBasic BInt false))]));
  (58, (TStruct [(FHdr 136 "Embedded" (Some "sg/initial") true "", (TPointer (TNamed (TName 57 (Some "sg/initial") "Embedded") []))); (FHdr 137 "Field" (Some "sg/initial") false "", (TBasic BString false)); (FHdr 141 "Anonymous" (Some "sg/initial") false "", (TStruct [(FHdr 138 "FieldA" (Some "sg/initial") false "", (TBasic BInt false)); (FHdr 139 "FieldB" (Some "sg/initial") false "", (TBasic BInt false)); (FHdr 140 "FieldC" (Some "sg/initial") false "", (TBasic BInt false))]))]));
  (126, (TStruct [(FHdr 168 "m" (Some "sg/initial") false "", (TNamed (TName 125 (Some "sg/initial") "IfaceType") [])); (FHdr 169 "f" (Some "sg/initial") false "", (TNamed (TName 123 (Some "sg/initial") "LiteralType") [])); (FHdr 171 "anon" (Some "sg/initial") false "", (TStruct [(FHdr 170 "sub" (Some "sg/initial") false "", (TBasic BInt false))])); (FHdr 174 "i" (Some "sg/initial") false "", (TInterface [("AnonMethod", (TSig [] [(TBasic BBool false)] false))] ""))]));
  (70, (TStruct [(FHdr 154 "bar" (Some "sg/initial") false "", (TBasic BString false))]));
  (71, (TStruct [(FHdr 155 "baz" (Some "sg/initial") false "", (TBasic BFloat64 false))]));
  (179, (TStruct [(FHdr 180 "a" (Some "sg/initial") false "", (TBasic BString false))]))].
Definition msets : list (nat * (list obj * list obj)) := [(74, ([o75], []));
  (80, ([o86], []));
  (57, ([], []));
  (58, ([], [o60; o61; o59]));
  (62, ([o132], []));
  (70, ([], []));
  (71, ([], []));
  (106, ([o107], [o107]));
  (123, ([], []));
  (124, ([], []));
  (125, ([o166], []));
  (126, ([], []));
  (127, ([], []));
  (128, ([], []));
  (129, ([], []));
  (130, ([], []));
  (21, ([o22], []));
  (179, ([], []))].
Definition digests : list (string * string) := [("interface{ImplementsInterface() string}", "259e1d8ad831398c");
  ("struct{EmbeddedField string; Field string}", "80c03cd2281077b8");
  ("struct{FieldA int; FieldB int; FieldC int}", "81475a76ba757de7");
  ("struct{*sg/initial.Embedded; Field string; Anonymous struct{FieldA int; FieldB int; FieldC int}}", "d1b933edcfb06700");
  ("struct{}", "0d0ad1bdf1affd9c");
  ("struct{bar string}", "53c01f38adc506a6");
  ("struct{baz float64}", "f324851f0483676c");
  ("struct{f int; y int}", "95aa2546a6cf2dc4");
  ("interface{Method() sg/initial.LiteralType}", "a7de8c8aa61a5e55");
  ("struct{sub int}", "0ba9ace1dcfd6761");
  ("interface{AnonMethod() bool}", "97e7de633e3ef8e8");
  ("struct{m sg/initial.IfaceType; f sg/initial.LiteralType; anon struct{sub int}; i interface{AnonMethod() bool}}", "727ea4c696ea4904");
  ("struct{sg/initial.DeclaredAfter}", "5300e3cb7bcf006a");
  ("struct{a string}", "01e83f76c2e17166")].
Definition formatted : list (string * string) := [("package p

type _ struct{EmbeddedField string; Field string}
", "package p

type _ struct {
	EmbeddedField string
	Field         string
}
");
  ("package p

type _ struct{*Embedded; Field string; Anonymous struct{FieldA int; FieldB int; FieldC int}}
", "package p

type _ struct {
	*Embedded
	Field     string
	Anonymous struct {
		FieldA int
		FieldB int
		FieldC int
	}
}
");
  ("package p

type _ interface{ImplementsInterface() string}
", "package p

type _ interface{ ImplementsInterface() string }
");
  ("package p

type _ struct{}
", "package p

type _ struct{}
");
  ("package p

type _ struct{bar string}
", "package p

type _ struct{ bar string }
");
  ("package p

type _ struct{baz float64}
", "package p

type _ struct{ baz float64 }
");
  ("package p

type _ struct{f int; y int}
", "package p

type _ struct {
	f int
	y int
}
");
  ("package p

type _ interface{Method() LiteralType}
", "package p

type _ interface{ Method() LiteralType }
");
  ("package p

type _ struct{m IfaceType; f LiteralType; anon struct{sub int}; i interface{AnonMethod() bool}}
", "package p

type _ struct {
	m    IfaceType
	f    LiteralType
	anon struct{ sub int }
	i    interface{ AnonMethod() bool }
}
");
  ("package p

type _ struct{DeclaredAfter}
", "package p

type _ struct{ DeclaredAfter }
");
  ("package p

type _ struct{a string}
", "package p

type _ struct{ a string }
")].
Definition sources : list src := [Src "/repo/internal/testdata/snapshots/input/initial/builtin_types.go" 1 "package initial

func UsesBuiltin() int {
	var x int = 5
	return x
}
" [];
  Src "/repo/internal/testdata/snapshots/input/initial/child_symbols.go" 71 "package initial

// Const is a constant equal to 5. It's the best constant I've ever written. 😹
const Const = 5

// Docs for the const block itself.
const (
	// ConstBlock1 is a constant in a block.
	ConstBlock1 = 1

	// ConstBlock2 is a constant in a block.
	ConstBlock2 = 2
)

// Var is a variable interface.
var Var Interface = &Struct{Field: ""bar!""}

// unexportedVar is an unexported variable interface.
var unexportedVar Interface = &Struct{Field: ""bar!""}

// x has a builtin error type
var x error

var BigVar Interface = &Struct{
	Field: ""bar!"",
	Anonymous: struct {
		FieldA int
		FieldB int
		FieldC int
	}{FieldA: 1337},
}

// What are docs, really?
// I can't say for sure, I don't write any.
// But look, a CAT!
//
//	      |\      _,,,---,,_
//	ZZZzz /,`.-'`'    -.  ;-;;,_
//	     |,4-  ) )-,_. ,\ (  `'-'
//	    '---''(_/--'  `-'\_)
//
// It's sleeping! Some people write that as `sleeping` but Markdown
// isn't allowed in Go docstrings, right? right?!
var (
	// This has some docs
	VarBlock1 = ""if you're reading this""

	VarBlock2 = ""hi""
)

// Embedded is a struct, to be embedded in another struct.
type Embedded struct {
	// EmbeddedField has some docs!
	EmbeddedField string
	Field         string // conflicts with parent ""Field""
}

type Struct struct {
	*Embedded
	Field     string
	Anonymous struct {
		FieldA int
		FieldB int
		FieldC int
	}
}

// StructMethod has some docs!
func (s *Struct) StructMethod() {}

func (s *Struct) ImplementsInterface() string { return ""hi!"" }

func (s *Struct) MachineLearning(
	param1 float32, // It's ML, I can't describe what this param is.

	// We call the below hyperparameters because, uhh, well:
	//
	// 	  ,-.       _,---._ __  / \
	// 	 /  )    .-'       `./ /   \
	// 	 (  (   ,'            `/    /|
	// 	  \  `-""             \'\   / |
	// 	   `.              ,  \ \ /  |
	// 		/`.          ,'-`----Y   |
	// 	   (            ;        |   '
	// 	   |  ,-.    ,-'         |  /
	// 	   |  | (   |        hjw | /
	// 	   )  |  \  `.___________|/
	// 	   `--'   `--'
	//
	hyperparam2 float32,
	hyperparam3 float32,
) float32 {
	// varShouldNotHaveDocs is in a function, should not have docs emitted.
	var varShouldNotHaveDocs int32

	// constShouldNotHaveDocs is in a function, should not have docs emitted.
	const constShouldNotHaveDocs = 5

	// typeShouldNotHaveDocs is in a function, should not have docs emitted.
	type typeShouldNotHaveDocs struct{ a string }

	// funcShouldNotHaveDocs is in a function, should not have docs emitted.
	funcShouldNotHaveDocs := func(a string) string { return ""hello"" }

	return param1 + (hyperparam2 * *hyperparam3) // lol is this all ML is? I'm gonna be rich
}

// Interface has docs too
type Interface interface {
	ImplementsInterface() string
}

func NewInterface() Interface { return nil }

var SortExportedFirst = 1

var sortUnexportedSecond = 2

var _sortUnderscoreLast = 3

// Yeah this is some Go magic incantation which is common.
//
//	 ,_     _
//	 |\\_,-~/
//	 / _  _ |    ,--.
//	(  @  @ )   / ,-'
//	 \  _T_/-._( (
//	/         `. \
//	|         _  \ |
//	\ \ ,  /      |
//	 || |-_\__   /
//	((_/`(____,-'
var _ = Interface(&Struct{})

type _ = struct{}

// crypto/tls/common_string.go uses this pattern..
func _() {
}

// Go can be fun
type (
	// And confusing
	X struct {
		bar string
	}

	Y struct {
		baz float64
	}
)
" [];
  Src "/repo/internal/testdata/snapshots/input/initial/func_declarations.go" 3411 "package initial

func UsesLater() {
	DefinedLater()
}

func DefinedLater() {}
" [];
  Src "/repo/internal/testdata/snapshots/input/initial/methods_and_receivers.go" 3490 "package initial

import ""fmt""

type MyStruct struct{ f, y int }

func (m MyStruct) RecvFunction(b int) int { return m.f + b }

func SomethingElse() {
	s := MyStruct{f: 0}
	fmt.Println(s)
}
" [];
  Src "/repo/internal/testdata/snapshots/input/initial/package_definition.go" 3680 "// This is a module for testing purposes.
// This should now be the place that has a definition
package initial
" [];
  Src "/repo/internal/testdata/snapshots/input/initial/rangefunc.go" 3793 "package initial

import (
	""slices""
)

func f(xs []int) int {
	for _, x := range slices.All(xs) {
		return x
	}
	return -1
}
" [];
  Src "/repo/internal/testdata/snapshots/input/initial/toplevel_decls.go" 3919 "package initial

const MY_THING = 10
const OTHER_THING = MY_THING

func usesMyThing() {
	_ = MY_THING
}

var initFunctions = map[string]int{}
" [];
  Src "/repo/internal/testdata/snapshots/input/initial/type_declarations.go" 4062 "package initial

type LiteralType int

type FuncType func(LiteralType, int) bool

type IfaceType interface {
	Method() LiteralType
}

type StructType struct {
	m IfaceType
	f LiteralType

	// anonymous struct
	anon struct {
		sub int
	}

	// interface within struct
	i interface {
		AnonMethod() bool
	}
}

type DeclaredBefore struct{ DeclaredAfter }
type DeclaredAfter struct{}
" [];
  Src "/repo/internal/testdata/snapshots/input/initial/type_hovers.go" 4442 "package initial

type (
	// HoverTypeList is a cool struct
	HoverTypeList struct{}
)

// This should show up as well
type HoverType struct{}
" []].
Definition gomods : list (string * string) := [].
Definition p1 : gpkg * option raw := (GPkg 1 "io" "io" None [] [] (Some k0) None, None).
Definition p2 : gpkg * option raw := (GPkg 2 "fmt" "fmt" None [("io", 1)] [] (Some k1) None, None).
Definition p3 : gpkg * option raw := (GPkg 3 "slices" "slices" None [] [] (Some k2) None, None).
Definition p4 : gpkg * option raw := (GPkg 4 "sg/initial" "initial" (Some (GMod "sg/initial" "" "/repo/internal/testdata/snapshots/input/initial" "/repo/internal/testdata/snapshots/input/initial/go.mod" None)) [("fmt", 2); ("slices", 3)] [f4_0; f4_1; f4_2; f4_3; f4_4; f4_5; f4_6; f4_7; f4_8] (Some k3) None, (Some (Raw defs4 uses4 pkgnames4 cases4 canon4))).
Definition packages : list (gpkg * option raw) := [p1; p2; p3; p4].
Definition roots : list nat := [4].
Definition scopes : list (nat * list obj) := [(1, [o74]); (2, [o85; o81; o83; o82; o84; o80]); (3, [o109])].
Definition levels : list nat := [57; 58; 62; 70; 71; 106; 123; 124; 125; 126; 127; 128; 129; 130].
Definition input : input := Input "/repo/internal/testdata/snapshots/input/initial" "sg/initial" false sources packages roots gomods digests formatted hobjs unders msets scopes levels.
Definition golden : list (string * string) := [("builtin_types.go", "  package initial
//        ^^^^^^^ definition 0.1.test `sg/initial`/
//                kind Package
//                display_name initial
//                signature_documentation
//                > package initial
//                documentation
//                > This is a module for testing purposes.
//                > This should now be the place that has a definition
  
//⌄ enclosing_range_start 0.1.test `sg/initial`/UsesBuiltin().
  func UsesBuiltin() int {
//     ^^^^^^^^^^^ definition 0.1.test `sg/initial`/UsesBuiltin().
//                 kind Function
//                 display_name UsesBuiltin
//                 signature_documentation
//                 > func UsesBuiltin() int
   var x int = 5
//     ^ definition local 0
//       kind Variable
//       display_name x
//       signature_documentation
//       > var x int
   return x
//        ^ reference local 0
  }
//⌃ enclosing_range_end 0.1.test `sg/initial`/UsesBuiltin().
  
");
  ("child_symbols.go", "  package initial
//        ^^^^^^^ definition 0.1.test `sg/initial`/
  
  // Const is a constant equal to 5. It's the best constant I've ever written. 😹
  const Const = 5
//      ^^^^^ definition 0.1.test `sg/initial`/Const.
//            kind Constant
//            display_name Const
//            signature_documentation
//            > const Const untyped int = 5
//            documentation
//            > Const is a constant equal to 5. It's the best constant I've ever written. 😹
  
  // Docs for the const block itself.
  const (
   // ConstBlock1 is a constant in a block.
   ConstBlock1 = 1
// ^^^^^^^^^^^ definition 0.1.test `sg/initial`/ConstBlock1.
//             kind Constant
//             display_name ConstBlock1
//             signature_documentation
//             > const ConstBlock1 untyped int = 1
//             documentation
//             > ConstBlock1 is a constant in a block.
//             documentation
//             > Docs for the const block itself.
  
   // ConstBlock2 is a constant in a block.
   ConstBlock2 = 2
// ^^^^^^^^^^^ definition 0.1.test `sg/initial`/ConstBlock2.
//             kind Constant
//             display_name ConstBlock2
//             signature_documentation
//             > const ConstBlock2 untyped int = 2
//             documentation
//             > ConstBlock2 is a constant in a block.
//             documentation
//             > Docs for the const block itself.
  )
  
  // Var is a variable interface.
  var Var Interface = &Struct{Field: ""bar!""}
//    ^^^ definition 0.1.test `sg/initial`/Var.
//        kind Variable
//        display_name Var
//        signature_documentation
//        > var Var Interface
//        documentation
//        > Var is a variable interface.
//        ^^^^^^^^^ reference 0.1.test `sg/initial`/Interface#
//                     ^^^^^^ reference 0.1.test `sg/initial`/Struct#
//                            ^^^^^ reference 0.1.test `sg/initial`/Struct#Field.
  
  // unexportedVar is an unexported variable interface.
  var unexportedVar Interface = &Struct{Field: ""bar!""}
//    ^^^^^^^^^^^^^ definition 0.1.test `sg/initial`/unexportedVar.
//                  kind Variable
//                  display_name unexportedVar
//                  signature_documentation
//                  > var unexportedVar Interface
//                  documentation
//                  > unexportedVar is an unexported variable interface.
//                  ^^^^^^^^^ reference 0.1.test `sg/initial`/Interface#
//                               ^^^^^^ reference 0.1.test `sg/initial`/Struct#
//                                      ^^^^^ reference 0.1.test `sg/initial`/Struct#Field.
  
  // x has a builtin error type
  var x error
//    ^ definition 0.1.test `sg/initial`/x.
//      kind Variable
//      display_name x
//      signature_documentation
//      > var x error
//      documentation
//      > x has a builtin error type
  
  var BigVar Interface = &Struct{
//    ^^^^^^ definition 0.1.test `sg/initial`/BigVar.
//           kind Variable
//           display_name BigVar
//           signature_documentation
//           > var BigVar Interface
//           ^^^^^^^^^ reference 0.1.test `sg/initial`/Interface#
//                        ^^^^^^ reference 0.1.test `sg/initial`/Struct#
   Field: ""bar!"",
// ^^^^^ reference 0.1.test `sg/initial`/Struct#Field.
   Anonymous: struct {
// ^^^^^^^^^ reference 0.1.test `sg/initial`/Struct#Anonymous.
    FieldA int
//  ^^^^^^ definition 0.1.test `sg/initial`/BigVar:FieldA.
//         kind Field
//         display_name FieldA
//         signature_documentation
//         > struct field FieldA int
    FieldB int
//  ^^^^^^ definition 0.1.test `sg/initial`/BigVar:FieldB.
//         kind Field
//         display_name FieldB
//         signature_documentation
//         > struct field FieldB int
    FieldC int
//  ^^^^^^ definition 0.1.test `sg/initial`/BigVar:FieldC.
//         kind Field
//         display_name FieldC
//         signature_documentation
//         > struct field FieldC int
   }{FieldA: 1337},
//   ^^^^^^ reference 0.1.test `sg/initial`/BigVar:FieldA.
  }
  
  // What are docs, really?
  // I can't say for sure, I don't write any.
  // But look, a CAT!
  //
  //       |\      _,,,---,,_
  // ZZZzz /,`.-'`'    -.  ;-;;,_
  //      |,4-  ) )-,_. ,\ (  `'-'
  //     '---''(_/--'  `-'\_)
  //
  // It's sleeping! Some people write that as `sleeping` but Markdown
  // isn't allowed in Go docstrings, right? right?!
  var (
   // This has some docs
   VarBlock1 = ""if you're reading this""
// ^^^^^^^^^ definition 0.1.test `sg/initial`/VarBlock1.
//           kind Variable
//           display_name VarBlock1
//           signature_documentation
//           > var VarBlock1 string
//           documentation
//           > This has some docs
//           documentation
//           > What are docs, really?
//           > I can't say for sure, I don't write any.
//           > But look, a CAT!
//           > 
//           > 	      |\      _,,,---,,_
//           > 	ZZZzz /,`.-'`'    -.  ;-;;,_
//           > 	     |,4-  ) )-,_. ,\ (  `'-'
//           > 	    '---''(_/--'  `-'\_)
//           > 
//           > It's sleeping! Some people write that as `sleeping` but Markdown
//           > isn't allowed in Go docstrings, right? right?!
  
   VarBlock2 = ""hi""
// ^^^^^^^^^ definition 0.1.test `sg/initial`/VarBlock2.
//           kind Variable
//           display_name VarBlock2
//           signature_documentation
//           > var VarBlock2 string
//           documentation
//           > What are docs, really?
//           > I can't say for sure, I don't write any.
//           > But look, a CAT!
//           > 
//           > 	      |\      _,,,---,,_
//           > 	ZZZzz /,`.-'`'    -.  ;-;;,_
//           > 	     |,4-  ) )-,_. ,\ (  `'-'
//           > 	    '---''(_/--'  `-'\_)
//           > 
//           > It's sleeping! Some people write that as `sleeping` but Markdown
//           > isn't allowed in Go docstrings, right? right?!
  )
  
  // Embedded is a struct, to be embedded in another struct.
  type Embedded struct {
//     ^^^^^^^^ definition 0.1.test `sg/initial`/Embedded#
//              kind Struct
//              display_name Embedded
//              signature_documentation
//              > type Embedded struct {
//              >     EmbeddedField string
//              >     Field         string
//              > }
//              documentation
//              > Embedded is a struct, to be embedded in another struct.
   // EmbeddedField has some docs!
   EmbeddedField string
// ^^^^^^^^^^^^^ definition 0.1.test `sg/initial`/Embedded#EmbeddedField.
//               kind Field
//               display_name EmbeddedField
//               signature_documentation
//               > struct field EmbeddedField string
//               documentation
//               > EmbeddedField has some docs!
   Field         string // conflicts with parent ""Field""
// ^^^^^ definition 0.1.test `sg/initial`/Embedded#Field.
//       kind Field
//       display_name Field
//       signature_documentation
//       > struct field Field string
//       documentation
//       > conflicts with parent ""Field""
  }
  
  type Struct struct {
//     ^^^^^^ definition 0.1.test `sg/initial`/Struct#
//            kind Struct
//            display_name Struct
//            signature_documentation
//            > type Struct struct {
//            >     *Embedded
//            >     Field     string
//            >     Anonymous struct {
//            >         FieldA int
//            >         FieldB int
//            >         FieldC int
//            >     }
//            > }
//            relationship 0.1.test `sg/initial`/Interface# implementation
   *Embedded
//  ^^^^^^^^ definition 0.1.test `sg/initial`/Struct#Embedded.
//           kind Field
//           display_name Embedded
//           signature_documentation
//           > struct field Embedded *Embedded
//  ^^^^^^^^ reference 0.1.test `sg/initial`/Embedded#
   Field     string
// ^^^^^ definition 0.1.test `sg/initial`/Struct#Field.
//       kind Field
//       display_name Field
//       signature_documentation
//       > struct field Field string
   Anonymous struct {
// ^^^^^^^^^ definition 0.1.test `sg/initial`/Struct#Anonymous.
//           kind Field
//           display_name Anonymous
//           signature_documentation
//           > struct field Anonymous struct{FieldA int; FieldB int; FieldC int}
    FieldA int
//  ^^^^^^ definition 0.1.test `sg/initial`/Struct#$anon_81475a76ba757de7#FieldA.
//         kind Field
//         display_name FieldA
//         signature_documentation
//         > struct field FieldA int
    FieldB int
//  ^^^^^^ definition 0.1.test `sg/initial`/Struct#$anon_81475a76ba757de7#FieldB.
//         kind Field
//         display_name FieldB
//         signature_documentation
//         > struct field FieldB int
    FieldC int
//  ^^^^^^ definition 0.1.test `sg/initial`/Struct#$anon_81475a76ba757de7#FieldC.
//         kind Field
//         display_name FieldC
//         signature_documentation
//         > struct field FieldC int
   }
  }
  
  // StructMethod has some docs!
//⌄ enclosing_range_start 0.1.test `sg/initial`/Struct#StructMethod().
  func (s *Struct) StructMethod() {}
//      ^ definition local 0
//        kind Variable
//        display_name s
//        signature_documentation
//        > var s *Struct
//         ^^^^^^ reference 0.1.test `sg/initial`/Struct#
//                 ^^^^^^^^^^^^ definition 0.1.test `sg/initial`/Struct#StructMethod().
//                              kind Method
//                              display_name StructMethod
//                              signature_documentation
//                              > func (*Struct).StructMethod()
//                              documentation
//                              > StructMethod has some docs!
//                                 ⌃ enclosing_range_end 0.1.test `sg/initial`/Struct#StructMethod().
  
//⌄ enclosing_range_start 0.1.test `sg/initial`/Struct#ImplementsInterface().
  func (s *Struct) ImplementsInterface() string { return ""hi!"" }
//      ^ definition local 1
//        kind Variable
//        display_name s
//        signature_documentation
//        > var s *Struct
//         ^^^^^^ reference 0.1.test `sg/initial`/Struct#
//                 ^^^^^^^^^^^^^^^^^^^ definition 0.1.test `sg/initial`/Struct#ImplementsInterface().
//                                     kind Method
//                                     display_name ImplementsInterface
//                                     signature_documentation
//                                     > func (*Struct).ImplementsInterface() string
//                                     relationship 0.1.test `sg/initial`/Interface#ImplementsInterface. implementation
//                                                             ⌃ enclosing_range_end 0.1.test `sg/initial`/Struct#ImplementsInterface().
  
//⌄ enclosing_range_start 0.1.test `sg/initial`/Struct#MachineLearning().
  func (s *Struct) MachineLearning(
//      ^ definition local 2
//        kind Variable
//        display_name s
//        signature_documentation
//        > var s *Struct
//         ^^^^^^ reference 0.1.test `sg/initial`/Struct#
//                 ^^^^^^^^^^^^^^^ definition 0.1.test `sg/initial`/Struct#MachineLearning().
//                                 kind Method
//                                 display_name MachineLearning
//                                 signature_documentation
//                                 > func (*Struct).MachineLearning(param1 float32, hyperparam2 float32, hyperparam3 float32) float32
   param1 float32, // It's ML, I can't describe what this param is.
// ^^^^^^ definition local 3
//        kind Variable
//        display_name param1
//        signature_documentation
//        > var param1 float32
  
   // We call the below hyperparameters because, uhh, well:
   //
   //    ,-.       _,---._ __  / \
   //   /  )    .-'       `./ /   \
   //   (  (   ,'            `/    /|
   //    \  `-""             \'\   / |
   //     `.              ,  \ \ /  |
   //   /`.          ,'-`----Y   |
   //     (            ;        |   '
   //     |  ,-.    ,-'         |  /
   //     |  | (   |        hjw | /
   //     )  |  \  `.___________|/
   //     `--'   `--'
   //
   hyperparam2 float32,
// ^^^^^^^^^^^ definition local 4
//             kind Variable
//             display_name hyperparam2
//             signature_documentation
//             > var hyperparam2 float32
   hyperparam3 float32,
// ^^^^^^^^^^^ definition local 5
//             kind Variable
//             display_name hyperparam3
//             signature_documentation
//             > var hyperparam3 float32
  ) float32 {
   // varShouldNotHaveDocs is in a function, should not have docs emitted.
   var varShouldNotHaveDocs int32
//     ^^^^^^^^^^^^^^^^^^^^ definition local 6
//                          kind Variable
//                          display_name varShouldNotHaveDocs
//                          signature_documentation
//                          > var varShouldNotHaveDocs int32
  
   // constShouldNotHaveDocs is in a function, should not have docs emitted.
   const constShouldNotHaveDocs = 5
//       ^^^^^^^^^^^^^^^^^^^^^^ definition local 7
//                              kind Constant
//                              display_name constShouldNotHaveDocs
//                              signature_documentation
//                              > const constShouldNotHaveDocs untyped int
  
   // typeShouldNotHaveDocs is in a function, should not have docs emitted.
   type typeShouldNotHaveDocs struct{ a string }
//      ^^^^^^^^^^^^^^^^^^^^^ definition local 8
//                            kind Struct
//                            display_name typeShouldNotHaveDocs
//                            signature_documentation
//                            > type typeShouldNotHaveDocs struct{a string}
//                                    ^ definition local 9
//                                      kind Field
//                                      display_name a
//                                      signature_documentation
//                                      > field a string
  
   // funcShouldNotHaveDocs is in a function, should not have docs emitted.
   funcShouldNotHaveDocs := func(a string) string { return ""hello"" }
// ^^^^^^^^^^^^^^^^^^^^^ definition local 10
//                       kind Variable
//                       display_name funcShouldNotHaveDocs
//                       signature_documentation
//                       > var funcShouldNotHaveDocs func(a string) string
//                               ^ definition local 11
//                                 kind Variable
//                                 display_name a
//                                 signature_documentation
//                                 > var a string
  
   return param1 + (hyperparam2 * *hyperparam3) // lol is this all ML is? I'm gonna be rich
//        ^^^^^^ reference local 3
//                  ^^^^^^^^^^^ reference local 4
//                                 ^^^^^^^^^^^ reference local 5
  }
//⌃ enclosing_range_end 0.1.test `sg/initial`/Struct#MachineLearning().
  
  // Interface has docs too
  type Interface interface {
//     ^^^^^^^^^ definition 0.1.test `sg/initial`/Interface#
//               kind Interface
//               display_name Interface
//               signature_documentation
//               > type Interface interface{ ImplementsInterface() string }
//               documentation
//               > Interface has docs too
   ImplementsInterface() string
// ^^^^^^^^^^^^^^^^^^^ definition 0.1.test `sg/initial`/Interface#ImplementsInterface.
//                     kind MethodSpecification
//                     display_name ImplementsInterface
//                     signature_documentation
//                     > func (Interface).ImplementsInterface() string
  }
  
//⌄ enclosing_range_start 0.1.test `sg/initial`/NewInterface().
  func NewInterface() Interface { return nil }
//     ^^^^^^^^^^^^ definition 0.1.test `sg/initial`/NewInterface().
//                  kind Function
//                  display_name NewInterface
//                  signature_documentation
//                  > func NewInterface() Interface
//                    ^^^^^^^^^ reference 0.1.test `sg/initial`/Interface#
//                                           ⌃ enclosing_range_end 0.1.test `sg/initial`/NewInterface().
  
  var SortExportedFirst = 1
//    ^^^^^^^^^^^^^^^^^ definition 0.1.test `sg/initial`/SortExportedFirst.
//                      kind Variable
//                      display_name SortExportedFirst
//                      signature_documentation
//                      > var SortExportedFirst int
  
  var sortUnexportedSecond = 2
//    ^^^^^^^^^^^^^^^^^^^^ definition 0.1.test `sg/initial`/sortUnexportedSecond.
//                         kind Variable
//                         display_name sortUnexportedSecond
//                         signature_documentation
//                         > var sortUnexportedSecond int
  
  var _sortUnderscoreLast = 3
//    ^^^^^^^^^^^^^^^^^^^ definition 0.1.test `sg/initial`/_sortUnderscoreLast.
//                        kind Variable
//                        display_name _sortUnderscoreLast
//                        signature_documentation
//                        > var _sortUnderscoreLast int
  
  // Yeah this is some Go magic incantation which is common.
  //
  //  ,_     _
  //  |\\_,-~/
  //  / _  _ |    ,--.
  // (  @  @ )   / ,-'
  //  \  _T_/-._( (
  // /         `. \
  // |         _  \ |
  // \ \ ,  /      |
  //  || |-_\__   /
  // ((_/`(____,-'
  var _ = Interface(&Struct{})
//        ^^^^^^^^^ reference 0.1.test `sg/initial`/Interface#
//                   ^^^^^^ reference 0.1.test `sg/initial`/Struct#
  
  type _ = struct{}
  
  // crypto/tls/common_string.go uses this pattern..
  func _() {
  }
  
  // Go can be fun
  type (
   // And confusing
   X struct {
// ^ definition 0.1.test `sg/initial`/X#
//   kind Struct
//   display_name X
//   signature_documentation
//   > type X struct{ bar string }
//   documentation
//   > And confusing
//   documentation
//   > Go can be fun
    bar string
//  ^^^ definition 0.1.test `sg/initial`/X#bar.
//      kind Field
//      display_name bar
//      signature_documentation
//      > struct field bar string
   }
  
   Y struct {
// ^ definition 0.1.test `sg/initial`/Y#
//   kind Struct
//   display_name Y
//   signature_documentation
//   > type Y struct{ baz float64 }
//   documentation
//   > Go can be fun
    baz float64
//  ^^^ definition 0.1.test `sg/initial`/Y#baz.
//      kind Field
//      display_name baz
//      signature_documentation
//      > struct field baz float64
   }
  )
  
");
  ("func_declarations.go", "  package initial
//        ^^^^^^^ definition 0.1.test `sg/initial`/
  
//⌄ enclosing_range_start 0.1.test `sg/initial`/UsesLater().
  func UsesLater() {
//     ^^^^^^^^^ definition 0.1.test `sg/initial`/UsesLater().
//               kind Function
//               display_name UsesLater
//               signature_documentation
//               > func UsesLater()
   DefinedLater()
// ^^^^^^^^^^^^ reference 0.1.test `sg/initial`/DefinedLater().
  }
//⌃ enclosing_range_end 0.1.test `sg/initial`/UsesLater().
  
//⌄ enclosing_range_start 0.1.test `sg/initial`/DefinedLater().
  func DefinedLater() {}
//     ^^^^^^^^^^^^ definition 0.1.test `sg/initial`/DefinedLater().
//                  kind Function
//                  display_name DefinedLater
//                  signature_documentation
//                  > func DefinedLater()
//                     ⌃ enclosing_range_end 0.1.test `sg/initial`/DefinedLater().
  
");
  ("methods_and_receivers.go", "  package initial
//        ^^^^^^^ definition 0.1.test `sg/initial`/
  
  import ""fmt""
//        ^^^ reference github.com/golang/go/src go1.22 fmt/
  
  type MyStruct struct{ f, y int }
//     ^^^^^^^^ definition 0.1.test `sg/initial`/MyStruct#
//              kind Struct
//              display_name MyStruct
//              signature_documentation
//              > type MyStruct struct {
//              >     f int
//              >     y int
//              > }
//                      ^ definition 0.1.test `sg/initial`/MyStruct#f.
//                        kind Field
//                        display_name f
//                        signature_documentation
//                        > struct field f int
//                         ^ definition 0.1.test `sg/initial`/MyStruct#y.
//                           kind Field
//                           display_name y
//                           signature_documentation
//                           > struct field y int
  
//⌄ enclosing_range_start 0.1.test `sg/initial`/MyStruct#RecvFunction().
  func (m MyStruct) RecvFunction(b int) int { return m.f + b }
//      ^ definition local 0
//        kind Variable
//        display_name m
//        signature_documentation
//        > var m MyStruct
//        ^^^^^^^^ reference 0.1.test `sg/initial`/MyStruct#
//                  ^^^^^^^^^^^^ definition 0.1.test `sg/initial`/MyStruct#RecvFunction().
//                               kind Method
//                               display_name RecvFunction
//                               signature_documentation
//                               > func (MyStruct).RecvFunction(b int) int
//                               ^ definition local 1
//                                 kind Variable
//                                 display_name b
//                                 signature_documentation
//                                 > var b int
//                                                   ^ reference local 0
//                                                     ^ reference 0.1.test `sg/initial`/MyStruct#f.
//                                                         ^ reference local 1
//                                                           ⌃ enclosing_range_end 0.1.test `sg/initial`/MyStruct#RecvFunction().
  
//⌄ enclosing_range_start 0.1.test `sg/initial`/SomethingElse().
  func SomethingElse() {
//     ^^^^^^^^^^^^^ definition 0.1.test `sg/initial`/SomethingElse().
//                   kind Function
//                   display_name SomethingElse
//                   signature_documentation
//                   > func SomethingElse()
   s := MyStruct{f: 0}
// ^ definition local 2
//   kind Variable
//   display_name s
//   signature_documentation
//   > var s MyStruct
//      ^^^^^^^^ reference 0.1.test `sg/initial`/MyStruct#
//               ^ reference 0.1.test `sg/initial`/MyStruct#f.
   fmt.Println(s)
// ^^^ reference github.com/golang/go/src go1.22 fmt/
//     ^^^^^^^ reference github.com/golang/go/src go1.22 fmt/Println().
//             ^ reference local 2
  }
//⌃ enclosing_range_end 0.1.test `sg/initial`/SomethingElse().
  
");
  ("package_definition.go", "  // This is a module for testing purposes.
  // This should now be the place that has a definition
  package initial
//        ^^^^^^^ definition 0.1.test `sg/initial`/
  
");
  ("rangefunc.go", "  package initial
//        ^^^^^^^ definition 0.1.test `sg/initial`/
  
  import (
   ""slices""
//  ^^^^^^ reference github.com/golang/go/src go1.22 slices/
  )
  
//⌄ enclosing_range_start 0.1.test `sg/initial`/f().
  func f(xs []int) int {
//     ^ definition 0.1.test `sg/initial`/f().
//       kind Function
//       display_name f
//       signature_documentation
//       > func f(xs []int) int
//       ^^ definition local 0
//          kind Variable
//          display_name xs
//          signature_documentation
//          > var xs []int
   for _, x := range slices.All(xs) {
//        ^ definition local 1
//          kind Variable
//          display_name x
//          signature_documentation
//          > var x int
//                   ^^^^^^ reference github.com/golang/go/src go1.22 slices/
//                          ^^^ reference github.com/golang/go/src go1.22 slices/All().
//                              ^^ reference local 0
    return x
//         ^ reference local 1
   }
   return -1
  }
//⌃ enclosing_range_end 0.1.test `sg/initial`/f().
  
");
  ("toplevel_decls.go", "  package initial
//        ^^^^^^^ definition 0.1.test `sg/initial`/
  
  const MY_THING = 10
//      ^^^^^^^^ definition 0.1.test `sg/initial`/MY_THING.
//               kind Constant
//               display_name MY_THING
//               signature_documentation
//               > const MY_THING untyped int = 10
  const OTHER_THING = MY_THING
//      ^^^^^^^^^^^ definition 0.1.test `sg/initial`/OTHER_THING.
//                  kind Constant
//                  display_name OTHER_THING
//                  signature_documentation
//                  > const OTHER_THING untyped int = 10
//                    ^^^^^^^^ reference 0.1.test `sg/initial`/MY_THING.
  
//⌄ enclosing_range_start 0.1.test `sg/initial`/usesMyThing().
  func usesMyThing() {
//     ^^^^^^^^^^^ definition 0.1.test `sg/initial`/usesMyThing().
//                 kind Function
//                 display_name usesMyThing
//                 signature_documentation
//                 > func usesMyThing()
   _ = MY_THING
//     ^^^^^^^^ reference 0.1.test `sg/initial`/MY_THING.
  }
//⌃ enclosing_range_end 0.1.test `sg/initial`/usesMyThing().
  
  var initFunctions = map[string]int{}
//    ^^^^^^^^^^^^^ definition 0.1.test `sg/initial`/initFunctions.
//                  kind Variable
//                  display_name initFunctions
//                  signature_documentation
//                  > var initFunctions map[string]int
  
");
  ("type_declarations.go", "  package initial
//        ^^^^^^^ definition 0.1.test `sg/initial`/
  
  type LiteralType int
//     ^^^^^^^^^^^ definition 0.1.test `sg/initial`/LiteralType#
//                 kind Type
//                 display_name LiteralType
//                 signature_documentation
//                 > type LiteralType int
  
  type FuncType func(LiteralType, int) bool
//     ^^^^^^^^ definition 0.1.test `sg/initial`/FuncType#
//              kind Type
//              display_name FuncType
//              signature_documentation
//              > type FuncType func(LiteralType, int) bool
//                   ^^^^^^^^^^^ reference 0.1.test `sg/initial`/LiteralType#
  
  type IfaceType interface {
//     ^^^^^^^^^ definition 0.1.test `sg/initial`/IfaceType#
//               kind Interface
//               display_name IfaceType
//               signature_documentation
//               > type IfaceType interface{ Method() LiteralType }
   Method() LiteralType
// ^^^^^^ definition 0.1.test `sg/initial`/IfaceType#Method.
//        kind MethodSpecification
//        display_name Method
//        signature_documentation
//        > func (IfaceType).Method() LiteralType
//          ^^^^^^^^^^^ reference 0.1.test `sg/initial`/LiteralType#
  }
  
  type StructType struct {
//     ^^^^^^^^^^ definition 0.1.test `sg/initial`/StructType#
//                kind Struct
//                display_name StructType
//                signature_documentation
//                > type StructType struct {
//                >     m    IfaceType
//                >     f    LiteralType
//                >     anon struct{ sub int }
//                >     i    interface{ AnonMethod() bool }
//                > }
   m IfaceType
// ^ definition 0.1.test `sg/initial`/StructType#m.
//   kind Field
//   display_name m
//   signature_documentation
//   > struct field m IfaceType
//   ^^^^^^^^^ reference 0.1.test `sg/initial`/IfaceType#
   f LiteralType
// ^ definition 0.1.test `sg/initial`/StructType#f.
//   kind Field
//   display_name f
//   signature_documentation
//   > struct field f LiteralType
//   ^^^^^^^^^^^ reference 0.1.test `sg/initial`/LiteralType#
  
   // anonymous struct
   anon struct {
// ^^^^ definition 0.1.test `sg/initial`/StructType#anon.
//      kind Field
//      display_name anon
//      signature_documentation
//      > struct field anon struct{sub int}
//      documentation
//      > anonymous struct
    sub int
//  ^^^ definition 0.1.test `sg/initial`/StructType#$anon_0ba9ace1dcfd6761#sub.
//      kind Field
//      display_name sub
//      signature_documentation
//      > struct field sub int
   }
  
   // interface within struct
   i interface {
// ^ definition 0.1.test `sg/initial`/StructType#i.
//   kind Field
//   display_name i
//   signature_documentation
//   > struct field i interface{AnonMethod() bool}
//   documentation
//   > interface within struct
    AnonMethod() bool
//  ^^^^^^^^^^ definition 0.1.test `sg/initial`/StructType#$anon_97e7de633e3ef8e8#AnonMethod.
//             kind MethodSpecification
//             display_name AnonMethod
//             signature_documentation
//             > func (interface).AnonMethod() bool
   }
  }
  
  type DeclaredBefore struct{ DeclaredAfter }
//     ^^^^^^^^^^^^^^ definition 0.1.test `sg/initial`/DeclaredBefore#
//                    kind Struct
//                    display_name DeclaredBefore
//                    signature_documentation
//                    > type DeclaredBefore struct{ DeclaredAfter }
//                            ^^^^^^^^^^^^^ definition 0.1.test `sg/initial`/DeclaredBefore#DeclaredAfter.
//                                          kind Field
//                                          display_name DeclaredAfter
//                                          signature_documentation
//                                          > struct field DeclaredAfter DeclaredAfter
//                            ^^^^^^^^^^^^^ reference 0.1.test `sg/initial`/DeclaredAfter#
  type DeclaredAfter struct{}
//     ^^^^^^^^^^^^^ definition 0.1.test `sg/initial`/DeclaredAfter#
//                   kind Struct
//                   display_name DeclaredAfter
//                   signature_documentation
//                   > type DeclaredAfter struct{}
  
");
  ("type_hovers.go", "  package initial
//        ^^^^^^^ definition 0.1.test `sg/initial`/
  
  type (
   // HoverTypeList is a cool struct
   HoverTypeList struct{}
// ^^^^^^^^^^^^^ definition 0.1.test `sg/initial`/HoverTypeList#
//               kind Struct
//               display_name HoverTypeList
//               signature_documentation
//               > type HoverTypeList struct{}
//               documentation
//               > HoverTypeList is a cool struct
  )
  
  // This should show up as well
  type HoverType struct{}
//     ^^^^^^^^^ definition 0.1.test `sg/initial`/HoverType#
//               kind Struct
//               display_name HoverType
//               signature_documentation
//               > type HoverType struct{}
//               documentation
//               > This should show up as well
  
")].

(** The model, run on the input directory, gives the golden files of /repo. *)
Example snapshot_initial : snapshot input = Some golden.
Proof. vm_compute. reflexivity. Qed.
(** The directory meets the hypotheses of the theorems (Contract.scopes_contract_ok). *)
Example snapshot_initial_contract : contract input = true ∧ scopesb input = true.
Proof. split; vm_compute; reflexivity. Qed.
